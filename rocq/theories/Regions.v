(** Model of the functions that list what the library supports. No proofs here. Go returns maps from each member to true; the model has the
    list of members. *)
From Verif Require Import Base Types.

(** phonenumberutil.go:704-706, metadata/source.go:184-185 *)
Definition GetSupportedRegions (C : container) : list bytes := c_regions C.
(** phonenumberutil.go:708-714, metadata/source.go:187-188 *)
Definition GetSupportedCallingCodes (C : container) : list Z := c_codes C.
(** phonenumberutil.go:716-719, metadata/source.go:190-194 *)
Definition GetSupportedGlobalNetworkCallingCodes (C : container) : list Z := c_nongeo_codes C.
