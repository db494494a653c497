(** What it means for metadata to be well formed. Theorems about arbitrary metadata have these predicates as hypotheses;
    MetaFacts.v shows by computation over every entry that the shipped metadata satisfies them. *)
From Verif Require Import Base Utf8 Regex Consts Types Validate.
From Coq Require Import Sorting.Sorted.

(** The descriptors consulted when typing a number, and the one for numbers not diallable from abroad. *)
Definition typed_descs (m : meta) : list (option desc) :=
  [md_general m; md_fixed m; md_mobile m; md_tollfree m; md_premium m; md_shared m; md_personal m; md_voip m; md_pager m;
   md_uan m; md_voicemail m; md_noint m].

(** A pattern that Go's regexp.MustCompile accepts. *)
Definition compiles (p : bytes) : Prop := exists x, compile p = Some x.

(** A descriptor is present, its pattern compiles, its length lists are increasing, and -1 ("no numbers of this type") occurs
    only alone. *)
Definition wf_desc (d : option desc) : Prop := exists x, d = Some x /\ compiles (anchored (get_d_pattern d)) /\
  StronglySorted Z.lt (d_len x) /\ StronglySorted Z.lt (d_local x) /\
  (d_len x = [(-1)%Z] \/ Forall (fun l => (0 < l)%Z) (d_len x)) /\ Forall (fun l => (0 < l)%Z) (d_local x).

Definition wf_format (f : nfmt) : Prop :=
  compiles (get_pattern f) /\ compiles (anchored (get_pattern f)) /\ Forall compiles (nf_leading f).

(** Every descriptor is well formed, the general one has lengths, and all other patterns compile. *)
Record wf_meta (m : meta) : Prop := {
  wf_descs : Forall wf_desc (typed_descs m);
  wf_general : exists d, md_general m = Some d /\ d_len d <> [] /\ d_len d <> [(-1)%Z] /\ get_d_pattern (Some d) <> [];
  wf_leading : compiles (anchored_left (get_bytes (md_leading m)));
  wf_iprefix : compiles (get_bytes (md_iprefix m));
  wf_np_parse : compiles (anchored_left (get_bytes (md_np_parse m)));
  wf_formats : Forall wf_format (md_nf m) /\ Forall wf_format (md_inf m)
}.

(** Region lists and metadata tables fit together. *)
Definition region_ok (C : container) (cc : Z) (r : bytes) : Prop :=
  if beq r nonGeoEntity then exists m, assocz cc (c_nongeo C) = Some m
  else In r (c_regions C) /\ exists m, assocb r (c_region C) = Some m /\ md_cc m = Some cc.

Record wf_container (C : container) : Prop := {
  wf_region : forall r m, In (r, m) (c_region C) -> wf_meta m;
  wf_nongeo : forall cc m, In (cc, m) (c_nongeo C) -> wf_meta m;
  wf_supported : forall r, In r (c_regions C) -> r <> [] /\ r <> nonGeoEntity /\ exists m, assocb r (c_region C) = Some m;
  wf_cc : forall cc l, In (cc, l) (c_cc2region C) -> (0 < cc < 1000)%Z /\ l <> [] /\ NoDup l /\ (In nonGeoEntity l -> l = [nonGeoEntity])
          /\ forall r, In r l -> region_ok C cc r
}.

(** Lengths a descriptor stands for: its own, or the general ones when it has none of its own. [-1] means none at all. *)
Definition lengths_of (m : meta) (d : desc) : list Z :=
  match d_len d with [] => match md_general m with Some g => d_len g | None => [] end | l => l end.
Definition has_numbers (d : desc) : Prop := d_len d <> [(-1)%Z].

(** The metadata of a number's calling code, as used for possible lengths: that of the code's first (main) region. *)
Definition main_meta (C : container) (cc : Z) : option meta :=
  getMetadataForRegionOrCallingCode C cc (GetRegionCodeForCountryCode C cc).
