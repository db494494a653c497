(** The short-number table the library builds at start-up (shortnumberinfo.go:25-75) from the embedded data of ShortData.v. *)
From Verif Require Import Base Types Consts ShortData ShortNumber.
Definition shipped_short : list (bytes * meta) := map (fun m => (get_bytes (md_id m), m)) short_collection.
Lemma shipped_short_loaded : loadShortNumberMetadata short_collection = Ret shipped_short.
Proof. vm_cast_no_check (eq_refl (Ret shipped_short)). Qed.
