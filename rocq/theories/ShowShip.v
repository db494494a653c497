(** The shipped metadata meets the conditions of ShowFacts. *)
From Verif Require Import Base Types Container Shipped AytfSpec RuleSpec ShowFacts.
Lemma shipped_clear : forallb meta_clear (map snd (c_region shipped) ++ map snd (c_nongeo shipped)) = true.
Proof. vm_cast_no_check (eq_refl true). Qed.
