(** The shipped metadata meets the conditions of NatRun. *)
From Verif Require Import Base Types Container Shipped AytfSpec RuleSpec ShowFacts NatSpec NatFacts NatRun.
(** Without the national prefix these six entries have rules that cannot be told apart digit by digit or fit numbers of three digits. *)
Definition bare_exceptions : list bytes := [bs "AR"; bs "BR"; bs "CN"; bs "ID"; bs "JP"; bs "NC"].
Lemma shipped_nat_clear : forallb (fun rm => nat_clear true (snd rm) && (mem_bytes (fst rm) bare_exceptions || nat_clear false (snd rm))) (c_region shipped) = true.
Proof. vm_cast_no_check (eq_refl true). Qed.
