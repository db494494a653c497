(** Vocabulary for what formatting may do to a number. *)
From Verif Require Import Base.

(** [woven P w o]: the text o is the text w with characters satisfying P put in anywhere; nothing is lost or reordered. *)
Inductive woven (P : N -> bool) : bytes -> bytes -> Prop :=
  | W_nil : woven P [] []
  | W_keep c w o : woven P w o -> woven P (c :: w) (c :: o)
  | W_put c w o : P c = true -> woven P w o -> woven P w (c :: o).

(** Maximal stretches of characters satisfying P. *)
Inductive stretches (P : N -> bool) : bytes -> list bytes -> Prop :=
  | S_none s : forallb (fun c => negb (P c)) s = true -> stretches P s []
  | S_some a b c l : forallb (fun c => negb (P c)) a = true -> forallb P b = true -> b <> [] ->
      (c = [] \/ exists x t, c = x :: t /\ P x = false) -> stretches P c l -> stretches P (a ++ b ++ c) (b :: l).
