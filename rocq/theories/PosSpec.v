(** Small specification for the remembered position of the as-you-type formatter. *)
From Verif Require Import Base NormalizeSpec AsYouType AytfSpec.

(** How many characters were typed, since the formatter was new or cleared, up to and including the last one that was to be
    remembered (0 if there was none). *)
Definition mark_by (st : nat * nat) (k : key) : nat * nat :=
  match k with
  | Digit _ => (S (fst st), snd st)
  | DigitRemember _ => (S (fst st), S (fst st))
  | ClearKey => (0, 0)%nat
  end.
Definition marked (ks : list key) : nat := snd (fold_left mark_by ks (0, 0)%nat).

(** Typed text a keypad gives: ASCII digits, with an optional leading plus sign. *)
Definition keypad (l : list N) : bool := match l with c :: t => (is_digit c || (c =? 43)) && all_digits t | [] => true end.

(** The p characters [firstn p o] of the output [o] end with its k-th diallable character (p = 0 for k = 0), and are the first k typed ones
    when formatting is left out. *)
Definition just_after (o : list N) (ts : list N) (k p : nat) : Prop :=
  filter diallable (firstn p o) = firstn k ts /\ (k <= length ts)%nat /\
  (p = 0%nat /\ k = 0%nat \/ exists c, nth_error o (p - 1) = Some c /\ diallable c = true /\ (0 < p)%nat).
