(** What a vanity number is and which digits it stands for. *)
From Coq Require Import List NArith ZArith Bool.
From Verif Require Import Base Utf8 UnicodeSpec NormalizeSpec Types ReadSpec.
Import ListNotations.
Local Open Scope N_scope.

(** The keys to press: a digit is its own key, a letter is on a key of the ITU keypad, everything else is not dialled. *)
Definition pressed (c : N) : bytes := if is_digit c then [c] else match key_of c with Some d => [d] | None => [] end.
Definition keys (s : bytes) : bytes := flat_map pressed (runes s).

(** A text of digits, letters A-Z and separators, with at least three digits before the first letter, at least three letters, and a
    digit or a letter at its end. If it ends with a digit, the letters X and I do not occur in it ("x12" and "int 12" are
    extensions). *)
Definition vanity (s : bytes) : Prop :=
  (forall c, In c (runes s) -> is_digit c = true \/ ascii_letter c = true \/ In c separators) /\
  (exists a b, runes s = a ++ b /\ (forall c, In c a -> ascii_letter c = false) /\ (3 <= length (filter is_digit a))%nat) /\
  (3 <= length (filter ascii_letter (runes s)))%nat /\
  (exists x z, s = x ++ [z] /\ (ascii_letter z = true \/ is_digit z = true /\ forall c, In c (runes s) -> ~ In c (bs "XxIi"))).
