(** The extension of a number as written in a text. *)
From Coq Require Import List NArith.
From Verif Require Import Base Utf8 NormalizeSpec ParseSpec ViableSpec.
Import ListNotations.
Local Open Scope N_scope.

(** The digits written after the main part (see ViableSpec), as they are written. *)
Definition extension_digits (s m : bytes) : bytes := encode_runes (filter decimal (runes (skipn (length m) s))).
(** A text that starts with a plus sign or a digit and ends in a digit, a letter or a hash sign, without slashes and without the
    parameters phone-context and isub of telephone URIs. *)
Definition tidy (s : bytes) : Prop :=
  (exists c t, decode_rune s = Some (c, t) /\ (c = 43 \/ c = 65291 \/ decimal c = true)) /\
  (exists u z, runes s = u ++ [z] /\ (decimal z = true \/ ascii_letter z = true \/ z = 35)) /\
  ~ In 47 (runes s) /\ ~ In 92 (runes s) /\
  (forall u v, s <> u ++ bs ";phone-context=" ++ v) /\ (forall u v, s <> u ++ bs ";isub=" ++ v).
