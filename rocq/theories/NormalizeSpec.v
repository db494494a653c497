(** What the normalisation functions are supposed to do, written without looking at the library's tables. *)
From Coq Require Import List NArith ZArith Bool.
From Verif Require Import Base Utf8 UnicodeSpec.
Import ListNotations.
Local Open Scope N_scope.

(** The ASCII digit for a Unicode decimal digit (character database, one entry per code point); None for any other code point. *)
Definition digit_for (c : N) : option N :=
  match assoc N.eqb c decimal_values with Some v => Some (48 + v) | None => None end.

(** Keep the decimal digits only. *)
Definition digits_of (runes : list N) : bytes :=
  flat_map (fun c => match digit_for c with Some d => [d] | None => [] end) runes.

(** The characters a keypad can dial: 0-9 + * # *)
Definition diallable (c : N) : bool := existsb (N.eqb c) (bs "0123456789+*#").

(** The ITU E.161 keypad: which letters sit on which key. *)
Definition keypad : list (N * list N) :=
  [ (50, bs "ABCabc"); (51, bs "DEFdef"); (52, bs "GHIghi"); (53, bs "JKLjkl");
    (54, bs "MNOmno"); (55, bs "PQRSpqrs"); (56, bs "TUVtuv"); (57, bs "WXYZwxyz") ].
Definition key_of (c : N) : option N :=
  match find (fun k => existsb (N.eqb c) (snd k)) keypad with Some (d, _) => Some d | None => None end.
Definition ascii_letter (c : N) : bool := in_rng 65 90 c || in_rng 97 122 c.

(** Two further code points have an ASCII upper case in Unicode and are therefore treated like that letter by the library:
    dotless i (U+0131, like I) and long s (U+017F, like S). *)
Definition key_of_rune (c : N) : option N :=
  if c =? 305 then Some 52 else if c =? 383 then Some 55 else key_of c.
