(** Declarative meaning of the regular expressions, independent of the matcher: which stretches of text an expression can
    match, and with which captures. Used to state and prove what the matching functions of Regex.v return. *)
From Verif Require Import Base Utf8 Regex.

(** [derives r p s cs p' s' cs']: standing at byte offset [p] with [s] still to be read and captures [cs], the expression [r]
    can stop at offset [p'] with [s'] left and captures [cs']. One clause per construct; a repetition is a finite sequence of
    non-empty rounds. *)
Inductive derives : regex -> nat -> bytes -> caps -> nat -> bytes -> caps -> Prop :=
  | D_empty p s cs : derives REmpty p s cs p s cs
  | D_class k c p s t cs : decode_rune s = Some (c, t) -> cls_match k c = true ->
      derives (RClass k) p s cs (p + (len s - len t)) t cs
  | D_cat a b p s cs p1 s1 cs1 p2 s2 cs2 : derives a p s cs p1 s1 cs1 -> derives b p1 s1 cs1 p2 s2 cs2 ->
      derives (RCat a b) p s cs p2 s2 cs2
  | D_alt_l a b p s cs p' s' cs' : derives a p s cs p' s' cs' -> derives (RAlt a b) p s cs p' s' cs'
  | D_alt_r a b p s cs p' s' cs' : derives b p s cs p' s' cs' -> derives (RAlt a b) p s cs p' s' cs'
  | D_star_done g a p s cs : derives (RStar g a) p s cs p s cs
  | D_star_more g a p s cs p1 s1 cs1 p2 s2 cs2 : derives a p s cs p1 s1 cs1 -> (len s1 < len s)%nat ->
      derives (RStar g a) p1 s1 cs1 p2 s2 cs2 -> derives (RStar g a) p s cs p2 s2 cs2
  | D_group n a p s cs p' s' cs' : derives a p s cs p' s' cs' ->
      derives (RGroup n a) p s cs p' s' ((n, (p, p')) :: cs')
  | D_begin s cs : derives RBegin 0 s cs 0 s cs
  | D_end p cs : derives REnd p [] cs p [] cs.

(** [matches_at r s i j]: the expression can match exactly the bytes i..j of the text s. *)
Definition matches_at (r : regex) (s : bytes) (i j : nat) (cs : caps) : Prop :=
  (i <= j <= len s)%nat /\ derives r i (skipn i s) [] j (skipn j s) cs.

(** Rune boundaries of a text: the offsets at which a match may start. *)
Inductive boundary : bytes -> nat -> Prop :=
  | B_here s : boundary s 0
  | B_next s c t i : decode_rune s = Some (c, t) -> boundary t i -> boundary s ((len s - len t) + i).
