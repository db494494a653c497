(** The layout of the prefix tables, independent of the loaders. *)
From Verif Require Import Base Serialize.

(** Digits to the base 128, the least first, the last of them z. *)
Definition base128 (ds : list N) (z : N) : N := fold_right (fun d v => d + 128 * v) z ds.
(** A variable-length number: bytes with the high bit set for all digits but the last; at most ten bytes and less than 2^64. *)
Definition varint (s : bytes) (v : N) (rest : bytes) : Prop := exists ds z, s = map (N.add 128) ds ++ z :: rest /\ Forall (fun d => d < 128) ds /\ z < 128 /\
  (length ds <= 9)%nat /\ v = base128 ds z /\ v < 2 ^ 64.
(** Texts with a newline between them. *)
Inductive joined : list bytes -> bytes -> Prop :=
| joined_one v : ~ In 10 v -> joined [v] v
| joined_more v l s : ~ In 10 v -> joined l s -> joined (v :: l) (v ++ 10 :: s).
(** Four bytes, the least significant first. *)
Definition u32 (s : bytes) (v : N) (rest : bytes) : Prop := exists a b c d, s = [a; b; c; d] ++ rest /\ v = a + 2 ^ 8 * b + 2 ^ 16 * c + 2 ^ 24 * d.
Definition heading (s : bytes) (values : list bytes) (count : N) (rest : bytes) : Prop := exists size s1 text s2, u32 s size s1 /\ s1 = text ++ s2 /\ N.of_nat (length text) = size /\ joined values text /\ u32 s2 count rest.
(** The 64-bit signed integer for z. *)
Definition wraps (z w : Z) : Prop := (- 2 ^ 63 <= w < 2 ^ 63)%Z /\ exists k, (z = w + k * 2 ^ 64)%Z.
(** The entries in the order of the file: the key is given by its distance from the one before, the text by its place among the values. *)
Inductive entries (values : list bytes) : nat -> Z -> bytes -> list (Z * bytes) -> Prop :=
| entries_none p s : entries values 0 p s []
| entries_more n p s d q a b v rest l : varint s d (a :: b :: rest) -> wraps (p + Z.of_N d) q -> nth_error values (N.to_nat (a + 2 ^ 8 * b)) = Some v -> entries values n q rest l ->
    entries values (S n) p s ((q, v) :: l).
(** Several texts per key: a byte says how many. *)
Inductive texts (values : list bytes) : nat -> bytes -> list bytes -> bytes -> Prop :=
| texts_none s : texts values 0 s [] s
| texts_more n a b v rest l s' : nth_error values (N.to_nat (a + 2 ^ 8 * b)) = Some v -> texts values n rest l s' -> texts values (S n) (a :: b :: rest) (v :: l) s'.
Inductive arrays (values : list bytes) : nat -> Z -> bytes -> list (Z * list bytes) -> Prop :=
| arrays_none p s : arrays values 0 p s []
| arrays_more n p s d q c s1 vs s2 l : varint s d (c :: s1) -> wraps (p + Z.of_N d) q -> texts values (N.to_nat c) s1 vs s2 -> arrays values n q s2 l -> arrays values (S n) p s ((q, vs) :: l).
(** The table of these entries: of equal keys the later one counts; the length is that of the longest key. *)
Definition tabled {V} (dc : Z -> Z) (l : list (Z * V)) (t : table V) : Prop := t_map t = rev l /\ t_max t = fold_left (fun m e => Z.max m (dc (fst e))) l 0%Z.
