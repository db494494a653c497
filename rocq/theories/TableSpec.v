(** Vocabulary for statements about prefix tables and their files. *)
From Coq Require Import List NArith ZArith Bool Permutation.
From Verif Require Import Base.
Import ListNotations.
Local Open Scope N_scope.

(** A Go map[int]V given by its entries: distinct 64-bit keys. *)
Definition go_map {V} (m : list (Z * V)) : Prop :=
  NoDup (map fst m) /\ forall k v, In (k, v) m -> (-9223372036854775808 <= k < 9223372036854775808)%Z.

(** A function is the lookup function of a map given by its entries. *)
Definition represents {V} (f : Z -> option V) (m : list (Z * V)) : Prop :=
  forall k v, f k = Some v <-> In (k, v) m.

(** All strings a map mentions are in the list [l]. *)
Definition strings_in (l : list bytes) (m : list (Z * list bytes)) : Prop :=
  forall k vs v, In (k, vs) m -> In v vs -> In v l.

(** The limits of the file format: number of entries, number and total size of the strings (with a separator each), and no
    line feed inside a string. *)
Record within_limits (strings : list bytes) (entries : nat) : Prop := {
  wl_entries : N.of_nat entries < 2 ^ 32;
  wl_strings : N.of_nat (length strings) <= 65536;
  wl_size : N.of_nat (length (concat strings) + length strings) <= 2 ^ 32;
  wl_lines : forall v, In v strings -> ~ In 10 v
}.

(** [d] is a textual prefix of [s]. *)
Definition starts (d s : bytes) : Prop := exists t, s = d ++ t.

(** [k] is the longest key of [m] that is, in decimal, a prefix of the digits [s]; among the keys satisfying [ok]. *)
Definition longest_key {V} (m : list (Z * V)) (ok : Z -> Prop) (s : bytes) (k : Z) : Prop :=
  In k (map fst m) /\ ok k /\ starts (itoa k) s
  /\ forall k', In k' (map fst m) -> ok k' -> starts (itoa k') s -> (length (itoa k') <= length (itoa k))%nat.

(** Number of decimal digits of a non-negative integer. *)
Definition digits (k : Z) : Z := Z.of_nat (length (itoa k)).

(** A line "prefix|value" of a source file, with exactly one bar: it says that [k] maps to [v]. strconv.Atoi reads the prefix. *)
Definition says (line : bytes) (k : Z) (v : bytes) : Prop :=
  exists p, line = p ++ 124 :: v /\ ~ In 124 p /\ ~ In 124 v /\ atoi p = Some k.
(** The lines of a file. *)
Definition lines (s : bytes) : list bytes := split_byte s 10.
(** The last line about [k] says [v]. *)
Definition last_says (l : list bytes) (k : Z) (v : bytes) : Prop :=
  exists l1 line l2, l = l1 ++ line :: l2 /\ says line k v /\ forall line' v', In line' l2 -> ~ says line' k v'.
