(** What a string builder is supposed to do, on plain byte strings. *)
From Verif Require Import Base Utf8.
Local Open Scope Z_scope.

Inductive op :=
| OWrite (p : bytes) | OWriteByte (c : N) | OWriteRune (r : N) | OInsert (i : Z) (p : bytes)
| OReset | OResetWith (p : bytes) | OSetLength (n : Z) | ODelete (i j : Z).

Definition size (s : bytes) : Z := Z.of_nat (length s).
Definition take (i : Z) (s : bytes) : bytes := firstn (Z.to_nat i) s.
Definition drop (i : Z) (s : bytes) : bytes := skipn (Z.to_nat i) s.

(** [s] becomes [s'] by the operation. Deleting needs a range inside the buffer, setting the length a length that is not negative. *)
Inductive does : bytes -> op -> bytes -> Prop :=
| does_write s p : does s (OWrite p) (s ++ p)
| does_byte s c : does s (OWriteByte c) (s ++ [c])
| does_rune s r : does s (OWriteRune r) (s ++ encode_rune r)
| does_insert s i p : 0 <= i <= size s -> does s (OInsert i p) (take i s ++ p ++ drop i s)
| does_insert_out s i p : ~ 0 <= i <= size s -> does s (OInsert i p) s
| does_reset s : does s OReset []
| does_reset_with s p : does s (OResetWith p) p
| does_truncate s n : 0 <= n <= size s -> does s (OSetLength n) (take n s)
| does_pad s n : size s < n -> does s (OSetLength n) (s ++ repeat 0%N (Z.to_nat (n - size s)))
| does_delete s i j : 0 <= i <= j -> j <= size s -> does s (ODelete i j) (take i s ++ drop j s).

Inductive history : bytes -> list op -> bytes -> Prop :=
| history_nil s : history s [] s
| history_cons s o s' l s'' : does s o s' -> history s' l s'' -> history s (o :: l) s''.
