(** Model of /repo/internal/stringbuilder/stringbuilder.go: a byte buffer over a Go slice with a capacity. *)
From Verif Require Import Base Utf8.
Local Open Scope nat_scope.

(** stringbuilder.go:23-25: the slice header is its length and the array behind it, whose length is the capacity. Sharing of the array with the slice given to New or returned by Bytes is not modelled. *)
Record builder := mkB { b_len : nat; b_arr : bytes }.
Definition cap (b : builder) : nat := length (b_arr b).
(** The contents. *)
Definition contents (b : builder) : bytes := firstn (b_len b) (b_arr b).
(** The number of spare bytes after the runtime grew a slice of capacity [c] to hold [n] bytes; the language leaves it open, so every operation takes it as a parameter. Spare bytes are zero. *)
Definition growth := nat -> nat -> nat.

(** The built-in append(buf[:k], p...). *)
Definition append_at (g : growth) (b : builder) (k : nat) (p : bytes) : builder :=
  let n := k + length p in
  if n <=? cap b then mkB n (firstn k (b_arr b) ++ p ++ skipn n (b_arr b))
  else mkB n (firstn k (b_arr b) ++ p ++ repeat 0%N (g (cap b) n)).

(** stringbuilder.go:28: the capacity of the argument beyond its length is [spare]. *)
Definition New (buf spare : bytes) : builder := mkB (length buf) (buf ++ spare).
(** stringbuilder.go:31 *)
Definition NewString (g : growth) (s : bytes) : builder := mkB (length s) (s ++ repeat 0%N (g 0 (length s))).
(** stringbuilder.go:34 *)
Definition Len (b : builder) : Z := Z.of_nat (b_len b).
(** stringbuilder.go:38 and 42-47; the nil receiver is not modelled. *)
Definition Bytes (b : builder) : bytes := contents b.
(** stringbuilder.go:51-54 *)
Definition Write (g : growth) (b : builder) (p : bytes) : builder * Z := (append_at g b (b_len b) p, Z.of_nat (length p)).
(** stringbuilder.go:57-60 *)
Definition WriteString := Write.
(** stringbuilder.go:64-67 *)
Definition WriteByte (g : growth) (b : builder) (c : N) : builder := append_at g b (b_len b) [c].
(** stringbuilder.go:71-75 *)
Definition WriteRune (g : growth) (b : builder) (r : N) : builder * Z :=
  let b' := append_at g b (b_len b) (encode_rune r) in (b', (Len b' - Len b)%Z).
(** stringbuilder.go:79-85; slices.Insert moves the tail when the capacity suffices and reallocates otherwise. [None] is ErrInvalidIndex. *)
Definition Insert (g : growth) (b : builder) (i : Z) (p : bytes) : builder * Z * bool :=
  if (i <? 0)%Z || (Z.of_nat (b_len b) <? i)%Z then (b, (-1)%Z, false)
  else let k := Z.to_nat i in
       let n := b_len b + length p in
       let new := firstn k (b_arr b) ++ p ++ firstn (b_len b - k) (skipn k (b_arr b)) in
       (if length p =? 0 then b
        else mkB n (new ++ if n <=? cap b then skipn n (b_arr b) else repeat 0%N (g (cap b) n)), Z.of_nat (length p), true).
(** stringbuilder.go:89-91 *)
Definition InsertString := Insert.
(** stringbuilder.go:94-99 *)
Definition ByteAt (b : builder) (i : Z) : option N :=
  if (i <? 0)%Z || (Z.of_nat (b_len b) <=? i)%Z then None else nth_error (b_arr b) (Z.to_nat i).
(** stringbuilder.go:102 *)
Definition Reset (b : builder) : builder := mkB 0 (b_arr b).
(** stringbuilder.go:105-108 and 111-114 *)
Definition ResetWith (g : growth) (b : builder) (p : bytes) : builder * Z := (append_at g b 0 p, Z.of_nat (length p)).
Definition ResetWithString := ResetWith.
(** stringbuilder.go:123: indexing panics at or beyond the length. *)
Definition CharAt (b : builder) (i : Z) : M N :=
  if (i <? 0)%Z || (Z.of_nat (b_len b) <=? i)%Z then Panic else or_panic (nth_error (b_arr b) (Z.to_nat i)).
(** stringbuilder.go:127-135: the loop appends one byte at a time. *)
Fixpoint pad (g : growth) (b : builder) (k : nat) : builder :=
  match k with O => b | S k' => pad g (append_at g b (b_len b) [0%N]) k' end.
Definition SetLength (g : growth) (b : builder) (n : Z) : M builder :=
  if (n <=? Z.of_nat (b_len b))%Z then (if (n <? 0)%Z then Panic else Ret (mkB (Z.to_nat n) (b_arr b)))
  else Ret (pad g b (Z.to_nat n - b_len b)).
(** stringbuilder.go:138-140. buf[:start] is allowed up to the capacity, buf[end:] up to the length. *)
Definition Delete (g : growth) (b : builder) (start stop : Z) : M builder :=
  if (start <? 0)%Z || (Z.of_nat (cap b) <? start)%Z || (stop <? 0)%Z || (Z.of_nat (b_len b) <? stop)%Z then Panic
  else Ret (append_at g b (Z.to_nat start) (firstn (b_len b - Z.to_nat stop) (skipn (Z.to_nat stop) (b_arr b)))).
(** stringbuilder.go:144-146. buf[start:end] is allowed up to the capacity. *)
Definition Substring (b : builder) (start stop : Z) : M bytes :=
  if (start <? 0)%Z || (stop <? start)%Z || (Z.of_nat (cap b) <? stop)%Z then Panic
  else Ret (firstn (Z.to_nat stop - Z.to_nat start) (skipn (Z.to_nat start) (b_arr b))).
(** stringbuilder.go:150-152 *)
Definition LastIndexOf (b : builder) (s : bytes) : Z :=
  match last_index_of (contents b) s with Some i => Z.of_nat i | None => (-1)%Z end.
