(** Base vocabulary of the model: Go strings as byte lists, an outcome monad with Go errors and panics, and the
    parts of Go's [strings], [strconv] and slicing that the repository uses. No proofs here. *)
From Coq Require Export List NArith ZArith Bool Lia.
From Coq Require Export (notations) String.
From Coq Require Import String Ascii.
Export ListNotations.
Open Scope list_scope.
Open Scope N_scope.

(** A Go string: a sequence of bytes. Nothing forces the elements below 256; no theorem needs it unless stated. *)
Definition bytes := list N.

(** Literals: [bs "tel:"] is the byte list of the (UTF-8 source) literal. *)
Fixpoint bs (s : string) : bytes :=
  match s with
  | EmptyString => []
  | String c t => N_of_ascii c :: bs t
  end.
Arguments bs s%string.

(** Error values of the library: errors.go and phonenumberutil.go:2715-2722. *)
Inductive err :=
  | ErrInvalidCountryCode
  | ErrNotANumber
  | ErrTooShortAfterIDD
  | ErrTooShortNSN
  | ErrNumTooLong
  | ErrOther.      (* any error the caller only tests for being non-nil *)

(** Outcome of a Go call: a value, an error value, or a run-time panic. *)
Inductive M (A : Type) : Type :=
  | Ret (a : A)
  | Fail (e : err)
  | Panic.
Arguments Ret {A} a.
Arguments Fail {A} e.
Arguments Panic {A}.

Definition bind {A B} (m : M A) (f : A -> M B) : M B :=
  match m with Ret a => f a | Fail e => Fail e | Panic => Panic end.
Notation "x <- m ;; k" := (bind m (fun x => k)) (at level 61, m at next level, right associativity).
Notation "' p <- m ;; k" := (bind m (fun x => let p := x in k))
  (at level 61, p pattern, m at next level, right associativity).

(** A total option as an outcome: [None] is a panic (nil dereference, index out of range). *)
Definition or_panic {A} (o : option A) : M A := match o with Some a => Ret a | None => Panic end.

(** Byte-string equality ([==] on Go strings). *)
Fixpoint beq (a b : bytes) : bool :=
  match a, b with
  | [], [] => true
  | x :: a', y :: b' => (x =? y) && beq a' b'
  | _, _ => false
  end.

(** len(s) *)
Definition len (s : bytes) : nat := List.length s.
Definition is_empty (s : bytes) : bool := match s with [] => true | _ => false end.

(** strings.HasPrefix *)
Fixpoint has_prefix (s p : bytes) : bool :=
  match p, s with
  | [], _ => true
  | x :: p', y :: s' => (x =? y) && has_prefix s' p'
  | _ :: _, [] => false
  end.

(** strings.HasSuffix: s[len(s)-len(p):] == p when long enough. *)
Definition has_suffix (s p : bytes) : bool :=
  (len p <=? len s)%nat && beq (skipn (len s - len p) s) p.

(** strings.Index: byte offset of the first occurrence. [None] stands for -1. *)
Fixpoint index_of (s p : bytes) : option nat :=
  if has_prefix s p then Some 0%nat else
  match s with
  | [] => None
  | _ :: t => match index_of t p with Some i => Some (S i) | None => None end
  end.

(** strings.Contains *)
Definition contains (s p : bytes) : bool := match index_of s p with Some _ => true | None => false end.

(** bytes.LastIndex. [None] stands for -1. *)
Fixpoint last_index_of (s p : bytes) : option nat :=
  match s with
  | [] => if has_prefix [] p then Some 0%nat else None
  | _ :: t =>
      match last_index_of t p with
      | Some i => Some (S i)
      | None => if has_prefix s p then Some 0%nat else None
      end
  end.

(** strings.IndexByte *)
Fixpoint index_byte (s : bytes) (c : N) : option nat :=
  match s with
  | [] => None
  | x :: t => if x =? c then Some 0%nat else match index_byte t c with Some i => Some (S i) | None => None end
  end.

(** Go slicing s[i:j]; panics when i > j or j > len(s). *)
Definition slice (s : bytes) (i j : nat) : M bytes :=
  if (i <=? j)%nat && (j <=? len s)%nat then Ret (firstn (j - i) (skipn i s)) else Panic.
Definition slice_from (s : bytes) (i : nat) : M bytes := slice s i (len s).
Definition slice_to (s : bytes) (j : nat) : M bytes := slice s 0 j.

(** Plain (non-panicking) substring, used where the indices come from a regexp match. *)
Definition sub (s : bytes) (i j : nat) : bytes := firstn (j - i) (skipn i s).

(** strings.Split(s, sep) for a one-byte separator. *)
Fixpoint split_byte (s : bytes) (c : N) : list bytes :=
  match s with
  | [] => [[]]
  | x :: t =>
      if x =? c then [] :: split_byte t c
      else match split_byte t c with
           | g :: gs => (x :: g) :: gs
           | [] => [[x]]
           end
  end.

(** strings.Join *)
Fixpoint join (l : list bytes) (sep : bytes) : bytes :=
  match l with
  | [] => []
  | [x] => x
  | x :: t => x ++ sep ++ join t sep
  end.

(** strings.Replace(s, c, "", -1) for a one-byte c. *)
Definition remove_byte (s : bytes) (c : N) : bytes := filter (fun x => negb (x =? c)) s.

(** ASCII decimal digits. *)
Definition is_digit (c : N) : bool := (48 <=? c) && (c <=? 57).
Definition all_digits (s : bytes) : bool := forallb is_digit s.

(** strconv.FormatUint(n, 10) / the digits of strconv.Itoa for a non-negative int. *)
Fixpoint dec_aux (fuel : nat) (n : N) (acc : bytes) : bytes :=
  match fuel with
  | O => acc
  | S f => if n <? 10 then (48 + n) :: acc else dec_aux f (n / 10) ((48 + n mod 10) :: acc)
  end.
Definition dec (n : N) : bytes := dec_aux (S (N.size_nat n)) n [].

(** strconv.Itoa *)
Definition itoa (z : Z) : bytes :=
  match z with
  | Z0 => [48]
  | Zpos p => dec (Npos p)
  | Zneg p => 45 :: dec (Npos p)
  end.

(** Value of a digit string, most significant first. *)
Definition dval (s : bytes) : N := fold_left (fun a d => a * 10 + (d - 48)) s 0.

Definition two64 : N := 18446744073709551616.

(** strconv.ParseUint(s, 10, 64). The repository only uses it as [val, _ := ...] or with the error tested;
    on a range error Go returns the maximal value together with the error, on a syntax error 0. *)
Definition parse_uint (s : bytes) : option N :=
  if negb (is_empty s) && all_digits s && (dval s <? two64) then Some (dval s) else None.
Definition parse_uint_val (s : bytes) : N :=
  if negb (is_empty s) && all_digits s then (if dval s <? two64 then dval s else two64 - 1) else 0.

(** strconv.Atoi restricted to strings without sign (as used by the repository): value or error.
    Go also accepts a leading sign; [atoi] models it. Range check is that of a 64-bit int. *)
Definition two63 : N := 9223372036854775808.
Definition atoi (s : bytes) : option Z :=
  match s with
  | 43 :: t => if negb (is_empty t) && all_digits t && (dval t <? two63) then Some (Z.of_N (dval t)) else None
  | 45 :: t => if negb (is_empty t) && all_digits t && (dval t <=? two63) then Some (- Z.of_N (dval t))%Z else None
  | _ => if negb (is_empty s) && all_digits s && (dval s <? two63) then Some (Z.of_N (dval s)) else None
  end.

(** Go int32(x) conversion of an int: wraps modulo 2^32. *)
Definition to_int32 (z : Z) : Z := ((z + 2147483648) mod 4294967296 - 2147483648)%Z.

(** Association lists standing for Go maps (lookup finds the first entry; builders keep keys unique). *)
Fixpoint assoc {K V} (eqb : K -> K -> bool) (k : K) (l : list (K * V)) : option V :=
  match l with
  | [] => None
  | (k', v) :: t => if eqb k k' then Some v else assoc eqb k t
  end.
Definition assocb {V} (k : bytes) (l : list (bytes * V)) : option V := assoc beq k l.
Definition assocz {V} (k : Z) (l : list (Z * V)) : option V := assoc Z.eqb k l.

Fixpoint mem_bytes (x : bytes) (l : list bytes) : bool :=
  match l with [] => false | y :: t => beq x y || mem_bytes x t end.
Fixpoint memz (x : Z) (l : list Z) : bool :=
  match l with [] => false | y :: t => Z.eqb x y || memz x t end.

Definition get_bytes (o : option bytes) : bytes := match o with Some s => s | None => [] end.
Definition get_bool (o : option bool) : bool := match o with Some b => b | None => false end.
Definition is_some {A} (o : option A) : bool := match o with Some _ => true | None => false end.
