(** Model of internal/serialize/serialize.go: decoding the (gunzipped) blobs of prefix tables. No proofs here.
    Simplifications: gzip is not modelled, the functions start from the decompressed bytes; errors are only
    distinguished from success; memory is unlimited. Go ints are 64-bit and wrap around. *)
From Coq Require Import Floats.SpecFloat.
From Verif Require Import Base.

(** int(x) for an unsigned 64-bit x, and int addition: wrap to the 64-bit signed range. *)
Definition to_int64 (z : Z) : Z := ((z + 9223372036854775808) mod 18446744073709551616 - 9223372036854775808)%Z.

(** binary.Read(reader, binary.LittleEndian, &x) for a uint8, uint16, uint32: value and rest, [None] is an error. *)
Definition read_u8 (s : bytes) : option (N * bytes) :=
  match s with a :: t => Some (a, t) | _ => None end.
Definition read_u16 (s : bytes) : option (N * bytes) :=
  match s with a :: b :: t => Some (a + 256 * b, t) | _ => None end.
Definition read_u32 (s : bytes) : option (N * bytes) :=
  match s with a :: b :: c :: d :: t => Some (a + 256 * (b + 256 * (c + 256 * d)), t) | _ => None end.

(** binary.ReadUvarint: at most ten bytes, the tenth being 0 or 1; [None] is an error (end of input or overflow).
    [k] is the number of bytes still allowed, [sh] the weight of the next seven bits. *)
Fixpoint read_uvarint_aux (k : nat) (sh x : N) (s : bytes) : option (N * bytes) :=
  match k, s with
  | O, _ | _, [] => None
  | S k', b :: t =>
      if b <? 128
      then (if (k' =? 0)%nat && (1 <? b) then None else Some (x + b * sh, t))
      else read_uvarint_aux k' (sh * 128) (x + (b - 128) * sh) t
  end.
Definition read_uvarint (s : bytes) : option (N * bytes) := read_uvarint_aux 10 1 0 s.

(** An error of the reader aborts the load. *)
Definition rd {A} (o : option A) : M A := match o with Some a => Ret a | None => Fail ErrOther end.

(** The table and its MaxLength: internal/serialize/serialize.go:15-20 and 99-104. A Go map is a list of pairs in which the
    most recent entry of a key comes first. *)
Record table (V : Type) := mkTable { t_map : list (Z * V); t_max : Z }.
Arguments mkTable {V}. Arguments t_map {V}. Arguments t_max {V}.
(** m[k] *)
Definition look {V} (t : table V) (k : Z) : option V := assocz k (t_map t).

(** The common beginning of both loaders (internal/serialize/serialize.go:30-51 and 114-135): the strings and the number of mappings.
    reader.Read returns fewer bytes than asked for only at the end of the input. *)
Definition load_header (s : bytes) : M (list bytes * N * bytes) :=
  '(size, s) <- rd (read_u32 s) ;;
  if N.of_nat (len s) <? size then Fail ErrOther else
  let raw := firstn (N.to_nat size) s in
  let s := skipn (N.to_nat size) s in
  let values := split_byte raw 10 in
  '(count, s) <- rd (read_u32 s) ;;
  Ret (values, count, s).

(** One interned string: internal/serialize/serialize.go:65-70 and 157-162. *)
Definition read_value (values : list bytes) (s : bytes) : M (bytes * bytes) :=
  '(i, s) <- rd (read_u16 s) ;;
  v <- rd (nth_error values (N.to_nat i)) ;;
  Ret (v, s).

(** internal/serialize/serialize.go:56-78. [dc] is digitCount. *)
Fixpoint load_prefixes (dc : Z -> Z) (values : list bytes) (count : nat) (prefix : Z) (acc : table bytes) (s : bytes) : M (table bytes) :=
  match count with
  | O => Ret acc
  | S n =>
      '(diff, s) <- rd (read_uvarint s) ;;
      let prefix := to_int64 (prefix + Z.of_N diff) in
      '(v, s) <- read_value values s ;;
      load_prefixes dc values n prefix (mkTable ((prefix, v) :: t_map acc) (Z.max (t_max acc) (dc prefix))) s
  end.
(** internal/serialize/serialize.go:22-85 *)
Definition LoadPrefixMap (dc : Z -> Z) (s : bytes) : M (table bytes) :=
  '(values, count, s) <- load_header s ;;
  load_prefixes dc values (N.to_nat count) 0 (mkTable [] 0%Z) s.

(** internal/serialize/serialize.go:156-163 *)
Fixpoint read_values (values : list bytes) (count : nat) (s : bytes) : M (list bytes * bytes) :=
  match count with
  | O => Ret ([], s)
  | S n => '(v, s) <- read_value values s ;;
           '(vs, s) <- read_values values n s ;;
           Ret (v :: vs, s)
  end.
(** internal/serialize/serialize.go:140-170 *)
Fixpoint load_arrays (dc : Z -> Z) (values : list bytes) (count : nat) (key : Z) (acc : table (list bytes)) (s : bytes) : M (table (list bytes)) :=
  match count with
  | O => Ret acc
  | S n =>
      '(diff, s) <- rd (read_uvarint s) ;;
      let key := to_int64 (key + Z.of_N diff) in
      '(c, s) <- rd (read_u8 s) ;;
      '(vs, s) <- read_values values (N.to_nat c) s ;;
      load_arrays dc values n key (mkTable ((key, vs) :: t_map acc) (Z.max (t_max acc) (dc key))) s
  end.
(** internal/serialize/serialize.go:106-177 *)
Definition LoadIntArrayMap (dc : Z -> Z) (s : bytes) : M (table (list bytes)) :=
  '(values, count, s) <- load_header s ;;
  load_arrays dc values (N.to_nat count) 0 (mkTable [] 0%Z) s.

(** internal/serialize/serialize.go:87-97: digitCount, through math.Log10. The loaders above take it as a parameter, because the
    floating-point result depends on the platform (some fuse multiplication and addition). [go_digit_count] is the
    computation in IEEE binary64 arithmetic, rounding every operation to nearest even, as on amd64: math.Log10(x) is
    math.Log2(x) * (Ln2/Ln10), math.Log2(x) is exp + math.Log(frac) * (1/Ln2) with frac, exp = Frexp(x), and math.Log is the
    algorithm of Go's math/log.go. *)
Definition f64 := spec_float.
Definition fadd := SFadd 53 1024. Definition fsub := SFsub 53 1024.
Definition fmul := SFmul 53 1024. Definition fdiv := SFdiv 53 1024.
(** A constant m * 2^e. *)
Definition fc (m : positive) (e : Z) : f64 := S754_finite false m e.
(** float64(z) *)
Definition of_int (z : Z) : f64 := binary_normalize 53 1024 z 0 false.
(** The constants of math/log.go and math/log10.go, correctly rounded. *)
Definition k_one : f64 := fc 4503599627370496 (-52).
Definition k_two : f64 := fc 4503599627370496 (-51).
Definition k_half : f64 := fc 4503599627370496 (-53).
Definition k_sqrt2half : f64 := fc 6369051672525773 (-53).
Definition k_Ln2Hi : f64 := fc 6243314766446592 (-53).
Definition k_Ln2Lo : f64 := fc 7382048951581814 (-85).
Definition k_L1 : f64 := fc 6004799503160723 (-53).
Definition k_L2 : f64 := fc 7205759403686404 (-54).
Definition k_L3 : f64 := fc 5146971033736025 (-54).
Definition k_L4 : f64 := fc 8006390766270639 (-55).
Definition k_L5 : f64 := fc 6551322304906206 (-55).
Definition k_L6 : f64 := fc 5517391500461727 (-55).
Definition k_L7 : f64 := fc 5331612937900612 (-55).
Definition k_InvLn2 : f64 := fc 6497320848556798 (-52).
Definition k_Log10_2 : f64 := fc 5422874305198591 (-54).
(** math.Frexp for positive finite numbers. *)
Definition frexp64 (x : f64) : f64 * Z := SFfrexp 53 1024 x.
(** math.Log for positive finite numbers. *)
Definition go_log (x : f64) : f64 :=
  let '(f1, ki) := frexp64 x in
  let '(f1, ki) := if SFltb f1 k_sqrt2half then (fmul f1 k_two, (ki - 1)%Z) else (f1, ki) in
  let f := fsub f1 k_one in
  let k := of_int ki in
  let s := fdiv f (fadd k_two f) in
  let s2 := fmul s s in
  let s4 := fmul s2 s2 in
  let t1 := fmul s2 (fadd k_L1 (fmul s4 (fadd k_L3 (fmul s4 (fadd k_L5 (fmul s4 k_L7)))))) in
  let t2 := fmul s4 (fadd k_L2 (fmul s4 (fadd k_L4 (fmul s4 k_L6)))) in
  let r := fadd t1 t2 in
  let hfsq := fmul (fmul k_half f) f in
  fsub (fmul k k_Ln2Hi) (fsub (fsub hfsq (fadd (fmul s (fadd hfsq r)) (fmul k k_Ln2Lo))) f).
(** math.Log2 *)
Definition go_log2 (x : f64) : f64 :=
  let '(fr, e) := frexp64 x in
  if SFeqb fr k_half then of_int (e - 1) else fadd (of_int e) (fmul (go_log fr) k_InvLn2).
(** int(math.Floor(x)) for finite x *)
Definition floor64 (x : f64) : Z :=
  match x with
  | S754_finite sgn m e => let z := if sgn then Z.neg m else Z.pos m in Z.shiftl z e
  | _ => 0%Z
  end.
(** internal/serialize/serialize.go:87-97. *)
Definition go_digit_count (n : Z) : Z :=
  if (n =? 0)%Z then 1%Z
  else let n := if (n <? 0)%Z then to_int64 (- n) else n in
       (floor64 (fmul (go_log2 (of_int n)) k_Log10_2) + 1)%Z.
