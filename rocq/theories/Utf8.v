(** Go's UTF-8 decoding and encoding (package unicode/utf8, as used by [for _, c := range s], regexp and
    stringbuilder.WriteRune), Unicode tables and internal/character. No proofs here. *)
From Verif Require Import Base UnicodeTables.

Definition rune_error : N := 65533.   (* utf8.RuneError, U+FFFD *)

Definition in_rng (lo hi c : N) : bool := (lo <=? c) && (c <=? hi).

(** utf8.DecodeRuneInString: first rune and the rest of the string. An invalid first byte gives U+FFFD and consumes
    exactly one byte (utf8.go, accept ranges of the [first] table). [None] only for the empty string. *)
Definition decode_rune (s : bytes) : option (N * bytes) :=
  match s with
  | [] => None
  | b0 :: t =>
      let bad := Some (rune_error, t) in
      if b0 <? 128 then Some (b0, t)
      else if in_rng 194 223 b0 then
        match t with
        | b1 :: t1 => if in_rng 128 191 b1 then Some ((b0 - 192) * 64 + (b1 - 128), t1) else bad
        | _ => bad
        end
      else if in_rng 224 239 b0 then
        match t with
        | b1 :: b2 :: t2 =>
            let lo := if b0 =? 224 then 160 else 128 in
            let hi := if b0 =? 237 then 159 else 191 in
            if in_rng lo hi b1 && in_rng 128 191 b2
            then Some ((b0 - 224) * 4096 + (b1 - 128) * 64 + (b2 - 128), t2) else bad
        | _ => bad
        end
      else if in_rng 240 244 b0 then
        match t with
        | b1 :: b2 :: b3 :: t3 =>
            let lo := if b0 =? 240 then 144 else 128 in
            let hi := if b0 =? 244 then 143 else 191 in
            if in_rng lo hi b1 && in_rng 128 191 b2 && in_rng 128 191 b3
            then Some ((b0 - 240) * 262144 + (b1 - 128) * 4096 + (b2 - 128) * 64 + (b3 - 128), t3) else bad
        | _ => bad
        end
      else bad
  end.

(** The runes visited by [for _, c := range s]. The fuel [length s] always suffices (UnicodeFacts.runes_cons). *)
Fixpoint runes_fuel (fuel : nat) (s : bytes) : list N :=
  match fuel with
  | O => []
  | S f => match decode_rune s with
           | None => []
           | Some (c, t) => c :: runes_fuel f t
           end
  end.
Definition runes (s : bytes) : list N := runes_fuel (List.length s) s.

(** utf8.AppendRune: invalid code points (surrogates, > U+10FFFF) are written as U+FFFD. *)
Definition encode_rune (c : N) : bytes :=
  if c <? 128 then [c]
  else if c <? 2048 then [192 + c / 64; 128 + c mod 64]
  else if in_rng 55296 57343 c || (1114111 <? c) then [239; 191; 189]
  else if c <? 65536 then [224 + c / 4096; 128 + (c / 64) mod 64; 128 + c mod 64]
  else [240 + c / 262144; 128 + (c / 4096) mod 64; 128 + (c / 64) mod 64; 128 + c mod 64].

Definition encode_runes (l : list N) : bytes := flat_map encode_rune l.

(** utf8.DecodeLastRuneInString(s): looks back over at most 4 bytes for a start byte whose rune ends exactly at the
    end of the string; otherwise (RuneError, 1). Empty string: RuneError. *)
Definition decode_last_rune (s : bytes) : N :=
  let try k := match decode_rune (skipn (len s - k) s) with
               | Some (c, []) => if (k <=? len s)%nat then Some c else None
               | _ => None
               end in
  match s with
  | [] => rune_error
  | _ =>
    (* the shortest suffix beginning with a non-continuation byte decides *)
    let is_start k := match skipn (len s - k) s with
                      | b :: _ => (k <=? len s)%nat && negb (in_rng 128 191 b)
                      | [] => false end in
    let decide k := match try k with Some c => c | None => rune_error end in
    if is_start 1%nat then decide 1%nat
    else if is_start 2%nat then decide 2%nat
    else if is_start 3%nat then decide 3%nat
    else if is_start 4%nat then decide 4%nat
    else rune_error
  end.

(** Membership in an ascending range table (unicode.Is). *)
Fixpoint in_table (t : list (N * N)) (c : N) : bool :=
  match t with
  | [] => false
  | (lo, hi) :: t' => if c <? lo then false else if c <=? hi then true else in_table t' c
  end.

Definition is_Nd (c : N) : bool := in_table tab_Nd c.     (* unicode.IsDigit *)
Definition is_L (c : N) : bool := in_table tab_L c.       (* unicode.IsLetter *)

(** internal/character/character.go:21-41, Digit. Go walks two tables (R16, then R32); here they are one. *)
Fixpoint digit_in (t : list (N * N)) (c : N) : option N :=
  match t with
  | [] => None
  | (lo, hi) :: t' =>
      if c <? lo then None
      else if c <=? hi then Some (48 + (c - lo) mod 10)
      else digit_in t' c
  end.
Definition char_digit (c : N) : option N :=
  if is_digit c then Some c else digit_in tab_Nd c.

(** unicode.ToUpper, restricted to what the repository can observe: its result is only ever looked up in maps whose
    keys are ASCII or have no case (phonenumberutil.go:67-221). The only non-ASCII runes whose upper case is ASCII
    are U+0131 (dotless i) and U+017F (long s); upper-casing never produces one of the maps' non-ASCII keys (dashes,
    slashes, spaces, full stops) from another rune. All other runes are left unchanged in this model. *)
Definition to_upper (c : N) : N :=
  if in_rng 97 122 c then c - 32
  else if c =? 305 then 73
  else if c =? 383 then 83
  else c.
