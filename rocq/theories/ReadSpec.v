(** What a text of digits means to the parser, given the metadata of the default region. *)
From Verif Require Import Base Utf8 Regex Consts Types Validate NumberSpec MetaSpec ValidateSpec RoundSpec RuleSpec.

(** The text starts with an international prefix of the region, and what follows does not start with 0. *)
Definition dials_abroad (m : meta) (d rest : bytes) : Prop := exists x g, compile (get_bytes (md_iprefix m)) = Some x /\ re_find x d = Some g /\
  m_start g = 0%nat /\ rest = skipn (m_end g) d /\ hd_error rest <> Some 48.

(** The shortest supported calling code in front of the digits, and the rest. *)
Definition code_in_front (C : container) (d : bytes) (cc : Z) (rest : bytes) : Prop :=
  d = itoa cc ++ rest /\ hasValidCountryCallingCode C cc = true /\
  forall cc' t, hasValidCountryCallingCode C cc' = true -> d = itoa cc' ++ t -> (length (itoa cc) <= length (itoa cc'))%nat.

(** The carrier code found by a match of the national-prefix expression: its first group, unless the region rewrites the number
    and this is the only group. *)
Definition carrier_part (m : meta) (x : re) (s : bytes) (g : mres) : bytes :=
  let rewrites := negb (is_empty (get_bytes (md_np_transform m))) && is_some (group g (re_ngroups x)) in
  if ((if rewrites then 1 else 0) <? re_ngroups x)%nat then group_str s g 1 else [].

(** The number without its national prefix. A prefix is not taken away if this makes a complete number incomplete. *)
Definition general (m : meta) : bytes := get_d_pattern (md_general m).
Definition national_part (m : meta) (s core carrier : bytes) : Prop :=
  (get_bytes (md_np_parse m) = [] /\ core = s /\ carrier = []) \/
  (get_bytes (md_np_parse m) <> [] /\ exists x, compile (anchored_left (get_bytes (md_np_parse m))) = Some x /\
    match (match s with [] => None | _ => re_find x s end) with
    | None => core = s /\ carrier = []
    | Some g =>
        (full_match (general m) s /\ ~ full_match (general m) (left_over m x s g) /\ core = s /\ carrier = []) \/
        ((full_match (general m) s -> full_match (general m) (left_over m x s g)) /\ core = left_over m x s g /\ carrier = carrier_part m x s g)
    end).

(** The prefix is given back when what is left is too short, of an impossible length, or possible only locally. *)
Definition sized (m : meta) (s : bytes) (v : vresult) : Prop := classified (allowed m UNKNOWN) (local_only m UNKNOWN) (Z.of_nat (length s)) v.
Definition national_number (m : meta) (s nsn carrier : bytes) : Prop := exists core c v, national_part m s core c /\ sized m core v /\
  match v with
  | IS_POSSIBLE | TOO_LONG => nsn = core /\ carrier = c
  | _ => nsn = s /\ carrier = []
  end.

Inductive meaning := Means (src : ccsource) (cc : Z) (nsn carrier : bytes) | Error (e : err).
Definition finished (m : meta) (s : bytes) (src : ccsource) (cc : Z) (o : meaning) : Prop :=
  ((length s < 2)%nat /\ o = Error ErrTooShortNSN) \/
  ((2 <= length s)%nat /\ exists nsn carrier, national_number m s nsn carrier /\
     o = if (length nsn <? 2)%nat then Error ErrTooShortNSN else if (17 <? length nsn)%nat then Error ErrNumTooLong else Means src cc nsn carrier).

(** The region's own calling code without a plus sign: the digits as they stand are not a number of the region but without the
    code (and a national prefix) they are, or they are too many. *)
Definition code_of (m : meta) : Z := match md_cc m with Some z => z | None => 0%Z end.
Definition own_code (m : meta) (d core : bytes) : Prop := exists t c, d = itoa (code_of m) ++ t /\ national_part m t core c /\
  ((~ full_match (general m) d /\ full_match (general m) core) \/ sized m d TOO_LONG).

(** What follows a plus sign or an international prefix: a calling code and a number of that code. *)
Definition abroad (C : container) (rest : bytes) (src : ccsource) (o : meaning) : Prop :=
  ((length rest <= 2)%nat /\ o = Error ErrTooShortAfterIDD) \/
  ((2 < length rest)%nat /\ exists cc t mm, code_in_front C rest cc t /\ main_entry C cc mm /\ finished mm t src cc o).
Definition no_code (C : container) (rest : bytes) : Prop := (2 < length rest)%nat /\ forall cc t, ~ code_in_front C rest cc t.

(** Digits, given the metadata of the default region. *)
Definition reads (C : container) (m : meta) (d : bytes) (o : meaning) : Prop :=
  (exists rest, dials_abroad m d rest /\ (abroad C rest FROM_NUMBER_WITH_IDD o \/ (no_code C rest /\ o = Error ErrInvalidCountryCode))) \/
  ((forall rest, ~ dials_abroad m d rest) /\
     ((exists core mm, own_code m d core /\ main_entry C (code_of m) mm /\ finished mm core FROM_NUMBER_WITHOUT_PLUS_SIGN (code_of m) o) \/
      ((forall core, ~ own_code m d core) /\ finished m d FROM_DEFAULT_COUNTRY (code_of m) o))).

(** A plus sign and digits. If no calling code follows the plus sign, the digits are read once more as if the plus sign were not
    there, but only an international prefix or the region's own code gives them a meaning. *)
Definition reads_plus (C : container) (dm : option meta) (d : bytes) (o : meaning) : Prop :=
  abroad C d FROM_NUMBER_WITH_PLUS_SIGN o \/
  (no_code C d /\
     ((exists m rest, dm = Some m /\ dials_abroad m d rest /\ (abroad C rest FROM_NUMBER_WITH_IDD o \/ (no_code C rest /\ o = Error ErrInvalidCountryCode))) \/
      (exists m core mm, dm = Some m /\ (forall rest, ~ dials_abroad m d rest) /\ own_code m d core /\ main_entry C (code_of m) mm /\
         finished mm core FROM_NUMBER_WITHOUT_PLUS_SIGN (code_of m) o) \/
      ((forall m, dm = Some m -> (forall rest, ~ dials_abroad m d rest) /\ (forall core, ~ own_code m d core)) /\ o = Error ErrInvalidCountryCode))).

(** The outcome of a call of ParseAndKeepRawInput. *)
Definition outcome (text : bytes) (result : M (phone * option err)) (o : meaning) : Prop := match o with
  | Means src cc nsn carrier => exists n, result = Ret (n, None) /\ cc_of n = cc /\ GetNationalSignificantNumber n = nsn /\ p_src n = Some src /\
      get_bytes (p_carrier n) = carrier /\ p_raw n = Some text /\ p_ext n = None
  | Error e => exists n, result = Ret (n, Some e)
  end.
(** Signs written between the digits of a number: space, hyphen, dot, brackets, and their Unicode relatives (no-break space, soft
    hyphen, dashes, minus, wide forms). The slash, the tilde and the letter x are left out: they can start an extension or a second
    number. *)
Definition separators : list N := [32; 40; 41; 45; 46; 91; 93; 160; 173; 8203; 8208; 8209; 8210; 8211; 8212; 8213; 8288; 8722; 12288; 12540;
  65288; 65289; 65293; 65294; 65295; 65339; 65341].
Definition spaced (s : bytes) : Prop := forall c, In c (runes s) -> (48 <= c <= 57) \/ In c separators.
Definition only_digits (s : bytes) : bytes := filter (fun c => (48 <=? c) && (c <=? 57)) (runes s).
