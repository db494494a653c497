(** What the leniency levels of the text search ask of a number and of the text it was read from. *)
From Verif Require Import Base UnicodeTables Utf8 Regex Consts Types Normalize NormalizeSpec Validate Format Parse NumberSpec MetaSpec ValidateSpec FormatSpec RoundSpec RuleSpec ReadSpec Matcher.

(** ** The letter x *)

(** The letter x stands for a carrier code when doubled, for an extension when single. *)
Definition letter_x (c : N) : bool := (c =? 120) || (c =? 88).
Fixpoint leading_x (s : bytes) : nat := match s with c :: t => if letter_x c then S (leading_x t) else 0%nat | [] => 0%nat end.
Definition trailing_x (s : bytes) : nat := leading_x (rev s).

(** Letters x are paired off from the left of each stretch of them. From the second letter of a pair on, the text is the same
    national number; a letter left over, unless it is the last character, has the number's extension and no other digits
    after it. *)
Definition x_rule (C : container) (n : phone) (text : bytes) : Prop := forall a c d b, text = a ++ c :: d :: b ->
  letter_x c = true -> Nat.even (trailing_x a) = true ->
  if letter_x d then IsNumberMatchWithOneNumber C n (d :: b) = Ret NSN_MATCH else NormalizeDigitsOnly (c :: d :: b) = ext_of n.

(** ** The national prefix *)

(** The metadata of the main region of a calling code, if the code belongs to regions. *)
Definition home_entry (C : container) (cc : Z) (m : meta) : Prop := exists r rest,
  assocz cc (c_cc2region C) = Some (r :: rest) /\ In r (c_regions C) /\ assocb r (c_region C) = Some m.

(** The digits s start with the region's national prefix, and taking it away does not make a complete number incomplete. *)
Definition prefix_taken (m : meta) (s : bytes) : Prop := s <> [] /\ get_bytes (md_np_parse m) <> [] /\
  exists x g, compile (anchored_left (get_bytes (md_np_parse m))) = Some x /\ re_find x s = Some g /\
    (full_match (general m) s -> full_match (general m) (left_over m x s g)).

(** The rule for printing this number in its main region puts more in front of it than brackets, and the metadata does not call
    that optional. *)
Definition bare_rules : list bytes := [bs "$1"; bs "($1"; bs "$1)"; bs "($1)"].
Definition prefix_expected (m : meta) (nsn : bytes) : Prop := exists f, first_applying (md_nf m) nsn (Some f) /\
  get_npfr f <> [] /\ get_npopt f = false /\ ~ In (get_npfr f) bare_rules.

(** A number written without a calling code has a national prefix if its region writes one. *)
Definition prefix_rule (C : container) (n : phone) : Prop := get_src n = FROM_DEFAULT_COUNTRY ->
  forall m, home_entry C (cc_of n) m -> prefix_expected m (GetNationalSignificantNumber n) -> prefix_taken m (NormalizeDigitsOnly (get_raw n)).

(** ** Slashes *)

Definition slashes (text : bytes) : nat := count_occ N.eq_dec text 47.
(** At most one slash; two if the first comes right after the calling code. *)
Definition slash_rule (n : phone) (text : bytes) : Prop :=
  (slashes text <= 1)%nat \/
  (slashes text = 2%nat /\ (get_src n = FROM_NUMBER_WITH_PLUS_SIGN \/ get_src n = FROM_NUMBER_WITHOUT_PLUS_SIGN) /\
   exists a b, text = a ++ 47 :: b /\ ~ In 47 a /\ NormalizeDigitsOnly a = itoa (cc_of n)).

(** ** Grouping *)

(** The text with every decimal digit of any script replaced by the ASCII one. *)
Definition plain_text (s : bytes) : bytes := encode_runes (map (fun c => match digit_for c with Some d => d | None => c end) (runes s)).

(** The ways of grouping a number: as the INTERNATIONAL format does, or as one of the alternate formats of the calling code
    does whose first leading-digits pattern, if it has any, the number starts with. *)
Definition usual_groups (C : container) (n : phone) (gs : list bytes) : Prop := exists m body,
  main_entry C (cc_of n) m /\ printed m INTERNATIONAL [] (GetNationalSignificantNumber n) body /\ stretches is_digit body gs.
Definition other_groups (A : alt_map) (n : phone) (gs : list bytes) : Prop := exists m f x,
  assocz (cc_of n) A = Some m /\ In f (md_nf m) /\ (nf_leading f = [] \/ matches_front (hd [] (nf_leading f)) (GetNationalSignificantNumber n)) /\
  compile (get_pattern f) = Some x /\ stretches is_digit (re_replace_all x (GetNationalSignificantNumber n) (get_format f)) gs.
Definition groups_of (C : container) (A : alt_map) (n : phone) (gs : list bytes) : Prop := usual_groups C n gs \/ other_groups A n gs.

(** s = a ++ p ++ b with the leftmost occurrence of p. *)
Definition leftmost (p s a b : bytes) : Prop := s = a ++ p ++ b /\ forall a' b', s = a' ++ p ++ b' -> (length a <= length a')%nat.

(** The groups occur in s one after the other, and after them the last text e. *)
Inductive in_order (e : bytes) : list bytes -> bytes -> Prop :=
  | Ord_nil a b : in_order e [] (a ++ e ++ b)
  | Ord_cons a g gs s : in_order e gs s -> in_order e (g :: gs) (a ++ g ++ s).

(** Where the national part of the text begins: behind the calling code, if there is one. If the code cannot be found in one
    piece (+4 4 20...), as many characters as it has digits, less one, are skipped. *)
Definition national_text (n : phone) (t s : bytes) : Prop :=
  match get_src n with
  | FROM_DEFAULT_COUNTRY => s = t
  | _ => (exists a, leftmost (itoa (cc_of n)) t a s) \/
         ((forall a b, t <> a ++ itoa (cc_of n) ++ b) /\ s = skipn (length (itoa (cc_of n)) - 1) t)
  end.

(** Grouping not broken up: after the calling code the groups occur one after the other, with the extension after them. If a
    digit follows the first group at once and the number's region has a national prefix, then the whole number must
    stand there in one piece. *)
Definition strict_grouping (C : container) (n : phone) (t : bytes) (gs : list bytes) : Prop := exists s g rest a b,
  national_text n t s /\ gs = g :: rest /\ leftmost g s a b /\
  if (match decode_rune b with Some (c, _) => is_some (digit_for c) | None => false end) &&
     negb (is_empty (GetNddPrefixForRegion C (GetRegionCodeForCountryCode C (cc_of n)) true))
  then exists c, g ++ b = GetNationalSignificantNumber n ++ c
  else in_order (ext_of n) rest b.

(** Exactly these groups: the text starts with digits and has no other characters before or between them, or (leaving out the
    last stretch of digits if there is an extension) its last stretch contains the whole number, or its last stretches are the groups, only the
    first of which may have more digits before it. *)
Definition exact_grouping (n : phone) (t : bytes) (gs : list bytes) : Prop := exists runs, stretches is_digit t runs /\
  let used := if is_empty (ext_of n) then runs else removelast runs in
  (runs = [] \/ (exists a b, t = a ++ b /\ a <> [] /\ runs = [a])) \/
  (exists pre r a b, used = pre ++ [r] /\ r = a ++ GetNationalSignificantNumber n ++ b) \/
  (exists pre a g rest, used = pre ++ (a ++ g) :: rest /\ gs = g :: rest).
