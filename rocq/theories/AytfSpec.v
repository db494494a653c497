(** Small specification for the as-you-type formatter. *)
From Verif Require Import Base Utf8 Regex RegexGrow NormalizeSpec Consts Types Validate Format Parse AsYouType.

(** What a user can do with a formatter. *)
Inductive key := Digit (c : N) | DigitRemember (c : N) | ClearKey.

(** One key; the result is the formatter afterwards (its output is [f_out]). *)
Definition press_one (C : container) (s : aytf) (k : key) : M aytf :=
  match k with
  | Digit c => r <- InputDigit C s c ;; Ret (fst r)
  | DigitRemember c => r <- InputDigitAndRememberPosition C s c ;; Ret (fst r)
  | ClearKey => Ret (Clear C s)
  end.
Fixpoint press (C : container) (s : aytf) (ks : list key) : M aytf :=
  match ks with [] => Ret s | k :: ks => s <- press_one C s k ;; press C s ks end.

(** All that can be observed while pressing keys: each output and each remembered position. *)
Fixpoint observe (C : container) (s : aytf) (ks : list key) : M (list (bytes * nat)) :=
  match ks with
  | [] => Ret []
  | k :: ks =>
      s <- press_one C s k ;;
      p <- GetRememberedPosition s ;;
      l <- observe C s ks ;;
      Ret ((f_out s, p) :: l)
  end.

(** The characters typed since the formatter was new or cleared. *)
Definition typed_by (l : list N) (k : key) : list N :=
  match k with Digit c | DigitRemember c => l ++ [c] | ClearKey => [] end.
Definition typed (ks : list key) : list N := fold_left typed_by ks [].

(** A decimal digit of any script. *)
Definition decimal (c : N) : bool := match digit_for c with Some _ => true | None => false end.
(** Typed text the formatter itself may format: decimal digits, with an optional leading plus sign (ASCII or full width). *)
Definition dialled (l : list N) : bool :=
  match l with
  | [] => true
  | c :: t => (decimal c || (c =? 43) || (c =? 65291)) && forallb decimal t
  end.
(** The same text with ASCII digits. *)
Definition ascii_digit (c : N) : N := match digit_for c with Some d => d | None => c end.
Definition plain_of (l : list N) : bytes := encode_runes (map ascii_digit l).

(** ** What the formatter needs from the metadata *)

(** The expression for an international prefix, anchored at the beginning: it compiles, has no end anchor and takes a plus sign. *)
Definition idd_re (m : option meta) : option re := compile (anchored_left (bs "\+|" ++ mbytes md_iprefix m)).
Definition idd_okb (m : option meta) : bool := match idd_re m with Some x => at_start x && match re_find x (bs "+") with Some r => (m_end r =? 1)%nat | None => false end | None => false end.
(** The national prefix, if there is one: anchored at the beginning it compiles, and each alternative has no end anchor or needs
    at least four characters; in country code 1 it is the digit 1. *)
Definition ndd_re (m : option meta) : option re := compile (anchored_left (mbytes md_np_parse m)).
Definition ndd_okb (m : option meta) : bool :=
  (is_empty (mbytes md_np_parse m) || match ndd_re m with Some x => starts_ok x | None => false end) &&
  (negb (mcc m =? 1)%Z || beq (mbytes md_np_parse m) (bs "1")).
(** A format the formatter can use: its expressions compile, and its template shows one placeholder for each digit and no other
    diallable character. *)
Definition fill (m : re) (format : bytes) : list N :=
  runes (flat_map (fun c => if c =? 57 then digitPlaceholder else [c]) (re_replace_all m (re_find_string m longestPhoneNumber) format)).
Definition is_placeholder (c : N) : bool := c =? digitPlaceholderRune.
Definition template_okb (f : nfmt) : bool :=
  match compile (get_pattern f) with
  | Some m => forallb (fun c => is_placeholder c || negb (diallable c)) (fill m (get_format f)) &&
              (length (filter is_placeholder (fill m (get_format f))) =? length (re_find_string m longestPhoneNumber))%nat
  | None => false
  end.
Definition compiles_b (p : bytes) : bool := match compile p with Some _ => true | None => false end.
Definition fmt_okb (f : nfmt) : bool :=
  negb (is_empty (get_pattern f)) && compiles_b (anchored (get_pattern f)) && forallb (fun p => compiles_b (anchored_left p)) (nf_leading f) && template_okb f.
Definition eligible (f : nfmt) : bool := re_match eligibleFormatPattern (get_format f).
Definition aytf_meta_okb (m : option meta) : bool :=
  idd_okb m && ndd_okb m && forallb (fun f => negb (eligible f) || fmt_okb f) (mget [] md_nf m ++ mget [] md_inf m).
(** The metadata the formatter can get for a country code. *)
Definition aytf_ok (C : container) : Prop :=
  (forall cc, aytf_meta_okb (getMetadataForRegion C (GetRegionCodeForCountryCode C cc)) = true) /\
  (forall cc, aytf_meta_okb (getMetadataForNonGeographicalRegion C cc) = true).

(** ** Specification of the digits kept *)

(** The list [x] is [y] with some elements left out. *)
Inductive part_of : list N -> list N -> Prop :=
  | part_nil : part_of [] []
  | part_skip c x y : part_of x y -> part_of x (c :: y)
  | part_keep c x y : part_of x y -> part_of (c :: x) (c :: y).
(** The first digit of a number tells the length of its national prefix: no text has both a shorter and a longer one. *)
Definition fixed_ndd (m : option meta) : bool :=
  is_empty (mbytes md_np_parse m) ||
  match ndd_re m with
  | Some x => forallb (fun c => match width_at c (re_ast x) with Some None => false | _ => true end) (bs "0123456789")
  | None => false
  end.
