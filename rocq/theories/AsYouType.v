(** Model of asyoutypeformatter.go: the as-you-type formatter as a state machine. No proofs here.
    The four string builders of the Go struct are represented by their contents: PropsBuilder proves that a builder behaves
    like a byte string under every sequence of operations. A rune is a number; a negative rune (Go's rune is int32) is
    represented by its 32-bit pattern, which is no valid code point either. Metadata is a value, [None] for a nil pointer. *)
From Verif Require Import Base Utf8 Regex Consts Types Normalize Validate Format Parse.

(** asyoutypeformatter.go:27-76. defaultMetadata is not kept: it is only ever the metadata of defaultCountry (128-140,
    292-294), which [f_country] determines. *)
Record aytf := mkA {
  f_out : bytes;
  f_tmpl : list N;
  f_pattern : bytes;
  f_input : bytes;
  f_plain : bytes;
  f_able : bool;
  f_userfmt : bool;
  f_complete : bool;
  f_expect : bool;
  f_country : bytes;
  f_meta : option meta;
  f_last : nat;
  f_origpos : nat;
  f_pos : nat;
  f_prefix : bytes;
  f_space : bool;
  f_ndd : bytes;
  f_nn : bytes;
  f_formats : list nfmt
}.
Definition s_out (s : aytf) v : aytf := mkA v (f_tmpl s) (f_pattern s) (f_input s) (f_plain s) (f_able s) (f_userfmt s) (f_complete s) (f_expect s) (f_country s) (f_meta s) (f_last s) (f_origpos s) (f_pos s) (f_prefix s) (f_space s) (f_ndd s) (f_nn s) (f_formats s).
Definition s_tmpl (s : aytf) v : aytf := mkA (f_out s) v (f_pattern s) (f_input s) (f_plain s) (f_able s) (f_userfmt s) (f_complete s) (f_expect s) (f_country s) (f_meta s) (f_last s) (f_origpos s) (f_pos s) (f_prefix s) (f_space s) (f_ndd s) (f_nn s) (f_formats s).
Definition s_pattern (s : aytf) v : aytf := mkA (f_out s) (f_tmpl s) v (f_input s) (f_plain s) (f_able s) (f_userfmt s) (f_complete s) (f_expect s) (f_country s) (f_meta s) (f_last s) (f_origpos s) (f_pos s) (f_prefix s) (f_space s) (f_ndd s) (f_nn s) (f_formats s).
Definition s_input (s : aytf) v : aytf := mkA (f_out s) (f_tmpl s) (f_pattern s) v (f_plain s) (f_able s) (f_userfmt s) (f_complete s) (f_expect s) (f_country s) (f_meta s) (f_last s) (f_origpos s) (f_pos s) (f_prefix s) (f_space s) (f_ndd s) (f_nn s) (f_formats s).
Definition s_plain (s : aytf) v : aytf := mkA (f_out s) (f_tmpl s) (f_pattern s) (f_input s) v (f_able s) (f_userfmt s) (f_complete s) (f_expect s) (f_country s) (f_meta s) (f_last s) (f_origpos s) (f_pos s) (f_prefix s) (f_space s) (f_ndd s) (f_nn s) (f_formats s).
Definition s_able (s : aytf) v : aytf := mkA (f_out s) (f_tmpl s) (f_pattern s) (f_input s) (f_plain s) v (f_userfmt s) (f_complete s) (f_expect s) (f_country s) (f_meta s) (f_last s) (f_origpos s) (f_pos s) (f_prefix s) (f_space s) (f_ndd s) (f_nn s) (f_formats s).
Definition s_userfmt (s : aytf) v : aytf := mkA (f_out s) (f_tmpl s) (f_pattern s) (f_input s) (f_plain s) (f_able s) v (f_complete s) (f_expect s) (f_country s) (f_meta s) (f_last s) (f_origpos s) (f_pos s) (f_prefix s) (f_space s) (f_ndd s) (f_nn s) (f_formats s).
Definition s_complete (s : aytf) v : aytf := mkA (f_out s) (f_tmpl s) (f_pattern s) (f_input s) (f_plain s) (f_able s) (f_userfmt s) v (f_expect s) (f_country s) (f_meta s) (f_last s) (f_origpos s) (f_pos s) (f_prefix s) (f_space s) (f_ndd s) (f_nn s) (f_formats s).
Definition s_expect (s : aytf) v : aytf := mkA (f_out s) (f_tmpl s) (f_pattern s) (f_input s) (f_plain s) (f_able s) (f_userfmt s) (f_complete s) v (f_country s) (f_meta s) (f_last s) (f_origpos s) (f_pos s) (f_prefix s) (f_space s) (f_ndd s) (f_nn s) (f_formats s).
Definition s_country (s : aytf) v : aytf := mkA (f_out s) (f_tmpl s) (f_pattern s) (f_input s) (f_plain s) (f_able s) (f_userfmt s) (f_complete s) (f_expect s) v (f_meta s) (f_last s) (f_origpos s) (f_pos s) (f_prefix s) (f_space s) (f_ndd s) (f_nn s) (f_formats s).
Definition s_meta (s : aytf) v : aytf := mkA (f_out s) (f_tmpl s) (f_pattern s) (f_input s) (f_plain s) (f_able s) (f_userfmt s) (f_complete s) (f_expect s) (f_country s) v (f_last s) (f_origpos s) (f_pos s) (f_prefix s) (f_space s) (f_ndd s) (f_nn s) (f_formats s).
Definition s_last (s : aytf) v : aytf := mkA (f_out s) (f_tmpl s) (f_pattern s) (f_input s) (f_plain s) (f_able s) (f_userfmt s) (f_complete s) (f_expect s) (f_country s) (f_meta s) v (f_origpos s) (f_pos s) (f_prefix s) (f_space s) (f_ndd s) (f_nn s) (f_formats s).
Definition s_origpos (s : aytf) v : aytf := mkA (f_out s) (f_tmpl s) (f_pattern s) (f_input s) (f_plain s) (f_able s) (f_userfmt s) (f_complete s) (f_expect s) (f_country s) (f_meta s) (f_last s) v (f_pos s) (f_prefix s) (f_space s) (f_ndd s) (f_nn s) (f_formats s).
Definition s_pos (s : aytf) v : aytf := mkA (f_out s) (f_tmpl s) (f_pattern s) (f_input s) (f_plain s) (f_able s) (f_userfmt s) (f_complete s) (f_expect s) (f_country s) (f_meta s) (f_last s) (f_origpos s) v (f_prefix s) (f_space s) (f_ndd s) (f_nn s) (f_formats s).
Definition s_prefix (s : aytf) v : aytf := mkA (f_out s) (f_tmpl s) (f_pattern s) (f_input s) (f_plain s) (f_able s) (f_userfmt s) (f_complete s) (f_expect s) (f_country s) (f_meta s) (f_last s) (f_origpos s) (f_pos s) v (f_space s) (f_ndd s) (f_nn s) (f_formats s).
Definition s_space (s : aytf) v : aytf := mkA (f_out s) (f_tmpl s) (f_pattern s) (f_input s) (f_plain s) (f_able s) (f_userfmt s) (f_complete s) (f_expect s) (f_country s) (f_meta s) (f_last s) (f_origpos s) (f_pos s) (f_prefix s) v (f_ndd s) (f_nn s) (f_formats s).
Definition s_ndd (s : aytf) v : aytf := mkA (f_out s) (f_tmpl s) (f_pattern s) (f_input s) (f_plain s) (f_able s) (f_userfmt s) (f_complete s) (f_expect s) (f_country s) (f_meta s) (f_last s) (f_origpos s) (f_pos s) (f_prefix s) (f_space s) v (f_nn s) (f_formats s).
Definition s_nn (s : aytf) v : aytf := mkA (f_out s) (f_tmpl s) (f_pattern s) (f_input s) (f_plain s) (f_able s) (f_userfmt s) (f_complete s) (f_expect s) (f_country s) (f_meta s) (f_last s) (f_origpos s) (f_pos s) (f_prefix s) (f_space s) (f_ndd s) v (f_formats s).
Definition s_formats (s : aytf) v : aytf := mkA (f_out s) (f_tmpl s) (f_pattern s) (f_input s) (f_plain s) (f_able s) (f_userfmt s) (f_complete s) (f_expect s) (f_country s) (f_meta s) (f_last s) (f_origpos s) (f_pos s) (f_prefix s) (f_space s) (f_ndd s) (f_nn s) v.

(** asyoutypeformatter.go:78-93 *)
Definition separatorBeforeNationalNumber : N := 32.
Definition minLeadingDigitsLength : nat := 3.
Definition digitPlaceholderRune : N := 8200.   (* U+2008 *)
Definition digitPlaceholder : bytes := Eval vm_compute in encode_rune digitPlaceholderRune.
(** asyoutypeformatter.go:99-102 *)
Definition emptyMetadata : meta := Build_meta None None None None None None None None None None None None None None None None None
  (Some (bs "<ignored>")) None (Some (bs "NA")) None None None None None None [] [] None None None.
(** asyoutypeformatter.go:113-119 *)
Definition src_eligibleFormat : bytes :=
  bs "^(?:[" ++ validPunctuation ++ bs "]*\$1[" ++ validPunctuation ++ bs "]*(?:\$\d[" ++ validPunctuation ++ bs "]*)*)$".
Definition eligibleFormatPattern : re := Eval vm_compute in force (compile src_eligibleFormat).
Definition src_nationalPrefixSeparators : bytes := bs "[- ]".
Definition nationalPrefixSeparatorsPattern : re := Eval vm_compute in force (compile src_nationalPrefixSeparators).

(** asyoutypeformatter.go:145-153 *)
Definition aytf_metadata (C : container) (region : bytes) : option meta :=
  match getMetadataForRegion C (GetRegionCodeForCountryCode C (GetCountryCodeForRegion C region)) with
  | Some m => Some m
  | None => Some emptyMetadata
  end.

(** asyoutypeformatter.go:123-140 *)
Definition GetAsYouTypeFormatter (C : container) (region : bytes) : aytf :=
  {| f_out := []; f_tmpl := []; f_pattern := []; f_input := []; f_plain := []; f_able := true; f_userfmt := false;
     f_complete := false; f_expect := false; f_country := region; f_meta := aytf_metadata C region; f_last := 0;
     f_origpos := 0; f_pos := 0; f_prefix := []; f_space := false; f_ndd := []; f_nn := []; f_formats := [] |}.

(** asyoutypeformatter.go:274-295. In Go the metadata is only looked up again if it is not the default one already. *)
Definition Clear (C : container) (s : aytf) : aytf :=
  let s := s_out s [] in
  let s := s_input s [] in
  let s := s_plain s [] in
  let s := s_tmpl s [] in
  let s := s_last s 0%nat in
  let s := s_pattern s [] in
  let s := s_prefix s [] in
  let s := s_ndd s [] in
  let s := s_nn s [] in
  let s := s_able s true in
  let s := s_userfmt s false in
  let s := s_pos s 0%nat in
  let s := s_origpos s 0%nat in
  let s := s_complete s false in
  let s := s_expect s false in
  let s := s_formats s [] in
  let s := s_space s false in
  s_meta s (aytf_metadata C (f_country s)).

(** asyoutypeformatter.go:255-271 (and the conversion to runes of 247). strings.ReplaceAll works on bytes. *)
Definition longestPhoneNumber : bytes := Eval vm_compute in bs "999999999999999".
Definition getFormattingTemplate (s : aytf) (numberPattern numberFormat : bytes) : M bytes :=
  m <- must_compile numberPattern ;;
  let aPhoneNumber := re_find_string m longestPhoneNumber in
  if (len aPhoneNumber <? len (f_nn s))%nat then Ret []
  else Ret (flat_map (fun c => if c =? 57 then digitPlaceholder else [c]) (re_replace_all m aPhoneNumber numberFormat)).

(** asyoutypeformatter.go:242-251 *)
Definition createFormattingTemplate (s : aytf) (f : nfmt) : M (aytf * bool) :=
  t <- getFormattingTemplate s (get_pattern f) (get_format f) ;;
  if is_empty t then Ret (s_tmpl s [], false) else Ret (s_tmpl s (runes t), true).

(** asyoutypeformatter.go:157-181. [l]: the possible formats from index i on; i is always 0, so a format for which no
    template can be created is the first one. *)
Fixpoint maybe_template_loop (s : aytf) (l : list nfmt) : M (aytf * bool) :=
  match l with
  | [] => Ret (s_able (s_formats s []) false, false)
  | f :: l' =>
      if beq (f_pattern s) (get_pattern f) then Ret (s_formats s l, false)
      else
        r <- createFormattingTemplate s f ;;
        let '(s, ok) := r in
        if ok then
          let s := s_pattern s (get_pattern f) in
          let s := s_space s (re_match nationalPrefixSeparatorsPattern (get_npfr f)) in
          let s := s_last s 0%nat in
          Ret (s_formats s l, true)
        else maybe_template_loop s l'
  end.
Definition maybeCreateNewTemplate (s : aytf) : M (aytf * bool) := maybe_template_loop s (f_formats s).

(** asyoutypeformatter.go:219-240. A negative index panics. *)
Fixpoint narrow_loop (idx : Z) (digits : bytes) (l : list nfmt) : M (list nfmt) :=
  match l with
  | [] => Ret []
  | f :: l' =>
      match nf_leading f with
      | [] => r <- narrow_loop idx digits l' ;; Ret (f :: r)
      | ld =>
          let i := Z.min idx (Z.of_nat (List.length ld) - 1) in
          if (i <? 0)%Z then Panic
          else
            p <- or_panic (nth_error ld (Z.to_nat i)) ;;
            x <- must_compile (anchored_left p) ;;
            r <- narrow_loop idx digits l' ;;
            Ret (if re_match x digits then f :: r else r)
      end
  end.
Definition narrowDownPossibleFormats (s : aytf) (digits : bytes) : M aytf :=
  l <- narrow_loop (Z.of_nat (len digits) - Z.of_nat minLeadingDigitsLength) digits (f_formats s) ;; Ret (s_formats s l).

(** asyoutypeformatter.go:183-217 *)
Definition format_relevant (s : aytf) (f : nfmt) : bool :=
  let first := formattingRuleHasFirstGroupOnly (get_npfr f) in
  if negb (is_empty (f_ndd s)) && first && negb (get_npopt f) && is_empty (get_dccfr f) then false
  else if is_empty (f_ndd s) && negb (f_complete s) && negb first && negb (get_npopt f) then false
  else re_match eligibleFormatPattern (get_format f).
Definition getAvailableFormats (s : aytf) (digits : bytes) : M aytf :=
  let intl := f_complete s && is_empty (f_ndd s) in
  let infs := mget [] md_inf (f_meta s) in
  let l := if intl && negb (match infs with [] => true | _ => false end) then infs else mget [] md_nf (f_meta s) in
  narrowDownPossibleFormats (s_formats s (f_formats s ++ filter (format_relevant s) l)) digits.

(** asyoutypeformatter.go:427-431 *)
Definition isDigitOrLeadingPlusSign (s : aytf) (c : N) : bool :=
  is_Nd c || ((List.length (runes (f_input s)) =? 1)%nat && re_match plusCharsPattern (encode_rune c)).

(** asyoutypeformatter.go:485-495 *)
Definition appendNationalNumber (s : aytf) (nationalNumber : bytes) : bytes :=
  if f_space s && negb (is_empty (f_prefix s)) && negb (last (f_prefix s) 0 =? separatorBeforeNationalNumber)
  then f_prefix s ++ [separatorBeforeNationalNumber] ++ nationalNumber
  else f_prefix s ++ nationalNumber.

(** asyoutypeformatter.go:436-458 *)
Fixpoint format_accrued_loop (s : aytf) (l : list nfmt) : M (aytf * bytes) :=
  match l with
  | [] => Ret (s, [])
  | f :: l' =>
      m <- must_compile (anchored (get_pattern f)) ;;
      if re_match m (f_nn s) then
        let s := s_space s (re_match nationalPrefixSeparatorsPattern (get_npfr f)) in
        let full := appendNationalNumber s (re_replace_all m (f_nn s) (get_format f)) in
        if beq (NormalizeDiallableCharsOnly full) (f_plain s) then Ret (s, full) else format_accrued_loop s l'
      else format_accrued_loop s l'
  end.
Definition attemptToFormatAccruedDigits (s : aytf) : M (aytf * bytes) := format_accrued_loop s (f_formats s).

(** asyoutypeformatter.go:655-680 *)
Fixpoint find_placeholder (t : list N) (i : nat) : option nat :=
  match t with
  | [] => None
  | c :: t' => if c =? digitPlaceholderRune then Some i else find_placeholder t' (S i)
  end.
Definition set_nth (t : list N) (i : nat) (c : N) : list N := firstn i t ++ c :: skipn (S i) t.
Definition inputDigitHelper (s : aytf) (c : N) : aytf * bytes :=
  match find_placeholder (skipn (f_last s) (f_tmpl s)) (f_last s) with
  | Some idx =>
      let s := s_tmpl s (set_nth (f_tmpl s) idx c) in
      let s := s_last s idx in
      (s, encode_runes (firstn (S (f_last s)) (f_tmpl s)))
  | None =>
      let s := match f_formats s with [_] => s_able s false | _ => s end in
      let s := s_pattern s [] in
      (s, f_input s)
  end.

(** asyoutypeformatter.go:520-533: each byte of the national number is converted to a rune. *)
Definition inputAccruedNationalNumber (s : aytf) : aytf * bytes :=
  if is_empty (f_nn s) then (s, f_prefix s)
  else
    let '(s, temp) := fold_left (fun st c => inputDigitHelper (fst st) c) (f_nn s) (s, []) in
    (s, if f_able s then appendNationalNumber s temp else f_input s).

(** asyoutypeformatter.go:500-516 *)
Definition attemptToChooseFormattingPattern (s : aytf) : M (aytf * bytes) :=
  if (minLeadingDigitsLength <=? len (f_nn s))%nat then
    s <- getAvailableFormats s (f_nn s) ;;
    r <- attemptToFormatAccruedDigits s ;;
    let '(s, formatted) := r in
    if negb (is_empty formatted) then Ret (s, formatted)
    else
      r <- maybeCreateNewTemplate s ;;
      let '(s, created) := r in
      if created then Ret (inputAccruedNationalNumber s) else Ret (s, f_input s)
  else Ret (s, appendNationalNumber s (f_nn s)).

(** asyoutypeformatter.go:395-403 *)
Definition attemptToChoosePatternWithPrefixExtracted (s : aytf) : M (aytf * bytes) :=
  let s := s_able s true in
  let s := s_expect s false in
  let s := s_formats s [] in
  let s := s_last s 0%nat in
  let s := s_tmpl s [] in
  let s := s_pattern s [] in
  attemptToChooseFormattingPattern s.

(** asyoutypeformatter.go:537-545 *)
Definition isNanpaNumberWithNationalPrefix (s : aytf) : bool :=
  (mcc (f_meta s) =? 1)%Z &&
  match f_nn s with
  | a :: b :: _ => (a =? 49) && negb (b =? 48) && negb (b =? 49)
  | _ => false
  end.

(** asyoutypeformatter.go:549-573: the state and the national prefix extracted. *)
Definition removeNationalPrefixFromNationalNumber (s : aytf) : M (aytf * bytes) :=
  if isNanpaNumberWithNationalPrefix s then
    let s := s_prefix s (f_prefix s ++ [49; separatorBeforeNationalNumber]) in
    let s := s_complete s true in
    Ret (s_nn s (skipn 1 (f_nn s)), firstn 1 (f_nn s))
  else
    let np := mbytes md_np_parse (f_meta s) in
    if is_empty np then Ret (s, [])
    else
      x <- must_compile (anchored_left np) ;;
      match re_find x (f_nn s) with
      | Some m =>
          if (0 <? m_end m)%nat then
            let s := s_complete s true in
            let s := s_prefix s (f_prefix s ++ firstn (m_end m) (f_nn s)) in
            Ret (s_nn s (skipn (m_end m) (f_nn s)), firstn (m_end m) (f_nn s))
          else Ret (s, [])
      | None => Ret (s, [])
      end.

(** asyoutypeformatter.go:413-425. SetLength(-1) panics. *)
Definition ableToExtractLongerNdd (s : aytf) : M (aytf * bool) :=
  s <- (if is_empty (f_ndd s) then Ret s
        else
          let s := s_nn s (f_ndd s ++ f_nn s) in
          match last_index_of (f_prefix s) (f_ndd s) with
          | Some i => Ret (s_prefix s (firstn i (f_prefix s)))
          | None => Panic
          end) ;;
  r <- removeNationalPrefixFromNationalNumber s ;;
  let '(s, removed) := r in
  Ret (s, negb (beq (f_ndd s) removed)).

(** asyoutypeformatter.go:579-597. The first byte of an empty input panics. *)
Definition attemptToExtractIdd (s : aytf) : M (aytf * bool) :=
  x <- must_compile (anchored_left ([92; plusSign] ++ bs "|" ++ mbytes md_iprefix (f_meta s))) ;;
  match re_find x (f_plain s) with
  | Some m =>
      let s := s_complete s true in
      let s := s_nn s (skipn (m_end m) (f_plain s)) in
      let s := s_prefix s (firstn (m_end m) (f_plain s)) in
      match f_plain s with
      | [] => Panic
      | c :: _ =>
          let s := if c =? plusSign then s else s_prefix s (f_prefix s ++ [separatorBeforeNationalNumber]) in
          Ret (s, true)
      end
  | None => Ret (s, false)
  end.

(** asyoutypeformatter.go:603-627 *)
Definition attemptToExtractCountryCallingCode (C : container) (s : aytf) : aytf * bool :=
  if is_empty (f_nn s) then (s, false)
  else
    match extractCountryCode C (f_nn s) with
    | None => (s, false)
    | Some (cc, rest) =>
        if (cc =? 0)%Z then (s, false)
        else
          let s := s_nn s rest in
          let newRegionCode := GetRegionCodeForCountryCode C cc in
          let s := if beq nonGeoEntity newRegionCode then s_meta s (getMetadataForNonGeographicalRegion C cc)
                   else if negb (beq newRegionCode (f_country s)) then s_meta s (aytf_metadata C newRegionCode)
                   else s in
          let s := s_prefix s (f_prefix s ++ itoa cc ++ [separatorBeforeNationalNumber]) in
          (s_ndd s [], true)
    end.

(** asyoutypeformatter.go:635-653 *)
Definition normalizeAndAccrueDigitsAndPlusSign (s : aytf) (c : N) (remember : bool) : aytf * N :=
  let '(s, normalized) :=
    if c =? plusSign then (s_plain s (f_plain s ++ encode_rune c), c)
    else
      let v := match char_digit c with Some v => v | None => c end in
      let s := s_plain s (f_plain s ++ encode_rune v) in
      (s_nn s (f_nn s ++ encode_rune v), v) in
  let s := if remember then s_pos s (List.length (runes (f_plain s))) else s in
  (s, normalized).

(** asyoutypeformatter.go:366-391, the default case (also reached from case 3 by fallthrough). *)
Definition input_default (C : container) (s : aytf) (c : N) : M (aytf * bytes) :=
  if f_expect s then
    let '(s, ok) := attemptToExtractCountryCallingCode C s in
    let s := if ok then s_expect s false else s in
    Ret (s, f_prefix s ++ f_nn s)
  else
    match f_formats s with
    | _ :: _ =>
        let '(s, temp) := inputDigitHelper s c in
        r <- attemptToFormatAccruedDigits s ;;
        let '(s, formatted) := r in
        if negb (is_empty formatted) then Ret (s, formatted)
        else
          s <- narrowDownPossibleFormats s (f_nn s) ;;
          r <- maybeCreateNewTemplate s ;;
          let '(s, created) := r in
          if created then Ret (inputAccruedNationalNumber s)
          else if f_able s then Ret (s, appendNationalNumber s temp)
          else Ret (s, f_input s)
    | [] => attemptToChooseFormattingPattern s
    end.

(** asyoutypeformatter.go:319-393 *)
Definition inputDigitWithOptionToRememberPosition (C : container) (s : aytf) (c : N) (remember : bool) : M (aytf * bytes) :=
  let s := s_input s (f_input s ++ encode_rune c) in
  let s := if remember then s_origpos s (List.length (runes (f_input s))) else s in
  let '(s, c) := if isDigitOrLeadingPlusSign s c then normalizeAndAccrueDigitsAndPlusSign s c remember
                 else (s_userfmt (s_able s false) true, c) in
  if negb (f_able s) then
    if f_userfmt s then Ret (s, f_input s)
    else
      r <- attemptToExtractIdd s ;;
      let '(s, idd) := r in
      if idd then
        let '(s, ok) := attemptToExtractCountryCallingCode C s in
        if ok then attemptToChoosePatternWithPrefixExtracted s else Ret (s, f_input s)
      else
        r <- ableToExtractLongerNdd s ;;
        let '(s, longer) := r in
        if longer then attemptToChoosePatternWithPrefixExtracted (s_prefix s (f_prefix s ++ [separatorBeforeNationalNumber]))
        else Ret (s, f_input s)
  else
    if (len (f_plain s) <=? 2)%nat then Ret (s, f_input s)
    else if (len (f_plain s) =? 3)%nat then
      r <- attemptToExtractIdd s ;;
      let '(s, idd) := r in
      if idd then input_default C (s_expect s true) c
      else
        r <- removeNationalPrefixFromNationalNumber s ;;
        let '(s, ndd) := r in
        attemptToChooseFormattingPattern (s_ndd s ndd)
    else input_default C s c.

(** asyoutypeformatter.go:304-317 *)
Definition InputDigit (C : container) (s : aytf) (c : N) : M (aytf * bytes) :=
  r <- inputDigitWithOptionToRememberPosition C s c false ;; let '(s, o) := r in Ret (s_out s o, o).
Definition InputDigitAndRememberPosition (C : container) (s : aytf) (c : N) : M (aytf * bytes) :=
  r <- inputDigitWithOptionToRememberPosition C s c true ;; let '(s, o) := r in Ret (s_out s o, o).

(** asyoutypeformatter.go:463-480. The loop ends as soon as the position is reached or the output is exhausted; an index
    outside the accrued input panics. *)
Fixpoint remembered_loop (input output : list N) (left pos : nat) : M nat :=
  match left, output with
  | O, _ => Ret pos
  | _, [] => Ret pos
  | S left', o :: output' =>
      match input with
      | [] => Panic
      | i :: input' => if i =? o then remembered_loop input' output' left' (S pos) else remembered_loop input output' left (S pos)
      end
  end.
Definition GetRememberedPosition (s : aytf) : M nat :=
  if negb (f_able s) then Ret (f_origpos s)
  else remembered_loop (runes (f_plain s)) (runes (f_out s)) (f_pos s) 0.
