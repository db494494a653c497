(** Model of the parser of phonenumberutil.go (2349-2945), number matching (2960-3110) and the functions depending on
    it. A Go function that fills a [*PhoneNumber] and may return an error becomes a function returning the number after
    the call together with an optional error. No proofs here. *)
From Verif Require Import Base Utf8 Regex Consts Types Normalize Validate Format.

(** phonenumberutil.go:2349-2372. [None]: 0 is returned and nothing is appended to nationalNumber. [cc_try] is the loop
    over i = 1..3; on an Atoi error Go uses the value 0. *)
Definition atoi_or_0 (s : bytes) : Z := match atoi s with Some z => z | None => 0%Z end.
Fixpoint cc_try (C : container) (full : bytes) (i tries : nat) : option (Z * bytes) :=
  match tries with
  | O => None
  | S t =>
      if (len full <? i)%nat then None
      else
        let cc := atoi_or_0 (firstn i full) in
        if hasValidCountryCallingCode C cc then Some (cc, skipn i full) else cc_try C full (S i) t
  end.
Definition extractCountryCode (C : container) (full : bytes) : option (Z * bytes) :=
  match full with
  | [] => None
  | 48 :: _ => None
  | _ => cc_try C full 1 maxLengthCountryCode
  end.

(** phonenumberutil.go:2470-2490: the number with the IDD removed, if it has one. *)
Definition parsePrefixAsIdd (idd : re) (number : bytes) : option bytes :=
  match re_find idd number with
  | Some m =>
      if (m_start m =? 0)%nat then
        let rest := skipn (m_end m) number in
        match re_find_all_string capturingDigitPattern rest with
        | d :: _ => if beq (NormalizeDigitsOnly d) [48] then None else Some rest
        | [] => Some rest
        end
      else None
  | None => None
  end.

(** phonenumberutil.go:2494-2520 *)
Definition maybeStripInternationalPrefixAndNormalize (number possibleIddPrefix : bytes) : M (bytes * ccsource) :=
  match number with
  | [] => Ret ([], FROM_DEFAULT_COUNTRY)
  | _ =>
      match re_find plusCharsPattern number with
      | Some {| m_start := 0%nat; m_end := e |} => Ret (normalize (skipn e number), FROM_NUMBER_WITH_PLUS_SIGN)
      | _ =>
          idd <- must_compile possibleIddPrefix ;;
          let number := normalize number in
          match parsePrefixAsIdd idd number with
          | Some rest => Ret (rest, FROM_NUMBER_WITH_IDD)
          | None => Ret (number, FROM_DEFAULT_COUNTRY)
          end
      end
  end.

(** phonenumberutil.go:2523-2585. Result: the number afterwards, what is appended to the carrier code, and the
    boolean. *)
Definition maybeStripNationalPrefixAndCarrierCode (number : bytes) (m : option meta) : M (bytes * bytes * bool) :=
  let np := mbytes md_np_parse m in
  if is_empty number || is_empty np then Ret (number, [], false)
  else
    pm <- must_compile (anchored_left np) ;;
    match re_find pm number with
    | None => Ret (number, [], false)
    | Some g =>
        rule <- must_compile (anchored (get_d_pattern (mdesc md_general m))) ;;
        let viable := re_match rule number in
        let ng := re_ngroups pm in
        let transform := mbytes md_np_transform m in
        if is_empty transform || negb (is_some (group g ng)) then
          let rest := skipn (m_end g) number in
          if viable && negb (re_match rule rest) then Ret (number, [], false)
          else
            let carrier := if (0 <? ng)%nat then group_str number g 1 else [] in
            Ret (rest, carrier, true)
        else
          let transformed := re_replace_all pm number transform in
          if viable && negb (re_match rule transformed) then Ret (number, [], false)
          else
            let carrier := if (1 <? ng)%nat then group_str number g 1 else [] in
            Ret (transformed, carrier, true)
    end.

(** phonenumberutil.go:2388-2466: the number afterwards and either an error or the country calling code with the bytes
    written to nationalNumber. *)
Definition maybeExtractCountryCode (C : container) (number : bytes) (dm : option meta) (keepRawInput : bool) (p : phone)
  : M (phone * (err + Z * bytes)) :=
  match number with
  | [] => Ret (p, inr (0%Z, []))
  | _ =>
      let idd := match dm with Some _ => mbytes md_iprefix dm | None => bs "NonMatch" end in
      r <- maybeStripInternationalPrefixAndNormalize number idd ;;
      let '(full, src) := r in
      let p := if keepRawInput then set_src p (Some src) else p in
      match src with
      | FROM_DEFAULT_COUNTRY =>
          match dm with
          | None => Ret (set_cc p (Some 0%Z), inr (0%Z, []))
          | Some _ =>
              let dcc := mcc dm in
              let ds := itoa dcc in
              if has_prefix full ds then
                rule <- must_compile (anchored (get_d_pattern (mdesc md_general dm))) ;;
                r <- maybeStripNationalPrefixAndCarrierCode (skipn (len ds) full) dm ;;
                let '(potential, _, _) := r in
                v <- testNumberLength full dm UNKNOWN ;;
                if (negb (re_match rule full) && re_match rule potential) || vresult_eqb v TOO_LONG then
                  let p := if keepRawInput then set_src p (Some FROM_NUMBER_WITHOUT_PLUS_SIGN) else p in
                  Ret (set_cc p (Some (to_int32 dcc)), inr (dcc, potential))
                else Ret (set_cc p (Some 0%Z), inr (0%Z, []))
              else Ret (set_cc p (Some 0%Z), inr (0%Z, []))
          end
      | _ =>
          if (len full <=? minLengthForNSN)%nat then Ret (p, inl ErrTooShortAfterIDD)
          else match extractCountryCode C full with
               | Some (cc, rest) =>
                   (* a calling code of 0 in the map would be treated as "none found" *)
                   if Z.eqb cc 0 then Ret (p, inl ErrInvalidCountryCode)
                   else Ret (set_cc p (Some (to_int32 cc)), inr (cc, rest))
               | None => Ret (p, inl ErrInvalidCountryCode)
               end
      end
  end.

(** phonenumberutil.go:2616-2626 *)
Definition checkRegionForParsing (C : container) (number region : bytes) : bool :=
  isValidRegionCode C region || (negb (is_empty number) && re_match plusCharsPattern number).

(** phonenumberutil.go:2696-2713 *)
Fixpoint count_zeros (s : bytes) : nat :=
  match s with 48 :: t => S (count_zeros t) | _ => 0%nat end.
(** numLeadZeros after the loop: at least one, at most len - 1. *)
Definition num_lead_zeros (s : bytes) : nat := Nat.min (count_zeros s) (len s - 1).
Definition setItalianLeadingZerosForPhoneNumber (s : bytes) (p : phone) : phone :=
  match s with
  | 48 :: _ :: _ =>
      let p := set_ilz p (Some true) in
      if (num_lead_zeros s =? 1)%nat then p else set_nlz p (Some (Z.of_nat (num_lead_zeros s)))
  | _ => set_ilz p None
  end.

(** phonenumberutil.go:2851-2875 *)
Definition extractPhoneContext (s : bytes) (idx : option nat) : bytes :=
  match idx with
  | None => []
  | Some i =>
      let st := (i + len rfc3966PhoneContext)%nat in
      if (len s <=? st)%nat then []
      else match index_byte (skipn st s) 59 with
           | Some e => sub s st (e + st)
           | None => skipn st s
           end
  end.

(** phonenumberutil.go:2878-2885 *)
Definition isPhoneContextValid (c : bytes) : bool :=
  negb (is_empty c) && (re_match rfc3966GlobalNumberDigitsPattern c || re_match rfc3966DomainnamePattern c).

(** phonenumberutil.go:2890-2945 *)
Definition buildNationalNumberForParsing (s : bytes) : M bytes :=
  let idx := index_of s rfc3966PhoneContext in
  let ctx := extractPhoneContext s idx in
  if is_some idx && negb (isPhoneContextValid ctx) then Fail ErrNotANumber
  else
    nn <- match idx with
          | Some (S _ as i) =>
              c0 <- or_panic (hd_error ctx) ;;
              let pre := if c0 =? plusSign then ctx else [] in
              let start := match index_of s rfc3966Prefix with
                           | Some j => if (j <? i)%nat then (j + len rfc3966Prefix)%nat else 0%nat
                           | None => 0%nat
                           end in
              mid <- slice s start i ;;
              Ret (pre ++ mid)
          | _ => Ret (extractPossibleNumber s)
          end ;;
    match index_of nn rfc3966IsdnSubaddress with
    | Some (S _ as i) => Ret (firstn i nn)
    | _ => Ret nn
    end.

(** phonenumberutil.go:2798-2846: the part of parseHelper after the country calling code is known. [norm] is
    normalizedNationalNumber, [m] the metadata to use. *)
Definition finish_parse (norm : bytes) (m : option meta) (keepRawInput : bool) (p : phone) : M (phone * option err) :=
  if (len norm <? minLengthForNSN)%nat then Ret (p, Some ErrTooShortNSN)
  else
    r <- match m with
         | None => Ret (norm, p)
         | Some _ =>
             r <- maybeStripNationalPrefixAndCarrierCode norm m ;;
             let '(potential, carrier, _) := r in
             v <- testNumberLength potential m UNKNOWN ;;
             match v with
             | TOO_SHORT | IS_POSSIBLE_LOCAL_ONLY | INVALID_LENGTH => Ret (norm, p)
             | _ => Ret (potential,
                         if keepRawInput && negb (is_empty carrier) then set_carrier p (Some carrier) else p)
             end
         end ;;
    let '(norm, p) := r in
    if (len norm <? minLengthForNSN)%nat then Ret (p, Some ErrTooShortNSN)
    else if (maxLengthForNSN <? len norm)%nat then Ret (p, Some ErrNumTooLong)
    else
      let p := setItalianLeadingZerosForPhoneNumber norm p in
      Ret (set_nn p (Some (parse_uint_val norm)), None).

(** phonenumberutil.go:2726-2846 *)
Definition parseHelper (C : container) (numberToParse defaultRegion : bytes) (keepRawInput checkRegion : bool)
    (p : phone) : M (phone * option err) :=
  if is_empty numberToParse then Ret (p, Some ErrNotANumber)
  else if (maxInputStringLength <? len numberToParse)%nat then Ret (p, Some ErrNumTooLong)
  else
    match buildNationalNumberForParsing numberToParse with
    | Panic => Panic
    | Fail e => Ret (p, Some e)
    | Ret nationalNumber =>
        if negb (isViablePhoneNumber nationalNumber) then Ret (p, Some ErrNotANumber)
        else if checkRegion && negb (checkRegionForParsing C nationalNumber defaultRegion)
        then Ret (p, Some ErrInvalidCountryCode)
        else
          let p := if keepRawInput then set_raw p (Some numberToParse) else p in
          let '(nationalNumber, extension) := maybeStripExtension nationalNumber in
          let p := if is_empty extension then p else set_ext p (Some extension) in
          let m := getMetadataForRegion C defaultRegion in
          r <- maybeExtractCountryCode C nationalNumber m keepRawInput p ;;
          let '(p, r) := r in
          r2 <- match r with
                | inr x => Ret (p, inr x)
                | inl ErrInvalidCountryCode =>
                    match re_find plusCharsPattern nationalNumber with
                    | Some x =>
                        r <- maybeExtractCountryCode C (skipn (m_end x) nationalNumber) m keepRawInput p ;;
                        let '(p, r) := r in
                        match r with
                        | inl e => Ret (p, inl e)
                        | inr (cc, norm) => if Z.eqb cc 0 then Ret (p, inl ErrInvalidCountryCode)
                                            else Ret (p, inr (cc, norm))
                        end
                    | None => Ret (p, inl ErrInvalidCountryCode)
                    end
                | inl e => Ret (p, inl e)
                end ;;
          let '(p, r) := r2 in
          match r with
          | inl e => Ret (p, Some e)
          | inr (cc, norm) =>
              if negb (Z.eqb cc 0) then
                let region := GetRegionCodeForCountryCode C cc in
                let m := if beq region defaultRegion then m
                         else getMetadataForRegionOrCallingCode C cc region in
                finish_parse norm m keepRawInput p
              else
                let norm := norm ++ normalize nationalNumber in
                let p := if negb (is_empty defaultRegion) then set_cc p (Some (to_int32 (mcc m)))
                         else if keepRawInput then set_src p None else p in
                finish_parse norm m keepRawInput p
          end
    end.

(** phonenumberutil.go:2632-2662 *)
Definition ParseToNumber (C : container) (s region : bytes) (p : phone) : M (phone * option err) :=
  parseHelper C s region false true p.
Definition Parse (C : container) (s region : bytes) : M (phone * option err) := ParseToNumber C s region phone0.
Definition ParseAndKeepRawInputToNumber (C : container) (s region : bytes) (p : phone) : M (phone * option err) :=
  parseHelper C s region true true p.
Definition ParseAndKeepRawInput (C : container) (s region : bytes) : M (phone * option err) :=
  ParseAndKeepRawInputToNumber C s region phone0.

(** phonenumberutil.go:2120-2126 *)
Definition IsPossibleNumberFromRegion (C : container) (s region : bytes) : M bool :=
  r <- Parse C s region ;;
  match r with
  | (_, Some _) => Ret false
  | (n, None) => IsPossibleNumber C n
  end.

(** * Matching two numbers *)

(** phonenumberutil.go:3010-3024 *)
Definition copyCoreFieldsOnly (n : phone) : phone :=
  {| p_cc := Some (get_cc n);
     p_nn := Some (get_nn n);
     p_ext := if is_empty (get_ext n) then None else Some (get_ext n);
     p_ilz := if get_ilz n then Some true else None;
     p_nlz := if get_ilz n then Some (get_nlz n) else None;
     p_raw := None; p_src := None; p_carrier := None |}.

(** proto.Equal on PhoneNumber messages: same fields present with the same values. Only ever applied to copies that
    have neither raw input nor source nor carrier. *)
Definition opt_eqb {A} (e : A -> A -> bool) (a b : option A) : bool :=
  match a, b with Some x, Some y => e x y | None, None => true | _, _ => false end.
Definition proto_equal (a b : phone) : bool :=
  opt_eqb Z.eqb (p_cc a) (p_cc b) && opt_eqb N.eqb (p_nn a) (p_nn b) && opt_eqb beq (p_ext a) (p_ext b)
  && opt_eqb Bool.eqb (p_ilz a) (p_ilz b) && opt_eqb Z.eqb (p_nlz a) (p_nlz b).

(** phonenumberutil.go:3028-3038 *)
Definition isNationalNumberSuffixOfTheOther (a b : phone) : bool :=
  has_suffix (dec (get_nn a)) (dec (get_nn b)) || has_suffix (dec (get_nn b)) (dec (get_nn a)).

(** phonenumberutil.go:2960-3001 *)
Definition IsNumberMatchWithNumbers (firstIn secondIn : phone) : mtype :=
  let a := copyCoreFieldsOnly firstIn in
  let b := copyCoreFieldsOnly secondIn in
  if negb (is_empty (get_ext a)) && negb (is_empty (get_ext b)) && negb (beq (get_ext a) (get_ext b)) then NO_MATCH
  else
    let ca := get_cc a in
    let cb := get_cc b in
    if negb (ca =? 0)%Z && negb (cb =? 0)%Z then
      if proto_equal a b then EXACT_MATCH
      else if (ca =? cb)%Z && isNationalNumberSuffixOfTheOther a b then SHORT_NSN_MATCH
      else NO_MATCH
    else
      let a := set_cc a (Some cb) in
      if proto_equal a b then NSN_MATCH
      else if isNationalNumberSuffixOfTheOther a b then SHORT_NSN_MATCH
      else NO_MATCH.

(** phonenumberutil.go:3073-3112 *)
Definition IsNumberMatchWithOneNumber (C : container) (a : phone) (second : bytes) : M mtype :=
  r <- Parse C second unknownRegion ;;
  match r with
  | (b, None) => Ret (IsNumberMatchWithNumbers a b)
  | (_, Some ErrInvalidCountryCode) =>
      let region := GetRegionCodeForCountryCode C (get_cc a) in
      if negb (beq region unknownRegion) then
        r <- Parse C second region ;;
        match r with
        | (_, Some _) => Ret NOT_A_NUMBER
        | (b, None) => Ret (match IsNumberMatchWithNumbers a b with EXACT_MATCH => NSN_MATCH | m => m end)
        end
      else
        r <- parseHelper C second [] false false phone0 ;;
        match r with
        | (_, Some _) => Ret NOT_A_NUMBER
        | (b, None) => Ret (IsNumberMatchWithNumbers a b)
        end
  | (_, Some _) => Ret NOT_A_NUMBER
  end.

(** phonenumberutil.go:3043-3068 *)
Definition IsNumberMatch (C : container) (first second : bytes) : M mtype :=
  r <- Parse C first unknownRegion ;;
  match r with
  | (a, None) => IsNumberMatchWithOneNumber C a second
  | (_, Some ErrInvalidCountryCode) =>
      r <- Parse C second unknownRegion ;;
      match r with
      | (b, None) => IsNumberMatchWithOneNumber C b first
      | (_, Some ErrInvalidCountryCode) =>
          r1 <- parseHelper C first [] false false phone0 ;;
          match r1 with
          | (_, Some _) => Ret NOT_A_NUMBER
          | (a, None) =>
              r2 <- parseHelper C second [] false false phone0 ;;
              match r2 with
              | (_, Some _) => Ret NOT_A_NUMBER
              | (b, None) => Ret (IsNumberMatchWithNumbers a b)
              end
          end
      | (_, Some _) => Ret NOT_A_NUMBER
      end
  | (_, Some _) => Ret NOT_A_NUMBER
  end.

(** * Functions that need the parser *)

(** phonenumberutil.go:1308-1324 *)
Definition rawInputContainsNationalPrefix (C : container) (raw np region : bytes) : M bool :=
  let s := NormalizeDigitsOnly raw in
  if has_prefix s np then
    r <- Parse C (skipn (len np) s) region ;;
    match r with
    | (_, Some _) => Ret false
    | (n, None) => IsValidNumber C n
    end
  else Ret false.

(** phonenumberutil.go:1229-1289, the default branch of the switch. *)
Definition original_national (C : container) (n : phone) : M bytes :=
  let region := GetRegionCodeForCountryCode C (get_cc n) in
  let np := GetNddPrefixForRegion C region true in
  nationalFormat <- Format C n NATIONAL ;;
  if is_empty np then Ret nationalFormat
  else
    c <- rawInputContainsNationalPrefix C (get_raw n) np region ;;
    if c : bool then Ret nationalFormat
    else
      fr <- chooseFormattingPatternForNumber (mget [] md_nf (getMetadataForRegion C region))
              (GetNationalSignificantNumber n) ;;
      match fr with
      | None => Ret nationalFormat
      | Some f =>
          let rule := get_npfr f in
          match index_of rule (bs "$1") with
          | None => Ret nationalFormat
          | Some 0%nat => Ret nationalFormat
          | Some i =>
              if is_empty (NormalizeDigitsOnly (firstn i rule)) then Ret nationalFormat
              else FormatByPattern C n NATIONAL [set_npfr f None]
          end
      end.

(** phonenumberutil.go:1207-1304 *)
Definition FormatInOriginalFormat (C : container) (n : phone) (from : bytes) : M bytes :=
  let raw := get_raw n in
  has <- (if is_empty raw then Ret true else hasFormattingPatternForNumber C n) ;;
  if negb has then Ret raw
  else
    match get_src n with
    | UNSPECIFIED => Format C n NATIONAL
    | src =>
        f <- match src with
             | FROM_NUMBER_WITH_PLUS_SIGN => Format C n INTERNATIONAL
             | FROM_NUMBER_WITH_IDD => FormatOutOfCountryCallingNumber C n from
             | FROM_NUMBER_WITHOUT_PLUS_SIGN => s <- Format C n INTERNATIONAL ;; slice_from s 1
             | _ => original_national C n
             end ;;
        if negb (is_empty f) && negb (is_empty raw)
           && negb (beq (NormalizeDiallableCharsOnly f) (NormalizeDiallableCharsOnly raw))
        then Ret raw else Ret f
    end.

(** phonenumberutil.go:1705-1722 *)
Definition GetExampleNumberForTypeInRegion (C : container) (r : bytes) (t : ptype) : M (option phone) :=
  if negb (isValidRegionCode C r) then Ret None
  else
    let ex := get_d_example (getNumberDescByType (getMetadataForRegion C r) t) in
    if is_empty ex then Ret None
    else
      x <- Parse C ex r ;;
      match x with
      | (_, Some _) => Ret None
      | (n, None) => Ret (Some n)
      end.

(** phonenumberutil.go:1669-1671 *)
Definition GetExampleNumber (C : container) (r : bytes) : M (option phone) :=
  GetExampleNumberForTypeInRegion C r FIXED_LINE.

(** phonenumberutil.go:1677-1699 *)
Fixpoint invalid_example_loop (C : container) (ex r : bytes) (l : nat) : M (option phone) :=
  if (l <? minLengthForNSN)%nat then Ret None
  else
    x <- Parse C (firstn l ex) r ;;
    let next := match l with O => Ret None | S l' => invalid_example_loop C ex r l' end in
    match x with
    | (_, Some _) => next
    | (n, None) =>
        v <- IsValidNumber C n ;;
        if v : bool then next else Ret (Some n)
    end.
Definition GetInvalidExampleNumber (C : container) (r : bytes) : M (option phone) :=
  if negb (isValidRegionCode C r) then Ret None
  else
    let ex := get_d_example (getNumberDescByType (getMetadataForRegion C r) FIXED_LINE) in
    if is_empty ex then Ret None else invalid_example_loop C ex r (len ex - 1).

(** phonenumberutil.go:1745-1769 *)
Definition GetExampleNumberForNonGeoEntity (C : container) (cc : Z) : M (option phone) :=
  match getMetadataForNonGeographicalRegion C cc with
  | None => Ret None
  | Some m =>
      match filter (fun e => negb (is_empty e))
              (map get_d_example [md_mobile m; md_tollfree m; md_shared m; md_voip m; md_voicemail m; md_uan m;
                                  md_premium m]) with
      | [] => Ret None
      | e :: _ =>
          x <- Parse C ([plusSign] ++ itoa cc ++ e) unknownRegion ;;
          match x with
          | (_, Some _) => Ret None
          | (n, None) => Ret (Some n)
          end
      end
  end.
