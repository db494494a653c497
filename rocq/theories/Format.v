(** Model of the formatting functions of phonenumberutil.go that do not need the parser. No proofs here. *)
From Verif Require Import Base Utf8 Regex Consts Types Normalize Validate.

(** phonenumberutil.go:1549-1579 *)
Fixpoint chooseFormattingPatternForNumber (l : list nfmt) (nationalNumber : bytes) : M (option nfmt) :=
  match l with
  | [] => Ret None
  | f :: l' =>
      m <- must_compile (anchored (get_pattern f)) ;;
      match nf_leading f with
      | [] =>
          if re_match m nationalNumber && (len (re_find_string m nationalNumber) =? len nationalNumber)%nat
          then Ret (Some f) else chooseFormattingPatternForNumber l' nationalNumber
      | ld =>
          reg <- must_compile (last ld []) ;;
          match re_find reg nationalNumber with
          | Some x => if (m_start x =? 0)%nat && re_match m nationalNumber then Ret (Some f)
                      else chooseFormattingPatternForNumber l' nationalNumber
          | None => chooseFormattingPatternForNumber l' nationalNumber
          end
      end
  end.

(** phonenumberutil.go:1610-1640: firstGroupPattern's first match in the format rule is replaced by [rule] expanded
    with that match. *)
Definition replace_first_group (format rule : bytes) : bytes :=
  match re_find firstGroupPattern format with
  | None => format
  | Some m => firstn (m_start m) format ++ expand_template rule format m ++ skipn (m_end m) format
  end.

(** phonenumberutil.go:1602-1611: the closure replaces only the first $CC. *)
Definition replace_first_cc (rule carrier : bytes) : bytes :=
  match re_find ccPattern rule with
  | None => rule
  | Some m => firstn (m_start m) rule ++ carrier ++ skipn (m_end m) rule
  end.

(** phonenumberutil.go:1654-1663 *)
Definition rfc3966_separators (s : bytes) : bytes :=
  let s := match re_find separatorPattern s with
           | Some m => if (m_start m =? 0)%nat then skipn (m_end m) s else s
           | None => s
           end in
  join (re_find_all_string notSeparatorPattern s) (bs "-").

(** phonenumberutil.go:1592-1666 *)
Definition formatNsnUsingPatternWithCarrier (nationalNumber : bytes) (fp : nfmt) (nf : pformat) (carrier : bytes)
  : M bytes :=
  m <- must_compile (get_pattern fp) ;;
  let rule := get_format fp in
  let formatted :=
    if pformat_eqb nf NATIONAL && negb (is_empty carrier) && negb (is_empty (get_dccfr fp)) then
      re_replace_all m nationalNumber (replace_first_group rule (replace_first_cc (get_dccfr fp) carrier))
    else if pformat_eqb nf NATIONAL && negb (is_empty (get_npfr fp)) then
      re_replace_all m nationalNumber (replace_first_group rule (get_npfr fp))
    else re_replace_all m nationalNumber rule in
  Ret (if pformat_eqb nf RFC3966 then rfc3966_separators formatted else formatted).

(** phonenumberutil.go:1582-1588 *)
Definition formatNsnUsingPattern (nationalNumber : bytes) (fp : nfmt) (nf : pformat) : M bytes :=
  formatNsnUsingPatternWithCarrier nationalNumber fp nf [].

(** phonenumberutil.go:1532-1547 *)
Definition available_formats (m : option meta) (nf : pformat) : list nfmt :=
  match mget [] md_inf m with
  | [] => mget [] md_nf m
  | l => if pformat_eqb nf NATIONAL then mget [] md_nf m else l
  end.
Definition formatNsnWithCarrier (number : bytes) (m : option meta) (nf : pformat) (carrier : bytes) : M bytes :=
  fp <- chooseFormattingPatternForNumber (available_formats m nf) number ;;
  match fp with
  | None => Ret number
  | Some fp => formatNsnUsingPatternWithCarrier number fp nf carrier
  end.

(** phonenumberutil.go:1521-1524 *)
Definition formatNsn (number : bytes) (m : option meta) (nf : pformat) : M bytes := formatNsnWithCarrier number m nf [].

(** phonenumberutil.go:1773-1793: what is appended for the extension. *)
Definition formattedExtension (n : phone) (m : option meta) (nf : pformat) : bytes :=
  let e := get_ext n in
  if is_empty e then []
  else if pformat_eqb nf RFC3966 then rfc3966ExtnPrefix ++ e
  else if negb (is_empty (mbytes md_extn m)) then mbytes md_extn m ++ e
  else defaultExtnPrefix ++ e.

(** phonenumberutil.go:1490-1518 *)
Definition prefixNumberWithCountryCallingCode (cc : Z) (nf : pformat) (s : bytes) : bytes :=
  match nf with
  | E164 => [plusSign] ++ itoa cc ++ s
  | INTERNATIONAL => [plusSign] ++ itoa cc ++ bs " " ++ s
  | RFC3966 => rfc3966Prefix ++ [plusSign] ++ itoa cc ++ bs "-" ++ s
  | NATIONAL => s
  end.

(** phonenumberutil.go:854-886 *)
Definition formatWithBuf (C : container) (n : phone) (nf : pformat) : M bytes :=
  let cc := get_cc n in
  let nsn := GetNationalSignificantNumber n in
  if pformat_eqb nf E164 then Ret (prefixNumberWithCountryCallingCode cc E164 nsn)
  else if negb (hasValidCountryCallingCode C cc) then Ret nsn
  else
    let m := getMetadataForRegionOrCallingCode C cc (GetRegionCodeForCountryCode C cc) in
    s <- formatNsn nsn m nf ;;
    Ret (prefixNumberWithCountryCallingCode cc nf (s ++ formattedExtension n m nf)).

(** phonenumberutil.go:831-847 *)
Definition Format (C : container) (n : phone) (nf : pformat) : M bytes :=
  if (get_nn n =? 0) && negb (is_empty (get_raw n)) then Ret (get_raw n) else formatWithBuf C n nf.

(** phonenumberutil.go:893-956 *)
Definition FormatByPattern (C : container) (n : phone) (nf : pformat) (formats : list nfmt) : M bytes :=
  let cc := get_cc n in
  let nsn := GetNationalSignificantNumber n in
  if negb (hasValidCountryCallingCode C cc) then Ret nsn
  else
    let m := getMetadataForRegionOrCallingCode C cc (GetRegionCodeForCountryCode C cc) in
    fp <- chooseFormattingPatternForNumber formats nsn ;;
    s <- match fp with
         | None => Ret nsn
         | Some fp =>
             let rule := get_npfr fp in
             let copy :=
               if negb (is_empty rule) then
                 let np := mbytes md_nprefix m in
                 if negb (is_empty np)
                 then set_npfr fp (Some (re_replace_literal fgPattern (re_replace_all npPattern rule np) (bs "$1")))
                 else set_npfr fp None
               else fp in
             formatNsnUsingPattern nsn copy nf
         end ;;
    Ret (prefixNumberWithCountryCallingCode cc nf (s ++ formattedExtension n m nf)).

(** phonenumberutil.go:963-990 *)
Definition FormatNationalNumberWithCarrierCode (C : container) (n : phone) (carrier : bytes) : M bytes :=
  let cc := get_cc n in
  let nsn := GetNationalSignificantNumber n in
  if negb (hasValidCountryCallingCode C cc) then Ret nsn
  else
    let m := getMetadataForRegionOrCallingCode C cc (GetRegionCodeForCountryCode C cc) in
    s <- formatNsnWithCarrier nsn m NATIONAL carrier ;;
    Ret (prefixNumberWithCountryCallingCode cc NATIONAL (s ++ formattedExtension n m NATIONAL)).

(** phonenumberutil.go:1009-1018 *)
Definition FormatNationalNumberWithPreferredCarrierCode (C : container) (n : phone) (fallback : bytes) : M bytes :=
  FormatNationalNumberWithCarrierCode C n (if is_empty (get_carrier n) then fallback else get_carrier n).

(** phonenumberutil.go:1024-1117 *)
Definition r_BR := Eval vm_compute in bs "BR".
Definition r_MX := Eval vm_compute in bs "MX".
Definition r_CL := Eval vm_compute in bs "CL".
Definition r_UZ := Eval vm_compute in bs "UZ".

(** The number formatted for dialling from its own region (1047-1098). *)
Definition mobile_same_region (C : container) (n : phone) (region : bytes) (t : ptype) : M bytes :=
  let fixedOrMobile := ptype_eqb t FIXED_LINE || ptype_eqb t MOBILE || ptype_eqb t FIXED_LINE_OR_MOBILE in
  if beq region r_BR && fixedOrMobile then
    (if negb (is_empty (get_carrier n)) then FormatNationalNumberWithPreferredCarrierCode C n [] else Ret [])
  else if Z.eqb (get_cc n) nanpaCountryCode then
    d <- CanBeInternationallyDialled C n ;;
    if d : bool then
      v <- testNumberLength (GetNationalSignificantNumber n) (getMetadataForRegion C region) UNKNOWN ;;
      if negb (vresult_eqb v TOO_SHORT) then Format C n INTERNATIONAL else Format C n NATIONAL
    else Format C n NATIONAL
  else if beq region nonGeoEntity || ((beq region r_MX || beq region r_CL || beq region r_UZ) && fixedOrMobile) then
    d <- CanBeInternationallyDialled C n ;;
    if d : bool then Format C n INTERNATIONAL else Format C n NATIONAL
  else Format C n NATIONAL.

Definition FormatNumberForMobileDialing (C : container) (number : phone) (regionCallingFrom : bytes)
    (withFormatting : bool) : M bytes :=
  let cc := get_cc number in
  if negb (hasValidCountryCallingCode C cc) then Ret (get_raw number)
  else
    let n := set_ext number None in
    let region := GetRegionCodeForCountryCode C cc in
    t <- GetNumberType C n ;;
    let finish (s : bytes) := Ret (if withFormatting then s else NormalizeDiallableCharsOnly s) in
    if beq regionCallingFrom region then
      s <- mobile_same_region C n region t ;; finish s
    else if negb (ptype_eqb t UNKNOWN) then
      d <- CanBeInternationallyDialled C n ;;
      if d : bool then (if withFormatting then Format C n INTERNATIONAL else Format C n E164) else finish []
    else finish [].

(** phonenumberutil.go:1132-1196 *)
Definition FormatOutOfCountryCallingNumber (C : container) (n : phone) (from : bytes) : M bytes :=
  if negb (isValidRegionCode C from) then Format C n INTERNATIONAL
  else
    let cc := get_cc n in
    let nsn := GetNationalSignificantNumber n in
    if negb (hasValidCountryCallingCode C cc) then Ret nsn
    else if Z.eqb cc nanpaCountryCode && IsNANPACountry C from then
      s <- Format C n NATIONAL ;; Ret (itoa cc ++ bs " " ++ s)
    else if negb (Z.eqb cc nanpaCountryCode) && Z.eqb cc (getCountryCodeForValidRegion C from) then Format C n NATIONAL
    else
      let mf := getMetadataForRegion C from in
      let ip := mbytes md_iprefix mf in
      let pref := mbytes md_pref_iprefix mf in
      let ipf := if negb (is_empty pref) then pref
                 else if re_match uniqueInternationalPrefix ip then ip else [] in
      let m := getMetadataForRegionOrCallingCode C cc (GetRegionCodeForCountryCode C cc) in
      s <- formatNsn nsn m INTERNATIONAL ;;
      let s := s ++ formattedExtension n m INTERNATIONAL in
      Ret (if negb (is_empty ipf) then ipf ++ bs " " ++ itoa cc ++ bs " " ++ s
           else prefixNumberWithCountryCallingCode cc INTERNATIONAL s).

(** phonenumberutil.go:1440-1455 pattern override of FormatOutOfCountryKeepingAlphaChars. *)
Definition keep_alpha_format (f : nfmt) : nfmt :=
  {| nf_pattern := Some (bs "(\d+)(.*)"); nf_format := Some (bs "$1$2"); nf_leading := nf_leading f;
     nf_npfr := nf_npfr f; nf_npopt := nf_npopt f; nf_dccfr := nf_dccfr f |}.

(** phonenumberutil.go:1360-1455 *)
Definition FormatOutOfCountryKeepingAlphaChars (C : container) (n : phone) (from : bytes) : M bytes :=
  let rawInput := get_raw n in
  if is_empty rawInput then FormatOutOfCountryCallingNumber C n from
  else
    let cc := get_cc n in
    if negb (hasValidCountryCallingCode C cc) then Ret rawInput
    else
      let raw := normalizeHelper rawInput allPlusNumberGroupingSymbols true in
      let nsn := GetNationalSignificantNumber n in
      let raw := if (3 <? len nsn)%nat
                 then match index_of raw (firstn 3 nsn) with Some i => skipn i raw | None => raw end
                 else raw in
      let mf := getMetadataForRegion C from in
      if Z.eqb cc nanpaCountryCode && IsNANPACountry C from then Ret (itoa cc ++ bs " " ++ raw)
      else if negb (Z.eqb cc nanpaCountryCode) && is_some mf && Z.eqb cc (getCountryCodeForValidRegion C from) then
        fp <- chooseFormattingPatternForNumber (mget [] md_nf mf) nsn ;;
        match fp with
        | None => Ret raw
        | Some f => formatNsnUsingPattern raw (keep_alpha_format f) NATIONAL
        end
      else
        let ipf := match mf with
                   | None => []
                   | Some _ => let ip := mbytes md_iprefix mf in
                               if re_match uniqueInternationalPrefix ip then ip else mbytes md_pref_iprefix mf
                   end in
        let m := getMetadataForRegionOrCallingCode C cc (GetRegionCodeForCountryCode C cc) in
        let s := fst (maybeStripExtension raw) ++ formattedExtension n m INTERNATIONAL in
        Ret (if negb (is_empty ipf) then ipf ++ bs " " ++ itoa cc ++ bs " " ++ s
             else prefixNumberWithCountryCallingCode cc INTERNATIONAL s).

(** phonenumberutil.go:782-786 *)
Definition formattingRuleHasFirstGroupOnly (rule : bytes) : bool :=
  is_empty rule || re_match firstGroupOnlyPrefixPattern rule.

(** phonenumberutil.go:1326-1338 *)
Definition hasFormattingPatternForNumber (C : container) (n : phone) : M bool :=
  let cc := get_cc n in
  match getMetadataForRegionOrCallingCode C cc (GetRegionCodeForCountryCode C cc) with
  | None => Ret false
  | Some m =>
      fp <- chooseFormattingPatternForNumber (md_nf m) (GetNationalSignificantNumber n) ;;
      Ret (is_some fp)
  end.

(** phonenumberutil.go:633-670 *)
Definition GetLengthOfNationalDestinationCode (C : container) (n : phone) : M nat :=
  let copied := if negb (is_empty (get_ext n)) then set_ext n None else n in
  s <- Format C copied INTERNATIONAL ;;
  match re_split nonDigitsPattern s with
  | _ :: _ :: g2 :: g3 :: _ =>
      t <- GetNumberType C n ;;
      if ptype_eqb t MOBILE && negb (is_empty (GetCountryMobileToken (get_cc n)))
      then Ret (len g2 + len g3)%nat
      else Ret (len g2)
  | _ => Ret 0%nat
  end.

(** phonenumberutil.go:578-609 *)
Definition GetLengthOfGeographicalAreaCode (C : container) (n : phone) : M nat :=
  r <- GetRegionCodeForNumber C n ;;
  match getMetadataForRegion C r with
  | None => Ret 0%nat
  | Some m =>
      t <- GetNumberType C n ;;
      if is_empty (get_bytes (md_nprefix m)) && negb (get_ilz n)
         && negb (memz (get_cc n) countriesWithoutNationalPrefixWithAreaCodes) then Ret 0%nat
      else if ptype_eqb t MOBILE && memz (get_cc n) geoMobileCountriesWithoutMobileAreaCodes then Ret 0%nat
      else
        g <- IsNumberGeographical C n ;;
        if negb g then Ret 0%nat else GetLengthOfNationalDestinationCode C n
  end.
