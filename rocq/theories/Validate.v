(** Model of the metadata look-ups, number typing, validity and possible-length checks of phonenumberutil.go and
    metadata/source.go. The active metadata container, a package variable in Go, is an explicit argument. No proofs. *)
From Verif Require Import Base Utf8 Regex Consts Types.

(** metadata/source.go:180-183, phonenumberutil.go:810-813. supportedRegions maps every member to true. *)
Definition isValidRegionCode (C : container) (r : bytes) : bool := negb (is_empty r) && mem_bytes r (c_regions C).

(** phonenumberutil.go:816-819 *)
Definition hasValidCountryCallingCode (C : container) (cc : Z) : bool := is_some (assocz cc (c_cc2region C)).

(** metadata.CountryCodeToRegion()[cc]: nil slice when absent. *)
Definition regions_of (C : container) (cc : Z) : list bytes :=
  match assocz cc (c_cc2region C) with Some l => l | None => [] end.

(** phonenumberutil.go:1891-1897 *)
Definition getMetadataForRegion (C : container) (r : bytes) : option meta :=
  if isValidRegionCode C r then assocb r (c_region C) else None.

(** phonenumberutil.go:1899-1906 *)
Definition getMetadataForNonGeographicalRegion (C : container) (cc : Z) : option meta :=
  if hasValidCountryCallingCode C cc then assocz cc (c_nongeo C) else None.

(** phonenumberutil.go:992-997 *)
Definition getMetadataForRegionOrCallingCode (C : container) (cc : Z) (r : bytes) : option meta :=
  if beq nonGeoEntity r then getMetadataForNonGeographicalRegion C cc else getMetadataForRegion C r.

(** phonenumberutil.go:2015-2021 *)
Definition GetRegionCodeForCountryCode (C : container) (cc : Z) : bytes :=
  match regions_of C cc with [] => unknownRegion | r :: _ => r end.

(** phonenumberutil.go:2027-2030 *)
Definition GetRegionCodesForCountryCode (C : container) (cc : Z) : list bytes := regions_of C cc.

(** phonenumberutil.go:2044-2047 *)
Definition getCountryCodeForValidRegion (C : container) (r : bytes) : Z := mcc (getMetadataForRegion C r).

(** phonenumberutil.go:2034-2039 *)
Definition GetCountryCodeForRegion (C : container) (r : bytes) : Z :=
  if isValidRegionCode C r then getCountryCodeForValidRegion C r else 0%Z.

(** phonenumberutil.go:2059-2075 *)
Definition GetNddPrefixForRegion (C : container) (r : bytes) (stripNonDigits : bool) : bytes :=
  match getMetadataForRegion C r with
  | None => []
  | Some m => let np := get_bytes (md_nprefix m) in if stripNonDigits then remove_byte np 126 else np
  end.

(** phonenumberutil.go:2079-2081 *)
Definition IsNANPACountry (C : container) (r : bytes) : bool := mem_bytes r (c_nanpa C).

(** phonenumberutil.go:1461-1487. The zeros are clamped to maxLengthForNSN. *)
Definition GetNationalSignificantNumber (n : phone) : bytes :=
  (if get_ilz n && (0 <? get_nlz n)%Z
   then repeat 48 (Z.to_nat (Z.min (get_nlz n) (Z.of_nat maxLengthForNSN)))
   else []) ++ dec (get_nn n).

(** phonenumberutil.go:1795-1825 *)
Definition getNumberDescByType (m : option meta) (t : ptype) : option desc :=
  match t with
  | PREMIUM_RATE => mdesc md_premium m
  | TOLL_FREE => mdesc md_tollfree m
  | MOBILE => mdesc md_mobile m
  | FIXED_LINE | FIXED_LINE_OR_MOBILE => mdesc md_fixed m
  | SHARED_COST => mdesc md_shared m
  | VOIP => mdesc md_voip m
  | PERSONAL_NUMBER => mdesc md_personal m
  | PAGER => mdesc md_pager m
  | UAN => mdesc md_uan m
  | VOICEMAIL => mdesc md_voicemail m
  | UNKNOWN => mdesc md_general m
  end.

(** "^(?:" + p + ")$", used throughout for strict matching. *)
Definition anchored (p : bytes) : bytes := bs "^(?:" ++ p ++ bs ")$".
(** "^(?:" + p + ")" *)
Definition anchored_left (p : bytes) : bytes := bs "^(?:" ++ p ++ bs ")".

(** regexcache.For(anchored p).MatchString(s) *)
Definition strict_match (p s : bytes) : M bool := x <- must_compile (anchored p) ;; Ret (re_match x s).

(** phonenumberutil.go:1908-1928. A nil descriptor is dereferenced: panic. Lengths are compared as int32; all strings
    here are far shorter than 2^31 bytes. *)
Definition isNumberPossibleForDesc (nationalNumber : bytes) (d : option desc) : M bool :=
  match d with
  | None => Panic
  | Some x =>
      if negb (match d_len x with [] => true | _ => false end)
         && negb (memz (Z.of_nat (len nationalNumber)) (d_len x))
      then Ret false
      else strict_match (get_d_pattern d) nationalNumber
  end.

(** phonenumberutil.go:1930-1936 *)
Definition isNumberMatchingDesc (nationalNumber : bytes) (d : option desc) : M bool :=
  pat <- must_compile (anchored (get_d_pattern d)) ;;
  b <- isNumberPossibleForDesc nationalNumber d ;;
  Ret (b && re_match pat nationalNumber).

(** phonenumberutil.go:1839-1887: the descriptors tested in order. *)
Definition type_order : list (ptype * (meta -> option desc)) :=
  [ (PREMIUM_RATE, md_premium); (TOLL_FREE, md_tollfree); (SHARED_COST, md_shared); (VOIP, md_voip);
    (PERSONAL_NUMBER, md_personal); (PAGER, md_pager); (UAN, md_uan); (VOICEMAIL, md_voicemail) ].

Fixpoint first_type (nationalNumber : bytes) (m : option meta) (l : list (ptype * (meta -> option desc)))
  : M (option ptype) :=
  match l with
  | [] => Ret None
  | (t, f) :: l' =>
      b <- isNumberMatchingDesc nationalNumber (mdesc f m) ;;
      if b : bool then Ret (Some t) else first_type nationalNumber m l'
  end.

Definition getNumberTypeHelper (nationalNumber : bytes) (m : option meta) : M ptype :=
  g <- isNumberMatchingDesc nationalNumber (mdesc md_general m) ;;
  if negb g then Ret UNKNOWN else
  t <- first_type nationalNumber m type_order ;;
  match t with
  | Some t => Ret t
  | None =>
      fx <- isNumberMatchingDesc nationalNumber (mdesc md_fixed m) ;;
      if fx : bool then
        if mbool md_same m then Ret FIXED_LINE_OR_MOBILE
        else
          mb <- isNumberMatchingDesc nationalNumber (mdesc md_mobile m) ;;
          if mb : bool then Ret FIXED_LINE_OR_MOBILE else Ret FIXED_LINE
      else if mbool md_same m then Ret UNKNOWN
      else
        mb <- isNumberMatchingDesc nationalNumber (mdesc md_mobile m) ;;
        if mb : bool then Ret MOBILE else Ret UNKNOWN
  end.

(** phonenumberutil.go:1984-2005 *)
Fixpoint getRegionCodeForNumberFromRegionList (C : container) (nationalNumber : bytes) (l : list bytes) : M bytes :=
  match l with
  | [] => Ret []
  | r :: l' =>
      let m := getMetadataForRegion C r in
      let ld := mbytes md_leading m in
      if negb (is_empty ld) then
        x <- must_compile (anchored_left ld) ;;
        if re_match x nationalNumber then Ret r else getRegionCodeForNumberFromRegionList C nationalNumber l'
      else
        t <- getNumberTypeHelper nationalNumber m ;;
        if negb (ptype_eqb t UNKNOWN) then Ret r
        else getRegionCodeForNumberFromRegionList C nationalNumber l'
  end.

(** phonenumberutil.go:1972-1982 *)
Definition GetRegionCodeForNumber (C : container) (n : phone) : M bytes :=
  match regions_of C (get_cc n) with
  | [] => Ret []
  | [r] => Ret r
  | l => getRegionCodeForNumberFromRegionList C (GetNationalSignificantNumber n) l
  end.

(** phonenumberutil.go:1828-1837 *)
Definition GetNumberType (C : container) (n : phone) : M ptype :=
  r <- GetRegionCodeForNumber C n ;;
  match getMetadataForRegionOrCallingCode C (get_cc n) r with
  | None => Ret UNKNOWN
  | Some m => getNumberTypeHelper (GetNationalSignificantNumber n) (Some m)
  end.

(** phonenumberutil.go:1958-1968 *)
Definition IsValidNumberForRegion (C : container) (n : phone) (r : bytes) : M bool :=
  let cc := get_cc n in
  match getMetadataForRegionOrCallingCode C cc r with
  | None => Ret false
  | Some m =>
      if negb (beq nonGeoEntity r) && negb (Z.eqb cc (getCountryCodeForValidRegion C r)) then Ret false
      else
        t <- getNumberTypeHelper (GetNationalSignificantNumber n) (Some m) ;;
        Ret (negb (ptype_eqb t UNKNOWN))
  end.

(** phonenumberutil.go:1941-1944 *)
Definition IsValidNumber (C : container) (n : phone) : M bool :=
  r <- GetRegionCodeForNumber C n ;; IsValidNumberForRegion C n r.

(** phonenumberutil.go:2132-2134 *)
Definition descHasPossibleNumberData (d : desc) : bool :=
  match d_len d with
  | [x] => negb (Z.eqb x (-1))
  | _ => true
  end.

(** phonenumberutil.go:731-741 *)
Definition descHasData (d : option desc) : bool :=
  match d with
  | None => false
  | Some x => negb (is_empty (get_d_example d)) || descHasPossibleNumberData x || is_some (d_pattern x)
  end.

(** phonenumberutil.go:2136-2161 *)
Fixpoint mergeLengths (l1 l2 : list Z) : list Z :=
  let fix inner (l2 : list Z) : list Z :=
    match l1, l2 with
    | [], _ => l2
    | x :: t1, [] => x :: mergeLengths t1 []
    | x :: t1, y :: t2 => if (x <=? y)%Z then x :: mergeLengths t1 l2 else y :: inner t2
    end in
  inner l2.

(** phonenumberutil.go:2221-2250: the comparison once the two length lists are known. *)
Definition compareLength (possible local : list Z) (actual : Z) : M vresult :=
  match possible with
  | [] => Panic                        (* possibleLengths[0] on an empty slice *)
  | mn :: rest =>
      if (mn =? -1)%Z then Ret INVALID_LENGTH
      else if memz actual local then Ret IS_POSSIBLE_LOCAL_ONLY
      else if (mn =? actual)%Z then Ret IS_POSSIBLE
      else if (actual <? mn)%Z then Ret TOO_SHORT
      else if (last possible mn <? actual)%Z then Ret TOO_LONG
      else if memz actual rest then Ret IS_POSSIBLE
      else Ret INVALID_LENGTH
  end.

(** phonenumberutil.go:2175-2179 and 2205-2208: a descriptor's own lengths, or the general ones when it has none. *)
Definition lengths_or_general (m : option meta) (d : desc) : M (list Z) :=
  match d_len d with
  | [] => match m with
          | Some x => g <- or_panic (md_general x) ;; Ret (d_len g)
          | None => Panic
          end
  | l => Ret l
  end.

Definition test_length_of (m : option meta) (d : option desc) (actual : Z) : M vresult :=
  d <- or_panic d ;;
  pl <- lengths_or_general m d ;;
  compareLength pl (d_local d) actual.

(** phonenumberutil.go:2165-2251 *)
Definition testNumberLength (number : bytes) (m : option meta) (t : ptype) : M vresult :=
  let actual := Z.of_nat (len number) in
  match t with
  | FIXED_LINE_OR_MOBILE =>
      d <- or_panic (getNumberDescByType m FIXED_LINE_OR_MOBILE) ;;
      pl <- lengths_or_general m d ;;
      if negb (descHasPossibleNumberData d)       (* getNumberDescByType gives the FIXED_LINE descriptor here too *)
      then test_length_of m (getNumberDescByType m MOBILE) actual
      else
        mob <- or_panic (getNumberDescByType m MOBILE) ;;
        if descHasPossibleNumberData mob then
          ml <- lengths_or_general m mob ;;
          let local := match d_local d with [] => d_local mob | l => mergeLengths l (d_local mob) end in
          compareLength (mergeLengths pl ml) local actual
        else compareLength pl (d_local d) actual
  | _ => test_length_of m (getNumberDescByType m t) actual
  end.

(** phonenumberutil.go:2257-2286 *)
Definition IsPossibleNumberWithReason (C : container) (n : phone) : M vresult :=
  let nn := GetNationalSignificantNumber n in
  let cc := get_cc n in
  if negb (hasValidCountryCallingCode C cc) then Ret INVALID_COUNTRY_CODE
  else
    let m := getMetadataForRegionOrCallingCode C cc (GetRegionCodeForCountryCode C cc) in
    if is_empty (get_d_pattern (mdesc md_general m)) then
      if (len nn <? minLengthForNSN)%nat then Ret TOO_SHORT
      else if (maxLengthForNSN <? len nn)%nat then Ret TOO_LONG
      else Ret IS_POSSIBLE
    else testNumberLength nn m UNKNOWN.

(** phonenumberutil.go:2102-2105 *)
Definition is_possible_result (v : vresult) : bool :=
  match v with IS_POSSIBLE | IS_POSSIBLE_LOCAL_ONLY => true | _ => false end.
Definition IsPossibleNumber (C : container) (n : phone) : M bool :=
  v <- IsPossibleNumberWithReason C n ;; Ret (is_possible_result v).

(** phonenumberutil.go:2290-2303 *)
Definition IsPossibleNumberForTypeWithReason (C : container) (n : phone) (t : ptype) : M vresult :=
  let nn := GetNationalSignificantNumber n in
  let cc := get_cc n in
  if negb (hasValidCountryCallingCode C cc) then Ret INVALID_COUNTRY_CODE
  else testNumberLength nn (getMetadataForRegionOrCallingCode C cc (GetRegionCodeForCountryCode C cc)) t.

(** phonenumberutil.go:2307-2310 *)
Definition IsPossibleNumberForType (C : container) (n : phone) (t : ptype) : M bool :=
  v <- IsPossibleNumberForTypeWithReason C n t ;; Ret (is_possible_result v).

(** phonenumberutil.go:2316-2343. Result: the boolean and the number afterwards. The loop's fuel is the bit size of the
    national number plus one; each round divides by ten, so it cannot run out (TruncateFacts); running out would be
    reported as [Panic]. *)
Fixpoint truncate_loop (C : container) (fuel : nat) (copy : phone) (nn : N) : M (option N) :=
  v <- IsValidNumber C copy ;;
  if v : bool then Ret (Some nn) else
  match fuel with
  | O => Panic
  | S f =>
      let nn := nn / 10 in
      let copy := set_nn copy (Some nn) in
      w <- IsPossibleNumberWithReason C copy ;;
      if vresult_eqb w TOO_SHORT || (nn =? 0) then Ret None
      else truncate_loop C f copy nn
  end.

Definition TruncateTooLongNumber (C : container) (n : phone) : M (bool * phone) :=
  v <- IsValidNumber C n ;;
  if v : bool then Ret (true, n) else
  let nn := get_nn n / 10 in
  let copy := set_nn n (Some nn) in
  w <- IsPossibleNumberWithReason C copy ;;
  if vresult_eqb w TOO_SHORT || (nn =? 0) then Ret (false, n) else
  r <- truncate_loop C (S (N.size_nat nn)) copy nn ;;
  match r with
  | None => Ret (false, n)
  | Some k => Ret (true, set_nn n (Some k))
  end.

(** phonenumberutil.go:3119-3130 *)
Definition CanBeInternationallyDialled (C : container) (n : phone) : M bool :=
  r <- GetRegionCodeForNumber C n ;;
  match getMetadataForRegion C r with
  | None => Ret true
  | Some m =>
      b <- isNumberMatchingDesc (GetNationalSignificantNumber n) (md_noint m) ;;
      Ret (negb b)
  end.

(** phonenumberutil.go:3135-3141 *)
Definition IsMobileNumberPortableRegion (C : container) (r : bytes) : bool := mbool md_mnp (getMetadataForRegion C r).

(** phonenumberutil.go:676-681 *)
Definition GetCountryMobileToken (cc : Z) : bytes := get_bytes (assocz cc mobileTokenMappings).

(** phonenumberutil.go:803-807 *)
Definition IsNumberGeographicalForType (t : ptype) (cc : Z) : bool :=
  ptype_eqb t FIXED_LINE || ptype_eqb t FIXED_LINE_OR_MOBILE
  || (memz (to_int32 cc) geoMobileCountries && ptype_eqb t MOBILE).
Definition IsNumberGeographical (C : container) (n : phone) : M bool :=
  t <- GetNumberType C n ;; Ret (IsNumberGeographicalForType t (get_cc n)).

(** phonenumberutil.go:745-778 *)
Definition allPhoneNumberTypes : list ptype :=
  [FIXED_LINE; MOBILE; FIXED_LINE_OR_MOBILE; TOLL_FREE; PREMIUM_RATE; SHARED_COST; VOIP; PERSONAL_NUMBER; PAGER; UAN;
   VOICEMAIL; UNKNOWN].
Definition getSupportedTypesForMetadata (m : option meta) : list ptype :=
  filter (fun t => negb (ptype_eqb t FIXED_LINE_OR_MOBILE || ptype_eqb t UNKNOWN)
                   && descHasData (getNumberDescByType m t)) allPhoneNumberTypes.
Definition GetSupportedTypesForRegion (C : container) (r : bytes) : list ptype :=
  if isValidRegionCode C r then getSupportedTypesForMetadata (getMetadataForRegion C r) else [].
Definition GetSupportedTypesForNonGeoEntity (C : container) (cc : Z) : list ptype :=
  match getMetadataForNonGeographicalRegion C cc with
  | None => []
  | m => getSupportedTypesForMetadata m
  end.
