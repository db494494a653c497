(** Short numbers: shortnumberinfo.go and internal/regexbasedmatcher. No proofs here. *)
From Verif Require Import Base Utf8 Regex Consts Types Normalize Validate Container.

(** shortnumberinfo.go:12-14, 53-75: the table from regions to short-number metadata; "001" entries are skipped and a later
    entry for a region replaces an earlier one. The caller passes the decoded collection; an empty one is an error
    (ErrEmptyMetadata) and makes init panic. *)
Definition loadShortNumberMetadata (coll : list meta) : M (list (bytes * meta)) :=
  match coll with
  | [] => Panic
  | _ => Ret (fold_left (fun st m => let region := get_bytes (md_id m) in
                          if beq region nonGeoEntity then st else map_put beq region m st) coll [])
  end.

(** shortnumberinfo.go:78-87 *)
Inductive cost := TOLL_FREE_COST | STANDARD_RATE_COST | PREMIUM_RATE_COST | UNKNOWN_COST.
Definition cost_eqb (a b : cost) : bool :=
  match a, b with
  | TOLL_FREE_COST, TOLL_FREE_COST | STANDARD_RATE_COST, STANDARD_RATE_COST | PREMIUM_RATE_COST, PREMIUM_RATE_COST
  | UNKNOWN_COST, UNKNOWN_COST => true
  | _, _ => false
  end.

(** metadata/metadata_util.go:31-39. Called on a nil descriptor it panics. *)
Definition HasPossibleLength (d : option desc) (length : Z) : M bool :=
  d <- or_panic d ;; Ret (existsb (fun l => Z.eqb l length) (d_len d)).

(** internal/regexbasedmatcher/regexbasedmatcher.go:26-34 *)
Definition match_pattern (number pattern : bytes) (allowPrefixMatch : bool) : M bool :=
  x <- must_compile pattern ;;
  match re_find x number with
  | None => Ret false
  | Some m => if (m_start m =? 0)%nat
              then pat <- must_compile (anchored pattern) ;; Ret (re_match pat number || allowPrefixMatch)
              else Ret false
  end.
(** internal/regexbasedmatcher/regexbasedmatcher.go:16-24 *)
Definition MatchNationalNumber (number : bytes) (d : option desc) (allowPrefixMatch : bool) : M bool :=
  if is_empty (get_d_pattern d) then Ret false else match_pattern number (get_d_pattern d) allowPrefixMatch.

(** shortnumberinfo.go:320-328. int32(len(number)) wraps. *)
Definition matchesPossibleNumberAndNationalNumber (number : bytes) (d : option desc) : M bool :=
  match d with
  | None => Ret false
  | Some x =>
      has <- HasPossibleLength d (to_int32 (Z.of_nat (len number))) ;;
      if (0 <? length (d_len x))%nat && negb has then Ret false else MatchNationalNumber number d false
  end.

Section Short.
(** C: the main metadata container; SC: the short-number table. *)
Variable C : container.
Variable SC : list (bytes * meta).

(** shortnumberinfo.go:248-251 *)
Definition getShortNumberMetadataForRegion (r : bytes) : option meta := assocb r SC.

(** shortnumberinfo.go:308-316 *)
Definition regionDialingFromMatchesNumber (n : phone) (r : bytes) : bool := mem_bytes r (GetRegionCodesForCountryCode C (get_cc n)).

(** shortnumberinfo.go:106-119 *)
Fixpoint possible_in (l : list bytes) (shortNumberLength : Z) : M bool :=
  match l with
  | [] => Ret false
  | r :: l' =>
      match getShortNumberMetadataForRegion r with
      | None => possible_in l' shortNumberLength
      | Some m => b <- HasPossibleLength (md_general m) shortNumberLength ;; if b : bool then Ret true else possible_in l' shortNumberLength
      end
  end.
Definition IsPossibleShortNumber (n : phone) : M bool :=
  possible_in (GetRegionCodesForCountryCode C (get_cc n)) (to_int32 (Z.of_nat (len (GetNationalSignificantNumber n)))).

(** shortnumberinfo.go:123-133 *)
Definition IsPossibleShortNumberForRegion (n : phone) (r : bytes) : M bool :=
  if negb (regionDialingFromMatchesNumber n r) then Ret false else
  match getShortNumberMetadataForRegion r with
  | None => Ret false
  | Some m => HasPossibleLength (md_general m) (to_int32 (Z.of_nat (len (GetNationalSignificantNumber n))))
  end.

(** shortnumberinfo.go:253-269 *)
Fixpoint first_short_region (nationalNumber : bytes) (l : list bytes) : M bytes :=
  match l with
  | [] => Ret []
  | r :: l' =>
      match getShortNumberMetadataForRegion r with
      | None => first_short_region nationalNumber l'
      | Some m => b <- matchesPossibleNumberAndNationalNumber nationalNumber (md_shortcode m) ;;
                  if b : bool then Ret r else first_short_region nationalNumber l'
      end
  end.
Definition getRegionCodeForShortNumberFromRegionList (n : phone) (l : list bytes) : M bytes :=
  match l with
  | [] => Ret []
  | [r] => Ret r
  | _ => first_short_region (GetNationalSignificantNumber n) l
  end.

(** shortnumberinfo.go:152-167 *)
Definition IsValidShortNumberForRegion (n : phone) (r : bytes) : M bool :=
  if negb (regionDialingFromMatchesNumber n r) then Ret false else
  match getShortNumberMetadataForRegion r with
  | None => Ret false
  | Some m =>
      g <- matchesPossibleNumberAndNationalNumber (GetNationalSignificantNumber n) (md_general m) ;;
      if negb g then Ret false else matchesPossibleNumberAndNationalNumber (GetNationalSignificantNumber n) (md_shortcode m)
  end.

(** shortnumberinfo.go:139-148 *)
Definition IsValidShortNumber (n : phone) : M bool :=
  let l := GetRegionCodesForCountryCode C (get_cc n) in
  r <- getRegionCodeForShortNumberFromRegionList n l ;;
  if (1 <? length l)%nat && negb (is_empty r) then Ret true else IsValidShortNumberForRegion n r.

(** shortnumberinfo.go:330-332 *)
Definition regionsWhereEmergencyNumbersMustBeExact : list bytes := [bs "BR"; bs "CL"; bs "NI"].
(** shortnumberinfo.go:334-352 *)
Definition matchesEmergencyNumber (number r : bytes) (allowPrefixMatch : bool) : M bool :=
  let possibleNumber := extractPossibleNumber number in
  if re_match plusCharsPattern possibleNumber then Ret false else
  match getShortNumberMetadataForRegion r with
  | None => Ret false
  | Some m =>
      match md_emergency m with
      | None => Ret false
      | Some d =>
          let normalizedNumber := NormalizeDigitsOnly possibleNumber in
          let allow := allowPrefixMatch && negb (mem_bytes r regionsWhereEmergencyNumbersMustBeExact) in
          MatchNationalNumber normalizedNumber (Some d) allow
      end
  end.
(** shortnumberinfo.go:364-366 *)
Definition IsEmergencyNumber (number r : bytes) : M bool := matchesEmergencyNumber number r false.
(** shortnumberinfo.go:380-382 *)
Definition ConnectsToEmergencyNumber (number r : bytes) : M bool := matchesEmergencyNumber number r true.

(** shortnumberinfo.go:174-209 *)
Definition GetExpectedCostForRegion (n : phone) (r : bytes) : M cost :=
  if negb (regionDialingFromMatchesNumber n r) then Ret UNKNOWN_COST else
  match getShortNumberMetadataForRegion r with
  | None => Ret UNKNOWN_COST
  | Some m =>
      let shortNumber := GetNationalSignificantNumber n in
      l <- HasPossibleLength (md_general m) (to_int32 (Z.of_nat (len shortNumber))) ;;
      if negb l then Ret UNKNOWN_COST else
      p <- matchesPossibleNumberAndNationalNumber shortNumber (md_premium m) ;; if p : bool then Ret PREMIUM_RATE_COST else
      s <- matchesPossibleNumberAndNationalNumber shortNumber (md_stdrate m) ;; if s : bool then Ret STANDARD_RATE_COST else
      t <- matchesPossibleNumberAndNationalNumber shortNumber (md_tollfree m) ;; if t : bool then Ret TOLL_FREE_COST else
      e <- IsEmergencyNumber shortNumber r ;; if e : bool then Ret TOLL_FREE_COST else Ret UNKNOWN_COST
  end.

(** shortnumberinfo.go:221-246. [acc] is the variable cost. *)
Fixpoint cost_loop (n : phone) (l : list bytes) (acc : cost) : M cost :=
  match l with
  | [] => Ret acc
  | r :: l' =>
      c <- GetExpectedCostForRegion n r ;;
      match c with
      | PREMIUM_RATE_COST => Ret PREMIUM_RATE_COST
      | UNKNOWN_COST => cost_loop n l' UNKNOWN_COST
      | STANDARD_RATE_COST => cost_loop n l' (if negb (cost_eqb acc UNKNOWN_COST) then STANDARD_RATE_COST else acc)
      | TOLL_FREE_COST => cost_loop n l' acc
      end
  end.
Definition GetExpectedCost (n : phone) : M cost :=
  match GetRegionCodesForCountryCode C (get_cc n) with
  | [] => Ret UNKNOWN_COST
  | [r] => GetExpectedCostForRegion n r
  | l => cost_loop n l TOLL_FREE_COST
  end.

(** shortnumberinfo.go:273-279 *)
Definition getExampleShortNumber (r : bytes) : bytes :=
  match getShortNumberMetadataForRegion r with None => [] | Some m => get_d_example (md_shortcode m) end.
(** shortnumberinfo.go:283-304 *)
Definition getExampleShortNumberForCost (r : bytes) (c : cost) : bytes :=
  match getShortNumberMetadataForRegion r with
  | None => []
  | Some m => match c with
              | TOLL_FREE_COST => get_d_example (md_tollfree m)
              | STANDARD_RATE_COST => get_d_example (md_stdrate m)
              | PREMIUM_RATE_COST => get_d_example (md_premium m)
              | UNKNOWN_COST => []
              end
  end.

(** shortnumberinfo.go:389-396 *)
Definition IsCarrierSpecific (n : phone) : M bool :=
  r <- getRegionCodeForShortNumberFromRegionList n (GetRegionCodesForCountryCode C (get_cc n)) ;;
  match getShortNumberMetadataForRegion r with
  | None => Ret false
  | Some m => matchesPossibleNumberAndNationalNumber (GetNationalSignificantNumber n) (md_carrier m)
  end.
(** shortnumberinfo.go:401-409 *)
Definition IsCarrierSpecificForRegion (n : phone) (r : bytes) : M bool :=
  if negb (regionDialingFromMatchesNumber n r) then Ret false else
  match getShortNumberMetadataForRegion r with
  | None => Ret false
  | Some m => matchesPossibleNumberAndNationalNumber (GetNationalSignificantNumber n) (md_carrier m)
  end.
(** shortnumberinfo.go:416-423 *)
Definition IsSmsServiceForRegion (n : phone) (r : bytes) : M bool :=
  if negb (regionDialingFromMatchesNumber n r) then Ret false else
  match getShortNumberMetadataForRegion r with
  | None => Ret false
  | Some m => matchesPossibleNumberAndNationalNumber (GetNationalSignificantNumber n) (md_sms m)
  end.
End Short.
