(** Model of the string normalisation functions of phonenumberutil.go. No proofs here. *)
From Verif Require Import Base Utf8 Regex Consts.

(** phonenumberutil.go:451-468. The match offsets come from the regexp, so the slices cannot be out of range and the
    plain [firstn]/[skipn] are used. *)
Definition extractPossibleNumber (number : bytes) : bytes :=
  match re_find validStartCharPattern number with
  | None => []
  | Some m =>
      let number := skipn (m_start m) number in
      let number := match re_find unwantedEndCharPattern number with
                    | Some m => firstn (m_start m) number | None => number end in
      match re_find secondNumberStartPattern number with
      | Some m => firstn (m_start m) number
      | None => number
      end
  end.

(** phonenumberutil.go:477-483 *)
Definition isViablePhoneNumber (number : bytes) : bool :=
  if (len number <? minLengthForNSN)%nat then false else re_match validPhoneNumberPattern number.

(** phonenumberutil.go:686-702. [mp] is the replacement map. *)
Definition normalizeHelper (number : bytes) (mp : N -> option N) (removeNonMatches : bool) : bytes :=
  encode_runes (flat_map (fun c =>
    match mp (to_upper c) with
    | Some d => [d]
    | None => if removeNonMatches then [] else [c]
    end) (runes number)).

(** phonenumberutil.go:518-529 *)
Definition normalizeDigits (number : bytes) (keepNonDigits : bool) : bytes :=
  encode_runes (flat_map (fun c =>
    match char_digit c with
    | Some d => [d]
    | None => if keepNonDigits then [c] else []
    end) (runes number)).

(** phonenumberutil.go:514-516 *)
Definition NormalizeDigitsOnly (number : bytes) : bytes := normalizeDigits number false.

(** phonenumberutil.go:504-509 *)
Definition normalize (number : bytes) : bytes :=
  if re_match validAlphaPhonePattern number
  then normalizeHelper number alphaPhoneMappings true
  else NormalizeDigitsOnly number.

(** phonenumberutil.go:534-537 *)
Definition NormalizeDiallableCharsOnly (number : bytes) : bytes := normalizeHelper number diallableCharMappings true.

(** phonenumberutil.go:541-543 *)
Definition ConvertAlphaCharactersInNumber (number : bytes) : bytes := normalizeHelper number alphaPhoneMappings false.

(** phonenumberutil.go:2590-2610: the remaining number and the extension. *)
Definition maybeStripExtension (numStr : bytes) : bytes * bytes :=
  match re_find extnPattern numStr with
  | None => (numStr, [])
  | Some m =>
      if isViablePhoneNumber (firstn (m_start m) numStr) then
        match filter (fun g => negb (is_empty g))
                (map (fun i => group_str numStr m (S i)) (seq 0 (re_ngroups extnPattern))) with
        | [] => (numStr, [])
        | e :: _ => (firstn (m_start m) numStr, e)
        end
      else (numStr, [])
  end.

(** phonenumberutil.go:2089-2098 *)
Definition IsAlphaNumber (number : bytes) : bool :=
  if negb (isViablePhoneNumber number) then false
  else re_match validAlphaPhonePattern (fst (maybeStripExtension number)).
