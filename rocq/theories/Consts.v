(** Constants and regular expressions of phonenumberutil.go:20-438 and phonenumbermatcher.go:23-115. The sources are
    spelled exactly as in the Go code; the compiled forms are what [compile] returns for them (ConstsFacts checks it). *)
From Verif Require Import Base Utf8 Regex.

(** A non-ASCII character in a Go string literal. *)
Notation u := encode_rune.

(** phonenumberutil.go:20-65 *)
Definition minLengthForNSN : nat := 2%nat.
Definition maxLengthForNSN : nat := 17%nat.
Definition maxLengthCountryCode : nat := 3%nat.
Definition maxInputStringLength : nat := 250%nat.
Definition unknownRegion : bytes := Eval vm_compute in bs "ZZ".
Definition nanpaCountryCode : Z := 1%Z.
Definition plusSign : N := 43.
Definition starSign : N := 42.
Definition rfc3966ExtnPrefix : bytes := Eval vm_compute in bs ";ext=".
Definition rfc3966Prefix : bytes := Eval vm_compute in bs "tel:".
Definition rfc3966PhoneContext : bytes := Eval vm_compute in bs ";phone-context=".
Definition rfc3966IsdnSubaddress : bytes := Eval vm_compute in bs ";isub=".
Definition nonGeoEntity : bytes := Eval vm_compute in bs "001".
Definition defaultExtnPrefix : bytes := Eval vm_compute in bs " ext. ".

Definition validPunctuation : bytes := Eval vm_compute in
  bs "-x" ++ u 0x2010 ++ bs "-" ++ u 0x2015 ++ u 0x2212 ++ u 0x30FC ++ u 0xFF0D ++ bs "-" ++ u 0xFF0F ++ bs " " ++
  u 0xA0 ++ u 0xAD ++ u 0x200B ++ u 0x2060 ++ u 0x3000 ++ bs "()" ++ u 0xFF08 ++ u 0xFF09 ++ u 0xFF3B ++ u 0xFF3D ++
  bs "." ++ bs "\[\]/~" ++ u 0x2053 ++ u 0x223C ++ u 0xFF5E.
Definition digitsClass : bytes := Eval vm_compute in bs "\p{Nd}".
Definition validAlpha : bytes := Eval vm_compute in bs "abcdefghijklmnopqrstuvwxyzABCDEFGHIJKLMNOPQRSTUVWXYZ".
Definition plusChars : bytes := Eval vm_compute in bs "+" ++ u 0xFF0B.

(** A regexp compiled at package initialisation (a failure would panic at start-up; ConstsFacts proves there is none:
    the default below is never used). *)
Definition force (o : option re) : re := match o with Some x => x | None => {| re_ast := REnd; re_ngroups := 0 |} end.

(** phonenumberutil.go:235 *)
Definition src_uniqueInternationalPrefix : bytes :=
  bs "^(?:[\d]+(?:[~" ++ u 0x2053 ++ u 0x223C ++ u 0xFF5E ++ bs "][\d]+)?)$".
Definition uniqueInternationalPrefix : re := Eval vm_compute in force (compile src_uniqueInternationalPrefix).

(** phonenumberutil.go:237-240 *)
Definition src_plusCharsPattern : bytes := bs "[" ++ plusChars ++ bs "]+".
Definition plusCharsPattern : re := Eval vm_compute in force (compile src_plusCharsPattern).
Definition src_separatorPattern : bytes := bs "[" ++ validPunctuation ++ bs "]+".
Definition separatorPattern : re := Eval vm_compute in force (compile src_separatorPattern).
Definition src_notSeparatorPattern : bytes := bs "[^" ++ validPunctuation ++ bs "]+".
Definition notSeparatorPattern : re := Eval vm_compute in force (compile src_notSeparatorPattern).
Definition src_capturingDigitPattern : bytes := bs "(" ++ digitsClass ++ bs ")".
Definition capturingDigitPattern : re := Eval vm_compute in force (compile src_capturingDigitPattern).

(** phonenumberutil.go:250-276 *)
Definition src_validStartChar : bytes := bs "[" ++ plusChars ++ digitsClass ++ bs "]".
Definition validStartCharPattern : re := Eval vm_compute in force (compile src_validStartChar).
Definition src_secondNumberStart : bytes := bs "[\\/] *x".
Definition secondNumberStartPattern : re := Eval vm_compute in force (compile src_secondNumberStart).
Definition src_unwantedEndChars : bytes := bs "[^\p{N}\p{L}#]+$".
Definition unwantedEndCharPattern : re := Eval vm_compute in force (compile src_unwantedEndChars).
Definition src_validAlphaPhone : bytes := bs "^(?:.*?[A-Za-z]){3}.*$".
Definition validAlphaPhonePattern : re := Eval vm_compute in force (compile src_validAlphaPhone).

(** phonenumberutil.go:301-304 *)
Definition validPhoneNumber : bytes :=
  digitsClass ++ bs "{2}" ++ bs "|" ++
  bs "[" ++ plusChars ++ bs "]*(?:[" ++ validPunctuation ++ [starSign] ++
  bs "]*" ++ digitsClass ++ bs "){3,}[" ++
  validPunctuation ++ [starSign] ++ validAlpha ++ digitsClass ++ bs "]*".

(** phonenumberutil.go:320-369 *)
Definition possibleSeparatorsBetweenNumberAndExtLabel : bytes := bs "[ " ++ u 0xA0 ++ bs "\t,]*".
Definition possibleCharsAfterExtLabel : bytes := bs "[:\." ++ u 0xFF0E ++ bs "]?[ " ++ u 0xA0 ++ bs "\t,-]*".
Definition optionalExtnSuffix : bytes := bs "#?".
Definition explicitExtLabels : bytes :=
  bs "(?:e?xt(?:ensi(?:o" ++ u 0x301 ++ bs "?|" ++ u 0xF3 ++ bs "))?n?|" ++
  u 0xFF45 ++ bs "?" ++ u 0xFF58 ++ u 0xFF54 ++ u 0xFF4E ++ bs "?|" ++ u 0x434 ++ u 0x43E ++ u 0x431 ++ bs "|anexo)".
Definition ambiguousExtLabels : bytes :=
  bs "(?:[x" ++ u 0xFF58 ++ bs "#" ++ u 0xFF03 ++ bs "~" ++ u 0xFF5E ++ bs "]|int|" ++
  u 0xFF49 ++ u 0xFF4E ++ u 0xFF54 ++ bs ")".
Definition ambiguousSeparator : bytes := bs "[- ]+".
Definition extnPatternsForMatching : bytes :=
  rfc3966ExtnPrefix ++ bs "(" ++ digitsClass ++ bs "{1,20})" ++ bs "|" ++
  possibleSeparatorsBetweenNumberAndExtLabel ++ explicitExtLabels ++
  possibleCharsAfterExtLabel ++ bs "(" ++ digitsClass ++ bs "{1,20})" ++ optionalExtnSuffix ++ bs "|" ++
  possibleSeparatorsBetweenNumberAndExtLabel ++ ambiguousExtLabels ++
  possibleCharsAfterExtLabel ++ bs "(" ++ digitsClass ++ bs "{1,9})" ++ optionalExtnSuffix ++ bs "|" ++
  ambiguousSeparator ++ bs "(" ++ digitsClass ++ bs "{1,6})#".
Definition possibleSeparatorsNumberExtLabelNoComma : bytes := bs "[ " ++ u 0xA0 ++ bs "\t]*".
Definition autoDiallingAndExtLabelsFound : bytes := bs "(?:,{2}|;)".
Definition extnPatternsForParsing : bytes :=
  extnPatternsForMatching ++ bs "|" ++
  possibleSeparatorsNumberExtLabelNoComma ++ autoDiallingAndExtLabelsFound ++
  possibleCharsAfterExtLabel ++ bs "(" ++ digitsClass ++ bs "{1,15})" ++ optionalExtnSuffix ++ bs "|" ++
  possibleSeparatorsNumberExtLabelNoComma ++ bs "(?:,)+" ++
  possibleCharsAfterExtLabel ++ bs "(" ++ digitsClass ++ bs "{1,9})" ++ optionalExtnSuffix.

(** phonenumberutil.go:373-379 *)
Definition src_extnPattern : bytes := bs "(?i)(?:" ++ extnPatternsForParsing ++ bs ")$".
Definition extnPattern : re := Eval vm_compute in force (compile src_extnPattern).
Definition src_validPhoneNumberPattern : bytes :=
  bs "(?i)^(" ++ validPhoneNumber ++ bs "(?:" ++ extnPatternsForParsing ++ bs ")?)$".
Definition validPhoneNumberPattern : re := Eval vm_compute in force (compile src_validPhoneNumberPattern).

(** phonenumberutil.go:381-398 *)
Definition src_nonDigits : bytes := bs "(\D+)".
Definition nonDigitsPattern : re := Eval vm_compute in force (compile src_nonDigits).
Definition src_firstGroup : bytes := bs "(\$\d)".
Definition firstGroupPattern : re := Eval vm_compute in force (compile src_firstGroup).
Definition src_np : bytes := bs "\$NP".
Definition npPattern : re := Eval vm_compute in force (compile src_np).
Definition src_fg : bytes := bs "\$FG".
Definition fgPattern : re := Eval vm_compute in force (compile src_fg).
Definition src_cc : bytes := bs "\$CC".
Definition ccPattern : re := Eval vm_compute in force (compile src_cc).
Definition src_firstGroupOnly : bytes := bs "^\(?\$1\)?$".
Definition firstGroupOnlyPrefixPattern : re := Eval vm_compute in force (compile src_firstGroupOnly).

(** phonenumberutil.go:402-416 *)
Definition rfc3966VisualSeparator : bytes := bs "[\-\.\(\)]?".
Definition rfc3966PhoneDigit : bytes := bs "(" ++ digitsClass ++ bs "|" ++ rfc3966VisualSeparator ++ bs ")".
Definition src_rfc3966GlobalNumberDigits : bytes :=
  bs "^\" ++ [plusSign] ++ rfc3966PhoneDigit ++ bs "*" ++ digitsClass ++ rfc3966PhoneDigit ++ bs "*$".
Definition rfc3966GlobalNumberDigitsPattern : re := Eval vm_compute in force (compile src_rfc3966GlobalNumberDigits).
Definition alphanum : bytes := validAlpha ++ digitsClass.
Definition rfc3966Domainlabel : bytes := bs "[" ++ alphanum ++ bs "]+((\-)*[" ++ alphanum ++ bs "])*".
Definition rfc3966Toplabel : bytes := bs "[" ++ validAlpha ++ bs "]+((\-)*[" ++ alphanum ++ bs "])*".
Definition src_rfc3966Domainname : bytes :=
  bs "^(" ++ rfc3966Domainlabel ++ bs "\.)*" ++ rfc3966Toplabel ++ bs "\.?$".
Definition rfc3966DomainnamePattern : re := Eval vm_compute in force (compile src_rfc3966Domainname).

(** phonenumberutil.go:67-74, 418-438: maps from country calling codes. *)
Definition mobileTokenMappings : list (Z * bytes) := [(54%Z, [57])].
Definition geoMobileCountriesWithoutMobileAreaCodes : list Z := [86%Z].
Definition countriesWithoutNationalPrefixWithAreaCodes : list Z := [52%Z].
Definition geoMobileCountries : list Z := [52%Z; 54%Z; 55%Z; 62%Z; 86%Z].

(** phonenumberutil.go:80-95, diallableCharMappings: each key maps to itself. *)
Definition diallableCharMappings (c : N) : option N :=
  if is_digit c || (c =? 43) || (c =? 42) || (c =? 35) then Some c else None.

(** phonenumberutil.go:99-136, alphaPhoneMappings. *)
Definition alphaPhoneMappings (c : N) : option N :=
  if is_digit c then Some c
  else if in_rng 65 67 c then Some 50        (* ABC -> 2 *)
  else if in_rng 68 70 c then Some 51        (* DEF *)
  else if in_rng 71 73 c then Some 52        (* GHI *)
  else if in_rng 74 76 c then Some 53        (* JKL *)
  else if in_rng 77 79 c then Some 54        (* MNO *)
  else if in_rng 80 83 c then Some 55        (* PQRS *)
  else if in_rng 84 86 c then Some 56        (* TUV *)
  else if in_rng 87 90 c then Some 57        (* WXYZ *)
  else None.

(** phonenumberutil.go:141-221, allPlusNumberGroupingSymbols. *)
Definition allPlusNumberGroupingSymbols (c : N) : option N :=
  if is_digit c || (c =? 43) || (c =? 42) || in_rng 65 90 c then Some c
  else if in_rng 97 122 c then Some (c - 32)
  else if (c =? 45) || (c =? 0xFF0D) || in_rng 0x2010 0x2015 c || (c =? 0x2212) then Some 45
  else if (c =? 47) || (c =? 0xFF0F) then Some 47
  else if (c =? 32) || (c =? 0x3000) || (c =? 0x2060) then Some 32
  else if (c =? 46) || (c =? 0xFF0E) then Some 46
  else None.

(** phonenumbermatcher.go:23-69 *)
Definition src_pubPages : bytes := bs "\d{1,5}-+\d{1,5}\s{0,4}\(\d{1,4}".
Definition pubPages : re := Eval vm_compute in force (compile src_pubPages).
Definition src_slashDates : bytes := bs "(?:(?:[0-3]?\d/[01]?\d)|(?:[01]?\d/[0-3]?\d))/(?:[12]\d)?\d{2}".
Definition slashSeparatedDates : re := Eval vm_compute in force (compile src_slashDates).
Definition src_timeStamps : bytes := bs "[12]\d{3}[-/]?[01]\d[-/]?[0-3]\d +[0-2]\d$".
Definition timeStamps : re := Eval vm_compute in force (compile src_timeStamps).
Definition src_timeStampsSuffix : bytes := bs ":[0-5]\d".
Definition timeStampsSuffix : re := Eval vm_compute in force (compile src_timeStampsSuffix).
Definition src_innerMatches : list bytes :=
  [ bs "/+(.*)";
    bs "(\([^(]*)";
    bs "(?:\p{Z}-|-\p{Z})\p{Z}*(.+)";
    bs "[" ++ u 0x2012 ++ bs "-" ++ u 0x2015 ++ u 0xFF0D ++ bs "]\p{Z}*(.+)";
    bs "\.+\p{Z}*([^.]+)";
    bs "\p{Z}+(\P{Z}+)" ].
Definition innerMatches : list re := Eval vm_compute in map (fun p => force (compile p)) src_innerMatches.

(** phonenumbermatcher.go:71-115 (init) *)
Definition openingParens : bytes := bs "(\[" ++ u 0xFF08 ++ u 0xFF3B.
Definition closingParens : bytes := bs ")\]" ++ u 0xFF09 ++ u 0xFF3D.
Definition nonParens : bytes := bs "[^" ++ openingParens ++ closingParens ++ bs "]".
Definition src_matchingBrackets : bytes :=
  bs "^(?:[" ++ openingParens ++ bs "])?" ++ bs "(?:" ++ nonParens ++ bs "+" ++ bs "[" ++ closingParens ++ bs "])?" ++
  nonParens ++ bs "+" ++
  bs "(?:[" ++ openingParens ++ bs "]" ++ nonParens ++ bs "+[" ++ closingParens ++ bs "])" ++ bs "{0,3}" ++
  nonParens ++ bs "*$".
Definition matchingBrackets : re := Eval vm_compute in force (compile src_matchingBrackets).
Definition m_punctuation : bytes := bs "[" ++ validPunctuation ++ bs "]" ++ bs "{0,4}".
Definition m_digitSequence : bytes := digitsClass ++ bs "{1,20}".
Definition m_leadClass : bytes := bs "[" ++ openingParens ++ plusChars ++ bs "]".
Definition src_leadClassPattern : bytes := bs "^(?:" ++ m_leadClass ++ bs ")".
Definition leadClassPattern : re := Eval vm_compute in force (compile src_leadClassPattern).
Definition src_phoneNumberMatcherPattern : bytes :=
  bs "(?i)(?:" ++ m_leadClass ++ m_punctuation ++ bs ")" ++ bs "{0,2}" ++
  m_digitSequence ++ bs "(?:" ++ m_punctuation ++ m_digitSequence ++ bs ")" ++ bs "{0,20}" ++
  bs "(?:" ++ extnPatternsForMatching ++ bs ")?".
Definition phoneNumberMatcherPattern : re := Eval vm_compute in force (compile src_phoneNumberMatcherPattern).
