(** Every regular expression compiled at package initialisation is accepted by the modelled compiler, so no
    [regexp.MustCompile] at start-up panics and the compiled constants of Consts.v are what [compile] returns. *)
From Verif Require Import Base Utf8 Regex Consts.

Definition all_init_patterns : list (bytes * re) :=
  [ (src_uniqueInternationalPrefix, uniqueInternationalPrefix);
    (src_plusCharsPattern, plusCharsPattern);
    (src_separatorPattern, separatorPattern);
    (src_notSeparatorPattern, notSeparatorPattern);
    (src_capturingDigitPattern, capturingDigitPattern);
    (src_validStartChar, validStartCharPattern);
    (src_secondNumberStart, secondNumberStartPattern);
    (src_unwantedEndChars, unwantedEndCharPattern);
    (src_validAlphaPhone, validAlphaPhonePattern);
    (src_extnPattern, extnPattern);
    (src_validPhoneNumberPattern, validPhoneNumberPattern);
    (src_nonDigits, nonDigitsPattern);
    (src_firstGroup, firstGroupPattern);
    (src_np, npPattern);
    (src_fg, fgPattern);
    (src_cc, ccPattern);
    (src_firstGroupOnly, firstGroupOnlyPrefixPattern);
    (src_rfc3966GlobalNumberDigits, rfc3966GlobalNumberDigitsPattern);
    (src_rfc3966Domainname, rfc3966DomainnamePattern);
    (src_pubPages, pubPages);
    (src_slashDates, slashSeparatedDates);
    (src_timeStamps, timeStamps);
    (src_timeStampsSuffix, timeStampsSuffix);
    (src_matchingBrackets, matchingBrackets);
    (src_leadClassPattern, leadClassPattern);
    (src_phoneNumberMatcherPattern, phoneNumberMatcherPattern) ]
  ++ combine src_innerMatches innerMatches.

Lemma init_patterns_compile :
  map (fun p => compile (fst p)) all_init_patterns = map (fun p => Some (snd p)) all_init_patterns.
Proof. vm_compute. reflexivity. Qed.

Lemma innerMatches_length : List.length innerMatches = List.length src_innerMatches.
Proof. reflexivity. Qed.
