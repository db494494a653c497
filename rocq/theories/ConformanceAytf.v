(** Generated by gen/aytf_tests.py from asyoutypeformatter_test.go of the repository: DO NOT EDIT.
    The repository's own key-stroke tests evaluated on the model (fidelity evidence, not properties). *)
From Verif Require Import Base Types Shipped TestXml AsYouType.

Inductive op := New (region : bytes) | Cl | In (c : N) (expected : bytes) | InR (c : N) (expected : bytes) | In_ (c : N) | InR_ (c : N) | Pos (p : nat) | Ndd (p : bytes).
Fixpoint run (s : aytf) (l : list op) : bool :=
  match l with
  | [] => true
  | New r :: t => run (GetAsYouTypeFormatter test_container r) t
  | Cl :: t => run (Clear test_container s) t
  | In c e :: t => match InputDigit test_container s c with Ret (s, o) => beq o e && run s t | _ => false end
  | InR c e :: t => match InputDigitAndRememberPosition test_container s c with Ret (s, o) => beq o e && run s t | _ => false end
  | In_ c :: t => match InputDigit test_container s c with Ret (s, _) => run s t | _ => false end
  | InR_ c :: t => match InputDigitAndRememberPosition test_container s c with Ret (s, _) => run s t | _ => false end
  | Pos p :: t => match GetRememberedPosition s with Ret q => Nat.eqb p q && run s t | _ => false end
  | Ndd p :: t => beq (f_ndd s) p && run s t
  end.

Definition TestInvalidRegion : list op :=
  [New (bs "ZZ"); In 43 (bs "+"); In 52 (bs "+4"); In 56 (bs "+48 "); In 56 (bs "+48 8"); In 56 (bs "+48 88"); In 49 (bs "+48 88 1"); In 50 (bs "+48 88 12"); In 51 (bs "+48 88 123"); In 49 (bs "+48 88 123 1"); In 50 (bs "+48 88 123 12"); Cl; In 54 (bs "6"); In 53 (bs "65"); In 48 (bs "650"); In 50 (bs "6502"); In 53 (bs "65025"); In 51 (bs "650253")].
Lemma TestInvalidRegion_ok : run (GetAsYouTypeFormatter test_container []) TestInvalidRegion = true.
Proof. vm_cast_no_check (eq_refl true). Qed.

Definition TestInvalidPlusSign : list op :=
  [New (bs "ZZ"); In 43 (bs "+"); In 52 (bs "+4"); In 56 (bs "+48 "); In 56 (bs "+48 8"); In 56 (bs "+48 88"); In 49 (bs "+48 88 1"); In 50 (bs "+48 88 12"); In 51 (bs "+48 88 123"); In 49 (bs "+48 88 123 1"); In 43 (bs "+48881231+"); In 50 (bs "+48881231+2")].
Lemma TestInvalidPlusSign_ok : run (GetAsYouTypeFormatter test_container []) TestInvalidPlusSign = true.
Proof. vm_cast_no_check (eq_refl true). Qed.

Definition TestTooLongNumberMatchingMultipleLeadingDigits : list op :=
  [New (bs "ZZ"); In 43 (bs "+"); In 56 (bs "+8"); In 49 (bs "+81 "); In 57 (bs "+81 9"); In 48 (bs "+81 90"); In 49 (bs "+81 90 1"); In 50 (bs "+81 90 12"); In 51 (bs "+81 90 123"); In 52 (bs "+81 90 1234"); In 53 (bs "+81 90 1234 5"); In 54 (bs "+81 90 1234 56"); In 55 (bs "+81 90 1234 567"); In 56 (bs "+81 90 1234 5678"); In 57 (bs "+81 90 12 345 6789"); In 48 (bs "+81901234567890"); In 49 (bs "+819012345678901")].
Lemma TestTooLongNumberMatchingMultipleLeadingDigits_ok : run (GetAsYouTypeFormatter test_container []) TestTooLongNumberMatchingMultipleLeadingDigits = true.
Proof. vm_cast_no_check (eq_refl true). Qed.

Definition TestCountryWithSpaceInNationalPrefixFormattingRule : list op :=
  [New (bs "BY"); In 56 (bs "8"); In 56 (bs "88"); In 49 (bs "881"); In 57 (bs "8 819"); In 48 (bs "8 8190"); In 49 (bs "881 901"); In 50 (bs "8 819 012"); In 51 (bs "88190123")].
Lemma TestCountryWithSpaceInNationalPrefixFormattingRule_ok : run (GetAsYouTypeFormatter test_container []) TestCountryWithSpaceInNationalPrefixFormattingRule = true.
Proof. vm_cast_no_check (eq_refl true). Qed.

Definition TestCountryWithSpaceInNationalPrefixFormattingRuleAndLongNdd : list op :=
  [New (bs "BY"); In 57 (bs "9"); In 57 (bs "99"); In 57 (bs "999"); In 57 (bs "9999"); In 57 (bs "99999 "); In 49 (bs "99999 1"); In 50 (bs "99999 12"); In 51 (bs "99999 123"); In 52 (bs "99999 1234"); In 53 (bs "99999 12 345")].
Lemma TestCountryWithSpaceInNationalPrefixFormattingRuleAndLongNdd_ok : run (GetAsYouTypeFormatter test_container []) TestCountryWithSpaceInNationalPrefixFormattingRuleAndLongNdd = true.
Proof. vm_cast_no_check (eq_refl true). Qed.

Definition TestAYTFUS : list op :=
  [New (bs "US"); In 54 (bs "6"); In 53 (bs "65"); In 48 (bs "650"); In 50 (bs "650 2"); In 53 (bs "650 25"); In 51 (bs "650 253"); In 50 (bs "650 2532"); In 50 (bs "650 253 22"); In 50 (bs "650 253 222"); In 50 (bs "650 253 2222"); Cl; In 49 (bs "1"); In 54 (bs "16"); In 53 (bs "1 65"); In 48 (bs "1 650"); In 50 (bs "1 650 2"); In 53 (bs "1 650 25"); In 51 (bs "1 650 253"); In 50 (bs "1 650 253 2"); In 50 (bs "1 650 253 22"); In 50 (bs "1 650 253 222"); In 50 (bs "1 650 253 2222"); Cl; In 48 (bs "0"); In 49 (bs "01"); In 49 (bs "011 "); In 52 (bs "011 4"); In 52 (bs "011 44 "); In 54 (bs "011 44 6"); In 49 (bs "011 44 61"); In 50 (bs "011 44 6 12"); In 51 (bs "011 44 6 123"); In 49 (bs "011 44 6 123 1"); In 50 (bs "011 44 6 123 12"); In 51 (bs "011 44 6 123 123"); In 49 (bs "011 44 6 123 123 1"); In 50 (bs "011 44 6 123 123 12"); In 51 (bs "011 44 6 123 123 123"); Cl; In 48 (bs "0"); In 49 (bs "01"); In 49 (bs "011 "); In 53 (bs "011 5"); In 52 (bs "011 54 "); In 57 (bs "011 54 9"); In 49 (bs "011 54 91"); In 49 (bs "011 54 9 11"); In 50 (bs "011 54 9 11 2"); In 51 (bs "011 54 9 11 23"); In 49 (bs "011 54 9 11 231"); In 50 (bs "011 54 9 11 2312"); In 49 (bs "011 54 9 11 2312 1"); In 50 (bs "011 54 9 11 2312 12"); In 51 (bs "011 54 9 11 2312 123"); In 52 (bs "011 54 9 11 2312 1234"); Cl; In 48 (bs "0"); In 49 (bs "01"); In 49 (bs "011 "); In 50 (bs "011 2"); In 52 (bs "011 24"); In 52 (bs "011 244 "); In 50 (bs "011 244 2"); In 56 (bs "011 244 28"); In 48 (bs "011 244 280"); In 48 (bs "011 244 280 0"); In 48 (bs "011 244 280 00"); In 48 (bs "011 244 280 000"); In 48 (bs "011 244 280 000 0"); In 48 (bs "011 244 280 000 00"); In 48 (bs "011 244 280 000 000"); Cl; In 43 (bs "+"); In 52 (bs "+4"); In 56 (bs "+48 "); In 56 (bs "+48 8"); In 56 (bs "+48 88"); In 49 (bs "+48 88 1"); In 50 (bs "+48 88 12"); In 51 (bs "+48 88 123"); In 49 (bs "+48 88 123 1"); In 50 (bs "+48 88 123 12"); In 49 (bs "+48 88 123 12 1"); In 50 (bs "+48 88 123 12 12")].
Lemma TestAYTFUS_ok : run (GetAsYouTypeFormatter test_container []) TestAYTFUS = true.
Proof. vm_cast_no_check (eq_refl true). Qed.

Definition TestAYTFUSFullWidthCharacters : list op :=
  [New (bs "US"); In 65302 [239; 188; 150]; In 65301 [239; 188; 150; 239; 188; 149]; In 65296 (bs "650"); In 65298 (bs "650 2"); In 65301 (bs "650 25"); In 65299 (bs "650 253"); In 65298 (bs "650 2532"); In 65298 (bs "650 253 22"); In 65298 (bs "650 253 222"); In 65298 (bs "650 253 2222")].
Lemma TestAYTFUSFullWidthCharacters_ok : run (GetAsYouTypeFormatter test_container []) TestAYTFUSFullWidthCharacters = true.
Proof. vm_cast_no_check (eq_refl true). Qed.

Definition TestAYTFUSMobileShortCode : list op :=
  [New (bs "US"); In 42 (bs "*"); In 49 (bs "*1"); In 50 (bs "*12"); In 49 (bs "*121"); In 35 (bs "*121#")].
Lemma TestAYTFUSMobileShortCode_ok : run (GetAsYouTypeFormatter test_container []) TestAYTFUSMobileShortCode = true.
Proof. vm_cast_no_check (eq_refl true). Qed.

Definition TestAYTFUSVanityNumber : list op :=
  [New (bs "US"); In 56 (bs "8"); In 48 (bs "80"); In 48 (bs "800"); In 32 (bs "800 "); In 77 (bs "800 M"); In 89 (bs "800 MY"); In 32 (bs "800 MY "); In 65 (bs "800 MY A"); In 80 (bs "800 MY AP"); In 80 (bs "800 MY APP"); In 76 (bs "800 MY APPL"); In 69 (bs "800 MY APPLE")].
Lemma TestAYTFUSVanityNumber_ok : run (GetAsYouTypeFormatter test_container []) TestAYTFUSVanityNumber = true.
Proof. vm_cast_no_check (eq_refl true). Qed.

Definition TestAYTFAndRememberPositionUS : list op :=
  [New (bs "US"); InR 49 (bs "1"); Pos 1; In 54 (bs "16"); In 53 (bs "1 65"); Pos 1; InR 48 (bs "1 650"); Pos 5; In 50 (bs "1 650 2"); In 53 (bs "1 650 25"); Pos 5; In 51 (bs "1 650 253"); In 50 (bs "1 650 253 2"); In 50 (bs "1 650 253 22"); Pos 5; InR 50 (bs "1 650 253 222"); Pos 13; In 50 (bs "1 650 253 2222"); Pos 13; In 50 (bs "165025322222"); Pos 10; In 50 (bs "1650253222222"); Pos 10; Cl; In 49 (bs "1"); InR 54 (bs "16"); Pos 2; In 53 (bs "1 65"); In 48 (bs "1 650"); Pos 3; In 50 (bs "1 650 2"); In 53 (bs "1 650 25"); Pos 3; In 51 (bs "1 650 253"); In 50 (bs "1 650 253 2"); In 50 (bs "1 650 253 22"); Pos 3; In 50 (bs "1 650 253 222"); In 50 (bs "1 650 253 2222"); In 50 (bs "165025322222"); Pos 2; In 50 (bs "1650253222222"); Pos 2; Cl; In 54 (bs "6"); In 53 (bs "65"); In 48 (bs "650"); In 50 (bs "650 2"); In 53 (bs "650 25"); In 51 (bs "650 253"); InR 50 (bs "650 2532"); Pos 8; In 50 (bs "650 253 22"); Pos 9; In 50 (bs "650 253 222"); In 59 (bs "650253222;"); Pos 7; In 50 (bs "650253222;2"); Cl; In 54 (bs "6"); In 53 (bs "65"); In 48 (bs "650"); In 45 (bs "650-"); InR 50 (bs "650-2"); Pos 5; In 53 (bs "650-25"); Pos 5; In 51 (bs "650-253"); Pos 5; In 45 (bs "650-253-"); In 50 (bs "650-253-2"); In 50 (bs "650-253-22"); In 50 (bs "650-253-222"); In 50 (bs "650-253-2222"); Cl; In 48 (bs "0"); In 49 (bs "01"); In 49 (bs "011 "); InR 52 (bs "011 4"); In 56 (bs "011 48 "); Pos 5; In 56 (bs "011 48 8"); Pos 5; In 56 (bs "011 48 88"); In 49 (bs "011 48 88 1"); In 50 (bs "011 48 88 12"); Pos 5; In 51 (bs "011 48 88 123"); In 49 (bs "011 48 88 123 1"); In 50 (bs "011 48 88 123 12"); In 49 (bs "011 48 88 123 12 1"); In 50 (bs "011 48 88 123 12 12"); Cl; In 43 (bs "+"); In 49 (bs "+1"); InR 54 (bs "+1 6"); In 53 (bs "+1 65"); In 48 (bs "+1 650"); Pos 4; In 50 (bs "+1 650 2"); Pos 4; In 53 (bs "+1 650 25"); InR 51 (bs "+1 650 253"); In 50 (bs "+1 650 253 2"); In 50 (bs "+1 650 253 22"); In 50 (bs "+1 650 253 222"); Pos 10; Cl; In 43 (bs "+"); In 49 (bs "+1"); InR 54 (bs "+1 6"); In 53 (bs "+1 65"); In 48 (bs "+1 650"); Pos 4; In 50 (bs "+1 650 2"); Pos 4; In 53 (bs "+1 650 25"); In 51 (bs "+1 650 253"); In 50 (bs "+1 650 253 2"); In 50 (bs "+1 650 253 22"); In 50 (bs "+1 650 253 222"); In 59 (bs "+1650253222;"); Pos 3].
Lemma TestAYTFAndRememberPositionUS_ok : run (GetAsYouTypeFormatter test_container []) TestAYTFAndRememberPositionUS = true.
Proof. vm_cast_no_check (eq_refl true). Qed.

Definition TestAYTFGBFixedLine : list op :=
  [New (bs "GB"); In 48 (bs "0"); In 50 (bs "02"); In 48 (bs "020"); InR 55 (bs "020 7"); Pos 5; In 48 (bs "020 70"); In 51 (bs "020 703"); Pos 5; In 49 (bs "020 7031"); In 51 (bs "020 7031 3"); In 48 (bs "020 7031 30"); In 48 (bs "020 7031 300"); In 48 (bs "020 7031 3000")].
Lemma TestAYTFGBFixedLine_ok : run (GetAsYouTypeFormatter test_container []) TestAYTFGBFixedLine = true.
Proof. vm_cast_no_check (eq_refl true). Qed.

Definition TestAYTFGBTollFree : list op :=
  [New (bs "GB"); In 48 (bs "0"); In 56 (bs "08"); In 48 (bs "080"); In 55 (bs "080 7"); In 48 (bs "080 70"); In 51 (bs "080 703"); In 49 (bs "080 7031"); In 51 (bs "080 7031 3"); In 48 (bs "080 7031 30"); In 48 (bs "080 7031 300"); In 48 (bs "080 7031 3000")].
Lemma TestAYTFGBTollFree_ok : run (GetAsYouTypeFormatter test_container []) TestAYTFGBTollFree = true.
Proof. vm_cast_no_check (eq_refl true). Qed.

Definition TestAYTFGBPremiumRate : list op :=
  [New (bs "GB"); In 48 (bs "0"); In 57 (bs "09"); In 48 (bs "090"); In 55 (bs "090 7"); In 48 (bs "090 70"); In 51 (bs "090 703"); In 49 (bs "090 7031"); In 51 (bs "090 7031 3"); In 48 (bs "090 7031 30"); In 48 (bs "090 7031 300"); In 48 (bs "090 7031 3000")].
Lemma TestAYTFGBPremiumRate_ok : run (GetAsYouTypeFormatter test_container []) TestAYTFGBPremiumRate = true.
Proof. vm_cast_no_check (eq_refl true). Qed.

Definition TestAYTFNZMobile : list op :=
  [New (bs "NZ"); In 48 (bs "0"); In 50 (bs "02"); In 49 (bs "021"); In 49 (bs "02-11"); In 50 (bs "02-112"); In 51 (bs "02-112 3"); In 52 (bs "02-112 34"); In 53 (bs "02-112 345"); In 54 (bs "02-112 3456")].
Lemma TestAYTFNZMobile_ok : run (GetAsYouTypeFormatter test_container []) TestAYTFNZMobile = true.
Proof. vm_cast_no_check (eq_refl true). Qed.

Definition TestAYTFDE : list op :=
  [New (bs "DE"); In 48 (bs "0"); In 51 (bs "03"); In 48 (bs "030"); In 49 (bs "030/1"); In 50 (bs "030/12"); In 51 (bs "030/123"); In 52 (bs "030/1234"); Cl; In 48 (bs "0"); In 52 (bs "04"); In 49 (bs "041"); In 51 (bs "041 3"); In 52 (bs "041 34"); In 49 (bs "04134 1"); In 50 (bs "04134 12"); In 51 (bs "04134 123"); In 52 (bs "04134 1234"); Cl; In 48 (bs "0"); In 56 (bs "08"); In 48 (bs "080"); In 50 (bs "080 2"); In 49 (bs "080 21"); In 50 (bs "08021 2"); In 51 (bs "08021 23"); In 52 (bs "08021 234"); In 53 (bs "08021 2345"); Cl; In 48 (bs "0"); In 48 (bs "00"); In 49 (bs "00 1 "); In 54 (bs "00 1 6"); In 53 (bs "00 1 65"); In 48 (bs "00 1 650"); In 50 (bs "00 1 650 2"); In 53 (bs "00 1 650 25"); In 51 (bs "00 1 650 253"); In 50 (bs "00 1 650 253 2"); In 50 (bs "00 1 650 253 22"); In 50 (bs "00 1 650 253 222"); In 50 (bs "00 1 650 253 2222")].
Lemma TestAYTFDE_ok : run (GetAsYouTypeFormatter test_container []) TestAYTFDE = true.
Proof. vm_cast_no_check (eq_refl true). Qed.

Definition TestAYTFAR : list op :=
  [New (bs "AR"); In 48 (bs "0"); In 49 (bs "01"); In 49 (bs "011"); In 55 (bs "011 7"); In 48 (bs "011 70"); In 51 (bs "011 703"); In 49 (bs "011 7031"); In 51 (bs "011 7031-3"); In 48 (bs "011 7031-30"); In 48 (bs "011 7031-300"); In 48 (bs "011 7031-3000")].
Lemma TestAYTFAR_ok : run (GetAsYouTypeFormatter test_container []) TestAYTFAR = true.
Proof. vm_cast_no_check (eq_refl true). Qed.

Definition TestAYTFARMobile : list op :=
  [New (bs "AR"); In 43 (bs "+"); In 53 (bs "+5"); In 52 (bs "+54 "); In 57 (bs "+54 9"); In 49 (bs "+54 91"); In 49 (bs "+54 9 11"); In 50 (bs "+54 9 11 2"); In 51 (bs "+54 9 11 23"); In 49 (bs "+54 9 11 231"); In 50 (bs "+54 9 11 2312"); In 49 (bs "+54 9 11 2312 1"); In 50 (bs "+54 9 11 2312 12"); In 51 (bs "+54 9 11 2312 123"); In 52 (bs "+54 9 11 2312 1234")].
Lemma TestAYTFARMobile_ok : run (GetAsYouTypeFormatter test_container []) TestAYTFARMobile = true.
Proof. vm_cast_no_check (eq_refl true). Qed.

Definition TestAYTFKR : list op :=
  [New (bs "KR"); In 43 (bs "+"); In 56 (bs "+8"); In 50 (bs "+82 "); In 53 (bs "+82 5"); In 49 (bs "+82 51"); In 50 (bs "+82 51-2"); In 51 (bs "+82 51-23"); In 52 (bs "+82 51-234"); In 53 (bs "+82 51-234-5"); In 54 (bs "+82 51-234-56"); In 55 (bs "+82 51-234-567"); In 56 (bs "+82 51-234-5678"); Cl; In 43 (bs "+"); In 56 (bs "+8"); In 50 (bs "+82 "); In 50 (bs "+82 2"); In 53 (bs "+82 25"); In 51 (bs "+82 2-53"); In 49 (bs "+82 2-531"); In 53 (bs "+82 2-531-5"); In 54 (bs "+82 2-531-56"); In 55 (bs "+82 2-531-567"); In 56 (bs "+82 2-531-5678"); Cl; In 43 (bs "+"); In 56 (bs "+8"); In 50 (bs "+82 "); In 50 (bs "+82 2"); In 51 (bs "+82 23"); In 54 (bs "+82 2-36"); In 54 (bs "+82 2-366"); In 53 (bs "+82 2-3665"); In 53 (bs "+82 2-3665-5"); In 54 (bs "+82 2-3665-56"); In 55 (bs "+82 2-3665-567"); In 56 (bs "+82 2-3665-5678"); Cl; In 48 (bs "0"); In 50 (bs "02"); In 49 (bs "021"); In 49 (bs "02-11"); In 52 (bs "02-114"); Cl; In 48 (bs "0"); In 50 (bs "02"); In 49 (bs "021"); In 51 (bs "02-13"); In 48 (bs "02-130"); In 48 (bs "02-1300"); Cl; In 48 (bs "0"); In 49 (bs "01"); In 49 (bs "011"); In 52 (bs "011-4"); In 53 (bs "011-45"); In 54 (bs "011-456"); In 55 (bs "011-456-7"); In 56 (bs "011-456-78"); In 57 (bs "011-456-789"); In 48 (bs "011-456-7890"); Cl; In 48 (bs "0"); In 49 (bs "01"); In 49 (bs "011"); In 57 (bs "011-9"); In 56 (bs "011-98"); In 55 (bs "011-987"); In 54 (bs "011-9876"); In 55 (bs "011-9876-7"); In 56 (bs "011-9876-78"); In 57 (bs "011-9876-789"); In 48 (bs "011-9876-7890")].
Lemma TestAYTFKR_ok : run (GetAsYouTypeFormatter test_container []) TestAYTFKR = true.
Proof. vm_cast_no_check (eq_refl true). Qed.

Definition TestAYTF_MX : list op :=
  [New (bs "MX"); In 43 (bs "+"); In 53 (bs "+5"); In 50 (bs "+52 "); In 56 (bs "+52 8"); In 48 (bs "+52 80"); In 48 (bs "+52 800"); In 49 (bs "+52 800 1"); In 50 (bs "+52 800 12"); In 51 (bs "+52 800 123"); In 52 (bs "+52 800 123 4"); In 53 (bs "+52 800 123 45"); In 54 (bs "+52 800 123 456"); In 55 (bs "+52 800 123 4567"); Cl; In 57 (bs "9"); In 48 (bs "90"); In 49 (bs "901"); In 49 (bs "9011"); In 50 (bs "90112"); In 51 (bs "901123"); In 52 (bs "9011234"); In 53 (bs "90112345"); In 54 (bs "901123456"); In 55 (bs "9011234567"); Cl; In 43 (bs "+"); In 53 (bs "+5"); In 50 (bs "+52 "); In 53 (bs "+52 5"); In 53 (bs "+52 55"); In 49 (bs "+52 55 1"); In 50 (bs "+52 55 12"); In 51 (bs "+52 55 123"); In 52 (bs "+52 55 1234"); In 53 (bs "+52 55 1234 5"); In 54 (bs "+52 55 1234 56"); In 55 (bs "+52 55 1234 567"); In 56 (bs "+52 55 1234 5678"); Cl; In 43 (bs "+"); In 53 (bs "+5"); In 50 (bs "+52 "); In 50 (bs "+52 2"); In 49 (bs "+52 21"); In 50 (bs "+52 212"); In 51 (bs "+52 212 3"); In 52 (bs "+52 212 34"); In 53 (bs "+52 212 345"); In 54 (bs "+52 212 345 6"); In 55 (bs "+52 212 345 67"); In 56 (bs "+52 212 345 678"); In 57 (bs "+52 212 345 6789"); Cl; In 43 (bs "+"); In 53 (bs "+5"); In 50 (bs "+52 "); In 49 (bs "+52 1"); In 53 (bs "+52 15"); In 53 (bs "+52 1 55"); In 49 (bs "+52 1 55 1"); In 50 (bs "+52 1 55 12"); In 51 (bs "+52 1 55 123"); In 52 (bs "+52 1 55 1234"); In 53 (bs "+52 1 55 1234 5"); In 54 (bs "+52 1 55 1234 56"); In 55 (bs "+52 1 55 1234 567"); In 56 (bs "+52 1 55 1234 5678"); Cl; In 43 (bs "+"); In 53 (bs "+5"); In 50 (bs "+52 "); In 49 (bs "+52 1"); In 53 (bs "+52 15"); In 52 (bs "+52 1 54"); In 49 (bs "+52 1 541"); In 50 (bs "+52 1 541 2"); In 51 (bs "+52 1 541 23"); In 52 (bs "+52 1 541 234"); In 53 (bs "+52 1 541 234 5"); In 54 (bs "+52 1 541 234 56"); In 55 (bs "+52 1 541 234 567"); In 56 (bs "+52 1 541 234 5678")].
Lemma TestAYTF_MX_ok : run (GetAsYouTypeFormatter test_container []) TestAYTF_MX = true.
Proof. vm_cast_no_check (eq_refl true). Qed.

Definition TestAYTF_International_Toll_Free : list op :=
  [New (bs "US"); In 43 (bs "+"); In 56 (bs "+8"); In 48 (bs "+80"); In 48 (bs "+800 "); In 49 (bs "+800 1"); In 50 (bs "+800 12"); In 51 (bs "+800 123"); In 52 (bs "+800 1234"); In 53 (bs "+800 1234 5"); In 54 (bs "+800 1234 56"); In 55 (bs "+800 1234 567"); In 56 (bs "+800 1234 5678"); In 57 (bs "+800123456789")].
Lemma TestAYTF_International_Toll_Free_ok : run (GetAsYouTypeFormatter test_container []) TestAYTF_International_Toll_Free = true.
Proof. vm_cast_no_check (eq_refl true). Qed.

Definition TestAYTFMultipleLeadingDigitPatterns : list op :=
  [New (bs "JP"); In 43 (bs "+"); In 56 (bs "+8"); In 49 (bs "+81 "); In 53 (bs "+81 5"); In 48 (bs "+81 50"); In 50 (bs "+81 50 2"); In 51 (bs "+81 50 23"); In 52 (bs "+81 50 234"); In 53 (bs "+81 50 2345"); In 54 (bs "+81 50 2345 6"); In 55 (bs "+81 50 2345 67"); In 56 (bs "+81 50 2345 678"); In 57 (bs "+81 50 2345 6789"); Cl; In 43 (bs "+"); In 56 (bs "+8"); In 49 (bs "+81 "); In 50 (bs "+81 2"); In 50 (bs "+81 22"); In 50 (bs "+81 22 2"); In 49 (bs "+81 22 21"); In 50 (bs "+81 2221 2"); In 53 (bs "+81 222 12 5"); In 54 (bs "+81 222 12 56"); In 55 (bs "+81 222 12 567"); In 56 (bs "+81 222 12 5678"); Cl; In 48 (bs "0"); In 49 (bs "01"); In 49 (bs "011"); In 49 (bs "011 1"); In 49 (bs "011 11"); In 51 (bs "011113"); Cl; In 43 (bs "+"); In 56 (bs "+8"); In 49 (bs "+81 "); In 51 (bs "+81 3"); In 51 (bs "+81 33"); In 51 (bs "+81 33 3"); In 50 (bs "+81 3332"); In 50 (bs "+81 3332 2"); In 53 (bs "+81 3332 2 5"); In 54 (bs "+81 3332 2 56"); In 55 (bs "+81 3332 2 567"); In 56 (bs "+81 3332 2 5678")].
Lemma TestAYTFMultipleLeadingDigitPatterns_ok : run (GetAsYouTypeFormatter test_container []) TestAYTFMultipleLeadingDigitPatterns = true.
Proof. vm_cast_no_check (eq_refl true). Qed.

Definition TestAYTFLongIDD_AU : list op :=
  [New (bs "AU"); In 48 (bs "0"); In 48 (bs "00"); In 49 (bs "001"); In 49 (bs "0011"); In 49 (bs "0011 1 "); In 54 (bs "0011 1 6"); In 53 (bs "0011 1 65"); In 48 (bs "0011 1 650"); In 50 (bs "0011 1 650 2"); In 53 (bs "0011 1 650 25"); In 51 (bs "0011 1 650 253"); In 50 (bs "0011 1 650 253 2"); In 50 (bs "0011 1 650 253 22"); In 50 (bs "0011 1 650 253 222"); In 50 (bs "0011 1 650 253 2222"); Cl; In 48 (bs "0"); In 48 (bs "00"); In 49 (bs "001"); In 49 (bs "0011"); In 56 (bs "00118"); In 49 (bs "0011 81 "); In 51 (bs "0011 81 3"); In 51 (bs "0011 81 33"); In 51 (bs "0011 81 33 3"); In 50 (bs "0011 81 3332"); In 50 (bs "0011 81 3332 2"); In 53 (bs "0011 81 3332 2 5"); In 54 (bs "0011 81 3332 2 56"); In 55 (bs "0011 81 3332 2 567"); In 56 (bs "0011 81 3332 2 5678"); Cl; In 48 (bs "0"); In 48 (bs "00"); In 49 (bs "001"); In 49 (bs "0011"); In 50 (bs "00112"); In 52 (bs "001124"); In 52 (bs "0011 244 "); In 50 (bs "0011 244 2"); In 53 (bs "0011 244 25"); In 48 (bs "0011 244 250"); In 50 (bs "0011 244 250 2"); In 53 (bs "0011 244 250 25"); In 51 (bs "0011 244 250 253"); In 50 (bs "0011 244 250 253 2"); In 50 (bs "0011 244 250 253 22"); In 50 (bs "0011 244 250 253 222")].
Lemma TestAYTFLongIDD_AU_ok : run (GetAsYouTypeFormatter test_container []) TestAYTFLongIDD_AU = true.
Proof. vm_cast_no_check (eq_refl true). Qed.

Definition TestAYTFLongIDD_KR : list op :=
  [New (bs "KR"); In 48 (bs "0"); In 48 (bs "00"); In 51 (bs "003"); In 48 (bs "0030"); In 48 (bs "00300"); In 49 (bs "00300 1 "); In 54 (bs "00300 1 6"); In 53 (bs "00300 1 65"); In 48 (bs "00300 1 650"); In 50 (bs "00300 1 650 2"); In 53 (bs "00300 1 650 25"); In 51 (bs "00300 1 650 253"); In 50 (bs "00300 1 650 253 2"); In 50 (bs "00300 1 650 253 22"); In 50 (bs "00300 1 650 253 222"); In 50 (bs "00300 1 650 253 2222")].
Lemma TestAYTFLongIDD_KR_ok : run (GetAsYouTypeFormatter test_container []) TestAYTFLongIDD_KR = true.
Proof. vm_cast_no_check (eq_refl true). Qed.

Definition TestAYTFLongNDD_KR : list op :=
  [New (bs "KR"); In 48 (bs "0"); In 56 (bs "08"); In 56 (bs "088"); In 49 (bs "0881"); In 49 (bs "08811"); In 57 (bs "08811-9"); In 56 (bs "08811-98"); In 55 (bs "08811-987"); In 54 (bs "08811-9876"); In 55 (bs "08811-9876-7"); In 56 (bs "08811-9876-78"); In 57 (bs "08811-9876-789"); In 48 (bs "08811-9876-7890"); Cl; In 48 (bs "0"); In 56 (bs "08"); In 53 (bs "085"); In 48 (bs "0850"); In 48 (bs "08500 "); In 49 (bs "08500 1"); In 49 (bs "08500 11"); In 57 (bs "08500 11-9"); In 56 (bs "08500 11-98"); In 55 (bs "08500 11-987"); In 54 (bs "08500 11-9876"); In 55 (bs "08500 11-9876-7"); In 56 (bs "08500 11-9876-78"); In 57 (bs "08500 11-9876-789"); In 48 (bs "08500 11-9876-7890")].
Lemma TestAYTFLongNDD_KR_ok : run (GetAsYouTypeFormatter test_container []) TestAYTFLongNDD_KR = true.
Proof. vm_cast_no_check (eq_refl true). Qed.

Definition TestAYTFLongNDD_SG : list op :=
  [New (bs "SG"); In 55 (bs "7"); In 55 (bs "77"); In 55 (bs "777"); In 55 (bs "7777"); In 55 (bs "77777"); In 55 (bs "777777 "); In 57 (bs "777777 9"); In 56 (bs "777777 98"); In 55 (bs "777777 987"); In 54 (bs "777777 9876"); In 55 (bs "777777 9876 7"); In 56 (bs "777777 9876 78"); In 57 (bs "777777 9876 789"); In 48 (bs "777777 9876 7890")].
Lemma TestAYTFLongNDD_SG_ok : run (GetAsYouTypeFormatter test_container []) TestAYTFLongNDD_SG = true.
Proof. vm_cast_no_check (eq_refl true). Qed.

Definition TestAYTFShortNumberFormattingFix_AU : list op :=
  [New (bs "AU"); In 49 (bs "1"); In 50 (bs "12"); In 51 (bs "123"); In 52 (bs "1234"); In 53 (bs "1234 5"); In 54 (bs "1234 56"); In 55 (bs "1234 567"); In 56 (bs "1234 567 8"); In 57 (bs "1234 567 89"); In 48 (bs "1234 567 890"); Cl; In 43 (bs "+"); In 54 (bs "+6"); In 49 (bs "+61 "); In 49 (bs "+61 1"); In 50 (bs "+61 12"); In 51 (bs "+61 123"); In 52 (bs "+61 1234"); In 53 (bs "+61 1234 5"); In 54 (bs "+61 1234 56"); In 55 (bs "+61 1234 567"); In 56 (bs "+61 1234 567 8"); In 57 (bs "+61 1234 567 89"); In 48 (bs "+61 1234 567 890"); Cl; In 48 (bs "0"); In 50 (bs "02"); In 49 (bs "021"); In 50 (bs "02 12"); In 51 (bs "02 123"); In 52 (bs "02 1234"); In 53 (bs "02 1234 5"); In 54 (bs "02 1234 56"); In 55 (bs "02 1234 567"); In 56 (bs "02 1234 5678"); Cl; In 50 (bs "2"); In 49 (bs "21"); In 50 (bs "212"); In 51 (bs "2123"); In 52 (bs "21234"); In 53 (bs "212345"); In 54 (bs "2123456"); In 55 (bs "21234567"); In 56 (bs "212345678"); Cl; In 43 (bs "+"); In 54 (bs "+6"); In 49 (bs "+61 "); In 50 (bs "+61 2"); In 49 (bs "+61 21"); In 50 (bs "+61 2 12"); In 51 (bs "+61 2 123"); In 52 (bs "+61 2 1234"); In 53 (bs "+61 2 1234 5"); In 54 (bs "+61 2 1234 56"); In 55 (bs "+61 2 1234 567"); In 56 (bs "+61 2 1234 5678")].
Lemma TestAYTFShortNumberFormattingFix_AU_ok : run (GetAsYouTypeFormatter test_container []) TestAYTFShortNumberFormattingFix_AU = true.
Proof. vm_cast_no_check (eq_refl true). Qed.

Definition TestAYTFShortNumberFormattingFix_KR : list op :=
  [New (bs "KR"); In 49 (bs "1"); In 49 (bs "11"); In 49 (bs "111"); Cl; In 49 (bs "1"); In 49 (bs "11"); In 52 (bs "114"); Cl; In 49 (bs "1"); In 51 (bs "13"); In 49 (bs "131"); In 50 (bs "1312"); In 49 (bs "13121"); In 50 (bs "131212"); In 51 (bs "1312123"); In 52 (bs "13121234"); Cl; In 43 (bs "+"); In 56 (bs "+8"); In 50 (bs "+82 "); In 49 (bs "+82 1"); In 51 (bs "+82 13"); In 49 (bs "+82 131"); In 50 (bs "+82 131-2"); In 49 (bs "+82 131-2-1"); In 50 (bs "+82 131-2-12"); In 51 (bs "+82 131-2-123"); In 52 (bs "+82 131-2-1234")].
Lemma TestAYTFShortNumberFormattingFix_KR_ok : run (GetAsYouTypeFormatter test_container []) TestAYTFShortNumberFormattingFix_KR = true.
Proof. vm_cast_no_check (eq_refl true). Qed.

Definition TestAYTFShortNumberFormattingFix_MX : list op :=
  [New (bs "MX"); In 57 (bs "9"); In 49 (bs "91"); In 49 (bs "911"); Cl; In 56 (bs "8"); In 48 (bs "80"); In 48 (bs "800"); In 49 (bs "800 1"); In 50 (bs "800 12"); In 51 (bs "800 123"); In 52 (bs "800 123 4"); In 53 (bs "800 123 45"); In 54 (bs "800 123 456"); In 55 (bs "800 123 4567"); Cl; In 43 (bs "+"); In 53 (bs "+5"); In 50 (bs "+52 "); In 56 (bs "+52 8"); In 48 (bs "+52 80"); In 48 (bs "+52 800"); In 49 (bs "+52 800 1"); In 50 (bs "+52 800 12"); In 51 (bs "+52 800 123"); In 52 (bs "+52 800 123 4"); In 53 (bs "+52 800 123 45"); In 54 (bs "+52 800 123 456"); In 55 (bs "+52 800 123 4567")].
Lemma TestAYTFShortNumberFormattingFix_MX_ok : run (GetAsYouTypeFormatter test_container []) TestAYTFShortNumberFormattingFix_MX = true.
Proof. vm_cast_no_check (eq_refl true). Qed.

Definition TestAYTFNoNationalPrefix : list op :=
  [New (bs "IT"); In 51 (bs "3"); In 51 (bs "33"); In 51 (bs "333"); In 51 (bs "333 3"); In 51 (bs "333 33"); In 51 (bs "333 333")].
Lemma TestAYTFNoNationalPrefix_ok : run (GetAsYouTypeFormatter test_container []) TestAYTFNoNationalPrefix = true.
Proof. vm_cast_no_check (eq_refl true). Qed.

Definition TestAYTFNoNationalPrefixFormattingRule : list op :=
  [New (bs "AO"); In 51 (bs "3"); In 51 (bs "33"); In 51 (bs "333"); In 51 (bs "333 3"); In 51 (bs "333 33"); In 51 (bs "333 333")].
Lemma TestAYTFNoNationalPrefixFormattingRule_ok : run (GetAsYouTypeFormatter test_container []) TestAYTFNoNationalPrefixFormattingRule = true.
Proof. vm_cast_no_check (eq_refl true). Qed.

Definition TestAYTFShortNumberFormattingFix_US : list op :=
  [New (bs "US"); In 49 (bs "1"); In 48 (bs "10"); In 49 (bs "101"); Cl; In 49 (bs "1"); In 49 (bs "11"); In 50 (bs "112"); Cl; In 49 (bs "1"); In 50 (bs "12"); In 50 (bs "1 22")].
Lemma TestAYTFShortNumberFormattingFix_US_ok : run (GetAsYouTypeFormatter test_container []) TestAYTFShortNumberFormattingFix_US = true.
Proof. vm_cast_no_check (eq_refl true). Qed.

Definition TestAYTFClearNDDAfterIDDExtraction : list op :=
  [New (bs "KR"); In 48 (bs "0"); In 48 (bs "00"); In 55 (bs "007"); In 48 (bs "0070"); In 48 (bs "00700"); Ndd (bs "0"); In 49 (bs "00700 1 "); Ndd (bs ""); In 50 (bs "00700 1 2"); In 51 (bs "00700 1 23"); In 52 (bs "00700 1 234"); In 53 (bs "00700 1 234 5"); In 54 (bs "00700 1 234 56"); In 55 (bs "00700 1 234 567"); In 56 (bs "00700 1 234 567 8"); In 57 (bs "00700 1 234 567 89"); In 48 (bs "00700 1 234 567 890"); In 49 (bs "00700 1 234 567 8901"); In 50 (bs "00700123456789012"); In 51 (bs "007001234567890123"); In 52 (bs "0070012345678901234"); In 53 (bs "00700123456789012345"); In 54 (bs "007001234567890123456"); In 55 (bs "0070012345678901234567")].
Lemma TestAYTFClearNDDAfterIDDExtraction_ok : run (GetAsYouTypeFormatter test_container []) TestAYTFClearNDDAfterIDDExtraction = true.
Proof. vm_cast_no_check (eq_refl true). Qed.

Definition TestAYTFNumberPatternsBecomingInvalidShouldNotResultInDigitLoss : list op :=
  [New (bs "CN"); In 43 (bs "+"); In 56 (bs "+8"); In 54 (bs "+86 "); In 57 (bs "+86 9"); In 56 (bs "+86 98"); In 56 (bs "+86 988"); In 49 (bs "+86 988 1"); In 50 (bs "+8698812"); In 51 (bs "+86988123"); In 52 (bs "+869881234"); In 53 (bs "+8698812345")].
Lemma TestAYTFNumberPatternsBecomingInvalidShouldNotResultInDigitLoss_ok : run (GetAsYouTypeFormatter test_container []) TestAYTFNumberPatternsBecomingInvalidShouldNotResultInDigitLoss = true.
Proof. vm_cast_no_check (eq_refl true). Qed.
