(** Generated by gen/conformance.py from shortnumberinfo_test.go of the repository: DO NOT EDIT.
    Unit-test assertions of the repository evaluated on the model (fidelity evidence, not properties).
    120 assertions translated, 17 statements not translated. *)
From Coq Require Import List NArith ZArith Bool.
From Verif Require Import Base Types Normalize Validate Format Parse ConformanceBase Shipped TestXml ShortNumber ShippedShort.
Import ListNotations.
Local Open Scope N_scope.

(* shortnumberinfo_test.go: TestIsPossibleShortNumber, 1 checks, 7 statements not translated *)
Definition TestIsPossibleShortNumber : list bool :=
  [(let C := shipped in let SC := shipped_short in match (x3 <- (x <- (x1 <- (Ret (bs "123456")) ;; x2 <- (Ret (bs "FR")) ;; Parse C x1 x2) ;; Ret (fst x)) ;; x4 <- (Ret (bs "FR")) ;; IsPossibleShortNumberForRegion C SC x3 x4) with Ret true => true | _ => false end)].

Lemma TestIsPossibleShortNumber_ok : forallb (fun b => b) TestIsPossibleShortNumber = true.
Proof. vm_cast_no_check (eq_refl true). Qed.

(* shortnumberinfo_test.go: TestIsValidShortNumber, 2 checks, 6 statements not translated *)
Definition TestIsValidShortNumber : list bool :=
  [(let C := shipped in let SC := shipped_short in match (x3 <- (x <- (x1 <- (Ret (bs "1010")) ;; x2 <- (Ret (bs "FR")) ;; Parse C x1 x2) ;; Ret (fst x)) ;; x4 <- (Ret (bs "FR")) ;; IsValidShortNumberForRegion C SC x3 x4) with Ret true => true | _ => false end);
   (let C := shipped in let SC := shipped_short in match (x7 <- (x <- (x5 <- (Ret (bs "123456")) ;; x6 <- (Ret (bs "FR")) ;; Parse C x5 x6) ;; Ret (fst x)) ;; x8 <- (Ret (bs "FR")) ;; IsValidShortNumberForRegion C SC x7 x8) with Ret false => true | _ => false end)].

Lemma TestIsValidShortNumber_ok : forallb (fun b => b) TestIsValidShortNumber = true.
Proof. vm_cast_no_check (eq_refl true). Qed.

(* shortnumberinfo_test.go: TestIsCarrierSpecific, 7 checks, 0 statements not translated *)
Definition TestIsCarrierSpecific : list bool :=
  [(let C := shipped in let SC := shipped_short in match (x1 <- (p <- (p <- (Ret phone0) ;; x <- (Ret (1)%Z) ;; Ret (set_cc p (Some x))) ;; x <- (Ret 33669%N) ;; Ret (set_nn p (Some x))) ;; IsCarrierSpecific C SC x1) with Ret true => true | _ => false end);
   (let C := shipped in let SC := shipped_short in match (x4 <- (x <- (x2 <- (Ret (bs "33669")) ;; x3 <- (Ret (bs "US")) ;; Parse C x2 x3) ;; Ret (fst x)) ;; x5 <- (Ret (bs "US")) ;; IsCarrierSpecificForRegion C SC x4 x5) with Ret true => true | _ => false end);
   (let C := shipped in let SC := shipped_short in match (x6 <- (p <- (p <- (Ret phone0) ;; x <- (Ret (1)%Z) ;; Ret (set_cc p (Some x))) ;; x <- (Ret 911%N) ;; Ret (set_nn p (Some x))) ;; IsCarrierSpecific C SC x6) with Ret false => true | _ => false end);
   (let C := shipped in let SC := shipped_short in match (x9 <- (x <- (x7 <- (Ret (bs "911")) ;; x8 <- (Ret (bs "US")) ;; Parse C x7 x8) ;; Ret (fst x)) ;; x10 <- (Ret (bs "US")) ;; IsCarrierSpecificForRegion C SC x9 x10) with Ret false => true | _ => false end);
   (let C := shipped in let SC := shipped_short in match (x11 <- (p <- (p <- (Ret phone0) ;; x <- (Ret (1)%Z) ;; Ret (set_cc p (Some x))) ;; x <- (Ret 211%N) ;; Ret (set_nn p (Some x))) ;; IsCarrierSpecific C SC x11) with Ret true => true | _ => false end);
   (let C := shipped in let SC := shipped_short in match (x12 <- (p <- (p <- (Ret phone0) ;; x <- (Ret (1)%Z) ;; Ret (set_cc p (Some x))) ;; x <- (Ret 211%N) ;; Ret (set_nn p (Some x))) ;; x13 <- (Ret (bs "US")) ;; IsCarrierSpecificForRegion C SC x12 x13) with Ret true => true | _ => false end);
   (let C := shipped in let SC := shipped_short in match (x14 <- (p <- (p <- (Ret phone0) ;; x <- (Ret (1)%Z) ;; Ret (set_cc p (Some x))) ;; x <- (Ret 211%N) ;; Ret (set_nn p (Some x))) ;; x15 <- (Ret (bs "BB")) ;; IsCarrierSpecificForRegion C SC x14 x15) with Ret false => true | _ => false end)].

Lemma TestIsCarrierSpecific_ok : forallb (fun b => b) TestIsCarrierSpecific = true.
Proof. vm_cast_no_check (eq_refl true). Qed.

(* shortnumberinfo_test.go: TestIsSmsService, 2 checks, 0 statements not translated *)
Definition TestIsSmsService : list bool :=
  [(let C := shipped in let SC := shipped_short in match (x1 <- (p <- (p <- (Ret phone0) ;; x <- (Ret (1)%Z) ;; Ret (set_cc p (Some x))) ;; x <- (Ret 21234%N) ;; Ret (set_nn p (Some x))) ;; x2 <- (Ret (bs "US")) ;; IsSmsServiceForRegion C SC x1 x2) with Ret true => true | _ => false end);
   (let C := shipped in let SC := shipped_short in match (x3 <- (p <- (p <- (Ret phone0) ;; x <- (Ret (1)%Z) ;; Ret (set_cc p (Some x))) ;; x <- (Ret 21234%N) ;; Ret (set_nn p (Some x))) ;; x4 <- (Ret (bs "BB")) ;; IsSmsServiceForRegion C SC x3 x4) with Ret false => true | _ => false end)].

Lemma TestIsSmsService_ok : forallb (fun b => b) TestIsSmsService = true.
Proof. vm_cast_no_check (eq_refl true). Qed.

(* shortnumberinfo_test.go: TestGetExpectedCost, 14 checks, 0 statements not translated *)
Definition TestGetExpectedCost : list bool :=
  [(let C := shipped in let SC := shipped_short in match (Ret PREMIUM_RATE_COST), (x5 <- (x <- (x3 <- (x1 <- (Ret (bs "FR")) ;; x2 <- (Ret PREMIUM_RATE_COST) ;; Ret (getExampleShortNumberForCost SC x1 x2)) ;; x4 <- (Ret (bs "FR")) ;; Parse C x3 x4) ;; Ret (fst x)) ;; x6 <- (Ret (bs "FR")) ;; GetExpectedCostForRegion C SC x5 x6) with Ret a, Ret b => cost_eqb a b | _, _ => false end);
   (let C := shipped in let SC := shipped_short in match (Ret PREMIUM_RATE_COST), (x7 <- (p <- (p <- (Ret phone0) ;; x <- (Ret (33)%Z) ;; Ret (set_cc p (Some x))) ;; x <- (x <- (x1 <- (Ret (bs "FR")) ;; x2 <- (Ret PREMIUM_RATE_COST) ;; Ret (getExampleShortNumberForCost SC x1 x2)) ;; Ret (parse_uint_val x)) ;; Ret (set_nn p (Some x))) ;; GetExpectedCost C SC x7) with Ret a, Ret b => cost_eqb a b | _, _ => false end);
   (let C := shipped in let SC := shipped_short in match (Ret STANDARD_RATE_COST), (x12 <- (x <- (x10 <- (x8 <- (Ret (bs "FR")) ;; x9 <- (Ret STANDARD_RATE_COST) ;; Ret (getExampleShortNumberForCost SC x8 x9)) ;; x11 <- (Ret (bs "FR")) ;; Parse C x10 x11) ;; Ret (fst x)) ;; x13 <- (Ret (bs "FR")) ;; GetExpectedCostForRegion C SC x12 x13) with Ret a, Ret b => cost_eqb a b | _, _ => false end);
   (let C := shipped in let SC := shipped_short in match (Ret STANDARD_RATE_COST), (x14 <- (p <- (p <- (Ret phone0) ;; x <- (Ret (33)%Z) ;; Ret (set_cc p (Some x))) ;; x <- (x <- (x8 <- (Ret (bs "FR")) ;; x9 <- (Ret STANDARD_RATE_COST) ;; Ret (getExampleShortNumberForCost SC x8 x9)) ;; Ret (parse_uint_val x)) ;; Ret (set_nn p (Some x))) ;; GetExpectedCost C SC x14) with Ret a, Ret b => cost_eqb a b | _, _ => false end);
   (let C := shipped in let SC := shipped_short in match (Ret TOLL_FREE_COST), (x19 <- (x <- (x17 <- (x15 <- (Ret (bs "FR")) ;; x16 <- (Ret TOLL_FREE_COST) ;; Ret (getExampleShortNumberForCost SC x15 x16)) ;; x18 <- (Ret (bs "FR")) ;; Parse C x17 x18) ;; Ret (fst x)) ;; x20 <- (Ret (bs "FR")) ;; GetExpectedCostForRegion C SC x19 x20) with Ret a, Ret b => cost_eqb a b | _, _ => false end);
   (let C := shipped in let SC := shipped_short in match (Ret TOLL_FREE_COST), (x21 <- (p <- (p <- (Ret phone0) ;; x <- (Ret (33)%Z) ;; Ret (set_cc p (Some x))) ;; x <- (x <- (x15 <- (Ret (bs "FR")) ;; x16 <- (Ret TOLL_FREE_COST) ;; Ret (getExampleShortNumberForCost SC x15 x16)) ;; Ret (parse_uint_val x)) ;; Ret (set_nn p (Some x))) ;; GetExpectedCost C SC x21) with Ret a, Ret b => cost_eqb a b | _, _ => false end);
   (let C := shipped in let SC := shipped_short in match (Ret UNKNOWN_COST), (x24 <- (x <- (x22 <- (Ret (bs "12345")) ;; x23 <- (Ret (bs "FR")) ;; Parse C x22 x23) ;; Ret (fst x)) ;; x25 <- (Ret (bs "FR")) ;; GetExpectedCostForRegion C SC x24 x25) with Ret a, Ret b => cost_eqb a b | _, _ => false end);
   (let C := shipped in let SC := shipped_short in match (Ret UNKNOWN_COST), (x26 <- (p <- (p <- (Ret phone0) ;; x <- (Ret (33)%Z) ;; Ret (set_cc p (Some x))) ;; x <- (Ret 12345%N) ;; Ret (set_nn p (Some x))) ;; GetExpectedCost C SC x26) with Ret a, Ret b => cost_eqb a b | _, _ => false end);
   (let C := shipped in let SC := shipped_short in match (x29 <- (x <- (x27 <- (Ret (bs "116123")) ;; x28 <- (Ret (bs "FR")) ;; Parse C x27 x28) ;; Ret (fst x)) ;; x30 <- (Ret (bs "FR")) ;; IsValidShortNumberForRegion C SC x29 x30) with Ret false => true | _ => false end);
   (let C := shipped in let SC := shipped_short in match (Ret TOLL_FREE_COST), (x33 <- (x <- (x31 <- (Ret (bs "116123")) ;; x32 <- (Ret (bs "FR")) ;; Parse C x31 x32) ;; Ret (fst x)) ;; x34 <- (Ret (bs "FR")) ;; GetExpectedCostForRegion C SC x33 x34) with Ret a, Ret b => cost_eqb a b | _, _ => false end);
   (let C := shipped in let SC := shipped_short in match (x35 <- (p <- (p <- (Ret phone0) ;; x <- (Ret (33)%Z) ;; Ret (set_cc p (Some x))) ;; x <- (Ret 116123%N) ;; Ret (set_nn p (Some x))) ;; IsValidShortNumber C SC x35) with Ret false => true | _ => false end);
   (let C := shipped in let SC := shipped_short in match (Ret TOLL_FREE_COST), (x36 <- (p <- (p <- (Ret phone0) ;; x <- (Ret (33)%Z) ;; Ret (set_cc p (Some x))) ;; x <- (Ret 116123%N) ;; Ret (set_nn p (Some x))) ;; GetExpectedCost C SC x36) with Ret a, Ret b => cost_eqb a b | _, _ => false end);
   (let C := shipped in let SC := shipped_short in match (Ret UNKNOWN_COST), (x39 <- (x <- (x37 <- (Ret (bs "911")) ;; x38 <- (Ret (bs "US")) ;; Parse C x37 x38) ;; Ret (fst x)) ;; x40 <- (Ret (bs "ZZ")) ;; GetExpectedCostForRegion C SC x39 x40) with Ret a, Ret b => cost_eqb a b | _, _ => false end);
   (let C := shipped in let SC := shipped_short in match (Ret UNKNOWN_COST), (x41 <- (p <- (p <- (Ret phone0) ;; x <- (Ret (123)%Z) ;; Ret (set_cc p (Some x))) ;; x <- (Ret 911%N) ;; Ret (set_nn p (Some x))) ;; GetExpectedCost C SC x41) with Ret a, Ret b => cost_eqb a b | _, _ => false end)].

Lemma TestGetExpectedCost_ok : forallb (fun b => b) TestGetExpectedCost = true.
Proof. vm_cast_no_check (eq_refl true). Qed.

(* shortnumberinfo_test.go: TestGetExpectedCostForSharedCountryCallingCode, 18 checks, 0 statements not translated *)
Definition TestGetExpectedCostForSharedCountryCallingCode : list bool :=
  [(let C := shipped in let SC := shipped_short in match (x1 <- (p <- (p <- (Ret phone0) ;; x <- (Ret (61)%Z) ;; Ret (set_cc p (Some x))) ;; x <- (Ret 1234%N) ;; Ret (set_nn p (Some x))) ;; IsValidShortNumber C SC x1) with Ret true => true | _ => false end);
   (let C := shipped in let SC := shipped_short in match (x2 <- (p <- (p <- (Ret phone0) ;; x <- (Ret (61)%Z) ;; Ret (set_cc p (Some x))) ;; x <- (Ret 1194%N) ;; Ret (set_nn p (Some x))) ;; IsValidShortNumber C SC x2) with Ret true => true | _ => false end);
   (let C := shipped in let SC := shipped_short in match (x3 <- (p <- (p <- (Ret phone0) ;; x <- (Ret (61)%Z) ;; Ret (set_cc p (Some x))) ;; x <- (Ret 733%N) ;; Ret (set_nn p (Some x))) ;; IsValidShortNumber C SC x3) with Ret true => true | _ => false end);
   (let C := shipped in let SC := shipped_short in match (x6 <- (x <- (x4 <- (Ret (bs "1234")) ;; x5 <- (Ret (bs "AU")) ;; Parse C x4 x5) ;; Ret (fst x)) ;; x7 <- (Ret (bs "AU")) ;; IsValidShortNumberForRegion C SC x6 x7) with Ret true => true | _ => false end);
   (let C := shipped in let SC := shipped_short in match (Ret PREMIUM_RATE_COST), (x10 <- (x <- (x8 <- (Ret (bs "1234")) ;; x9 <- (Ret (bs "AU")) ;; Parse C x8 x9) ;; Ret (fst x)) ;; x11 <- (Ret (bs "AU")) ;; GetExpectedCostForRegion C SC x10 x11) with Ret a, Ret b => cost_eqb a b | _, _ => false end);
   (let C := shipped in let SC := shipped_short in match (x14 <- (x <- (x12 <- (Ret (bs "1234")) ;; x13 <- (Ret (bs "CX")) ;; Parse C x12 x13) ;; Ret (fst x)) ;; x15 <- (Ret (bs "CX")) ;; IsValidShortNumberForRegion C SC x14 x15) with Ret false => true | _ => false end);
   (let C := shipped in let SC := shipped_short in match (Ret UNKNOWN_COST), (x18 <- (x <- (x16 <- (Ret (bs "1234")) ;; x17 <- (Ret (bs "CX")) ;; Parse C x16 x17) ;; Ret (fst x)) ;; x19 <- (Ret (bs "CX")) ;; GetExpectedCostForRegion C SC x18 x19) with Ret a, Ret b => cost_eqb a b | _, _ => false end);
   (let C := shipped in let SC := shipped_short in match (Ret PREMIUM_RATE_COST), (x20 <- (p <- (p <- (Ret phone0) ;; x <- (Ret (61)%Z) ;; Ret (set_cc p (Some x))) ;; x <- (Ret 1234%N) ;; Ret (set_nn p (Some x))) ;; GetExpectedCost C SC x20) with Ret a, Ret b => cost_eqb a b | _, _ => false end);
   (let C := shipped in let SC := shipped_short in match (x23 <- (x <- (x21 <- (Ret (bs "1194")) ;; x22 <- (Ret (bs "AU")) ;; Parse C x21 x22) ;; Ret (fst x)) ;; x24 <- (Ret (bs "AU")) ;; IsValidShortNumberForRegion C SC x23 x24) with Ret true => true | _ => false end);
   (let C := shipped in let SC := shipped_short in match (Ret STANDARD_RATE_COST), (x27 <- (x <- (x25 <- (Ret (bs "1194")) ;; x26 <- (Ret (bs "AU")) ;; Parse C x25 x26) ;; Ret (fst x)) ;; x28 <- (Ret (bs "AU")) ;; GetExpectedCostForRegion C SC x27 x28) with Ret a, Ret b => cost_eqb a b | _, _ => false end);
   (let C := shipped in let SC := shipped_short in match (x31 <- (x <- (x29 <- (Ret (bs "1194")) ;; x30 <- (Ret (bs "CX")) ;; Parse C x29 x30) ;; Ret (fst x)) ;; x32 <- (Ret (bs "CX")) ;; IsValidShortNumberForRegion C SC x31 x32) with Ret false => true | _ => false end);
   (let C := shipped in let SC := shipped_short in match (Ret UNKNOWN_COST), (x35 <- (x <- (x33 <- (Ret (bs "1194")) ;; x34 <- (Ret (bs "CX")) ;; Parse C x33 x34) ;; Ret (fst x)) ;; x36 <- (Ret (bs "CX")) ;; GetExpectedCostForRegion C SC x35 x36) with Ret a, Ret b => cost_eqb a b | _, _ => false end);
   (let C := shipped in let SC := shipped_short in match (Ret UNKNOWN_COST), (x37 <- (p <- (p <- (Ret phone0) ;; x <- (Ret (61)%Z) ;; Ret (set_cc p (Some x))) ;; x <- (Ret 1194%N) ;; Ret (set_nn p (Some x))) ;; GetExpectedCost C SC x37) with Ret a, Ret b => cost_eqb a b | _, _ => false end);
   (let C := shipped in let SC := shipped_short in match (x40 <- (x <- (x38 <- (Ret (bs "733")) ;; x39 <- (Ret (bs "AU")) ;; Parse C x38 x39) ;; Ret (fst x)) ;; x41 <- (Ret (bs "AU")) ;; IsValidShortNumberForRegion C SC x40 x41) with Ret true => true | _ => false end);
   (let C := shipped in let SC := shipped_short in match (Ret TOLL_FREE_COST), (x44 <- (x <- (x42 <- (Ret (bs "733")) ;; x43 <- (Ret (bs "AU")) ;; Parse C x42 x43) ;; Ret (fst x)) ;; x45 <- (Ret (bs "AU")) ;; GetExpectedCostForRegion C SC x44 x45) with Ret a, Ret b => cost_eqb a b | _, _ => false end);
   (let C := shipped in let SC := shipped_short in match (x48 <- (x <- (x46 <- (Ret (bs "733")) ;; x47 <- (Ret (bs "CX")) ;; Parse C x46 x47) ;; Ret (fst x)) ;; x49 <- (Ret (bs "CX")) ;; IsValidShortNumberForRegion C SC x48 x49) with Ret false => true | _ => false end);
   (let C := shipped in let SC := shipped_short in match (Ret UNKNOWN_COST), (x52 <- (x <- (x50 <- (Ret (bs "733")) ;; x51 <- (Ret (bs "CX")) ;; Parse C x50 x51) ;; Ret (fst x)) ;; x53 <- (Ret (bs "CX")) ;; GetExpectedCostForRegion C SC x52 x53) with Ret a, Ret b => cost_eqb a b | _, _ => false end);
   (let C := shipped in let SC := shipped_short in match (Ret UNKNOWN_COST), (x54 <- (p <- (p <- (Ret phone0) ;; x <- (Ret (61)%Z) ;; Ret (set_cc p (Some x))) ;; x <- (Ret 733%N) ;; Ret (set_nn p (Some x))) ;; GetExpectedCost C SC x54) with Ret a, Ret b => cost_eqb a b | _, _ => false end)].

Lemma TestGetExpectedCostForSharedCountryCallingCode_ok : forallb (fun b => b) TestGetExpectedCostForSharedCountryCallingCode = true.
Proof. vm_cast_no_check (eq_refl true). Qed.

(* shortnumberinfo_test.go: TestConnectsToEmergencyNumber_US, 3 checks, 0 statements not translated *)
Definition TestConnectsToEmergencyNumber_US : list bool :=
  [(let C := shipped in let SC := shipped_short in match (x1 <- (Ret (bs "911")) ;; x2 <- (Ret (bs "US")) ;; ConnectsToEmergencyNumber SC x1 x2) with Ret true => true | _ => false end);
   (let C := shipped in let SC := shipped_short in match (x3 <- (Ret (bs "112")) ;; x4 <- (Ret (bs "US")) ;; ConnectsToEmergencyNumber SC x3 x4) with Ret true => true | _ => false end);
   (let C := shipped in let SC := shipped_short in match (x5 <- (Ret (bs "999")) ;; x6 <- (Ret (bs "US")) ;; ConnectsToEmergencyNumber SC x5 x6) with Ret false => true | _ => false end)].

Lemma TestConnectsToEmergencyNumber_US_ok : forallb (fun b => b) TestConnectsToEmergencyNumber_US = true.
Proof. vm_cast_no_check (eq_refl true). Qed.

(* shortnumberinfo_test.go: TestConnectsToEmergencyNumberLongNumber_US, 3 checks, 0 statements not translated *)
Definition TestConnectsToEmergencyNumberLongNumber_US : list bool :=
  [(let C := shipped in let SC := shipped_short in match (x1 <- (Ret (bs "9116666666")) ;; x2 <- (Ret (bs "US")) ;; ConnectsToEmergencyNumber SC x1 x2) with Ret true => true | _ => false end);
   (let C := shipped in let SC := shipped_short in match (x3 <- (Ret (bs "1126666666")) ;; x4 <- (Ret (bs "US")) ;; ConnectsToEmergencyNumber SC x3 x4) with Ret true => true | _ => false end);
   (let C := shipped in let SC := shipped_short in match (x5 <- (Ret (bs "9996666666")) ;; x6 <- (Ret (bs "US")) ;; ConnectsToEmergencyNumber SC x5 x6) with Ret false => true | _ => false end)].

Lemma TestConnectsToEmergencyNumberLongNumber_US_ok : forallb (fun b => b) TestConnectsToEmergencyNumberLongNumber_US = true.
Proof. vm_cast_no_check (eq_refl true). Qed.

(* shortnumberinfo_test.go: TestConnectsToEmergencyNumberWithFormatting_US, 3 checks, 0 statements not translated *)
Definition TestConnectsToEmergencyNumberWithFormatting_US : list bool :=
  [(let C := shipped in let SC := shipped_short in match (x1 <- (Ret (bs "9-1-1")) ;; x2 <- (Ret (bs "US")) ;; ConnectsToEmergencyNumber SC x1 x2) with Ret true => true | _ => false end);
   (let C := shipped in let SC := shipped_short in match (x3 <- (Ret (bs "1-1-2")) ;; x4 <- (Ret (bs "US")) ;; ConnectsToEmergencyNumber SC x3 x4) with Ret true => true | _ => false end);
   (let C := shipped in let SC := shipped_short in match (x5 <- (Ret (bs "9-9-9")) ;; x6 <- (Ret (bs "US")) ;; ConnectsToEmergencyNumber SC x5 x6) with Ret false => true | _ => false end)].

Lemma TestConnectsToEmergencyNumberWithFormatting_US_ok : forallb (fun b => b) TestConnectsToEmergencyNumberWithFormatting_US = true.
Proof. vm_cast_no_check (eq_refl true). Qed.

(* shortnumberinfo_test.go: TestConnectsToEmergencyNumberWithPlusSign_US, 5 checks, 0 statements not translated *)
Definition TestConnectsToEmergencyNumberWithPlusSign_US : list bool :=
  [(let C := shipped in let SC := shipped_short in match (x1 <- (Ret (bs "+911")) ;; x2 <- (Ret (bs "US")) ;; ConnectsToEmergencyNumber SC x1 x2) with Ret false => true | _ => false end);
   (let C := shipped in let SC := shipped_short in match (x3 <- (Ret [239; 188; 139; 57; 49; 49]) ;; x4 <- (Ret (bs "US")) ;; ConnectsToEmergencyNumber SC x3 x4) with Ret false => true | _ => false end);
   (let C := shipped in let SC := shipped_short in match (x5 <- (Ret (bs " +911")) ;; x6 <- (Ret (bs "US")) ;; ConnectsToEmergencyNumber SC x5 x6) with Ret false => true | _ => false end);
   (let C := shipped in let SC := shipped_short in match (x7 <- (Ret (bs "+112")) ;; x8 <- (Ret (bs "US")) ;; ConnectsToEmergencyNumber SC x7 x8) with Ret false => true | _ => false end);
   (let C := shipped in let SC := shipped_short in match (x9 <- (Ret (bs "+999")) ;; x10 <- (Ret (bs "US")) ;; ConnectsToEmergencyNumber SC x9 x10) with Ret false => true | _ => false end)].

Lemma TestConnectsToEmergencyNumberWithPlusSign_US_ok : forallb (fun b => b) TestConnectsToEmergencyNumberWithPlusSign_US = true.
Proof. vm_cast_no_check (eq_refl true). Qed.

(* shortnumberinfo_test.go: TestConnectsToEmergencyNumber_BR, 3 checks, 0 statements not translated *)
Definition TestConnectsToEmergencyNumber_BR : list bool :=
  [(let C := shipped in let SC := shipped_short in match (x1 <- (Ret (bs "190")) ;; x2 <- (Ret (bs "BR")) ;; ConnectsToEmergencyNumber SC x1 x2) with Ret true => true | _ => false end);
   (let C := shipped in let SC := shipped_short in match (x3 <- (Ret (bs "911")) ;; x4 <- (Ret (bs "BR")) ;; ConnectsToEmergencyNumber SC x3 x4) with Ret true => true | _ => false end);
   (let C := shipped in let SC := shipped_short in match (x5 <- (Ret (bs "999")) ;; x6 <- (Ret (bs "BR")) ;; ConnectsToEmergencyNumber SC x5 x6) with Ret false => true | _ => false end)].

Lemma TestConnectsToEmergencyNumber_BR_ok : forallb (fun b => b) TestConnectsToEmergencyNumber_BR = true.
Proof. vm_cast_no_check (eq_refl true). Qed.

(* shortnumberinfo_test.go: TestConnectsToEmergencyNumberLongNumber_BR, 3 checks, 0 statements not translated *)
Definition TestConnectsToEmergencyNumberLongNumber_BR : list bool :=
  [(let C := shipped in let SC := shipped_short in match (x1 <- (Ret (bs "9111")) ;; x2 <- (Ret (bs "BR")) ;; ConnectsToEmergencyNumber SC x1 x2) with Ret false => true | _ => false end);
   (let C := shipped in let SC := shipped_short in match (x3 <- (Ret (bs "1900")) ;; x4 <- (Ret (bs "BR")) ;; ConnectsToEmergencyNumber SC x3 x4) with Ret false => true | _ => false end);
   (let C := shipped in let SC := shipped_short in match (x5 <- (Ret (bs "9996")) ;; x6 <- (Ret (bs "BR")) ;; ConnectsToEmergencyNumber SC x5 x6) with Ret false => true | _ => false end)].

Lemma TestConnectsToEmergencyNumberLongNumber_BR_ok : forallb (fun b => b) TestConnectsToEmergencyNumberLongNumber_BR = true.
Proof. vm_cast_no_check (eq_refl true). Qed.

(* shortnumberinfo_test.go: TestConnectsToEmergencyNumber_CL, 2 checks, 0 statements not translated *)
Definition TestConnectsToEmergencyNumber_CL : list bool :=
  [(let C := shipped in let SC := shipped_short in match (x1 <- (Ret (bs "131")) ;; x2 <- (Ret (bs "CL")) ;; ConnectsToEmergencyNumber SC x1 x2) with Ret true => true | _ => false end);
   (let C := shipped in let SC := shipped_short in match (x3 <- (Ret (bs "133")) ;; x4 <- (Ret (bs "CL")) ;; ConnectsToEmergencyNumber SC x3 x4) with Ret true => true | _ => false end)].

Lemma TestConnectsToEmergencyNumber_CL_ok : forallb (fun b => b) TestConnectsToEmergencyNumber_CL = true.
Proof. vm_cast_no_check (eq_refl true). Qed.

(* shortnumberinfo_test.go: TestConnectsToEmergencyNumberLongNumber_CL, 2 checks, 0 statements not translated *)
Definition TestConnectsToEmergencyNumberLongNumber_CL : list bool :=
  [(let C := shipped in let SC := shipped_short in match (x1 <- (Ret (bs "1313")) ;; x2 <- (Ret (bs "CL")) ;; ConnectsToEmergencyNumber SC x1 x2) with Ret false => true | _ => false end);
   (let C := shipped in let SC := shipped_short in match (x3 <- (Ret (bs "1330")) ;; x4 <- (Ret (bs "CL")) ;; ConnectsToEmergencyNumber SC x3 x4) with Ret false => true | _ => false end)].

Lemma TestConnectsToEmergencyNumberLongNumber_CL_ok : forallb (fun b => b) TestConnectsToEmergencyNumberLongNumber_CL = true.
Proof. vm_cast_no_check (eq_refl true). Qed.

(* shortnumberinfo_test.go: TestConnectsToEmergencyNumber_AO, 3 checks, 0 statements not translated *)
Definition TestConnectsToEmergencyNumber_AO : list bool :=
  [(let C := shipped in let SC := shipped_short in match (x1 <- (Ret (bs "911")) ;; x2 <- (Ret (bs "AO")) ;; ConnectsToEmergencyNumber SC x1 x2) with Ret false => true | _ => false end);
   (let C := shipped in let SC := shipped_short in match (x3 <- (Ret (bs "222123456")) ;; x4 <- (Ret (bs "AO")) ;; ConnectsToEmergencyNumber SC x3 x4) with Ret false => true | _ => false end);
   (let C := shipped in let SC := shipped_short in match (x5 <- (Ret (bs "923123456")) ;; x6 <- (Ret (bs "AO")) ;; ConnectsToEmergencyNumber SC x5 x6) with Ret false => true | _ => false end)].

Lemma TestConnectsToEmergencyNumber_AO_ok : forallb (fun b => b) TestConnectsToEmergencyNumber_AO = true.
Proof. vm_cast_no_check (eq_refl true). Qed.

(* shortnumberinfo_test.go: TestConnectsToEmergencyNumber_ZW, 3 checks, 0 statements not translated *)
Definition TestConnectsToEmergencyNumber_ZW : list bool :=
  [(let C := shipped in let SC := shipped_short in match (x1 <- (Ret (bs "911")) ;; x2 <- (Ret (bs "ZW")) ;; ConnectsToEmergencyNumber SC x1 x2) with Ret false => true | _ => false end);
   (let C := shipped in let SC := shipped_short in match (x3 <- (Ret (bs "01312345")) ;; x4 <- (Ret (bs "ZW")) ;; ConnectsToEmergencyNumber SC x3 x4) with Ret false => true | _ => false end);
   (let C := shipped in let SC := shipped_short in match (x5 <- (Ret (bs "0711234567")) ;; x6 <- (Ret (bs "ZW")) ;; ConnectsToEmergencyNumber SC x5 x6) with Ret false => true | _ => false end)].

Lemma TestConnectsToEmergencyNumber_ZW_ok : forallb (fun b => b) TestConnectsToEmergencyNumber_ZW = true.
Proof. vm_cast_no_check (eq_refl true). Qed.

(* shortnumberinfo_test.go: TestIsEmergencyNumber_US, 3 checks, 0 statements not translated *)
Definition TestIsEmergencyNumber_US : list bool :=
  [(let C := shipped in let SC := shipped_short in match (x1 <- (Ret (bs "911")) ;; x2 <- (Ret (bs "US")) ;; IsEmergencyNumber SC x1 x2) with Ret true => true | _ => false end);
   (let C := shipped in let SC := shipped_short in match (x3 <- (Ret (bs "112")) ;; x4 <- (Ret (bs "US")) ;; IsEmergencyNumber SC x3 x4) with Ret true => true | _ => false end);
   (let C := shipped in let SC := shipped_short in match (x5 <- (Ret (bs "999")) ;; x6 <- (Ret (bs "US")) ;; IsEmergencyNumber SC x5 x6) with Ret false => true | _ => false end)].

Lemma TestIsEmergencyNumber_US_ok : forallb (fun b => b) TestIsEmergencyNumber_US = true.
Proof. vm_cast_no_check (eq_refl true). Qed.

(* shortnumberinfo_test.go: TestIsEmergencyNumberLongNumber_US, 3 checks, 0 statements not translated *)
Definition TestIsEmergencyNumberLongNumber_US : list bool :=
  [(let C := shipped in let SC := shipped_short in match (x1 <- (Ret (bs "9116666666")) ;; x2 <- (Ret (bs "US")) ;; IsEmergencyNumber SC x1 x2) with Ret false => true | _ => false end);
   (let C := shipped in let SC := shipped_short in match (x3 <- (Ret (bs "1126666666")) ;; x4 <- (Ret (bs "US")) ;; IsEmergencyNumber SC x3 x4) with Ret false => true | _ => false end);
   (let C := shipped in let SC := shipped_short in match (x5 <- (Ret (bs "9996666666")) ;; x6 <- (Ret (bs "US")) ;; IsEmergencyNumber SC x5 x6) with Ret false => true | _ => false end)].

Lemma TestIsEmergencyNumberLongNumber_US_ok : forallb (fun b => b) TestIsEmergencyNumberLongNumber_US = true.
Proof. vm_cast_no_check (eq_refl true). Qed.

(* shortnumberinfo_test.go: TestIsEmergencyNumberWithFormatting_US, 6 checks, 0 statements not translated *)
Definition TestIsEmergencyNumberWithFormatting_US : list bool :=
  [(let C := shipped in let SC := shipped_short in match (x1 <- (Ret (bs "9-1-1")) ;; x2 <- (Ret (bs "US")) ;; IsEmergencyNumber SC x1 x2) with Ret true => true | _ => false end);
   (let C := shipped in let SC := shipped_short in match (x3 <- (Ret (bs "*911")) ;; x4 <- (Ret (bs "US")) ;; IsEmergencyNumber SC x3 x4) with Ret true => true | _ => false end);
   (let C := shipped in let SC := shipped_short in match (x5 <- (Ret (bs "1-1-2")) ;; x6 <- (Ret (bs "US")) ;; IsEmergencyNumber SC x5 x6) with Ret true => true | _ => false end);
   (let C := shipped in let SC := shipped_short in match (x7 <- (Ret (bs "*112")) ;; x8 <- (Ret (bs "US")) ;; IsEmergencyNumber SC x7 x8) with Ret true => true | _ => false end);
   (let C := shipped in let SC := shipped_short in match (x9 <- (Ret (bs "9-9-9")) ;; x10 <- (Ret (bs "US")) ;; IsEmergencyNumber SC x9 x10) with Ret false => true | _ => false end);
   (let C := shipped in let SC := shipped_short in match (x11 <- (Ret (bs "*999")) ;; x12 <- (Ret (bs "US")) ;; IsEmergencyNumber SC x11 x12) with Ret false => true | _ => false end)].

Lemma TestIsEmergencyNumberWithFormatting_US_ok : forallb (fun b => b) TestIsEmergencyNumberWithFormatting_US = true.
Proof. vm_cast_no_check (eq_refl true). Qed.

(* shortnumberinfo_test.go: TestIsEmergencyNumberWithPlusSign_US, 5 checks, 0 statements not translated *)
Definition TestIsEmergencyNumberWithPlusSign_US : list bool :=
  [(let C := shipped in let SC := shipped_short in match (x1 <- (Ret (bs "+911")) ;; x2 <- (Ret (bs "US")) ;; IsEmergencyNumber SC x1 x2) with Ret false => true | _ => false end);
   (let C := shipped in let SC := shipped_short in match (x3 <- (Ret [239; 188; 139; 57; 49; 49]) ;; x4 <- (Ret (bs "US")) ;; IsEmergencyNumber SC x3 x4) with Ret false => true | _ => false end);
   (let C := shipped in let SC := shipped_short in match (x5 <- (Ret (bs " +911")) ;; x6 <- (Ret (bs "US")) ;; IsEmergencyNumber SC x5 x6) with Ret false => true | _ => false end);
   (let C := shipped in let SC := shipped_short in match (x7 <- (Ret (bs "+112")) ;; x8 <- (Ret (bs "US")) ;; IsEmergencyNumber SC x7 x8) with Ret false => true | _ => false end);
   (let C := shipped in let SC := shipped_short in match (x9 <- (Ret (bs "+999")) ;; x10 <- (Ret (bs "US")) ;; IsEmergencyNumber SC x9 x10) with Ret false => true | _ => false end)].

Lemma TestIsEmergencyNumberWithPlusSign_US_ok : forallb (fun b => b) TestIsEmergencyNumberWithPlusSign_US = true.
Proof. vm_cast_no_check (eq_refl true). Qed.

(* shortnumberinfo_test.go: TestIsEmergencyNumber_BR, 3 checks, 0 statements not translated *)
Definition TestIsEmergencyNumber_BR : list bool :=
  [(let C := shipped in let SC := shipped_short in match (x1 <- (Ret (bs "911")) ;; x2 <- (Ret (bs "BR")) ;; IsEmergencyNumber SC x1 x2) with Ret true => true | _ => false end);
   (let C := shipped in let SC := shipped_short in match (x3 <- (Ret (bs "190")) ;; x4 <- (Ret (bs "BR")) ;; IsEmergencyNumber SC x3 x4) with Ret true => true | _ => false end);
   (let C := shipped in let SC := shipped_short in match (x5 <- (Ret (bs "999")) ;; x6 <- (Ret (bs "BR")) ;; IsEmergencyNumber SC x5 x6) with Ret false => true | _ => false end)].

Lemma TestIsEmergencyNumber_BR_ok : forallb (fun b => b) TestIsEmergencyNumber_BR = true.
Proof. vm_cast_no_check (eq_refl true). Qed.

(* shortnumberinfo_test.go: TestIsEmergencyNumberLongNumber_BR, 3 checks, 0 statements not translated *)
Definition TestIsEmergencyNumberLongNumber_BR : list bool :=
  [(let C := shipped in let SC := shipped_short in match (x1 <- (Ret (bs "9111")) ;; x2 <- (Ret (bs "BR")) ;; IsEmergencyNumber SC x1 x2) with Ret false => true | _ => false end);
   (let C := shipped in let SC := shipped_short in match (x3 <- (Ret (bs "1900")) ;; x4 <- (Ret (bs "BR")) ;; IsEmergencyNumber SC x3 x4) with Ret false => true | _ => false end);
   (let C := shipped in let SC := shipped_short in match (x5 <- (Ret (bs "9996")) ;; x6 <- (Ret (bs "BR")) ;; IsEmergencyNumber SC x5 x6) with Ret false => true | _ => false end)].

Lemma TestIsEmergencyNumberLongNumber_BR_ok : forallb (fun b => b) TestIsEmergencyNumberLongNumber_BR = true.
Proof. vm_cast_no_check (eq_refl true). Qed.

(* shortnumberinfo_test.go: TestIsEmergencyNumber_AO, 3 checks, 0 statements not translated *)
Definition TestIsEmergencyNumber_AO : list bool :=
  [(let C := shipped in let SC := shipped_short in match (x1 <- (Ret (bs "911")) ;; x2 <- (Ret (bs "AO")) ;; IsEmergencyNumber SC x1 x2) with Ret false => true | _ => false end);
   (let C := shipped in let SC := shipped_short in match (x3 <- (Ret (bs "222123456")) ;; x4 <- (Ret (bs "AO")) ;; IsEmergencyNumber SC x3 x4) with Ret false => true | _ => false end);
   (let C := shipped in let SC := shipped_short in match (x5 <- (Ret (bs "923123456")) ;; x6 <- (Ret (bs "AO")) ;; IsEmergencyNumber SC x5 x6) with Ret false => true | _ => false end)].

Lemma TestIsEmergencyNumber_AO_ok : forallb (fun b => b) TestIsEmergencyNumber_AO = true.
Proof. vm_cast_no_check (eq_refl true). Qed.

(* shortnumberinfo_test.go: TestIsEmergencyNumber_ZW, 3 checks, 0 statements not translated *)
Definition TestIsEmergencyNumber_ZW : list bool :=
  [(let C := shipped in let SC := shipped_short in match (x1 <- (Ret (bs "911")) ;; x2 <- (Ret (bs "ZW")) ;; IsEmergencyNumber SC x1 x2) with Ret false => true | _ => false end);
   (let C := shipped in let SC := shipped_short in match (x3 <- (Ret (bs "01312345")) ;; x4 <- (Ret (bs "ZW")) ;; IsEmergencyNumber SC x3 x4) with Ret false => true | _ => false end);
   (let C := shipped in let SC := shipped_short in match (x5 <- (Ret (bs "0711234567")) ;; x6 <- (Ret (bs "ZW")) ;; IsEmergencyNumber SC x5 x6) with Ret false => true | _ => false end)].

Lemma TestIsEmergencyNumber_ZW_ok : forallb (fun b => b) TestIsEmergencyNumber_ZW = true.
Proof. vm_cast_no_check (eq_refl true). Qed.

(* shortnumberinfo_test.go: TestEmergencyNumberForSharedCountryCallingCode, 8 checks, 0 statements not translated *)
Definition TestEmergencyNumberForSharedCountryCallingCode : list bool :=
  [(let C := shipped in let SC := shipped_short in match (x1 <- (Ret (bs "112")) ;; x2 <- (Ret (bs "AU")) ;; IsEmergencyNumber SC x1 x2) with Ret true => true | _ => false end);
   (let C := shipped in let SC := shipped_short in match (x5 <- (x <- (x3 <- (Ret (bs "112")) ;; x4 <- (Ret (bs "AU")) ;; Parse C x3 x4) ;; Ret (fst x)) ;; x6 <- (Ret (bs "AU")) ;; IsValidShortNumberForRegion C SC x5 x6) with Ret true => true | _ => false end);
   (let C := shipped in let SC := shipped_short in match (Ret TOLL_FREE_COST), (x9 <- (x <- (x7 <- (Ret (bs "112")) ;; x8 <- (Ret (bs "AU")) ;; Parse C x7 x8) ;; Ret (fst x)) ;; x10 <- (Ret (bs "AU")) ;; GetExpectedCostForRegion C SC x9 x10) with Ret a, Ret b => cost_eqb a b | _, _ => false end);
   (let C := shipped in let SC := shipped_short in match (x11 <- (Ret (bs "112")) ;; x12 <- (Ret (bs "CX")) ;; IsEmergencyNumber SC x11 x12) with Ret true => true | _ => false end);
   (let C := shipped in let SC := shipped_short in match (x15 <- (x <- (x13 <- (Ret (bs "112")) ;; x14 <- (Ret (bs "CX")) ;; Parse C x13 x14) ;; Ret (fst x)) ;; x16 <- (Ret (bs "CX")) ;; IsValidShortNumberForRegion C SC x15 x16) with Ret true => true | _ => false end);
   (let C := shipped in let SC := shipped_short in match (Ret TOLL_FREE_COST), (x19 <- (x <- (x17 <- (Ret (bs "112")) ;; x18 <- (Ret (bs "CX")) ;; Parse C x17 x18) ;; Ret (fst x)) ;; x20 <- (Ret (bs "CX")) ;; GetExpectedCostForRegion C SC x19 x20) with Ret a, Ret b => cost_eqb a b | _, _ => false end);
   (let C := shipped in let SC := shipped_short in match (x21 <- (p <- (p <- (Ret phone0) ;; x <- (Ret (61)%Z) ;; Ret (set_cc p (Some x))) ;; x <- (Ret 112%N) ;; Ret (set_nn p (Some x))) ;; IsValidShortNumber C SC x21) with Ret true => true | _ => false end);
   (let C := shipped in let SC := shipped_short in match (Ret TOLL_FREE_COST), (x22 <- (p <- (p <- (Ret phone0) ;; x <- (Ret (61)%Z) ;; Ret (set_cc p (Some x))) ;; x <- (Ret 112%N) ;; Ret (set_nn p (Some x))) ;; GetExpectedCost C SC x22) with Ret a, Ret b => cost_eqb a b | _, _ => false end)].

Lemma TestEmergencyNumberForSharedCountryCallingCode_ok : forallb (fun b => b) TestEmergencyNumberForSharedCountryCallingCode = true.
Proof. vm_cast_no_check (eq_refl true). Qed.

(* shortnumberinfo_test.go: TestOverlappingNANPANumber, 6 checks, 0 statements not translated *)
Definition TestOverlappingNANPANumber : list bool :=
  [(let C := shipped in let SC := shipped_short in match (x1 <- (Ret (bs "211")) ;; x2 <- (Ret (bs "BB")) ;; IsEmergencyNumber SC x1 x2) with Ret true => true | _ => false end);
   (let C := shipped in let SC := shipped_short in match (Ret TOLL_FREE_COST), (x5 <- (x <- (x3 <- (Ret (bs "211")) ;; x4 <- (Ret (bs "BB")) ;; Parse C x3 x4) ;; Ret (fst x)) ;; x6 <- (Ret (bs "BB")) ;; GetExpectedCostForRegion C SC x5 x6) with Ret a, Ret b => cost_eqb a b | _, _ => false end);
   (let C := shipped in let SC := shipped_short in match (x7 <- (Ret (bs "211")) ;; x8 <- (Ret (bs "US")) ;; IsEmergencyNumber SC x7 x8) with Ret false => true | _ => false end);
   (let C := shipped in let SC := shipped_short in match (Ret UNKNOWN_COST), (x11 <- (x <- (x9 <- (Ret (bs "211")) ;; x10 <- (Ret (bs "US")) ;; Parse C x9 x10) ;; Ret (fst x)) ;; x12 <- (Ret (bs "US")) ;; GetExpectedCostForRegion C SC x11 x12) with Ret a, Ret b => cost_eqb a b | _, _ => false end);
   (let C := shipped in let SC := shipped_short in match (x13 <- (Ret (bs "211")) ;; x14 <- (Ret (bs "CA")) ;; IsEmergencyNumber SC x13 x14) with Ret false => true | _ => false end);
   (let C := shipped in let SC := shipped_short in match (Ret TOLL_FREE_COST), (x17 <- (x <- (x15 <- (Ret (bs "211")) ;; x16 <- (Ret (bs "CA")) ;; Parse C x15 x16) ;; Ret (fst x)) ;; x18 <- (Ret (bs "CA")) ;; GetExpectedCostForRegion C SC x17 x18) with Ret a, Ret b => cost_eqb a b | _, _ => false end)].

Lemma TestOverlappingNANPANumber_ok : forallb (fun b => b) TestOverlappingNANPANumber = true.
Proof. vm_cast_no_check (eq_refl true). Qed.

(* shortnumberinfo_test.go: TestCountryCallingCodeIsNotIgnored, 3 checks, 0 statements not translated *)
Definition TestCountryCallingCodeIsNotIgnored : list bool :=
  [(let C := shipped in let SC := shipped_short in match (x3 <- (x <- (x1 <- (Ret (bs "+4640404")) ;; x2 <- (Ret (bs "SE")) ;; Parse C x1 x2) ;; Ret (fst x)) ;; x4 <- (Ret (bs "US")) ;; IsPossibleShortNumberForRegion C SC x3 x4) with Ret false => true | _ => false end);
   (let C := shipped in let SC := shipped_short in match (x7 <- (x <- (x5 <- (Ret (bs "+4640404")) ;; x6 <- (Ret (bs "SE")) ;; Parse C x5 x6) ;; Ret (fst x)) ;; x8 <- (Ret (bs "US")) ;; IsValidShortNumberForRegion C SC x7 x8) with Ret false => true | _ => false end);
   (let C := shipped in let SC := shipped_short in match (Ret UNKNOWN_COST), (x11 <- (x <- (x9 <- (Ret (bs "+4640404")) ;; x10 <- (Ret (bs "SE")) ;; Parse C x9 x10) ;; Ret (fst x)) ;; x12 <- (Ret (bs "US")) ;; GetExpectedCostForRegion C SC x11 x12) with Ret a, Ret b => cost_eqb a b | _, _ => false end)].

Lemma TestCountryCallingCodeIsNotIgnored_ok : forallb (fun b => b) TestCountryCallingCodeIsNotIgnored = true.
Proof. vm_cast_no_check (eq_refl true). Qed.

