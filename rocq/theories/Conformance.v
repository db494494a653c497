(** Generated by gen/conformance.py from phonenumberutil_test.go phonenumberutil_internal_test.go of the repository: DO NOT EDIT.
    Unit-test assertions of the repository evaluated on the model (fidelity evidence, not properties).
    939 assertions translated, 233 statements not translated. *)
From Coq Require Import List NArith ZArith Bool.
From Verif Require Import Base Types Normalize Validate Format Parse ConformanceBase Shipped TestXml.
Import ListNotations.
Local Open Scope N_scope.

(* phonenumberutil_test.go: TestGetSupportedTypesForRegion, 7 checks, 0 statements not translated *)
Definition TestGetSupportedTypesForRegion : list bool :=
  [(let C := test_container in match (l <- (x1 <- (Ret (bs "BR")) ;; Ret (GetSupportedTypesForRegion C x1)) ;; t <- (Ret FIXED_LINE) ;; Ret (existsb (ptype_eqb t) l)) with Ret true => true | _ => false end);
   (let C := test_container in match (l <- (x2 <- (Ret (bs "BR")) ;; Ret (GetSupportedTypesForRegion C x2)) ;; t <- (Ret MOBILE) ;; Ret (existsb (ptype_eqb t) l)) with Ret false => true | _ => false end);
   (let C := test_container in match (l <- (x3 <- (Ret (bs "BR")) ;; Ret (GetSupportedTypesForRegion C x3)) ;; t <- (Ret UNKNOWN) ;; Ret (existsb (ptype_eqb t) l)) with Ret false => true | _ => false end);
   (let C := test_container in match (l <- (x4 <- (Ret (bs "US")) ;; Ret (GetSupportedTypesForRegion C x4)) ;; t <- (Ret FIXED_LINE) ;; Ret (existsb (ptype_eqb t) l)) with Ret true => true | _ => false end);
   (let C := test_container in match (l <- (x5 <- (Ret (bs "US")) ;; Ret (GetSupportedTypesForRegion C x5)) ;; t <- (Ret MOBILE) ;; Ret (existsb (ptype_eqb t) l)) with Ret true => true | _ => false end);
   (let C := test_container in match (l <- (x6 <- (Ret (bs "US")) ;; Ret (GetSupportedTypesForRegion C x6)) ;; t <- (Ret FIXED_LINE_OR_MOBILE) ;; Ret (existsb (ptype_eqb t) l)) with Ret false => true | _ => false end);
   (let C := test_container in match (Ret 0%nat), (l <- (x7 <- (Ret (bs "ZZ")) ;; Ret (GetSupportedTypesForRegion C x7)) ;; Ret (List.length l)) with Ret a, Ret b => Nat.eqb a b | _, _ => false end)].

Lemma TestGetSupportedTypesForRegion_ok : forallb (fun b => b) TestGetSupportedTypesForRegion = true.
Proof. vm_cast_no_check (eq_refl true). Qed.

(* phonenumberutil_test.go: TestGetSupportedTypesForNonGeoEntity, 4 checks, 0 statements not translated *)
Definition TestGetSupportedTypesForNonGeoEntity : list bool :=
  [(let C := test_container in match (Ret 0%nat), (l <- (x1 <- (Ret (999)%Z) ;; Ret (GetSupportedTypesForNonGeoEntity C x1)) ;; Ret (List.length l)) with Ret a, Ret b => Nat.eqb a b | _, _ => false end);
   (let C := test_container in match (l <- (x2 <- (Ret (979)%Z) ;; Ret (GetSupportedTypesForNonGeoEntity C x2)) ;; t <- (Ret PREMIUM_RATE) ;; Ret (existsb (ptype_eqb t) l)) with Ret true => true | _ => false end);
   (let C := test_container in match (l <- (x2 <- (Ret (979)%Z) ;; Ret (GetSupportedTypesForNonGeoEntity C x2)) ;; t <- (Ret MOBILE) ;; Ret (existsb (ptype_eqb t) l)) with Ret false => true | _ => false end);
   (let C := test_container in match (l <- (x2 <- (Ret (979)%Z) ;; Ret (GetSupportedTypesForNonGeoEntity C x2)) ;; t <- (Ret UNKNOWN) ;; Ret (existsb (ptype_eqb t) l)) with Ret false => true | _ => false end)].

Lemma TestGetSupportedTypesForNonGeoEntity_ok : forallb (fun b => b) TestGetSupportedTypesForNonGeoEntity = true.
Proof. vm_cast_no_check (eq_refl true). Qed.

(* phonenumberutil_test.go: TestIsNumberGeographical, 6 checks, 0 statements not translated *)
Definition TestIsNumberGeographical : list bool :=
  [(let C := test_container in match (x1 <- (p <- (p <- (Ret phone0) ;; x <- (Ret (1)%Z) ;; Ret (set_cc p (Some x))) ;; x <- (Ret 2423570000%N) ;; Ret (set_nn p (Some x))) ;; IsNumberGeographical C x1) with Ret false => true | _ => false end);
   (let C := test_container in match (x2 <- (p <- (p <- (Ret phone0) ;; x <- (Ret (61)%Z) ;; Ret (set_cc p (Some x))) ;; x <- (Ret 236618300%N) ;; Ret (set_nn p (Some x))) ;; IsNumberGeographical C x2) with Ret true => true | _ => false end);
   (let C := test_container in match (x3 <- (p <- (p <- (Ret phone0) ;; x <- (Ret (800)%Z) ;; Ret (set_cc p (Some x))) ;; x <- (Ret 12345678%N) ;; Ret (set_nn p (Some x))) ;; IsNumberGeographical C x3) with Ret false => true | _ => false end);
   (let C := test_container in match (x4 <- (p <- (p <- (Ret phone0) ;; x <- (Ret (54)%Z) ;; Ret (set_cc p (Some x))) ;; x <- (Ret 91187654321%N) ;; Ret (set_nn p (Some x))) ;; IsNumberGeographical C x4) with Ret true => true | _ => false end);
   (let C := test_container in match (x5 <- (p <- (p <- (Ret phone0) ;; x <- (Ret (52)%Z) ;; Ret (set_cc p (Some x))) ;; x <- (Ret 12345678900%N) ;; Ret (set_nn p (Some x))) ;; IsNumberGeographical C x5) with Ret true => true | _ => false end);
   (let C := test_container in match (x6 <- (p <- (p <- (Ret phone0) ;; x <- (Ret (52)%Z) ;; Ret (set_cc p (Some x))) ;; x <- (Ret 15512345678%N) ;; Ret (set_nn p (Some x))) ;; IsNumberGeographical C x6) with Ret true => true | _ => false end)].

Lemma TestIsNumberGeographical_ok : forallb (fun b => b) TestIsNumberGeographical = true.
Proof. vm_cast_no_check (eq_refl true). Qed.

(* phonenumberutil_test.go: TestGetLengthOfGeographicalAreaCode, 13 checks, 0 statements not translated *)
Definition TestGetLengthOfGeographicalAreaCode : list bool :=
  [(let C := test_container in match (Ret 3%nat), (x1 <- (p <- (p <- (Ret phone0) ;; x <- (Ret (1)%Z) ;; Ret (set_cc p (Some x))) ;; x <- (Ret 6502530000%N) ;; Ret (set_nn p (Some x))) ;; GetLengthOfGeographicalAreaCode C x1) with Ret a, Ret b => Nat.eqb a b | _, _ => false end);
   (let C := test_container in match (Ret 0%nat), (x2 <- (p <- (p <- (Ret phone0) ;; x <- (Ret (1)%Z) ;; Ret (set_cc p (Some x))) ;; x <- (Ret 8002530000%N) ;; Ret (set_nn p (Some x))) ;; GetLengthOfGeographicalAreaCode C x2) with Ret a, Ret b => Nat.eqb a b | _, _ => false end);
   (let C := test_container in match (Ret 2%nat), (x3 <- (p <- (p <- (Ret phone0) ;; x <- (Ret (44)%Z) ;; Ret (set_cc p (Some x))) ;; x <- (Ret 2070313000%N) ;; Ret (set_nn p (Some x))) ;; GetLengthOfGeographicalAreaCode C x3) with Ret a, Ret b => Nat.eqb a b | _, _ => false end);
   (let C := test_container in match (Ret 0%nat), (x4 <- (p <- (p <- (Ret phone0) ;; x <- (Ret (44)%Z) ;; Ret (set_cc p (Some x))) ;; x <- (Ret 7912345678%N) ;; Ret (set_nn p (Some x))) ;; GetLengthOfGeographicalAreaCode C x4) with Ret a, Ret b => Nat.eqb a b | _, _ => false end);
   (let C := test_container in match (Ret 2%nat), (x5 <- (p <- (p <- (Ret phone0) ;; x <- (Ret (54)%Z) ;; Ret (set_cc p (Some x))) ;; x <- (Ret 1187654321%N) ;; Ret (set_nn p (Some x))) ;; GetLengthOfGeographicalAreaCode C x5) with Ret a, Ret b => Nat.eqb a b | _, _ => false end);
   (let C := test_container in match (Ret 3%nat), (x6 <- (p <- (p <- (Ret phone0) ;; x <- (Ret (54)%Z) ;; Ret (set_cc p (Some x))) ;; x <- (Ret 91187654321%N) ;; Ret (set_nn p (Some x))) ;; GetLengthOfGeographicalAreaCode C x6) with Ret a, Ret b => Nat.eqb a b | _, _ => false end);
   (let C := test_container in match (Ret 1%nat), (x7 <- (p <- (p <- (Ret phone0) ;; x <- (Ret (61)%Z) ;; Ret (set_cc p (Some x))) ;; x <- (Ret 236618300%N) ;; Ret (set_nn p (Some x))) ;; GetLengthOfGeographicalAreaCode C x7) with Ret a, Ret b => Nat.eqb a b | _, _ => false end);
   (let C := test_container in match (Ret 2%nat), (x8 <- (p <- (p <- (p <- (Ret phone0) ;; x <- (Ret (39)%Z) ;; Ret (set_cc p (Some x))) ;; x <- (Ret 236618300%N) ;; Ret (set_nn p (Some x))) ;; x <- (Ret true) ;; Ret (set_ilz p (Some x))) ;; GetLengthOfGeographicalAreaCode C x8) with Ret a, Ret b => Nat.eqb a b | _, _ => false end);
   (let C := test_container in match (Ret 2%nat), (x9 <- (p <- (p <- (Ret phone0) ;; x <- (Ret (52)%Z) ;; Ret (set_cc p (Some x))) ;; x <- (Ret 3312345678%N) ;; Ret (set_nn p (Some x))) ;; GetLengthOfGeographicalAreaCode C x9) with Ret a, Ret b => Nat.eqb a b | _, _ => false end);
   (let C := test_container in match (Ret 0%nat), (x10 <- (p <- (p <- (Ret phone0) ;; x <- (Ret (65)%Z) ;; Ret (set_cc p (Some x))) ;; x <- (Ret 65218000%N) ;; Ret (set_nn p (Some x))) ;; GetLengthOfGeographicalAreaCode C x10) with Ret a, Ret b => Nat.eqb a b | _, _ => false end);
   (let C := test_container in match (Ret 0%nat), (x11 <- (p <- (p <- (Ret phone0) ;; x <- (Ret (1)%Z) ;; Ret (set_cc p (Some x))) ;; x <- (Ret 650253000%N) ;; Ret (set_nn p (Some x))) ;; GetLengthOfGeographicalAreaCode C x11) with Ret a, Ret b => Nat.eqb a b | _, _ => false end);
   (let C := test_container in match (Ret 0%nat), (x12 <- (p <- (p <- (Ret phone0) ;; x <- (Ret (800)%Z) ;; Ret (set_cc p (Some x))) ;; x <- (Ret 12345678%N) ;; Ret (set_nn p (Some x))) ;; GetLengthOfGeographicalAreaCode C x12) with Ret a, Ret b => Nat.eqb a b | _, _ => false end);
   (let C := test_container in match (Ret 0%nat), (x13 <- (p <- (p <- (Ret phone0) ;; x <- (Ret (86)%Z) ;; Ret (set_cc p (Some x))) ;; x <- (Ret 18912341234%N) ;; Ret (set_nn p (Some x))) ;; GetLengthOfGeographicalAreaCode C x13) with Ret a, Ret b => Nat.eqb a b | _, _ => false end)].

Lemma TestGetLengthOfGeographicalAreaCode_ok : forallb (fun b => b) TestGetLengthOfGeographicalAreaCode = true.
Proof. vm_cast_no_check (eq_refl true). Qed.

(* phonenumberutil_test.go: TestGetLengthOfNationalDestinationCode, 12 checks, 0 statements not translated *)
Definition TestGetLengthOfNationalDestinationCode : list bool :=
  [(let C := test_container in match (Ret 3%nat), (x1 <- (p <- (p <- (Ret phone0) ;; x <- (Ret (1)%Z) ;; Ret (set_cc p (Some x))) ;; x <- (Ret 6502530000%N) ;; Ret (set_nn p (Some x))) ;; GetLengthOfNationalDestinationCode C x1) with Ret a, Ret b => Nat.eqb a b | _, _ => false end);
   (let C := test_container in match (Ret 3%nat), (x2 <- (p <- (p <- (Ret phone0) ;; x <- (Ret (1)%Z) ;; Ret (set_cc p (Some x))) ;; x <- (Ret 8002530000%N) ;; Ret (set_nn p (Some x))) ;; GetLengthOfNationalDestinationCode C x2) with Ret a, Ret b => Nat.eqb a b | _, _ => false end);
   (let C := test_container in match (Ret 2%nat), (x3 <- (p <- (p <- (Ret phone0) ;; x <- (Ret (44)%Z) ;; Ret (set_cc p (Some x))) ;; x <- (Ret 2070313000%N) ;; Ret (set_nn p (Some x))) ;; GetLengthOfNationalDestinationCode C x3) with Ret a, Ret b => Nat.eqb a b | _, _ => false end);
   (let C := test_container in match (Ret 4%nat), (x4 <- (p <- (p <- (Ret phone0) ;; x <- (Ret (44)%Z) ;; Ret (set_cc p (Some x))) ;; x <- (Ret 7912345678%N) ;; Ret (set_nn p (Some x))) ;; GetLengthOfNationalDestinationCode C x4) with Ret a, Ret b => Nat.eqb a b | _, _ => false end);
   (let C := test_container in match (Ret 2%nat), (x5 <- (p <- (p <- (Ret phone0) ;; x <- (Ret (54)%Z) ;; Ret (set_cc p (Some x))) ;; x <- (Ret 1187654321%N) ;; Ret (set_nn p (Some x))) ;; GetLengthOfNationalDestinationCode C x5) with Ret a, Ret b => Nat.eqb a b | _, _ => false end);
   (let C := test_container in match (Ret 3%nat), (x6 <- (p <- (p <- (Ret phone0) ;; x <- (Ret (54)%Z) ;; Ret (set_cc p (Some x))) ;; x <- (Ret 91187654321%N) ;; Ret (set_nn p (Some x))) ;; GetLengthOfNationalDestinationCode C x6) with Ret a, Ret b => Nat.eqb a b | _, _ => false end);
   (let C := test_container in match (Ret 1%nat), (x7 <- (p <- (p <- (Ret phone0) ;; x <- (Ret (61)%Z) ;; Ret (set_cc p (Some x))) ;; x <- (Ret 236618300%N) ;; Ret (set_nn p (Some x))) ;; GetLengthOfNationalDestinationCode C x7) with Ret a, Ret b => Nat.eqb a b | _, _ => false end);
   (let C := test_container in match (Ret 4%nat), (x8 <- (p <- (p <- (Ret phone0) ;; x <- (Ret (65)%Z) ;; Ret (set_cc p (Some x))) ;; x <- (Ret 65218000%N) ;; Ret (set_nn p (Some x))) ;; GetLengthOfNationalDestinationCode C x8) with Ret a, Ret b => Nat.eqb a b | _, _ => false end);
   (let C := test_container in match (Ret 0%nat), (x9 <- (p <- (p <- (Ret phone0) ;; x <- (Ret (1)%Z) ;; Ret (set_cc p (Some x))) ;; x <- (Ret 650253000%N) ;; Ret (set_nn p (Some x))) ;; GetLengthOfNationalDestinationCode C x9) with Ret a, Ret b => Nat.eqb a b | _, _ => false end);
   (let C := test_container in match (Ret 0%nat), (x10 <- (p <- (p <- (Ret phone0) ;; x <- (Ret (123)%Z) ;; Ret (set_cc p (Some x))) ;; x <- (Ret 6502530000%N) ;; Ret (set_nn p (Some x))) ;; GetLengthOfNationalDestinationCode C x10) with Ret a, Ret b => Nat.eqb a b | _, _ => false end);
   (let C := test_container in match (Ret 4%nat), (x11 <- (p <- (p <- (Ret phone0) ;; x <- (Ret (800)%Z) ;; Ret (set_cc p (Some x))) ;; x <- (Ret 12345678%N) ;; Ret (set_nn p (Some x))) ;; GetLengthOfNationalDestinationCode C x11) with Ret a, Ret b => Nat.eqb a b | _, _ => false end);
   (let C := test_container in match (Ret 3%nat), (x12 <- (p <- (p <- (Ret phone0) ;; x <- (Ret (86)%Z) ;; Ret (set_cc p (Some x))) ;; x <- (Ret 18912341234%N) ;; Ret (set_nn p (Some x))) ;; GetLengthOfNationalDestinationCode C x12) with Ret a, Ret b => Nat.eqb a b | _, _ => false end)].

Lemma TestGetLengthOfNationalDestinationCode_ok : forallb (fun b => b) TestGetLengthOfNationalDestinationCode = true.
Proof. vm_cast_no_check (eq_refl true). Qed.

(* phonenumberutil_test.go: TestGetCountryMobileToken, 2 checks, 0 statements not translated *)
Definition TestGetCountryMobileToken : list bool :=
  [(let C := test_container in match (Ret (bs "9")), (x2 <- (x1 <- (Ret (bs "AR")) ;; Ret (GetCountryCodeForRegion C x1)) ;; Ret (GetCountryMobileToken x2)) with Ret a, Ret b => beq a b | _, _ => false end);
   (let C := test_container in match (Ret (bs "")), (x4 <- (x3 <- (Ret (bs "SE")) ;; Ret (GetCountryCodeForRegion C x3)) ;; Ret (GetCountryMobileToken x4)) with Ret a, Ret b => beq a b | _, _ => false end)].

Lemma TestGetCountryMobileToken_ok : forallb (fun b => b) TestGetCountryMobileToken = true.
Proof. vm_cast_no_check (eq_refl true). Qed.

(* phonenumberutil_test.go: TestGetNationalSignificantNumber, 4 checks, 0 statements not translated *)
Definition TestGetNationalSignificantNumber : list bool :=
  [(let C := test_container in match (Ret (bs "6502530000")), (x1 <- (p <- (p <- (Ret phone0) ;; x <- (Ret (1)%Z) ;; Ret (set_cc p (Some x))) ;; x <- (Ret 6502530000%N) ;; Ret (set_nn p (Some x))) ;; Ret (GetNationalSignificantNumber x1)) with Ret a, Ret b => beq a b | _, _ => false end);
   (let C := test_container in match (Ret (bs "345678901")), (x2 <- (p <- (p <- (Ret phone0) ;; x <- (Ret (39)%Z) ;; Ret (set_cc p (Some x))) ;; x <- (Ret 345678901%N) ;; Ret (set_nn p (Some x))) ;; Ret (GetNationalSignificantNumber x2)) with Ret a, Ret b => beq a b | _, _ => false end);
   (let C := test_container in match (Ret (bs "0236618300")), (x3 <- (p <- (p <- (p <- (Ret phone0) ;; x <- (Ret (39)%Z) ;; Ret (set_cc p (Some x))) ;; x <- (Ret 236618300%N) ;; Ret (set_nn p (Some x))) ;; x <- (Ret true) ;; Ret (set_ilz p (Some x))) ;; Ret (GetNationalSignificantNumber x3)) with Ret a, Ret b => beq a b | _, _ => false end);
   (let C := test_container in match (Ret (bs "12345678")), (x4 <- (p <- (p <- (Ret phone0) ;; x <- (Ret (800)%Z) ;; Ret (set_cc p (Some x))) ;; x <- (Ret 12345678%N) ;; Ret (set_nn p (Some x))) ;; Ret (GetNationalSignificantNumber x4)) with Ret a, Ret b => beq a b | _, _ => false end)].

Lemma TestGetNationalSignificantNumber_ok : forallb (fun b => b) TestGetNationalSignificantNumber = true.
Proof. vm_cast_no_check (eq_refl true). Qed.

(* phonenumberutil_test.go: TestGetNationalSignificantNumberManyLeadingZeros, 2 checks, 0 statements not translated *)
Definition TestGetNationalSignificantNumberManyLeadingZeros : list bool :=
  [(let C := test_container in match (Ret (bs "00650")), (x1 <- (p <- (p <- (p <- (p <- (Ret phone0) ;; x <- (Ret (1)%Z) ;; Ret (set_cc p (Some x))) ;; x <- (Ret 650%N) ;; Ret (set_nn p (Some x))) ;; x <- (Ret true) ;; Ret (set_ilz p (Some x))) ;; x <- (Ret (2)%Z) ;; Ret (set_nlz p (Some x))) ;; Ret (GetNationalSignificantNumber x1)) with Ret a, Ret b => beq a b | _, _ => false end);
   (let C := test_container in match (Ret (bs "650")), (x2 <- (p <- (p <- (p <- (p <- (p <- (Ret phone0) ;; x <- (Ret (1)%Z) ;; Ret (set_cc p (Some x))) ;; x <- (Ret 650%N) ;; Ret (set_nn p (Some x))) ;; x <- (Ret true) ;; Ret (set_ilz p (Some x))) ;; x <- (Ret (2)%Z) ;; Ret (set_nlz p (Some x))) ;; x <- (Ret (-3)%Z) ;; Ret (set_nlz p (Some x))) ;; Ret (GetNationalSignificantNumber x2)) with Ret a, Ret b => beq a b | _, _ => false end)].

Lemma TestGetNationalSignificantNumberManyLeadingZeros_ok : forallb (fun b => b) TestGetNationalSignificantNumberManyLeadingZeros = true.
Proof. vm_cast_no_check (eq_refl true). Qed.

(* phonenumberutil_test.go: TestGetExampleNumber, 8 checks, 0 statements not translated *)
Definition TestGetExampleNumber : list bool :=
  [(let C := test_container in match (a <- (p <- (p <- (Ret phone0) ;; x <- (Ret (49)%Z) ;; Ret (set_cc p (Some x))) ;; x <- (Ret 30123456%N) ;; Ret (set_nn p (Some x))) ;; b <- (o <- (x1 <- (Ret (bs "DE")) ;; GetExampleNumber C x1) ;; or_panic o) ;; Ret (phone_full_eqb a b)) with Ret true => true | _ => false end);
   (let C := test_container in match (a <- (p <- (p <- (Ret phone0) ;; x <- (Ret (49)%Z) ;; Ret (set_cc p (Some x))) ;; x <- (Ret 30123456%N) ;; Ret (set_nn p (Some x))) ;; b <- (o <- (x2 <- (Ret (bs "DE")) ;; x3 <- (Ret FIXED_LINE) ;; GetExampleNumberForTypeInRegion C x2 x3) ;; or_panic o) ;; Ret (phone_full_eqb a b)) with Ret true => true | _ => false end);
   (let C := test_container in match (a <- (p <- (p <- (Ret phone0) ;; x <- (Ret (49)%Z) ;; Ret (set_cc p (Some x))) ;; x <- (Ret 30123456%N) ;; Ret (set_nn p (Some x))) ;; b <- (o <- (x4 <- (Ret (bs "DE")) ;; x5 <- (Ret FIXED_LINE_OR_MOBILE) ;; GetExampleNumberForTypeInRegion C x4 x5) ;; or_panic o) ;; Ret (phone_full_eqb a b)) with Ret true => true | _ => false end);
   (let C := test_container in match (x6 <- (Ret (bs "US")) ;; x7 <- (Ret FIXED_LINE) ;; GetExampleNumberForTypeInRegion C x6 x7) with Ret (Some _) => true | _ => false end);
   (let C := test_container in match (x8 <- (Ret (bs "US")) ;; x9 <- (Ret MOBILE) ;; GetExampleNumberForTypeInRegion C x8 x9) with Ret (Some _) => true | _ => false end);
   (let C := test_container in match (x10 <- (Ret (bs "US")) ;; x11 <- (Ret VOICEMAIL) ;; GetExampleNumberForTypeInRegion C x10 x11) with Ret None => true | _ => false end);
   (let C := test_container in match (x12 <- (Ret (bs "CS")) ;; x13 <- (Ret MOBILE) ;; GetExampleNumberForTypeInRegion C x12 x13) with Ret None => true | _ => false end);
   (let C := test_container in match (x14 <- (Ret (bs "001")) ;; GetExampleNumber C x14) with Ret None => true | _ => false end)].

Lemma TestGetExampleNumber_ok : forallb (fun b => b) TestGetExampleNumber = true.
Proof. vm_cast_no_check (eq_refl true). Qed.

(* phonenumberutil_test.go: TestGetInvalidExampleNumber, 4 checks, 0 statements not translated *)
Definition TestGetInvalidExampleNumber : list bool :=
  [(let C := test_container in match (x1 <- (Ret (bs "001")) ;; GetInvalidExampleNumber C x1) with Ret None => true | _ => false end);
   (let C := test_container in match (x2 <- (Ret (bs "CS")) ;; GetInvalidExampleNumber C x2) with Ret None => true | _ => false end);
   (let C := test_container in match (Ret (1)%Z), (p <- (o <- (x3 <- (Ret (bs "US")) ;; GetInvalidExampleNumber C x3) ;; or_panic o) ;; Ret (get_cc p)) with Ret a, Ret b => Z.eqb a b | _, _ => false end);
   (let C := test_container in negb (match (Ret (0)%Z), (p <- (o <- (x3 <- (Ret (bs "US")) ;; GetInvalidExampleNumber C x3) ;; or_panic o) ;; Ret (Z.of_N (get_nn p))) with Ret a, Ret b => Z.eqb a b | _, _ => false end))].

Lemma TestGetInvalidExampleNumber_ok : forallb (fun b => b) TestGetInvalidExampleNumber = true.
Proof. vm_cast_no_check (eq_refl true). Qed.

(* phonenumberutil_test.go: TestGetExampleNumberForNonGeoEntity, 2 checks, 0 statements not translated *)
Definition TestGetExampleNumberForNonGeoEntity : list bool :=
  [(let C := test_container in match (a <- (p <- (p <- (Ret phone0) ;; x <- (Ret (800)%Z) ;; Ret (set_cc p (Some x))) ;; x <- (Ret 12345678%N) ;; Ret (set_nn p (Some x))) ;; b <- (o <- (x1 <- (Ret (800)%Z) ;; GetExampleNumberForNonGeoEntity C x1) ;; or_panic o) ;; Ret (phone_full_eqb a b)) with Ret true => true | _ => false end);
   (let C := test_container in match (a <- (p <- (p <- (Ret phone0) ;; x <- (Ret (979)%Z) ;; Ret (set_cc p (Some x))) ;; x <- (Ret 123456789%N) ;; Ret (set_nn p (Some x))) ;; b <- (o <- (x2 <- (Ret (979)%Z) ;; GetExampleNumberForNonGeoEntity C x2) ;; or_panic o) ;; Ret (phone_full_eqb a b)) with Ret true => true | _ => false end)].

Lemma TestGetExampleNumberForNonGeoEntity_ok : forallb (fun b => b) TestGetExampleNumberForNonGeoEntity = true.
Proof. vm_cast_no_check (eq_refl true). Qed.

(* phonenumberutil_test.go: TestConvertAlphaCharactersInNumber, 1 checks, 0 statements not translated *)
Definition TestConvertAlphaCharactersInNumber : list bool :=
  [(let C := shipped in match (Ret (bs "1800-222-333")), (x1 <- (Ret (bs "1800-ABC-DEF")) ;; Ret (ConvertAlphaCharactersInNumber x1)) with Ret a, Ret b => beq a b | _, _ => false end)].

Lemma TestConvertAlphaCharactersInNumber_ok : forallb (fun b => b) TestConvertAlphaCharactersInNumber = true.
Proof. vm_cast_no_check (eq_refl true). Qed.

(* phonenumberutil_test.go: TestNormaliseRemovePunctuation, 1 checks, 0 statements not translated *)
Definition TestNormaliseRemovePunctuation : list bool :=
  [(let C := shipped in match (Ret (bs "03456234")), (x1 <- (Ret [48; 51; 52; 45; 53; 54; 38; 43; 35; 50; 194; 173; 51; 52]) ;; Ret (normalize x1)) with Ret a, Ret b => beq a b | _, _ => false end)].

Lemma TestNormaliseRemovePunctuation_ok : forallb (fun b => b) TestNormaliseRemovePunctuation = true.
Proof. vm_cast_no_check (eq_refl true). Qed.

(* phonenumberutil_test.go: TestNormaliseReplaceAlphaCharacters, 1 checks, 0 statements not translated *)
Definition TestNormaliseReplaceAlphaCharacters : list bool :=
  [(let C := shipped in match (Ret (bs "034426486479")), (x1 <- (Ret (bs "034-I-am-HUNGRY")) ;; Ret (normalize x1)) with Ret a, Ret b => beq a b | _, _ => false end)].

Lemma TestNormaliseReplaceAlphaCharacters_ok : forallb (fun b => b) TestNormaliseReplaceAlphaCharacters = true.
Proof. vm_cast_no_check (eq_refl true). Qed.

(* phonenumberutil_test.go: TestNormaliseOtherDigits, 2 checks, 0 statements not translated *)
Definition TestNormaliseOtherDigits : list bool :=
  [(let C := shipped in match (Ret (bs "255")), (x1 <- (Ret [239; 188; 146; 53; 217; 165]) ;; Ret (normalize x1)) with Ret a, Ret b => beq a b | _, _ => false end);
   (let C := shipped in match (Ret (bs "520")), (x2 <- (Ret [219; 181; 50; 219; 176]) ;; Ret (normalize x2)) with Ret a, Ret b => beq a b | _, _ => false end)].

Lemma TestNormaliseOtherDigits_ok : forallb (fun b => b) TestNormaliseOtherDigits = true.
Proof. vm_cast_no_check (eq_refl true). Qed.

(* phonenumberutil_test.go: TestNormaliseStripAlphaCharacters, 1 checks, 0 statements not translated *)
Definition TestNormaliseStripAlphaCharacters : list bool :=
  [(let C := shipped in match (Ret (bs "03456234")), (x1 <- (Ret (bs "034-56&+a#234")) ;; Ret (NormalizeDigitsOnly x1)) with Ret a, Ret b => beq a b | _, _ => false end)].

Lemma TestNormaliseStripAlphaCharacters_ok : forallb (fun b => b) TestNormaliseStripAlphaCharacters = true.
Proof. vm_cast_no_check (eq_refl true). Qed.

(* phonenumberutil_test.go: TestNormaliseStripNonDiallableCharacters, 1 checks, 0 statements not translated *)
Definition TestNormaliseStripNonDiallableCharacters : list bool :=
  [(let C := shipped in match (Ret (bs "03*456+1#234")), (x1 <- (Ret (bs "03*4-56&+1a#234")) ;; Ret (NormalizeDiallableCharsOnly x1)) with Ret a, Ret b => beq a b | _, _ => false end)].

Lemma TestNormaliseStripNonDiallableCharacters_ok : forallb (fun b => b) TestNormaliseStripNonDiallableCharacters = true.
Proof. vm_cast_no_check (eq_refl true). Qed.

(* phonenumberutil_test.go: TestFormatUSNumber, 9 checks, 0 statements not translated *)
Definition TestFormatUSNumber : list bool :=
  [(let C := test_container in match (Ret (bs "650 253 0000")), (x1 <- (p <- (p <- (Ret phone0) ;; x <- (Ret (1)%Z) ;; Ret (set_cc p (Some x))) ;; x <- (Ret 6502530000%N) ;; Ret (set_nn p (Some x))) ;; x2 <- (Ret NATIONAL) ;; Format C x1 x2) with Ret a, Ret b => beq a b | _, _ => false end);
   (let C := test_container in match (Ret (bs "+1 650 253 0000")), (x3 <- (p <- (p <- (Ret phone0) ;; x <- (Ret (1)%Z) ;; Ret (set_cc p (Some x))) ;; x <- (Ret 6502530000%N) ;; Ret (set_nn p (Some x))) ;; x4 <- (Ret INTERNATIONAL) ;; Format C x3 x4) with Ret a, Ret b => beq a b | _, _ => false end);
   (let C := test_container in match (Ret (bs "800 253 0000")), (x5 <- (p <- (p <- (Ret phone0) ;; x <- (Ret (1)%Z) ;; Ret (set_cc p (Some x))) ;; x <- (Ret 8002530000%N) ;; Ret (set_nn p (Some x))) ;; x6 <- (Ret NATIONAL) ;; Format C x5 x6) with Ret a, Ret b => beq a b | _, _ => false end);
   (let C := test_container in match (Ret (bs "+1 800 253 0000")), (x7 <- (p <- (p <- (Ret phone0) ;; x <- (Ret (1)%Z) ;; Ret (set_cc p (Some x))) ;; x <- (Ret 8002530000%N) ;; Ret (set_nn p (Some x))) ;; x8 <- (Ret INTERNATIONAL) ;; Format C x7 x8) with Ret a, Ret b => beq a b | _, _ => false end);
   (let C := test_container in match (Ret (bs "900 253 0000")), (x9 <- (p <- (p <- (Ret phone0) ;; x <- (Ret (1)%Z) ;; Ret (set_cc p (Some x))) ;; x <- (Ret 9002530000%N) ;; Ret (set_nn p (Some x))) ;; x10 <- (Ret NATIONAL) ;; Format C x9 x10) with Ret a, Ret b => beq a b | _, _ => false end);
   (let C := test_container in match (Ret (bs "+1 900 253 0000")), (x11 <- (p <- (p <- (Ret phone0) ;; x <- (Ret (1)%Z) ;; Ret (set_cc p (Some x))) ;; x <- (Ret 9002530000%N) ;; Ret (set_nn p (Some x))) ;; x12 <- (Ret INTERNATIONAL) ;; Format C x11 x12) with Ret a, Ret b => beq a b | _, _ => false end);
   (let C := test_container in match (Ret (bs "tel:+1-900-253-0000")), (x13 <- (p <- (p <- (Ret phone0) ;; x <- (Ret (1)%Z) ;; Ret (set_cc p (Some x))) ;; x <- (Ret 9002530000%N) ;; Ret (set_nn p (Some x))) ;; x14 <- (Ret RFC3966) ;; Format C x13 x14) with Ret a, Ret b => beq a b | _, _ => false end);
   (let C := test_container in match (Ret (bs "000-000-0000")), (x15 <- (p <- (p <- (p <- (Ret phone0) ;; x <- (Ret (1)%Z) ;; Ret (set_cc p (Some x))) ;; x <- (Ret 0%N) ;; Ret (set_nn p (Some x))) ;; x <- (Ret (bs "000-000-0000")) ;; Ret (set_raw p (Some x))) ;; x16 <- (Ret NATIONAL) ;; Format C x15 x16) with Ret a, Ret b => beq a b | _, _ => false end);
   (let C := test_container in match (Ret (bs "0")), (x17 <- (p <- (p <- (Ret phone0) ;; x <- (Ret (1)%Z) ;; Ret (set_cc p (Some x))) ;; x <- (Ret 0%N) ;; Ret (set_nn p (Some x))) ;; x18 <- (Ret NATIONAL) ;; Format C x17 x18) with Ret a, Ret b => beq a b | _, _ => false end)].

Lemma TestFormatUSNumber_ok : forallb (fun b => b) TestFormatUSNumber = true.
Proof. vm_cast_no_check (eq_refl true). Qed.

(* phonenumberutil_test.go: TestFormatBSNumber, 2 checks, 0 statements not translated *)
Definition TestFormatBSNumber : list bool :=
  [(let C := test_container in match (Ret (bs "242 365 1234")), (x1 <- (p <- (p <- (Ret phone0) ;; x <- (Ret (1)%Z) ;; Ret (set_cc p (Some x))) ;; x <- (Ret 2423651234%N) ;; Ret (set_nn p (Some x))) ;; x2 <- (Ret NATIONAL) ;; Format C x1 x2) with Ret a, Ret b => beq a b | _, _ => false end);
   (let C := test_container in match (Ret (bs "+1 242 365 1234")), (x3 <- (p <- (p <- (Ret phone0) ;; x <- (Ret (1)%Z) ;; Ret (set_cc p (Some x))) ;; x <- (Ret 2423651234%N) ;; Ret (set_nn p (Some x))) ;; x4 <- (Ret INTERNATIONAL) ;; Format C x3 x4) with Ret a, Ret b => beq a b | _, _ => false end)].

Lemma TestFormatBSNumber_ok : forallb (fun b => b) TestFormatBSNumber = true.
Proof. vm_cast_no_check (eq_refl true). Qed.

(* phonenumberutil_test.go: TestFormatGBNumber, 4 checks, 0 statements not translated *)
Definition TestFormatGBNumber : list bool :=
  [(let C := test_container in match (Ret (bs "(020) 7031 3000")), (x1 <- (p <- (p <- (Ret phone0) ;; x <- (Ret (44)%Z) ;; Ret (set_cc p (Some x))) ;; x <- (Ret 2070313000%N) ;; Ret (set_nn p (Some x))) ;; x2 <- (Ret NATIONAL) ;; Format C x1 x2) with Ret a, Ret b => beq a b | _, _ => false end);
   (let C := test_container in match (Ret (bs "+44 20 7031 3000")), (x3 <- (p <- (p <- (Ret phone0) ;; x <- (Ret (44)%Z) ;; Ret (set_cc p (Some x))) ;; x <- (Ret 2070313000%N) ;; Ret (set_nn p (Some x))) ;; x4 <- (Ret INTERNATIONAL) ;; Format C x3 x4) with Ret a, Ret b => beq a b | _, _ => false end);
   (let C := test_container in match (Ret (bs "(07912) 345 678")), (x5 <- (p <- (p <- (Ret phone0) ;; x <- (Ret (44)%Z) ;; Ret (set_cc p (Some x))) ;; x <- (Ret 7912345678%N) ;; Ret (set_nn p (Some x))) ;; x6 <- (Ret NATIONAL) ;; Format C x5 x6) with Ret a, Ret b => beq a b | _, _ => false end);
   (let C := test_container in match (Ret (bs "+44 7912 345 678")), (x7 <- (p <- (p <- (Ret phone0) ;; x <- (Ret (44)%Z) ;; Ret (set_cc p (Some x))) ;; x <- (Ret 7912345678%N) ;; Ret (set_nn p (Some x))) ;; x8 <- (Ret INTERNATIONAL) ;; Format C x7 x8) with Ret a, Ret b => beq a b | _, _ => false end)].

Lemma TestFormatGBNumber_ok : forallb (fun b => b) TestFormatGBNumber = true.
Proof. vm_cast_no_check (eq_refl true). Qed.

(* phonenumberutil_test.go: TestFormatDENumber, 14 checks, 0 statements not translated *)
Definition TestFormatDENumber : list bool :=
  [(let C := test_container in match (Ret (bs "030/1234")), (x1 <- (p <- (p <- (Ret phone0) ;; x <- (Ret (49)%Z) ;; Ret (set_cc p (Some x))) ;; x <- (Ret 301234%N) ;; Ret (set_nn p (Some x))) ;; x2 <- (Ret NATIONAL) ;; Format C x1 x2) with Ret a, Ret b => beq a b | _, _ => false end);
   (let C := test_container in match (Ret (bs "+49 30/1234")), (x3 <- (p <- (p <- (Ret phone0) ;; x <- (Ret (49)%Z) ;; Ret (set_cc p (Some x))) ;; x <- (Ret 301234%N) ;; Ret (set_nn p (Some x))) ;; x4 <- (Ret INTERNATIONAL) ;; Format C x3 x4) with Ret a, Ret b => beq a b | _, _ => false end);
   (let C := test_container in match (Ret (bs "tel:+49-30-1234")), (x5 <- (p <- (p <- (Ret phone0) ;; x <- (Ret (49)%Z) ;; Ret (set_cc p (Some x))) ;; x <- (Ret 301234%N) ;; Ret (set_nn p (Some x))) ;; x6 <- (Ret RFC3966) ;; Format C x5 x6) with Ret a, Ret b => beq a b | _, _ => false end);
   (let C := test_container in match (Ret (bs "0291 123")), (x7 <- (p <- (p <- (Ret phone0) ;; x <- (Ret (49)%Z) ;; Ret (set_cc p (Some x))) ;; x <- (Ret 291123%N) ;; Ret (set_nn p (Some x))) ;; x8 <- (Ret NATIONAL) ;; Format C x7 x8) with Ret a, Ret b => beq a b | _, _ => false end);
   (let C := test_container in match (Ret (bs "+49 291 123")), (x9 <- (p <- (p <- (Ret phone0) ;; x <- (Ret (49)%Z) ;; Ret (set_cc p (Some x))) ;; x <- (Ret 291123%N) ;; Ret (set_nn p (Some x))) ;; x10 <- (Ret INTERNATIONAL) ;; Format C x9 x10) with Ret a, Ret b => beq a b | _, _ => false end);
   (let C := test_container in match (Ret (bs "0291 12345678")), (x11 <- (p <- (p <- (Ret phone0) ;; x <- (Ret (49)%Z) ;; Ret (set_cc p (Some x))) ;; x <- (Ret 29112345678%N) ;; Ret (set_nn p (Some x))) ;; x12 <- (Ret NATIONAL) ;; Format C x11 x12) with Ret a, Ret b => beq a b | _, _ => false end);
   (let C := test_container in match (Ret (bs "+49 291 12345678")), (x13 <- (p <- (p <- (Ret phone0) ;; x <- (Ret (49)%Z) ;; Ret (set_cc p (Some x))) ;; x <- (Ret 29112345678%N) ;; Ret (set_nn p (Some x))) ;; x14 <- (Ret INTERNATIONAL) ;; Format C x13 x14) with Ret a, Ret b => beq a b | _, _ => false end);
   (let C := test_container in match (Ret (bs "09123 12345")), (x15 <- (p <- (p <- (Ret phone0) ;; x <- (Ret (49)%Z) ;; Ret (set_cc p (Some x))) ;; x <- (Ret 912312345%N) ;; Ret (set_nn p (Some x))) ;; x16 <- (Ret NATIONAL) ;; Format C x15 x16) with Ret a, Ret b => beq a b | _, _ => false end);
   (let C := test_container in match (Ret (bs "+49 9123 12345")), (x17 <- (p <- (p <- (Ret phone0) ;; x <- (Ret (49)%Z) ;; Ret (set_cc p (Some x))) ;; x <- (Ret 912312345%N) ;; Ret (set_nn p (Some x))) ;; x18 <- (Ret INTERNATIONAL) ;; Format C x17 x18) with Ret a, Ret b => beq a b | _, _ => false end);
   (let C := test_container in match (Ret (bs "08021 2345")), (x19 <- (p <- (p <- (Ret phone0) ;; x <- (Ret (49)%Z) ;; Ret (set_cc p (Some x))) ;; x <- (Ret 80212345%N) ;; Ret (set_nn p (Some x))) ;; x20 <- (Ret NATIONAL) ;; Format C x19 x20) with Ret a, Ret b => beq a b | _, _ => false end);
   (let C := test_container in match (Ret (bs "+49 8021 2345")), (x21 <- (p <- (p <- (Ret phone0) ;; x <- (Ret (49)%Z) ;; Ret (set_cc p (Some x))) ;; x <- (Ret 80212345%N) ;; Ret (set_nn p (Some x))) ;; x22 <- (Ret INTERNATIONAL) ;; Format C x21 x22) with Ret a, Ret b => beq a b | _, _ => false end);
   (let C := test_container in match (Ret (bs "1234")), (x23 <- (p <- (p <- (Ret phone0) ;; x <- (Ret (49)%Z) ;; Ret (set_cc p (Some x))) ;; x <- (Ret 1234%N) ;; Ret (set_nn p (Some x))) ;; x24 <- (Ret NATIONAL) ;; Format C x23 x24) with Ret a, Ret b => beq a b | _, _ => false end);
   (let C := test_container in match (Ret (bs "+49 1234")), (x25 <- (p <- (p <- (Ret phone0) ;; x <- (Ret (49)%Z) ;; Ret (set_cc p (Some x))) ;; x <- (Ret 1234%N) ;; Ret (set_nn p (Some x))) ;; x26 <- (Ret INTERNATIONAL) ;; Format C x25 x26) with Ret a, Ret b => beq a b | _, _ => false end);
   (let C := test_container in match (Ret (bs "04134 1234")), (x27 <- (p <- (p <- (Ret phone0) ;; x <- (Ret (49)%Z) ;; Ret (set_cc p (Some x))) ;; x <- (Ret 41341234%N) ;; Ret (set_nn p (Some x))) ;; x28 <- (Ret NATIONAL) ;; Format C x27 x28) with Ret a, Ret b => beq a b | _, _ => false end)].

Lemma TestFormatDENumber_ok : forallb (fun b => b) TestFormatDENumber = true.
Proof. vm_cast_no_check (eq_refl true). Qed.

(* phonenumberutil_test.go: TestFormatITNumber, 6 checks, 0 statements not translated *)
Definition TestFormatITNumber : list bool :=
  [(let C := test_container in match (Ret (bs "02 3661 8300")), (x1 <- (p <- (p <- (p <- (Ret phone0) ;; x <- (Ret (39)%Z) ;; Ret (set_cc p (Some x))) ;; x <- (Ret 236618300%N) ;; Ret (set_nn p (Some x))) ;; x <- (Ret true) ;; Ret (set_ilz p (Some x))) ;; x2 <- (Ret NATIONAL) ;; Format C x1 x2) with Ret a, Ret b => beq a b | _, _ => false end);
   (let C := test_container in match (Ret (bs "+39 02 3661 8300")), (x3 <- (p <- (p <- (p <- (Ret phone0) ;; x <- (Ret (39)%Z) ;; Ret (set_cc p (Some x))) ;; x <- (Ret 236618300%N) ;; Ret (set_nn p (Some x))) ;; x <- (Ret true) ;; Ret (set_ilz p (Some x))) ;; x4 <- (Ret INTERNATIONAL) ;; Format C x3 x4) with Ret a, Ret b => beq a b | _, _ => false end);
   (let C := test_container in match (Ret (bs "+390236618300")), (x5 <- (p <- (p <- (p <- (Ret phone0) ;; x <- (Ret (39)%Z) ;; Ret (set_cc p (Some x))) ;; x <- (Ret 236618300%N) ;; Ret (set_nn p (Some x))) ;; x <- (Ret true) ;; Ret (set_ilz p (Some x))) ;; x6 <- (Ret E164) ;; Format C x5 x6) with Ret a, Ret b => beq a b | _, _ => false end);
   (let C := test_container in match (Ret (bs "345 678 901")), (x7 <- (p <- (p <- (Ret phone0) ;; x <- (Ret (39)%Z) ;; Ret (set_cc p (Some x))) ;; x <- (Ret 345678901%N) ;; Ret (set_nn p (Some x))) ;; x8 <- (Ret NATIONAL) ;; Format C x7 x8) with Ret a, Ret b => beq a b | _, _ => false end);
   (let C := test_container in match (Ret (bs "+39 345 678 901")), (x9 <- (p <- (p <- (Ret phone0) ;; x <- (Ret (39)%Z) ;; Ret (set_cc p (Some x))) ;; x <- (Ret 345678901%N) ;; Ret (set_nn p (Some x))) ;; x10 <- (Ret INTERNATIONAL) ;; Format C x9 x10) with Ret a, Ret b => beq a b | _, _ => false end);
   (let C := test_container in match (Ret (bs "+39345678901")), (x11 <- (p <- (p <- (Ret phone0) ;; x <- (Ret (39)%Z) ;; Ret (set_cc p (Some x))) ;; x <- (Ret 345678901%N) ;; Ret (set_nn p (Some x))) ;; x12 <- (Ret E164) ;; Format C x11 x12) with Ret a, Ret b => beq a b | _, _ => false end)].

Lemma TestFormatITNumber_ok : forallb (fun b => b) TestFormatITNumber = true.
Proof. vm_cast_no_check (eq_refl true). Qed.

(* phonenumberutil_test.go: TestFormatAUNumber, 6 checks, 0 statements not translated *)
Definition TestFormatAUNumber : list bool :=
  [(let C := test_container in match (Ret (bs "02 3661 8300")), (x1 <- (p <- (p <- (Ret phone0) ;; x <- (Ret (61)%Z) ;; Ret (set_cc p (Some x))) ;; x <- (Ret 236618300%N) ;; Ret (set_nn p (Some x))) ;; x2 <- (Ret NATIONAL) ;; Format C x1 x2) with Ret a, Ret b => beq a b | _, _ => false end);
   (let C := test_container in match (Ret (bs "+61 2 3661 8300")), (x3 <- (p <- (p <- (Ret phone0) ;; x <- (Ret (61)%Z) ;; Ret (set_cc p (Some x))) ;; x <- (Ret 236618300%N) ;; Ret (set_nn p (Some x))) ;; x4 <- (Ret INTERNATIONAL) ;; Format C x3 x4) with Ret a, Ret b => beq a b | _, _ => false end);
   (let C := test_container in match (Ret (bs "+61236618300")), (x5 <- (p <- (p <- (Ret phone0) ;; x <- (Ret (61)%Z) ;; Ret (set_cc p (Some x))) ;; x <- (Ret 236618300%N) ;; Ret (set_nn p (Some x))) ;; x6 <- (Ret E164) ;; Format C x5 x6) with Ret a, Ret b => beq a b | _, _ => false end);
   (let C := test_container in match (Ret (bs "1800 123 456")), (x7 <- (p <- (p <- (Ret phone0) ;; x <- (Ret (61)%Z) ;; Ret (set_cc p (Some x))) ;; x <- (Ret 1800123456%N) ;; Ret (set_nn p (Some x))) ;; x8 <- (Ret NATIONAL) ;; Format C x7 x8) with Ret a, Ret b => beq a b | _, _ => false end);
   (let C := test_container in match (Ret (bs "+61 1800 123 456")), (x9 <- (p <- (p <- (Ret phone0) ;; x <- (Ret (61)%Z) ;; Ret (set_cc p (Some x))) ;; x <- (Ret 1800123456%N) ;; Ret (set_nn p (Some x))) ;; x10 <- (Ret INTERNATIONAL) ;; Format C x9 x10) with Ret a, Ret b => beq a b | _, _ => false end);
   (let C := test_container in match (Ret (bs "+611800123456")), (x11 <- (p <- (p <- (Ret phone0) ;; x <- (Ret (61)%Z) ;; Ret (set_cc p (Some x))) ;; x <- (Ret 1800123456%N) ;; Ret (set_nn p (Some x))) ;; x12 <- (Ret E164) ;; Format C x11 x12) with Ret a, Ret b => beq a b | _, _ => false end)].

Lemma TestFormatAUNumber_ok : forallb (fun b => b) TestFormatAUNumber = true.
Proof. vm_cast_no_check (eq_refl true). Qed.

(* phonenumberutil_test.go: TestFormatARNumber, 6 checks, 0 statements not translated *)
Definition TestFormatARNumber : list bool :=
  [(let C := test_container in match (Ret (bs "011 8765-4321")), (x1 <- (p <- (p <- (Ret phone0) ;; x <- (Ret (54)%Z) ;; Ret (set_cc p (Some x))) ;; x <- (Ret 1187654321%N) ;; Ret (set_nn p (Some x))) ;; x2 <- (Ret NATIONAL) ;; Format C x1 x2) with Ret a, Ret b => beq a b | _, _ => false end);
   (let C := test_container in match (Ret (bs "+54 11 8765-4321")), (x3 <- (p <- (p <- (Ret phone0) ;; x <- (Ret (54)%Z) ;; Ret (set_cc p (Some x))) ;; x <- (Ret 1187654321%N) ;; Ret (set_nn p (Some x))) ;; x4 <- (Ret INTERNATIONAL) ;; Format C x3 x4) with Ret a, Ret b => beq a b | _, _ => false end);
   (let C := test_container in match (Ret (bs "+541187654321")), (x5 <- (p <- (p <- (Ret phone0) ;; x <- (Ret (54)%Z) ;; Ret (set_cc p (Some x))) ;; x <- (Ret 1187654321%N) ;; Ret (set_nn p (Some x))) ;; x6 <- (Ret E164) ;; Format C x5 x6) with Ret a, Ret b => beq a b | _, _ => false end);
   (let C := test_container in match (Ret (bs "011 15 8765-4321")), (x7 <- (p <- (p <- (Ret phone0) ;; x <- (Ret (54)%Z) ;; Ret (set_cc p (Some x))) ;; x <- (Ret 91187654321%N) ;; Ret (set_nn p (Some x))) ;; x8 <- (Ret NATIONAL) ;; Format C x7 x8) with Ret a, Ret b => beq a b | _, _ => false end);
   (let C := test_container in match (Ret (bs "+54 9 11 8765 4321")), (x9 <- (p <- (p <- (Ret phone0) ;; x <- (Ret (54)%Z) ;; Ret (set_cc p (Some x))) ;; x <- (Ret 91187654321%N) ;; Ret (set_nn p (Some x))) ;; x10 <- (Ret INTERNATIONAL) ;; Format C x9 x10) with Ret a, Ret b => beq a b | _, _ => false end);
   (let C := test_container in match (Ret (bs "+5491187654321")), (x11 <- (p <- (p <- (Ret phone0) ;; x <- (Ret (54)%Z) ;; Ret (set_cc p (Some x))) ;; x <- (Ret 91187654321%N) ;; Ret (set_nn p (Some x))) ;; x12 <- (Ret E164) ;; Format C x11 x12) with Ret a, Ret b => beq a b | _, _ => false end)].

Lemma TestFormatARNumber_ok : forallb (fun b => b) TestFormatARNumber = true.
Proof. vm_cast_no_check (eq_refl true). Qed.

(* phonenumberutil_test.go: TestFormatMXNumber, 12 checks, 0 statements not translated *)
Definition TestFormatMXNumber : list bool :=
  [(let C := test_container in match (Ret (bs "045 234 567 8900")), (x1 <- (p <- (p <- (Ret phone0) ;; x <- (Ret (52)%Z) ;; Ret (set_cc p (Some x))) ;; x <- (Ret 12345678900%N) ;; Ret (set_nn p (Some x))) ;; x2 <- (Ret NATIONAL) ;; Format C x1 x2) with Ret a, Ret b => beq a b | _, _ => false end);
   (let C := test_container in match (Ret (bs "+52 1 234 567 8900")), (x3 <- (p <- (p <- (Ret phone0) ;; x <- (Ret (52)%Z) ;; Ret (set_cc p (Some x))) ;; x <- (Ret 12345678900%N) ;; Ret (set_nn p (Some x))) ;; x4 <- (Ret INTERNATIONAL) ;; Format C x3 x4) with Ret a, Ret b => beq a b | _, _ => false end);
   (let C := test_container in match (Ret (bs "+5212345678900")), (x5 <- (p <- (p <- (Ret phone0) ;; x <- (Ret (52)%Z) ;; Ret (set_cc p (Some x))) ;; x <- (Ret 12345678900%N) ;; Ret (set_nn p (Some x))) ;; x6 <- (Ret E164) ;; Format C x5 x6) with Ret a, Ret b => beq a b | _, _ => false end);
   (let C := test_container in match (Ret (bs "045 55 1234 5678")), (x7 <- (p <- (p <- (Ret phone0) ;; x <- (Ret (52)%Z) ;; Ret (set_cc p (Some x))) ;; x <- (Ret 15512345678%N) ;; Ret (set_nn p (Some x))) ;; x8 <- (Ret NATIONAL) ;; Format C x7 x8) with Ret a, Ret b => beq a b | _, _ => false end);
   (let C := test_container in match (Ret (bs "+52 1 55 1234 5678")), (x9 <- (p <- (p <- (Ret phone0) ;; x <- (Ret (52)%Z) ;; Ret (set_cc p (Some x))) ;; x <- (Ret 15512345678%N) ;; Ret (set_nn p (Some x))) ;; x10 <- (Ret INTERNATIONAL) ;; Format C x9 x10) with Ret a, Ret b => beq a b | _, _ => false end);
   (let C := test_container in match (Ret (bs "+5215512345678")), (x11 <- (p <- (p <- (Ret phone0) ;; x <- (Ret (52)%Z) ;; Ret (set_cc p (Some x))) ;; x <- (Ret 15512345678%N) ;; Ret (set_nn p (Some x))) ;; x12 <- (Ret E164) ;; Format C x11 x12) with Ret a, Ret b => beq a b | _, _ => false end);
   (let C := test_container in match (Ret (bs "01 33 1234 5678")), (x13 <- (p <- (p <- (Ret phone0) ;; x <- (Ret (52)%Z) ;; Ret (set_cc p (Some x))) ;; x <- (Ret 3312345678%N) ;; Ret (set_nn p (Some x))) ;; x14 <- (Ret NATIONAL) ;; Format C x13 x14) with Ret a, Ret b => beq a b | _, _ => false end);
   (let C := test_container in match (Ret (bs "+52 33 1234 5678")), (x15 <- (p <- (p <- (Ret phone0) ;; x <- (Ret (52)%Z) ;; Ret (set_cc p (Some x))) ;; x <- (Ret 3312345678%N) ;; Ret (set_nn p (Some x))) ;; x16 <- (Ret INTERNATIONAL) ;; Format C x15 x16) with Ret a, Ret b => beq a b | _, _ => false end);
   (let C := test_container in match (Ret (bs "+523312345678")), (x17 <- (p <- (p <- (Ret phone0) ;; x <- (Ret (52)%Z) ;; Ret (set_cc p (Some x))) ;; x <- (Ret 3312345678%N) ;; Ret (set_nn p (Some x))) ;; x18 <- (Ret E164) ;; Format C x17 x18) with Ret a, Ret b => beq a b | _, _ => false end);
   (let C := test_container in match (Ret (bs "01 821 123 4567")), (x19 <- (p <- (p <- (Ret phone0) ;; x <- (Ret (52)%Z) ;; Ret (set_cc p (Some x))) ;; x <- (Ret 8211234567%N) ;; Ret (set_nn p (Some x))) ;; x20 <- (Ret NATIONAL) ;; Format C x19 x20) with Ret a, Ret b => beq a b | _, _ => false end);
   (let C := test_container in match (Ret (bs "+52 821 123 4567")), (x21 <- (p <- (p <- (Ret phone0) ;; x <- (Ret (52)%Z) ;; Ret (set_cc p (Some x))) ;; x <- (Ret 8211234567%N) ;; Ret (set_nn p (Some x))) ;; x22 <- (Ret INTERNATIONAL) ;; Format C x21 x22) with Ret a, Ret b => beq a b | _, _ => false end);
   (let C := test_container in match (Ret (bs "+528211234567")), (x23 <- (p <- (p <- (Ret phone0) ;; x <- (Ret (52)%Z) ;; Ret (set_cc p (Some x))) ;; x <- (Ret 8211234567%N) ;; Ret (set_nn p (Some x))) ;; x24 <- (Ret E164) ;; Format C x23 x24) with Ret a, Ret b => beq a b | _, _ => false end)].

Lemma TestFormatMXNumber_ok : forallb (fun b => b) TestFormatMXNumber = true.
Proof. vm_cast_no_check (eq_refl true). Qed.

(* phonenumberutil_test.go: TestFormatOutOfCountryCallingNumber, 15 checks, 0 statements not translated *)
Definition TestFormatOutOfCountryCallingNumber : list bool :=
  [(let C := test_container in match (Ret (bs "00 1 900 253 0000")), (x1 <- (p <- (p <- (Ret phone0) ;; x <- (Ret (1)%Z) ;; Ret (set_cc p (Some x))) ;; x <- (Ret 9002530000%N) ;; Ret (set_nn p (Some x))) ;; x2 <- (Ret (bs "DE")) ;; FormatOutOfCountryCallingNumber C x1 x2) with Ret a, Ret b => beq a b | _, _ => false end);
   (let C := test_container in match (Ret (bs "1 650 253 0000")), (x3 <- (p <- (p <- (Ret phone0) ;; x <- (Ret (1)%Z) ;; Ret (set_cc p (Some x))) ;; x <- (Ret 6502530000%N) ;; Ret (set_nn p (Some x))) ;; x4 <- (Ret (bs "BS")) ;; FormatOutOfCountryCallingNumber C x3 x4) with Ret a, Ret b => beq a b | _, _ => false end);
   (let C := test_container in match (Ret (bs "00 1 650 253 0000")), (x5 <- (p <- (p <- (Ret phone0) ;; x <- (Ret (1)%Z) ;; Ret (set_cc p (Some x))) ;; x <- (Ret 6502530000%N) ;; Ret (set_nn p (Some x))) ;; x6 <- (Ret (bs "PL")) ;; FormatOutOfCountryCallingNumber C x5 x6) with Ret a, Ret b => beq a b | _, _ => false end);
   (let C := test_container in match (Ret (bs "011 44 7912 345 678")), (x7 <- (p <- (p <- (Ret phone0) ;; x <- (Ret (44)%Z) ;; Ret (set_cc p (Some x))) ;; x <- (Ret 7912345678%N) ;; Ret (set_nn p (Some x))) ;; x8 <- (Ret (bs "US")) ;; FormatOutOfCountryCallingNumber C x7 x8) with Ret a, Ret b => beq a b | _, _ => false end);
   (let C := test_container in match (Ret (bs "00 49 1234")), (x9 <- (p <- (p <- (Ret phone0) ;; x <- (Ret (49)%Z) ;; Ret (set_cc p (Some x))) ;; x <- (Ret 1234%N) ;; Ret (set_nn p (Some x))) ;; x10 <- (Ret (bs "GB")) ;; FormatOutOfCountryCallingNumber C x9 x10) with Ret a, Ret b => beq a b | _, _ => false end);
   (let C := test_container in match (Ret (bs "1234")), (x11 <- (p <- (p <- (Ret phone0) ;; x <- (Ret (49)%Z) ;; Ret (set_cc p (Some x))) ;; x <- (Ret 1234%N) ;; Ret (set_nn p (Some x))) ;; x12 <- (Ret (bs "DE")) ;; FormatOutOfCountryCallingNumber C x11 x12) with Ret a, Ret b => beq a b | _, _ => false end);
   (let C := test_container in match (Ret (bs "011 39 02 3661 8300")), (x13 <- (p <- (p <- (p <- (Ret phone0) ;; x <- (Ret (39)%Z) ;; Ret (set_cc p (Some x))) ;; x <- (Ret 236618300%N) ;; Ret (set_nn p (Some x))) ;; x <- (Ret true) ;; Ret (set_ilz p (Some x))) ;; x14 <- (Ret (bs "US")) ;; FormatOutOfCountryCallingNumber C x13 x14) with Ret a, Ret b => beq a b | _, _ => false end);
   (let C := test_container in match (Ret (bs "02 3661 8300")), (x15 <- (p <- (p <- (p <- (Ret phone0) ;; x <- (Ret (39)%Z) ;; Ret (set_cc p (Some x))) ;; x <- (Ret 236618300%N) ;; Ret (set_nn p (Some x))) ;; x <- (Ret true) ;; Ret (set_ilz p (Some x))) ;; x16 <- (Ret (bs "IT")) ;; FormatOutOfCountryCallingNumber C x15 x16) with Ret a, Ret b => beq a b | _, _ => false end);
   (let C := test_container in match (Ret (bs "+39 02 3661 8300")), (x17 <- (p <- (p <- (p <- (Ret phone0) ;; x <- (Ret (39)%Z) ;; Ret (set_cc p (Some x))) ;; x <- (Ret 236618300%N) ;; Ret (set_nn p (Some x))) ;; x <- (Ret true) ;; Ret (set_ilz p (Some x))) ;; x18 <- (Ret (bs "SG")) ;; FormatOutOfCountryCallingNumber C x17 x18) with Ret a, Ret b => beq a b | _, _ => false end);
   (let C := test_container in match (Ret (bs "6521 8000")), (x19 <- (p <- (p <- (Ret phone0) ;; x <- (Ret (65)%Z) ;; Ret (set_cc p (Some x))) ;; x <- (Ret 65218000%N) ;; Ret (set_nn p (Some x))) ;; x20 <- (Ret (bs "SG")) ;; FormatOutOfCountryCallingNumber C x19 x20) with Ret a, Ret b => beq a b | _, _ => false end);
   (let C := test_container in match (Ret (bs "011 54 9 11 8765 4321")), (x21 <- (p <- (p <- (Ret phone0) ;; x <- (Ret (54)%Z) ;; Ret (set_cc p (Some x))) ;; x <- (Ret 91187654321%N) ;; Ret (set_nn p (Some x))) ;; x22 <- (Ret (bs "US")) ;; FormatOutOfCountryCallingNumber C x21 x22) with Ret a, Ret b => beq a b | _, _ => false end);
   (let C := test_container in match (Ret (bs "011 800 1234 5678")), (x23 <- (p <- (p <- (Ret phone0) ;; x <- (Ret (800)%Z) ;; Ret (set_cc p (Some x))) ;; x <- (Ret 12345678%N) ;; Ret (set_nn p (Some x))) ;; x24 <- (Ret (bs "US")) ;; FormatOutOfCountryCallingNumber C x23 x24) with Ret a, Ret b => beq a b | _, _ => false end);
   (let C := test_container in match (Ret (bs "011 54 9 11 8765 4321 ext. 1234")), (x25 <- (p <- (p <- (p <- (Ret phone0) ;; x <- (Ret (54)%Z) ;; Ret (set_cc p (Some x))) ;; x <- (Ret 91187654321%N) ;; Ret (set_nn p (Some x))) ;; x <- (Ret (bs "1234")) ;; Ret (set_ext p (Some x))) ;; x26 <- (Ret (bs "US")) ;; FormatOutOfCountryCallingNumber C x25 x26) with Ret a, Ret b => beq a b | _, _ => false end);
   (let C := test_container in match (Ret (bs "0011 54 9 11 8765 4321 ext. 1234")), (x27 <- (p <- (p <- (p <- (Ret phone0) ;; x <- (Ret (54)%Z) ;; Ret (set_cc p (Some x))) ;; x <- (Ret 91187654321%N) ;; Ret (set_nn p (Some x))) ;; x <- (Ret (bs "1234")) ;; Ret (set_ext p (Some x))) ;; x28 <- (Ret (bs "AU")) ;; FormatOutOfCountryCallingNumber C x27 x28) with Ret a, Ret b => beq a b | _, _ => false end);
   (let C := test_container in match (Ret (bs "011 15 8765-4321 ext. 1234")), (x29 <- (p <- (p <- (p <- (Ret phone0) ;; x <- (Ret (54)%Z) ;; Ret (set_cc p (Some x))) ;; x <- (Ret 91187654321%N) ;; Ret (set_nn p (Some x))) ;; x <- (Ret (bs "1234")) ;; Ret (set_ext p (Some x))) ;; x30 <- (Ret (bs "AR")) ;; FormatOutOfCountryCallingNumber C x29 x30) with Ret a, Ret b => beq a b | _, _ => false end)].

Lemma TestFormatOutOfCountryCallingNumber_ok : forallb (fun b => b) TestFormatOutOfCountryCallingNumber = true.
Proof. vm_cast_no_check (eq_refl true). Qed.

(* phonenumberutil_test.go: TestFormatOutOfCountryWithInvalidRegion, 2 checks, 0 statements not translated *)
Definition TestFormatOutOfCountryWithInvalidRegion : list bool :=
  [(let C := test_container in match (Ret (bs "+1 650 253 0000")), (x1 <- (p <- (p <- (Ret phone0) ;; x <- (Ret (1)%Z) ;; Ret (set_cc p (Some x))) ;; x <- (Ret 6502530000%N) ;; Ret (set_nn p (Some x))) ;; x2 <- (Ret (bs "AQ")) ;; FormatOutOfCountryCallingNumber C x1 x2) with Ret a, Ret b => beq a b | _, _ => false end);
   (let C := test_container in match (Ret (bs "+1 650 253 0000")), (x3 <- (p <- (p <- (Ret phone0) ;; x <- (Ret (1)%Z) ;; Ret (set_cc p (Some x))) ;; x <- (Ret 6502530000%N) ;; Ret (set_nn p (Some x))) ;; x4 <- (Ret (bs "001")) ;; FormatOutOfCountryCallingNumber C x3 x4) with Ret a, Ret b => beq a b | _, _ => false end)].

Lemma TestFormatOutOfCountryWithInvalidRegion_ok : forallb (fun b => b) TestFormatOutOfCountryWithInvalidRegion = true.
Proof. vm_cast_no_check (eq_refl true). Qed.

(* phonenumberutil_test.go: TestFormatOutOfCountryWithPreferredIntlPrefix, 2 checks, 0 statements not translated *)
Definition TestFormatOutOfCountryWithPreferredIntlPrefix : list bool :=
  [(let C := test_container in match (Ret (bs "0011 39 02 3661 8300")), (x1 <- (p <- (p <- (p <- (Ret phone0) ;; x <- (Ret (39)%Z) ;; Ret (set_cc p (Some x))) ;; x <- (Ret 236618300%N) ;; Ret (set_nn p (Some x))) ;; x <- (Ret true) ;; Ret (set_ilz p (Some x))) ;; x2 <- (Ret (bs "AU")) ;; FormatOutOfCountryCallingNumber C x1 x2) with Ret a, Ret b => beq a b | _, _ => false end);
   (let C := test_container in match (Ret (bs "8~10 39 02 3661 8300")), (x3 <- (p <- (p <- (p <- (Ret phone0) ;; x <- (Ret (39)%Z) ;; Ret (set_cc p (Some x))) ;; x <- (Ret 236618300%N) ;; Ret (set_nn p (Some x))) ;; x <- (Ret true) ;; Ret (set_ilz p (Some x))) ;; x4 <- (Ret (bs "UZ")) ;; FormatOutOfCountryCallingNumber C x3 x4) with Ret a, Ret b => beq a b | _, _ => false end)].

Lemma TestFormatOutOfCountryWithPreferredIntlPrefix_ok : forallb (fun b => b) TestFormatOutOfCountryWithPreferredIntlPrefix = true.
Proof. vm_cast_no_check (eq_refl true). Qed.

(* phonenumberutil_test.go: TestFormatOutOfCountryKeepingAlphaChars, 17 checks, 0 statements not translated *)
Definition TestFormatOutOfCountryKeepingAlphaChars : list bool :=
  [(let C := test_container in match (Ret (bs "0011 1 800 SIX-FLAG")), (x1 <- (p <- (p <- (p <- (Ret phone0) ;; x <- (Ret (1)%Z) ;; Ret (set_cc p (Some x))) ;; x <- (Ret 8007493524%N) ;; Ret (set_nn p (Some x))) ;; x <- (Ret (bs "1800 six-flag")) ;; Ret (set_raw p (Some x))) ;; x2 <- (Ret (bs "AU")) ;; FormatOutOfCountryKeepingAlphaChars C x1 x2) with Ret a, Ret b => beq a b | _, _ => false end);
   (let C := test_container in match (Ret (bs "0011 1 800-SIX-FLAG")), (x3 <- (p <- (p <- (p <- (p <- (Ret phone0) ;; x <- (Ret (1)%Z) ;; Ret (set_cc p (Some x))) ;; x <- (Ret 8007493524%N) ;; Ret (set_nn p (Some x))) ;; x <- (Ret (bs "1800 six-flag")) ;; Ret (set_raw p (Some x))) ;; x <- (Ret (bs "1-800-SIX-flag")) ;; Ret (set_raw p (Some x))) ;; x4 <- (Ret (bs "AU")) ;; FormatOutOfCountryKeepingAlphaChars C x3 x4) with Ret a, Ret b => beq a b | _, _ => false end);
   (let C := test_container in match (Ret (bs "0011 1 800 SIX-FLAG")), (x5 <- (p <- (p <- (p <- (p <- (p <- (Ret phone0) ;; x <- (Ret (1)%Z) ;; Ret (set_cc p (Some x))) ;; x <- (Ret 8007493524%N) ;; Ret (set_nn p (Some x))) ;; x <- (Ret (bs "1800 six-flag")) ;; Ret (set_raw p (Some x))) ;; x <- (Ret (bs "1-800-SIX-flag")) ;; Ret (set_raw p (Some x))) ;; x <- (Ret (bs "Call us from UK: 00 1 800 SIX-flag")) ;; Ret (set_raw p (Some x))) ;; x6 <- (Ret (bs "AU")) ;; FormatOutOfCountryKeepingAlphaChars C x5 x6) with Ret a, Ret b => beq a b | _, _ => false end);
   (let C := test_container in match (Ret (bs "0011 1 800 SIX-FLAG")), (x7 <- (p <- (p <- (p <- (p <- (p <- (p <- (Ret phone0) ;; x <- (Ret (1)%Z) ;; Ret (set_cc p (Some x))) ;; x <- (Ret 8007493524%N) ;; Ret (set_nn p (Some x))) ;; x <- (Ret (bs "1800 six-flag")) ;; Ret (set_raw p (Some x))) ;; x <- (Ret (bs "1-800-SIX-flag")) ;; Ret (set_raw p (Some x))) ;; x <- (Ret (bs "Call us from UK: 00 1 800 SIX-flag")) ;; Ret (set_raw p (Some x))) ;; x <- (Ret (bs "800 SIX-flag")) ;; Ret (set_raw p (Some x))) ;; x8 <- (Ret (bs "AU")) ;; FormatOutOfCountryKeepingAlphaChars C x7 x8) with Ret a, Ret b => beq a b | _, _ => false end);
   (let C := test_container in match (Ret (bs "1 800 SIX-FLAG")), (x9 <- (p <- (p <- (p <- (p <- (p <- (p <- (Ret phone0) ;; x <- (Ret (1)%Z) ;; Ret (set_cc p (Some x))) ;; x <- (Ret 8007493524%N) ;; Ret (set_nn p (Some x))) ;; x <- (Ret (bs "1800 six-flag")) ;; Ret (set_raw p (Some x))) ;; x <- (Ret (bs "1-800-SIX-flag")) ;; Ret (set_raw p (Some x))) ;; x <- (Ret (bs "Call us from UK: 00 1 800 SIX-flag")) ;; Ret (set_raw p (Some x))) ;; x <- (Ret (bs "800 SIX-flag")) ;; Ret (set_raw p (Some x))) ;; x10 <- (Ret (bs "US")) ;; FormatOutOfCountryKeepingAlphaChars C x9 x10) with Ret a, Ret b => beq a b | _, _ => false end);
   (let C := test_container in match (Ret (bs "1 800 SIX-FLAG")), (x11 <- (p <- (p <- (p <- (p <- (p <- (p <- (Ret phone0) ;; x <- (Ret (1)%Z) ;; Ret (set_cc p (Some x))) ;; x <- (Ret 8007493524%N) ;; Ret (set_nn p (Some x))) ;; x <- (Ret (bs "1800 six-flag")) ;; Ret (set_raw p (Some x))) ;; x <- (Ret (bs "1-800-SIX-flag")) ;; Ret (set_raw p (Some x))) ;; x <- (Ret (bs "Call us from UK: 00 1 800 SIX-flag")) ;; Ret (set_raw p (Some x))) ;; x <- (Ret (bs "800 SIX-flag")) ;; Ret (set_raw p (Some x))) ;; x12 <- (Ret (bs "BS")) ;; FormatOutOfCountryKeepingAlphaChars C x11 x12) with Ret a, Ret b => beq a b | _, _ => false end);
   (let C := test_container in match (Ret (bs "0011 1 800 SIX-FLAG extn. 1234")), (x15 <- (x <- (x13 <- (Ret (bs "800 SIX-flag ext. 1234")) ;; x14 <- (Ret (bs "US")) ;; ParseAndKeepRawInput C x13 x14) ;; Ret (fst x)) ;; x16 <- (Ret (bs "AU")) ;; FormatOutOfCountryKeepingAlphaChars C x15 x16) with Ret a, Ret b => beq a b | _, _ => false end);
   (let C := test_container in match (Ret (bs "00 1 800 749 3524")), (x17 <- (p <- (p <- (p <- (p <- (p <- (p <- (p <- (Ret phone0) ;; x <- (Ret (1)%Z) ;; Ret (set_cc p (Some x))) ;; x <- (Ret 8007493524%N) ;; Ret (set_nn p (Some x))) ;; x <- (Ret (bs "1800 six-flag")) ;; Ret (set_raw p (Some x))) ;; x <- (Ret (bs "1-800-SIX-flag")) ;; Ret (set_raw p (Some x))) ;; x <- (Ret (bs "Call us from UK: 00 1 800 SIX-flag")) ;; Ret (set_raw p (Some x))) ;; x <- (Ret (bs "800 SIX-flag")) ;; Ret (set_raw p (Some x))) ;; Ret (set_raw p None)) ;; x18 <- (Ret (bs "DE")) ;; FormatOutOfCountryKeepingAlphaChars C x17 x18) with Ret a, Ret b => beq a b | _, _ => false end);
   (let C := test_container in match (Ret (bs "082749-FLAG")), (x19 <- (p <- (p <- (p <- (p <- (p <- (p <- (p <- (p <- (p <- (p <- (Ret phone0) ;; x <- (Ret (1)%Z) ;; Ret (set_cc p (Some x))) ;; x <- (Ret 8007493524%N) ;; Ret (set_nn p (Some x))) ;; x <- (Ret (bs "1800 six-flag")) ;; Ret (set_raw p (Some x))) ;; x <- (Ret (bs "1-800-SIX-flag")) ;; Ret (set_raw p (Some x))) ;; x <- (Ret (bs "Call us from UK: 00 1 800 SIX-flag")) ;; Ret (set_raw p (Some x))) ;; x <- (Ret (bs "800 SIX-flag")) ;; Ret (set_raw p (Some x))) ;; Ret (set_raw p None)) ;; x <- (Ret (61)%Z) ;; Ret (set_cc p (Some x))) ;; x <- (Ret 827493524%N) ;; Ret (set_nn p (Some x))) ;; x <- (Ret (bs "+61 82749-FLAG")) ;; Ret (set_raw p (Some x))) ;; x20 <- (Ret (bs "AU")) ;; FormatOutOfCountryKeepingAlphaChars C x19 x20) with Ret a, Ret b => beq a b | _, _ => false end);
   (let C := test_container in match (Ret (bs "082749-FLAG")), (x21 <- (p <- (p <- (p <- (p <- (p <- (p <- (p <- (p <- (p <- (p <- (p <- (Ret phone0) ;; x <- (Ret (1)%Z) ;; Ret (set_cc p (Some x))) ;; x <- (Ret 8007493524%N) ;; Ret (set_nn p (Some x))) ;; x <- (Ret (bs "1800 six-flag")) ;; Ret (set_raw p (Some x))) ;; x <- (Ret (bs "1-800-SIX-flag")) ;; Ret (set_raw p (Some x))) ;; x <- (Ret (bs "Call us from UK: 00 1 800 SIX-flag")) ;; Ret (set_raw p (Some x))) ;; x <- (Ret (bs "800 SIX-flag")) ;; Ret (set_raw p (Some x))) ;; Ret (set_raw p None)) ;; x <- (Ret (61)%Z) ;; Ret (set_cc p (Some x))) ;; x <- (Ret 827493524%N) ;; Ret (set_nn p (Some x))) ;; x <- (Ret (bs "+61 82749-FLAG")) ;; Ret (set_raw p (Some x))) ;; x <- (Ret (bs "082749-FLAG")) ;; Ret (set_raw p (Some x))) ;; x22 <- (Ret (bs "AU")) ;; FormatOutOfCountryKeepingAlphaChars C x21 x22) with Ret a, Ret b => beq a b | _, _ => false end);
   (let C := test_container in match (Ret (bs "1-800-SIX-FLAG")), (x23 <- (p <- (p <- (p <- (p <- (p <- (p <- (p <- (p <- (p <- (p <- (p <- (p <- (p <- (Ret phone0) ;; x <- (Ret (1)%Z) ;; Ret (set_cc p (Some x))) ;; x <- (Ret 8007493524%N) ;; Ret (set_nn p (Some x))) ;; x <- (Ret (bs "1800 six-flag")) ;; Ret (set_raw p (Some x))) ;; x <- (Ret (bs "1-800-SIX-flag")) ;; Ret (set_raw p (Some x))) ;; x <- (Ret (bs "Call us from UK: 00 1 800 SIX-flag")) ;; Ret (set_raw p (Some x))) ;; x <- (Ret (bs "800 SIX-flag")) ;; Ret (set_raw p (Some x))) ;; Ret (set_raw p None)) ;; x <- (Ret (61)%Z) ;; Ret (set_cc p (Some x))) ;; x <- (Ret 827493524%N) ;; Ret (set_nn p (Some x))) ;; x <- (Ret (bs "+61 82749-FLAG")) ;; Ret (set_raw p (Some x))) ;; x <- (Ret (bs "082749-FLAG")) ;; Ret (set_raw p (Some x))) ;; x <- (Ret 18007493524%N) ;; Ret (set_nn p (Some x))) ;; x <- (Ret (bs "1-800-SIX-flag")) ;; Ret (set_raw p (Some x))) ;; x24 <- (Ret (bs "AU")) ;; FormatOutOfCountryKeepingAlphaChars C x23 x24) with Ret a, Ret b => beq a b | _, _ => false end);
   (let C := test_container in match (Ret (bs "1800 749 352")), (x25 <- (p <- (p <- (p <- (p <- (p <- (p <- (p <- (p <- (p <- (p <- (p <- (p <- (p <- (p <- (Ret phone0) ;; x <- (Ret (1)%Z) ;; Ret (set_cc p (Some x))) ;; x <- (Ret 8007493524%N) ;; Ret (set_nn p (Some x))) ;; x <- (Ret (bs "1800 six-flag")) ;; Ret (set_raw p (Some x))) ;; x <- (Ret (bs "1-800-SIX-flag")) ;; Ret (set_raw p (Some x))) ;; x <- (Ret (bs "Call us from UK: 00 1 800 SIX-flag")) ;; Ret (set_raw p (Some x))) ;; x <- (Ret (bs "800 SIX-flag")) ;; Ret (set_raw p (Some x))) ;; Ret (set_raw p None)) ;; x <- (Ret (61)%Z) ;; Ret (set_cc p (Some x))) ;; x <- (Ret 827493524%N) ;; Ret (set_nn p (Some x))) ;; x <- (Ret (bs "+61 82749-FLAG")) ;; Ret (set_raw p (Some x))) ;; x <- (Ret (bs "082749-FLAG")) ;; Ret (set_raw p (Some x))) ;; x <- (Ret 18007493524%N) ;; Ret (set_nn p (Some x))) ;; x <- (Ret (bs "1-800-SIX-flag")) ;; Ret (set_raw p (Some x))) ;; x <- (Ret 1800749352%N) ;; Ret (set_nn p (Some x))) ;; x26 <- (Ret (bs "AU")) ;; FormatOutOfCountryCallingNumber C x25 x26) with Ret a, Ret b => beq a b | _, _ => false end);
   (let C := test_container in match (Ret (bs "+61 1-800-SIX-FLAG")), (x27 <- (p <- (p <- (p <- (p <- (p <- (p <- (p <- (p <- (p <- (p <- (p <- (p <- (p <- (p <- (Ret phone0) ;; x <- (Ret (1)%Z) ;; Ret (set_cc p (Some x))) ;; x <- (Ret 8007493524%N) ;; Ret (set_nn p (Some x))) ;; x <- (Ret (bs "1800 six-flag")) ;; Ret (set_raw p (Some x))) ;; x <- (Ret (bs "1-800-SIX-flag")) ;; Ret (set_raw p (Some x))) ;; x <- (Ret (bs "Call us from UK: 00 1 800 SIX-flag")) ;; Ret (set_raw p (Some x))) ;; x <- (Ret (bs "800 SIX-flag")) ;; Ret (set_raw p (Some x))) ;; Ret (set_raw p None)) ;; x <- (Ret (61)%Z) ;; Ret (set_cc p (Some x))) ;; x <- (Ret 827493524%N) ;; Ret (set_nn p (Some x))) ;; x <- (Ret (bs "+61 82749-FLAG")) ;; Ret (set_raw p (Some x))) ;; x <- (Ret (bs "082749-FLAG")) ;; Ret (set_raw p (Some x))) ;; x <- (Ret 18007493524%N) ;; Ret (set_nn p (Some x))) ;; x <- (Ret (bs "1-800-SIX-flag")) ;; Ret (set_raw p (Some x))) ;; x <- (Ret 1800749352%N) ;; Ret (set_nn p (Some x))) ;; x28 <- (Ret (bs "SG")) ;; FormatOutOfCountryKeepingAlphaChars C x27 x28) with Ret a, Ret b => beq a b | _, _ => false end);
   (let C := test_container in match (Ret (bs "+61 1-800-SIX-FLAG")), (x29 <- (p <- (p <- (p <- (p <- (p <- (p <- (p <- (p <- (p <- (p <- (p <- (p <- (p <- (p <- (Ret phone0) ;; x <- (Ret (1)%Z) ;; Ret (set_cc p (Some x))) ;; x <- (Ret 8007493524%N) ;; Ret (set_nn p (Some x))) ;; x <- (Ret (bs "1800 six-flag")) ;; Ret (set_raw p (Some x))) ;; x <- (Ret (bs "1-800-SIX-flag")) ;; Ret (set_raw p (Some x))) ;; x <- (Ret (bs "Call us from UK: 00 1 800 SIX-flag")) ;; Ret (set_raw p (Some x))) ;; x <- (Ret (bs "800 SIX-flag")) ;; Ret (set_raw p (Some x))) ;; Ret (set_raw p None)) ;; x <- (Ret (61)%Z) ;; Ret (set_cc p (Some x))) ;; x <- (Ret 827493524%N) ;; Ret (set_nn p (Some x))) ;; x <- (Ret (bs "+61 82749-FLAG")) ;; Ret (set_raw p (Some x))) ;; x <- (Ret (bs "082749-FLAG")) ;; Ret (set_raw p (Some x))) ;; x <- (Ret 18007493524%N) ;; Ret (set_nn p (Some x))) ;; x <- (Ret (bs "1-800-SIX-flag")) ;; Ret (set_raw p (Some x))) ;; x <- (Ret 1800749352%N) ;; Ret (set_nn p (Some x))) ;; x30 <- (Ret (bs "AQ")) ;; FormatOutOfCountryKeepingAlphaChars C x29 x30) with Ret a, Ret b => beq a b | _, _ => false end);
   (let C := test_container in match (Ret (bs "1-800-SIX-flag")), (x31 <- (p <- (p <- (p <- (p <- (p <- (p <- (p <- (p <- (p <- (p <- (p <- (p <- (p <- (p <- (p <- (p <- (p <- (Ret phone0) ;; x <- (Ret (1)%Z) ;; Ret (set_cc p (Some x))) ;; x <- (Ret 8007493524%N) ;; Ret (set_nn p (Some x))) ;; x <- (Ret (bs "1800 six-flag")) ;; Ret (set_raw p (Some x))) ;; x <- (Ret (bs "1-800-SIX-flag")) ;; Ret (set_raw p (Some x))) ;; x <- (Ret (bs "Call us from UK: 00 1 800 SIX-flag")) ;; Ret (set_raw p (Some x))) ;; x <- (Ret (bs "800 SIX-flag")) ;; Ret (set_raw p (Some x))) ;; Ret (set_raw p None)) ;; x <- (Ret (61)%Z) ;; Ret (set_cc p (Some x))) ;; x <- (Ret 827493524%N) ;; Ret (set_nn p (Some x))) ;; x <- (Ret (bs "+61 82749-FLAG")) ;; Ret (set_raw p (Some x))) ;; x <- (Ret (bs "082749-FLAG")) ;; Ret (set_raw p (Some x))) ;; x <- (Ret 18007493524%N) ;; Ret (set_nn p (Some x))) ;; x <- (Ret (bs "1-800-SIX-flag")) ;; Ret (set_raw p (Some x))) ;; x <- (Ret 1800749352%N) ;; Ret (set_nn p (Some x))) ;; x <- (Ret (0)%Z) ;; Ret (set_cc p (Some x))) ;; x <- (Ret 18007493524%N) ;; Ret (set_nn p (Some x))) ;; x <- (Ret (bs "1-800-SIX-flag")) ;; Ret (set_raw p (Some x))) ;; x32 <- (Ret (bs "DE")) ;; FormatOutOfCountryKeepingAlphaChars C x31 x32) with Ret a, Ret b => beq a b | _, _ => false end);
   (let C := test_container in match (Ret (bs "00 1 180-SIX")), (x33 <- (p <- (p <- (p <- (p <- (p <- (p <- (p <- (p <- (p <- (p <- (p <- (p <- (p <- (p <- (p <- (p <- (p <- (p <- (p <- (p <- (Ret phone0) ;; x <- (Ret (1)%Z) ;; Ret (set_cc p (Some x))) ;; x <- (Ret 8007493524%N) ;; Ret (set_nn p (Some x))) ;; x <- (Ret (bs "1800 six-flag")) ;; Ret (set_raw p (Some x))) ;; x <- (Ret (bs "1-800-SIX-flag")) ;; Ret (set_raw p (Some x))) ;; x <- (Ret (bs "Call us from UK: 00 1 800 SIX-flag")) ;; Ret (set_raw p (Some x))) ;; x <- (Ret (bs "800 SIX-flag")) ;; Ret (set_raw p (Some x))) ;; Ret (set_raw p None)) ;; x <- (Ret (61)%Z) ;; Ret (set_cc p (Some x))) ;; x <- (Ret 827493524%N) ;; Ret (set_nn p (Some x))) ;; x <- (Ret (bs "+61 82749-FLAG")) ;; Ret (set_raw p (Some x))) ;; x <- (Ret (bs "082749-FLAG")) ;; Ret (set_raw p (Some x))) ;; x <- (Ret 18007493524%N) ;; Ret (set_nn p (Some x))) ;; x <- (Ret (bs "1-800-SIX-flag")) ;; Ret (set_raw p (Some x))) ;; x <- (Ret 1800749352%N) ;; Ret (set_nn p (Some x))) ;; x <- (Ret (0)%Z) ;; Ret (set_cc p (Some x))) ;; x <- (Ret 18007493524%N) ;; Ret (set_nn p (Some x))) ;; x <- (Ret (bs "1-800-SIX-flag")) ;; Ret (set_raw p (Some x))) ;; x <- (Ret (1)%Z) ;; Ret (set_cc p (Some x))) ;; x <- (Ret 80749%N) ;; Ret (set_nn p (Some x))) ;; x <- (Ret (bs "180-SIX")) ;; Ret (set_raw p (Some x))) ;; x34 <- (Ret (bs "DE")) ;; FormatOutOfCountryKeepingAlphaChars C x33 x34) with Ret a, Ret b => beq a b | _, _ => false end);
   (let C := test_container in match (Ret (bs "+1 180-SIX")), (x35 <- (p <- (p <- (p <- (p <- (p <- (p <- (p <- (p <- (p <- (p <- (p <- (p <- (p <- (p <- (p <- (p <- (p <- (p <- (p <- (p <- (p <- (p <- (p <- (Ret phone0) ;; x <- (Ret (1)%Z) ;; Ret (set_cc p (Some x))) ;; x <- (Ret 8007493524%N) ;; Ret (set_nn p (Some x))) ;; x <- (Ret (bs "1800 six-flag")) ;; Ret (set_raw p (Some x))) ;; x <- (Ret (bs "1-800-SIX-flag")) ;; Ret (set_raw p (Some x))) ;; x <- (Ret (bs "Call us from UK: 00 1 800 SIX-flag")) ;; Ret (set_raw p (Some x))) ;; x <- (Ret (bs "800 SIX-flag")) ;; Ret (set_raw p (Some x))) ;; Ret (set_raw p None)) ;; x <- (Ret (61)%Z) ;; Ret (set_cc p (Some x))) ;; x <- (Ret 827493524%N) ;; Ret (set_nn p (Some x))) ;; x <- (Ret (bs "+61 82749-FLAG")) ;; Ret (set_raw p (Some x))) ;; x <- (Ret (bs "082749-FLAG")) ;; Ret (set_raw p (Some x))) ;; x <- (Ret 18007493524%N) ;; Ret (set_nn p (Some x))) ;; x <- (Ret (bs "1-800-SIX-flag")) ;; Ret (set_raw p (Some x))) ;; x <- (Ret 1800749352%N) ;; Ret (set_nn p (Some x))) ;; x <- (Ret (0)%Z) ;; Ret (set_cc p (Some x))) ;; x <- (Ret 18007493524%N) ;; Ret (set_nn p (Some x))) ;; x <- (Ret (bs "1-800-SIX-flag")) ;; Ret (set_raw p (Some x))) ;; x <- (Ret (1)%Z) ;; Ret (set_cc p (Some x))) ;; x <- (Ret 80749%N) ;; Ret (set_nn p (Some x))) ;; x <- (Ret (bs "180-SIX")) ;; Ret (set_raw p (Some x))) ;; x <- (Ret (1)%Z) ;; Ret (set_cc p (Some x))) ;; x <- (Ret 80749%N) ;; Ret (set_nn p (Some x))) ;; x <- (Ret (bs "180-SIX")) ;; Ret (set_raw p (Some x))) ;; x36 <- (Ret (bs "AQ")) ;; FormatOutOfCountryKeepingAlphaChars C x35 x36) with Ret a, Ret b => beq a b | _, _ => false end)].

Lemma TestFormatOutOfCountryKeepingAlphaChars_ok : forallb (fun b => b) TestFormatOutOfCountryKeepingAlphaChars = true.
Proof. vm_cast_no_check (eq_refl true). Qed.

(* phonenumberutil_test.go: TestFormatWithCarrierCode, 6 checks, 0 statements not translated *)
Definition TestFormatWithCarrierCode : list bool :=
  [(let C := test_container in match (Ret (bs "02234 65-4321")), (x1 <- (p <- (p <- (Ret phone0) ;; x <- (Ret (54)%Z) ;; Ret (set_cc p (Some x))) ;; x <- (Ret 92234654321%N) ;; Ret (set_nn p (Some x))) ;; x2 <- (Ret NATIONAL) ;; Format C x1 x2) with Ret a, Ret b => beq a b | _, _ => false end);
   (let C := test_container in match (Ret (bs "02234 14 65-4321")), (x3 <- (p <- (p <- (Ret phone0) ;; x <- (Ret (54)%Z) ;; Ret (set_cc p (Some x))) ;; x <- (Ret 92234654321%N) ;; Ret (set_nn p (Some x))) ;; x4 <- (Ret (bs "14")) ;; FormatNationalNumberWithCarrierCode C x3 x4) with Ret a, Ret b => beq a b | _, _ => false end);
   (let C := test_container in match (Ret (bs "02234 65-4321")), (x5 <- (p <- (p <- (Ret phone0) ;; x <- (Ret (54)%Z) ;; Ret (set_cc p (Some x))) ;; x <- (Ret 92234654321%N) ;; Ret (set_nn p (Some x))) ;; x6 <- (Ret (bs "")) ;; FormatNationalNumberWithCarrierCode C x5 x6) with Ret a, Ret b => beq a b | _, _ => false end);
   (let C := test_container in match (Ret (bs "+5492234654321")), (x7 <- (p <- (p <- (Ret phone0) ;; x <- (Ret (54)%Z) ;; Ret (set_cc p (Some x))) ;; x <- (Ret 92234654321%N) ;; Ret (set_nn p (Some x))) ;; x8 <- (Ret E164) ;; Format C x7 x8) with Ret a, Ret b => beq a b | _, _ => false end);
   (let C := test_container in match (Ret (bs "650 253 0000")), (x9 <- (p <- (p <- (Ret phone0) ;; x <- (Ret (1)%Z) ;; Ret (set_cc p (Some x))) ;; x <- (Ret 6502530000%N) ;; Ret (set_nn p (Some x))) ;; x10 <- (Ret (bs "15")) ;; FormatNationalNumberWithCarrierCode C x9 x10) with Ret a, Ret b => beq a b | _, _ => false end);
   (let C := test_container in match (Ret (bs "12345")), (x11 <- (p <- (p <- (Ret phone0) ;; x <- (Ret (2)%Z) ;; Ret (set_cc p (Some x))) ;; x <- (Ret 12345%N) ;; Ret (set_nn p (Some x))) ;; x12 <- (Ret (bs "89")) ;; FormatNationalNumberWithCarrierCode C x11 x12) with Ret a, Ret b => beq a b | _, _ => false end)].

Lemma TestFormatWithCarrierCode_ok : forallb (fun b => b) TestFormatWithCarrierCode = true.
Proof. vm_cast_no_check (eq_refl true). Qed.

(* phonenumberutil_test.go: TestFormatWithPreferredCarrierCode, 9 checks, 0 statements not translated *)
Definition TestFormatWithPreferredCarrierCode : list bool :=
  [(let C := test_container in match (Ret (bs "01234 15 12-5678")), (x1 <- (p <- (p <- (Ret phone0) ;; x <- (Ret (54)%Z) ;; Ret (set_cc p (Some x))) ;; x <- (Ret 91234125678%N) ;; Ret (set_nn p (Some x))) ;; x2 <- (Ret (bs "15")) ;; FormatNationalNumberWithPreferredCarrierCode C x1 x2) with Ret a, Ret b => beq a b | _, _ => false end);
   (let C := test_container in match (Ret (bs "01234 12-5678")), (x3 <- (p <- (p <- (Ret phone0) ;; x <- (Ret (54)%Z) ;; Ret (set_cc p (Some x))) ;; x <- (Ret 91234125678%N) ;; Ret (set_nn p (Some x))) ;; x4 <- (Ret (bs "")) ;; FormatNationalNumberWithPreferredCarrierCode C x3 x4) with Ret a, Ret b => beq a b | _, _ => false end);
   (let C := test_container in match (Ret (bs "01234 12-5678")), (x5 <- (p <- (p <- (p <- (Ret phone0) ;; x <- (Ret (54)%Z) ;; Ret (set_cc p (Some x))) ;; x <- (Ret 91234125678%N) ;; Ret (set_nn p (Some x))) ;; x <- (Ret (bs "19")) ;; Ret (set_carrier p (Some x))) ;; x6 <- (Ret NATIONAL) ;; Format C x5 x6) with Ret a, Ret b => beq a b | _, _ => false end);
   (let C := test_container in match (Ret (bs "01234 19 12-5678")), (x7 <- (p <- (p <- (p <- (Ret phone0) ;; x <- (Ret (54)%Z) ;; Ret (set_cc p (Some x))) ;; x <- (Ret 91234125678%N) ;; Ret (set_nn p (Some x))) ;; x <- (Ret (bs "19")) ;; Ret (set_carrier p (Some x))) ;; x8 <- (Ret (bs "15")) ;; FormatNationalNumberWithPreferredCarrierCode C x7 x8) with Ret a, Ret b => beq a b | _, _ => false end);
   (let C := test_container in match (Ret (bs "01234 19 12-5678")), (x9 <- (p <- (p <- (p <- (Ret phone0) ;; x <- (Ret (54)%Z) ;; Ret (set_cc p (Some x))) ;; x <- (Ret 91234125678%N) ;; Ret (set_nn p (Some x))) ;; x <- (Ret (bs "19")) ;; Ret (set_carrier p (Some x))) ;; x10 <- (Ret (bs "")) ;; FormatNationalNumberWithPreferredCarrierCode C x9 x10) with Ret a, Ret b => beq a b | _, _ => false end);
   (let C := test_container in match (Ret (bs "01234   12-5678")), (x11 <- (p <- (p <- (p <- (p <- (Ret phone0) ;; x <- (Ret (54)%Z) ;; Ret (set_cc p (Some x))) ;; x <- (Ret 91234125678%N) ;; Ret (set_nn p (Some x))) ;; x <- (Ret (bs "19")) ;; Ret (set_carrier p (Some x))) ;; x <- (Ret (bs " ")) ;; Ret (set_carrier p (Some x))) ;; x12 <- (Ret (bs "15")) ;; FormatNationalNumberWithPreferredCarrierCode C x11 x12) with Ret a, Ret b => beq a b | _, _ => false end);
   (let C := test_container in match (Ret (bs "01234 15 12-5678")), (x13 <- (p <- (p <- (p <- (p <- (p <- (Ret phone0) ;; x <- (Ret (54)%Z) ;; Ret (set_cc p (Some x))) ;; x <- (Ret 91234125678%N) ;; Ret (set_nn p (Some x))) ;; x <- (Ret (bs "19")) ;; Ret (set_carrier p (Some x))) ;; x <- (Ret (bs " ")) ;; Ret (set_carrier p (Some x))) ;; x <- (Ret (bs "")) ;; Ret (set_carrier p (Some x))) ;; x14 <- (Ret (bs "15")) ;; FormatNationalNumberWithPreferredCarrierCode C x13 x14) with Ret a, Ret b => beq a b | _, _ => false end);
   (let C := test_container in match (Ret (bs "424 123 1234")), (x15 <- (p <- (p <- (p <- (Ret phone0) ;; x <- (Ret (1)%Z) ;; Ret (set_cc p (Some x))) ;; x <- (Ret 4241231234%N) ;; Ret (set_nn p (Some x))) ;; x <- (Ret (bs "99")) ;; Ret (set_carrier p (Some x))) ;; x16 <- (Ret NATIONAL) ;; Format C x15 x16) with Ret a, Ret b => beq a b | _, _ => false end);
   (let C := test_container in match (Ret (bs "424 123 1234")), (x17 <- (p <- (p <- (p <- (Ret phone0) ;; x <- (Ret (1)%Z) ;; Ret (set_cc p (Some x))) ;; x <- (Ret 4241231234%N) ;; Ret (set_nn p (Some x))) ;; x <- (Ret (bs "99")) ;; Ret (set_carrier p (Some x))) ;; x18 <- (Ret (bs "15")) ;; FormatNationalNumberWithPreferredCarrierCode C x17 x18) with Ret a, Ret b => beq a b | _, _ => false end)].

Lemma TestFormatWithPreferredCarrierCode_ok : forallb (fun b => b) TestFormatWithPreferredCarrierCode = true.
Proof. vm_cast_no_check (eq_refl true). Qed.

(* phonenumberutil_test.go: TestFormatNumberForMobileDialing, 38 checks, 0 statements not translated *)
Definition TestFormatNumberForMobileDialing : list bool :=
  [(let C := test_container in match (Ret (bs "6012345678")), (x1 <- (p <- (p <- (Ret phone0) ;; x <- (Ret (57)%Z) ;; Ret (set_cc p (Some x))) ;; x <- (Ret 6012345678%N) ;; Ret (set_nn p (Some x))) ;; x2 <- (Ret (bs "CO")) ;; x3 <- (Ret false) ;; FormatNumberForMobileDialing C x1 x2 x3) with Ret a, Ret b => beq a b | _, _ => false end);
   (let C := test_container in match (Ret (bs "030123456")), (x4 <- (p <- (p <- (Ret phone0) ;; x <- (Ret (49)%Z) ;; Ret (set_cc p (Some x))) ;; x <- (Ret 30123456%N) ;; Ret (set_nn p (Some x))) ;; x5 <- (Ret (bs "DE")) ;; x6 <- (Ret false) ;; FormatNumberForMobileDialing C x4 x5 x6) with Ret a, Ret b => beq a b | _, _ => false end);
   (let C := test_container in match (Ret (bs "+4930123456")), (x7 <- (p <- (p <- (Ret phone0) ;; x <- (Ret (49)%Z) ;; Ret (set_cc p (Some x))) ;; x <- (Ret 30123456%N) ;; Ret (set_nn p (Some x))) ;; x8 <- (Ret (bs "CH")) ;; x9 <- (Ret false) ;; FormatNumberForMobileDialing C x7 x8 x9) with Ret a, Ret b => beq a b | _, _ => false end);
   (let C := test_container in match (Ret (bs "030123456")), (x10 <- (p <- (p <- (p <- (Ret phone0) ;; x <- (Ret (49)%Z) ;; Ret (set_cc p (Some x))) ;; x <- (Ret 30123456%N) ;; Ret (set_nn p (Some x))) ;; x <- (Ret (bs "1234")) ;; Ret (set_ext p (Some x))) ;; x11 <- (Ret (bs "DE")) ;; x12 <- (Ret false) ;; FormatNumberForMobileDialing C x10 x11 x12) with Ret a, Ret b => beq a b | _, _ => false end);
   (let C := test_container in match (Ret (bs "+4930123456")), (x13 <- (p <- (p <- (p <- (Ret phone0) ;; x <- (Ret (49)%Z) ;; Ret (set_cc p (Some x))) ;; x <- (Ret 30123456%N) ;; Ret (set_nn p (Some x))) ;; x <- (Ret (bs "1234")) ;; Ret (set_ext p (Some x))) ;; x14 <- (Ret (bs "CH")) ;; x15 <- (Ret false) ;; FormatNumberForMobileDialing C x13 x14 x15) with Ret a, Ret b => beq a b | _, _ => false end);
   (let C := test_container in match (Ret (bs "800 253 0000")), (x16 <- (p <- (p <- (Ret phone0) ;; x <- (Ret (1)%Z) ;; Ret (set_cc p (Some x))) ;; x <- (Ret 8002530000%N) ;; Ret (set_nn p (Some x))) ;; x17 <- (Ret (bs "US")) ;; x18 <- (Ret true) ;; FormatNumberForMobileDialing C x16 x17 x18) with Ret a, Ret b => beq a b | _, _ => false end);
   (let C := test_container in match (Ret (bs "")), (x19 <- (p <- (p <- (Ret phone0) ;; x <- (Ret (1)%Z) ;; Ret (set_cc p (Some x))) ;; x <- (Ret 8002530000%N) ;; Ret (set_nn p (Some x))) ;; x20 <- (Ret (bs "CN")) ;; x21 <- (Ret true) ;; FormatNumberForMobileDialing C x19 x20 x21) with Ret a, Ret b => beq a b | _, _ => false end);
   (let C := test_container in match (Ret (bs "+1 650 253 0000")), (x22 <- (p <- (p <- (Ret phone0) ;; x <- (Ret (1)%Z) ;; Ret (set_cc p (Some x))) ;; x <- (Ret 6502530000%N) ;; Ret (set_nn p (Some x))) ;; x23 <- (Ret (bs "US")) ;; x24 <- (Ret true) ;; FormatNumberForMobileDialing C x22 x23 x24) with Ret a, Ret b => beq a b | _, _ => false end);
   (let C := test_container in match (Ret (bs "+1 650 253 0000")), (x25 <- (p <- (p <- (p <- (Ret phone0) ;; x <- (Ret (1)%Z) ;; Ret (set_cc p (Some x))) ;; x <- (Ret 6502530000%N) ;; Ret (set_nn p (Some x))) ;; x <- (Ret (bs "1234")) ;; Ret (set_ext p (Some x))) ;; x26 <- (Ret (bs "US")) ;; x27 <- (Ret true) ;; FormatNumberForMobileDialing C x25 x26 x27) with Ret a, Ret b => beq a b | _, _ => false end);
   (let C := test_container in match (Ret (bs "8002530000")), (x28 <- (p <- (p <- (Ret phone0) ;; x <- (Ret (1)%Z) ;; Ret (set_cc p (Some x))) ;; x <- (Ret 8002530000%N) ;; Ret (set_nn p (Some x))) ;; x29 <- (Ret (bs "US")) ;; x30 <- (Ret false) ;; FormatNumberForMobileDialing C x28 x29 x30) with Ret a, Ret b => beq a b | _, _ => false end);
   (let C := test_container in match (Ret (bs "")), (x31 <- (p <- (p <- (Ret phone0) ;; x <- (Ret (1)%Z) ;; Ret (set_cc p (Some x))) ;; x <- (Ret 8002530000%N) ;; Ret (set_nn p (Some x))) ;; x32 <- (Ret (bs "CN")) ;; x33 <- (Ret false) ;; FormatNumberForMobileDialing C x31 x32 x33) with Ret a, Ret b => beq a b | _, _ => false end);
   (let C := test_container in match (Ret (bs "+16502530000")), (x34 <- (p <- (p <- (Ret phone0) ;; x <- (Ret (1)%Z) ;; Ret (set_cc p (Some x))) ;; x <- (Ret 6502530000%N) ;; Ret (set_nn p (Some x))) ;; x35 <- (Ret (bs "US")) ;; x36 <- (Ret false) ;; FormatNumberForMobileDialing C x34 x35 x36) with Ret a, Ret b => beq a b | _, _ => false end);
   (let C := test_container in match (Ret (bs "+16502530000")), (x37 <- (p <- (p <- (p <- (Ret phone0) ;; x <- (Ret (1)%Z) ;; Ret (set_cc p (Some x))) ;; x <- (Ret 6502530000%N) ;; Ret (set_nn p (Some x))) ;; x <- (Ret (bs "1234")) ;; Ret (set_ext p (Some x))) ;; x38 <- (Ret (bs "US")) ;; x39 <- (Ret false) ;; FormatNumberForMobileDialing C x37 x38 x39) with Ret a, Ret b => beq a b | _, _ => false end);
   (let C := test_container in match (Ret (bs "+165025300001")), (x40 <- (p <- (p <- (Ret phone0) ;; x <- (Ret (1)%Z) ;; Ret (set_cc p (Some x))) ;; x <- (Ret 65025300001%N) ;; Ret (set_nn p (Some x))) ;; x41 <- (Ret (bs "US")) ;; x42 <- (Ret false) ;; FormatNumberForMobileDialing C x40 x41 x42) with Ret a, Ret b => beq a b | _, _ => false end);
   (let C := test_container in match (Ret (bs "+1 65025300001")), (x43 <- (p <- (p <- (Ret phone0) ;; x <- (Ret (1)%Z) ;; Ret (set_cc p (Some x))) ;; x <- (Ret 65025300001%N) ;; Ret (set_nn p (Some x))) ;; x44 <- (Ret (bs "US")) ;; x45 <- (Ret true) ;; FormatNumberForMobileDialing C x43 x44 x45) with Ret a, Ret b => beq a b | _, _ => false end);
   (let C := test_container in match (Ret (bs "*2345")), (x46 <- (p <- (p <- (Ret phone0) ;; x <- (Ret (81)%Z) ;; Ret (set_cc p (Some x))) ;; x <- (Ret 2345%N) ;; Ret (set_nn p (Some x))) ;; x47 <- (Ret (bs "JP")) ;; x48 <- (Ret false) ;; FormatNumberForMobileDialing C x46 x47 x48) with Ret a, Ret b => beq a b | _, _ => false end);
   (let C := test_container in match (Ret (bs "*2345")), (x49 <- (p <- (p <- (Ret phone0) ;; x <- (Ret (81)%Z) ;; Ret (set_cc p (Some x))) ;; x <- (Ret 2345%N) ;; Ret (set_nn p (Some x))) ;; x50 <- (Ret (bs "JP")) ;; x51 <- (Ret true) ;; FormatNumberForMobileDialing C x49 x50 x51) with Ret a, Ret b => beq a b | _, _ => false end);
   (let C := test_container in match (Ret (bs "+80012345678")), (x52 <- (p <- (p <- (Ret phone0) ;; x <- (Ret (800)%Z) ;; Ret (set_cc p (Some x))) ;; x <- (Ret 12345678%N) ;; Ret (set_nn p (Some x))) ;; x53 <- (Ret (bs "JP")) ;; x54 <- (Ret false) ;; FormatNumberForMobileDialing C x52 x53 x54) with Ret a, Ret b => beq a b | _, _ => false end);
   (let C := test_container in match (Ret (bs "+800 1234 5678")), (x55 <- (p <- (p <- (Ret phone0) ;; x <- (Ret (800)%Z) ;; Ret (set_cc p (Some x))) ;; x <- (Ret 12345678%N) ;; Ret (set_nn p (Some x))) ;; x56 <- (Ret (bs "JP")) ;; x57 <- (Ret true) ;; FormatNumberForMobileDialing C x55 x56 x57) with Ret a, Ret b => beq a b | _, _ => false end);
   (let C := test_container in match (Ret (bs "+971600123456")), (x58 <- (p <- (p <- (Ret phone0) ;; x <- (Ret (971)%Z) ;; Ret (set_cc p (Some x))) ;; x <- (Ret 600123456%N) ;; Ret (set_nn p (Some x))) ;; x59 <- (Ret (bs "JP")) ;; x60 <- (Ret false) ;; FormatNumberForMobileDialing C x58 x59 x60) with Ret a, Ret b => beq a b | _, _ => false end);
   (let C := test_container in match (Ret (bs "600123456")), (x61 <- (p <- (p <- (Ret phone0) ;; x <- (Ret (971)%Z) ;; Ret (set_cc p (Some x))) ;; x <- (Ret 600123456%N) ;; Ret (set_nn p (Some x))) ;; x62 <- (Ret (bs "AE")) ;; x63 <- (Ret false) ;; FormatNumberForMobileDialing C x61 x62 x63) with Ret a, Ret b => beq a b | _, _ => false end);
   (let C := test_container in match (Ret (bs "+523312345678")), (x64 <- (p <- (p <- (Ret phone0) ;; x <- (Ret (52)%Z) ;; Ret (set_cc p (Some x))) ;; x <- (Ret 3312345678%N) ;; Ret (set_nn p (Some x))) ;; x65 <- (Ret (bs "MX")) ;; x66 <- (Ret false) ;; FormatNumberForMobileDialing C x64 x65 x66) with Ret a, Ret b => beq a b | _, _ => false end);
   (let C := test_container in match (Ret (bs "+523312345678")), (x67 <- (p <- (p <- (Ret phone0) ;; x <- (Ret (52)%Z) ;; Ret (set_cc p (Some x))) ;; x <- (Ret 3312345678%N) ;; Ret (set_nn p (Some x))) ;; x68 <- (Ret (bs "US")) ;; x69 <- (Ret false) ;; FormatNumberForMobileDialing C x67 x68 x69) with Ret a, Ret b => beq a b | _, _ => false end);
   (let C := test_container in match (Ret (bs "+998612201234")), (x70 <- (p <- (p <- (Ret phone0) ;; x <- (Ret (998)%Z) ;; Ret (set_cc p (Some x))) ;; x <- (Ret 612201234%N) ;; Ret (set_nn p (Some x))) ;; x71 <- (Ret (bs "UZ")) ;; x72 <- (Ret false) ;; FormatNumberForMobileDialing C x70 x71 x72) with Ret a, Ret b => beq a b | _, _ => false end);
   (let C := test_container in match (Ret (bs "+998950123456")), (x73 <- (p <- (p <- (Ret phone0) ;; x <- (Ret (998)%Z) ;; Ret (set_cc p (Some x))) ;; x <- (Ret 950123456%N) ;; Ret (set_nn p (Some x))) ;; x74 <- (Ret (bs "UZ")) ;; x75 <- (Ret false) ;; FormatNumberForMobileDialing C x73 x74 x75) with Ret a, Ret b => beq a b | _, _ => false end);
   (let C := test_container in match (Ret (bs "+998950123456")), (x76 <- (p <- (p <- (Ret phone0) ;; x <- (Ret (998)%Z) ;; Ret (set_cc p (Some x))) ;; x <- (Ret 950123456%N) ;; Ret (set_nn p (Some x))) ;; x77 <- (Ret (bs "US")) ;; x78 <- (Ret false) ;; FormatNumberForMobileDialing C x76 x77 x78) with Ret a, Ret b => beq a b | _, _ => false end);
   (let C := test_container in match (Ret (bs "+80012345678")), (x79 <- (p <- (p <- (Ret phone0) ;; x <- (Ret (800)%Z) ;; Ret (set_cc p (Some x))) ;; x <- (Ret 12345678%N) ;; Ret (set_nn p (Some x))) ;; x80 <- (Ret (bs "US")) ;; x81 <- (Ret false) ;; FormatNumberForMobileDialing C x79 x80 x81) with Ret a, Ret b => beq a b | _, _ => false end);
   (let C := test_container in match (Ret (bs "+80012345678")), (x82 <- (p <- (p <- (Ret phone0) ;; x <- (Ret (800)%Z) ;; Ret (set_cc p (Some x))) ;; x <- (Ret 12345678%N) ;; Ret (set_nn p (Some x))) ;; x83 <- (Ret (bs "001")) ;; x84 <- (Ret false) ;; FormatNumberForMobileDialing C x82 x83 x84) with Ret a, Ret b => beq a b | _, _ => false end);
   (let C := test_container in match (Ret (bs "123")), (x85 <- (p <- (p <- (Ret phone0) ;; x <- (Ret (49)%Z) ;; Ret (set_cc p (Some x))) ;; x <- (Ret 123%N) ;; Ret (set_nn p (Some x))) ;; x86 <- (Ret (bs "DE")) ;; x87 <- (Ret false) ;; FormatNumberForMobileDialing C x85 x86 x87) with Ret a, Ret b => beq a b | _, _ => false end);
   (let C := test_container in match (Ret (bs "")), (x88 <- (p <- (p <- (Ret phone0) ;; x <- (Ret (49)%Z) ;; Ret (set_cc p (Some x))) ;; x <- (Ret 123%N) ;; Ret (set_nn p (Some x))) ;; x89 <- (Ret (bs "IT")) ;; x90 <- (Ret false) ;; FormatNumberForMobileDialing C x88 x89 x90) with Ret a, Ret b => beq a b | _, _ => false end);
   (let C := test_container in match (Ret (bs "+16502530000")), (x91 <- (p <- (p <- (Ret phone0) ;; x <- (Ret (1)%Z) ;; Ret (set_cc p (Some x))) ;; x <- (Ret 6502530000%N) ;; Ret (set_nn p (Some x))) ;; x92 <- (Ret (bs "US")) ;; x93 <- (Ret false) ;; FormatNumberForMobileDialing C x91 x92 x93) with Ret a, Ret b => beq a b | _, _ => false end);
   (let C := test_container in match (Ret (bs "+16502530000")), (x94 <- (p <- (p <- (Ret phone0) ;; x <- (Ret (1)%Z) ;; Ret (set_cc p (Some x))) ;; x <- (Ret 6502530000%N) ;; Ret (set_nn p (Some x))) ;; x95 <- (Ret (bs "CA")) ;; x96 <- (Ret false) ;; FormatNumberForMobileDialing C x94 x95 x96) with Ret a, Ret b => beq a b | _, _ => false end);
   (let C := test_container in match (Ret (bs "+16502530000")), (x97 <- (p <- (p <- (Ret phone0) ;; x <- (Ret (1)%Z) ;; Ret (set_cc p (Some x))) ;; x <- (Ret 6502530000%N) ;; Ret (set_nn p (Some x))) ;; x98 <- (Ret (bs "BR")) ;; x99 <- (Ret false) ;; FormatNumberForMobileDialing C x97 x98 x99) with Ret a, Ret b => beq a b | _, _ => false end);
   (let C := test_container in match (Ret (bs "911")), (x100 <- (p <- (p <- (Ret phone0) ;; x <- (Ret (1)%Z) ;; Ret (set_cc p (Some x))) ;; x <- (Ret 911%N) ;; Ret (set_nn p (Some x))) ;; x101 <- (Ret (bs "US")) ;; x102 <- (Ret false) ;; FormatNumberForMobileDialing C x100 x101 x102) with Ret a, Ret b => beq a b | _, _ => false end);
   (let C := test_container in match (Ret (bs "")), (x103 <- (p <- (p <- (Ret phone0) ;; x <- (Ret (1)%Z) ;; Ret (set_cc p (Some x))) ;; x <- (Ret 911%N) ;; Ret (set_nn p (Some x))) ;; x104 <- (Ret (bs "CA")) ;; x105 <- (Ret false) ;; FormatNumberForMobileDialing C x103 x104 x105) with Ret a, Ret b => beq a b | _, _ => false end);
   (let C := test_container in match (Ret (bs "")), (x106 <- (p <- (p <- (Ret phone0) ;; x <- (Ret (1)%Z) ;; Ret (set_cc p (Some x))) ;; x <- (Ret 911%N) ;; Ret (set_nn p (Some x))) ;; x107 <- (Ret (bs "BR")) ;; x108 <- (Ret false) ;; FormatNumberForMobileDialing C x106 x107 x108) with Ret a, Ret b => beq a b | _, _ => false end);
   (let C := test_container in match (Ret (bs "000")), (x109 <- (p <- (p <- (p <- (p <- (Ret phone0) ;; x <- (Ret (61)%Z) ;; Ret (set_cc p (Some x))) ;; x <- (Ret 0%N) ;; Ret (set_nn p (Some x))) ;; x <- (Ret true) ;; Ret (set_ilz p (Some x))) ;; x <- (Ret (2)%Z) ;; Ret (set_nlz p (Some x))) ;; x110 <- (Ret (bs "AU")) ;; x111 <- (Ret false) ;; FormatNumberForMobileDialing C x109 x110 x111) with Ret a, Ret b => beq a b | _, _ => false end);
   (let C := test_container in match (Ret (bs "")), (x112 <- (p <- (p <- (p <- (p <- (Ret phone0) ;; x <- (Ret (61)%Z) ;; Ret (set_cc p (Some x))) ;; x <- (Ret 0%N) ;; Ret (set_nn p (Some x))) ;; x <- (Ret true) ;; Ret (set_ilz p (Some x))) ;; x <- (Ret (2)%Z) ;; Ret (set_nlz p (Some x))) ;; x113 <- (Ret (bs "NZ")) ;; x114 <- (Ret false) ;; FormatNumberForMobileDialing C x112 x113 x114) with Ret a, Ret b => beq a b | _, _ => false end)].

Lemma TestFormatNumberForMobileDialing_ok : forallb (fun b => b) TestFormatNumberForMobileDialing = true.
Proof. vm_cast_no_check (eq_refl true). Qed.

(* phonenumberutil_test.go: TestFormatByPattern, 3 checks, 22 statements not translated *)
Definition TestFormatByPattern : list bool :=
  [(let C := test_container in match (Ret (bs "(650) 253-0000")), (x1 <- (p <- (p <- (Ret phone0) ;; x <- (Ret (1)%Z) ;; Ret (set_cc p (Some x))) ;; x <- (Ret 6502530000%N) ;; Ret (set_nn p (Some x))) ;; x2 <- (Ret NATIONAL) ;; x3 <- (Ret [(Build_nfmt (Some (bs "(\d{3})(\d{3})(\d{4})")) (Some (bs "($1) $2-$3")) [] None None None)]) ;; FormatByPattern C x1 x2 x3) with Ret a, Ret b => beq a b | _, _ => false end);
   (let C := test_container in match (Ret (bs "+1 (650) 253-0000")), (x4 <- (p <- (p <- (Ret phone0) ;; x <- (Ret (1)%Z) ;; Ret (set_cc p (Some x))) ;; x <- (Ret 6502530000%N) ;; Ret (set_nn p (Some x))) ;; x5 <- (Ret INTERNATIONAL) ;; x6 <- (Ret [(Build_nfmt (Some (bs "(\d{3})(\d{3})(\d{4})")) (Some (bs "($1) $2-$3")) [] None None None)]) ;; FormatByPattern C x4 x5 x6) with Ret a, Ret b => beq a b | _, _ => false end);
   (let C := test_container in match (Ret (bs "tel:+1-650-712-9823")), (x7 <- (p <- (p <- (Ret phone0) ;; x <- (Ret (1)%Z) ;; Ret (set_cc p (Some x))) ;; x <- (Ret 6507129823%N) ;; Ret (set_nn p (Some x))) ;; x8 <- (Ret RFC3966) ;; x9 <- (Ret [(Build_nfmt (Some (bs "(\d{3})(\d{3})(\d{4})")) (Some (bs "($1) $2-$3")) [] None None None)]) ;; FormatByPattern C x7 x8 x9) with Ret a, Ret b => beq a b | _, _ => false end)].

Lemma TestFormatByPattern_ok : forallb (fun b => b) TestFormatByPattern = true.
Proof. vm_cast_no_check (eq_refl true). Qed.

(* phonenumberutil_test.go: TestFormatByPatternFGProdMetadata, 2 checks, 0 statements not translated *)
Definition TestFormatByPatternFGProdMetadata : list bool :=
  [(let C := shipped in match (x <- (x1 <- (Ret (bs "+442070313000")) ;; x2 <- (Ret (bs "GB")) ;; Parse C x1 x2) ;; Ret (snd x)) with Ret None => true | _ => false end);
   (let C := shipped in match (Ret (bs "020 7031 3000")), (x3 <- (x <- (x1 <- (Ret (bs "+442070313000")) ;; x2 <- (Ret (bs "GB")) ;; Parse C x1 x2) ;; Ret (fst x)) ;; x4 <- (Ret NATIONAL) ;; x5 <- (Ret [(Build_nfmt (Some (bs "(\d{2})(\d{4})(\d{4})")) (Some (bs "$1 $2 $3")) [] (Some (bs "$NP$FG")) None None)]) ;; FormatByPattern C x3 x4 x5) with Ret a, Ret b => beq a b | _, _ => false end)].

Lemma TestFormatByPatternFGProdMetadata_ok : forallb (fun b => b) TestFormatByPatternFGProdMetadata = true.
Proof. vm_cast_no_check (eq_refl true). Qed.

(* phonenumberutil_test.go: TestFormatNationalPrefixFormattingRule, 4 checks, 3 statements not translated *)
Definition TestFormatNationalPrefixFormattingRule : list bool :=
  [(let C := test_container in match (Ret (bs "011 15 8765-4321")), (x1 <- (p <- (p <- (Ret phone0) ;; x <- (Ret (54)%Z) ;; Ret (set_cc p (Some x))) ;; x <- (Ret 91187654321%N) ;; Ret (set_nn p (Some x))) ;; x2 <- (Ret NATIONAL) ;; Format C x1 x2) with Ret a, Ret b => beq a b | _, _ => false end);
   (let C := test_container in match (Ret (bs "045 234 567 8900")), (x3 <- (p <- (p <- (Ret phone0) ;; x <- (Ret (52)%Z) ;; Ret (set_cc p (Some x))) ;; x <- (Ret 12345678900%N) ;; Ret (set_nn p (Some x))) ;; x4 <- (Ret NATIONAL) ;; Format C x3 x4) with Ret a, Ret b => beq a b | _, _ => false end);
   (let C := test_container in match (Ret (bs "045 55 1234 5678")), (x5 <- (p <- (p <- (Ret phone0) ;; x <- (Ret (52)%Z) ;; Ret (set_cc p (Some x))) ;; x <- (Ret 15512345678%N) ;; Ret (set_nn p (Some x))) ;; x6 <- (Ret NATIONAL) ;; Format C x5 x6) with Ret a, Ret b => beq a b | _, _ => false end);
   (let C := test_container in match (Ret (bs "1 (242) 365-1234")), (x7 <- (p <- (p <- (Ret phone0) ;; x <- (Ret (1)%Z) ;; Ret (set_cc p (Some x))) ;; x <- (Ret 2423651234%N) ;; Ret (set_nn p (Some x))) ;; x8 <- (Ret NATIONAL) ;; x9 <- (Ret [(Build_nfmt (Some (bs "(\d{3})(\d{3})(\d{4})")) (Some (bs "$1 $2-$3")) [] (Some (bs "$NP ($FG)")) None None)]) ;; FormatByPattern C x7 x8 x9) with Ret a, Ret b => beq a b | _, _ => false end)].

Lemma TestFormatNationalPrefixFormattingRule_ok : forallb (fun b => b) TestFormatNationalPrefixFormattingRule = true.
Proof. vm_cast_no_check (eq_refl true). Qed.

(* phonenumberutil_test.go: TestFormatE164Number, 3 checks, 0 statements not translated *)
Definition TestFormatE164Number : list bool :=
  [(let C := test_container in match (Ret (bs "+16502530000")), (x1 <- (p <- (p <- (Ret phone0) ;; x <- (Ret (1)%Z) ;; Ret (set_cc p (Some x))) ;; x <- (Ret 6502530000%N) ;; Ret (set_nn p (Some x))) ;; x2 <- (Ret E164) ;; Format C x1 x2) with Ret a, Ret b => beq a b | _, _ => false end);
   (let C := test_container in match (Ret (bs "+4930123456")), (x3 <- (p <- (p <- (Ret phone0) ;; x <- (Ret (49)%Z) ;; Ret (set_cc p (Some x))) ;; x <- (Ret 30123456%N) ;; Ret (set_nn p (Some x))) ;; x4 <- (Ret E164) ;; Format C x3 x4) with Ret a, Ret b => beq a b | _, _ => false end);
   (let C := test_container in match (Ret (bs "+80012345678")), (x5 <- (p <- (p <- (Ret phone0) ;; x <- (Ret (800)%Z) ;; Ret (set_cc p (Some x))) ;; x <- (Ret 12345678%N) ;; Ret (set_nn p (Some x))) ;; x6 <- (Ret E164) ;; Format C x5 x6) with Ret a, Ret b => beq a b | _, _ => false end)].

Lemma TestFormatE164Number_ok : forallb (fun b => b) TestFormatE164Number = true.
Proof. vm_cast_no_check (eq_refl true). Qed.

(* phonenumberutil_test.go: TestFormatNumberWithExtension, 3 checks, 0 statements not translated *)
Definition TestFormatNumberWithExtension : list bool :=
  [(let C := test_container in match (Ret (bs "03-331 6005 ext. 1234")), (x1 <- (p <- (p <- (p <- (Ret phone0) ;; x <- (Ret (64)%Z) ;; Ret (set_cc p (Some x))) ;; x <- (Ret 33316005%N) ;; Ret (set_nn p (Some x))) ;; x <- (Ret (bs "1234")) ;; Ret (set_ext p (Some x))) ;; x2 <- (Ret NATIONAL) ;; Format C x1 x2) with Ret a, Ret b => beq a b | _, _ => false end);
   (let C := test_container in match (Ret (bs "tel:+64-3-331-6005;ext=1234")), (x3 <- (p <- (p <- (p <- (Ret phone0) ;; x <- (Ret (64)%Z) ;; Ret (set_cc p (Some x))) ;; x <- (Ret 33316005%N) ;; Ret (set_nn p (Some x))) ;; x <- (Ret (bs "1234")) ;; Ret (set_ext p (Some x))) ;; x4 <- (Ret RFC3966) ;; Format C x3 x4) with Ret a, Ret b => beq a b | _, _ => false end);
   (let C := test_container in match (Ret (bs "650 253 0000 extn. 4567")), (x5 <- (p <- (p <- (p <- (Ret phone0) ;; x <- (Ret (1)%Z) ;; Ret (set_cc p (Some x))) ;; x <- (Ret 6502530000%N) ;; Ret (set_nn p (Some x))) ;; x <- (Ret (bs "4567")) ;; Ret (set_ext p (Some x))) ;; x6 <- (Ret NATIONAL) ;; Format C x5 x6) with Ret a, Ret b => beq a b | _, _ => false end)].

Lemma TestFormatNumberWithExtension_ok : forallb (fun b => b) TestFormatNumberWithExtension = true.
Proof. vm_cast_no_check (eq_refl true). Qed.

(* phonenumberutil_test.go: TestFormatInOriginalFormat, 27 checks, 0 statements not translated *)
Definition TestFormatInOriginalFormat : list bool :=
  [(let C := test_container in match (Ret (bs "+44 20 8765 4321")), (x3 <- (x <- (x1 <- (Ret (bs "+442087654321")) ;; x2 <- (Ret (bs "GB")) ;; ParseAndKeepRawInput C x1 x2) ;; Ret (fst x)) ;; x4 <- (Ret (bs "GB")) ;; FormatInOriginalFormat C x3 x4) with Ret a, Ret b => beq a b | _, _ => false end);
   (let C := test_container in match (Ret (bs "(020) 8765 4321")), (x7 <- (x <- (x5 <- (Ret (bs "02087654321")) ;; x6 <- (Ret (bs "GB")) ;; ParseAndKeepRawInput C x5 x6) ;; Ret (fst x)) ;; x8 <- (Ret (bs "GB")) ;; FormatInOriginalFormat C x7 x8) with Ret a, Ret b => beq a b | _, _ => false end);
   (let C := test_container in match (Ret (bs "011 44 20 8765 4321")), (x11 <- (x <- (x9 <- (Ret (bs "011442087654321")) ;; x10 <- (Ret (bs "US")) ;; ParseAndKeepRawInput C x9 x10) ;; Ret (fst x)) ;; x12 <- (Ret (bs "US")) ;; FormatInOriginalFormat C x11 x12) with Ret a, Ret b => beq a b | _, _ => false end);
   (let C := test_container in match (Ret (bs "44 20 8765 4321")), (x15 <- (x <- (x13 <- (Ret (bs "442087654321")) ;; x14 <- (Ret (bs "GB")) ;; ParseAndKeepRawInput C x13 x14) ;; Ret (fst x)) ;; x16 <- (Ret (bs "GB")) ;; FormatInOriginalFormat C x15 x16) with Ret a, Ret b => beq a b | _, _ => false end);
   (let C := test_container in match (Ret (bs "(020) 8765 4321")), (x19 <- (x <- (x17 <- (Ret (bs "+442087654321")) ;; x18 <- (Ret (bs "GB")) ;; Parse C x17 x18) ;; Ret (fst x)) ;; x20 <- (Ret (bs "GB")) ;; FormatInOriginalFormat C x19 x20) with Ret a, Ret b => beq a b | _, _ => false end);
   (let C := test_container in match (Ret (bs "734 567 8901")), (x23 <- (x <- (x21 <- (Ret (bs "7345678901")) ;; x22 <- (Ret (bs "US")) ;; ParseAndKeepRawInput C x21 x22) ;; Ret (fst x)) ;; x24 <- (Ret (bs "US")) ;; FormatInOriginalFormat C x23 x24) with Ret a, Ret b => beq a b | _, _ => false end);
   (let C := test_container in match (Ret (bs "0734567 8901")), (x27 <- (x <- (x25 <- (Ret (bs "0734567 8901")) ;; x26 <- (Ret (bs "US")) ;; ParseAndKeepRawInput C x25 x26) ;; Ret (fst x)) ;; x28 <- (Ret (bs "US")) ;; FormatInOriginalFormat C x27 x28) with Ret a, Ret b => beq a b | _, _ => false end);
   (let C := test_container in match (Ret (bs "02-4567-8900")), (x31 <- (x <- (x29 <- (Ret (bs "02-4567-8900")) ;; x30 <- (Ret (bs "KR")) ;; ParseAndKeepRawInput C x29 x30) ;; Ret (fst x)) ;; x32 <- (Ret (bs "KR")) ;; FormatInOriginalFormat C x31 x32) with Ret a, Ret b => beq a b | _, _ => false end);
   (let C := test_container in match (Ret (bs "011 800 1234 5678")), (x35 <- (x <- (x33 <- (Ret (bs "01180012345678")) ;; x34 <- (Ret (bs "US")) ;; ParseAndKeepRawInput C x33 x34) ;; Ret (fst x)) ;; x36 <- (Ret (bs "US")) ;; FormatInOriginalFormat C x35 x36) with Ret a, Ret b => beq a b | _, _ => false end);
   (let C := test_container in match (Ret (bs "+800 1234 5678")), (x39 <- (x <- (x37 <- (Ret (bs "+80012345678")) ;; x38 <- (Ret (bs "KR")) ;; ParseAndKeepRawInput C x37 x38) ;; Ret (fst x)) ;; x40 <- (Ret (bs "KR")) ;; FormatInOriginalFormat C x39 x40) with Ret a, Ret b => beq a b | _, _ => false end);
   (let C := test_container in match (Ret (bs "253 0000")), (x43 <- (x <- (x41 <- (Ret (bs "2530000")) ;; x42 <- (Ret (bs "US")) ;; ParseAndKeepRawInput C x41 x42) ;; Ret (fst x)) ;; x44 <- (Ret (bs "US")) ;; FormatInOriginalFormat C x43 x44) with Ret a, Ret b => beq a b | _, _ => false end);
   (let C := test_container in match (Ret (bs "1 800 345 6789")), (x47 <- (x <- (x45 <- (Ret (bs "18003456789")) ;; x46 <- (Ret (bs "US")) ;; ParseAndKeepRawInput C x45 x46) ;; Ret (fst x)) ;; x48 <- (Ret (bs "US")) ;; FormatInOriginalFormat C x47 x48) with Ret a, Ret b => beq a b | _, _ => false end);
   (let C := test_container in match (Ret (bs "20 8765 4321")), (x51 <- (x <- (x49 <- (Ret (bs "2087654321")) ;; x50 <- (Ret (bs "GB")) ;; ParseAndKeepRawInput C x49 x50) ;; Ret (fst x)) ;; x52 <- (Ret (bs "GB")) ;; FormatInOriginalFormat C x51 x52) with Ret a, Ret b => beq a b | _, _ => false end);
   (let C := test_container in match (Ret (bs "(020) 8765 4321")), (x53 <- (x <- (x17 <- (Ret (bs "+442087654321")) ;; x18 <- (Ret (bs "GB")) ;; Parse C x17 x18) ;; Ret (fst x)) ;; x54 <- (Ret (bs "GB")) ;; FormatInOriginalFormat C x53 x54) with Ret a, Ret b => beq a b | _, _ => false end);
   (let C := test_container in match (Ret (bs "01 33 1234 5678")), (x57 <- (x <- (x55 <- (Ret (bs "013312345678")) ;; x56 <- (Ret (bs "MX")) ;; ParseAndKeepRawInput C x55 x56) ;; Ret (fst x)) ;; x58 <- (Ret (bs "MX")) ;; FormatInOriginalFormat C x57 x58) with Ret a, Ret b => beq a b | _, _ => false end);
   (let C := test_container in match (Ret (bs "33 1234 5678")), (x61 <- (x <- (x59 <- (Ret (bs "3312345678")) ;; x60 <- (Ret (bs "MX")) ;; ParseAndKeepRawInput C x59 x60) ;; Ret (fst x)) ;; x62 <- (Ret (bs "MX")) ;; FormatInOriginalFormat C x61 x62) with Ret a, Ret b => beq a b | _, _ => false end);
   (let C := test_container in match (Ret (bs "02 1234 5678")), (x65 <- (x <- (x63 <- (Ret (bs "0212345678")) ;; x64 <- (Ret (bs "IT")) ;; ParseAndKeepRawInput C x63 x64) ;; Ret (fst x)) ;; x66 <- (Ret (bs "IT")) ;; FormatInOriginalFormat C x65 x66) with Ret a, Ret b => beq a b | _, _ => false end);
   (let C := test_container in match (Ret (bs "0077-7012")), (x69 <- (x <- (x67 <- (Ret (bs "00777012")) ;; x68 <- (Ret (bs "JP")) ;; ParseAndKeepRawInput C x67 x68) ;; Ret (fst x)) ;; x70 <- (Ret (bs "JP")) ;; FormatInOriginalFormat C x69 x70) with Ret a, Ret b => beq a b | _, _ => false end);
   (let C := test_container in match (Ret (bs "0777012")), (x73 <- (x <- (x71 <- (Ret (bs "0777012")) ;; x72 <- (Ret (bs "JP")) ;; ParseAndKeepRawInput C x71 x72) ;; Ret (fst x)) ;; x74 <- (Ret (bs "JP")) ;; FormatInOriginalFormat C x73 x74) with Ret a, Ret b => beq a b | _, _ => false end);
   (let C := test_container in match (Ret (bs "012 3121286979")), (x77 <- (x <- (x75 <- (Ret (bs "012 3121286979")) ;; x76 <- (Ret (bs "BR")) ;; ParseAndKeepRawInput C x75 x76) ;; Ret (fst x)) ;; x78 <- (Ret (bs "BR")) ;; FormatInOriginalFormat C x77 x78) with Ret a, Ret b => beq a b | _, _ => false end);
   (let C := test_container in match (Ret (bs "044(33)1234-5678")), (x81 <- (x <- (x79 <- (Ret (bs "044(33)1234-5678")) ;; x80 <- (Ret (bs "MX")) ;; ParseAndKeepRawInput C x79 x80) ;; Ret (fst x)) ;; x82 <- (Ret (bs "MX")) ;; FormatInOriginalFormat C x81 x82) with Ret a, Ret b => beq a b | _, _ => false end);
   (let C := test_container in match (Ret (bs "045 33 1234 5678")), (x85 <- (x <- (x83 <- (Ret (bs "045(33)1234-5678")) ;; x84 <- (Ret (bs "MX")) ;; ParseAndKeepRawInput C x83 x84) ;; Ret (fst x)) ;; x86 <- (Ret (bs "MX")) ;; FormatInOriginalFormat C x85 x86) with Ret a, Ret b => beq a b | _, _ => false end);
   (let C := test_container in match (Ret (bs "0012 16502530000")), (x89 <- (x <- (x87 <- (Ret (bs "0012 16502530000")) ;; x88 <- (Ret (bs "AU")) ;; ParseAndKeepRawInput C x87 x88) ;; Ret (fst x)) ;; x90 <- (Ret (bs "AU")) ;; FormatInOriginalFormat C x89 x90) with Ret a, Ret b => beq a b | _, _ => false end);
   (let C := test_container in match (Ret (bs "0011 1 650 253 0000")), (x93 <- (x <- (x91 <- (Ret (bs "0011 16502530000")) ;; x92 <- (Ret (bs "AU")) ;; ParseAndKeepRawInput C x91 x92) ;; Ret (fst x)) ;; x94 <- (Ret (bs "AU")) ;; FormatInOriginalFormat C x93 x94) with Ret a, Ret b => beq a b | _, _ => false end);
   (let C := test_container in match (Ret (bs "*1234")), (x97 <- (x <- (x95 <- (Ret (bs "*1234")) ;; x96 <- (Ret (bs "JP")) ;; ParseAndKeepRawInput C x95 x96) ;; Ret (fst x)) ;; x98 <- (Ret (bs "JP")) ;; FormatInOriginalFormat C x97 x98) with Ret a, Ret b => beq a b | _, _ => false end);
   (let C := test_container in match (Ret (bs "1234")), (x101 <- (x <- (x99 <- (Ret (bs "1234")) ;; x100 <- (Ret (bs "JP")) ;; ParseAndKeepRawInput C x99 x100) ;; Ret (fst x)) ;; x102 <- (Ret (bs "JP")) ;; FormatInOriginalFormat C x101 x102) with Ret a, Ret b => beq a b | _, _ => false end);
   (let C := test_container in match (Ret (bs "650253000")), (x103 <- (p <- (p <- (Ret phone0) ;; x <- (Ret (1)%Z) ;; Ret (set_cc p (Some x))) ;; x <- (Ret 650253000%N) ;; Ret (set_nn p (Some x))) ;; x104 <- (Ret (bs "US")) ;; FormatInOriginalFormat C x103 x104) with Ret a, Ret b => beq a b | _, _ => false end)].

Lemma TestFormatInOriginalFormat_ok : forallb (fun b => b) TestFormatInOriginalFormat = true.
Proof. vm_cast_no_check (eq_refl true). Qed.

(* phonenumberutil_test.go: TestIsPremiumRate, 6 checks, 0 statements not translated *)
Definition TestIsPremiumRate : list bool :=
  [(let C := test_container in match (Ret PREMIUM_RATE), (x1 <- (p <- (p <- (Ret phone0) ;; x <- (Ret (1)%Z) ;; Ret (set_cc p (Some x))) ;; x <- (Ret 9002530000%N) ;; Ret (set_nn p (Some x))) ;; GetNumberType C x1) with Ret a, Ret b => ptype_eqb a b | _, _ => false end);
   (let C := test_container in match (Ret PREMIUM_RATE), (x2 <- (p <- (p <- (Ret phone0) ;; x <- (Ret (39)%Z) ;; Ret (set_cc p (Some x))) ;; x <- (Ret 892123%N) ;; Ret (set_nn p (Some x))) ;; GetNumberType C x2) with Ret a, Ret b => ptype_eqb a b | _, _ => false end);
   (let C := test_container in match (Ret PREMIUM_RATE), (x3 <- (p <- (p <- (Ret phone0) ;; x <- (Ret (44)%Z) ;; Ret (set_cc p (Some x))) ;; x <- (Ret 9187654321%N) ;; Ret (set_nn p (Some x))) ;; GetNumberType C x3) with Ret a, Ret b => ptype_eqb a b | _, _ => false end);
   (let C := test_container in match (Ret PREMIUM_RATE), (x4 <- (p <- (p <- (Ret phone0) ;; x <- (Ret (49)%Z) ;; Ret (set_cc p (Some x))) ;; x <- (Ret 9001654321%N) ;; Ret (set_nn p (Some x))) ;; GetNumberType C x4) with Ret a, Ret b => ptype_eqb a b | _, _ => false end);
   (let C := test_container in match (Ret PREMIUM_RATE), (x5 <- (p <- (p <- (Ret phone0) ;; x <- (Ret (49)%Z) ;; Ret (set_cc p (Some x))) ;; x <- (Ret 90091234567%N) ;; Ret (set_nn p (Some x))) ;; GetNumberType C x5) with Ret a, Ret b => ptype_eqb a b | _, _ => false end);
   (let C := test_container in match (Ret PREMIUM_RATE), (x6 <- (p <- (p <- (Ret phone0) ;; x <- (Ret (979)%Z) ;; Ret (set_cc p (Some x))) ;; x <- (Ret 123456789%N) ;; Ret (set_nn p (Some x))) ;; GetNumberType C x6) with Ret a, Ret b => ptype_eqb a b | _, _ => false end)].

Lemma TestIsPremiumRate_ok : forallb (fun b => b) TestIsPremiumRate = true.
Proof. vm_cast_no_check (eq_refl true). Qed.

(* phonenumberutil_test.go: TestIsTollFree, 5 checks, 0 statements not translated *)
Definition TestIsTollFree : list bool :=
  [(let C := test_container in match (Ret TOLL_FREE), (x1 <- (p <- (p <- (Ret phone0) ;; x <- (Ret (1)%Z) ;; Ret (set_cc p (Some x))) ;; x <- (Ret 8881234567%N) ;; Ret (set_nn p (Some x))) ;; GetNumberType C x1) with Ret a, Ret b => ptype_eqb a b | _, _ => false end);
   (let C := test_container in match (Ret TOLL_FREE), (x2 <- (p <- (p <- (Ret phone0) ;; x <- (Ret (39)%Z) ;; Ret (set_cc p (Some x))) ;; x <- (Ret 803123%N) ;; Ret (set_nn p (Some x))) ;; GetNumberType C x2) with Ret a, Ret b => ptype_eqb a b | _, _ => false end);
   (let C := test_container in match (Ret TOLL_FREE), (x3 <- (p <- (p <- (Ret phone0) ;; x <- (Ret (44)%Z) ;; Ret (set_cc p (Some x))) ;; x <- (Ret 8012345678%N) ;; Ret (set_nn p (Some x))) ;; GetNumberType C x3) with Ret a, Ret b => ptype_eqb a b | _, _ => false end);
   (let C := test_container in match (Ret TOLL_FREE), (x4 <- (p <- (p <- (Ret phone0) ;; x <- (Ret (49)%Z) ;; Ret (set_cc p (Some x))) ;; x <- (Ret 8001234567%N) ;; Ret (set_nn p (Some x))) ;; GetNumberType C x4) with Ret a, Ret b => ptype_eqb a b | _, _ => false end);
   (let C := test_container in match (Ret TOLL_FREE), (x5 <- (p <- (p <- (Ret phone0) ;; x <- (Ret (800)%Z) ;; Ret (set_cc p (Some x))) ;; x <- (Ret 12345678%N) ;; Ret (set_nn p (Some x))) ;; GetNumberType C x5) with Ret a, Ret b => ptype_eqb a b | _, _ => false end)].

Lemma TestIsTollFree_ok : forallb (fun b => b) TestIsTollFree = true.
Proof. vm_cast_no_check (eq_refl true). Qed.

(* phonenumberutil_test.go: TestIsMobile, 5 checks, 0 statements not translated *)
Definition TestIsMobile : list bool :=
  [(let C := test_container in match (Ret MOBILE), (x1 <- (p <- (p <- (Ret phone0) ;; x <- (Ret (1)%Z) ;; Ret (set_cc p (Some x))) ;; x <- (Ret 2423570000%N) ;; Ret (set_nn p (Some x))) ;; GetNumberType C x1) with Ret a, Ret b => ptype_eqb a b | _, _ => false end);
   (let C := test_container in match (Ret MOBILE), (x2 <- (p <- (p <- (Ret phone0) ;; x <- (Ret (44)%Z) ;; Ret (set_cc p (Some x))) ;; x <- (Ret 7912345678%N) ;; Ret (set_nn p (Some x))) ;; GetNumberType C x2) with Ret a, Ret b => ptype_eqb a b | _, _ => false end);
   (let C := test_container in match (Ret MOBILE), (x3 <- (p <- (p <- (Ret phone0) ;; x <- (Ret (39)%Z) ;; Ret (set_cc p (Some x))) ;; x <- (Ret 345678901%N) ;; Ret (set_nn p (Some x))) ;; GetNumberType C x3) with Ret a, Ret b => ptype_eqb a b | _, _ => false end);
   (let C := test_container in match (Ret MOBILE), (x4 <- (p <- (p <- (Ret phone0) ;; x <- (Ret (54)%Z) ;; Ret (set_cc p (Some x))) ;; x <- (Ret 91187654321%N) ;; Ret (set_nn p (Some x))) ;; GetNumberType C x4) with Ret a, Ret b => ptype_eqb a b | _, _ => false end);
   (let C := test_container in match (Ret MOBILE), (x5 <- (p <- (p <- (Ret phone0) ;; x <- (Ret (49)%Z) ;; Ret (set_cc p (Some x))) ;; x <- (Ret 15123456789%N) ;; Ret (set_nn p (Some x))) ;; GetNumberType C x5) with Ret a, Ret b => ptype_eqb a b | _, _ => false end)].

Lemma TestIsMobile_ok : forallb (fun b => b) TestIsMobile = true.
Proof. vm_cast_no_check (eq_refl true). Qed.

(* phonenumberutil_test.go: TestIsFixedLine, 4 checks, 0 statements not translated *)
Definition TestIsFixedLine : list bool :=
  [(let C := test_container in match (Ret FIXED_LINE), (x1 <- (p <- (p <- (Ret phone0) ;; x <- (Ret (1)%Z) ;; Ret (set_cc p (Some x))) ;; x <- (Ret 2423651234%N) ;; Ret (set_nn p (Some x))) ;; GetNumberType C x1) with Ret a, Ret b => ptype_eqb a b | _, _ => false end);
   (let C := test_container in match (Ret FIXED_LINE), (x2 <- (p <- (p <- (p <- (Ret phone0) ;; x <- (Ret (39)%Z) ;; Ret (set_cc p (Some x))) ;; x <- (Ret 236618300%N) ;; Ret (set_nn p (Some x))) ;; x <- (Ret true) ;; Ret (set_ilz p (Some x))) ;; GetNumberType C x2) with Ret a, Ret b => ptype_eqb a b | _, _ => false end);
   (let C := test_container in match (Ret FIXED_LINE), (x3 <- (p <- (p <- (Ret phone0) ;; x <- (Ret (44)%Z) ;; Ret (set_cc p (Some x))) ;; x <- (Ret 2070313000%N) ;; Ret (set_nn p (Some x))) ;; GetNumberType C x3) with Ret a, Ret b => ptype_eqb a b | _, _ => false end);
   (let C := test_container in match (Ret FIXED_LINE), (x4 <- (p <- (p <- (Ret phone0) ;; x <- (Ret (49)%Z) ;; Ret (set_cc p (Some x))) ;; x <- (Ret 30123456%N) ;; Ret (set_nn p (Some x))) ;; GetNumberType C x4) with Ret a, Ret b => ptype_eqb a b | _, _ => false end)].

Lemma TestIsFixedLine_ok : forallb (fun b => b) TestIsFixedLine = true.
Proof. vm_cast_no_check (eq_refl true). Qed.

(* phonenumberutil_test.go: TestIsFixedLineAndMobile, 2 checks, 0 statements not translated *)
Definition TestIsFixedLineAndMobile : list bool :=
  [(let C := test_container in match (Ret FIXED_LINE_OR_MOBILE), (x1 <- (p <- (p <- (Ret phone0) ;; x <- (Ret (1)%Z) ;; Ret (set_cc p (Some x))) ;; x <- (Ret 6502530000%N) ;; Ret (set_nn p (Some x))) ;; GetNumberType C x1) with Ret a, Ret b => ptype_eqb a b | _, _ => false end);
   (let C := test_container in match (Ret FIXED_LINE_OR_MOBILE), (x2 <- (p <- (p <- (Ret phone0) ;; x <- (Ret (54)%Z) ;; Ret (set_cc p (Some x))) ;; x <- (Ret 1987654321%N) ;; Ret (set_nn p (Some x))) ;; GetNumberType C x2) with Ret a, Ret b => ptype_eqb a b | _, _ => false end)].

Lemma TestIsFixedLineAndMobile_ok : forallb (fun b => b) TestIsFixedLineAndMobile = true.
Proof. vm_cast_no_check (eq_refl true). Qed.

(* phonenumberutil_test.go: TestIsSharedCost, 1 checks, 0 statements not translated *)
Definition TestIsSharedCost : list bool :=
  [(let C := test_container in match (Ret SHARED_COST), (x1 <- (p <- (p <- (Ret phone0) ;; x <- (Ret (44)%Z) ;; Ret (set_cc p (Some x))) ;; x <- (Ret 8431231234%N) ;; Ret (set_nn p (Some x))) ;; GetNumberType C x1) with Ret a, Ret b => ptype_eqb a b | _, _ => false end)].

Lemma TestIsSharedCost_ok : forallb (fun b => b) TestIsSharedCost = true.
Proof. vm_cast_no_check (eq_refl true). Qed.

(* phonenumberutil_test.go: TestIsVoip, 1 checks, 0 statements not translated *)
Definition TestIsVoip : list bool :=
  [(let C := test_container in match (Ret VOIP), (x1 <- (p <- (p <- (Ret phone0) ;; x <- (Ret (44)%Z) ;; Ret (set_cc p (Some x))) ;; x <- (Ret 5631231234%N) ;; Ret (set_nn p (Some x))) ;; GetNumberType C x1) with Ret a, Ret b => ptype_eqb a b | _, _ => false end)].

Lemma TestIsVoip_ok : forallb (fun b => b) TestIsVoip = true.
Proof. vm_cast_no_check (eq_refl true). Qed.

(* phonenumberutil_test.go: TestIsPersonalNumber, 1 checks, 0 statements not translated *)
Definition TestIsPersonalNumber : list bool :=
  [(let C := test_container in match (Ret PERSONAL_NUMBER), (x1 <- (p <- (p <- (Ret phone0) ;; x <- (Ret (44)%Z) ;; Ret (set_cc p (Some x))) ;; x <- (Ret 7031231234%N) ;; Ret (set_nn p (Some x))) ;; GetNumberType C x1) with Ret a, Ret b => ptype_eqb a b | _, _ => false end)].

Lemma TestIsPersonalNumber_ok : forallb (fun b => b) TestIsPersonalNumber = true.
Proof. vm_cast_no_check (eq_refl true). Qed.

(* phonenumberutil_test.go: TestIsUnknown, 1 checks, 0 statements not translated *)
Definition TestIsUnknown : list bool :=
  [(let C := test_container in match (Ret UNKNOWN), (x1 <- (p <- (p <- (Ret phone0) ;; x <- (Ret (1)%Z) ;; Ret (set_cc p (Some x))) ;; x <- (Ret 2530000%N) ;; Ret (set_nn p (Some x))) ;; GetNumberType C x1) with Ret a, Ret b => ptype_eqb a b | _, _ => false end)].

Lemma TestIsUnknown_ok : forallb (fun b => b) TestIsUnknown = true.
Proof. vm_cast_no_check (eq_refl true). Qed.

(* phonenumberutil_test.go: TestIsValidNumber, 6 checks, 0 statements not translated *)
Definition TestIsValidNumber : list bool :=
  [(let C := test_container in match (x1 <- (p <- (p <- (Ret phone0) ;; x <- (Ret (1)%Z) ;; Ret (set_cc p (Some x))) ;; x <- (Ret 6502530000%N) ;; Ret (set_nn p (Some x))) ;; IsValidNumber C x1) with Ret true => true | _ => false end);
   (let C := test_container in match (x2 <- (p <- (p <- (p <- (Ret phone0) ;; x <- (Ret (39)%Z) ;; Ret (set_cc p (Some x))) ;; x <- (Ret 236618300%N) ;; Ret (set_nn p (Some x))) ;; x <- (Ret true) ;; Ret (set_ilz p (Some x))) ;; IsValidNumber C x2) with Ret true => true | _ => false end);
   (let C := test_container in match (x3 <- (p <- (p <- (Ret phone0) ;; x <- (Ret (44)%Z) ;; Ret (set_cc p (Some x))) ;; x <- (Ret 7912345678%N) ;; Ret (set_nn p (Some x))) ;; IsValidNumber C x3) with Ret true => true | _ => false end);
   (let C := test_container in match (x4 <- (p <- (p <- (Ret phone0) ;; x <- (Ret (800)%Z) ;; Ret (set_cc p (Some x))) ;; x <- (Ret 12345678%N) ;; Ret (set_nn p (Some x))) ;; IsValidNumber C x4) with Ret true => true | _ => false end);
   (let C := test_container in match (x5 <- (p <- (p <- (Ret phone0) ;; x <- (Ret (979)%Z) ;; Ret (set_cc p (Some x))) ;; x <- (Ret 123456789%N) ;; Ret (set_nn p (Some x))) ;; IsValidNumber C x5) with Ret true => true | _ => false end);
   (let C := test_container in match (x6 <- (p <- (p <- (Ret phone0) ;; x <- (Ret (64)%Z) ;; Ret (set_cc p (Some x))) ;; x <- (Ret 21387835%N) ;; Ret (set_nn p (Some x))) ;; IsValidNumber C x6) with Ret true => true | _ => false end)].

Lemma TestIsValidNumber_ok : forallb (fun b => b) TestIsValidNumber = true.
Proof. vm_cast_no_check (eq_refl true). Qed.

(* phonenumberutil_test.go: TestIsValidForRegion, 22 checks, 0 statements not translated *)
Definition TestIsValidForRegion : list bool :=
  [(let C := test_container in match (x1 <- (p <- (p <- (Ret phone0) ;; x <- (Ret (1)%Z) ;; Ret (set_cc p (Some x))) ;; x <- (Ret 2423651234%N) ;; Ret (set_nn p (Some x))) ;; IsValidNumber C x1) with Ret true => true | _ => false end);
   (let C := test_container in match (x2 <- (p <- (p <- (Ret phone0) ;; x <- (Ret (1)%Z) ;; Ret (set_cc p (Some x))) ;; x <- (Ret 2423651234%N) ;; Ret (set_nn p (Some x))) ;; x3 <- (Ret (bs "BS")) ;; IsValidNumberForRegion C x2 x3) with Ret true => true | _ => false end);
   (let C := test_container in match (x4 <- (p <- (p <- (Ret phone0) ;; x <- (Ret (1)%Z) ;; Ret (set_cc p (Some x))) ;; x <- (Ret 2423651234%N) ;; Ret (set_nn p (Some x))) ;; x5 <- (Ret (bs "US")) ;; IsValidNumberForRegion C x4 x5) with Ret false => true | _ => false end);
   (let C := test_container in match (x6 <- (p <- (p <- (Ret phone0) ;; x <- (Ret (1)%Z) ;; Ret (set_cc p (Some x))) ;; x <- (Ret 2421232345%N) ;; Ret (set_nn p (Some x))) ;; IsValidNumber C x6) with Ret false => true | _ => false end);
   (let C := test_container in match (x7 <- (p <- (p <- (Ret phone0) ;; x <- (Ret (262)%Z) ;; Ret (set_cc p (Some x))) ;; x <- (Ret 262123456%N) ;; Ret (set_nn p (Some x))) ;; IsValidNumber C x7) with Ret true => true | _ => false end);
   (let C := test_container in match (x8 <- (p <- (p <- (Ret phone0) ;; x <- (Ret (262)%Z) ;; Ret (set_cc p (Some x))) ;; x <- (Ret 262123456%N) ;; Ret (set_nn p (Some x))) ;; x9 <- (Ret (bs "RE")) ;; IsValidNumberForRegion C x8 x9) with Ret true => true | _ => false end);
   (let C := test_container in match (x10 <- (p <- (p <- (Ret phone0) ;; x <- (Ret (262)%Z) ;; Ret (set_cc p (Some x))) ;; x <- (Ret 262123456%N) ;; Ret (set_nn p (Some x))) ;; x11 <- (Ret (bs "YT")) ;; IsValidNumberForRegion C x10 x11) with Ret false => true | _ => false end);
   (let C := test_container in match (x12 <- (p <- (p <- (p <- (Ret phone0) ;; x <- (Ret (262)%Z) ;; Ret (set_cc p (Some x))) ;; x <- (Ret 262123456%N) ;; Ret (set_nn p (Some x))) ;; x <- (Ret 269601234%N) ;; Ret (set_nn p (Some x))) ;; x13 <- (Ret (bs "YT")) ;; IsValidNumberForRegion C x12 x13) with Ret true => true | _ => false end);
   (let C := test_container in match (x14 <- (p <- (p <- (p <- (Ret phone0) ;; x <- (Ret (262)%Z) ;; Ret (set_cc p (Some x))) ;; x <- (Ret 262123456%N) ;; Ret (set_nn p (Some x))) ;; x <- (Ret 269601234%N) ;; Ret (set_nn p (Some x))) ;; x15 <- (Ret (bs "RE")) ;; IsValidNumberForRegion C x14 x15) with Ret false => true | _ => false end);
   (let C := test_container in match (x16 <- (p <- (p <- (p <- (p <- (Ret phone0) ;; x <- (Ret (262)%Z) ;; Ret (set_cc p (Some x))) ;; x <- (Ret 262123456%N) ;; Ret (set_nn p (Some x))) ;; x <- (Ret 269601234%N) ;; Ret (set_nn p (Some x))) ;; x <- (Ret 269123456%N) ;; Ret (set_nn p (Some x))) ;; x17 <- (Ret (bs "YT")) ;; IsValidNumberForRegion C x16 x17) with Ret false => true | _ => false end);
   (let C := test_container in match (x18 <- (p <- (p <- (p <- (p <- (Ret phone0) ;; x <- (Ret (262)%Z) ;; Ret (set_cc p (Some x))) ;; x <- (Ret 262123456%N) ;; Ret (set_nn p (Some x))) ;; x <- (Ret 269601234%N) ;; Ret (set_nn p (Some x))) ;; x <- (Ret 269123456%N) ;; Ret (set_nn p (Some x))) ;; x19 <- (Ret (bs "RE")) ;; IsValidNumberForRegion C x18 x19) with Ret false => true | _ => false end);
   (let C := test_container in match (x20 <- (p <- (p <- (p <- (p <- (Ret phone0) ;; x <- (Ret (262)%Z) ;; Ret (set_cc p (Some x))) ;; x <- (Ret 262123456%N) ;; Ret (set_nn p (Some x))) ;; x <- (Ret 269601234%N) ;; Ret (set_nn p (Some x))) ;; x <- (Ret 269123456%N) ;; Ret (set_nn p (Some x))) ;; IsValidNumber C x20) with Ret false => true | _ => false end);
   (let C := test_container in match (Ret (bs "YT")), (x21 <- (p <- (p <- (p <- (p <- (Ret phone0) ;; x <- (Ret (262)%Z) ;; Ret (set_cc p (Some x))) ;; x <- (Ret 262123456%N) ;; Ret (set_nn p (Some x))) ;; x <- (Ret 269601234%N) ;; Ret (set_nn p (Some x))) ;; x <- (Ret 269123456%N) ;; Ret (set_nn p (Some x))) ;; GetRegionCodeForNumber C x21) with Ret a, Ret b => beq a b | _, _ => false end);
   (let C := test_container in match (x22 <- (p <- (p <- (p <- (p <- (p <- (Ret phone0) ;; x <- (Ret (262)%Z) ;; Ret (set_cc p (Some x))) ;; x <- (Ret 262123456%N) ;; Ret (set_nn p (Some x))) ;; x <- (Ret 269601234%N) ;; Ret (set_nn p (Some x))) ;; x <- (Ret 269123456%N) ;; Ret (set_nn p (Some x))) ;; x <- (Ret 800123456%N) ;; Ret (set_nn p (Some x))) ;; x23 <- (Ret (bs "YT")) ;; IsValidNumberForRegion C x22 x23) with Ret true => true | _ => false end);
   (let C := test_container in match (x24 <- (p <- (p <- (p <- (p <- (p <- (Ret phone0) ;; x <- (Ret (262)%Z) ;; Ret (set_cc p (Some x))) ;; x <- (Ret 262123456%N) ;; Ret (set_nn p (Some x))) ;; x <- (Ret 269601234%N) ;; Ret (set_nn p (Some x))) ;; x <- (Ret 269123456%N) ;; Ret (set_nn p (Some x))) ;; x <- (Ret 800123456%N) ;; Ret (set_nn p (Some x))) ;; x25 <- (Ret (bs "RE")) ;; IsValidNumberForRegion C x24 x25) with Ret true => true | _ => false end);
   (let C := test_container in match (x26 <- (p <- (p <- (Ret phone0) ;; x <- (Ret (800)%Z) ;; Ret (set_cc p (Some x))) ;; x <- (Ret 12345678%N) ;; Ret (set_nn p (Some x))) ;; x27 <- (Ret (bs "001")) ;; IsValidNumberForRegion C x26 x27) with Ret true => true | _ => false end);
   (let C := test_container in match (x28 <- (p <- (p <- (Ret phone0) ;; x <- (Ret (800)%Z) ;; Ret (set_cc p (Some x))) ;; x <- (Ret 12345678%N) ;; Ret (set_nn p (Some x))) ;; x29 <- (Ret (bs "US")) ;; IsValidNumberForRegion C x28 x29) with Ret false => true | _ => false end);
   (let C := test_container in match (x30 <- (p <- (p <- (Ret phone0) ;; x <- (Ret (800)%Z) ;; Ret (set_cc p (Some x))) ;; x <- (Ret 12345678%N) ;; Ret (set_nn p (Some x))) ;; x31 <- (Ret (bs "ZZ")) ;; IsValidNumberForRegion C x30 x31) with Ret false => true | _ => false end);
   (let C := test_container in match (x32 <- (p <- (p <- (Ret phone0) ;; x <- (Ret (3923)%Z) ;; Ret (set_cc p (Some x))) ;; x <- (Ret 2366%N) ;; Ret (set_nn p (Some x))) ;; x33 <- (Ret (bs "ZZ")) ;; IsValidNumberForRegion C x32 x33) with Ret false => true | _ => false end);
   (let C := test_container in match (x34 <- (p <- (p <- (Ret phone0) ;; x <- (Ret (3923)%Z) ;; Ret (set_cc p (Some x))) ;; x <- (Ret 2366%N) ;; Ret (set_nn p (Some x))) ;; x35 <- (Ret (bs "001")) ;; IsValidNumberForRegion C x34 x35) with Ret false => true | _ => false end);
   (let C := test_container in match (x36 <- (p <- (p <- (p <- (Ret phone0) ;; x <- (Ret (3923)%Z) ;; Ret (set_cc p (Some x))) ;; x <- (Ret 2366%N) ;; Ret (set_nn p (Some x))) ;; x <- (Ret (0)%Z) ;; Ret (set_cc p (Some x))) ;; x37 <- (Ret (bs "001")) ;; IsValidNumberForRegion C x36 x37) with Ret false => true | _ => false end);
   (let C := test_container in match (x38 <- (p <- (p <- (p <- (Ret phone0) ;; x <- (Ret (3923)%Z) ;; Ret (set_cc p (Some x))) ;; x <- (Ret 2366%N) ;; Ret (set_nn p (Some x))) ;; x <- (Ret (0)%Z) ;; Ret (set_cc p (Some x))) ;; x39 <- (Ret (bs "ZZ")) ;; IsValidNumberForRegion C x38 x39) with Ret false => true | _ => false end)].

Lemma TestIsValidForRegion_ok : forallb (fun b => b) TestIsValidForRegion = true.
Proof. vm_cast_no_check (eq_refl true). Qed.

(* phonenumberutil_test.go: TestIsNotValidNumber, 8 checks, 0 statements not translated *)
Definition TestIsNotValidNumber : list bool :=
  [(let C := test_container in match (x1 <- (p <- (p <- (Ret phone0) ;; x <- (Ret (1)%Z) ;; Ret (set_cc p (Some x))) ;; x <- (Ret 2530000%N) ;; Ret (set_nn p (Some x))) ;; IsValidNumber C x1) with Ret false => true | _ => false end);
   (let C := test_container in match (x2 <- (p <- (p <- (p <- (Ret phone0) ;; x <- (Ret (39)%Z) ;; Ret (set_cc p (Some x))) ;; x <- (Ret 23661830000%N) ;; Ret (set_nn p (Some x))) ;; x <- (Ret true) ;; Ret (set_ilz p (Some x))) ;; IsValidNumber C x2) with Ret false => true | _ => false end);
   (let C := test_container in match (x3 <- (p <- (p <- (Ret phone0) ;; x <- (Ret (44)%Z) ;; Ret (set_cc p (Some x))) ;; x <- (Ret 791234567%N) ;; Ret (set_nn p (Some x))) ;; IsValidNumber C x3) with Ret false => true | _ => false end);
   (let C := test_container in match (x4 <- (p <- (p <- (Ret phone0) ;; x <- (Ret (49)%Z) ;; Ret (set_cc p (Some x))) ;; x <- (Ret 1234%N) ;; Ret (set_nn p (Some x))) ;; IsValidNumber C x4) with Ret false => true | _ => false end);
   (let C := test_container in match (x5 <- (p <- (p <- (Ret phone0) ;; x <- (Ret (64)%Z) ;; Ret (set_cc p (Some x))) ;; x <- (Ret 3316005%N) ;; Ret (set_nn p (Some x))) ;; IsValidNumber C x5) with Ret false => true | _ => false end);
   (let C := test_container in match (x6 <- (p <- (p <- (Ret phone0) ;; x <- (Ret (3923)%Z) ;; Ret (set_cc p (Some x))) ;; x <- (Ret 2366%N) ;; Ret (set_nn p (Some x))) ;; IsValidNumber C x6) with Ret false => true | _ => false end);
   (let C := test_container in match (x7 <- (p <- (p <- (p <- (Ret phone0) ;; x <- (Ret (3923)%Z) ;; Ret (set_cc p (Some x))) ;; x <- (Ret 2366%N) ;; Ret (set_nn p (Some x))) ;; x <- (Ret (0)%Z) ;; Ret (set_cc p (Some x))) ;; IsValidNumber C x7) with Ret false => true | _ => false end);
   (let C := test_container in match (x8 <- (p <- (p <- (Ret phone0) ;; x <- (Ret (800)%Z) ;; Ret (set_cc p (Some x))) ;; x <- (Ret 123456789%N) ;; Ret (set_nn p (Some x))) ;; IsValidNumber C x8) with Ret false => true | _ => false end)].

Lemma TestIsNotValidNumber_ok : forallb (fun b => b) TestIsNotValidNumber = true.
Proof. vm_cast_no_check (eq_refl true). Qed.

(* phonenumberutil_test.go: TestGetRegionCodeForCountryCode, 5 checks, 0 statements not translated *)
Definition TestGetRegionCodeForCountryCode : list bool :=
  [(let C := test_container in match (Ret (bs "US")), (x1 <- (Ret (1)%Z) ;; Ret (GetRegionCodeForCountryCode C x1)) with Ret a, Ret b => beq a b | _, _ => false end);
   (let C := test_container in match (Ret (bs "GB")), (x2 <- (Ret (44)%Z) ;; Ret (GetRegionCodeForCountryCode C x2)) with Ret a, Ret b => beq a b | _, _ => false end);
   (let C := test_container in match (Ret (bs "DE")), (x3 <- (Ret (49)%Z) ;; Ret (GetRegionCodeForCountryCode C x3)) with Ret a, Ret b => beq a b | _, _ => false end);
   (let C := test_container in match (Ret (bs "001")), (x4 <- (Ret (800)%Z) ;; Ret (GetRegionCodeForCountryCode C x4)) with Ret a, Ret b => beq a b | _, _ => false end);
   (let C := test_container in match (Ret (bs "001")), (x5 <- (Ret (979)%Z) ;; Ret (GetRegionCodeForCountryCode C x5)) with Ret a, Ret b => beq a b | _, _ => false end)].

Lemma TestGetRegionCodeForCountryCode_ok : forallb (fun b => b) TestGetRegionCodeForCountryCode = true.
Proof. vm_cast_no_check (eq_refl true). Qed.

(* phonenumberutil_test.go: TestGetRegionCodeForNumber, 5 checks, 0 statements not translated *)
Definition TestGetRegionCodeForNumber : list bool :=
  [(let C := test_container in match (Ret (bs "BS")), (x1 <- (p <- (p <- (Ret phone0) ;; x <- (Ret (1)%Z) ;; Ret (set_cc p (Some x))) ;; x <- (Ret 2423651234%N) ;; Ret (set_nn p (Some x))) ;; GetRegionCodeForNumber C x1) with Ret a, Ret b => beq a b | _, _ => false end);
   (let C := test_container in match (Ret (bs "US")), (x2 <- (p <- (p <- (Ret phone0) ;; x <- (Ret (1)%Z) ;; Ret (set_cc p (Some x))) ;; x <- (Ret 6502530000%N) ;; Ret (set_nn p (Some x))) ;; GetRegionCodeForNumber C x2) with Ret a, Ret b => beq a b | _, _ => false end);
   (let C := test_container in match (Ret (bs "GB")), (x3 <- (p <- (p <- (Ret phone0) ;; x <- (Ret (44)%Z) ;; Ret (set_cc p (Some x))) ;; x <- (Ret 7912345678%N) ;; Ret (set_nn p (Some x))) ;; GetRegionCodeForNumber C x3) with Ret a, Ret b => beq a b | _, _ => false end);
   (let C := test_container in match (Ret (bs "001")), (x4 <- (p <- (p <- (Ret phone0) ;; x <- (Ret (800)%Z) ;; Ret (set_cc p (Some x))) ;; x <- (Ret 12345678%N) ;; Ret (set_nn p (Some x))) ;; GetRegionCodeForNumber C x4) with Ret a, Ret b => beq a b | _, _ => false end);
   (let C := test_container in match (Ret (bs "001")), (x5 <- (p <- (p <- (Ret phone0) ;; x <- (Ret (979)%Z) ;; Ret (set_cc p (Some x))) ;; x <- (Ret 123456789%N) ;; Ret (set_nn p (Some x))) ;; GetRegionCodeForNumber C x5) with Ret a, Ret b => beq a b | _, _ => false end)].

Lemma TestGetRegionCodeForNumber_ok : forallb (fun b => b) TestGetRegionCodeForNumber = true.
Proof. vm_cast_no_check (eq_refl true). Qed.

(* phonenumberutil_test.go: TestGetCountryCodeForRegion, 6 checks, 0 statements not translated *)
Definition TestGetCountryCodeForRegion : list bool :=
  [(let C := test_container in match (Ret (1)%Z), (x1 <- (Ret (bs "US")) ;; Ret (GetCountryCodeForRegion C x1)) with Ret a, Ret b => Z.eqb a b | _, _ => false end);
   (let C := test_container in match (Ret (64)%Z), (x2 <- (Ret (bs "NZ")) ;; Ret (GetCountryCodeForRegion C x2)) with Ret a, Ret b => Z.eqb a b | _, _ => false end);
   (let C := test_container in match (Ret (0)%Z), (x3 <- (Ret (bs "")) ;; Ret (GetCountryCodeForRegion C x3)) with Ret a, Ret b => Z.eqb a b | _, _ => false end);
   (let C := test_container in match (Ret (0)%Z), (x4 <- (Ret (bs "ZZ")) ;; Ret (GetCountryCodeForRegion C x4)) with Ret a, Ret b => Z.eqb a b | _, _ => false end);
   (let C := test_container in match (Ret (0)%Z), (x5 <- (Ret (bs "001")) ;; Ret (GetCountryCodeForRegion C x5)) with Ret a, Ret b => Z.eqb a b | _, _ => false end);
   (let C := test_container in match (Ret (0)%Z), (x6 <- (Ret (bs "CS")) ;; Ret (GetCountryCodeForRegion C x6)) with Ret a, Ret b => Z.eqb a b | _, _ => false end)].

Lemma TestGetCountryCodeForRegion_ok : forallb (fun b => b) TestGetCountryCodeForRegion = true.
Proof. vm_cast_no_check (eq_refl true). Qed.

(* phonenumberutil_test.go: TestGetNationalDiallingPrefixForRegion, 9 checks, 0 statements not translated *)
Definition TestGetNationalDiallingPrefixForRegion : list bool :=
  [(let C := test_container in match (Ret (bs "1")), (x1 <- (Ret (bs "US")) ;; x2 <- (Ret false) ;; Ret (GetNddPrefixForRegion C x1 x2)) with Ret a, Ret b => beq a b | _, _ => false end);
   (let C := test_container in match (Ret (bs "1")), (x3 <- (Ret (bs "BS")) ;; x4 <- (Ret false) ;; Ret (GetNddPrefixForRegion C x3 x4)) with Ret a, Ret b => beq a b | _, _ => false end);
   (let C := test_container in match (Ret (bs "0")), (x5 <- (Ret (bs "NZ")) ;; x6 <- (Ret false) ;; Ret (GetNddPrefixForRegion C x5 x6)) with Ret a, Ret b => beq a b | _, _ => false end);
   (let C := test_container in match (Ret (bs "0~0")), (x7 <- (Ret (bs "AO")) ;; x8 <- (Ret false) ;; Ret (GetNddPrefixForRegion C x7 x8)) with Ret a, Ret b => beq a b | _, _ => false end);
   (let C := test_container in match (Ret (bs "00")), (x9 <- (Ret (bs "AO")) ;; x10 <- (Ret true) ;; Ret (GetNddPrefixForRegion C x9 x10)) with Ret a, Ret b => beq a b | _, _ => false end);
   (let C := test_container in match (Ret (bs "")), (x11 <- (Ret (bs "")) ;; x12 <- (Ret false) ;; Ret (GetNddPrefixForRegion C x11 x12)) with Ret a, Ret b => beq a b | _, _ => false end);
   (let C := test_container in match (Ret (bs "")), (x13 <- (Ret (bs "ZZ")) ;; x14 <- (Ret false) ;; Ret (GetNddPrefixForRegion C x13 x14)) with Ret a, Ret b => beq a b | _, _ => false end);
   (let C := test_container in match (Ret (bs "")), (x15 <- (Ret (bs "001")) ;; x16 <- (Ret false) ;; Ret (GetNddPrefixForRegion C x15 x16)) with Ret a, Ret b => beq a b | _, _ => false end);
   (let C := test_container in match (Ret (bs "")), (x17 <- (Ret (bs "CS")) ;; x18 <- (Ret false) ;; Ret (GetNddPrefixForRegion C x17 x18)) with Ret a, Ret b => beq a b | _, _ => false end)].

Lemma TestGetNationalDiallingPrefixForRegion_ok : forallb (fun b => b) TestGetNationalDiallingPrefixForRegion = true.
Proof. vm_cast_no_check (eq_refl true). Qed.

(* phonenumberutil_test.go: TestIsNANPACountry, 6 checks, 0 statements not translated *)
Definition TestIsNANPACountry : list bool :=
  [(let C := test_container in match (x1 <- (Ret (bs "US")) ;; Ret (IsNANPACountry C x1)) with Ret true => true | _ => false end);
   (let C := test_container in match (x2 <- (Ret (bs "BS")) ;; Ret (IsNANPACountry C x2)) with Ret true => true | _ => false end);
   (let C := test_container in match (x3 <- (Ret (bs "DE")) ;; Ret (IsNANPACountry C x3)) with Ret false => true | _ => false end);
   (let C := test_container in match (x4 <- (Ret (bs "ZZ")) ;; Ret (IsNANPACountry C x4)) with Ret false => true | _ => false end);
   (let C := test_container in match (x5 <- (Ret (bs "001")) ;; Ret (IsNANPACountry C x5)) with Ret false => true | _ => false end);
   (let C := test_container in match (x6 <- (Ret (bs "")) ;; Ret (IsNANPACountry C x6)) with Ret false => true | _ => false end)].

Lemma TestIsNANPACountry_ok : forallb (fun b => b) TestIsNANPACountry = true.
Proof. vm_cast_no_check (eq_refl true). Qed.

(* phonenumberutil_test.go: TestIsPossibleNumber, 14 checks, 0 statements not translated *)
Definition TestIsPossibleNumber : list bool :=
  [(let C := test_container in match (x1 <- (p <- (p <- (Ret phone0) ;; x <- (Ret (1)%Z) ;; Ret (set_cc p (Some x))) ;; x <- (Ret 6502530000%N) ;; Ret (set_nn p (Some x))) ;; IsPossibleNumber C x1) with Ret true => true | _ => false end);
   (let C := test_container in match (x2 <- (p <- (p <- (Ret phone0) ;; x <- (Ret (1)%Z) ;; Ret (set_cc p (Some x))) ;; x <- (Ret 2530000%N) ;; Ret (set_nn p (Some x))) ;; IsPossibleNumber C x2) with Ret true => true | _ => false end);
   (let C := test_container in match (x3 <- (p <- (p <- (Ret phone0) ;; x <- (Ret (44)%Z) ;; Ret (set_cc p (Some x))) ;; x <- (Ret 2070313000%N) ;; Ret (set_nn p (Some x))) ;; IsPossibleNumber C x3) with Ret true => true | _ => false end);
   (let C := test_container in match (x4 <- (p <- (p <- (Ret phone0) ;; x <- (Ret (800)%Z) ;; Ret (set_cc p (Some x))) ;; x <- (Ret 12345678%N) ;; Ret (set_nn p (Some x))) ;; IsPossibleNumber C x4) with Ret true => true | _ => false end);
   (let C := test_container in match (x5 <- (Ret (bs "+1 650 253 0000")) ;; x6 <- (Ret (bs "US")) ;; IsPossibleNumberFromRegion C x5 x6) with Ret true => true | _ => false end);
   (let C := test_container in match (x7 <- (Ret (bs "+1 650 GOO OGLE")) ;; x8 <- (Ret (bs "US")) ;; IsPossibleNumberFromRegion C x7 x8) with Ret true => true | _ => false end);
   (let C := test_container in match (x9 <- (Ret (bs "(650) 253-0000")) ;; x10 <- (Ret (bs "US")) ;; IsPossibleNumberFromRegion C x9 x10) with Ret true => true | _ => false end);
   (let C := test_container in match (x11 <- (Ret (bs "253-0000")) ;; x12 <- (Ret (bs "US")) ;; IsPossibleNumberFromRegion C x11 x12) with Ret true => true | _ => false end);
   (let C := test_container in match (x13 <- (Ret (bs "+1 650 253 0000")) ;; x14 <- (Ret (bs "GB")) ;; IsPossibleNumberFromRegion C x13 x14) with Ret true => true | _ => false end);
   (let C := test_container in match (x15 <- (Ret (bs "+44 20 7031 3000")) ;; x16 <- (Ret (bs "GB")) ;; IsPossibleNumberFromRegion C x15 x16) with Ret true => true | _ => false end);
   (let C := test_container in match (x17 <- (Ret (bs "(020) 7031 300")) ;; x18 <- (Ret (bs "GB")) ;; IsPossibleNumberFromRegion C x17 x18) with Ret true => true | _ => false end);
   (let C := test_container in match (x19 <- (Ret (bs "7031 3000")) ;; x20 <- (Ret (bs "GB")) ;; IsPossibleNumberFromRegion C x19 x20) with Ret true => true | _ => false end);
   (let C := test_container in match (x21 <- (Ret (bs "3331 6005")) ;; x22 <- (Ret (bs "NZ")) ;; IsPossibleNumberFromRegion C x21 x22) with Ret true => true | _ => false end);
   (let C := test_container in match (x23 <- (Ret (bs "+800 1234 5678")) ;; x24 <- (Ret (bs "001")) ;; IsPossibleNumberFromRegion C x23 x24) with Ret true => true | _ => false end)].

Lemma TestIsPossibleNumber_ok : forallb (fun b => b) TestIsPossibleNumber = true.
Proof. vm_cast_no_check (eq_refl true). Qed.

(* phonenumberutil_test.go: TestIsPossibleNumberForTypeDifferentTypeLengths, 18 checks, 0 statements not translated *)
Definition TestIsPossibleNumberForTypeDifferentTypeLengths : list bool :=
  [(let C := test_container in match (x1 <- (p <- (p <- (Ret phone0) ;; x <- (Ret (54)%Z) ;; Ret (set_cc p (Some x))) ;; x <- (Ret 12345%N) ;; Ret (set_nn p (Some x))) ;; x2 <- (Ret FIXED_LINE) ;; IsPossibleNumberForType C x1 x2) with Ret false => true | _ => false end);
   (let C := test_container in match (x3 <- (p <- (p <- (Ret phone0) ;; x <- (Ret (54)%Z) ;; Ret (set_cc p (Some x))) ;; x <- (Ret 12345%N) ;; Ret (set_nn p (Some x))) ;; x4 <- (Ret UNKNOWN) ;; IsPossibleNumberForType C x3 x4) with Ret false => true | _ => false end);
   (let C := test_container in match (x5 <- (p <- (p <- (p <- (Ret phone0) ;; x <- (Ret (54)%Z) ;; Ret (set_cc p (Some x))) ;; x <- (Ret 12345%N) ;; Ret (set_nn p (Some x))) ;; x <- (Ret 123456%N) ;; Ret (set_nn p (Some x))) ;; x6 <- (Ret UNKNOWN) ;; IsPossibleNumberForType C x5 x6) with Ret true => true | _ => false end);
   (let C := test_container in match (x7 <- (p <- (p <- (p <- (Ret phone0) ;; x <- (Ret (54)%Z) ;; Ret (set_cc p (Some x))) ;; x <- (Ret 12345%N) ;; Ret (set_nn p (Some x))) ;; x <- (Ret 123456%N) ;; Ret (set_nn p (Some x))) ;; x8 <- (Ret FIXED_LINE) ;; IsPossibleNumberForType C x7 x8) with Ret true => true | _ => false end);
   (let C := test_container in match (x9 <- (p <- (p <- (p <- (Ret phone0) ;; x <- (Ret (54)%Z) ;; Ret (set_cc p (Some x))) ;; x <- (Ret 12345%N) ;; Ret (set_nn p (Some x))) ;; x <- (Ret 123456%N) ;; Ret (set_nn p (Some x))) ;; x10 <- (Ret MOBILE) ;; IsPossibleNumberForType C x9 x10) with Ret false => true | _ => false end);
   (let C := test_container in match (x11 <- (p <- (p <- (p <- (Ret phone0) ;; x <- (Ret (54)%Z) ;; Ret (set_cc p (Some x))) ;; x <- (Ret 12345%N) ;; Ret (set_nn p (Some x))) ;; x <- (Ret 123456%N) ;; Ret (set_nn p (Some x))) ;; x12 <- (Ret TOLL_FREE) ;; IsPossibleNumberForType C x11 x12) with Ret false => true | _ => false end);
   (let C := test_container in match (x13 <- (p <- (p <- (p <- (p <- (Ret phone0) ;; x <- (Ret (54)%Z) ;; Ret (set_cc p (Some x))) ;; x <- (Ret 12345%N) ;; Ret (set_nn p (Some x))) ;; x <- (Ret 123456%N) ;; Ret (set_nn p (Some x))) ;; x <- (Ret 123456789%N) ;; Ret (set_nn p (Some x))) ;; x14 <- (Ret UNKNOWN) ;; IsPossibleNumberForType C x13 x14) with Ret true => true | _ => false end);
   (let C := test_container in match (x15 <- (p <- (p <- (p <- (p <- (Ret phone0) ;; x <- (Ret (54)%Z) ;; Ret (set_cc p (Some x))) ;; x <- (Ret 12345%N) ;; Ret (set_nn p (Some x))) ;; x <- (Ret 123456%N) ;; Ret (set_nn p (Some x))) ;; x <- (Ret 123456789%N) ;; Ret (set_nn p (Some x))) ;; x16 <- (Ret FIXED_LINE) ;; IsPossibleNumberForType C x15 x16) with Ret true => true | _ => false end);
   (let C := test_container in match (x17 <- (p <- (p <- (p <- (p <- (Ret phone0) ;; x <- (Ret (54)%Z) ;; Ret (set_cc p (Some x))) ;; x <- (Ret 12345%N) ;; Ret (set_nn p (Some x))) ;; x <- (Ret 123456%N) ;; Ret (set_nn p (Some x))) ;; x <- (Ret 123456789%N) ;; Ret (set_nn p (Some x))) ;; x18 <- (Ret MOBILE) ;; IsPossibleNumberForType C x17 x18) with Ret false => true | _ => false end);
   (let C := test_container in match (x19 <- (p <- (p <- (p <- (p <- (Ret phone0) ;; x <- (Ret (54)%Z) ;; Ret (set_cc p (Some x))) ;; x <- (Ret 12345%N) ;; Ret (set_nn p (Some x))) ;; x <- (Ret 123456%N) ;; Ret (set_nn p (Some x))) ;; x <- (Ret 123456789%N) ;; Ret (set_nn p (Some x))) ;; x20 <- (Ret TOLL_FREE) ;; IsPossibleNumberForType C x19 x20) with Ret false => true | _ => false end);
   (let C := test_container in match (x21 <- (p <- (p <- (p <- (p <- (p <- (Ret phone0) ;; x <- (Ret (54)%Z) ;; Ret (set_cc p (Some x))) ;; x <- (Ret 12345%N) ;; Ret (set_nn p (Some x))) ;; x <- (Ret 123456%N) ;; Ret (set_nn p (Some x))) ;; x <- (Ret 123456789%N) ;; Ret (set_nn p (Some x))) ;; x <- (Ret 1234567890%N) ;; Ret (set_nn p (Some x))) ;; x22 <- (Ret UNKNOWN) ;; IsPossibleNumberForType C x21 x22) with Ret true => true | _ => false end);
   (let C := test_container in match (x23 <- (p <- (p <- (p <- (p <- (p <- (Ret phone0) ;; x <- (Ret (54)%Z) ;; Ret (set_cc p (Some x))) ;; x <- (Ret 12345%N) ;; Ret (set_nn p (Some x))) ;; x <- (Ret 123456%N) ;; Ret (set_nn p (Some x))) ;; x <- (Ret 123456789%N) ;; Ret (set_nn p (Some x))) ;; x <- (Ret 1234567890%N) ;; Ret (set_nn p (Some x))) ;; x24 <- (Ret FIXED_LINE) ;; IsPossibleNumberForType C x23 x24) with Ret true => true | _ => false end);
   (let C := test_container in match (x25 <- (p <- (p <- (p <- (p <- (p <- (Ret phone0) ;; x <- (Ret (54)%Z) ;; Ret (set_cc p (Some x))) ;; x <- (Ret 12345%N) ;; Ret (set_nn p (Some x))) ;; x <- (Ret 123456%N) ;; Ret (set_nn p (Some x))) ;; x <- (Ret 123456789%N) ;; Ret (set_nn p (Some x))) ;; x <- (Ret 1234567890%N) ;; Ret (set_nn p (Some x))) ;; x26 <- (Ret MOBILE) ;; IsPossibleNumberForType C x25 x26) with Ret true => true | _ => false end);
   (let C := test_container in match (x27 <- (p <- (p <- (p <- (p <- (p <- (Ret phone0) ;; x <- (Ret (54)%Z) ;; Ret (set_cc p (Some x))) ;; x <- (Ret 12345%N) ;; Ret (set_nn p (Some x))) ;; x <- (Ret 123456%N) ;; Ret (set_nn p (Some x))) ;; x <- (Ret 123456789%N) ;; Ret (set_nn p (Some x))) ;; x <- (Ret 1234567890%N) ;; Ret (set_nn p (Some x))) ;; x28 <- (Ret TOLL_FREE) ;; IsPossibleNumberForType C x27 x28) with Ret true => true | _ => false end);
   (let C := test_container in match (x29 <- (p <- (p <- (p <- (p <- (p <- (p <- (Ret phone0) ;; x <- (Ret (54)%Z) ;; Ret (set_cc p (Some x))) ;; x <- (Ret 12345%N) ;; Ret (set_nn p (Some x))) ;; x <- (Ret 123456%N) ;; Ret (set_nn p (Some x))) ;; x <- (Ret 123456789%N) ;; Ret (set_nn p (Some x))) ;; x <- (Ret 1234567890%N) ;; Ret (set_nn p (Some x))) ;; x <- (Ret 12345678901%N) ;; Ret (set_nn p (Some x))) ;; x30 <- (Ret UNKNOWN) ;; IsPossibleNumberForType C x29 x30) with Ret true => true | _ => false end);
   (let C := test_container in match (x31 <- (p <- (p <- (p <- (p <- (p <- (p <- (Ret phone0) ;; x <- (Ret (54)%Z) ;; Ret (set_cc p (Some x))) ;; x <- (Ret 12345%N) ;; Ret (set_nn p (Some x))) ;; x <- (Ret 123456%N) ;; Ret (set_nn p (Some x))) ;; x <- (Ret 123456789%N) ;; Ret (set_nn p (Some x))) ;; x <- (Ret 1234567890%N) ;; Ret (set_nn p (Some x))) ;; x <- (Ret 12345678901%N) ;; Ret (set_nn p (Some x))) ;; x32 <- (Ret FIXED_LINE) ;; IsPossibleNumberForType C x31 x32) with Ret false => true | _ => false end);
   (let C := test_container in match (x33 <- (p <- (p <- (p <- (p <- (p <- (p <- (Ret phone0) ;; x <- (Ret (54)%Z) ;; Ret (set_cc p (Some x))) ;; x <- (Ret 12345%N) ;; Ret (set_nn p (Some x))) ;; x <- (Ret 123456%N) ;; Ret (set_nn p (Some x))) ;; x <- (Ret 123456789%N) ;; Ret (set_nn p (Some x))) ;; x <- (Ret 1234567890%N) ;; Ret (set_nn p (Some x))) ;; x <- (Ret 12345678901%N) ;; Ret (set_nn p (Some x))) ;; x34 <- (Ret MOBILE) ;; IsPossibleNumberForType C x33 x34) with Ret true => true | _ => false end);
   (let C := test_container in match (x35 <- (p <- (p <- (p <- (p <- (p <- (p <- (Ret phone0) ;; x <- (Ret (54)%Z) ;; Ret (set_cc p (Some x))) ;; x <- (Ret 12345%N) ;; Ret (set_nn p (Some x))) ;; x <- (Ret 123456%N) ;; Ret (set_nn p (Some x))) ;; x <- (Ret 123456789%N) ;; Ret (set_nn p (Some x))) ;; x <- (Ret 1234567890%N) ;; Ret (set_nn p (Some x))) ;; x <- (Ret 12345678901%N) ;; Ret (set_nn p (Some x))) ;; x36 <- (Ret TOLL_FREE) ;; IsPossibleNumberForType C x35 x36) with Ret false => true | _ => false end)].

Lemma TestIsPossibleNumberForTypeDifferentTypeLengths_ok : forallb (fun b => b) TestIsPossibleNumberForTypeDifferentTypeLengths = true.
Proof. vm_cast_no_check (eq_refl true). Qed.

(* phonenumberutil_test.go: TestIsPossibleNumberForTypeLocalOnly, 3 checks, 0 statements not translated *)
Definition TestIsPossibleNumberForTypeLocalOnly : list bool :=
  [(let C := test_container in match (x1 <- (p <- (p <- (Ret phone0) ;; x <- (Ret (49)%Z) ;; Ret (set_cc p (Some x))) ;; x <- (Ret 12%N) ;; Ret (set_nn p (Some x))) ;; x2 <- (Ret UNKNOWN) ;; IsPossibleNumberForType C x1 x2) with Ret true => true | _ => false end);
   (let C := test_container in match (x3 <- (p <- (p <- (Ret phone0) ;; x <- (Ret (49)%Z) ;; Ret (set_cc p (Some x))) ;; x <- (Ret 12%N) ;; Ret (set_nn p (Some x))) ;; x4 <- (Ret FIXED_LINE) ;; IsPossibleNumberForType C x3 x4) with Ret true => true | _ => false end);
   (let C := test_container in match (x5 <- (p <- (p <- (Ret phone0) ;; x <- (Ret (49)%Z) ;; Ret (set_cc p (Some x))) ;; x <- (Ret 12%N) ;; Ret (set_nn p (Some x))) ;; x6 <- (Ret MOBILE) ;; IsPossibleNumberForType C x5 x6) with Ret false => true | _ => false end)].

Lemma TestIsPossibleNumberForTypeLocalOnly_ok : forallb (fun b => b) TestIsPossibleNumberForTypeLocalOnly = true.
Proof. vm_cast_no_check (eq_refl true). Qed.

(* phonenumberutil_test.go: TestIsPossibleNumberForTypeDataMissingForSizeReasons, 4 checks, 0 statements not translated *)
Definition TestIsPossibleNumberForTypeDataMissingForSizeReasons : list bool :=
  [(let C := test_container in match (x1 <- (p <- (p <- (Ret phone0) ;; x <- (Ret (55)%Z) ;; Ret (set_cc p (Some x))) ;; x <- (Ret 12345678%N) ;; Ret (set_nn p (Some x))) ;; x2 <- (Ret UNKNOWN) ;; IsPossibleNumberForType C x1 x2) with Ret true => true | _ => false end);
   (let C := test_container in match (x3 <- (p <- (p <- (Ret phone0) ;; x <- (Ret (55)%Z) ;; Ret (set_cc p (Some x))) ;; x <- (Ret 12345678%N) ;; Ret (set_nn p (Some x))) ;; x4 <- (Ret FIXED_LINE) ;; IsPossibleNumberForType C x3 x4) with Ret true => true | _ => false end);
   (let C := test_container in match (x5 <- (p <- (p <- (p <- (Ret phone0) ;; x <- (Ret (55)%Z) ;; Ret (set_cc p (Some x))) ;; x <- (Ret 12345678%N) ;; Ret (set_nn p (Some x))) ;; x <- (Ret 1234567890%N) ;; Ret (set_nn p (Some x))) ;; x6 <- (Ret UNKNOWN) ;; IsPossibleNumberForType C x5 x6) with Ret true => true | _ => false end);
   (let C := test_container in match (x7 <- (p <- (p <- (p <- (Ret phone0) ;; x <- (Ret (55)%Z) ;; Ret (set_cc p (Some x))) ;; x <- (Ret 12345678%N) ;; Ret (set_nn p (Some x))) ;; x <- (Ret 1234567890%N) ;; Ret (set_nn p (Some x))) ;; x8 <- (Ret FIXED_LINE) ;; IsPossibleNumberForType C x7 x8) with Ret true => true | _ => false end)].

Lemma TestIsPossibleNumberForTypeDataMissingForSizeReasons_ok : forallb (fun b => b) TestIsPossibleNumberForTypeDataMissingForSizeReasons = true.
Proof. vm_cast_no_check (eq_refl true). Qed.

(* phonenumberutil_test.go: TestIsPossibleNumberForTypeNumberTypeNotSupportedForRegion, 7 checks, 0 statements not translated *)
Definition TestIsPossibleNumberForTypeNumberTypeNotSupportedForRegion : list bool :=
  [(let C := test_container in match (x1 <- (p <- (p <- (Ret phone0) ;; x <- (Ret (55)%Z) ;; Ret (set_cc p (Some x))) ;; x <- (Ret 12345678%N) ;; Ret (set_nn p (Some x))) ;; x2 <- (Ret MOBILE) ;; IsPossibleNumberForType C x1 x2) with Ret false => true | _ => false end);
   (let C := test_container in match (x3 <- (p <- (p <- (Ret phone0) ;; x <- (Ret (55)%Z) ;; Ret (set_cc p (Some x))) ;; x <- (Ret 12345678%N) ;; Ret (set_nn p (Some x))) ;; x4 <- (Ret FIXED_LINE) ;; IsPossibleNumberForType C x3 x4) with Ret true => true | _ => false end);
   (let C := test_container in match (x5 <- (p <- (p <- (Ret phone0) ;; x <- (Ret (55)%Z) ;; Ret (set_cc p (Some x))) ;; x <- (Ret 12345678%N) ;; Ret (set_nn p (Some x))) ;; x6 <- (Ret FIXED_LINE_OR_MOBILE) ;; IsPossibleNumberForType C x5 x6) with Ret true => true | _ => false end);
   (let C := test_container in match (x7 <- (p <- (p <- (Ret phone0) ;; x <- (Ret (979)%Z) ;; Ret (set_cc p (Some x))) ;; x <- (Ret 123456789%N) ;; Ret (set_nn p (Some x))) ;; x8 <- (Ret MOBILE) ;; IsPossibleNumberForType C x7 x8) with Ret false => true | _ => false end);
   (let C := test_container in match (x9 <- (p <- (p <- (Ret phone0) ;; x <- (Ret (979)%Z) ;; Ret (set_cc p (Some x))) ;; x <- (Ret 123456789%N) ;; Ret (set_nn p (Some x))) ;; x10 <- (Ret FIXED_LINE) ;; IsPossibleNumberForType C x9 x10) with Ret false => true | _ => false end);
   (let C := test_container in match (x11 <- (p <- (p <- (Ret phone0) ;; x <- (Ret (979)%Z) ;; Ret (set_cc p (Some x))) ;; x <- (Ret 123456789%N) ;; Ret (set_nn p (Some x))) ;; x12 <- (Ret FIXED_LINE_OR_MOBILE) ;; IsPossibleNumberForType C x11 x12) with Ret false => true | _ => false end);
   (let C := test_container in match (x13 <- (p <- (p <- (Ret phone0) ;; x <- (Ret (979)%Z) ;; Ret (set_cc p (Some x))) ;; x <- (Ret 123456789%N) ;; Ret (set_nn p (Some x))) ;; x14 <- (Ret PREMIUM_RATE) ;; IsPossibleNumberForType C x13 x14) with Ret true => true | _ => false end)].

Lemma TestIsPossibleNumberForTypeNumberTypeNotSupportedForRegion_ok : forallb (fun b => b) TestIsPossibleNumberForTypeNumberTypeNotSupportedForRegion = true.
Proof. vm_cast_no_check (eq_refl true). Qed.

(* phonenumberutil_test.go: TestIsPossibleNumberWithReason, 7 checks, 0 statements not translated *)
Definition TestIsPossibleNumberWithReason : list bool :=
  [(let C := test_container in match (Ret IS_POSSIBLE), (x1 <- (p <- (p <- (Ret phone0) ;; x <- (Ret (1)%Z) ;; Ret (set_cc p (Some x))) ;; x <- (Ret 6502530000%N) ;; Ret (set_nn p (Some x))) ;; IsPossibleNumberWithReason C x1) with Ret a, Ret b => vresult_eqb a b | _, _ => false end);
   (let C := test_container in match (Ret IS_POSSIBLE_LOCAL_ONLY), (x2 <- (p <- (p <- (Ret phone0) ;; x <- (Ret (1)%Z) ;; Ret (set_cc p (Some x))) ;; x <- (Ret 2530000%N) ;; Ret (set_nn p (Some x))) ;; IsPossibleNumberWithReason C x2) with Ret a, Ret b => vresult_eqb a b | _, _ => false end);
   (let C := test_container in match (Ret TOO_LONG), (x3 <- (p <- (p <- (Ret phone0) ;; x <- (Ret (1)%Z) ;; Ret (set_cc p (Some x))) ;; x <- (Ret 65025300001%N) ;; Ret (set_nn p (Some x))) ;; IsPossibleNumberWithReason C x3) with Ret a, Ret b => vresult_eqb a b | _, _ => false end);
   (let C := test_container in match (Ret INVALID_COUNTRY_CODE), (x4 <- (p <- (p <- (Ret phone0) ;; x <- (Ret (0)%Z) ;; Ret (set_cc p (Some x))) ;; x <- (Ret 2530000%N) ;; Ret (set_nn p (Some x))) ;; IsPossibleNumberWithReason C x4) with Ret a, Ret b => vresult_eqb a b | _, _ => false end);
   (let C := test_container in match (Ret TOO_SHORT), (x5 <- (p <- (p <- (Ret phone0) ;; x <- (Ret (1)%Z) ;; Ret (set_cc p (Some x))) ;; x <- (Ret 253000%N) ;; Ret (set_nn p (Some x))) ;; IsPossibleNumberWithReason C x5) with Ret a, Ret b => vresult_eqb a b | _, _ => false end);
   (let C := test_container in match (Ret IS_POSSIBLE), (x6 <- (p <- (p <- (Ret phone0) ;; x <- (Ret (65)%Z) ;; Ret (set_cc p (Some x))) ;; x <- (Ret 1234567890%N) ;; Ret (set_nn p (Some x))) ;; IsPossibleNumberWithReason C x6) with Ret a, Ret b => vresult_eqb a b | _, _ => false end);
   (let C := test_container in match (Ret TOO_LONG), (x7 <- (p <- (p <- (Ret phone0) ;; x <- (Ret (800)%Z) ;; Ret (set_cc p (Some x))) ;; x <- (Ret 123456789%N) ;; Ret (set_nn p (Some x))) ;; IsPossibleNumberWithReason C x7) with Ret a, Ret b => vresult_eqb a b | _, _ => false end)].

Lemma TestIsPossibleNumberWithReason_ok : forallb (fun b => b) TestIsPossibleNumberWithReason = true.
Proof. vm_cast_no_check (eq_refl true). Qed.

(* phonenumberutil_test.go: TestIsPossibleNumberForTypeWithReasonDifferentTypeLengths, 18 checks, 0 statements not translated *)
Definition TestIsPossibleNumberForTypeWithReasonDifferentTypeLengths : list bool :=
  [(let C := test_container in match (Ret TOO_SHORT), (x1 <- (p <- (p <- (Ret phone0) ;; x <- (Ret (54)%Z) ;; Ret (set_cc p (Some x))) ;; x <- (Ret 12345%N) ;; Ret (set_nn p (Some x))) ;; x2 <- (Ret UNKNOWN) ;; IsPossibleNumberForTypeWithReason C x1 x2) with Ret a, Ret b => vresult_eqb a b | _, _ => false end);
   (let C := test_container in match (Ret TOO_SHORT), (x3 <- (p <- (p <- (Ret phone0) ;; x <- (Ret (54)%Z) ;; Ret (set_cc p (Some x))) ;; x <- (Ret 12345%N) ;; Ret (set_nn p (Some x))) ;; x4 <- (Ret FIXED_LINE) ;; IsPossibleNumberForTypeWithReason C x3 x4) with Ret a, Ret b => vresult_eqb a b | _, _ => false end);
   (let C := test_container in match (Ret IS_POSSIBLE), (x5 <- (p <- (p <- (p <- (Ret phone0) ;; x <- (Ret (54)%Z) ;; Ret (set_cc p (Some x))) ;; x <- (Ret 12345%N) ;; Ret (set_nn p (Some x))) ;; x <- (Ret 123456%N) ;; Ret (set_nn p (Some x))) ;; x6 <- (Ret UNKNOWN) ;; IsPossibleNumberForTypeWithReason C x5 x6) with Ret a, Ret b => vresult_eqb a b | _, _ => false end);
   (let C := test_container in match (Ret IS_POSSIBLE), (x7 <- (p <- (p <- (p <- (Ret phone0) ;; x <- (Ret (54)%Z) ;; Ret (set_cc p (Some x))) ;; x <- (Ret 12345%N) ;; Ret (set_nn p (Some x))) ;; x <- (Ret 123456%N) ;; Ret (set_nn p (Some x))) ;; x8 <- (Ret FIXED_LINE) ;; IsPossibleNumberForTypeWithReason C x7 x8) with Ret a, Ret b => vresult_eqb a b | _, _ => false end);
   (let C := test_container in match (Ret TOO_SHORT), (x9 <- (p <- (p <- (p <- (Ret phone0) ;; x <- (Ret (54)%Z) ;; Ret (set_cc p (Some x))) ;; x <- (Ret 12345%N) ;; Ret (set_nn p (Some x))) ;; x <- (Ret 123456%N) ;; Ret (set_nn p (Some x))) ;; x10 <- (Ret MOBILE) ;; IsPossibleNumberForTypeWithReason C x9 x10) with Ret a, Ret b => vresult_eqb a b | _, _ => false end);
   (let C := test_container in match (Ret TOO_SHORT), (x11 <- (p <- (p <- (p <- (Ret phone0) ;; x <- (Ret (54)%Z) ;; Ret (set_cc p (Some x))) ;; x <- (Ret 12345%N) ;; Ret (set_nn p (Some x))) ;; x <- (Ret 123456%N) ;; Ret (set_nn p (Some x))) ;; x12 <- (Ret TOLL_FREE) ;; IsPossibleNumberForTypeWithReason C x11 x12) with Ret a, Ret b => vresult_eqb a b | _, _ => false end);
   (let C := test_container in match (Ret IS_POSSIBLE), (x13 <- (p <- (p <- (p <- (p <- (Ret phone0) ;; x <- (Ret (54)%Z) ;; Ret (set_cc p (Some x))) ;; x <- (Ret 12345%N) ;; Ret (set_nn p (Some x))) ;; x <- (Ret 123456%N) ;; Ret (set_nn p (Some x))) ;; x <- (Ret 123456789%N) ;; Ret (set_nn p (Some x))) ;; x14 <- (Ret UNKNOWN) ;; IsPossibleNumberForTypeWithReason C x13 x14) with Ret a, Ret b => vresult_eqb a b | _, _ => false end);
   (let C := test_container in match (Ret IS_POSSIBLE), (x15 <- (p <- (p <- (p <- (p <- (Ret phone0) ;; x <- (Ret (54)%Z) ;; Ret (set_cc p (Some x))) ;; x <- (Ret 12345%N) ;; Ret (set_nn p (Some x))) ;; x <- (Ret 123456%N) ;; Ret (set_nn p (Some x))) ;; x <- (Ret 123456789%N) ;; Ret (set_nn p (Some x))) ;; x16 <- (Ret FIXED_LINE) ;; IsPossibleNumberForTypeWithReason C x15 x16) with Ret a, Ret b => vresult_eqb a b | _, _ => false end);
   (let C := test_container in match (Ret TOO_SHORT), (x17 <- (p <- (p <- (p <- (p <- (Ret phone0) ;; x <- (Ret (54)%Z) ;; Ret (set_cc p (Some x))) ;; x <- (Ret 12345%N) ;; Ret (set_nn p (Some x))) ;; x <- (Ret 123456%N) ;; Ret (set_nn p (Some x))) ;; x <- (Ret 123456789%N) ;; Ret (set_nn p (Some x))) ;; x18 <- (Ret MOBILE) ;; IsPossibleNumberForTypeWithReason C x17 x18) with Ret a, Ret b => vresult_eqb a b | _, _ => false end);
   (let C := test_container in match (Ret TOO_SHORT), (x19 <- (p <- (p <- (p <- (p <- (Ret phone0) ;; x <- (Ret (54)%Z) ;; Ret (set_cc p (Some x))) ;; x <- (Ret 12345%N) ;; Ret (set_nn p (Some x))) ;; x <- (Ret 123456%N) ;; Ret (set_nn p (Some x))) ;; x <- (Ret 123456789%N) ;; Ret (set_nn p (Some x))) ;; x20 <- (Ret TOLL_FREE) ;; IsPossibleNumberForTypeWithReason C x19 x20) with Ret a, Ret b => vresult_eqb a b | _, _ => false end);
   (let C := test_container in match (Ret IS_POSSIBLE), (x21 <- (p <- (p <- (p <- (p <- (p <- (Ret phone0) ;; x <- (Ret (54)%Z) ;; Ret (set_cc p (Some x))) ;; x <- (Ret 12345%N) ;; Ret (set_nn p (Some x))) ;; x <- (Ret 123456%N) ;; Ret (set_nn p (Some x))) ;; x <- (Ret 123456789%N) ;; Ret (set_nn p (Some x))) ;; x <- (Ret 1234567890%N) ;; Ret (set_nn p (Some x))) ;; x22 <- (Ret UNKNOWN) ;; IsPossibleNumberForTypeWithReason C x21 x22) with Ret a, Ret b => vresult_eqb a b | _, _ => false end);
   (let C := test_container in match (Ret IS_POSSIBLE), (x23 <- (p <- (p <- (p <- (p <- (p <- (Ret phone0) ;; x <- (Ret (54)%Z) ;; Ret (set_cc p (Some x))) ;; x <- (Ret 12345%N) ;; Ret (set_nn p (Some x))) ;; x <- (Ret 123456%N) ;; Ret (set_nn p (Some x))) ;; x <- (Ret 123456789%N) ;; Ret (set_nn p (Some x))) ;; x <- (Ret 1234567890%N) ;; Ret (set_nn p (Some x))) ;; x24 <- (Ret FIXED_LINE) ;; IsPossibleNumberForTypeWithReason C x23 x24) with Ret a, Ret b => vresult_eqb a b | _, _ => false end);
   (let C := test_container in match (Ret IS_POSSIBLE), (x25 <- (p <- (p <- (p <- (p <- (p <- (Ret phone0) ;; x <- (Ret (54)%Z) ;; Ret (set_cc p (Some x))) ;; x <- (Ret 12345%N) ;; Ret (set_nn p (Some x))) ;; x <- (Ret 123456%N) ;; Ret (set_nn p (Some x))) ;; x <- (Ret 123456789%N) ;; Ret (set_nn p (Some x))) ;; x <- (Ret 1234567890%N) ;; Ret (set_nn p (Some x))) ;; x26 <- (Ret MOBILE) ;; IsPossibleNumberForTypeWithReason C x25 x26) with Ret a, Ret b => vresult_eqb a b | _, _ => false end);
   (let C := test_container in match (Ret IS_POSSIBLE), (x27 <- (p <- (p <- (p <- (p <- (p <- (Ret phone0) ;; x <- (Ret (54)%Z) ;; Ret (set_cc p (Some x))) ;; x <- (Ret 12345%N) ;; Ret (set_nn p (Some x))) ;; x <- (Ret 123456%N) ;; Ret (set_nn p (Some x))) ;; x <- (Ret 123456789%N) ;; Ret (set_nn p (Some x))) ;; x <- (Ret 1234567890%N) ;; Ret (set_nn p (Some x))) ;; x28 <- (Ret TOLL_FREE) ;; IsPossibleNumberForTypeWithReason C x27 x28) with Ret a, Ret b => vresult_eqb a b | _, _ => false end);
   (let C := test_container in match (Ret IS_POSSIBLE), (x29 <- (p <- (p <- (p <- (p <- (p <- (p <- (Ret phone0) ;; x <- (Ret (54)%Z) ;; Ret (set_cc p (Some x))) ;; x <- (Ret 12345%N) ;; Ret (set_nn p (Some x))) ;; x <- (Ret 123456%N) ;; Ret (set_nn p (Some x))) ;; x <- (Ret 123456789%N) ;; Ret (set_nn p (Some x))) ;; x <- (Ret 1234567890%N) ;; Ret (set_nn p (Some x))) ;; x <- (Ret 12345678901%N) ;; Ret (set_nn p (Some x))) ;; x30 <- (Ret UNKNOWN) ;; IsPossibleNumberForTypeWithReason C x29 x30) with Ret a, Ret b => vresult_eqb a b | _, _ => false end);
   (let C := test_container in match (Ret TOO_LONG), (x31 <- (p <- (p <- (p <- (p <- (p <- (p <- (Ret phone0) ;; x <- (Ret (54)%Z) ;; Ret (set_cc p (Some x))) ;; x <- (Ret 12345%N) ;; Ret (set_nn p (Some x))) ;; x <- (Ret 123456%N) ;; Ret (set_nn p (Some x))) ;; x <- (Ret 123456789%N) ;; Ret (set_nn p (Some x))) ;; x <- (Ret 1234567890%N) ;; Ret (set_nn p (Some x))) ;; x <- (Ret 12345678901%N) ;; Ret (set_nn p (Some x))) ;; x32 <- (Ret FIXED_LINE) ;; IsPossibleNumberForTypeWithReason C x31 x32) with Ret a, Ret b => vresult_eqb a b | _, _ => false end);
   (let C := test_container in match (Ret IS_POSSIBLE), (x33 <- (p <- (p <- (p <- (p <- (p <- (p <- (Ret phone0) ;; x <- (Ret (54)%Z) ;; Ret (set_cc p (Some x))) ;; x <- (Ret 12345%N) ;; Ret (set_nn p (Some x))) ;; x <- (Ret 123456%N) ;; Ret (set_nn p (Some x))) ;; x <- (Ret 123456789%N) ;; Ret (set_nn p (Some x))) ;; x <- (Ret 1234567890%N) ;; Ret (set_nn p (Some x))) ;; x <- (Ret 12345678901%N) ;; Ret (set_nn p (Some x))) ;; x34 <- (Ret MOBILE) ;; IsPossibleNumberForTypeWithReason C x33 x34) with Ret a, Ret b => vresult_eqb a b | _, _ => false end);
   (let C := test_container in match (Ret TOO_LONG), (x35 <- (p <- (p <- (p <- (p <- (p <- (p <- (Ret phone0) ;; x <- (Ret (54)%Z) ;; Ret (set_cc p (Some x))) ;; x <- (Ret 12345%N) ;; Ret (set_nn p (Some x))) ;; x <- (Ret 123456%N) ;; Ret (set_nn p (Some x))) ;; x <- (Ret 123456789%N) ;; Ret (set_nn p (Some x))) ;; x <- (Ret 1234567890%N) ;; Ret (set_nn p (Some x))) ;; x <- (Ret 12345678901%N) ;; Ret (set_nn p (Some x))) ;; x36 <- (Ret TOLL_FREE) ;; IsPossibleNumberForTypeWithReason C x35 x36) with Ret a, Ret b => vresult_eqb a b | _, _ => false end)].

Lemma TestIsPossibleNumberForTypeWithReasonDifferentTypeLengths_ok : forallb (fun b => b) TestIsPossibleNumberForTypeWithReasonDifferentTypeLengths = true.
Proof. vm_cast_no_check (eq_refl true). Qed.

(* phonenumberutil_test.go: TestIsPossibleNumberForTypeWithReasonLocalOnly, 3 checks, 0 statements not translated *)
Definition TestIsPossibleNumberForTypeWithReasonLocalOnly : list bool :=
  [(let C := test_container in match (Ret IS_POSSIBLE_LOCAL_ONLY), (x1 <- (p <- (p <- (Ret phone0) ;; x <- (Ret (49)%Z) ;; Ret (set_cc p (Some x))) ;; x <- (Ret 12%N) ;; Ret (set_nn p (Some x))) ;; x2 <- (Ret UNKNOWN) ;; IsPossibleNumberForTypeWithReason C x1 x2) with Ret a, Ret b => vresult_eqb a b | _, _ => false end);
   (let C := test_container in match (Ret IS_POSSIBLE_LOCAL_ONLY), (x3 <- (p <- (p <- (Ret phone0) ;; x <- (Ret (49)%Z) ;; Ret (set_cc p (Some x))) ;; x <- (Ret 12%N) ;; Ret (set_nn p (Some x))) ;; x4 <- (Ret FIXED_LINE) ;; IsPossibleNumberForTypeWithReason C x3 x4) with Ret a, Ret b => vresult_eqb a b | _, _ => false end);
   (let C := test_container in match (Ret TOO_SHORT), (x5 <- (p <- (p <- (Ret phone0) ;; x <- (Ret (49)%Z) ;; Ret (set_cc p (Some x))) ;; x <- (Ret 12%N) ;; Ret (set_nn p (Some x))) ;; x6 <- (Ret MOBILE) ;; IsPossibleNumberForTypeWithReason C x5 x6) with Ret a, Ret b => vresult_eqb a b | _, _ => false end)].

Lemma TestIsPossibleNumberForTypeWithReasonLocalOnly_ok : forallb (fun b => b) TestIsPossibleNumberForTypeWithReasonLocalOnly = true.
Proof. vm_cast_no_check (eq_refl true). Qed.

(* phonenumberutil_test.go: TestIsPossibleNumberForTypeWithReasonDataMissingForSizeReasons, 4 checks, 0 statements not translated *)
Definition TestIsPossibleNumberForTypeWithReasonDataMissingForSizeReasons : list bool :=
  [(let C := test_container in match (Ret IS_POSSIBLE_LOCAL_ONLY), (x1 <- (p <- (p <- (Ret phone0) ;; x <- (Ret (55)%Z) ;; Ret (set_cc p (Some x))) ;; x <- (Ret 12345678%N) ;; Ret (set_nn p (Some x))) ;; x2 <- (Ret UNKNOWN) ;; IsPossibleNumberForTypeWithReason C x1 x2) with Ret a, Ret b => vresult_eqb a b | _, _ => false end);
   (let C := test_container in match (Ret IS_POSSIBLE_LOCAL_ONLY), (x3 <- (p <- (p <- (Ret phone0) ;; x <- (Ret (55)%Z) ;; Ret (set_cc p (Some x))) ;; x <- (Ret 12345678%N) ;; Ret (set_nn p (Some x))) ;; x4 <- (Ret FIXED_LINE) ;; IsPossibleNumberForTypeWithReason C x3 x4) with Ret a, Ret b => vresult_eqb a b | _, _ => false end);
   (let C := test_container in match (Ret IS_POSSIBLE), (x5 <- (p <- (p <- (p <- (Ret phone0) ;; x <- (Ret (55)%Z) ;; Ret (set_cc p (Some x))) ;; x <- (Ret 12345678%N) ;; Ret (set_nn p (Some x))) ;; x <- (Ret 1234567890%N) ;; Ret (set_nn p (Some x))) ;; x6 <- (Ret UNKNOWN) ;; IsPossibleNumberForTypeWithReason C x5 x6) with Ret a, Ret b => vresult_eqb a b | _, _ => false end);
   (let C := test_container in match (Ret IS_POSSIBLE), (x7 <- (p <- (p <- (p <- (Ret phone0) ;; x <- (Ret (55)%Z) ;; Ret (set_cc p (Some x))) ;; x <- (Ret 12345678%N) ;; Ret (set_nn p (Some x))) ;; x <- (Ret 1234567890%N) ;; Ret (set_nn p (Some x))) ;; x8 <- (Ret FIXED_LINE) ;; IsPossibleNumberForTypeWithReason C x7 x8) with Ret a, Ret b => vresult_eqb a b | _, _ => false end)].

Lemma TestIsPossibleNumberForTypeWithReasonDataMissingForSizeReasons_ok : forallb (fun b => b) TestIsPossibleNumberForTypeWithReasonDataMissingForSizeReasons = true.
Proof. vm_cast_no_check (eq_refl true). Qed.

(* phonenumberutil_test.go: TestIsPossibleNumberForTypeWithReasonNumberTypeNotSupportedForRegion, 12 checks, 0 statements not translated *)
Definition TestIsPossibleNumberForTypeWithReasonNumberTypeNotSupportedForRegion : list bool :=
  [(let C := test_container in match (Ret INVALID_LENGTH), (x1 <- (p <- (p <- (Ret phone0) ;; x <- (Ret (55)%Z) ;; Ret (set_cc p (Some x))) ;; x <- (Ret 12345678%N) ;; Ret (set_nn p (Some x))) ;; x2 <- (Ret MOBILE) ;; IsPossibleNumberForTypeWithReason C x1 x2) with Ret a, Ret b => vresult_eqb a b | _, _ => false end);
   (let C := test_container in match (Ret IS_POSSIBLE_LOCAL_ONLY), (x3 <- (p <- (p <- (Ret phone0) ;; x <- (Ret (55)%Z) ;; Ret (set_cc p (Some x))) ;; x <- (Ret 12345678%N) ;; Ret (set_nn p (Some x))) ;; x4 <- (Ret FIXED_LINE_OR_MOBILE) ;; IsPossibleNumberForTypeWithReason C x3 x4) with Ret a, Ret b => vresult_eqb a b | _, _ => false end);
   (let C := test_container in match (Ret INVALID_LENGTH), (x5 <- (p <- (p <- (Ret phone0) ;; x <- (Ret (55)%Z) ;; Ret (set_cc p (Some x))) ;; x <- (Ret 1234567%N) ;; Ret (set_nn p (Some x))) ;; x6 <- (Ret MOBILE) ;; IsPossibleNumberForTypeWithReason C x5 x6) with Ret a, Ret b => vresult_eqb a b | _, _ => false end);
   (let C := test_container in match (Ret TOO_SHORT), (x7 <- (p <- (p <- (Ret phone0) ;; x <- (Ret (55)%Z) ;; Ret (set_cc p (Some x))) ;; x <- (Ret 1234567%N) ;; Ret (set_nn p (Some x))) ;; x8 <- (Ret FIXED_LINE_OR_MOBILE) ;; IsPossibleNumberForTypeWithReason C x7 x8) with Ret a, Ret b => vresult_eqb a b | _, _ => false end);
   (let C := test_container in match (Ret TOO_SHORT), (x9 <- (p <- (p <- (Ret phone0) ;; x <- (Ret (55)%Z) ;; Ret (set_cc p (Some x))) ;; x <- (Ret 1234567%N) ;; Ret (set_nn p (Some x))) ;; x10 <- (Ret FIXED_LINE) ;; IsPossibleNumberForTypeWithReason C x9 x10) with Ret a, Ret b => vresult_eqb a b | _, _ => false end);
   (let C := test_container in match (Ret TOO_SHORT), (x11 <- (p <- (p <- (Ret phone0) ;; x <- (Ret (882)%Z) ;; Ret (set_cc p (Some x))) ;; x <- (Ret 1234567%N) ;; Ret (set_nn p (Some x))) ;; x12 <- (Ret MOBILE) ;; IsPossibleNumberForTypeWithReason C x11 x12) with Ret a, Ret b => vresult_eqb a b | _, _ => false end);
   (let C := test_container in match (Ret TOO_SHORT), (x13 <- (p <- (p <- (Ret phone0) ;; x <- (Ret (882)%Z) ;; Ret (set_cc p (Some x))) ;; x <- (Ret 1234567%N) ;; Ret (set_nn p (Some x))) ;; x14 <- (Ret FIXED_LINE_OR_MOBILE) ;; IsPossibleNumberForTypeWithReason C x13 x14) with Ret a, Ret b => vresult_eqb a b | _, _ => false end);
   (let C := test_container in match (Ret INVALID_LENGTH), (x15 <- (p <- (p <- (Ret phone0) ;; x <- (Ret (882)%Z) ;; Ret (set_cc p (Some x))) ;; x <- (Ret 1234567%N) ;; Ret (set_nn p (Some x))) ;; x16 <- (Ret FIXED_LINE) ;; IsPossibleNumberForTypeWithReason C x15 x16) with Ret a, Ret b => vresult_eqb a b | _, _ => false end);
   (let C := test_container in match (Ret INVALID_LENGTH), (x17 <- (p <- (p <- (Ret phone0) ;; x <- (Ret (979)%Z) ;; Ret (set_cc p (Some x))) ;; x <- (Ret 123456789%N) ;; Ret (set_nn p (Some x))) ;; x18 <- (Ret MOBILE) ;; IsPossibleNumberForTypeWithReason C x17 x18) with Ret a, Ret b => vresult_eqb a b | _, _ => false end);
   (let C := test_container in match (Ret INVALID_LENGTH), (x19 <- (p <- (p <- (Ret phone0) ;; x <- (Ret (979)%Z) ;; Ret (set_cc p (Some x))) ;; x <- (Ret 123456789%N) ;; Ret (set_nn p (Some x))) ;; x20 <- (Ret FIXED_LINE) ;; IsPossibleNumberForTypeWithReason C x19 x20) with Ret a, Ret b => vresult_eqb a b | _, _ => false end);
   (let C := test_container in match (Ret INVALID_LENGTH), (x21 <- (p <- (p <- (Ret phone0) ;; x <- (Ret (979)%Z) ;; Ret (set_cc p (Some x))) ;; x <- (Ret 123456789%N) ;; Ret (set_nn p (Some x))) ;; x22 <- (Ret FIXED_LINE_OR_MOBILE) ;; IsPossibleNumberForTypeWithReason C x21 x22) with Ret a, Ret b => vresult_eqb a b | _, _ => false end);
   (let C := test_container in match (Ret IS_POSSIBLE), (x23 <- (p <- (p <- (Ret phone0) ;; x <- (Ret (979)%Z) ;; Ret (set_cc p (Some x))) ;; x <- (Ret 123456789%N) ;; Ret (set_nn p (Some x))) ;; x24 <- (Ret PREMIUM_RATE) ;; IsPossibleNumberForTypeWithReason C x23 x24) with Ret a, Ret b => vresult_eqb a b | _, _ => false end)].

Lemma TestIsPossibleNumberForTypeWithReasonNumberTypeNotSupportedForRegion_ok : forallb (fun b => b) TestIsPossibleNumberForTypeWithReasonNumberTypeNotSupportedForRegion = true.
Proof. vm_cast_no_check (eq_refl true). Qed.

(* phonenumberutil_test.go: TestIsPossibleNumberForTypeWithReasonFixedLineOrMobile, 14 checks, 0 statements not translated *)
Definition TestIsPossibleNumberForTypeWithReasonFixedLineOrMobile : list bool :=
  [(let C := test_container in match (Ret TOO_SHORT), (x1 <- (p <- (p <- (Ret phone0) ;; x <- (Ret (290)%Z) ;; Ret (set_cc p (Some x))) ;; x <- (Ret 1234%N) ;; Ret (set_nn p (Some x))) ;; x2 <- (Ret FIXED_LINE) ;; IsPossibleNumberForTypeWithReason C x1 x2) with Ret a, Ret b => vresult_eqb a b | _, _ => false end);
   (let C := test_container in match (Ret IS_POSSIBLE), (x3 <- (p <- (p <- (Ret phone0) ;; x <- (Ret (290)%Z) ;; Ret (set_cc p (Some x))) ;; x <- (Ret 1234%N) ;; Ret (set_nn p (Some x))) ;; x4 <- (Ret MOBILE) ;; IsPossibleNumberForTypeWithReason C x3 x4) with Ret a, Ret b => vresult_eqb a b | _, _ => false end);
   (let C := test_container in match (Ret IS_POSSIBLE), (x5 <- (p <- (p <- (Ret phone0) ;; x <- (Ret (290)%Z) ;; Ret (set_cc p (Some x))) ;; x <- (Ret 1234%N) ;; Ret (set_nn p (Some x))) ;; x6 <- (Ret FIXED_LINE_OR_MOBILE) ;; IsPossibleNumberForTypeWithReason C x5 x6) with Ret a, Ret b => vresult_eqb a b | _, _ => false end);
   (let C := test_container in match (Ret TOO_SHORT), (x7 <- (p <- (p <- (p <- (Ret phone0) ;; x <- (Ret (290)%Z) ;; Ret (set_cc p (Some x))) ;; x <- (Ret 1234%N) ;; Ret (set_nn p (Some x))) ;; x <- (Ret 12345%N) ;; Ret (set_nn p (Some x))) ;; x8 <- (Ret FIXED_LINE) ;; IsPossibleNumberForTypeWithReason C x7 x8) with Ret a, Ret b => vresult_eqb a b | _, _ => false end);
   (let C := test_container in match (Ret TOO_LONG), (x9 <- (p <- (p <- (p <- (Ret phone0) ;; x <- (Ret (290)%Z) ;; Ret (set_cc p (Some x))) ;; x <- (Ret 1234%N) ;; Ret (set_nn p (Some x))) ;; x <- (Ret 12345%N) ;; Ret (set_nn p (Some x))) ;; x10 <- (Ret MOBILE) ;; IsPossibleNumberForTypeWithReason C x9 x10) with Ret a, Ret b => vresult_eqb a b | _, _ => false end);
   (let C := test_container in match (Ret INVALID_LENGTH), (x11 <- (p <- (p <- (p <- (Ret phone0) ;; x <- (Ret (290)%Z) ;; Ret (set_cc p (Some x))) ;; x <- (Ret 1234%N) ;; Ret (set_nn p (Some x))) ;; x <- (Ret 12345%N) ;; Ret (set_nn p (Some x))) ;; x12 <- (Ret FIXED_LINE_OR_MOBILE) ;; IsPossibleNumberForTypeWithReason C x11 x12) with Ret a, Ret b => vresult_eqb a b | _, _ => false end);
   (let C := test_container in match (Ret IS_POSSIBLE), (x13 <- (p <- (p <- (p <- (p <- (Ret phone0) ;; x <- (Ret (290)%Z) ;; Ret (set_cc p (Some x))) ;; x <- (Ret 1234%N) ;; Ret (set_nn p (Some x))) ;; x <- (Ret 12345%N) ;; Ret (set_nn p (Some x))) ;; x <- (Ret 123456%N) ;; Ret (set_nn p (Some x))) ;; x14 <- (Ret FIXED_LINE) ;; IsPossibleNumberForTypeWithReason C x13 x14) with Ret a, Ret b => vresult_eqb a b | _, _ => false end);
   (let C := test_container in match (Ret TOO_LONG), (x15 <- (p <- (p <- (p <- (p <- (Ret phone0) ;; x <- (Ret (290)%Z) ;; Ret (set_cc p (Some x))) ;; x <- (Ret 1234%N) ;; Ret (set_nn p (Some x))) ;; x <- (Ret 12345%N) ;; Ret (set_nn p (Some x))) ;; x <- (Ret 123456%N) ;; Ret (set_nn p (Some x))) ;; x16 <- (Ret MOBILE) ;; IsPossibleNumberForTypeWithReason C x15 x16) with Ret a, Ret b => vresult_eqb a b | _, _ => false end);
   (let C := test_container in match (Ret IS_POSSIBLE), (x17 <- (p <- (p <- (p <- (p <- (Ret phone0) ;; x <- (Ret (290)%Z) ;; Ret (set_cc p (Some x))) ;; x <- (Ret 1234%N) ;; Ret (set_nn p (Some x))) ;; x <- (Ret 12345%N) ;; Ret (set_nn p (Some x))) ;; x <- (Ret 123456%N) ;; Ret (set_nn p (Some x))) ;; x18 <- (Ret FIXED_LINE_OR_MOBILE) ;; IsPossibleNumberForTypeWithReason C x17 x18) with Ret a, Ret b => vresult_eqb a b | _, _ => false end);
   (let C := test_container in match (Ret TOO_LONG), (x19 <- (p <- (p <- (p <- (p <- (p <- (Ret phone0) ;; x <- (Ret (290)%Z) ;; Ret (set_cc p (Some x))) ;; x <- (Ret 1234%N) ;; Ret (set_nn p (Some x))) ;; x <- (Ret 12345%N) ;; Ret (set_nn p (Some x))) ;; x <- (Ret 123456%N) ;; Ret (set_nn p (Some x))) ;; x <- (Ret 1234567%N) ;; Ret (set_nn p (Some x))) ;; x20 <- (Ret FIXED_LINE) ;; IsPossibleNumberForTypeWithReason C x19 x20) with Ret a, Ret b => vresult_eqb a b | _, _ => false end);
   (let C := test_container in match (Ret TOO_LONG), (x21 <- (p <- (p <- (p <- (p <- (p <- (Ret phone0) ;; x <- (Ret (290)%Z) ;; Ret (set_cc p (Some x))) ;; x <- (Ret 1234%N) ;; Ret (set_nn p (Some x))) ;; x <- (Ret 12345%N) ;; Ret (set_nn p (Some x))) ;; x <- (Ret 123456%N) ;; Ret (set_nn p (Some x))) ;; x <- (Ret 1234567%N) ;; Ret (set_nn p (Some x))) ;; x22 <- (Ret MOBILE) ;; IsPossibleNumberForTypeWithReason C x21 x22) with Ret a, Ret b => vresult_eqb a b | _, _ => false end);
   (let C := test_container in match (Ret TOO_LONG), (x23 <- (p <- (p <- (p <- (p <- (p <- (Ret phone0) ;; x <- (Ret (290)%Z) ;; Ret (set_cc p (Some x))) ;; x <- (Ret 1234%N) ;; Ret (set_nn p (Some x))) ;; x <- (Ret 12345%N) ;; Ret (set_nn p (Some x))) ;; x <- (Ret 123456%N) ;; Ret (set_nn p (Some x))) ;; x <- (Ret 1234567%N) ;; Ret (set_nn p (Some x))) ;; x24 <- (Ret FIXED_LINE_OR_MOBILE) ;; IsPossibleNumberForTypeWithReason C x23 x24) with Ret a, Ret b => vresult_eqb a b | _, _ => false end);
   (let C := test_container in match (Ret IS_POSSIBLE), (x25 <- (p <- (p <- (p <- (p <- (p <- (p <- (Ret phone0) ;; x <- (Ret (290)%Z) ;; Ret (set_cc p (Some x))) ;; x <- (Ret 1234%N) ;; Ret (set_nn p (Some x))) ;; x <- (Ret 12345%N) ;; Ret (set_nn p (Some x))) ;; x <- (Ret 123456%N) ;; Ret (set_nn p (Some x))) ;; x <- (Ret 1234567%N) ;; Ret (set_nn p (Some x))) ;; x <- (Ret 12345678%N) ;; Ret (set_nn p (Some x))) ;; x26 <- (Ret TOLL_FREE) ;; IsPossibleNumberForTypeWithReason C x25 x26) with Ret a, Ret b => vresult_eqb a b | _, _ => false end);
   (let C := test_container in match (Ret TOO_LONG), (x27 <- (p <- (p <- (p <- (p <- (p <- (p <- (Ret phone0) ;; x <- (Ret (290)%Z) ;; Ret (set_cc p (Some x))) ;; x <- (Ret 1234%N) ;; Ret (set_nn p (Some x))) ;; x <- (Ret 12345%N) ;; Ret (set_nn p (Some x))) ;; x <- (Ret 123456%N) ;; Ret (set_nn p (Some x))) ;; x <- (Ret 1234567%N) ;; Ret (set_nn p (Some x))) ;; x <- (Ret 12345678%N) ;; Ret (set_nn p (Some x))) ;; x28 <- (Ret FIXED_LINE_OR_MOBILE) ;; IsPossibleNumberForTypeWithReason C x27 x28) with Ret a, Ret b => vresult_eqb a b | _, _ => false end)].

Lemma TestIsPossibleNumberForTypeWithReasonFixedLineOrMobile_ok : forallb (fun b => b) TestIsPossibleNumberForTypeWithReasonFixedLineOrMobile = true.
Proof. vm_cast_no_check (eq_refl true). Qed.

(* phonenumberutil_test.go: TestIsNotPossibleNumber, 11 checks, 0 statements not translated *)
Definition TestIsNotPossibleNumber : list bool :=
  [(let C := test_container in match (x1 <- (p <- (p <- (Ret phone0) ;; x <- (Ret (1)%Z) ;; Ret (set_cc p (Some x))) ;; x <- (Ret 65025300001%N) ;; Ret (set_nn p (Some x))) ;; IsPossibleNumber C x1) with Ret false => true | _ => false end);
   (let C := test_container in match (x2 <- (p <- (p <- (Ret phone0) ;; x <- (Ret (800)%Z) ;; Ret (set_cc p (Some x))) ;; x <- (Ret 123456789%N) ;; Ret (set_nn p (Some x))) ;; IsPossibleNumber C x2) with Ret false => true | _ => false end);
   (let C := test_container in match (x3 <- (p <- (p <- (Ret phone0) ;; x <- (Ret (1)%Z) ;; Ret (set_cc p (Some x))) ;; x <- (Ret 253000%N) ;; Ret (set_nn p (Some x))) ;; IsPossibleNumber C x3) with Ret false => true | _ => false end);
   (let C := test_container in match (x4 <- (p <- (p <- (Ret phone0) ;; x <- (Ret (44)%Z) ;; Ret (set_cc p (Some x))) ;; x <- (Ret 300%N) ;; Ret (set_nn p (Some x))) ;; IsPossibleNumber C x4) with Ret false => true | _ => false end);
   (let C := test_container in match (x5 <- (Ret (bs "+1 650 253 00000")) ;; x6 <- (Ret (bs "US")) ;; IsPossibleNumberFromRegion C x5 x6) with Ret false => true | _ => false end);
   (let C := test_container in match (x7 <- (Ret (bs "(650) 253-00000")) ;; x8 <- (Ret (bs "US")) ;; IsPossibleNumberFromRegion C x7 x8) with Ret false => true | _ => false end);
   (let C := test_container in match (x9 <- (Ret (bs "I want a Pizza")) ;; x10 <- (Ret (bs "US")) ;; IsPossibleNumberFromRegion C x9 x10) with Ret false => true | _ => false end);
   (let C := test_container in match (x11 <- (Ret (bs "253-000")) ;; x12 <- (Ret (bs "US")) ;; IsPossibleNumberFromRegion C x11 x12) with Ret false => true | _ => false end);
   (let C := test_container in match (x13 <- (Ret (bs "1 3000")) ;; x14 <- (Ret (bs "GB")) ;; IsPossibleNumberFromRegion C x13 x14) with Ret false => true | _ => false end);
   (let C := test_container in match (x15 <- (Ret (bs "+44 300")) ;; x16 <- (Ret (bs "GB")) ;; IsPossibleNumberFromRegion C x15 x16) with Ret false => true | _ => false end);
   (let C := test_container in match (x17 <- (Ret (bs "+800 1234 5678 9")) ;; x18 <- (Ret (bs "001")) ;; IsPossibleNumberFromRegion C x17 x18) with Ret false => true | _ => false end)].

Lemma TestIsNotPossibleNumber_ok : forallb (fun b => b) TestIsNotPossibleNumber = true.
Proof. vm_cast_no_check (eq_refl true). Qed.

(* phonenumberutil_test.go: TestTruncateTooLongNumber, 11 checks, 6 statements not translated *)
Definition TestTruncateTooLongNumber : list bool :=
  [(let C := test_container in match (r <- (p <- (p <- (p <- (Ret phone0) ;; x <- (Ret (44)%Z) ;; Ret (set_cc p (Some x))) ;; x <- (Ret 80123456780123%N) ;; Ret (set_nn p (Some x))) ;; TruncateTooLongNumber C p) ;; Ret (fst r)) with Ret true => true | _ => false end);
   (let C := test_container in match (a <- (p <- (p <- (Ret phone0) ;; x <- (Ret (44)%Z) ;; Ret (set_cc p (Some x))) ;; x <- (Ret 8012345678%N) ;; Ret (set_nn p (Some x))) ;; b <- (r <- (p <- (p <- (p <- (Ret phone0) ;; x <- (Ret (44)%Z) ;; Ret (set_cc p (Some x))) ;; x <- (Ret 80123456780123%N) ;; Ret (set_nn p (Some x))) ;; TruncateTooLongNumber C p) ;; Ret (snd r)) ;; Ret (phone_full_eqb a b)) with Ret true => true | _ => false end);
   (let C := test_container in match (r <- (p <- (p <- (p <- (p <- (Ret phone0) ;; x <- (Ret (39)%Z) ;; Ret (set_cc p (Some x))) ;; x <- (Ret 2234567890123%N) ;; Ret (set_nn p (Some x))) ;; x <- (Ret true) ;; Ret (set_ilz p (Some x))) ;; TruncateTooLongNumber C p) ;; Ret (fst r)) with Ret true => true | _ => false end);
   (let C := test_container in match (a <- (p <- (p <- (p <- (Ret phone0) ;; x <- (Ret (39)%Z) ;; Ret (set_cc p (Some x))) ;; x <- (Ret 2234567890%N) ;; Ret (set_nn p (Some x))) ;; x <- (Ret true) ;; Ret (set_ilz p (Some x))) ;; b <- (r <- (p <- (p <- (p <- (p <- (Ret phone0) ;; x <- (Ret (39)%Z) ;; Ret (set_cc p (Some x))) ;; x <- (Ret 2234567890123%N) ;; Ret (set_nn p (Some x))) ;; x <- (Ret true) ;; Ret (set_ilz p (Some x))) ;; TruncateTooLongNumber C p) ;; Ret (snd r)) ;; Ret (phone_full_eqb a b)) with Ret true => true | _ => false end);
   (let C := test_container in match (r <- (p <- (p <- (p <- (Ret phone0) ;; x <- (Ret (1)%Z) ;; Ret (set_cc p (Some x))) ;; x <- (Ret 65025300001%N) ;; Ret (set_nn p (Some x))) ;; TruncateTooLongNumber C p) ;; Ret (fst r)) with Ret true => true | _ => false end);
   (let C := test_container in match (a <- (p <- (p <- (Ret phone0) ;; x <- (Ret (1)%Z) ;; Ret (set_cc p (Some x))) ;; x <- (Ret 6502530000%N) ;; Ret (set_nn p (Some x))) ;; b <- (r <- (p <- (p <- (p <- (Ret phone0) ;; x <- (Ret (1)%Z) ;; Ret (set_cc p (Some x))) ;; x <- (Ret 65025300001%N) ;; Ret (set_nn p (Some x))) ;; TruncateTooLongNumber C p) ;; Ret (snd r)) ;; Ret (phone_full_eqb a b)) with Ret true => true | _ => false end);
   (let C := test_container in match (r <- (p <- (p <- (p <- (Ret phone0) ;; x <- (Ret (800)%Z) ;; Ret (set_cc p (Some x))) ;; x <- (Ret 123456789%N) ;; Ret (set_nn p (Some x))) ;; TruncateTooLongNumber C p) ;; Ret (fst r)) with Ret true => true | _ => false end);
   (let C := test_container in match (a <- (p <- (p <- (Ret phone0) ;; x <- (Ret (800)%Z) ;; Ret (set_cc p (Some x))) ;; x <- (Ret 12345678%N) ;; Ret (set_nn p (Some x))) ;; b <- (r <- (p <- (p <- (p <- (Ret phone0) ;; x <- (Ret (800)%Z) ;; Ret (set_cc p (Some x))) ;; x <- (Ret 123456789%N) ;; Ret (set_nn p (Some x))) ;; TruncateTooLongNumber C p) ;; Ret (snd r)) ;; Ret (phone_full_eqb a b)) with Ret true => true | _ => false end);
   (let C := test_container in match (r <- (p <- (p <- (p <- (p <- (Ret phone0) ;; x <- (Ret (39)%Z) ;; Ret (set_cc p (Some x))) ;; x <- (Ret 2234567890%N) ;; Ret (set_nn p (Some x))) ;; x <- (Ret true) ;; Ret (set_ilz p (Some x))) ;; TruncateTooLongNumber C p) ;; Ret (fst r)) with Ret true => true | _ => false end);
   (let C := test_container in match (r <- (p <- (p <- (p <- (Ret phone0) ;; x <- (Ret (1)%Z) ;; Ret (set_cc p (Some x))) ;; x <- (Ret 2401234567%N) ;; Ret (set_nn p (Some x))) ;; TruncateTooLongNumber C p) ;; Ret (fst r)) with Ret false => true | _ => false end);
   (let C := test_container in match (r <- (p <- (p <- (p <- (Ret phone0) ;; x <- (Ret (1)%Z) ;; Ret (set_cc p (Some x))) ;; x <- (Ret 1234%N) ;; Ret (set_nn p (Some x))) ;; TruncateTooLongNumber C p) ;; Ret (fst r)) with Ret false => true | _ => false end)].

Lemma TestTruncateTooLongNumber_ok : forallb (fun b => b) TestTruncateTooLongNumber = true.
Proof. vm_cast_no_check (eq_refl true). Qed.

(* phonenumberutil_test.go: TestIsViablePhoneNumber, 10 checks, 0 statements not translated *)
Definition TestIsViablePhoneNumber : list bool :=
  [(let C := shipped in match (x1 <- (Ret (bs "1")) ;; Ret (isViablePhoneNumber x1)) with Ret false => true | _ => false end);
   (let C := shipped in match (x2 <- (Ret (bs "1+1+1")) ;; Ret (isViablePhoneNumber x2)) with Ret false => true | _ => false end);
   (let C := shipped in match (x3 <- (Ret (bs "80+0")) ;; Ret (isViablePhoneNumber x3)) with Ret false => true | _ => false end);
   (let C := shipped in match (x4 <- (Ret (bs "00")) ;; Ret (isViablePhoneNumber x4)) with Ret true => true | _ => false end);
   (let C := shipped in match (x5 <- (Ret (bs "111")) ;; Ret (isViablePhoneNumber x5)) with Ret true => true | _ => false end);
   (let C := shipped in match (x6 <- (Ret (bs "0800-4-pizza")) ;; Ret (isViablePhoneNumber x6)) with Ret true => true | _ => false end);
   (let C := shipped in match (x7 <- (Ret (bs "0800-4-PIZZA")) ;; Ret (isViablePhoneNumber x7)) with Ret true => true | _ => false end);
   (let C := shipped in match (x8 <- (Ret (bs "08-PIZZA")) ;; Ret (isViablePhoneNumber x8)) with Ret false => true | _ => false end);
   (let C := shipped in match (x9 <- (Ret (bs "8-PIZZA")) ;; Ret (isViablePhoneNumber x9)) with Ret false => true | _ => false end);
   (let C := shipped in match (x10 <- (Ret (bs "12. March")) ;; Ret (isViablePhoneNumber x10)) with Ret false => true | _ => false end)].

Lemma TestIsViablePhoneNumber_ok : forallb (fun b => b) TestIsViablePhoneNumber = true.
Proof. vm_cast_no_check (eq_refl true). Qed.

(* phonenumberutil_test.go: TestIsViablePhoneNumberNonAscii, 4 checks, 0 statements not translated *)
Definition TestIsViablePhoneNumberNonAscii : list bool :=
  [(let C := shipped in match (x1 <- (Ret [49; 227; 128; 128; 51; 52]) ;; Ret (isViablePhoneNumber x1)) with Ret true => true | _ => false end);
   (let C := shipped in match (x2 <- (Ret [49; 227; 128; 128; 51; 43; 52]) ;; Ret (isViablePhoneNumber x2)) with Ret false => true | _ => false end);
   (let C := shipped in match (x3 <- (Ret [239; 188; 136; 49; 239; 188; 137; 227; 128; 128; 51; 52; 53; 54; 55; 56; 57]) ;; Ret (isViablePhoneNumber x3)) with Ret true => true | _ => false end);
   (let C := shipped in match (x4 <- (Ret [43; 49; 239; 188; 137; 227; 128; 128; 51; 52; 53; 54; 55; 56; 57]) ;; Ret (isViablePhoneNumber x4)) with Ret true => true | _ => false end)].

Lemma TestIsViablePhoneNumberNonAscii_ok : forallb (fun b => b) TestIsViablePhoneNumberNonAscii = true.
Proof. vm_cast_no_check (eq_refl true). Qed.

(* phonenumberutil_test.go: TestExtractPossibleNumber, 10 checks, 0 statements not translated *)
Definition TestExtractPossibleNumber : list bool :=
  [(let C := shipped in match (Ret (bs "0800-345-600")), (x1 <- (Ret (bs "Tel:0800-345-600")) ;; Ret (extractPossibleNumber x1)) with Ret a, Ret b => beq a b | _, _ => false end);
   (let C := shipped in match (Ret (bs "0800 FOR PIZZA")), (x2 <- (Ret (bs "Tel:0800 FOR PIZZA")) ;; Ret (extractPossibleNumber x2)) with Ret a, Ret b => beq a b | _, _ => false end);
   (let C := shipped in match (Ret (bs "+800-345-600")), (x3 <- (Ret (bs "Tel:+800-345-600")) ;; Ret (extractPossibleNumber x3)) with Ret a, Ret b => beq a b | _, _ => false end);
   (let C := shipped in match (Ret [239; 188; 144; 239; 188; 146; 239; 188; 147]), (x4 <- (Ret [239; 188; 144; 239; 188; 146; 239; 188; 147]) ;; Ret (extractPossibleNumber x4)) with Ret a, Ret b => beq a b | _, _ => false end);
   (let C := shipped in match (Ret [239; 188; 145; 239; 188; 146; 239; 188; 147]), (x5 <- (Ret [78; 117; 109; 45; 239; 188; 145; 239; 188; 146; 239; 188; 147]) ;; Ret (extractPossibleNumber x5)) with Ret a, Ret b => beq a b | _, _ => false end);
   (let C := shipped in match (Ret (bs "")), (x6 <- (Ret (bs "Num-....")) ;; Ret (extractPossibleNumber x6)) with Ret a, Ret b => beq a b | _, _ => false end);
   (let C := shipped in match (Ret (bs "650) 253-0000")), (x7 <- (Ret (bs "(650) 253-0000")) ;; Ret (extractPossibleNumber x7)) with Ret a, Ret b => beq a b | _, _ => false end);
   (let C := shipped in match (Ret (bs "650) 253-0000")), (x8 <- (Ret (bs "(650) 253-0000..- ..")) ;; Ret (extractPossibleNumber x8)) with Ret a, Ret b => beq a b | _, _ => false end);
   (let C := shipped in match (Ret (bs "650) 253-0000")), (x9 <- (Ret (bs "(650) 253-0000.")) ;; Ret (extractPossibleNumber x9)) with Ret a, Ret b => beq a b | _, _ => false end);
   (let C := shipped in match (Ret (bs "650) 253-0000")), (x10 <- (Ret [40; 54; 53; 48; 41; 32; 50; 53; 51; 45; 48; 48; 48; 48; 226; 128; 143]) ;; Ret (extractPossibleNumber x10)) with Ret a, Ret b => beq a b | _, _ => false end)].

Lemma TestExtractPossibleNumber_ok : forallb (fun b => b) TestExtractPossibleNumber = true.
Proof. vm_cast_no_check (eq_refl true). Qed.

(* phonenumberutil_test.go: TestParseNationalNumber, 55 checks, 0 statements not translated *)
Definition TestParseNationalNumber : list bool :=
  [(let C := test_container in match (x <- (x1 <- (Ret (bs "033316005")) ;; x2 <- (Ret (bs "NZ")) ;; Parse C x1 x2) ;; Ret (snd x)) with Ret None => true | _ => false end);
   (let C := test_container in match (a <- (p <- (p <- (Ret phone0) ;; x <- (Ret (64)%Z) ;; Ret (set_cc p (Some x))) ;; x <- (Ret 33316005%N) ;; Ret (set_nn p (Some x))) ;; b <- (x <- (x1 <- (Ret (bs "033316005")) ;; x2 <- (Ret (bs "NZ")) ;; Parse C x1 x2) ;; Ret (fst x)) ;; Ret (phone_full_eqb a b)) with Ret true => true | _ => false end);
   (let C := test_container in match (Ret UNSPECIFIED), (p <- (x <- (x1 <- (Ret (bs "033316005")) ;; x2 <- (Ret (bs "NZ")) ;; Parse C x1 x2) ;; Ret (fst x)) ;; Ret (get_src p)) with Ret a, Ret b => ccsource_eqb a b | _, _ => false end);
   (let C := test_container in match (x <- (x3 <- (Ret (bs "33316005")) ;; x4 <- (Ret (bs "NZ")) ;; Parse C x3 x4) ;; Ret (snd x)) with Ret None => true | _ => false end);
   (let C := test_container in match (a <- (p <- (p <- (Ret phone0) ;; x <- (Ret (64)%Z) ;; Ret (set_cc p (Some x))) ;; x <- (Ret 33316005%N) ;; Ret (set_nn p (Some x))) ;; b <- (x <- (x3 <- (Ret (bs "33316005")) ;; x4 <- (Ret (bs "NZ")) ;; Parse C x3 x4) ;; Ret (fst x)) ;; Ret (phone_full_eqb a b)) with Ret true => true | _ => false end);
   (let C := test_container in match (x <- (x5 <- (Ret (bs "03-331 6005")) ;; x6 <- (Ret (bs "NZ")) ;; Parse C x5 x6) ;; Ret (snd x)) with Ret None => true | _ => false end);
   (let C := test_container in match (a <- (p <- (p <- (Ret phone0) ;; x <- (Ret (64)%Z) ;; Ret (set_cc p (Some x))) ;; x <- (Ret 33316005%N) ;; Ret (set_nn p (Some x))) ;; b <- (x <- (x5 <- (Ret (bs "03-331 6005")) ;; x6 <- (Ret (bs "NZ")) ;; Parse C x5 x6) ;; Ret (fst x)) ;; Ret (phone_full_eqb a b)) with Ret true => true | _ => false end);
   (let C := test_container in match (x <- (x7 <- (Ret (bs "03 331 6005")) ;; x8 <- (Ret (bs "NZ")) ;; Parse C x7 x8) ;; Ret (snd x)) with Ret None => true | _ => false end);
   (let C := test_container in match (a <- (p <- (p <- (Ret phone0) ;; x <- (Ret (64)%Z) ;; Ret (set_cc p (Some x))) ;; x <- (Ret 33316005%N) ;; Ret (set_nn p (Some x))) ;; b <- (x <- (x7 <- (Ret (bs "03 331 6005")) ;; x8 <- (Ret (bs "NZ")) ;; Parse C x7 x8) ;; Ret (fst x)) ;; Ret (phone_full_eqb a b)) with Ret true => true | _ => false end);
   (let C := test_container in match (x <- (x9 <- (Ret (bs "tel:03-331-6005;phone-context=+64")) ;; x10 <- (Ret (bs "NZ")) ;; Parse C x9 x10) ;; Ret (snd x)) with Ret None => true | _ => false end);
   (let C := test_container in match (a <- (p <- (p <- (Ret phone0) ;; x <- (Ret (64)%Z) ;; Ret (set_cc p (Some x))) ;; x <- (Ret 33316005%N) ;; Ret (set_nn p (Some x))) ;; b <- (x <- (x9 <- (Ret (bs "tel:03-331-6005;phone-context=+64")) ;; x10 <- (Ret (bs "NZ")) ;; Parse C x9 x10) ;; Ret (fst x)) ;; Ret (phone_full_eqb a b)) with Ret true => true | _ => false end);
   (let C := test_container in match (x <- (x11 <- (Ret (bs "tel:331-6005;phone-context=+64-3")) ;; x12 <- (Ret (bs "NZ")) ;; Parse C x11 x12) ;; Ret (snd x)) with Ret None => true | _ => false end);
   (let C := test_container in match (a <- (p <- (p <- (Ret phone0) ;; x <- (Ret (64)%Z) ;; Ret (set_cc p (Some x))) ;; x <- (Ret 33316005%N) ;; Ret (set_nn p (Some x))) ;; b <- (x <- (x11 <- (Ret (bs "tel:331-6005;phone-context=+64-3")) ;; x12 <- (Ret (bs "NZ")) ;; Parse C x11 x12) ;; Ret (fst x)) ;; Ret (phone_full_eqb a b)) with Ret true => true | _ => false end);
   (let C := test_container in match (x <- (x13 <- (Ret (bs "tel:331-6005;phone-context=+64-3")) ;; x14 <- (Ret (bs "US")) ;; Parse C x13 x14) ;; Ret (snd x)) with Ret None => true | _ => false end);
   (let C := test_container in match (a <- (p <- (p <- (Ret phone0) ;; x <- (Ret (64)%Z) ;; Ret (set_cc p (Some x))) ;; x <- (Ret 33316005%N) ;; Ret (set_nn p (Some x))) ;; b <- (x <- (x13 <- (Ret (bs "tel:331-6005;phone-context=+64-3")) ;; x14 <- (Ret (bs "US")) ;; Parse C x13 x14) ;; Ret (fst x)) ;; Ret (phone_full_eqb a b)) with Ret true => true | _ => false end);
   (let C := test_container in match (x <- (x15 <- (Ret (bs "My number is tel:03-331-6005;phone-context=+64")) ;; x16 <- (Ret (bs "NZ")) ;; Parse C x15 x16) ;; Ret (snd x)) with Ret None => true | _ => false end);
   (let C := test_container in match (a <- (p <- (p <- (Ret phone0) ;; x <- (Ret (64)%Z) ;; Ret (set_cc p (Some x))) ;; x <- (Ret 33316005%N) ;; Ret (set_nn p (Some x))) ;; b <- (x <- (x15 <- (Ret (bs "My number is tel:03-331-6005;phone-context=+64")) ;; x16 <- (Ret (bs "NZ")) ;; Parse C x15 x16) ;; Ret (fst x)) ;; Ret (phone_full_eqb a b)) with Ret true => true | _ => false end);
   (let C := test_container in match (x <- (x17 <- (Ret (bs "tel:03-331-6005;phone-context=+64;a=%A1")) ;; x18 <- (Ret (bs "NZ")) ;; Parse C x17 x18) ;; Ret (snd x)) with Ret None => true | _ => false end);
   (let C := test_container in match (a <- (p <- (p <- (Ret phone0) ;; x <- (Ret (64)%Z) ;; Ret (set_cc p (Some x))) ;; x <- (Ret 33316005%N) ;; Ret (set_nn p (Some x))) ;; b <- (x <- (x17 <- (Ret (bs "tel:03-331-6005;phone-context=+64;a=%A1")) ;; x18 <- (Ret (bs "NZ")) ;; Parse C x17 x18) ;; Ret (fst x)) ;; Ret (phone_full_eqb a b)) with Ret true => true | _ => false end);
   (let C := test_container in match (x <- (x19 <- (Ret (bs "tel:03-331-6005;isub=12345;phone-context=+64")) ;; x20 <- (Ret (bs "NZ")) ;; Parse C x19 x20) ;; Ret (snd x)) with Ret None => true | _ => false end);
   (let C := test_container in match (a <- (p <- (p <- (Ret phone0) ;; x <- (Ret (64)%Z) ;; Ret (set_cc p (Some x))) ;; x <- (Ret 33316005%N) ;; Ret (set_nn p (Some x))) ;; b <- (x <- (x19 <- (Ret (bs "tel:03-331-6005;isub=12345;phone-context=+64")) ;; x20 <- (Ret (bs "NZ")) ;; Parse C x19 x20) ;; Ret (fst x)) ;; Ret (phone_full_eqb a b)) with Ret true => true | _ => false end);
   (let C := test_container in match (x <- (x21 <- (Ret (bs "tel:+64-3-331-6005;isub=12345")) ;; x22 <- (Ret (bs "NZ")) ;; Parse C x21 x22) ;; Ret (snd x)) with Ret None => true | _ => false end);
   (let C := test_container in match (a <- (p <- (p <- (Ret phone0) ;; x <- (Ret (64)%Z) ;; Ret (set_cc p (Some x))) ;; x <- (Ret 33316005%N) ;; Ret (set_nn p (Some x))) ;; b <- (x <- (x21 <- (Ret (bs "tel:+64-3-331-6005;isub=12345")) ;; x22 <- (Ret (bs "NZ")) ;; Parse C x21 x22) ;; Ret (fst x)) ;; Ret (phone_full_eqb a b)) with Ret true => true | _ => false end);
   (let C := test_container in match (x <- (x23 <- (Ret (bs "03-331-6005;phone-context=+64")) ;; x24 <- (Ret (bs "NZ")) ;; Parse C x23 x24) ;; Ret (snd x)) with Ret None => true | _ => false end);
   (let C := test_container in match (a <- (p <- (p <- (Ret phone0) ;; x <- (Ret (64)%Z) ;; Ret (set_cc p (Some x))) ;; x <- (Ret 33316005%N) ;; Ret (set_nn p (Some x))) ;; b <- (x <- (x23 <- (Ret (bs "03-331-6005;phone-context=+64")) ;; x24 <- (Ret (bs "NZ")) ;; Parse C x23 x24) ;; Ret (fst x)) ;; Ret (phone_full_eqb a b)) with Ret true => true | _ => false end);
   (let C := test_container in match (x <- (x25 <- (Ret (bs "0064 3 331 6005")) ;; x26 <- (Ret (bs "NZ")) ;; Parse C x25 x26) ;; Ret (snd x)) with Ret None => true | _ => false end);
   (let C := test_container in match (a <- (p <- (p <- (Ret phone0) ;; x <- (Ret (64)%Z) ;; Ret (set_cc p (Some x))) ;; x <- (Ret 33316005%N) ;; Ret (set_nn p (Some x))) ;; b <- (x <- (x25 <- (Ret (bs "0064 3 331 6005")) ;; x26 <- (Ret (bs "NZ")) ;; Parse C x25 x26) ;; Ret (fst x)) ;; Ret (phone_full_eqb a b)) with Ret true => true | _ => false end);
   (let C := test_container in match (x <- (x27 <- (Ret (bs "01164 3 331 6005")) ;; x28 <- (Ret (bs "US")) ;; Parse C x27 x28) ;; Ret (snd x)) with Ret None => true | _ => false end);
   (let C := test_container in match (a <- (p <- (p <- (Ret phone0) ;; x <- (Ret (64)%Z) ;; Ret (set_cc p (Some x))) ;; x <- (Ret 33316005%N) ;; Ret (set_nn p (Some x))) ;; b <- (x <- (x27 <- (Ret (bs "01164 3 331 6005")) ;; x28 <- (Ret (bs "US")) ;; Parse C x27 x28) ;; Ret (fst x)) ;; Ret (phone_full_eqb a b)) with Ret true => true | _ => false end);
   (let C := test_container in match (x <- (x29 <- (Ret (bs "+64 3 331 6005")) ;; x30 <- (Ret (bs "US")) ;; Parse C x29 x30) ;; Ret (snd x)) with Ret None => true | _ => false end);
   (let C := test_container in match (a <- (p <- (p <- (Ret phone0) ;; x <- (Ret (64)%Z) ;; Ret (set_cc p (Some x))) ;; x <- (Ret 33316005%N) ;; Ret (set_nn p (Some x))) ;; b <- (x <- (x29 <- (Ret (bs "+64 3 331 6005")) ;; x30 <- (Ret (bs "US")) ;; Parse C x29 x30) ;; Ret (fst x)) ;; Ret (phone_full_eqb a b)) with Ret true => true | _ => false end);
   (let C := test_container in match (x <- (x31 <- (Ret (bs "+01164 3 331 6005")) ;; x32 <- (Ret (bs "US")) ;; Parse C x31 x32) ;; Ret (snd x)) with Ret None => true | _ => false end);
   (let C := test_container in match (a <- (p <- (p <- (Ret phone0) ;; x <- (Ret (64)%Z) ;; Ret (set_cc p (Some x))) ;; x <- (Ret 33316005%N) ;; Ret (set_nn p (Some x))) ;; b <- (x <- (x31 <- (Ret (bs "+01164 3 331 6005")) ;; x32 <- (Ret (bs "US")) ;; Parse C x31 x32) ;; Ret (fst x)) ;; Ret (phone_full_eqb a b)) with Ret true => true | _ => false end);
   (let C := test_container in match (x <- (x33 <- (Ret (bs "+0064 3 331 6005")) ;; x34 <- (Ret (bs "NZ")) ;; Parse C x33 x34) ;; Ret (snd x)) with Ret None => true | _ => false end);
   (let C := test_container in match (a <- (p <- (p <- (Ret phone0) ;; x <- (Ret (64)%Z) ;; Ret (set_cc p (Some x))) ;; x <- (Ret 33316005%N) ;; Ret (set_nn p (Some x))) ;; b <- (x <- (x33 <- (Ret (bs "+0064 3 331 6005")) ;; x34 <- (Ret (bs "NZ")) ;; Parse C x33 x34) ;; Ret (fst x)) ;; Ret (phone_full_eqb a b)) with Ret true => true | _ => false end);
   (let C := test_container in match (x <- (x35 <- (Ret (bs "+ 00 64 3 331 6005")) ;; x36 <- (Ret (bs "NZ")) ;; Parse C x35 x36) ;; Ret (snd x)) with Ret None => true | _ => false end);
   (let C := test_container in match (a <- (p <- (p <- (Ret phone0) ;; x <- (Ret (64)%Z) ;; Ret (set_cc p (Some x))) ;; x <- (Ret 33316005%N) ;; Ret (set_nn p (Some x))) ;; b <- (x <- (x35 <- (Ret (bs "+ 00 64 3 331 6005")) ;; x36 <- (Ret (bs "NZ")) ;; Parse C x35 x36) ;; Ret (fst x)) ;; Ret (phone_full_eqb a b)) with Ret true => true | _ => false end);
   (let C := test_container in match (x <- (x37 <- (Ret (bs "tel:253-0000;phone-context=www.google.com")) ;; x38 <- (Ret (bs "US")) ;; Parse C x37 x38) ;; Ret (snd x)) with Ret None => true | _ => false end);
   (let C := test_container in match (a <- (p <- (p <- (Ret phone0) ;; x <- (Ret (1)%Z) ;; Ret (set_cc p (Some x))) ;; x <- (Ret 2530000%N) ;; Ret (set_nn p (Some x))) ;; b <- (x <- (x37 <- (Ret (bs "tel:253-0000;phone-context=www.google.com")) ;; x38 <- (Ret (bs "US")) ;; Parse C x37 x38) ;; Ret (fst x)) ;; Ret (phone_full_eqb a b)) with Ret true => true | _ => false end);
   (let C := test_container in match (x <- (x39 <- (Ret (bs "tel:253-0000;isub=12345;phone-context=www.google.com")) ;; x40 <- (Ret (bs "US")) ;; Parse C x39 x40) ;; Ret (snd x)) with Ret None => true | _ => false end);
   (let C := test_container in match (a <- (p <- (p <- (Ret phone0) ;; x <- (Ret (1)%Z) ;; Ret (set_cc p (Some x))) ;; x <- (Ret 2530000%N) ;; Ret (set_nn p (Some x))) ;; b <- (x <- (x39 <- (Ret (bs "tel:253-0000;isub=12345;phone-context=www.google.com")) ;; x40 <- (Ret (bs "US")) ;; Parse C x39 x40) ;; Ret (fst x)) ;; Ret (phone_full_eqb a b)) with Ret true => true | _ => false end);
   (let C := test_container in match (x <- (x41 <- (Ret (bs "tel:2530000;isub=12345;phone-context=1234.com")) ;; x42 <- (Ret (bs "US")) ;; Parse C x41 x42) ;; Ret (snd x)) with Ret None => true | _ => false end);
   (let C := test_container in match (a <- (p <- (p <- (Ret phone0) ;; x <- (Ret (1)%Z) ;; Ret (set_cc p (Some x))) ;; x <- (Ret 2530000%N) ;; Ret (set_nn p (Some x))) ;; b <- (x <- (x41 <- (Ret (bs "tel:2530000;isub=12345;phone-context=1234.com")) ;; x42 <- (Ret (bs "US")) ;; Parse C x41 x42) ;; Ret (fst x)) ;; Ret (phone_full_eqb a b)) with Ret true => true | _ => false end);
   (let C := test_container in match (x <- (x43 <- (Ret (bs "64(0)64123456")) ;; x44 <- (Ret (bs "NZ")) ;; Parse C x43 x44) ;; Ret (snd x)) with Ret None => true | _ => false end);
   (let C := test_container in match (a <- (p <- (p <- (Ret phone0) ;; x <- (Ret (64)%Z) ;; Ret (set_cc p (Some x))) ;; x <- (Ret 64123456%N) ;; Ret (set_nn p (Some x))) ;; b <- (x <- (x43 <- (Ret (bs "64(0)64123456")) ;; x44 <- (Ret (bs "NZ")) ;; Parse C x43 x44) ;; Ret (fst x)) ;; Ret (phone_full_eqb a b)) with Ret true => true | _ => false end);
   (let C := test_container in match (x <- (x45 <- (Ret (bs "301/23456")) ;; x46 <- (Ret (bs "DE")) ;; Parse C x45 x46) ;; Ret (snd x)) with Ret None => true | _ => false end);
   (let C := test_container in match (a <- (p <- (p <- (Ret phone0) ;; x <- (Ret (49)%Z) ;; Ret (set_cc p (Some x))) ;; x <- (Ret 30123456%N) ;; Ret (set_nn p (Some x))) ;; b <- (x <- (x45 <- (Ret (bs "301/23456")) ;; x46 <- (Ret (bs "DE")) ;; Parse C x45 x46) ;; Ret (fst x)) ;; Ret (phone_full_eqb a b)) with Ret true => true | _ => false end);
   (let C := test_container in match (x <- (x47 <- (Ret (bs "123-456-7890")) ;; x48 <- (Ret (bs "US")) ;; Parse C x47 x48) ;; Ret (snd x)) with Ret None => true | _ => false end);
   (let C := test_container in match (a <- (p <- (p <- (Ret phone0) ;; x <- (Ret (1)%Z) ;; Ret (set_cc p (Some x))) ;; x <- (Ret 1234567890%N) ;; Ret (set_nn p (Some x))) ;; b <- (x <- (x47 <- (Ret (bs "123-456-7890")) ;; x48 <- (Ret (bs "US")) ;; Parse C x47 x48) ;; Ret (fst x)) ;; Ret (phone_full_eqb a b)) with Ret true => true | _ => false end);
   (let C := test_container in match (x <- (x49 <- (Ret (bs "+81 *2345")) ;; x50 <- (Ret (bs "JP")) ;; Parse C x49 x50) ;; Ret (snd x)) with Ret None => true | _ => false end);
   (let C := test_container in match (a <- (p <- (p <- (Ret phone0) ;; x <- (Ret (81)%Z) ;; Ret (set_cc p (Some x))) ;; x <- (Ret 2345%N) ;; Ret (set_nn p (Some x))) ;; b <- (x <- (x49 <- (Ret (bs "+81 *2345")) ;; x50 <- (Ret (bs "JP")) ;; Parse C x49 x50) ;; Ret (fst x)) ;; Ret (phone_full_eqb a b)) with Ret true => true | _ => false end);
   (let C := test_container in match (x <- (x51 <- (Ret (bs "12")) ;; x52 <- (Ret (bs "NZ")) ;; Parse C x51 x52) ;; Ret (snd x)) with Ret None => true | _ => false end);
   (let C := test_container in match (a <- (p <- (p <- (Ret phone0) ;; x <- (Ret (64)%Z) ;; Ret (set_cc p (Some x))) ;; x <- (Ret 12%N) ;; Ret (set_nn p (Some x))) ;; b <- (x <- (x51 <- (Ret (bs "12")) ;; x52 <- (Ret (bs "NZ")) ;; Parse C x51 x52) ;; Ret (fst x)) ;; Ret (phone_full_eqb a b)) with Ret true => true | _ => false end);
   (let C := test_container in match (x <- (x53 <- (Ret (bs "0123456")) ;; x54 <- (Ret (bs "GB")) ;; Parse C x53 x54) ;; Ret (snd x)) with Ret None => true | _ => false end);
   (let C := test_container in match (a <- (p <- (p <- (p <- (Ret phone0) ;; x <- (Ret (44)%Z) ;; Ret (set_cc p (Some x))) ;; x <- (Ret 123456%N) ;; Ret (set_nn p (Some x))) ;; x <- (Ret true) ;; Ret (set_ilz p (Some x))) ;; b <- (x <- (x53 <- (Ret (bs "0123456")) ;; x54 <- (Ret (bs "GB")) ;; Parse C x53 x54) ;; Ret (fst x)) ;; Ret (phone_full_eqb a b)) with Ret true => true | _ => false end)].

Lemma TestParseNationalNumber_ok : forallb (fun b => b) TestParseNationalNumber = true.
Proof. vm_cast_no_check (eq_refl true). Qed.

(* phonenumberutil_test.go: TestParseNumberWithAlphaCharacters, 12 checks, 0 statements not translated *)
Definition TestParseNumberWithAlphaCharacters : list bool :=
  [(let C := test_container in match (x <- (x1 <- (Ret (bs "0800 DDA 005")) ;; x2 <- (Ret (bs "NZ")) ;; Parse C x1 x2) ;; Ret (snd x)) with Ret None => true | _ => false end);
   (let C := test_container in match (a <- (p <- (p <- (Ret phone0) ;; x <- (Ret (64)%Z) ;; Ret (set_cc p (Some x))) ;; x <- (Ret 800332005%N) ;; Ret (set_nn p (Some x))) ;; b <- (x <- (x1 <- (Ret (bs "0800 DDA 005")) ;; x2 <- (Ret (bs "NZ")) ;; Parse C x1 x2) ;; Ret (fst x)) ;; Ret (phone_full_eqb a b)) with Ret true => true | _ => false end);
   (let C := test_container in match (x <- (x3 <- (Ret (bs "0900 DDA 6005")) ;; x4 <- (Ret (bs "NZ")) ;; Parse C x3 x4) ;; Ret (snd x)) with Ret None => true | _ => false end);
   (let C := test_container in match (a <- (p <- (p <- (Ret phone0) ;; x <- (Ret (64)%Z) ;; Ret (set_cc p (Some x))) ;; x <- (Ret 9003326005%N) ;; Ret (set_nn p (Some x))) ;; b <- (x <- (x3 <- (Ret (bs "0900 DDA 6005")) ;; x4 <- (Ret (bs "NZ")) ;; Parse C x3 x4) ;; Ret (fst x)) ;; Ret (phone_full_eqb a b)) with Ret true => true | _ => false end);
   (let C := test_container in match (x <- (x5 <- (Ret (bs "0900 332 6005a")) ;; x6 <- (Ret (bs "NZ")) ;; Parse C x5 x6) ;; Ret (snd x)) with Ret None => true | _ => false end);
   (let C := test_container in match (a <- (p <- (p <- (Ret phone0) ;; x <- (Ret (64)%Z) ;; Ret (set_cc p (Some x))) ;; x <- (Ret 9003326005%N) ;; Ret (set_nn p (Some x))) ;; b <- (x <- (x5 <- (Ret (bs "0900 332 6005a")) ;; x6 <- (Ret (bs "NZ")) ;; Parse C x5 x6) ;; Ret (fst x)) ;; Ret (phone_full_eqb a b)) with Ret true => true | _ => false end);
   (let C := test_container in match (x <- (x7 <- (Ret (bs "0900 332 600a5")) ;; x8 <- (Ret (bs "NZ")) ;; Parse C x7 x8) ;; Ret (snd x)) with Ret None => true | _ => false end);
   (let C := test_container in match (a <- (p <- (p <- (Ret phone0) ;; x <- (Ret (64)%Z) ;; Ret (set_cc p (Some x))) ;; x <- (Ret 9003326005%N) ;; Ret (set_nn p (Some x))) ;; b <- (x <- (x7 <- (Ret (bs "0900 332 600a5")) ;; x8 <- (Ret (bs "NZ")) ;; Parse C x7 x8) ;; Ret (fst x)) ;; Ret (phone_full_eqb a b)) with Ret true => true | _ => false end);
   (let C := test_container in match (x <- (x9 <- (Ret (bs "0900 332 600A5")) ;; x10 <- (Ret (bs "NZ")) ;; Parse C x9 x10) ;; Ret (snd x)) with Ret None => true | _ => false end);
   (let C := test_container in match (a <- (p <- (p <- (Ret phone0) ;; x <- (Ret (64)%Z) ;; Ret (set_cc p (Some x))) ;; x <- (Ret 9003326005%N) ;; Ret (set_nn p (Some x))) ;; b <- (x <- (x9 <- (Ret (bs "0900 332 600A5")) ;; x10 <- (Ret (bs "NZ")) ;; Parse C x9 x10) ;; Ret (fst x)) ;; Ret (phone_full_eqb a b)) with Ret true => true | _ => false end);
   (let C := test_container in match (x <- (x11 <- (Ret (bs "0900 a332 600A5")) ;; x12 <- (Ret (bs "NZ")) ;; Parse C x11 x12) ;; Ret (snd x)) with Ret None => true | _ => false end);
   (let C := test_container in match (a <- (p <- (p <- (Ret phone0) ;; x <- (Ret (64)%Z) ;; Ret (set_cc p (Some x))) ;; x <- (Ret 9003326005%N) ;; Ret (set_nn p (Some x))) ;; b <- (x <- (x11 <- (Ret (bs "0900 a332 600A5")) ;; x12 <- (Ret (bs "NZ")) ;; Parse C x11 x12) ;; Ret (fst x)) ;; Ret (phone_full_eqb a b)) with Ret true => true | _ => false end)].

Lemma TestParseNumberWithAlphaCharacters_ok : forallb (fun b => b) TestParseNumberWithAlphaCharacters = true.
Proof. vm_cast_no_check (eq_refl true). Qed.

(* phonenumberutil_test.go: TestParseWithInternationalPrefixes, 16 checks, 0 statements not translated *)
Definition TestParseWithInternationalPrefixes : list bool :=
  [(let C := test_container in match (x <- (x1 <- (Ret (bs "+1 (650) 253-0000")) ;; x2 <- (Ret (bs "NZ")) ;; Parse C x1 x2) ;; Ret (snd x)) with Ret None => true | _ => false end);
   (let C := test_container in match (a <- (p <- (p <- (Ret phone0) ;; x <- (Ret (1)%Z) ;; Ret (set_cc p (Some x))) ;; x <- (Ret 6502530000%N) ;; Ret (set_nn p (Some x))) ;; b <- (x <- (x1 <- (Ret (bs "+1 (650) 253-0000")) ;; x2 <- (Ret (bs "NZ")) ;; Parse C x1 x2) ;; Ret (fst x)) ;; Ret (phone_full_eqb a b)) with Ret true => true | _ => false end);
   (let C := test_container in match (x <- (x3 <- (Ret (bs "011 800 1234 5678")) ;; x4 <- (Ret (bs "US")) ;; Parse C x3 x4) ;; Ret (snd x)) with Ret None => true | _ => false end);
   (let C := test_container in match (a <- (p <- (p <- (Ret phone0) ;; x <- (Ret (800)%Z) ;; Ret (set_cc p (Some x))) ;; x <- (Ret 12345678%N) ;; Ret (set_nn p (Some x))) ;; b <- (x <- (x3 <- (Ret (bs "011 800 1234 5678")) ;; x4 <- (Ret (bs "US")) ;; Parse C x3 x4) ;; Ret (fst x)) ;; Ret (phone_full_eqb a b)) with Ret true => true | _ => false end);
   (let C := test_container in match (x <- (x5 <- (Ret (bs "1-650-253-0000")) ;; x6 <- (Ret (bs "US")) ;; Parse C x5 x6) ;; Ret (snd x)) with Ret None => true | _ => false end);
   (let C := test_container in match (a <- (p <- (p <- (Ret phone0) ;; x <- (Ret (1)%Z) ;; Ret (set_cc p (Some x))) ;; x <- (Ret 6502530000%N) ;; Ret (set_nn p (Some x))) ;; b <- (x <- (x5 <- (Ret (bs "1-650-253-0000")) ;; x6 <- (Ret (bs "US")) ;; Parse C x5 x6) ;; Ret (fst x)) ;; Ret (phone_full_eqb a b)) with Ret true => true | _ => false end);
   (let C := test_container in match (x <- (x7 <- (Ret (bs "0011-650-253-0000")) ;; x8 <- (Ret (bs "SG")) ;; Parse C x7 x8) ;; Ret (snd x)) with Ret None => true | _ => false end);
   (let C := test_container in match (a <- (p <- (p <- (Ret phone0) ;; x <- (Ret (1)%Z) ;; Ret (set_cc p (Some x))) ;; x <- (Ret 6502530000%N) ;; Ret (set_nn p (Some x))) ;; b <- (x <- (x7 <- (Ret (bs "0011-650-253-0000")) ;; x8 <- (Ret (bs "SG")) ;; Parse C x7 x8) ;; Ret (fst x)) ;; Ret (phone_full_eqb a b)) with Ret true => true | _ => false end);
   (let C := test_container in match (x <- (x9 <- (Ret (bs "0081-650-253-0000")) ;; x10 <- (Ret (bs "SG")) ;; Parse C x9 x10) ;; Ret (snd x)) with Ret None => true | _ => false end);
   (let C := test_container in match (a <- (p <- (p <- (Ret phone0) ;; x <- (Ret (1)%Z) ;; Ret (set_cc p (Some x))) ;; x <- (Ret 6502530000%N) ;; Ret (set_nn p (Some x))) ;; b <- (x <- (x9 <- (Ret (bs "0081-650-253-0000")) ;; x10 <- (Ret (bs "SG")) ;; Parse C x9 x10) ;; Ret (fst x)) ;; Ret (phone_full_eqb a b)) with Ret true => true | _ => false end);
   (let C := test_container in match (x <- (x11 <- (Ret (bs "0191-650-253-0000")) ;; x12 <- (Ret (bs "SG")) ;; Parse C x11 x12) ;; Ret (snd x)) with Ret None => true | _ => false end);
   (let C := test_container in match (a <- (p <- (p <- (Ret phone0) ;; x <- (Ret (1)%Z) ;; Ret (set_cc p (Some x))) ;; x <- (Ret 6502530000%N) ;; Ret (set_nn p (Some x))) ;; b <- (x <- (x11 <- (Ret (bs "0191-650-253-0000")) ;; x12 <- (Ret (bs "SG")) ;; Parse C x11 x12) ;; Ret (fst x)) ;; Ret (phone_full_eqb a b)) with Ret true => true | _ => false end);
   (let C := test_container in match (x <- (x13 <- (Ret (bs "0~01-650-253-0000")) ;; x14 <- (Ret (bs "PL")) ;; Parse C x13 x14) ;; Ret (snd x)) with Ret None => true | _ => false end);
   (let C := test_container in match (a <- (p <- (p <- (Ret phone0) ;; x <- (Ret (1)%Z) ;; Ret (set_cc p (Some x))) ;; x <- (Ret 6502530000%N) ;; Ret (set_nn p (Some x))) ;; b <- (x <- (x13 <- (Ret (bs "0~01-650-253-0000")) ;; x14 <- (Ret (bs "PL")) ;; Parse C x13 x14) ;; Ret (fst x)) ;; Ret (phone_full_eqb a b)) with Ret true => true | _ => false end);
   (let C := test_container in match (x <- (x15 <- (Ret (bs "++1 (650) 253-0000")) ;; x16 <- (Ret (bs "PL")) ;; Parse C x15 x16) ;; Ret (snd x)) with Ret None => true | _ => false end);
   (let C := test_container in match (a <- (p <- (p <- (Ret phone0) ;; x <- (Ret (1)%Z) ;; Ret (set_cc p (Some x))) ;; x <- (Ret 6502530000%N) ;; Ret (set_nn p (Some x))) ;; b <- (x <- (x15 <- (Ret (bs "++1 (650) 253-0000")) ;; x16 <- (Ret (bs "PL")) ;; Parse C x15 x16) ;; Ret (fst x)) ;; Ret (phone_full_eqb a b)) with Ret true => true | _ => false end)].

Lemma TestParseWithInternationalPrefixes_ok : forallb (fun b => b) TestParseWithInternationalPrefixes = true.
Proof. vm_cast_no_check (eq_refl true). Qed.

(* phonenumberutil_test.go: TestParseNonAscii, 10 checks, 0 statements not translated *)
Definition TestParseNonAscii : list bool :=
  [(let C := test_container in match (x <- (x1 <- (Ret [239; 188; 139; 49; 32; 40; 54; 53; 48; 41; 32; 50; 53; 51; 45; 48; 48; 48; 48]) ;; x2 <- (Ret (bs "SG")) ;; Parse C x1 x2) ;; Ret (snd x)) with Ret None => true | _ => false end);
   (let C := test_container in match (a <- (p <- (p <- (Ret phone0) ;; x <- (Ret (1)%Z) ;; Ret (set_cc p (Some x))) ;; x <- (Ret 6502530000%N) ;; Ret (set_nn p (Some x))) ;; b <- (x <- (x1 <- (Ret [239; 188; 139; 49; 32; 40; 54; 53; 48; 41; 32; 50; 53; 51; 45; 48; 48; 48; 48]) ;; x2 <- (Ret (bs "SG")) ;; Parse C x1 x2) ;; Ret (fst x)) ;; Ret (phone_full_eqb a b)) with Ret true => true | _ => false end);
   (let C := test_container in match (x <- (x3 <- (Ret [49; 32; 40; 54; 53; 48; 41; 32; 50; 53; 51; 194; 173; 45; 48; 48; 48; 48]) ;; x4 <- (Ret (bs "US")) ;; Parse C x3 x4) ;; Ret (snd x)) with Ret None => true | _ => false end);
   (let C := test_container in match (a <- (p <- (p <- (Ret phone0) ;; x <- (Ret (1)%Z) ;; Ret (set_cc p (Some x))) ;; x <- (Ret 6502530000%N) ;; Ret (set_nn p (Some x))) ;; b <- (x <- (x3 <- (Ret [49; 32; 40; 54; 53; 48; 41; 32; 50; 53; 51; 194; 173; 45; 48; 48; 48; 48]) ;; x4 <- (Ret (bs "US")) ;; Parse C x3 x4) ;; Ret (fst x)) ;; Ret (phone_full_eqb a b)) with Ret true => true | _ => false end);
   (let C := test_container in match (x <- (x5 <- (a <- (Ret [239; 188; 139; 239; 188; 145; 227; 128; 128; 239; 188; 136; 239; 188; 150; 239; 188; 149; 239; 188; 144; 239; 188; 137]) ;; b <- (Ret [227; 128; 128; 239; 188; 146; 239; 188; 149; 239; 188; 147; 239; 188; 141; 239; 188; 144; 239; 188; 144; 239; 188; 144; 239; 188; 144]) ;; Ret (a ++ b)) ;; x6 <- (Ret (bs "SG")) ;; Parse C x5 x6) ;; Ret (snd x)) with Ret None => true | _ => false end);
   (let C := test_container in match (a <- (p <- (p <- (Ret phone0) ;; x <- (Ret (1)%Z) ;; Ret (set_cc p (Some x))) ;; x <- (Ret 6502530000%N) ;; Ret (set_nn p (Some x))) ;; b <- (x <- (x5 <- (a <- (Ret [239; 188; 139; 239; 188; 145; 227; 128; 128; 239; 188; 136; 239; 188; 150; 239; 188; 149; 239; 188; 144; 239; 188; 137]) ;; b <- (Ret [227; 128; 128; 239; 188; 146; 239; 188; 149; 239; 188; 147; 239; 188; 141; 239; 188; 144; 239; 188; 144; 239; 188; 144; 239; 188; 144]) ;; Ret (a ++ b)) ;; x6 <- (Ret (bs "SG")) ;; Parse C x5 x6) ;; Ret (fst x)) ;; Ret (phone_full_eqb a b)) with Ret true => true | _ => false end);
   (let C := test_container in match (x <- (x7 <- (a <- (Ret [239; 188; 139; 239; 188; 145; 227; 128; 128; 239; 188; 136; 239; 188; 150; 239; 188; 149; 239; 188; 144; 239; 188; 137]) ;; b <- (Ret [227; 128; 128; 239; 188; 146; 239; 188; 149; 239; 188; 147; 227; 131; 188; 239; 188; 144; 239; 188; 144; 239; 188; 144; 239; 188; 144]) ;; Ret (a ++ b)) ;; x8 <- (Ret (bs "SG")) ;; Parse C x7 x8) ;; Ret (snd x)) with Ret None => true | _ => false end);
   (let C := test_container in match (a <- (p <- (p <- (Ret phone0) ;; x <- (Ret (1)%Z) ;; Ret (set_cc p (Some x))) ;; x <- (Ret 6502530000%N) ;; Ret (set_nn p (Some x))) ;; b <- (x <- (x7 <- (a <- (Ret [239; 188; 139; 239; 188; 145; 227; 128; 128; 239; 188; 136; 239; 188; 150; 239; 188; 149; 239; 188; 144; 239; 188; 137]) ;; b <- (Ret [227; 128; 128; 239; 188; 146; 239; 188; 149; 239; 188; 147; 227; 131; 188; 239; 188; 144; 239; 188; 144; 239; 188; 144; 239; 188; 144]) ;; Ret (a ++ b)) ;; x8 <- (Ret (bs "SG")) ;; Parse C x7 x8) ;; Ret (fst x)) ;; Ret (phone_full_eqb a b)) with Ret true => true | _ => false end);
   (let C := test_container in match (x <- (x9 <- (a <- (Ret [225; 160; 145; 32; 225; 160; 150; 225; 160; 149; 225; 160; 144; 32]) ;; b <- (Ret [225; 160; 146; 225; 160; 149; 225; 160; 147; 32; 225; 160; 144; 225; 160; 144; 225; 160; 144; 225; 160; 144]) ;; Ret (a ++ b)) ;; x10 <- (Ret (bs "US")) ;; Parse C x9 x10) ;; Ret (snd x)) with Ret None => true | _ => false end);
   (let C := test_container in match (a <- (p <- (p <- (Ret phone0) ;; x <- (Ret (1)%Z) ;; Ret (set_cc p (Some x))) ;; x <- (Ret 6502530000%N) ;; Ret (set_nn p (Some x))) ;; b <- (x <- (x9 <- (a <- (Ret [225; 160; 145; 32; 225; 160; 150; 225; 160; 149; 225; 160; 144; 32]) ;; b <- (Ret [225; 160; 146; 225; 160; 149; 225; 160; 147; 32; 225; 160; 144; 225; 160; 144; 225; 160; 144; 225; 160; 144]) ;; Ret (a ++ b)) ;; x10 <- (Ret (bs "US")) ;; Parse C x9 x10) ;; Ret (fst x)) ;; Ret (phone_full_eqb a b)) with Ret true => true | _ => false end)].

Lemma TestParseNonAscii_ok : forallb (fun b => b) TestParseNonAscii = true.
Proof. vm_cast_no_check (eq_refl true). Qed.

(* phonenumberutil_test.go: TestParseWithLeadingZero, 6 checks, 0 statements not translated *)
Definition TestParseWithLeadingZero : list bool :=
  [(let C := test_container in match (x <- (x1 <- (Ret (bs "+39 02-36618 300")) ;; x2 <- (Ret (bs "NZ")) ;; Parse C x1 x2) ;; Ret (snd x)) with Ret None => true | _ => false end);
   (let C := test_container in match (a <- (p <- (p <- (p <- (Ret phone0) ;; x <- (Ret (39)%Z) ;; Ret (set_cc p (Some x))) ;; x <- (Ret 236618300%N) ;; Ret (set_nn p (Some x))) ;; x <- (Ret true) ;; Ret (set_ilz p (Some x))) ;; b <- (x <- (x1 <- (Ret (bs "+39 02-36618 300")) ;; x2 <- (Ret (bs "NZ")) ;; Parse C x1 x2) ;; Ret (fst x)) ;; Ret (phone_full_eqb a b)) with Ret true => true | _ => false end);
   (let C := test_container in match (x <- (x3 <- (Ret (bs "02-36618 300")) ;; x4 <- (Ret (bs "IT")) ;; Parse C x3 x4) ;; Ret (snd x)) with Ret None => true | _ => false end);
   (let C := test_container in match (a <- (p <- (p <- (p <- (Ret phone0) ;; x <- (Ret (39)%Z) ;; Ret (set_cc p (Some x))) ;; x <- (Ret 236618300%N) ;; Ret (set_nn p (Some x))) ;; x <- (Ret true) ;; Ret (set_ilz p (Some x))) ;; b <- (x <- (x3 <- (Ret (bs "02-36618 300")) ;; x4 <- (Ret (bs "IT")) ;; Parse C x3 x4) ;; Ret (fst x)) ;; Ret (phone_full_eqb a b)) with Ret true => true | _ => false end);
   (let C := test_container in match (x <- (x5 <- (Ret (bs "345 678 901")) ;; x6 <- (Ret (bs "IT")) ;; Parse C x5 x6) ;; Ret (snd x)) with Ret None => true | _ => false end);
   (let C := test_container in match (a <- (p <- (p <- (Ret phone0) ;; x <- (Ret (39)%Z) ;; Ret (set_cc p (Some x))) ;; x <- (Ret 345678901%N) ;; Ret (set_nn p (Some x))) ;; b <- (x <- (x5 <- (Ret (bs "345 678 901")) ;; x6 <- (Ret (bs "IT")) ;; Parse C x5 x6) ;; Ret (fst x)) ;; Ret (phone_full_eqb a b)) with Ret true => true | _ => false end)].

Lemma TestParseWithLeadingZero_ok : forallb (fun b => b) TestParseWithLeadingZero = true.
Proof. vm_cast_no_check (eq_refl true). Qed.

(* phonenumberutil_test.go: TestParseNationalNumberArgentina, 22 checks, 0 statements not translated *)
Definition TestParseNationalNumberArgentina : list bool :=
  [(let C := test_container in match (x <- (x1 <- (Ret (bs "+54 9 343 555 1212")) ;; x2 <- (Ret (bs "AR")) ;; Parse C x1 x2) ;; Ret (snd x)) with Ret None => true | _ => false end);
   (let C := test_container in match (a <- (p <- (p <- (Ret phone0) ;; x <- (Ret (54)%Z) ;; Ret (set_cc p (Some x))) ;; x <- (Ret 93435551212%N) ;; Ret (set_nn p (Some x))) ;; b <- (x <- (x1 <- (Ret (bs "+54 9 343 555 1212")) ;; x2 <- (Ret (bs "AR")) ;; Parse C x1 x2) ;; Ret (fst x)) ;; Ret (phone_full_eqb a b)) with Ret true => true | _ => false end);
   (let C := test_container in match (x <- (x3 <- (Ret (bs "0343 15 555 1212")) ;; x4 <- (Ret (bs "AR")) ;; Parse C x3 x4) ;; Ret (snd x)) with Ret None => true | _ => false end);
   (let C := test_container in match (a <- (p <- (p <- (Ret phone0) ;; x <- (Ret (54)%Z) ;; Ret (set_cc p (Some x))) ;; x <- (Ret 93435551212%N) ;; Ret (set_nn p (Some x))) ;; b <- (x <- (x3 <- (Ret (bs "0343 15 555 1212")) ;; x4 <- (Ret (bs "AR")) ;; Parse C x3 x4) ;; Ret (fst x)) ;; Ret (phone_full_eqb a b)) with Ret true => true | _ => false end);
   (let C := test_container in match (x <- (x5 <- (Ret (bs "+54 9 3715 65 4320")) ;; x6 <- (Ret (bs "AR")) ;; Parse C x5 x6) ;; Ret (snd x)) with Ret None => true | _ => false end);
   (let C := test_container in match (a <- (p <- (p <- (Ret phone0) ;; x <- (Ret (54)%Z) ;; Ret (set_cc p (Some x))) ;; x <- (Ret 93715654320%N) ;; Ret (set_nn p (Some x))) ;; b <- (x <- (x5 <- (Ret (bs "+54 9 3715 65 4320")) ;; x6 <- (Ret (bs "AR")) ;; Parse C x5 x6) ;; Ret (fst x)) ;; Ret (phone_full_eqb a b)) with Ret true => true | _ => false end);
   (let C := test_container in match (x <- (x7 <- (Ret (bs "03715 15 65 4320")) ;; x8 <- (Ret (bs "AR")) ;; Parse C x7 x8) ;; Ret (snd x)) with Ret None => true | _ => false end);
   (let C := test_container in match (a <- (p <- (p <- (Ret phone0) ;; x <- (Ret (54)%Z) ;; Ret (set_cc p (Some x))) ;; x <- (Ret 93715654320%N) ;; Ret (set_nn p (Some x))) ;; b <- (x <- (x7 <- (Ret (bs "03715 15 65 4320")) ;; x8 <- (Ret (bs "AR")) ;; Parse C x7 x8) ;; Ret (fst x)) ;; Ret (phone_full_eqb a b)) with Ret true => true | _ => false end);
   (let C := test_container in match (x <- (x9 <- (Ret (bs "911 876 54321")) ;; x10 <- (Ret (bs "AR")) ;; Parse C x9 x10) ;; Ret (snd x)) with Ret None => true | _ => false end);
   (let C := test_container in match (a <- (p <- (p <- (Ret phone0) ;; x <- (Ret (54)%Z) ;; Ret (set_cc p (Some x))) ;; x <- (Ret 91187654321%N) ;; Ret (set_nn p (Some x))) ;; b <- (x <- (x9 <- (Ret (bs "911 876 54321")) ;; x10 <- (Ret (bs "AR")) ;; Parse C x9 x10) ;; Ret (fst x)) ;; Ret (phone_full_eqb a b)) with Ret true => true | _ => false end);
   (let C := test_container in match (x <- (x11 <- (Ret (bs "+54 11 8765 4321")) ;; x12 <- (Ret (bs "AR")) ;; Parse C x11 x12) ;; Ret (snd x)) with Ret None => true | _ => false end);
   (let C := test_container in match (a <- (p <- (p <- (Ret phone0) ;; x <- (Ret (54)%Z) ;; Ret (set_cc p (Some x))) ;; x <- (Ret 1187654321%N) ;; Ret (set_nn p (Some x))) ;; b <- (x <- (x11 <- (Ret (bs "+54 11 8765 4321")) ;; x12 <- (Ret (bs "AR")) ;; Parse C x11 x12) ;; Ret (fst x)) ;; Ret (phone_full_eqb a b)) with Ret true => true | _ => false end);
   (let C := test_container in match (x <- (x13 <- (Ret (bs "011 8765 4321")) ;; x14 <- (Ret (bs "AR")) ;; Parse C x13 x14) ;; Ret (snd x)) with Ret None => true | _ => false end);
   (let C := test_container in match (a <- (p <- (p <- (Ret phone0) ;; x <- (Ret (54)%Z) ;; Ret (set_cc p (Some x))) ;; x <- (Ret 1187654321%N) ;; Ret (set_nn p (Some x))) ;; b <- (x <- (x13 <- (Ret (bs "011 8765 4321")) ;; x14 <- (Ret (bs "AR")) ;; Parse C x13 x14) ;; Ret (fst x)) ;; Ret (phone_full_eqb a b)) with Ret true => true | _ => false end);
   (let C := test_container in match (x <- (x15 <- (Ret (bs "+54 3715 65 4321")) ;; x16 <- (Ret (bs "AR")) ;; Parse C x15 x16) ;; Ret (snd x)) with Ret None => true | _ => false end);
   (let C := test_container in match (a <- (p <- (p <- (Ret phone0) ;; x <- (Ret (54)%Z) ;; Ret (set_cc p (Some x))) ;; x <- (Ret 3715654321%N) ;; Ret (set_nn p (Some x))) ;; b <- (x <- (x15 <- (Ret (bs "+54 3715 65 4321")) ;; x16 <- (Ret (bs "AR")) ;; Parse C x15 x16) ;; Ret (fst x)) ;; Ret (phone_full_eqb a b)) with Ret true => true | _ => false end);
   (let C := test_container in match (x <- (x17 <- (Ret (bs "03715 65 4321")) ;; x18 <- (Ret (bs "AR")) ;; Parse C x17 x18) ;; Ret (snd x)) with Ret None => true | _ => false end);
   (let C := test_container in match (a <- (p <- (p <- (Ret phone0) ;; x <- (Ret (54)%Z) ;; Ret (set_cc p (Some x))) ;; x <- (Ret 3715654321%N) ;; Ret (set_nn p (Some x))) ;; b <- (x <- (x17 <- (Ret (bs "03715 65 4321")) ;; x18 <- (Ret (bs "AR")) ;; Parse C x17 x18) ;; Ret (fst x)) ;; Ret (phone_full_eqb a b)) with Ret true => true | _ => false end);
   (let C := test_container in match (x <- (x19 <- (Ret (bs "+54 23 1234 0000")) ;; x20 <- (Ret (bs "AR")) ;; Parse C x19 x20) ;; Ret (snd x)) with Ret None => true | _ => false end);
   (let C := test_container in match (a <- (p <- (p <- (Ret phone0) ;; x <- (Ret (54)%Z) ;; Ret (set_cc p (Some x))) ;; x <- (Ret 2312340000%N) ;; Ret (set_nn p (Some x))) ;; b <- (x <- (x19 <- (Ret (bs "+54 23 1234 0000")) ;; x20 <- (Ret (bs "AR")) ;; Parse C x19 x20) ;; Ret (fst x)) ;; Ret (phone_full_eqb a b)) with Ret true => true | _ => false end);
   (let C := test_container in match (x <- (x21 <- (Ret (bs "023 1234 0000")) ;; x22 <- (Ret (bs "AR")) ;; Parse C x21 x22) ;; Ret (snd x)) with Ret None => true | _ => false end);
   (let C := test_container in match (a <- (p <- (p <- (Ret phone0) ;; x <- (Ret (54)%Z) ;; Ret (set_cc p (Some x))) ;; x <- (Ret 2312340000%N) ;; Ret (set_nn p (Some x))) ;; b <- (x <- (x21 <- (Ret (bs "023 1234 0000")) ;; x22 <- (Ret (bs "AR")) ;; Parse C x21 x22) ;; Ret (fst x)) ;; Ret (phone_full_eqb a b)) with Ret true => true | _ => false end)].

Lemma TestParseNationalNumberArgentina_ok : forallb (fun b => b) TestParseNationalNumberArgentina = true.
Proof. vm_cast_no_check (eq_refl true). Qed.

(* phonenumberutil_test.go: TestParseWithXInNumber, 10 checks, 0 statements not translated *)
Definition TestParseWithXInNumber : list bool :=
  [(let C := test_container in match (x <- (x1 <- (Ret (bs "01187654321")) ;; x2 <- (Ret (bs "AR")) ;; Parse C x1 x2) ;; Ret (snd x)) with Ret None => true | _ => false end);
   (let C := test_container in match (a <- (p <- (p <- (Ret phone0) ;; x <- (Ret (54)%Z) ;; Ret (set_cc p (Some x))) ;; x <- (Ret 1187654321%N) ;; Ret (set_nn p (Some x))) ;; b <- (x <- (x1 <- (Ret (bs "01187654321")) ;; x2 <- (Ret (bs "AR")) ;; Parse C x1 x2) ;; Ret (fst x)) ;; Ret (phone_full_eqb a b)) with Ret true => true | _ => false end);
   (let C := test_container in match (x <- (x3 <- (Ret (bs "(0) 1187654321")) ;; x4 <- (Ret (bs "AR")) ;; Parse C x3 x4) ;; Ret (snd x)) with Ret None => true | _ => false end);
   (let C := test_container in match (a <- (p <- (p <- (Ret phone0) ;; x <- (Ret (54)%Z) ;; Ret (set_cc p (Some x))) ;; x <- (Ret 1187654321%N) ;; Ret (set_nn p (Some x))) ;; b <- (x <- (x3 <- (Ret (bs "(0) 1187654321")) ;; x4 <- (Ret (bs "AR")) ;; Parse C x3 x4) ;; Ret (fst x)) ;; Ret (phone_full_eqb a b)) with Ret true => true | _ => false end);
   (let C := test_container in match (x <- (x5 <- (Ret (bs "0 1187654321")) ;; x6 <- (Ret (bs "AR")) ;; Parse C x5 x6) ;; Ret (snd x)) with Ret None => true | _ => false end);
   (let C := test_container in match (a <- (p <- (p <- (Ret phone0) ;; x <- (Ret (54)%Z) ;; Ret (set_cc p (Some x))) ;; x <- (Ret 1187654321%N) ;; Ret (set_nn p (Some x))) ;; b <- (x <- (x5 <- (Ret (bs "0 1187654321")) ;; x6 <- (Ret (bs "AR")) ;; Parse C x5 x6) ;; Ret (fst x)) ;; Ret (phone_full_eqb a b)) with Ret true => true | _ => false end);
   (let C := test_container in match (x <- (x7 <- (Ret (bs "(0xx) 1187654321")) ;; x8 <- (Ret (bs "AR")) ;; Parse C x7 x8) ;; Ret (snd x)) with Ret None => true | _ => false end);
   (let C := test_container in match (a <- (p <- (p <- (Ret phone0) ;; x <- (Ret (54)%Z) ;; Ret (set_cc p (Some x))) ;; x <- (Ret 1187654321%N) ;; Ret (set_nn p (Some x))) ;; b <- (x <- (x7 <- (Ret (bs "(0xx) 1187654321")) ;; x8 <- (Ret (bs "AR")) ;; Parse C x7 x8) ;; Ret (fst x)) ;; Ret (phone_full_eqb a b)) with Ret true => true | _ => false end);
   (let C := test_container in match (x <- (x9 <- (Ret (bs "011xx5481429712")) ;; x10 <- (Ret (bs "US")) ;; Parse C x9 x10) ;; Ret (snd x)) with Ret None => true | _ => false end);
   (let C := test_container in match (a <- (p <- (p <- (Ret phone0) ;; x <- (Ret (54)%Z) ;; Ret (set_cc p (Some x))) ;; x <- (Ret 81429712%N) ;; Ret (set_nn p (Some x))) ;; b <- (x <- (x9 <- (Ret (bs "011xx5481429712")) ;; x10 <- (Ret (bs "US")) ;; Parse C x9 x10) ;; Ret (fst x)) ;; Ret (phone_full_eqb a b)) with Ret true => true | _ => false end)].

Lemma TestParseWithXInNumber_ok : forallb (fun b => b) TestParseWithXInNumber = true.
Proof. vm_cast_no_check (eq_refl true). Qed.

(* phonenumberutil_test.go: TestParseNumbersMexico, 12 checks, 0 statements not translated *)
Definition TestParseNumbersMexico : list bool :=
  [(let C := test_container in match (x <- (x1 <- (Ret (bs "+52 (449)978-0001")) ;; x2 <- (Ret (bs "MX")) ;; Parse C x1 x2) ;; Ret (snd x)) with Ret None => true | _ => false end);
   (let C := test_container in match (a <- (p <- (p <- (Ret phone0) ;; x <- (Ret (52)%Z) ;; Ret (set_cc p (Some x))) ;; x <- (Ret 4499780001%N) ;; Ret (set_nn p (Some x))) ;; b <- (x <- (x1 <- (Ret (bs "+52 (449)978-0001")) ;; x2 <- (Ret (bs "MX")) ;; Parse C x1 x2) ;; Ret (fst x)) ;; Ret (phone_full_eqb a b)) with Ret true => true | _ => false end);
   (let C := test_container in match (x <- (x3 <- (Ret (bs "01 (449)978-0001")) ;; x4 <- (Ret (bs "MX")) ;; Parse C x3 x4) ;; Ret (snd x)) with Ret None => true | _ => false end);
   (let C := test_container in match (a <- (p <- (p <- (Ret phone0) ;; x <- (Ret (52)%Z) ;; Ret (set_cc p (Some x))) ;; x <- (Ret 4499780001%N) ;; Ret (set_nn p (Some x))) ;; b <- (x <- (x3 <- (Ret (bs "01 (449)978-0001")) ;; x4 <- (Ret (bs "MX")) ;; Parse C x3 x4) ;; Ret (fst x)) ;; Ret (phone_full_eqb a b)) with Ret true => true | _ => false end);
   (let C := test_container in match (x <- (x5 <- (Ret (bs "(449)978-0001")) ;; x6 <- (Ret (bs "MX")) ;; Parse C x5 x6) ;; Ret (snd x)) with Ret None => true | _ => false end);
   (let C := test_container in match (a <- (p <- (p <- (Ret phone0) ;; x <- (Ret (52)%Z) ;; Ret (set_cc p (Some x))) ;; x <- (Ret 4499780001%N) ;; Ret (set_nn p (Some x))) ;; b <- (x <- (x5 <- (Ret (bs "(449)978-0001")) ;; x6 <- (Ret (bs "MX")) ;; Parse C x5 x6) ;; Ret (fst x)) ;; Ret (phone_full_eqb a b)) with Ret true => true | _ => false end);
   (let C := test_container in match (x <- (x7 <- (Ret (bs "+52 1 33 1234-5678")) ;; x8 <- (Ret (bs "MX")) ;; Parse C x7 x8) ;; Ret (snd x)) with Ret None => true | _ => false end);
   (let C := test_container in match (a <- (p <- (p <- (Ret phone0) ;; x <- (Ret (52)%Z) ;; Ret (set_cc p (Some x))) ;; x <- (Ret 13312345678%N) ;; Ret (set_nn p (Some x))) ;; b <- (x <- (x7 <- (Ret (bs "+52 1 33 1234-5678")) ;; x8 <- (Ret (bs "MX")) ;; Parse C x7 x8) ;; Ret (fst x)) ;; Ret (phone_full_eqb a b)) with Ret true => true | _ => false end);
   (let C := test_container in match (x <- (x9 <- (Ret (bs "044 (33) 1234-5678")) ;; x10 <- (Ret (bs "MX")) ;; Parse C x9 x10) ;; Ret (snd x)) with Ret None => true | _ => false end);
   (let C := test_container in match (a <- (p <- (p <- (Ret phone0) ;; x <- (Ret (52)%Z) ;; Ret (set_cc p (Some x))) ;; x <- (Ret 13312345678%N) ;; Ret (set_nn p (Some x))) ;; b <- (x <- (x9 <- (Ret (bs "044 (33) 1234-5678")) ;; x10 <- (Ret (bs "MX")) ;; Parse C x9 x10) ;; Ret (fst x)) ;; Ret (phone_full_eqb a b)) with Ret true => true | _ => false end);
   (let C := test_container in match (x <- (x11 <- (Ret (bs "045 33 1234-5678")) ;; x12 <- (Ret (bs "MX")) ;; Parse C x11 x12) ;; Ret (snd x)) with Ret None => true | _ => false end);
   (let C := test_container in match (a <- (p <- (p <- (Ret phone0) ;; x <- (Ret (52)%Z) ;; Ret (set_cc p (Some x))) ;; x <- (Ret 13312345678%N) ;; Ret (set_nn p (Some x))) ;; b <- (x <- (x11 <- (Ret (bs "045 33 1234-5678")) ;; x12 <- (Ret (bs "MX")) ;; Parse C x11 x12) ;; Ret (fst x)) ;; Ret (phone_full_eqb a b)) with Ret true => true | _ => false end)].

Lemma TestParseNumbersMexico_ok : forallb (fun b => b) TestParseNumbersMexico = true.
Proof. vm_cast_no_check (eq_refl true). Qed.

(* phonenumberutil_test.go: TestParseNumbersWithPlusWithNoRegion, 22 checks, 0 statements not translated *)
Definition TestParseNumbersWithPlusWithNoRegion : list bool :=
  [(let C := test_container in match (x <- (x1 <- (Ret (bs "+64 3 331 6005")) ;; x2 <- (Ret (bs "ZZ")) ;; Parse C x1 x2) ;; Ret (snd x)) with Ret None => true | _ => false end);
   (let C := test_container in match (a <- (p <- (p <- (Ret phone0) ;; x <- (Ret (64)%Z) ;; Ret (set_cc p (Some x))) ;; x <- (Ret 33316005%N) ;; Ret (set_nn p (Some x))) ;; b <- (x <- (x1 <- (Ret (bs "+64 3 331 6005")) ;; x2 <- (Ret (bs "ZZ")) ;; Parse C x1 x2) ;; Ret (fst x)) ;; Ret (phone_full_eqb a b)) with Ret true => true | _ => false end);
   (let C := test_container in match (x <- (x3 <- (Ret [239; 188; 139; 54; 52; 32; 51; 32; 51; 51; 49; 32; 54; 48; 48; 53]) ;; x4 <- (Ret (bs "ZZ")) ;; Parse C x3 x4) ;; Ret (snd x)) with Ret None => true | _ => false end);
   (let C := test_container in match (a <- (p <- (p <- (Ret phone0) ;; x <- (Ret (64)%Z) ;; Ret (set_cc p (Some x))) ;; x <- (Ret 33316005%N) ;; Ret (set_nn p (Some x))) ;; b <- (x <- (x3 <- (Ret [239; 188; 139; 54; 52; 32; 51; 32; 51; 51; 49; 32; 54; 48; 48; 53]) ;; x4 <- (Ret (bs "ZZ")) ;; Parse C x3 x4) ;; Ret (fst x)) ;; Ret (phone_full_eqb a b)) with Ret true => true | _ => false end);
   (let C := test_container in match (x <- (x5 <- (Ret (bs "Tel: +64 3 331 6005")) ;; x6 <- (Ret (bs "ZZ")) ;; Parse C x5 x6) ;; Ret (snd x)) with Ret None => true | _ => false end);
   (let C := test_container in match (a <- (p <- (p <- (Ret phone0) ;; x <- (Ret (64)%Z) ;; Ret (set_cc p (Some x))) ;; x <- (Ret 33316005%N) ;; Ret (set_nn p (Some x))) ;; b <- (x <- (x5 <- (Ret (bs "Tel: +64 3 331 6005")) ;; x6 <- (Ret (bs "ZZ")) ;; Parse C x5 x6) ;; Ret (fst x)) ;; Ret (phone_full_eqb a b)) with Ret true => true | _ => false end);
   (let C := test_container in match (x <- (x7 <- (Ret (bs "+64 3 331 6005")) ;; x8 <- (Ret (bs "")) ;; Parse C x7 x8) ;; Ret (snd x)) with Ret None => true | _ => false end);
   (let C := test_container in match (a <- (p <- (p <- (Ret phone0) ;; x <- (Ret (64)%Z) ;; Ret (set_cc p (Some x))) ;; x <- (Ret 33316005%N) ;; Ret (set_nn p (Some x))) ;; b <- (x <- (x7 <- (Ret (bs "+64 3 331 6005")) ;; x8 <- (Ret (bs "")) ;; Parse C x7 x8) ;; Ret (fst x)) ;; Ret (phone_full_eqb a b)) with Ret true => true | _ => false end);
   (let C := test_container in match (x <- (x9 <- (Ret (bs "+800 1234 5678")) ;; x10 <- (Ret (bs "")) ;; Parse C x9 x10) ;; Ret (snd x)) with Ret None => true | _ => false end);
   (let C := test_container in match (a <- (p <- (p <- (Ret phone0) ;; x <- (Ret (800)%Z) ;; Ret (set_cc p (Some x))) ;; x <- (Ret 12345678%N) ;; Ret (set_nn p (Some x))) ;; b <- (x <- (x9 <- (Ret (bs "+800 1234 5678")) ;; x10 <- (Ret (bs "")) ;; Parse C x9 x10) ;; Ret (fst x)) ;; Ret (phone_full_eqb a b)) with Ret true => true | _ => false end);
   (let C := test_container in match (x <- (x11 <- (Ret (bs "+979 123 456 789")) ;; x12 <- (Ret (bs "")) ;; Parse C x11 x12) ;; Ret (snd x)) with Ret None => true | _ => false end);
   (let C := test_container in match (a <- (p <- (p <- (Ret phone0) ;; x <- (Ret (979)%Z) ;; Ret (set_cc p (Some x))) ;; x <- (Ret 123456789%N) ;; Ret (set_nn p (Some x))) ;; b <- (x <- (x11 <- (Ret (bs "+979 123 456 789")) ;; x12 <- (Ret (bs "")) ;; Parse C x11 x12) ;; Ret (fst x)) ;; Ret (phone_full_eqb a b)) with Ret true => true | _ => false end);
   (let C := test_container in match (x <- (x13 <- (Ret (bs "tel:03-331-6005;phone-context=+64")) ;; x14 <- (Ret (bs "ZZ")) ;; Parse C x13 x14) ;; Ret (snd x)) with Ret None => true | _ => false end);
   (let C := test_container in match (a <- (p <- (p <- (Ret phone0) ;; x <- (Ret (64)%Z) ;; Ret (set_cc p (Some x))) ;; x <- (Ret 33316005%N) ;; Ret (set_nn p (Some x))) ;; b <- (x <- (x13 <- (Ret (bs "tel:03-331-6005;phone-context=+64")) ;; x14 <- (Ret (bs "ZZ")) ;; Parse C x13 x14) ;; Ret (fst x)) ;; Ret (phone_full_eqb a b)) with Ret true => true | _ => false end);
   (let C := test_container in match (x <- (x15 <- (Ret (bs "  tel:03-331-6005;phone-context=+64")) ;; x16 <- (Ret (bs "ZZ")) ;; Parse C x15 x16) ;; Ret (snd x)) with Ret None => true | _ => false end);
   (let C := test_container in match (a <- (p <- (p <- (Ret phone0) ;; x <- (Ret (64)%Z) ;; Ret (set_cc p (Some x))) ;; x <- (Ret 33316005%N) ;; Ret (set_nn p (Some x))) ;; b <- (x <- (x15 <- (Ret (bs "  tel:03-331-6005;phone-context=+64")) ;; x16 <- (Ret (bs "ZZ")) ;; Parse C x15 x16) ;; Ret (fst x)) ;; Ret (phone_full_eqb a b)) with Ret true => true | _ => false end);
   (let C := test_container in match (x <- (x17 <- (Ret (bs "tel:03-331-6005;isub=12345;phone-context=+64")) ;; x18 <- (Ret (bs "ZZ")) ;; Parse C x17 x18) ;; Ret (snd x)) with Ret None => true | _ => false end);
   (let C := test_container in match (a <- (p <- (p <- (Ret phone0) ;; x <- (Ret (64)%Z) ;; Ret (set_cc p (Some x))) ;; x <- (Ret 33316005%N) ;; Ret (set_nn p (Some x))) ;; b <- (x <- (x17 <- (Ret (bs "tel:03-331-6005;isub=12345;phone-context=+64")) ;; x18 <- (Ret (bs "ZZ")) ;; Parse C x17 x18) ;; Ret (fst x)) ;; Ret (phone_full_eqb a b)) with Ret true => true | _ => false end);
   (let C := test_container in match (x <- (x19 <- (Ret (bs "+64 3 331 6005")) ;; x20 <- (Ret (bs "ZZ")) ;; ParseAndKeepRawInput C x19 x20) ;; Ret (snd x)) with Ret None => true | _ => false end);
   (let C := test_container in match (a <- (p <- (p <- (p <- (p <- (Ret phone0) ;; x <- (Ret (64)%Z) ;; Ret (set_cc p (Some x))) ;; x <- (Ret 33316005%N) ;; Ret (set_nn p (Some x))) ;; x <- (Ret (bs "+64 3 331 6005")) ;; Ret (set_raw p (Some x))) ;; x <- (Ret FROM_NUMBER_WITH_PLUS_SIGN) ;; Ret (set_src p (Some x))) ;; b <- (x <- (x19 <- (Ret (bs "+64 3 331 6005")) ;; x20 <- (Ret (bs "ZZ")) ;; ParseAndKeepRawInput C x19 x20) ;; Ret (fst x)) ;; Ret (phone_full_eqb a b)) with Ret true => true | _ => false end);
   (let C := test_container in match (x <- (x21 <- (Ret (bs "+64 3 331 6005")) ;; x22 <- (Ret (bs "")) ;; ParseAndKeepRawInput C x21 x22) ;; Ret (snd x)) with Ret None => true | _ => false end);
   (let C := test_container in match (a <- (p <- (p <- (p <- (p <- (Ret phone0) ;; x <- (Ret (64)%Z) ;; Ret (set_cc p (Some x))) ;; x <- (Ret 33316005%N) ;; Ret (set_nn p (Some x))) ;; x <- (Ret (bs "+64 3 331 6005")) ;; Ret (set_raw p (Some x))) ;; x <- (Ret FROM_NUMBER_WITH_PLUS_SIGN) ;; Ret (set_src p (Some x))) ;; b <- (x <- (x21 <- (Ret (bs "+64 3 331 6005")) ;; x22 <- (Ret (bs "")) ;; ParseAndKeepRawInput C x21 x22) ;; Ret (fst x)) ;; Ret (phone_full_eqb a b)) with Ret true => true | _ => false end)].

Lemma TestParseNumbersWithPlusWithNoRegion_ok : forallb (fun b => b) TestParseNumbersWithPlusWithNoRegion = true.
Proof. vm_cast_no_check (eq_refl true). Qed.

(* phonenumberutil_test.go: TestParseNumberTooShortIfNationalPrefixStripped, 8 checks, 0 statements not translated *)
Definition TestParseNumberTooShortIfNationalPrefixStripped : list bool :=
  [(let C := test_container in match (x <- (x1 <- (Ret (bs "8123")) ;; x2 <- (Ret (bs "BY")) ;; Parse C x1 x2) ;; Ret (snd x)) with Ret None => true | _ => false end);
   (let C := test_container in match (a <- (p <- (p <- (Ret phone0) ;; x <- (Ret (375)%Z) ;; Ret (set_cc p (Some x))) ;; x <- (Ret 8123%N) ;; Ret (set_nn p (Some x))) ;; b <- (x <- (x1 <- (Ret (bs "8123")) ;; x2 <- (Ret (bs "BY")) ;; Parse C x1 x2) ;; Ret (fst x)) ;; Ret (phone_full_eqb a b)) with Ret true => true | _ => false end);
   (let C := test_container in match (x <- (x3 <- (Ret (bs "81234")) ;; x4 <- (Ret (bs "BY")) ;; Parse C x3 x4) ;; Ret (snd x)) with Ret None => true | _ => false end);
   (let C := test_container in match (a <- (p <- (p <- (p <- (Ret phone0) ;; x <- (Ret (375)%Z) ;; Ret (set_cc p (Some x))) ;; x <- (Ret 8123%N) ;; Ret (set_nn p (Some x))) ;; x <- (Ret 81234%N) ;; Ret (set_nn p (Some x))) ;; b <- (x <- (x3 <- (Ret (bs "81234")) ;; x4 <- (Ret (bs "BY")) ;; Parse C x3 x4) ;; Ret (fst x)) ;; Ret (phone_full_eqb a b)) with Ret true => true | _ => false end);
   (let C := test_container in match (x <- (x5 <- (Ret (bs "812345")) ;; x6 <- (Ret (bs "BY")) ;; Parse C x5 x6) ;; Ret (snd x)) with Ret None => true | _ => false end);
   (let C := test_container in match (a <- (p <- (p <- (p <- (p <- (Ret phone0) ;; x <- (Ret (375)%Z) ;; Ret (set_cc p (Some x))) ;; x <- (Ret 8123%N) ;; Ret (set_nn p (Some x))) ;; x <- (Ret 81234%N) ;; Ret (set_nn p (Some x))) ;; x <- (Ret 812345%N) ;; Ret (set_nn p (Some x))) ;; b <- (x <- (x5 <- (Ret (bs "812345")) ;; x6 <- (Ret (bs "BY")) ;; Parse C x5 x6) ;; Ret (fst x)) ;; Ret (phone_full_eqb a b)) with Ret true => true | _ => false end);
   (let C := test_container in match (x <- (x7 <- (Ret (bs "8123456")) ;; x8 <- (Ret (bs "BY")) ;; Parse C x7 x8) ;; Ret (snd x)) with Ret None => true | _ => false end);
   (let C := test_container in match (a <- (p <- (p <- (p <- (p <- (p <- (Ret phone0) ;; x <- (Ret (375)%Z) ;; Ret (set_cc p (Some x))) ;; x <- (Ret 8123%N) ;; Ret (set_nn p (Some x))) ;; x <- (Ret 81234%N) ;; Ret (set_nn p (Some x))) ;; x <- (Ret 812345%N) ;; Ret (set_nn p (Some x))) ;; x <- (Ret 123456%N) ;; Ret (set_nn p (Some x))) ;; b <- (x <- (x7 <- (Ret (bs "8123456")) ;; x8 <- (Ret (bs "BY")) ;; Parse C x7 x8) ;; Ret (fst x)) ;; Ret (phone_full_eqb a b)) with Ret true => true | _ => false end)].

Lemma TestParseNumberTooShortIfNationalPrefixStripped_ok : forallb (fun b => b) TestParseNumberTooShortIfNationalPrefixStripped = true.
Proof. vm_cast_no_check (eq_refl true). Qed.

(* phonenumberutil_test.go: TestParseExtensions, 84 checks, 0 statements not translated *)
Definition TestParseExtensions : list bool :=
  [(let C := test_container in match (x <- (x1 <- (Ret (bs "03 331 6005 ext 3456")) ;; x2 <- (Ret (bs "NZ")) ;; Parse C x1 x2) ;; Ret (snd x)) with Ret None => true | _ => false end);
   (let C := test_container in match (a <- (p <- (p <- (p <- (Ret phone0) ;; x <- (Ret (64)%Z) ;; Ret (set_cc p (Some x))) ;; x <- (Ret 33316005%N) ;; Ret (set_nn p (Some x))) ;; x <- (Ret (bs "3456")) ;; Ret (set_ext p (Some x))) ;; b <- (x <- (x1 <- (Ret (bs "03 331 6005 ext 3456")) ;; x2 <- (Ret (bs "NZ")) ;; Parse C x1 x2) ;; Ret (fst x)) ;; Ret (phone_full_eqb a b)) with Ret true => true | _ => false end);
   (let C := test_container in match (x <- (x3 <- (Ret (bs "03-3316005x3456")) ;; x4 <- (Ret (bs "NZ")) ;; Parse C x3 x4) ;; Ret (snd x)) with Ret None => true | _ => false end);
   (let C := test_container in match (a <- (p <- (p <- (p <- (Ret phone0) ;; x <- (Ret (64)%Z) ;; Ret (set_cc p (Some x))) ;; x <- (Ret 33316005%N) ;; Ret (set_nn p (Some x))) ;; x <- (Ret (bs "3456")) ;; Ret (set_ext p (Some x))) ;; b <- (x <- (x3 <- (Ret (bs "03-3316005x3456")) ;; x4 <- (Ret (bs "NZ")) ;; Parse C x3 x4) ;; Ret (fst x)) ;; Ret (phone_full_eqb a b)) with Ret true => true | _ => false end);
   (let C := test_container in match (x <- (x5 <- (Ret (bs "03-3316005 int.3456")) ;; x6 <- (Ret (bs "NZ")) ;; Parse C x5 x6) ;; Ret (snd x)) with Ret None => true | _ => false end);
   (let C := test_container in match (a <- (p <- (p <- (p <- (Ret phone0) ;; x <- (Ret (64)%Z) ;; Ret (set_cc p (Some x))) ;; x <- (Ret 33316005%N) ;; Ret (set_nn p (Some x))) ;; x <- (Ret (bs "3456")) ;; Ret (set_ext p (Some x))) ;; b <- (x <- (x5 <- (Ret (bs "03-3316005 int.3456")) ;; x6 <- (Ret (bs "NZ")) ;; Parse C x5 x6) ;; Ret (fst x)) ;; Ret (phone_full_eqb a b)) with Ret true => true | _ => false end);
   (let C := test_container in match (x <- (x7 <- (Ret (bs "03 3316005 #3456")) ;; x8 <- (Ret (bs "NZ")) ;; Parse C x7 x8) ;; Ret (snd x)) with Ret None => true | _ => false end);
   (let C := test_container in match (a <- (p <- (p <- (p <- (Ret phone0) ;; x <- (Ret (64)%Z) ;; Ret (set_cc p (Some x))) ;; x <- (Ret 33316005%N) ;; Ret (set_nn p (Some x))) ;; x <- (Ret (bs "3456")) ;; Ret (set_ext p (Some x))) ;; b <- (x <- (x7 <- (Ret (bs "03 3316005 #3456")) ;; x8 <- (Ret (bs "NZ")) ;; Parse C x7 x8) ;; Ret (fst x)) ;; Ret (phone_full_eqb a b)) with Ret true => true | _ => false end);
   (let C := test_container in match (x <- (x9 <- (Ret (bs "1800 six-flags")) ;; x10 <- (Ret (bs "US")) ;; Parse C x9 x10) ;; Ret (snd x)) with Ret None => true | _ => false end);
   (let C := test_container in match (a <- (p <- (p <- (Ret phone0) ;; x <- (Ret (1)%Z) ;; Ret (set_cc p (Some x))) ;; x <- (Ret 80074935247%N) ;; Ret (set_nn p (Some x))) ;; b <- (x <- (x9 <- (Ret (bs "1800 six-flags")) ;; x10 <- (Ret (bs "US")) ;; Parse C x9 x10) ;; Ret (fst x)) ;; Ret (phone_full_eqb a b)) with Ret true => true | _ => false end);
   (let C := test_container in match (x <- (x11 <- (Ret (bs "1800 SIX FLAGS")) ;; x12 <- (Ret (bs "US")) ;; Parse C x11 x12) ;; Ret (snd x)) with Ret None => true | _ => false end);
   (let C := test_container in match (a <- (p <- (p <- (Ret phone0) ;; x <- (Ret (1)%Z) ;; Ret (set_cc p (Some x))) ;; x <- (Ret 80074935247%N) ;; Ret (set_nn p (Some x))) ;; b <- (x <- (x11 <- (Ret (bs "1800 SIX FLAGS")) ;; x12 <- (Ret (bs "US")) ;; Parse C x11 x12) ;; Ret (fst x)) ;; Ret (phone_full_eqb a b)) with Ret true => true | _ => false end);
   (let C := test_container in match (x <- (x13 <- (Ret (bs "0~0 1800 7493 5247")) ;; x14 <- (Ret (bs "PL")) ;; Parse C x13 x14) ;; Ret (snd x)) with Ret None => true | _ => false end);
   (let C := test_container in match (a <- (p <- (p <- (Ret phone0) ;; x <- (Ret (1)%Z) ;; Ret (set_cc p (Some x))) ;; x <- (Ret 80074935247%N) ;; Ret (set_nn p (Some x))) ;; b <- (x <- (x13 <- (Ret (bs "0~0 1800 7493 5247")) ;; x14 <- (Ret (bs "PL")) ;; Parse C x13 x14) ;; Ret (fst x)) ;; Ret (phone_full_eqb a b)) with Ret true => true | _ => false end);
   (let C := test_container in match (x <- (x15 <- (Ret (bs "(1800) 7493.5247")) ;; x16 <- (Ret (bs "US")) ;; Parse C x15 x16) ;; Ret (snd x)) with Ret None => true | _ => false end);
   (let C := test_container in match (a <- (p <- (p <- (Ret phone0) ;; x <- (Ret (1)%Z) ;; Ret (set_cc p (Some x))) ;; x <- (Ret 80074935247%N) ;; Ret (set_nn p (Some x))) ;; b <- (x <- (x15 <- (Ret (bs "(1800) 7493.5247")) ;; x16 <- (Ret (bs "US")) ;; Parse C x15 x16) ;; Ret (fst x)) ;; Ret (phone_full_eqb a b)) with Ret true => true | _ => false end);
   (let C := test_container in match (x <- (x17 <- (Ret (bs "0~0 1800 7493 5247 ~1234")) ;; x18 <- (Ret (bs "PL")) ;; Parse C x17 x18) ;; Ret (snd x)) with Ret None => true | _ => false end);
   (let C := test_container in match (a <- (p <- (p <- (p <- (Ret phone0) ;; x <- (Ret (1)%Z) ;; Ret (set_cc p (Some x))) ;; x <- (Ret 80074935247%N) ;; Ret (set_nn p (Some x))) ;; x <- (Ret (bs "1234")) ;; Ret (set_ext p (Some x))) ;; b <- (x <- (x17 <- (Ret (bs "0~0 1800 7493 5247 ~1234")) ;; x18 <- (Ret (bs "PL")) ;; Parse C x17 x18) ;; Ret (fst x)) ;; Ret (phone_full_eqb a b)) with Ret true => true | _ => false end);
   (let C := test_container in match (x <- (x19 <- (Ret (bs "+44 2034567890x456")) ;; x20 <- (Ret (bs "NZ")) ;; Parse C x19 x20) ;; Ret (snd x)) with Ret None => true | _ => false end);
   (let C := test_container in match (a <- (p <- (p <- (p <- (Ret phone0) ;; x <- (Ret (44)%Z) ;; Ret (set_cc p (Some x))) ;; x <- (Ret 2034567890%N) ;; Ret (set_nn p (Some x))) ;; x <- (Ret (bs "456")) ;; Ret (set_ext p (Some x))) ;; b <- (x <- (x19 <- (Ret (bs "+44 2034567890x456")) ;; x20 <- (Ret (bs "NZ")) ;; Parse C x19 x20) ;; Ret (fst x)) ;; Ret (phone_full_eqb a b)) with Ret true => true | _ => false end);
   (let C := test_container in match (x <- (x21 <- (Ret (bs "+44 2034567890x456")) ;; x22 <- (Ret (bs "GB")) ;; Parse C x21 x22) ;; Ret (snd x)) with Ret None => true | _ => false end);
   (let C := test_container in match (a <- (p <- (p <- (p <- (Ret phone0) ;; x <- (Ret (44)%Z) ;; Ret (set_cc p (Some x))) ;; x <- (Ret 2034567890%N) ;; Ret (set_nn p (Some x))) ;; x <- (Ret (bs "456")) ;; Ret (set_ext p (Some x))) ;; b <- (x <- (x21 <- (Ret (bs "+44 2034567890x456")) ;; x22 <- (Ret (bs "GB")) ;; Parse C x21 x22) ;; Ret (fst x)) ;; Ret (phone_full_eqb a b)) with Ret true => true | _ => false end);
   (let C := test_container in match (x <- (x23 <- (Ret (bs "+44 2034567890 x456")) ;; x24 <- (Ret (bs "GB")) ;; Parse C x23 x24) ;; Ret (snd x)) with Ret None => true | _ => false end);
   (let C := test_container in match (a <- (p <- (p <- (p <- (Ret phone0) ;; x <- (Ret (44)%Z) ;; Ret (set_cc p (Some x))) ;; x <- (Ret 2034567890%N) ;; Ret (set_nn p (Some x))) ;; x <- (Ret (bs "456")) ;; Ret (set_ext p (Some x))) ;; b <- (x <- (x23 <- (Ret (bs "+44 2034567890 x456")) ;; x24 <- (Ret (bs "GB")) ;; Parse C x23 x24) ;; Ret (fst x)) ;; Ret (phone_full_eqb a b)) with Ret true => true | _ => false end);
   (let C := test_container in match (x <- (x25 <- (Ret (bs "+44 2034567890 X456")) ;; x26 <- (Ret (bs "GB")) ;; Parse C x25 x26) ;; Ret (snd x)) with Ret None => true | _ => false end);
   (let C := test_container in match (a <- (p <- (p <- (p <- (Ret phone0) ;; x <- (Ret (44)%Z) ;; Ret (set_cc p (Some x))) ;; x <- (Ret 2034567890%N) ;; Ret (set_nn p (Some x))) ;; x <- (Ret (bs "456")) ;; Ret (set_ext p (Some x))) ;; b <- (x <- (x25 <- (Ret (bs "+44 2034567890 X456")) ;; x26 <- (Ret (bs "GB")) ;; Parse C x25 x26) ;; Ret (fst x)) ;; Ret (phone_full_eqb a b)) with Ret true => true | _ => false end);
   (let C := test_container in match (x <- (x27 <- (Ret (bs "+44 2034567890 X 456")) ;; x28 <- (Ret (bs "GB")) ;; Parse C x27 x28) ;; Ret (snd x)) with Ret None => true | _ => false end);
   (let C := test_container in match (a <- (p <- (p <- (p <- (Ret phone0) ;; x <- (Ret (44)%Z) ;; Ret (set_cc p (Some x))) ;; x <- (Ret 2034567890%N) ;; Ret (set_nn p (Some x))) ;; x <- (Ret (bs "456")) ;; Ret (set_ext p (Some x))) ;; b <- (x <- (x27 <- (Ret (bs "+44 2034567890 X 456")) ;; x28 <- (Ret (bs "GB")) ;; Parse C x27 x28) ;; Ret (fst x)) ;; Ret (phone_full_eqb a b)) with Ret true => true | _ => false end);
   (let C := test_container in match (x <- (x29 <- (Ret (bs "+44 2034567890 X  456")) ;; x30 <- (Ret (bs "GB")) ;; Parse C x29 x30) ;; Ret (snd x)) with Ret None => true | _ => false end);
   (let C := test_container in match (a <- (p <- (p <- (p <- (Ret phone0) ;; x <- (Ret (44)%Z) ;; Ret (set_cc p (Some x))) ;; x <- (Ret 2034567890%N) ;; Ret (set_nn p (Some x))) ;; x <- (Ret (bs "456")) ;; Ret (set_ext p (Some x))) ;; b <- (x <- (x29 <- (Ret (bs "+44 2034567890 X  456")) ;; x30 <- (Ret (bs "GB")) ;; Parse C x29 x30) ;; Ret (fst x)) ;; Ret (phone_full_eqb a b)) with Ret true => true | _ => false end);
   (let C := test_container in match (x <- (x31 <- (Ret (bs "+44 2034567890  X 456")) ;; x32 <- (Ret (bs "GB")) ;; Parse C x31 x32) ;; Ret (snd x)) with Ret None => true | _ => false end);
   (let C := test_container in match (a <- (p <- (p <- (p <- (Ret phone0) ;; x <- (Ret (44)%Z) ;; Ret (set_cc p (Some x))) ;; x <- (Ret 2034567890%N) ;; Ret (set_nn p (Some x))) ;; x <- (Ret (bs "456")) ;; Ret (set_ext p (Some x))) ;; b <- (x <- (x31 <- (Ret (bs "+44 2034567890  X 456")) ;; x32 <- (Ret (bs "GB")) ;; Parse C x31 x32) ;; Ret (fst x)) ;; Ret (phone_full_eqb a b)) with Ret true => true | _ => false end);
   (let C := test_container in match (x <- (x33 <- (Ret (bs "+44 2034567890 x 456  ")) ;; x34 <- (Ret (bs "GB")) ;; Parse C x33 x34) ;; Ret (snd x)) with Ret None => true | _ => false end);
   (let C := test_container in match (a <- (p <- (p <- (p <- (Ret phone0) ;; x <- (Ret (44)%Z) ;; Ret (set_cc p (Some x))) ;; x <- (Ret 2034567890%N) ;; Ret (set_nn p (Some x))) ;; x <- (Ret (bs "456")) ;; Ret (set_ext p (Some x))) ;; b <- (x <- (x33 <- (Ret (bs "+44 2034567890 x 456  ")) ;; x34 <- (Ret (bs "GB")) ;; Parse C x33 x34) ;; Ret (fst x)) ;; Ret (phone_full_eqb a b)) with Ret true => true | _ => false end);
   (let C := test_container in match (x <- (x35 <- (Ret (bs "+44-2034567890;ext=456")) ;; x36 <- (Ret (bs "GB")) ;; Parse C x35 x36) ;; Ret (snd x)) with Ret None => true | _ => false end);
   (let C := test_container in match (a <- (p <- (p <- (p <- (Ret phone0) ;; x <- (Ret (44)%Z) ;; Ret (set_cc p (Some x))) ;; x <- (Ret 2034567890%N) ;; Ret (set_nn p (Some x))) ;; x <- (Ret (bs "456")) ;; Ret (set_ext p (Some x))) ;; b <- (x <- (x35 <- (Ret (bs "+44-2034567890;ext=456")) ;; x36 <- (Ret (bs "GB")) ;; Parse C x35 x36) ;; Ret (fst x)) ;; Ret (phone_full_eqb a b)) with Ret true => true | _ => false end);
   (let C := test_container in match (x <- (x37 <- (Ret (bs "tel:2034567890;ext=456;phone-context=+44")) ;; x38 <- (Ret (bs "ZZ")) ;; Parse C x37 x38) ;; Ret (snd x)) with Ret None => true | _ => false end);
   (let C := test_container in match (a <- (p <- (p <- (p <- (Ret phone0) ;; x <- (Ret (44)%Z) ;; Ret (set_cc p (Some x))) ;; x <- (Ret 2034567890%N) ;; Ret (set_nn p (Some x))) ;; x <- (Ret (bs "456")) ;; Ret (set_ext p (Some x))) ;; b <- (x <- (x37 <- (Ret (bs "tel:2034567890;ext=456;phone-context=+44")) ;; x38 <- (Ret (bs "ZZ")) ;; Parse C x37 x38) ;; Ret (fst x)) ;; Ret (phone_full_eqb a b)) with Ret true => true | _ => false end);
   (let C := test_container in match (x <- (x39 <- (Ret [43; 52; 52; 50; 48; 51; 52; 53; 54; 55; 56; 57; 48; 239; 189; 133; 239; 189; 152; 239; 189; 148; 239; 189; 142; 52; 53; 54]) ;; x40 <- (Ret (bs "GB")) ;; Parse C x39 x40) ;; Ret (snd x)) with Ret None => true | _ => false end);
   (let C := test_container in match (a <- (p <- (p <- (p <- (Ret phone0) ;; x <- (Ret (44)%Z) ;; Ret (set_cc p (Some x))) ;; x <- (Ret 2034567890%N) ;; Ret (set_nn p (Some x))) ;; x <- (Ret (bs "456")) ;; Ret (set_ext p (Some x))) ;; b <- (x <- (x39 <- (Ret [43; 52; 52; 50; 48; 51; 52; 53; 54; 55; 56; 57; 48; 239; 189; 133; 239; 189; 152; 239; 189; 148; 239; 189; 142; 52; 53; 54]) ;; x40 <- (Ret (bs "GB")) ;; Parse C x39 x40) ;; Ret (fst x)) ;; Ret (phone_full_eqb a b)) with Ret true => true | _ => false end);
   (let C := test_container in match (x <- (x41 <- (Ret [43; 52; 52; 50; 48; 51; 52; 53; 54; 55; 56; 57; 48; 239; 189; 152; 239; 189; 148; 239; 189; 142; 52; 53; 54]) ;; x42 <- (Ret (bs "GB")) ;; Parse C x41 x42) ;; Ret (snd x)) with Ret None => true | _ => false end);
   (let C := test_container in match (a <- (p <- (p <- (p <- (Ret phone0) ;; x <- (Ret (44)%Z) ;; Ret (set_cc p (Some x))) ;; x <- (Ret 2034567890%N) ;; Ret (set_nn p (Some x))) ;; x <- (Ret (bs "456")) ;; Ret (set_ext p (Some x))) ;; b <- (x <- (x41 <- (Ret [43; 52; 52; 50; 48; 51; 52; 53; 54; 55; 56; 57; 48; 239; 189; 152; 239; 189; 148; 239; 189; 142; 52; 53; 54]) ;; x42 <- (Ret (bs "GB")) ;; Parse C x41 x42) ;; Ret (fst x)) ;; Ret (phone_full_eqb a b)) with Ret true => true | _ => false end);
   (let C := test_container in match (x <- (x43 <- (Ret [43; 52; 52; 50; 48; 51; 52; 53; 54; 55; 56; 57; 48; 239; 189; 152; 239; 189; 148; 52; 53; 54]) ;; x44 <- (Ret (bs "GB")) ;; Parse C x43 x44) ;; Ret (snd x)) with Ret None => true | _ => false end);
   (let C := test_container in match (a <- (p <- (p <- (p <- (Ret phone0) ;; x <- (Ret (44)%Z) ;; Ret (set_cc p (Some x))) ;; x <- (Ret 2034567890%N) ;; Ret (set_nn p (Some x))) ;; x <- (Ret (bs "456")) ;; Ret (set_ext p (Some x))) ;; b <- (x <- (x43 <- (Ret [43; 52; 52; 50; 48; 51; 52; 53; 54; 55; 56; 57; 48; 239; 189; 152; 239; 189; 148; 52; 53; 54]) ;; x44 <- (Ret (bs "GB")) ;; Parse C x43 x44) ;; Ret (fst x)) ;; Ret (phone_full_eqb a b)) with Ret true => true | _ => false end);
   (let C := test_container in match (x <- (x45 <- (Ret (bs "(800) 901-3355 x 7246433")) ;; x46 <- (Ret (bs "US")) ;; Parse C x45 x46) ;; Ret (snd x)) with Ret None => true | _ => false end);
   (let C := test_container in match (a <- (p <- (p <- (p <- (Ret phone0) ;; x <- (Ret (1)%Z) ;; Ret (set_cc p (Some x))) ;; x <- (Ret 8009013355%N) ;; Ret (set_nn p (Some x))) ;; x <- (Ret (bs "7246433")) ;; Ret (set_ext p (Some x))) ;; b <- (x <- (x45 <- (Ret (bs "(800) 901-3355 x 7246433")) ;; x46 <- (Ret (bs "US")) ;; Parse C x45 x46) ;; Ret (fst x)) ;; Ret (phone_full_eqb a b)) with Ret true => true | _ => false end);
   (let C := test_container in match (x <- (x47 <- (Ret (bs "(800) 901-3355 , ext 7246433")) ;; x48 <- (Ret (bs "US")) ;; Parse C x47 x48) ;; Ret (snd x)) with Ret None => true | _ => false end);
   (let C := test_container in match (a <- (p <- (p <- (p <- (Ret phone0) ;; x <- (Ret (1)%Z) ;; Ret (set_cc p (Some x))) ;; x <- (Ret 8009013355%N) ;; Ret (set_nn p (Some x))) ;; x <- (Ret (bs "7246433")) ;; Ret (set_ext p (Some x))) ;; b <- (x <- (x47 <- (Ret (bs "(800) 901-3355 , ext 7246433")) ;; x48 <- (Ret (bs "US")) ;; Parse C x47 x48) ;; Ret (fst x)) ;; Ret (phone_full_eqb a b)) with Ret true => true | _ => false end);
   (let C := test_container in match (x <- (x49 <- (Ret (bs "(800) 901-3355 ; 7246433")) ;; x50 <- (Ret (bs "US")) ;; Parse C x49 x50) ;; Ret (snd x)) with Ret None => true | _ => false end);
   (let C := test_container in match (a <- (p <- (p <- (p <- (Ret phone0) ;; x <- (Ret (1)%Z) ;; Ret (set_cc p (Some x))) ;; x <- (Ret 8009013355%N) ;; Ret (set_nn p (Some x))) ;; x <- (Ret (bs "7246433")) ;; Ret (set_ext p (Some x))) ;; b <- (x <- (x49 <- (Ret (bs "(800) 901-3355 ; 7246433")) ;; x50 <- (Ret (bs "US")) ;; Parse C x49 x50) ;; Ret (fst x)) ;; Ret (phone_full_eqb a b)) with Ret true => true | _ => false end);
   (let C := test_container in match (x <- (x51 <- (Ret (bs "(800) 901-3355;7246433")) ;; x52 <- (Ret (bs "US")) ;; Parse C x51 x52) ;; Ret (snd x)) with Ret None => true | _ => false end);
   (let C := test_container in match (a <- (p <- (p <- (p <- (Ret phone0) ;; x <- (Ret (1)%Z) ;; Ret (set_cc p (Some x))) ;; x <- (Ret 8009013355%N) ;; Ret (set_nn p (Some x))) ;; x <- (Ret (bs "7246433")) ;; Ret (set_ext p (Some x))) ;; b <- (x <- (x51 <- (Ret (bs "(800) 901-3355;7246433")) ;; x52 <- (Ret (bs "US")) ;; Parse C x51 x52) ;; Ret (fst x)) ;; Ret (phone_full_eqb a b)) with Ret true => true | _ => false end);
   (let C := test_container in match (x <- (x53 <- (Ret (bs "(800) 901-3355 ,extension 7246433")) ;; x54 <- (Ret (bs "US")) ;; Parse C x53 x54) ;; Ret (snd x)) with Ret None => true | _ => false end);
   (let C := test_container in match (a <- (p <- (p <- (p <- (Ret phone0) ;; x <- (Ret (1)%Z) ;; Ret (set_cc p (Some x))) ;; x <- (Ret 8009013355%N) ;; Ret (set_nn p (Some x))) ;; x <- (Ret (bs "7246433")) ;; Ret (set_ext p (Some x))) ;; b <- (x <- (x53 <- (Ret (bs "(800) 901-3355 ,extension 7246433")) ;; x54 <- (Ret (bs "US")) ;; Parse C x53 x54) ;; Ret (fst x)) ;; Ret (phone_full_eqb a b)) with Ret true => true | _ => false end);
   (let C := test_container in match (x <- (x55 <- (Ret [40; 56; 48; 48; 41; 32; 57; 48; 49; 45; 51; 51; 53; 53; 32; 44; 101; 120; 116; 101; 110; 115; 105; 195; 179; 110; 32; 55; 50; 52; 54; 52; 51; 51]) ;; x56 <- (Ret (bs "US")) ;; Parse C x55 x56) ;; Ret (snd x)) with Ret None => true | _ => false end);
   (let C := test_container in match (a <- (p <- (p <- (p <- (Ret phone0) ;; x <- (Ret (1)%Z) ;; Ret (set_cc p (Some x))) ;; x <- (Ret 8009013355%N) ;; Ret (set_nn p (Some x))) ;; x <- (Ret (bs "7246433")) ;; Ret (set_ext p (Some x))) ;; b <- (x <- (x55 <- (Ret [40; 56; 48; 48; 41; 32; 57; 48; 49; 45; 51; 51; 53; 53; 32; 44; 101; 120; 116; 101; 110; 115; 105; 195; 179; 110; 32; 55; 50; 52; 54; 52; 51; 51]) ;; x56 <- (Ret (bs "US")) ;; Parse C x55 x56) ;; Ret (fst x)) ;; Ret (phone_full_eqb a b)) with Ret true => true | _ => false end);
   (let C := test_container in match (x <- (x57 <- (Ret [40; 56; 48; 48; 41; 32; 57; 48; 49; 45; 51; 51; 53; 53; 32; 44; 101; 120; 116; 101; 110; 115; 105; 111; 204; 129; 110; 32; 55; 50; 52; 54; 52; 51; 51]) ;; x58 <- (Ret (bs "US")) ;; Parse C x57 x58) ;; Ret (snd x)) with Ret None => true | _ => false end);
   (let C := test_container in match (a <- (p <- (p <- (p <- (Ret phone0) ;; x <- (Ret (1)%Z) ;; Ret (set_cc p (Some x))) ;; x <- (Ret 8009013355%N) ;; Ret (set_nn p (Some x))) ;; x <- (Ret (bs "7246433")) ;; Ret (set_ext p (Some x))) ;; b <- (x <- (x57 <- (Ret [40; 56; 48; 48; 41; 32; 57; 48; 49; 45; 51; 51; 53; 53; 32; 44; 101; 120; 116; 101; 110; 115; 105; 111; 204; 129; 110; 32; 55; 50; 52; 54; 52; 51; 51]) ;; x58 <- (Ret (bs "US")) ;; Parse C x57 x58) ;; Ret (fst x)) ;; Ret (phone_full_eqb a b)) with Ret true => true | _ => false end);
   (let C := test_container in match (x <- (x59 <- (Ret (bs "(800) 901-3355 , 7246433")) ;; x60 <- (Ret (bs "US")) ;; Parse C x59 x60) ;; Ret (snd x)) with Ret None => true | _ => false end);
   (let C := test_container in match (a <- (p <- (p <- (p <- (Ret phone0) ;; x <- (Ret (1)%Z) ;; Ret (set_cc p (Some x))) ;; x <- (Ret 8009013355%N) ;; Ret (set_nn p (Some x))) ;; x <- (Ret (bs "7246433")) ;; Ret (set_ext p (Some x))) ;; b <- (x <- (x59 <- (Ret (bs "(800) 901-3355 , 7246433")) ;; x60 <- (Ret (bs "US")) ;; Parse C x59 x60) ;; Ret (fst x)) ;; Ret (phone_full_eqb a b)) with Ret true => true | _ => false end);
   (let C := test_container in match (x <- (x61 <- (Ret (bs "(800) 901-3355 ext: 7246433")) ;; x62 <- (Ret (bs "US")) ;; Parse C x61 x62) ;; Ret (snd x)) with Ret None => true | _ => false end);
   (let C := test_container in match (a <- (p <- (p <- (p <- (Ret phone0) ;; x <- (Ret (1)%Z) ;; Ret (set_cc p (Some x))) ;; x <- (Ret 8009013355%N) ;; Ret (set_nn p (Some x))) ;; x <- (Ret (bs "7246433")) ;; Ret (set_ext p (Some x))) ;; b <- (x <- (x61 <- (Ret (bs "(800) 901-3355 ext: 7246433")) ;; x62 <- (Ret (bs "US")) ;; Parse C x61 x62) ;; Ret (fst x)) ;; Ret (phone_full_eqb a b)) with Ret true => true | _ => false end);
   (let C := test_container in match (x <- (x63 <- (Ret [56; 32; 40; 52; 50; 51; 41; 32; 50; 48; 50; 45; 50; 53; 45; 49; 49; 44; 32; 208; 180; 208; 190; 208; 177; 46; 32; 49; 48; 48]) ;; x64 <- (Ret (bs "RU")) ;; Parse C x63 x64) ;; Ret (snd x)) with Ret None => true | _ => false end);
   (let C := test_container in match (a <- (p <- (p <- (p <- (Ret phone0) ;; x <- (Ret (7)%Z) ;; Ret (set_cc p (Some x))) ;; x <- (Ret 4232022511%N) ;; Ret (set_nn p (Some x))) ;; x <- (Ret (bs "100")) ;; Ret (set_ext p (Some x))) ;; b <- (x <- (x63 <- (Ret [56; 32; 40; 52; 50; 51; 41; 32; 50; 48; 50; 45; 50; 53; 45; 49; 49; 44; 32; 208; 180; 208; 190; 208; 177; 46; 32; 49; 48; 48]) ;; x64 <- (Ret (bs "RU")) ;; Parse C x63 x64) ;; Ret (fst x)) ;; Ret (phone_full_eqb a b)) with Ret true => true | _ => false end);
   (let C := test_container in match (x <- (x65 <- (Ret [56; 32; 40; 52; 50; 51; 41; 32; 50; 48; 50; 45; 50; 53; 45; 49; 49; 32; 208; 180; 208; 190; 208; 177; 46; 32; 49; 48; 48]) ;; x66 <- (Ret (bs "RU")) ;; Parse C x65 x66) ;; Ret (snd x)) with Ret None => true | _ => false end);
   (let C := test_container in match (a <- (p <- (p <- (p <- (Ret phone0) ;; x <- (Ret (7)%Z) ;; Ret (set_cc p (Some x))) ;; x <- (Ret 4232022511%N) ;; Ret (set_nn p (Some x))) ;; x <- (Ret (bs "100")) ;; Ret (set_ext p (Some x))) ;; b <- (x <- (x65 <- (Ret [56; 32; 40; 52; 50; 51; 41; 32; 50; 48; 50; 45; 50; 53; 45; 49; 49; 32; 208; 180; 208; 190; 208; 177; 46; 32; 49; 48; 48]) ;; x66 <- (Ret (bs "RU")) ;; Parse C x65 x66) ;; Ret (fst x)) ;; Ret (phone_full_eqb a b)) with Ret true => true | _ => false end);
   (let C := test_container in match (x <- (x67 <- (Ret [56; 32; 40; 52; 50; 51; 41; 32; 50; 48; 50; 45; 50; 53; 45; 49; 49; 44; 32; 208; 180; 208; 190; 208; 177; 32; 49; 48; 48]) ;; x68 <- (Ret (bs "RU")) ;; Parse C x67 x68) ;; Ret (snd x)) with Ret None => true | _ => false end);
   (let C := test_container in match (a <- (p <- (p <- (p <- (Ret phone0) ;; x <- (Ret (7)%Z) ;; Ret (set_cc p (Some x))) ;; x <- (Ret 4232022511%N) ;; Ret (set_nn p (Some x))) ;; x <- (Ret (bs "100")) ;; Ret (set_ext p (Some x))) ;; b <- (x <- (x67 <- (Ret [56; 32; 40; 52; 50; 51; 41; 32; 50; 48; 50; 45; 50; 53; 45; 49; 49; 44; 32; 208; 180; 208; 190; 208; 177; 32; 49; 48; 48]) ;; x68 <- (Ret (bs "RU")) ;; Parse C x67 x68) ;; Ret (fst x)) ;; Ret (phone_full_eqb a b)) with Ret true => true | _ => false end);
   (let C := test_container in match (x <- (x69 <- (Ret [56; 32; 40; 52; 50; 51; 41; 32; 50; 48; 50; 45; 50; 53; 45; 49; 49; 32; 208; 180; 208; 190; 208; 177; 32; 49; 48; 48]) ;; x70 <- (Ret (bs "RU")) ;; Parse C x69 x70) ;; Ret (snd x)) with Ret None => true | _ => false end);
   (let C := test_container in match (a <- (p <- (p <- (p <- (Ret phone0) ;; x <- (Ret (7)%Z) ;; Ret (set_cc p (Some x))) ;; x <- (Ret 4232022511%N) ;; Ret (set_nn p (Some x))) ;; x <- (Ret (bs "100")) ;; Ret (set_ext p (Some x))) ;; b <- (x <- (x69 <- (Ret [56; 32; 40; 52; 50; 51; 41; 32; 50; 48; 50; 45; 50; 53; 45; 49; 49; 32; 208; 180; 208; 190; 208; 177; 32; 49; 48; 48]) ;; x70 <- (Ret (bs "RU")) ;; Parse C x69 x70) ;; Ret (fst x)) ;; Ret (phone_full_eqb a b)) with Ret true => true | _ => false end);
   (let C := test_container in match (x <- (x71 <- (Ret [56; 32; 40; 52; 50; 51; 41; 32; 50; 48; 50; 45; 50; 53; 45; 49; 49; 208; 180; 208; 190; 208; 177; 49; 48; 48]) ;; x72 <- (Ret (bs "RU")) ;; Parse C x71 x72) ;; Ret (snd x)) with Ret None => true | _ => false end);
   (let C := test_container in match (a <- (p <- (p <- (p <- (Ret phone0) ;; x <- (Ret (7)%Z) ;; Ret (set_cc p (Some x))) ;; x <- (Ret 4232022511%N) ;; Ret (set_nn p (Some x))) ;; x <- (Ret (bs "100")) ;; Ret (set_ext p (Some x))) ;; b <- (x <- (x71 <- (Ret [56; 32; 40; 52; 50; 51; 41; 32; 50; 48; 50; 45; 50; 53; 45; 49; 49; 208; 180; 208; 190; 208; 177; 49; 48; 48]) ;; x72 <- (Ret (bs "RU")) ;; Parse C x71 x72) ;; Ret (fst x)) ;; Ret (phone_full_eqb a b)) with Ret true => true | _ => false end);
   (let C := test_container in match (x <- (x73 <- (Ret [56; 32; 40; 52; 50; 51; 41; 32; 50; 48; 50; 45; 50; 53; 45; 49; 49; 44; 32; 208; 148; 208; 158; 208; 145; 46; 32; 49; 48; 48]) ;; x74 <- (Ret (bs "RU")) ;; Parse C x73 x74) ;; Ret (snd x)) with Ret None => true | _ => false end);
   (let C := test_container in match (a <- (p <- (p <- (p <- (Ret phone0) ;; x <- (Ret (7)%Z) ;; Ret (set_cc p (Some x))) ;; x <- (Ret 4232022511%N) ;; Ret (set_nn p (Some x))) ;; x <- (Ret (bs "100")) ;; Ret (set_ext p (Some x))) ;; b <- (x <- (x73 <- (Ret [56; 32; 40; 52; 50; 51; 41; 32; 50; 48; 50; 45; 50; 53; 45; 49; 49; 44; 32; 208; 148; 208; 158; 208; 145; 46; 32; 49; 48; 48]) ;; x74 <- (Ret (bs "RU")) ;; Parse C x73 x74) ;; Ret (fst x)) ;; Ret (phone_full_eqb a b)) with Ret true => true | _ => false end);
   (let C := test_container in match (x <- (x75 <- (Ret (bs "(212)123-1234 x508/x1234")) ;; x76 <- (Ret (bs "US")) ;; Parse C x75 x76) ;; Ret (snd x)) with Ret None => true | _ => false end);
   (let C := test_container in match (a <- (p <- (p <- (p <- (Ret phone0) ;; x <- (Ret (1)%Z) ;; Ret (set_cc p (Some x))) ;; x <- (Ret 2121231234%N) ;; Ret (set_nn p (Some x))) ;; x <- (Ret (bs "508")) ;; Ret (set_ext p (Some x))) ;; b <- (x <- (x75 <- (Ret (bs "(212)123-1234 x508/x1234")) ;; x76 <- (Ret (bs "US")) ;; Parse C x75 x76) ;; Ret (fst x)) ;; Ret (phone_full_eqb a b)) with Ret true => true | _ => false end);
   (let C := test_container in match (x <- (x77 <- (Ret (bs "(212)123-1234 x508/ x1234")) ;; x78 <- (Ret (bs "US")) ;; Parse C x77 x78) ;; Ret (snd x)) with Ret None => true | _ => false end);
   (let C := test_container in match (a <- (p <- (p <- (p <- (Ret phone0) ;; x <- (Ret (1)%Z) ;; Ret (set_cc p (Some x))) ;; x <- (Ret 2121231234%N) ;; Ret (set_nn p (Some x))) ;; x <- (Ret (bs "508")) ;; Ret (set_ext p (Some x))) ;; b <- (x <- (x77 <- (Ret (bs "(212)123-1234 x508/ x1234")) ;; x78 <- (Ret (bs "US")) ;; Parse C x77 x78) ;; Ret (fst x)) ;; Ret (phone_full_eqb a b)) with Ret true => true | _ => false end);
   (let C := test_container in match (x <- (x79 <- (Ret (bs "(212)123-1234 x508\x1234")) ;; x80 <- (Ret (bs "US")) ;; Parse C x79 x80) ;; Ret (snd x)) with Ret None => true | _ => false end);
   (let C := test_container in match (a <- (p <- (p <- (p <- (Ret phone0) ;; x <- (Ret (1)%Z) ;; Ret (set_cc p (Some x))) ;; x <- (Ret 2121231234%N) ;; Ret (set_nn p (Some x))) ;; x <- (Ret (bs "508")) ;; Ret (set_ext p (Some x))) ;; b <- (x <- (x79 <- (Ret (bs "(212)123-1234 x508\x1234")) ;; x80 <- (Ret (bs "US")) ;; Parse C x79 x80) ;; Ret (fst x)) ;; Ret (phone_full_eqb a b)) with Ret true => true | _ => false end);
   (let C := test_container in match (x <- (x81 <- (Ret (bs "+1 (645) 123 1234-910#")) ;; x82 <- (Ret (bs "US")) ;; Parse C x81 x82) ;; Ret (snd x)) with Ret None => true | _ => false end);
   (let C := test_container in match (a <- (p <- (p <- (p <- (Ret phone0) ;; x <- (Ret (1)%Z) ;; Ret (set_cc p (Some x))) ;; x <- (Ret 6451231234%N) ;; Ret (set_nn p (Some x))) ;; x <- (Ret (bs "910")) ;; Ret (set_ext p (Some x))) ;; b <- (x <- (x81 <- (Ret (bs "+1 (645) 123 1234-910#")) ;; x82 <- (Ret (bs "US")) ;; Parse C x81 x82) ;; Ret (fst x)) ;; Ret (phone_full_eqb a b)) with Ret true => true | _ => false end);
   (let C := test_container in match (x <- (x83 <- (Ret (bs "+1 (645) 123 1234 ext. 910#")) ;; x84 <- (Ret (bs "US")) ;; Parse C x83 x84) ;; Ret (snd x)) with Ret None => true | _ => false end);
   (let C := test_container in match (a <- (p <- (p <- (p <- (Ret phone0) ;; x <- (Ret (1)%Z) ;; Ret (set_cc p (Some x))) ;; x <- (Ret 6451231234%N) ;; Ret (set_nn p (Some x))) ;; x <- (Ret (bs "910")) ;; Ret (set_ext p (Some x))) ;; b <- (x <- (x83 <- (Ret (bs "+1 (645) 123 1234 ext. 910#")) ;; x84 <- (Ret (bs "US")) ;; Parse C x83 x84) ;; Ret (fst x)) ;; Ret (phone_full_eqb a b)) with Ret true => true | _ => false end)].

Lemma TestParseExtensions_ok : forallb (fun b => b) TestParseExtensions = true.
Proof. vm_cast_no_check (eq_refl true). Qed.

(* phonenumberutil_test.go: TestParseHandlesLongExtensionsWithExplicitLabels, 20 checks, 0 statements not translated *)
Definition TestParseHandlesLongExtensionsWithExplicitLabels : list bool :=
  [(let C := test_container in match (x <- (x1 <- (Ret (bs "tel:+6433316005;ext=0")) ;; x2 <- (Ret (bs "NZ")) ;; Parse C x1 x2) ;; Ret (snd x)) with Ret None => true | _ => false end);
   (let C := test_container in match (a <- (p <- (p <- (p <- (Ret phone0) ;; x <- (Ret (64)%Z) ;; Ret (set_cc p (Some x))) ;; x <- (Ret 33316005%N) ;; Ret (set_nn p (Some x))) ;; x <- (Ret (bs "0")) ;; Ret (set_ext p (Some x))) ;; b <- (x <- (x1 <- (Ret (bs "tel:+6433316005;ext=0")) ;; x2 <- (Ret (bs "NZ")) ;; Parse C x1 x2) ;; Ret (fst x)) ;; Ret (phone_full_eqb a b)) with Ret true => true | _ => false end);
   (let C := test_container in match (x <- (x3 <- (Ret (bs "tel:+6433316005;ext=01234567890123456789")) ;; x4 <- (Ret (bs "NZ")) ;; Parse C x3 x4) ;; Ret (snd x)) with Ret None => true | _ => false end);
   (let C := test_container in match (a <- (p <- (p <- (p <- (p <- (Ret phone0) ;; x <- (Ret (64)%Z) ;; Ret (set_cc p (Some x))) ;; x <- (Ret 33316005%N) ;; Ret (set_nn p (Some x))) ;; x <- (Ret (bs "0")) ;; Ret (set_ext p (Some x))) ;; x <- (Ret (bs "01234567890123456789")) ;; Ret (set_ext p (Some x))) ;; b <- (x <- (x3 <- (Ret (bs "tel:+6433316005;ext=01234567890123456789")) ;; x4 <- (Ret (bs "NZ")) ;; Parse C x3 x4) ;; Ret (fst x)) ;; Ret (phone_full_eqb a b)) with Ret true => true | _ => false end);
   (let C := test_container in match (x <- (x5 <- (Ret (bs "tel:+6433316005;ext=012345678901234567890")) ;; x6 <- (Ret (bs "NZ")) ;; Parse C x5 x6) ;; Ret (snd x)) with Ret (Some ErrNotANumber) => true | _ => false end);
   (let C := test_container in match (x <- (x7 <- (Ret (bs "03 3316005ext:1")) ;; x8 <- (Ret (bs "NZ")) ;; Parse C x7 x8) ;; Ret (snd x)) with Ret None => true | _ => false end);
   (let C := test_container in match (a <- (p <- (p <- (p <- (p <- (p <- (Ret phone0) ;; x <- (Ret (64)%Z) ;; Ret (set_cc p (Some x))) ;; x <- (Ret 33316005%N) ;; Ret (set_nn p (Some x))) ;; x <- (Ret (bs "0")) ;; Ret (set_ext p (Some x))) ;; x <- (Ret (bs "01234567890123456789")) ;; Ret (set_ext p (Some x))) ;; x <- (Ret (bs "1")) ;; Ret (set_ext p (Some x))) ;; b <- (x <- (x7 <- (Ret (bs "03 3316005ext:1")) ;; x8 <- (Ret (bs "NZ")) ;; Parse C x7 x8) ;; Ret (fst x)) ;; Ret (phone_full_eqb a b)) with Ret true => true | _ => false end);
   (let C := test_container in match (x <- (x9 <- (Ret (bs "03 3316005 xtn:12345678901234567890")) ;; x10 <- (Ret (bs "NZ")) ;; Parse C x9 x10) ;; Ret (snd x)) with Ret None => true | _ => false end);
   (let C := test_container in match (a <- (p <- (p <- (p <- (p <- (p <- (p <- (Ret phone0) ;; x <- (Ret (64)%Z) ;; Ret (set_cc p (Some x))) ;; x <- (Ret 33316005%N) ;; Ret (set_nn p (Some x))) ;; x <- (Ret (bs "0")) ;; Ret (set_ext p (Some x))) ;; x <- (Ret (bs "01234567890123456789")) ;; Ret (set_ext p (Some x))) ;; x <- (Ret (bs "1")) ;; Ret (set_ext p (Some x))) ;; x <- (Ret (bs "12345678901234567890")) ;; Ret (set_ext p (Some x))) ;; b <- (x <- (x9 <- (Ret (bs "03 3316005 xtn:12345678901234567890")) ;; x10 <- (Ret (bs "NZ")) ;; Parse C x9 x10) ;; Ret (fst x)) ;; Ret (phone_full_eqb a b)) with Ret true => true | _ => false end);
   (let C := test_container in match (x <- (x11 <- (Ret [48; 51; 32; 51; 51; 49; 54; 48; 48; 53; 32; 101; 120; 116; 101; 110; 115; 105; 111; 110; 9; 49; 50; 51; 52; 53; 54; 55; 56; 57; 48; 49; 50; 51; 52; 53; 54; 55; 56; 57; 48]) ;; x12 <- (Ret (bs "NZ")) ;; Parse C x11 x12) ;; Ret (snd x)) with Ret None => true | _ => false end);
   (let C := test_container in match (a <- (p <- (p <- (p <- (p <- (p <- (p <- (Ret phone0) ;; x <- (Ret (64)%Z) ;; Ret (set_cc p (Some x))) ;; x <- (Ret 33316005%N) ;; Ret (set_nn p (Some x))) ;; x <- (Ret (bs "0")) ;; Ret (set_ext p (Some x))) ;; x <- (Ret (bs "01234567890123456789")) ;; Ret (set_ext p (Some x))) ;; x <- (Ret (bs "1")) ;; Ret (set_ext p (Some x))) ;; x <- (Ret (bs "12345678901234567890")) ;; Ret (set_ext p (Some x))) ;; b <- (x <- (x11 <- (Ret [48; 51; 32; 51; 51; 49; 54; 48; 48; 53; 32; 101; 120; 116; 101; 110; 115; 105; 111; 110; 9; 49; 50; 51; 52; 53; 54; 55; 56; 57; 48; 49; 50; 51; 52; 53; 54; 55; 56; 57; 48]) ;; x12 <- (Ret (bs "NZ")) ;; Parse C x11 x12) ;; Ret (fst x)) ;; Ret (phone_full_eqb a b)) with Ret true => true | _ => false end);
   (let C := test_container in match (x <- (x13 <- (Ret (bs "03 3316005 xtensio:12345678901234567890")) ;; x14 <- (Ret (bs "NZ")) ;; Parse C x13 x14) ;; Ret (snd x)) with Ret None => true | _ => false end);
   (let C := test_container in match (a <- (p <- (p <- (p <- (p <- (p <- (p <- (Ret phone0) ;; x <- (Ret (64)%Z) ;; Ret (set_cc p (Some x))) ;; x <- (Ret 33316005%N) ;; Ret (set_nn p (Some x))) ;; x <- (Ret (bs "0")) ;; Ret (set_ext p (Some x))) ;; x <- (Ret (bs "01234567890123456789")) ;; Ret (set_ext p (Some x))) ;; x <- (Ret (bs "1")) ;; Ret (set_ext p (Some x))) ;; x <- (Ret (bs "12345678901234567890")) ;; Ret (set_ext p (Some x))) ;; b <- (x <- (x13 <- (Ret (bs "03 3316005 xtensio:12345678901234567890")) ;; x14 <- (Ret (bs "NZ")) ;; Parse C x13 x14) ;; Ret (fst x)) ;; Ret (phone_full_eqb a b)) with Ret true => true | _ => false end);
   (let C := test_container in match (x <- (x15 <- (Ret [48; 51; 32; 51; 51; 49; 54; 48; 48; 53; 32; 120; 116; 101; 110; 115; 105; 195; 179; 110; 44; 32; 49; 50; 51; 52; 53; 54; 55; 56; 57; 48; 49; 50; 51; 52; 53; 54; 55; 56; 57; 48; 35]) ;; x16 <- (Ret (bs "NZ")) ;; Parse C x15 x16) ;; Ret (snd x)) with Ret None => true | _ => false end);
   (let C := test_container in match (a <- (p <- (p <- (p <- (p <- (p <- (p <- (Ret phone0) ;; x <- (Ret (64)%Z) ;; Ret (set_cc p (Some x))) ;; x <- (Ret 33316005%N) ;; Ret (set_nn p (Some x))) ;; x <- (Ret (bs "0")) ;; Ret (set_ext p (Some x))) ;; x <- (Ret (bs "01234567890123456789")) ;; Ret (set_ext p (Some x))) ;; x <- (Ret (bs "1")) ;; Ret (set_ext p (Some x))) ;; x <- (Ret (bs "12345678901234567890")) ;; Ret (set_ext p (Some x))) ;; b <- (x <- (x15 <- (Ret [48; 51; 32; 51; 51; 49; 54; 48; 48; 53; 32; 120; 116; 101; 110; 115; 105; 195; 179; 110; 44; 32; 49; 50; 51; 52; 53; 54; 55; 56; 57; 48; 49; 50; 51; 52; 53; 54; 55; 56; 57; 48; 35]) ;; x16 <- (Ret (bs "NZ")) ;; Parse C x15 x16) ;; Ret (fst x)) ;; Ret (phone_full_eqb a b)) with Ret true => true | _ => false end);
   (let C := test_container in match (x <- (x17 <- (Ret (bs "03 3316005extension.12345678901234567890")) ;; x18 <- (Ret (bs "NZ")) ;; Parse C x17 x18) ;; Ret (snd x)) with Ret None => true | _ => false end);
   (let C := test_container in match (a <- (p <- (p <- (p <- (p <- (p <- (p <- (Ret phone0) ;; x <- (Ret (64)%Z) ;; Ret (set_cc p (Some x))) ;; x <- (Ret 33316005%N) ;; Ret (set_nn p (Some x))) ;; x <- (Ret (bs "0")) ;; Ret (set_ext p (Some x))) ;; x <- (Ret (bs "01234567890123456789")) ;; Ret (set_ext p (Some x))) ;; x <- (Ret (bs "1")) ;; Ret (set_ext p (Some x))) ;; x <- (Ret (bs "12345678901234567890")) ;; Ret (set_ext p (Some x))) ;; b <- (x <- (x17 <- (Ret (bs "03 3316005extension.12345678901234567890")) ;; x18 <- (Ret (bs "NZ")) ;; Parse C x17 x18) ;; Ret (fst x)) ;; Ret (phone_full_eqb a b)) with Ret true => true | _ => false end);
   (let C := test_container in match (x <- (x19 <- (Ret [48; 51; 32; 51; 51; 49; 54; 48; 48; 53; 32; 208; 180; 208; 190; 208; 177; 58; 49; 50; 51; 52; 53; 54; 55; 56; 57; 48; 49; 50; 51; 52; 53; 54; 55; 56; 57; 48]) ;; x20 <- (Ret (bs "NZ")) ;; Parse C x19 x20) ;; Ret (snd x)) with Ret None => true | _ => false end);
   (let C := test_container in match (a <- (p <- (p <- (p <- (p <- (p <- (p <- (Ret phone0) ;; x <- (Ret (64)%Z) ;; Ret (set_cc p (Some x))) ;; x <- (Ret 33316005%N) ;; Ret (set_nn p (Some x))) ;; x <- (Ret (bs "0")) ;; Ret (set_ext p (Some x))) ;; x <- (Ret (bs "01234567890123456789")) ;; Ret (set_ext p (Some x))) ;; x <- (Ret (bs "1")) ;; Ret (set_ext p (Some x))) ;; x <- (Ret (bs "12345678901234567890")) ;; Ret (set_ext p (Some x))) ;; b <- (x <- (x19 <- (Ret [48; 51; 32; 51; 51; 49; 54; 48; 48; 53; 32; 208; 180; 208; 190; 208; 177; 58; 49; 50; 51; 52; 53; 54; 55; 56; 57; 48; 49; 50; 51; 52; 53; 54; 55; 56; 57; 48]) ;; x20 <- (Ret (bs "NZ")) ;; Parse C x19 x20) ;; Ret (fst x)) ;; Ret (phone_full_eqb a b)) with Ret true => true | _ => false end);
   (let C := test_container in match (x <- (x21 <- (Ret (bs "03 3316005 extension 123456789012345678901")) ;; x22 <- (Ret (bs "NZ")) ;; Parse C x21 x22) ;; Ret (snd x)) with Ret (Some ErrNumTooLong) => true | _ => false end)].

Lemma TestParseHandlesLongExtensionsWithExplicitLabels_ok : forallb (fun b => b) TestParseHandlesLongExtensionsWithExplicitLabels = true.
Proof. vm_cast_no_check (eq_refl true). Qed.

(* phonenumberutil_test.go: TestParseHandlesLongExtensionsWithAutoDiallingLabels, 7 checks, 0 statements not translated *)
Definition TestParseHandlesLongExtensionsWithAutoDiallingLabels : list bool :=
  [(let C := test_container in match (x <- (x1 <- (Ret (bs "+12679000000,,123456789012345#")) ;; x2 <- (Ret (bs "US")) ;; Parse C x1 x2) ;; Ret (snd x)) with Ret None => true | _ => false end);
   (let C := test_container in match (a <- (p <- (p <- (p <- (Ret phone0) ;; x <- (Ret (1)%Z) ;; Ret (set_cc p (Some x))) ;; x <- (Ret 2679000000%N) ;; Ret (set_nn p (Some x))) ;; x <- (Ret (bs "123456789012345")) ;; Ret (set_ext p (Some x))) ;; b <- (x <- (x1 <- (Ret (bs "+12679000000,,123456789012345#")) ;; x2 <- (Ret (bs "US")) ;; Parse C x1 x2) ;; Ret (fst x)) ;; Ret (phone_full_eqb a b)) with Ret true => true | _ => false end);
   (let C := test_container in match (x <- (x3 <- (Ret (bs "+12679000000;123456789012345#")) ;; x4 <- (Ret (bs "US")) ;; Parse C x3 x4) ;; Ret (snd x)) with Ret None => true | _ => false end);
   (let C := test_container in match (a <- (p <- (p <- (p <- (Ret phone0) ;; x <- (Ret (1)%Z) ;; Ret (set_cc p (Some x))) ;; x <- (Ret 2679000000%N) ;; Ret (set_nn p (Some x))) ;; x <- (Ret (bs "123456789012345")) ;; Ret (set_ext p (Some x))) ;; b <- (x <- (x3 <- (Ret (bs "+12679000000;123456789012345#")) ;; x4 <- (Ret (bs "US")) ;; Parse C x3 x4) ;; Ret (fst x)) ;; Ret (phone_full_eqb a b)) with Ret true => true | _ => false end);
   (let C := test_container in match (x <- (x5 <- (Ret (bs "+442034000000,,123456789#")) ;; x6 <- (Ret (bs "GB")) ;; Parse C x5 x6) ;; Ret (snd x)) with Ret None => true | _ => false end);
   (let C := test_container in match (a <- (p <- (p <- (p <- (Ret phone0) ;; x <- (Ret (44)%Z) ;; Ret (set_cc p (Some x))) ;; x <- (Ret 2034000000%N) ;; Ret (set_nn p (Some x))) ;; x <- (Ret (bs "123456789")) ;; Ret (set_ext p (Some x))) ;; b <- (x <- (x5 <- (Ret (bs "+442034000000,,123456789#")) ;; x6 <- (Ret (bs "GB")) ;; Parse C x5 x6) ;; Ret (fst x)) ;; Ret (phone_full_eqb a b)) with Ret true => true | _ => false end);
   (let C := test_container in match (x <- (x7 <- (Ret (bs "+12679000000,,1234567890123456#")) ;; x8 <- (Ret (bs "US")) ;; Parse C x7 x8) ;; Ret (snd x)) with Ret (Some ErrNotANumber) => true | _ => false end)].

Lemma TestParseHandlesLongExtensionsWithAutoDiallingLabels_ok : forallb (fun b => b) TestParseHandlesLongExtensionsWithAutoDiallingLabels = true.
Proof. vm_cast_no_check (eq_refl true). Qed.

(* phonenumberutil_test.go: TestParseHandlesShortExtensionsWithAmbiguousChar, 9 checks, 0 statements not translated *)
Definition TestParseHandlesShortExtensionsWithAmbiguousChar : list bool :=
  [(let C := test_container in match (x <- (x1 <- (Ret (bs "03 3316005 x 123456789")) ;; x2 <- (Ret (bs "NZ")) ;; Parse C x1 x2) ;; Ret (snd x)) with Ret None => true | _ => false end);
   (let C := test_container in match (a <- (p <- (p <- (p <- (Ret phone0) ;; x <- (Ret (64)%Z) ;; Ret (set_cc p (Some x))) ;; x <- (Ret 33316005%N) ;; Ret (set_nn p (Some x))) ;; x <- (Ret (bs "123456789")) ;; Ret (set_ext p (Some x))) ;; b <- (x <- (x1 <- (Ret (bs "03 3316005 x 123456789")) ;; x2 <- (Ret (bs "NZ")) ;; Parse C x1 x2) ;; Ret (fst x)) ;; Ret (phone_full_eqb a b)) with Ret true => true | _ => false end);
   (let C := test_container in match (x <- (x3 <- (Ret (bs "03 3316005 x. 123456789")) ;; x4 <- (Ret (bs "NZ")) ;; Parse C x3 x4) ;; Ret (snd x)) with Ret None => true | _ => false end);
   (let C := test_container in match (a <- (p <- (p <- (p <- (Ret phone0) ;; x <- (Ret (64)%Z) ;; Ret (set_cc p (Some x))) ;; x <- (Ret 33316005%N) ;; Ret (set_nn p (Some x))) ;; x <- (Ret (bs "123456789")) ;; Ret (set_ext p (Some x))) ;; b <- (x <- (x3 <- (Ret (bs "03 3316005 x. 123456789")) ;; x4 <- (Ret (bs "NZ")) ;; Parse C x3 x4) ;; Ret (fst x)) ;; Ret (phone_full_eqb a b)) with Ret true => true | _ => false end);
   (let C := test_container in match (x <- (x5 <- (Ret (bs "03 3316005 #123456789#")) ;; x6 <- (Ret (bs "NZ")) ;; Parse C x5 x6) ;; Ret (snd x)) with Ret None => true | _ => false end);
   (let C := test_container in match (a <- (p <- (p <- (p <- (Ret phone0) ;; x <- (Ret (64)%Z) ;; Ret (set_cc p (Some x))) ;; x <- (Ret 33316005%N) ;; Ret (set_nn p (Some x))) ;; x <- (Ret (bs "123456789")) ;; Ret (set_ext p (Some x))) ;; b <- (x <- (x5 <- (Ret (bs "03 3316005 #123456789#")) ;; x6 <- (Ret (bs "NZ")) ;; Parse C x5 x6) ;; Ret (fst x)) ;; Ret (phone_full_eqb a b)) with Ret true => true | _ => false end);
   (let C := test_container in match (x <- (x7 <- (Ret (bs "03 3316005 ~ 123456789")) ;; x8 <- (Ret (bs "NZ")) ;; Parse C x7 x8) ;; Ret (snd x)) with Ret None => true | _ => false end);
   (let C := test_container in match (a <- (p <- (p <- (p <- (Ret phone0) ;; x <- (Ret (64)%Z) ;; Ret (set_cc p (Some x))) ;; x <- (Ret 33316005%N) ;; Ret (set_nn p (Some x))) ;; x <- (Ret (bs "123456789")) ;; Ret (set_ext p (Some x))) ;; b <- (x <- (x7 <- (Ret (bs "03 3316005 ~ 123456789")) ;; x8 <- (Ret (bs "NZ")) ;; Parse C x7 x8) ;; Ret (fst x)) ;; Ret (phone_full_eqb a b)) with Ret true => true | _ => false end);
   (let C := test_container in match (x <- (x9 <- (Ret (bs "03 3316005 ~ 1234567890")) ;; x10 <- (Ret (bs "NZ")) ;; Parse C x9 x10) ;; Ret (snd x)) with Ret (Some ErrNumTooLong) => true | _ => false end)].

Lemma TestParseHandlesShortExtensionsWithAmbiguousChar_ok : forallb (fun b => b) TestParseHandlesShortExtensionsWithAmbiguousChar = true.
Proof. vm_cast_no_check (eq_refl true). Qed.

(* phonenumberutil_test.go: TestParseHandlesShortExtensionsWhenNotSureOfLabel, 5 checks, 0 statements not translated *)
Definition TestParseHandlesShortExtensionsWhenNotSureOfLabel : list bool :=
  [(let C := test_container in match (x <- (x1 <- (Ret (bs "+1123-456-7890 666666#")) ;; x2 <- (Ret (bs "US")) ;; Parse C x1 x2) ;; Ret (snd x)) with Ret None => true | _ => false end);
   (let C := test_container in match (a <- (p <- (p <- (p <- (Ret phone0) ;; x <- (Ret (1)%Z) ;; Ret (set_cc p (Some x))) ;; x <- (Ret 1234567890%N) ;; Ret (set_nn p (Some x))) ;; x <- (Ret (bs "666666")) ;; Ret (set_ext p (Some x))) ;; b <- (x <- (x1 <- (Ret (bs "+1123-456-7890 666666#")) ;; x2 <- (Ret (bs "US")) ;; Parse C x1 x2) ;; Ret (fst x)) ;; Ret (phone_full_eqb a b)) with Ret true => true | _ => false end);
   (let C := test_container in match (x <- (x3 <- (Ret (bs "+11234567890-6#")) ;; x4 <- (Ret (bs "US")) ;; Parse C x3 x4) ;; Ret (snd x)) with Ret None => true | _ => false end);
   (let C := test_container in match (a <- (p <- (p <- (p <- (p <- (Ret phone0) ;; x <- (Ret (1)%Z) ;; Ret (set_cc p (Some x))) ;; x <- (Ret 1234567890%N) ;; Ret (set_nn p (Some x))) ;; x <- (Ret (bs "666666")) ;; Ret (set_ext p (Some x))) ;; x <- (Ret (bs "6")) ;; Ret (set_ext p (Some x))) ;; b <- (x <- (x3 <- (Ret (bs "+11234567890-6#")) ;; x4 <- (Ret (bs "US")) ;; Parse C x3 x4) ;; Ret (fst x)) ;; Ret (phone_full_eqb a b)) with Ret true => true | _ => false end);
   (let C := test_container in match (x <- (x5 <- (Ret (bs "+1123-456-7890 7777777#")) ;; x6 <- (Ret (bs "US")) ;; Parse C x5 x6) ;; Ret (snd x)) with Ret (Some ErrNotANumber) => true | _ => false end)].

Lemma TestParseHandlesShortExtensionsWhenNotSureOfLabel_ok : forallb (fun b => b) TestParseHandlesShortExtensionsWhenNotSureOfLabel = true.
Proof. vm_cast_no_check (eq_refl true). Qed.

(* phonenumberutil_test.go: TestParseAndKeepRaw, 11 checks, 0 statements not translated *)
Definition TestParseAndKeepRaw : list bool :=
  [(let C := test_container in match (x <- (x1 <- (Ret (bs "800 six-flags")) ;; x2 <- (Ret (bs "US")) ;; ParseAndKeepRawInput C x1 x2) ;; Ret (snd x)) with Ret None => true | _ => false end);
   (let C := test_container in match (a <- (p <- (p <- (p <- (p <- (Ret phone0) ;; x <- (Ret (1)%Z) ;; Ret (set_cc p (Some x))) ;; x <- (Ret 80074935247%N) ;; Ret (set_nn p (Some x))) ;; x <- (Ret (bs "800 six-flags")) ;; Ret (set_raw p (Some x))) ;; x <- (Ret FROM_DEFAULT_COUNTRY) ;; Ret (set_src p (Some x))) ;; b <- (x <- (x1 <- (Ret (bs "800 six-flags")) ;; x2 <- (Ret (bs "US")) ;; ParseAndKeepRawInput C x1 x2) ;; Ret (fst x)) ;; Ret (phone_full_eqb a b)) with Ret true => true | _ => false end);
   (let C := test_container in match (x <- (x3 <- (Ret (bs "1800 six-flag")) ;; x4 <- (Ret (bs "US")) ;; ParseAndKeepRawInput C x3 x4) ;; Ret (snd x)) with Ret None => true | _ => false end);
   (let C := test_container in match (a <- (p <- (p <- (p <- (p <- (Ret phone0) ;; x <- (Ret (1)%Z) ;; Ret (set_cc p (Some x))) ;; x <- (Ret 8007493524%N) ;; Ret (set_nn p (Some x))) ;; x <- (Ret (bs "1800 six-flag")) ;; Ret (set_raw p (Some x))) ;; x <- (Ret FROM_NUMBER_WITHOUT_PLUS_SIGN) ;; Ret (set_src p (Some x))) ;; b <- (x <- (x3 <- (Ret (bs "1800 six-flag")) ;; x4 <- (Ret (bs "US")) ;; ParseAndKeepRawInput C x3 x4) ;; Ret (fst x)) ;; Ret (phone_full_eqb a b)) with Ret true => true | _ => false end);
   (let C := test_container in match (x <- (x5 <- (Ret (bs "+1800 six-flag")) ;; x6 <- (Ret (bs "NZ")) ;; ParseAndKeepRawInput C x5 x6) ;; Ret (snd x)) with Ret None => true | _ => false end);
   (let C := test_container in match (a <- (p <- (p <- (p <- (p <- (p <- (p <- (Ret phone0) ;; x <- (Ret (1)%Z) ;; Ret (set_cc p (Some x))) ;; x <- (Ret 8007493524%N) ;; Ret (set_nn p (Some x))) ;; x <- (Ret (bs "1800 six-flag")) ;; Ret (set_raw p (Some x))) ;; x <- (Ret FROM_NUMBER_WITHOUT_PLUS_SIGN) ;; Ret (set_src p (Some x))) ;; x <- (Ret (bs "+1800 six-flag")) ;; Ret (set_raw p (Some x))) ;; x <- (Ret FROM_NUMBER_WITH_PLUS_SIGN) ;; Ret (set_src p (Some x))) ;; b <- (x <- (x5 <- (Ret (bs "+1800 six-flag")) ;; x6 <- (Ret (bs "NZ")) ;; ParseAndKeepRawInput C x5 x6) ;; Ret (fst x)) ;; Ret (phone_full_eqb a b)) with Ret true => true | _ => false end);
   (let C := test_container in match (x <- (x7 <- (Ret (bs "001800 six-flag")) ;; x8 <- (Ret (bs "NZ")) ;; ParseAndKeepRawInput C x7 x8) ;; Ret (snd x)) with Ret None => true | _ => false end);
   (let C := test_container in match (a <- (p <- (p <- (p <- (p <- (p <- (p <- (p <- (p <- (Ret phone0) ;; x <- (Ret (1)%Z) ;; Ret (set_cc p (Some x))) ;; x <- (Ret 8007493524%N) ;; Ret (set_nn p (Some x))) ;; x <- (Ret (bs "1800 six-flag")) ;; Ret (set_raw p (Some x))) ;; x <- (Ret FROM_NUMBER_WITHOUT_PLUS_SIGN) ;; Ret (set_src p (Some x))) ;; x <- (Ret (bs "+1800 six-flag")) ;; Ret (set_raw p (Some x))) ;; x <- (Ret FROM_NUMBER_WITH_PLUS_SIGN) ;; Ret (set_src p (Some x))) ;; x <- (Ret (bs "001800 six-flag")) ;; Ret (set_raw p (Some x))) ;; x <- (Ret FROM_NUMBER_WITH_IDD) ;; Ret (set_src p (Some x))) ;; b <- (x <- (x7 <- (Ret (bs "001800 six-flag")) ;; x8 <- (Ret (bs "NZ")) ;; ParseAndKeepRawInput C x7 x8) ;; Ret (fst x)) ;; Ret (phone_full_eqb a b)) with Ret true => true | _ => false end);
   (let C := test_container in match (x <- (x9 <- (Ret (bs "123 456 7890")) ;; x10 <- (Ret (bs "CS")) ;; ParseAndKeepRawInput C x9 x10) ;; Ret (snd x)) with Ret (Some ErrInvalidCountryCode) => true | _ => false end);
   (let C := test_container in match (x <- (x11 <- (Ret (bs "08122123456")) ;; x12 <- (Ret (bs "KR")) ;; ParseAndKeepRawInput C x11 x12) ;; Ret (snd x)) with Ret None => true | _ => false end);
   (let C := test_container in match (a <- (p <- (p <- (p <- (p <- (p <- (Ret phone0) ;; x <- (Ret (82)%Z) ;; Ret (set_cc p (Some x))) ;; x <- (Ret 22123456%N) ;; Ret (set_nn p (Some x))) ;; x <- (Ret (bs "08122123456")) ;; Ret (set_raw p (Some x))) ;; x <- (Ret FROM_DEFAULT_COUNTRY) ;; Ret (set_src p (Some x))) ;; x <- (Ret (bs "81")) ;; Ret (set_carrier p (Some x))) ;; b <- (x <- (x11 <- (Ret (bs "08122123456")) ;; x12 <- (Ret (bs "KR")) ;; ParseAndKeepRawInput C x11 x12) ;; Ret (fst x)) ;; Ret (phone_full_eqb a b)) with Ret true => true | _ => false end)].

Lemma TestParseAndKeepRaw_ok : forallb (fun b => b) TestParseAndKeepRaw = true.
Proof. vm_cast_no_check (eq_refl true). Qed.

(* phonenumberutil_test.go: TestParseItalianLeadingZeros, 8 checks, 0 statements not translated *)
Definition TestParseItalianLeadingZeros : list bool :=
  [(let C := test_container in match (x <- (x1 <- (Ret (bs "011")) ;; x2 <- (Ret (bs "AU")) ;; Parse C x1 x2) ;; Ret (snd x)) with Ret None => true | _ => false end);
   (let C := test_container in match (a <- (p <- (p <- (p <- (Ret phone0) ;; x <- (Ret (61)%Z) ;; Ret (set_cc p (Some x))) ;; x <- (Ret 11%N) ;; Ret (set_nn p (Some x))) ;; x <- (Ret true) ;; Ret (set_ilz p (Some x))) ;; b <- (x <- (x1 <- (Ret (bs "011")) ;; x2 <- (Ret (bs "AU")) ;; Parse C x1 x2) ;; Ret (fst x)) ;; Ret (phone_full_eqb a b)) with Ret true => true | _ => false end);
   (let C := test_container in match (x <- (x3 <- (Ret (bs "001")) ;; x4 <- (Ret (bs "AU")) ;; Parse C x3 x4) ;; Ret (snd x)) with Ret None => true | _ => false end);
   (let C := test_container in match (a <- (p <- (p <- (p <- (p <- (Ret phone0) ;; x <- (Ret (61)%Z) ;; Ret (set_cc p (Some x))) ;; x <- (Ret 1%N) ;; Ret (set_nn p (Some x))) ;; x <- (Ret true) ;; Ret (set_ilz p (Some x))) ;; x <- (Ret (2)%Z) ;; Ret (set_nlz p (Some x))) ;; b <- (x <- (x3 <- (Ret (bs "001")) ;; x4 <- (Ret (bs "AU")) ;; Parse C x3 x4) ;; Ret (fst x)) ;; Ret (phone_full_eqb a b)) with Ret true => true | _ => false end);
   (let C := test_container in match (x <- (x5 <- (Ret (bs "000")) ;; x6 <- (Ret (bs "AU")) ;; Parse C x5 x6) ;; Ret (snd x)) with Ret None => true | _ => false end);
   (let C := test_container in match (a <- (p <- (p <- (p <- (p <- (Ret phone0) ;; x <- (Ret (61)%Z) ;; Ret (set_cc p (Some x))) ;; x <- (Ret 0%N) ;; Ret (set_nn p (Some x))) ;; x <- (Ret true) ;; Ret (set_ilz p (Some x))) ;; x <- (Ret (2)%Z) ;; Ret (set_nlz p (Some x))) ;; b <- (x <- (x5 <- (Ret (bs "000")) ;; x6 <- (Ret (bs "AU")) ;; Parse C x5 x6) ;; Ret (fst x)) ;; Ret (phone_full_eqb a b)) with Ret true => true | _ => false end);
   (let C := test_container in match (x <- (x7 <- (Ret (bs "0000")) ;; x8 <- (Ret (bs "AU")) ;; Parse C x7 x8) ;; Ret (snd x)) with Ret None => true | _ => false end);
   (let C := test_container in match (a <- (p <- (p <- (p <- (p <- (Ret phone0) ;; x <- (Ret (61)%Z) ;; Ret (set_cc p (Some x))) ;; x <- (Ret 0%N) ;; Ret (set_nn p (Some x))) ;; x <- (Ret true) ;; Ret (set_ilz p (Some x))) ;; x <- (Ret (3)%Z) ;; Ret (set_nlz p (Some x))) ;; b <- (x <- (x7 <- (Ret (bs "0000")) ;; x8 <- (Ret (bs "AU")) ;; Parse C x7 x8) ;; Ret (fst x)) ;; Ret (phone_full_eqb a b)) with Ret true => true | _ => false end)].

Lemma TestParseItalianLeadingZeros_ok : forallb (fun b => b) TestParseItalianLeadingZeros = true.
Proof. vm_cast_no_check (eq_refl true). Qed.

(* phonenumberutil_test.go: TestParseWithPhoneContext, 29 checks, 0 statements not translated *)
Definition TestParseWithPhoneContext : list bool :=
  [(let C := test_container in match (x <- (x1 <- (Ret (bs "tel:033316005;phone-context=+64")) ;; x2 <- (Ret (bs "ZZ")) ;; Parse C x1 x2) ;; Ret (snd x)) with Ret None => true | _ => false end);
   (let C := test_container in match (a <- (p <- (p <- (Ret phone0) ;; x <- (Ret (64)%Z) ;; Ret (set_cc p (Some x))) ;; x <- (Ret 33316005%N) ;; Ret (set_nn p (Some x))) ;; b <- (x <- (x1 <- (Ret (bs "tel:033316005;phone-context=+64")) ;; x2 <- (Ret (bs "ZZ")) ;; Parse C x1 x2) ;; Ret (fst x)) ;; Ret (phone_full_eqb a b)) with Ret true => true | _ => false end);
   (let C := test_container in match (x <- (x3 <- (Ret (bs "tel:033316005;phone-context=+64;{this isn't part of phone-context anymore!}")) ;; x4 <- (Ret (bs "ZZ")) ;; Parse C x3 x4) ;; Ret (snd x)) with Ret None => true | _ => false end);
   (let C := test_container in match (a <- (p <- (p <- (Ret phone0) ;; x <- (Ret (64)%Z) ;; Ret (set_cc p (Some x))) ;; x <- (Ret 33316005%N) ;; Ret (set_nn p (Some x))) ;; b <- (x <- (x3 <- (Ret (bs "tel:033316005;phone-context=+64;{this isn't part of phone-context anymore!}")) ;; x4 <- (Ret (bs "ZZ")) ;; Parse C x3 x4) ;; Ret (fst x)) ;; Ret (phone_full_eqb a b)) with Ret true => true | _ => false end);
   (let C := test_container in match (x <- (x5 <- (Ret (bs "tel:033316005;phone-context=+64-3")) ;; x6 <- (Ret (bs "ZZ")) ;; Parse C x5 x6) ;; Ret (snd x)) with Ret None => true | _ => false end);
   (let C := test_container in match (a <- (p <- (p <- (Ret phone0) ;; x <- (Ret (64)%Z) ;; Ret (set_cc p (Some x))) ;; x <- (Ret 3033316005%N) ;; Ret (set_nn p (Some x))) ;; b <- (x <- (x5 <- (Ret (bs "tel:033316005;phone-context=+64-3")) ;; x6 <- (Ret (bs "ZZ")) ;; Parse C x5 x6) ;; Ret (fst x)) ;; Ret (phone_full_eqb a b)) with Ret true => true | _ => false end);
   (let C := test_container in match (x <- (x7 <- (Ret (bs "tel:033316005;phone-context=+(555)")) ;; x8 <- (Ret (bs "ZZ")) ;; Parse C x7 x8) ;; Ret (snd x)) with Ret None => true | _ => false end);
   (let C := test_container in match (a <- (p <- (p <- (Ret phone0) ;; x <- (Ret (55)%Z) ;; Ret (set_cc p (Some x))) ;; x <- (Ret 5033316005%N) ;; Ret (set_nn p (Some x))) ;; b <- (x <- (x7 <- (Ret (bs "tel:033316005;phone-context=+(555)")) ;; x8 <- (Ret (bs "ZZ")) ;; Parse C x7 x8) ;; Ret (fst x)) ;; Ret (phone_full_eqb a b)) with Ret true => true | _ => false end);
   (let C := test_container in match (x <- (x9 <- (Ret (bs "tel:033316005;phone-context=+-1-2.3()")) ;; x10 <- (Ret (bs "ZZ")) ;; Parse C x9 x10) ;; Ret (snd x)) with Ret None => true | _ => false end);
   (let C := test_container in match (a <- (p <- (p <- (Ret phone0) ;; x <- (Ret (1)%Z) ;; Ret (set_cc p (Some x))) ;; x <- (Ret 23033316005%N) ;; Ret (set_nn p (Some x))) ;; b <- (x <- (x9 <- (Ret (bs "tel:033316005;phone-context=+-1-2.3()")) ;; x10 <- (Ret (bs "ZZ")) ;; Parse C x9 x10) ;; Ret (fst x)) ;; Ret (phone_full_eqb a b)) with Ret true => true | _ => false end);
   (let C := test_container in match (x <- (x11 <- (Ret (bs "tel:033316005;phone-context=abc.nz")) ;; x12 <- (Ret (bs "NZ")) ;; Parse C x11 x12) ;; Ret (snd x)) with Ret None => true | _ => false end);
   (let C := test_container in match (a <- (p <- (p <- (Ret phone0) ;; x <- (Ret (64)%Z) ;; Ret (set_cc p (Some x))) ;; x <- (Ret 33316005%N) ;; Ret (set_nn p (Some x))) ;; b <- (x <- (x11 <- (Ret (bs "tel:033316005;phone-context=abc.nz")) ;; x12 <- (Ret (bs "NZ")) ;; Parse C x11 x12) ;; Ret (fst x)) ;; Ret (phone_full_eqb a b)) with Ret true => true | _ => false end);
   (let C := test_container in match (x <- (x13 <- (Ret (bs "tel:033316005;phone-context=www.PHONE-numb3r.com")) ;; x14 <- (Ret (bs "NZ")) ;; Parse C x13 x14) ;; Ret (snd x)) with Ret None => true | _ => false end);
   (let C := test_container in match (a <- (p <- (p <- (Ret phone0) ;; x <- (Ret (64)%Z) ;; Ret (set_cc p (Some x))) ;; x <- (Ret 33316005%N) ;; Ret (set_nn p (Some x))) ;; b <- (x <- (x13 <- (Ret (bs "tel:033316005;phone-context=www.PHONE-numb3r.com")) ;; x14 <- (Ret (bs "NZ")) ;; Parse C x13 x14) ;; Ret (fst x)) ;; Ret (phone_full_eqb a b)) with Ret true => true | _ => false end);
   (let C := test_container in match (x <- (x15 <- (Ret (bs "tel:033316005;phone-context=a")) ;; x16 <- (Ret (bs "NZ")) ;; Parse C x15 x16) ;; Ret (snd x)) with Ret None => true | _ => false end);
   (let C := test_container in match (a <- (p <- (p <- (Ret phone0) ;; x <- (Ret (64)%Z) ;; Ret (set_cc p (Some x))) ;; x <- (Ret 33316005%N) ;; Ret (set_nn p (Some x))) ;; b <- (x <- (x15 <- (Ret (bs "tel:033316005;phone-context=a")) ;; x16 <- (Ret (bs "NZ")) ;; Parse C x15 x16) ;; Ret (fst x)) ;; Ret (phone_full_eqb a b)) with Ret true => true | _ => false end);
   (let C := test_container in match (x <- (x17 <- (Ret (bs "tel:033316005;phone-context=3phone.J.")) ;; x18 <- (Ret (bs "NZ")) ;; Parse C x17 x18) ;; Ret (snd x)) with Ret None => true | _ => false end);
   (let C := test_container in match (a <- (p <- (p <- (Ret phone0) ;; x <- (Ret (64)%Z) ;; Ret (set_cc p (Some x))) ;; x <- (Ret 33316005%N) ;; Ret (set_nn p (Some x))) ;; b <- (x <- (x17 <- (Ret (bs "tel:033316005;phone-context=3phone.J.")) ;; x18 <- (Ret (bs "NZ")) ;; Parse C x17 x18) ;; Ret (fst x)) ;; Ret (phone_full_eqb a b)) with Ret true => true | _ => false end);
   (let C := test_container in match (x <- (x19 <- (Ret (bs "tel:033316005;phone-context=a--z")) ;; x20 <- (Ret (bs "NZ")) ;; Parse C x19 x20) ;; Ret (snd x)) with Ret None => true | _ => false end);
   (let C := test_container in match (a <- (p <- (p <- (Ret phone0) ;; x <- (Ret (64)%Z) ;; Ret (set_cc p (Some x))) ;; x <- (Ret 33316005%N) ;; Ret (set_nn p (Some x))) ;; b <- (x <- (x19 <- (Ret (bs "tel:033316005;phone-context=a--z")) ;; x20 <- (Ret (bs "NZ")) ;; Parse C x19 x20) ;; Ret (fst x)) ;; Ret (phone_full_eqb a b)) with Ret true => true | _ => false end);
   (let C := test_container in match (x21 <- (Ret (bs "tel:033316005;phone-context=")) ;; x22 <- (Ret (bs "ZZ")) ;; Parse C x21 x22) with Ret (_, Some ErrNotANumber) => true | _ => false end);
   (let C := test_container in match (x23 <- (Ret (bs "tel:033316005;phone-context=+")) ;; x24 <- (Ret (bs "ZZ")) ;; Parse C x23 x24) with Ret (_, Some ErrNotANumber) => true | _ => false end);
   (let C := test_container in match (x25 <- (Ret (bs "tel:033316005;phone-context=64")) ;; x26 <- (Ret (bs "ZZ")) ;; Parse C x25 x26) with Ret (_, Some ErrNotANumber) => true | _ => false end);
   (let C := test_container in match (x27 <- (Ret (bs "tel:033316005;phone-context=++64")) ;; x28 <- (Ret (bs "ZZ")) ;; Parse C x27 x28) with Ret (_, Some ErrNotANumber) => true | _ => false end);
   (let C := test_container in match (x29 <- (Ret (bs "tel:033316005;phone-context=+abc")) ;; x30 <- (Ret (bs "ZZ")) ;; Parse C x29 x30) with Ret (_, Some ErrNotANumber) => true | _ => false end);
   (let C := test_container in match (x31 <- (Ret (bs "tel:033316005;phone-context=.")) ;; x32 <- (Ret (bs "ZZ")) ;; Parse C x31 x32) with Ret (_, Some ErrNotANumber) => true | _ => false end);
   (let C := test_container in match (x33 <- (Ret (bs "tel:033316005;phone-context=3phone")) ;; x34 <- (Ret (bs "ZZ")) ;; Parse C x33 x34) with Ret (_, Some ErrNotANumber) => true | _ => false end);
   (let C := test_container in match (x35 <- (Ret (bs "tel:033316005;phone-context=a-.nz")) ;; x36 <- (Ret (bs "ZZ")) ;; Parse C x35 x36) with Ret (_, Some ErrNotANumber) => true | _ => false end);
   (let C := test_container in match (x37 <- (Ret (bs "tel:033316005;phone-context=a{b}c")) ;; x38 <- (Ret (bs "ZZ")) ;; Parse C x37 x38) with Ret (_, Some ErrNotANumber) => true | _ => false end)].

Lemma TestParseWithPhoneContext_ok : forallb (fun b => b) TestParseWithPhoneContext = true.
Proof. vm_cast_no_check (eq_refl true). Qed.

(* phonenumberutil_test.go: TestCountryWithNoNumberDesc, 6 checks, 0 statements not translated *)
Definition TestCountryWithNoNumberDesc : list bool :=
  [(let C := test_container in match (Ret (bs "+376 12345")), (x1 <- (p <- (p <- (Ret phone0) ;; x <- (Ret (376)%Z) ;; Ret (set_cc p (Some x))) ;; x <- (Ret 12345%N) ;; Ret (set_nn p (Some x))) ;; x2 <- (Ret INTERNATIONAL) ;; Format C x1 x2) with Ret a, Ret b => beq a b | _, _ => false end);
   (let C := test_container in match (Ret (bs "+37612345")), (x3 <- (p <- (p <- (Ret phone0) ;; x <- (Ret (376)%Z) ;; Ret (set_cc p (Some x))) ;; x <- (Ret 12345%N) ;; Ret (set_nn p (Some x))) ;; x4 <- (Ret E164) ;; Format C x3 x4) with Ret a, Ret b => beq a b | _, _ => false end);
   (let C := test_container in match (Ret (bs "12345")), (x5 <- (p <- (p <- (Ret phone0) ;; x <- (Ret (376)%Z) ;; Ret (set_cc p (Some x))) ;; x <- (Ret 12345%N) ;; Ret (set_nn p (Some x))) ;; x6 <- (Ret NATIONAL) ;; Format C x5 x6) with Ret a, Ret b => beq a b | _, _ => false end);
   (let C := test_container in match (Ret UNKNOWN), (x7 <- (p <- (p <- (Ret phone0) ;; x <- (Ret (376)%Z) ;; Ret (set_cc p (Some x))) ;; x <- (Ret 12345%N) ;; Ret (set_nn p (Some x))) ;; GetNumberType C x7) with Ret a, Ret b => ptype_eqb a b | _, _ => false end);
   (let C := test_container in match (x8 <- (p <- (p <- (Ret phone0) ;; x <- (Ret (376)%Z) ;; Ret (set_cc p (Some x))) ;; x <- (Ret 12345%N) ;; Ret (set_nn p (Some x))) ;; IsValidNumber C x8) with Ret false => true | _ => false end);
   (let C := test_container in match (Ret (bs "00 1 650 253 0000")), (x9 <- (p <- (p <- (Ret phone0) ;; x <- (Ret (1)%Z) ;; Ret (set_cc p (Some x))) ;; x <- (Ret 6502530000%N) ;; Ret (set_nn p (Some x))) ;; x10 <- (Ret (bs "AD")) ;; FormatOutOfCountryCallingNumber C x9 x10) with Ret a, Ret b => beq a b | _, _ => false end)].

Lemma TestCountryWithNoNumberDesc_ok : forallb (fun b => b) TestCountryWithNoNumberDesc = true.
Proof. vm_cast_no_check (eq_refl true). Qed.

(* phonenumberutil_test.go: TestUnknownCountryCallingCode, 2 checks, 0 statements not translated *)
Definition TestUnknownCountryCallingCode : list bool :=
  [(let C := test_container in match (x1 <- (p <- (p <- (Ret phone0) ;; x <- (Ret (2)%Z) ;; Ret (set_cc p (Some x))) ;; x <- (Ret 12345%N) ;; Ret (set_nn p (Some x))) ;; IsValidNumber C x1) with Ret false => true | _ => false end);
   (let C := test_container in match (Ret (bs "+212345")), (x2 <- (p <- (p <- (Ret phone0) ;; x <- (Ret (2)%Z) ;; Ret (set_cc p (Some x))) ;; x <- (Ret 12345%N) ;; Ret (set_nn p (Some x))) ;; x3 <- (Ret E164) ;; Format C x2 x3) with Ret a, Ret b => beq a b | _, _ => false end)].

Lemma TestUnknownCountryCallingCode_ok : forallb (fun b => b) TestUnknownCountryCallingCode = true.
Proof. vm_cast_no_check (eq_refl true). Qed.

(* phonenumberutil_test.go: TestIsNumberMatchMatches, 15 checks, 0 statements not translated *)
Definition TestIsNumberMatchMatches : list bool :=
  [(let C := test_container in match (Ret EXACT_MATCH), (x1 <- (Ret (bs "+64 3 331 6005")) ;; x2 <- (Ret (bs "+64 03 331 6005")) ;; IsNumberMatch C x1 x2) with Ret a, Ret b => mtype_eqb a b | _, _ => false end);
   (let C := test_container in match (Ret EXACT_MATCH), (x3 <- (Ret (bs "+800 1234 5678")) ;; x4 <- (Ret (bs "+80012345678")) ;; IsNumberMatch C x3 x4) with Ret a, Ret b => mtype_eqb a b | _, _ => false end);
   (let C := test_container in match (Ret EXACT_MATCH), (x5 <- (Ret (bs "+64 03 331-6005")) ;; x6 <- (Ret (bs "+64 03331 6005")) ;; IsNumberMatch C x5 x6) with Ret a, Ret b => mtype_eqb a b | _, _ => false end);
   (let C := test_container in match (Ret EXACT_MATCH), (x7 <- (Ret (bs "+643 331-6005")) ;; x8 <- (Ret (bs "+64033316005")) ;; IsNumberMatch C x7 x8) with Ret a, Ret b => mtype_eqb a b | _, _ => false end);
   (let C := test_container in match (Ret EXACT_MATCH), (x9 <- (Ret (bs "+643 331-6005")) ;; x10 <- (Ret (bs "+6433316005")) ;; IsNumberMatch C x9 x10) with Ret a, Ret b => mtype_eqb a b | _, _ => false end);
   (let C := test_container in match (Ret EXACT_MATCH), (x11 <- (Ret (bs "+64 3 331-6005")) ;; x12 <- (Ret (bs "+6433316005")) ;; IsNumberMatch C x11 x12) with Ret a, Ret b => mtype_eqb a b | _, _ => false end);
   (let C := test_container in match (Ret EXACT_MATCH), (x13 <- (Ret (bs "+64 3 331-6005")) ;; x14 <- (Ret (bs "tel:+64-3-331-6005;isub=123")) ;; IsNumberMatch C x13 x14) with Ret a, Ret b => mtype_eqb a b | _, _ => false end);
   (let C := test_container in match (Ret EXACT_MATCH), (x15 <- (Ret (bs "+1800 siX-Flags")) ;; x16 <- (Ret (bs "+1 800 7493 5247")) ;; IsNumberMatch C x15 x16) with Ret a, Ret b => mtype_eqb a b | _, _ => false end);
   (let C := test_container in match (Ret EXACT_MATCH), (x17 <- (Ret (bs "+64 3 331-6005 extn 1234")) ;; x18 <- (Ret (bs "+6433316005#1234")) ;; IsNumberMatch C x17 x18) with Ret a, Ret b => mtype_eqb a b | _, _ => false end);
   (let C := test_container in match (Ret EXACT_MATCH), (x19 <- (Ret (bs "+64 3 331-6005 ext. 1234")) ;; x20 <- (Ret (bs "+6433316005;1234")) ;; IsNumberMatch C x19 x20) with Ret a, Ret b => mtype_eqb a b | _, _ => false end);
   (let C := test_container in match (Ret EXACT_MATCH), (x21 <- (Ret (bs "+7 423 202-25-11 ext 100")) ;; x22 <- (Ret [43; 55; 32; 52; 50; 51; 50; 48; 50; 50; 53; 49; 49; 32; 208; 180; 208; 190; 208; 177; 46; 32; 49; 48; 48]) ;; IsNumberMatch C x21 x22) with Ret a, Ret b => mtype_eqb a b | _, _ => false end);
   (let C := test_container in match (Ret EXACT_MATCH), (x23 <- (p <- (p <- (Ret phone0) ;; x <- (Ret (64)%Z) ;; Ret (set_cc p (Some x))) ;; x <- (Ret 33316005%N) ;; Ret (set_nn p (Some x))) ;; x24 <- (Ret (bs "+6403 331 6005")) ;; IsNumberMatchWithOneNumber C x23 x24) with Ret a, Ret b => mtype_eqb a b | _, _ => false end);
   (let C := test_container in match (Ret EXACT_MATCH), (x25 <- (p <- (p <- (p <- (Ret phone0) ;; x <- (Ret (64)%Z) ;; Ret (set_cc p (Some x))) ;; x <- (Ret 33316005%N) ;; Ret (set_nn p (Some x))) ;; x <- (Ret (bs "3456")) ;; Ret (set_ext p (Some x))) ;; x26 <- (Ret (bs "+643 331 6005 ext 3456")) ;; IsNumberMatchWithOneNumber C x25 x26) with Ret a, Ret b => mtype_eqb a b | _, _ => false end);
   (let C := test_container in match (Ret EXACT_MATCH), (x27 <- (p <- (p <- (p <- (p <- (Ret phone0) ;; x <- (Ret (64)%Z) ;; Ret (set_cc p (Some x))) ;; x <- (Ret 33316005%N) ;; Ret (set_nn p (Some x))) ;; x <- (Ret (bs "3456")) ;; Ret (set_ext p (Some x))) ;; x <- (Ret (bs "")) ;; Ret (set_ext p (Some x))) ;; x28 <- (Ret (bs "+6403 331 6005")) ;; IsNumberMatchWithOneNumber C x27 x28) with Ret a, Ret b => mtype_eqb a b | _, _ => false end);
   (let C := test_container in match (Ret EXACT_MATCH), (x29 <- (p <- (p <- (p <- (p <- (Ret phone0) ;; x <- (Ret (64)%Z) ;; Ret (set_cc p (Some x))) ;; x <- (Ret 33316005%N) ;; Ret (set_nn p (Some x))) ;; x <- (Ret (bs "3456")) ;; Ret (set_ext p (Some x))) ;; x <- (Ret (bs "")) ;; Ret (set_ext p (Some x))) ;; x30 <- (p <- (p <- (Ret phone0) ;; x <- (Ret (64)%Z) ;; Ret (set_cc p (Some x))) ;; x <- (Ret 33316005%N) ;; Ret (set_nn p (Some x))) ;; Ret (IsNumberMatchWithNumbers x29 x30)) with Ret a, Ret b => mtype_eqb a b | _, _ => false end)].

Lemma TestIsNumberMatchMatches_ok : forallb (fun b => b) TestIsNumberMatchMatches = true.
Proof. vm_cast_no_check (eq_refl true). Qed.

(* phonenumberutil_test.go: TestIsNumberMatchShortMatchIfDiffNumLeadingZeros, 2 checks, 0 statements not translated *)
Definition TestIsNumberMatchShortMatchIfDiffNumLeadingZeros : list bool :=
  [(let C := test_container in match (Ret SHORT_NSN_MATCH), (x1 <- (p <- (p <- (p <- (Ret phone0) ;; x <- (Ret (64)%Z) ;; Ret (set_cc p (Some x))) ;; x <- (Ret 33316005%N) ;; Ret (set_nn p (Some x))) ;; x <- (Ret true) ;; Ret (set_ilz p (Some x))) ;; x2 <- (p <- (p <- (p <- (p <- (Ret phone0) ;; x <- (Ret (64)%Z) ;; Ret (set_cc p (Some x))) ;; x <- (Ret 33316005%N) ;; Ret (set_nn p (Some x))) ;; x <- (Ret true) ;; Ret (set_ilz p (Some x))) ;; x <- (Ret (2)%Z) ;; Ret (set_nlz p (Some x))) ;; Ret (IsNumberMatchWithNumbers x1 x2)) with Ret a, Ret b => mtype_eqb a b | _, _ => false end);
   (let C := test_container in match (Ret SHORT_NSN_MATCH), (x3 <- (p <- (p <- (p <- (p <- (p <- (Ret phone0) ;; x <- (Ret (64)%Z) ;; Ret (set_cc p (Some x))) ;; x <- (Ret 33316005%N) ;; Ret (set_nn p (Some x))) ;; x <- (Ret true) ;; Ret (set_ilz p (Some x))) ;; x <- (Ret false) ;; Ret (set_ilz p (Some x))) ;; x <- (Ret (1)%Z) ;; Ret (set_nlz p (Some x))) ;; x4 <- (p <- (p <- (p <- (p <- (p <- (p <- (Ret phone0) ;; x <- (Ret (64)%Z) ;; Ret (set_cc p (Some x))) ;; x <- (Ret 33316005%N) ;; Ret (set_nn p (Some x))) ;; x <- (Ret true) ;; Ret (set_ilz p (Some x))) ;; x <- (Ret (2)%Z) ;; Ret (set_nlz p (Some x))) ;; x <- (Ret true) ;; Ret (set_ilz p (Some x))) ;; x <- (Ret (1)%Z) ;; Ret (set_nlz p (Some x))) ;; Ret (IsNumberMatchWithNumbers x3 x4)) with Ret a, Ret b => mtype_eqb a b | _, _ => false end)].

Lemma TestIsNumberMatchShortMatchIfDiffNumLeadingZeros_ok : forallb (fun b => b) TestIsNumberMatchShortMatchIfDiffNumLeadingZeros = true.
Proof. vm_cast_no_check (eq_refl true). Qed.

(* phonenumberutil_test.go: TestIsNumberMatchAcceptsProtoDefaultsAsMatch, 1 checks, 0 statements not translated *)
Definition TestIsNumberMatchAcceptsProtoDefaultsAsMatch : list bool :=
  [(let C := test_container in match (Ret EXACT_MATCH), (x1 <- (p <- (p <- (p <- (Ret phone0) ;; x <- (Ret (64)%Z) ;; Ret (set_cc p (Some x))) ;; x <- (Ret 33316005%N) ;; Ret (set_nn p (Some x))) ;; x <- (Ret true) ;; Ret (set_ilz p (Some x))) ;; x2 <- (p <- (p <- (p <- (p <- (Ret phone0) ;; x <- (Ret (64)%Z) ;; Ret (set_cc p (Some x))) ;; x <- (Ret 33316005%N) ;; Ret (set_nn p (Some x))) ;; x <- (Ret true) ;; Ret (set_ilz p (Some x))) ;; x <- (Ret (1)%Z) ;; Ret (set_nlz p (Some x))) ;; Ret (IsNumberMatchWithNumbers x1 x2)) with Ret a, Ret b => mtype_eqb a b | _, _ => false end)].

Lemma TestIsNumberMatchAcceptsProtoDefaultsAsMatch_ok : forallb (fun b => b) TestIsNumberMatchAcceptsProtoDefaultsAsMatch = true.
Proof. vm_cast_no_check (eq_refl true). Qed.

(* phonenumberutil_test.go: TestIsNumberMatchMatchesDiffLeadingZerosIfItalianLeadingZeroFalse, 2 checks, 0 statements not translated *)
Definition TestIsNumberMatchMatchesDiffLeadingZerosIfItalianLeadingZeroFalse : list bool :=
  [(let C := test_container in match (Ret EXACT_MATCH), (x1 <- (p <- (p <- (Ret phone0) ;; x <- (Ret (64)%Z) ;; Ret (set_cc p (Some x))) ;; x <- (Ret 33316005%N) ;; Ret (set_nn p (Some x))) ;; x2 <- (p <- (p <- (p <- (Ret phone0) ;; x <- (Ret (64)%Z) ;; Ret (set_cc p (Some x))) ;; x <- (Ret 33316005%N) ;; Ret (set_nn p (Some x))) ;; x <- (Ret (1)%Z) ;; Ret (set_nlz p (Some x))) ;; Ret (IsNumberMatchWithNumbers x1 x2)) with Ret a, Ret b => mtype_eqb a b | _, _ => false end);
   (let C := test_container in match (Ret EXACT_MATCH), (x3 <- (p <- (p <- (Ret phone0) ;; x <- (Ret (64)%Z) ;; Ret (set_cc p (Some x))) ;; x <- (Ret 33316005%N) ;; Ret (set_nn p (Some x))) ;; x4 <- (p <- (p <- (p <- (p <- (Ret phone0) ;; x <- (Ret (64)%Z) ;; Ret (set_cc p (Some x))) ;; x <- (Ret 33316005%N) ;; Ret (set_nn p (Some x))) ;; x <- (Ret (1)%Z) ;; Ret (set_nlz p (Some x))) ;; x <- (Ret (10)%Z) ;; Ret (set_nlz p (Some x))) ;; Ret (IsNumberMatchWithNumbers x3 x4)) with Ret a, Ret b => mtype_eqb a b | _, _ => false end)].

Lemma TestIsNumberMatchMatchesDiffLeadingZerosIfItalianLeadingZeroFalse_ok : forallb (fun b => b) TestIsNumberMatchMatchesDiffLeadingZerosIfItalianLeadingZeroFalse = true.
Proof. vm_cast_no_check (eq_refl true). Qed.

(* phonenumberutil_test.go: TestIsNumberMatchIgnoresSomeFields, 1 checks, 0 statements not translated *)
Definition TestIsNumberMatchIgnoresSomeFields : list bool :=
  [(let C := test_container in match (Ret EXACT_MATCH), (x1 <- (p <- (p <- (p <- (p <- (p <- (Ret phone0) ;; x <- (Ret (55)%Z) ;; Ret (set_cc p (Some x))) ;; x <- (Ret 3121286979%N) ;; Ret (set_nn p (Some x))) ;; x <- (Ret FROM_NUMBER_WITH_PLUS_SIGN) ;; Ret (set_src p (Some x))) ;; x <- (Ret (bs "12")) ;; Ret (set_carrier p (Some x))) ;; x <- (Ret (bs "012 3121286979")) ;; Ret (set_raw p (Some x))) ;; x2 <- (p <- (p <- (p <- (p <- (p <- (Ret phone0) ;; x <- (Ret (55)%Z) ;; Ret (set_cc p (Some x))) ;; x <- (Ret 3121286979%N) ;; Ret (set_nn p (Some x))) ;; x <- (Ret FROM_DEFAULT_COUNTRY) ;; Ret (set_src p (Some x))) ;; x <- (Ret (bs "14")) ;; Ret (set_carrier p (Some x))) ;; x <- (Ret (bs "143121286979")) ;; Ret (set_raw p (Some x))) ;; Ret (IsNumberMatchWithNumbers x1 x2)) with Ret a, Ret b => mtype_eqb a b | _, _ => false end)].

Lemma TestIsNumberMatchIgnoresSomeFields_ok : forallb (fun b => b) TestIsNumberMatchIgnoresSomeFields = true.
Proof. vm_cast_no_check (eq_refl true). Qed.

(* phonenumberutil_test.go: TestIsNumberMatchNonMatches, 11 checks, 0 statements not translated *)
Definition TestIsNumberMatchNonMatches : list bool :=
  [(let C := test_container in match (Ret NO_MATCH), (x1 <- (Ret (bs "03 331 6005")) ;; x2 <- (Ret (bs "03 331 6006")) ;; IsNumberMatch C x1 x2) with Ret a, Ret b => mtype_eqb a b | _, _ => false end);
   (let C := test_container in match (Ret NO_MATCH), (x3 <- (Ret (bs "+800 1234 5678")) ;; x4 <- (Ret (bs "+1 800 1234 5678")) ;; IsNumberMatch C x3 x4) with Ret a, Ret b => mtype_eqb a b | _, _ => false end);
   (let C := test_container in match (Ret NO_MATCH), (x5 <- (Ret (bs "+64 3 331-6005")) ;; x6 <- (Ret (bs "+16433316005")) ;; IsNumberMatch C x5 x6) with Ret a, Ret b => mtype_eqb a b | _, _ => false end);
   (let C := test_container in match (Ret NO_MATCH), (x7 <- (Ret (bs "+64 3 331-6005")) ;; x8 <- (Ret (bs "+6133316005")) ;; IsNumberMatch C x7 x8) with Ret a, Ret b => mtype_eqb a b | _, _ => false end);
   (let C := test_container in match (Ret NO_MATCH), (x9 <- (Ret (bs "+64 3 331-6005 extn 1234")) ;; x10 <- (Ret (bs "0116433316005#1235")) ;; IsNumberMatch C x9 x10) with Ret a, Ret b => mtype_eqb a b | _, _ => false end);
   (let C := test_container in match (Ret NO_MATCH), (x11 <- (Ret (bs "+64 3 331-6005 extn 1234")) ;; x12 <- (Ret (bs "tel:+64-3-331-6005;ext=1235")) ;; IsNumberMatch C x11 x12) with Ret a, Ret b => mtype_eqb a b | _, _ => false end);
   (let C := test_container in match (Ret NO_MATCH), (x13 <- (Ret (bs "+64 3 331-6005 ext.1235")) ;; x14 <- (Ret (bs "3 331 6005#1234")) ;; IsNumberMatch C x13 x14) with Ret a, Ret b => mtype_eqb a b | _, _ => false end);
   (let C := test_container in match (Ret NOT_A_NUMBER), (x15 <- (Ret (bs "4")) ;; x16 <- (Ret (bs "3 331 6043")) ;; IsNumberMatch C x15 x16) with Ret a, Ret b => mtype_eqb a b | _, _ => false end);
   (let C := test_container in match (Ret NOT_A_NUMBER), (x17 <- (Ret (bs "+43")) ;; x18 <- (Ret (bs "+64 3 331 6005")) ;; IsNumberMatch C x17 x18) with Ret a, Ret b => mtype_eqb a b | _, _ => false end);
   (let C := test_container in match (Ret NOT_A_NUMBER), (x19 <- (Ret (bs "+43")) ;; x20 <- (Ret (bs "64 3 331 6005")) ;; IsNumberMatch C x19 x20) with Ret a, Ret b => mtype_eqb a b | _, _ => false end);
   (let C := test_container in match (Ret NOT_A_NUMBER), (x21 <- (Ret (bs "Dog")) ;; x22 <- (Ret (bs "64 3 331 6005")) ;; IsNumberMatch C x21 x22) with Ret a, Ret b => mtype_eqb a b | _, _ => false end)].

Lemma TestIsNumberMatchNonMatches_ok : forallb (fun b => b) TestIsNumberMatchNonMatches = true.
Proof. vm_cast_no_check (eq_refl true). Qed.

(* phonenumberutil_test.go: TestIsNumberMatchNsnMatches, 11 checks, 0 statements not translated *)
Definition TestIsNumberMatchNsnMatches : list bool :=
  [(let C := test_container in match (Ret NSN_MATCH), (x1 <- (Ret (bs "+64 3 331-6005")) ;; x2 <- (Ret (bs "03 331 6005")) ;; IsNumberMatch C x1 x2) with Ret a, Ret b => mtype_eqb a b | _, _ => false end);
   (let C := test_container in match (Ret NSN_MATCH), (x3 <- (Ret (bs "+64 3 331-6005")) ;; x4 <- (Ret (bs "tel:03-331-6005;isub=1234;phone-context=abc.nz")) ;; IsNumberMatch C x3 x4) with Ret a, Ret b => mtype_eqb a b | _, _ => false end);
   (let C := test_container in match (Ret NSN_MATCH), (x5 <- (p <- (p <- (Ret phone0) ;; x <- (Ret (64)%Z) ;; Ret (set_cc p (Some x))) ;; x <- (Ret 33316005%N) ;; Ret (set_nn p (Some x))) ;; x6 <- (Ret (bs "03 331 6005")) ;; IsNumberMatchWithOneNumber C x5 x6) with Ret a, Ret b => mtype_eqb a b | _, _ => false end);
   (let C := test_container in match (Ret NSN_MATCH), (x7 <- (p <- (p <- (Ret phone0) ;; x <- (Ret (64)%Z) ;; Ret (set_cc p (Some x))) ;; x <- (Ret 33316005%N) ;; Ret (set_nn p (Some x))) ;; x8 <- (Ret (bs "(64-3) 331 6005")) ;; IsNumberMatchWithOneNumber C x7 x8) with Ret a, Ret b => mtype_eqb a b | _, _ => false end);
   (let C := test_container in match (a <- (p <- (p <- (Ret phone0) ;; x <- (Ret (64)%Z) ;; Ret (set_cc p (Some x))) ;; x <- (Ret 33316005%N) ;; Ret (set_nn p (Some x))) ;; b <- (p <- (p <- (Ret phone0) ;; x <- (Ret (64)%Z) ;; Ret (set_cc p (Some x))) ;; x <- (Ret 33316005%N) ;; Ret (set_nn p (Some x))) ;; Ret (phone_full_eqb a b)) with Ret true => true | _ => false end);
   (let C := test_container in match (Ret NSN_MATCH), (x9 <- (p <- (p <- (Ret phone0) ;; x <- (Ret (1)%Z) ;; Ret (set_cc p (Some x))) ;; x <- (Ret 6502530000%N) ;; Ret (set_nn p (Some x))) ;; x10 <- (Ret (bs "1-650-253-0000")) ;; IsNumberMatchWithOneNumber C x9 x10) with Ret a, Ret b => mtype_eqb a b | _, _ => false end);
   (let C := test_container in match (Ret NSN_MATCH), (x11 <- (p <- (p <- (Ret phone0) ;; x <- (Ret (1)%Z) ;; Ret (set_cc p (Some x))) ;; x <- (Ret 6502530000%N) ;; Ret (set_nn p (Some x))) ;; x12 <- (Ret (bs "6502530000")) ;; IsNumberMatchWithOneNumber C x11 x12) with Ret a, Ret b => mtype_eqb a b | _, _ => false end);
   (let C := test_container in match (Ret NSN_MATCH), (x13 <- (Ret (bs "+1 650-253 0000")) ;; x14 <- (Ret (bs "1 650 253 0000")) ;; IsNumberMatch C x13 x14) with Ret a, Ret b => mtype_eqb a b | _, _ => false end);
   (let C := test_container in match (Ret NSN_MATCH), (x15 <- (Ret (bs "1 650-253 0000")) ;; x16 <- (Ret (bs "1 650 253 0000")) ;; IsNumberMatch C x15 x16) with Ret a, Ret b => mtype_eqb a b | _, _ => false end);
   (let C := test_container in match (Ret NSN_MATCH), (x17 <- (Ret (bs "1 650-253 0000")) ;; x18 <- (Ret (bs "+1 650 253 0000")) ;; IsNumberMatch C x17 x18) with Ret a, Ret b => mtype_eqb a b | _, _ => false end);
   (let C := test_container in match (Ret SHORT_NSN_MATCH), (x19 <- (p <- (p <- (Ret phone0) ;; x <- (Ret (41)%Z) ;; Ret (set_cc p (Some x))) ;; x <- (Ret 6502530000%N) ;; Ret (set_nn p (Some x))) ;; x20 <- (Ret (bs "1-650-253-0000")) ;; IsNumberMatchWithOneNumber C x19 x20) with Ret a, Ret b => mtype_eqb a b | _, _ => false end)].

Lemma TestIsNumberMatchNsnMatches_ok : forallb (fun b => b) TestIsNumberMatchNsnMatches = true.
Proof. vm_cast_no_check (eq_refl true). Qed.

(* phonenumberutil_test.go: TestIsNumberMatchShortNsnMatches, 14 checks, 0 statements not translated *)
Definition TestIsNumberMatchShortNsnMatches : list bool :=
  [(let C := test_container in match (Ret SHORT_NSN_MATCH), (x1 <- (Ret (bs "+64 3 331-6005")) ;; x2 <- (Ret (bs "331 6005")) ;; IsNumberMatch C x1 x2) with Ret a, Ret b => mtype_eqb a b | _, _ => false end);
   (let C := test_container in match (Ret SHORT_NSN_MATCH), (x3 <- (Ret (bs "+64 3 331-6005")) ;; x4 <- (Ret (bs "tel:331-6005;phone-context=abc.nz")) ;; IsNumberMatch C x3 x4) with Ret a, Ret b => mtype_eqb a b | _, _ => false end);
   (let C := test_container in match (Ret SHORT_NSN_MATCH), (x5 <- (Ret (bs "+64 3 331-6005")) ;; x6 <- (Ret (bs "tel:331-6005;isub=1234;phone-context=abc.nz")) ;; IsNumberMatch C x5 x6) with Ret a, Ret b => mtype_eqb a b | _, _ => false end);
   (let C := test_container in match (Ret SHORT_NSN_MATCH), (x7 <- (Ret (bs "+64 3 331-6005")) ;; x8 <- (Ret (bs "tel:331-6005;isub=1234;phone-context=abc.nz;a=%A1")) ;; IsNumberMatch C x7 x8) with Ret a, Ret b => mtype_eqb a b | _, _ => false end);
   (let C := test_container in match (Ret SHORT_NSN_MATCH), (x9 <- (Ret (bs "3 331-6005")) ;; x10 <- (Ret (bs "03 331 6005")) ;; IsNumberMatch C x9 x10) with Ret a, Ret b => mtype_eqb a b | _, _ => false end);
   (let C := test_container in match (Ret SHORT_NSN_MATCH), (x11 <- (Ret (bs "3 331-6005")) ;; x12 <- (Ret (bs "331 6005")) ;; IsNumberMatch C x11 x12) with Ret a, Ret b => mtype_eqb a b | _, _ => false end);
   (let C := test_container in match (Ret SHORT_NSN_MATCH), (x13 <- (Ret (bs "3 331-6005")) ;; x14 <- (Ret (bs "tel:331-6005;phone-context=abc.nz")) ;; IsNumberMatch C x13 x14) with Ret a, Ret b => mtype_eqb a b | _, _ => false end);
   (let C := test_container in match (Ret SHORT_NSN_MATCH), (x15 <- (Ret (bs "3 331-6005")) ;; x16 <- (Ret (bs "+64 331 6005")) ;; IsNumberMatch C x15 x16) with Ret a, Ret b => mtype_eqb a b | _, _ => false end);
   (let C := test_container in match (Ret SHORT_NSN_MATCH), (x17 <- (Ret (bs "03 331-6005")) ;; x18 <- (Ret (bs "331 6005")) ;; IsNumberMatch C x17 x18) with Ret a, Ret b => mtype_eqb a b | _, _ => false end);
   (let C := test_container in match (Ret SHORT_NSN_MATCH), (x19 <- (Ret (bs "1 234 345 6789")) ;; x20 <- (Ret (bs "345 6789")) ;; IsNumberMatch C x19 x20) with Ret a, Ret b => mtype_eqb a b | _, _ => false end);
   (let C := test_container in match (Ret SHORT_NSN_MATCH), (x21 <- (Ret (bs "+1 (234) 345 6789")) ;; x22 <- (Ret (bs "345 6789")) ;; IsNumberMatch C x21 x22) with Ret a, Ret b => mtype_eqb a b | _, _ => false end);
   (let C := test_container in match (Ret SHORT_NSN_MATCH), (x23 <- (Ret (bs "+64 3 331-6005")) ;; x24 <- (Ret (bs "3 331 6005#1234")) ;; IsNumberMatch C x23 x24) with Ret a, Ret b => mtype_eqb a b | _, _ => false end);
   (let C := test_container in match (Ret SHORT_NSN_MATCH), (x25 <- (p <- (p <- (p <- (Ret phone0) ;; x <- (Ret (39)%Z) ;; Ret (set_cc p (Some x))) ;; x <- (Ret 1234%N) ;; Ret (set_nn p (Some x))) ;; x <- (Ret true) ;; Ret (set_ilz p (Some x))) ;; x26 <- (p <- (p <- (Ret phone0) ;; x <- (Ret (39)%Z) ;; Ret (set_cc p (Some x))) ;; x <- (Ret 1234%N) ;; Ret (set_nn p (Some x))) ;; Ret (IsNumberMatchWithNumbers x25 x26)) with Ret a, Ret b => mtype_eqb a b | _, _ => false end);
   (let C := test_container in match (Ret SHORT_NSN_MATCH), (x27 <- (p <- (p <- (p <- (p <- (p <- (Ret phone0) ;; x <- (Ret (39)%Z) ;; Ret (set_cc p (Some x))) ;; x <- (Ret 1234%N) ;; Ret (set_nn p (Some x))) ;; x <- (Ret true) ;; Ret (set_ilz p (Some x))) ;; x <- (Ret (bs "1234")) ;; Ret (set_ext p (Some x))) ;; Ret (set_ilz p None)) ;; x28 <- (p <- (p <- (p <- (Ret phone0) ;; x <- (Ret (39)%Z) ;; Ret (set_cc p (Some x))) ;; x <- (Ret 1234%N) ;; Ret (set_nn p (Some x))) ;; x <- (Ret (bs "")) ;; Ret (set_ext p (Some x))) ;; Ret (IsNumberMatchWithNumbers x27 x28)) with Ret a, Ret b => mtype_eqb a b | _, _ => false end)].

Lemma TestIsNumberMatchShortNsnMatches_ok : forallb (fun b => b) TestIsNumberMatchShortNsnMatches = true.
Proof. vm_cast_no_check (eq_refl true). Qed.

(* phonenumberutil_test.go: TestCanBeInternationallyDialled, 5 checks, 0 statements not translated *)
Definition TestCanBeInternationallyDialled : list bool :=
  [(let C := test_container in match (x1 <- (p <- (p <- (Ret phone0) ;; x <- (Ret (1)%Z) ;; Ret (set_cc p (Some x))) ;; x <- (Ret 8002530000%N) ;; Ret (set_nn p (Some x))) ;; CanBeInternationallyDialled C x1) with Ret false => true | _ => false end);
   (let C := test_container in match (x2 <- (p <- (p <- (Ret phone0) ;; x <- (Ret (1)%Z) ;; Ret (set_cc p (Some x))) ;; x <- (Ret 6502530000%N) ;; Ret (set_nn p (Some x))) ;; CanBeInternationallyDialled C x2) with Ret true => true | _ => false end);
   (let C := test_container in match (x3 <- (p <- (p <- (Ret phone0) ;; x <- (Ret (1)%Z) ;; Ret (set_cc p (Some x))) ;; x <- (Ret 2530000%N) ;; Ret (set_nn p (Some x))) ;; CanBeInternationallyDialled C x3) with Ret true => true | _ => false end);
   (let C := test_container in match (x4 <- (p <- (p <- (Ret phone0) ;; x <- (Ret (64)%Z) ;; Ret (set_cc p (Some x))) ;; x <- (Ret 33316005%N) ;; Ret (set_nn p (Some x))) ;; CanBeInternationallyDialled C x4) with Ret true => true | _ => false end);
   (let C := test_container in match (x5 <- (p <- (p <- (Ret phone0) ;; x <- (Ret (800)%Z) ;; Ret (set_cc p (Some x))) ;; x <- (Ret 12345678%N) ;; Ret (set_nn p (Some x))) ;; CanBeInternationallyDialled C x5) with Ret true => true | _ => false end)].

Lemma TestCanBeInternationallyDialled_ok : forallb (fun b => b) TestCanBeInternationallyDialled = true.
Proof. vm_cast_no_check (eq_refl true). Qed.

(* phonenumberutil_test.go: TestIsAlphaNumber, 9 checks, 0 statements not translated *)
Definition TestIsAlphaNumber : list bool :=
  [(let C := test_container in match (x1 <- (Ret (bs "1800 six-flags")) ;; Ret (IsAlphaNumber x1)) with Ret true => true | _ => false end);
   (let C := test_container in match (x2 <- (Ret (bs "1800 six-flags ext. 1234")) ;; Ret (IsAlphaNumber x2)) with Ret true => true | _ => false end);
   (let C := test_container in match (x3 <- (Ret (bs "+800 six-flags")) ;; Ret (IsAlphaNumber x3)) with Ret true => true | _ => false end);
   (let C := test_container in match (x4 <- (Ret (bs "180 six-flags")) ;; Ret (IsAlphaNumber x4)) with Ret true => true | _ => false end);
   (let C := test_container in match (x5 <- (Ret (bs "1800 123-1234")) ;; Ret (IsAlphaNumber x5)) with Ret false => true | _ => false end);
   (let C := test_container in match (x6 <- (Ret (bs "1 six-flags")) ;; Ret (IsAlphaNumber x6)) with Ret false => true | _ => false end);
   (let C := test_container in match (x7 <- (Ret (bs "18 six-flags")) ;; Ret (IsAlphaNumber x7)) with Ret false => true | _ => false end);
   (let C := test_container in match (x8 <- (Ret (bs "1800 123-1234 extension: 1234")) ;; Ret (IsAlphaNumber x8)) with Ret false => true | _ => false end);
   (let C := test_container in match (x9 <- (Ret (bs "+800 1234-1234")) ;; Ret (IsAlphaNumber x9)) with Ret false => true | _ => false end)].

Lemma TestIsAlphaNumber_ok : forallb (fun b => b) TestIsAlphaNumber = true.
Proof. vm_cast_no_check (eq_refl true). Qed.

(* phonenumberutil_test.go: TestIsMobileNumberPortableRegion, 4 checks, 0 statements not translated *)
Definition TestIsMobileNumberPortableRegion : list bool :=
  [(let C := test_container in match (x1 <- (Ret (bs "US")) ;; Ret (IsMobileNumberPortableRegion C x1)) with Ret true => true | _ => false end);
   (let C := test_container in match (x2 <- (Ret (bs "GB")) ;; Ret (IsMobileNumberPortableRegion C x2)) with Ret true => true | _ => false end);
   (let C := test_container in match (x3 <- (Ret (bs "AE")) ;; Ret (IsMobileNumberPortableRegion C x3)) with Ret false => true | _ => false end);
   (let C := test_container in match (x4 <- (Ret (bs "BS")) ;; Ret (IsMobileNumberPortableRegion C x4)) with Ret false => true | _ => false end)].

Lemma TestIsMobileNumberPortableRegion_ok : forallb (fun b => b) TestIsMobileNumberPortableRegion = true.
Proof. vm_cast_no_check (eq_refl true). Qed.

(* phonenumberutil_internal_test.go: TestFormattingRuleHasFirstGroupOnly, 6 checks, 0 statements not translated *)
Definition TestFormattingRuleHasFirstGroupOnly : list bool :=
  [(let C := shipped in match (x1 <- (Ret (bs "$1")) ;; Ret (formattingRuleHasFirstGroupOnly x1)) with Ret true => true | _ => false end);
   (let C := shipped in match (x2 <- (Ret (bs "($1)")) ;; Ret (formattingRuleHasFirstGroupOnly x2)) with Ret true => true | _ => false end);
   (let C := shipped in match (x3 <- (Ret (bs "")) ;; Ret (formattingRuleHasFirstGroupOnly x3)) with Ret true => true | _ => false end);
   (let C := shipped in match (x4 <- (Ret (bs "0$1")) ;; Ret (formattingRuleHasFirstGroupOnly x4)) with Ret false => true | _ => false end);
   (let C := shipped in match (x5 <- (Ret (bs "0($1)")) ;; Ret (formattingRuleHasFirstGroupOnly x5)) with Ret false => true | _ => false end);
   (let C := shipped in match (x6 <- (Ret (bs "$1 suffix")) ;; Ret (formattingRuleHasFirstGroupOnly x6)) with Ret false => true | _ => false end)].

Lemma TestFormattingRuleHasFirstGroupOnly_ok : forallb (fun b => b) TestFormattingRuleHasFirstGroupOnly = true.
Proof. vm_cast_no_check (eq_refl true). Qed.

