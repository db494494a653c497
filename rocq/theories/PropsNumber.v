(** Properties C04-C07, C14-C16, C22: national significant numbers, E.164, matching, country code extraction.
    Vocabulary in NumberSpec.v, proofs in NumberFacts.v. *)
From Coq Require Import List NArith ZArith Bool Lia.
From Verif Require Import Base BaseFacts Types Normalize Validate Format Parse NumberSpec NumberFacts Shipped.
Import ListNotations.
Local Open Scope N_scope.

(** C04 *)
Theorem C04_nsn_shape : forall n : phone, exists d, decimal_of d (nn_of n) /\
  GetNationalSignificantNumber n = repeat 48 (zero_count n) ++ d.
Proof. intros n. exists (dec (nn_of n)). split; [apply decimal_of_dec|apply nsn_eq]. Qed.
Print Assumptions C04_nsn_shape.

Theorem C04_nsn_bounded : forall n : phone, go_phone n -> (length (GetNationalSignificantNumber n) <= 37)%nat.
Proof. intros n (H & _). apply nsn_length; auto. Qed.
Print Assumptions C04_nsn_bounded.

(** A hostile zero count: 2^31 - 1. *)
Definition hostile : phone :=
  {| p_cc := Some 39%Z; p_nn := Some 18446744073709551615; p_ext := None; p_ilz := Some true; p_nlz := Some 2147483647%Z;
     p_raw := None; p_src := None; p_carrier := None |}.
Example C04_witness : go_phone hostile /\ length (GetNationalSignificantNumber hostile) = 37%nat
  /\ GetNationalSignificantNumber hostile = bs "0000000000000000018446744073709551615".
Proof. split; [unfold go_phone; cbn; lia|]. split; vm_compute; reflexivity. Qed.

(** C05: the two assignments made by the end of parsing (phonenumberutil.go:2838-2844). *)
Theorem C05_leading_zeros : forall s p, (forall c, In c s -> 48 <= c <= 57) -> (1 <= length s <= 17)%nat -> p_nlz p = None ->
  GetNationalSignificantNumber (set_nn (setItalianLeadingZerosForPhoneNumber s p) (Some (parse_uint_val s))) = s.
Proof.
  intros s p D. apply leading_zeros_roundtrip. apply forallb_forall. intros c Hc. apply is_digit_iff. auto.
Qed.
Print Assumptions C05_leading_zeros.

Example C05_witness_zeros :
  GetNationalSignificantNumber (set_nn (setItalianLeadingZerosForPhoneNumber (bs "0000") phone0) (Some (parse_uint_val (bs "0000")))) = bs "0000".
Proof. vm_compute. reflexivity. Qed.
Example C05_witness : (forall c, In c (bs "0012345") -> 48 <= c <= 57) /\ (1 <= length (bs "0012345") <= 17)%nat /\ p_nlz phone0 = None.
Proof. split; [intros c H; simpl in H; intuition lia|]. split; [simpl; lia|reflexivity]. Qed.

(** C05, why 17: the library caps the printed zeros at 17, so a digit string of 19 zeros cannot round trip. *)
Theorem C05_limit_refuted : exists s, all_digits s = true /\
  GetNationalSignificantNumber (set_nn (setItalianLeadingZerosForPhoneNumber s phone0) (Some (parse_uint_val s))) <> s.
Proof. exists (repeat 48 19). split; [reflexivity|]. vm_compute. discriminate. Qed.
Print Assumptions C05_limit_refuted.

(** C06 *)
Theorem C06_e164 : forall C n, (nn_of n <> 0 \/ p_raw n = None \/ p_raw n = Some []) ->
  Format C n E164 = Ret (bs "+" ++ itoa (cc_of n) ++ GetNationalSignificantNumber n).
Proof.
  intros C n H. rewrite format_e164.
  replace ((nn_of n =? 0) && negb (is_empty (get_raw n))) with false; [reflexivity|]. symmetry. apply andb_false_iff.
  destruct H as [H|[H|H]]; [left; apply N.eqb_neq; auto|right|right]; unfold get_raw; rewrite H; reflexivity.
Qed.
Print Assumptions C06_e164.

(** C06: the documented exception. *)
Theorem C06_e164_raw : forall C n raw, nn_of n = 0 -> p_raw n = Some raw -> raw <> [] -> Format C n E164 = Ret raw.
Proof.
  intros C n raw H1 H2 H3. rewrite format_e164, H1. unfold get_raw. rewrite H2. simpl. destruct raw; [congruence|reflexivity].
Qed.
Print Assumptions C06_e164_raw.

(** C06: nothing else matters, not even the metadata. *)
Theorem C06_independent : forall C C' a b, nn_of a <> 0 -> cc_of a = cc_of b -> nn_of a = nn_of b -> zeros a = zeros b ->
  Format C a E164 = Format C' b E164.
Proof.
  intros C C' a b H0 H1 H2 H3. rewrite !C06_e164; auto; [|left; congruence]. rewrite !nsn_eq, H1, H2. unfold zero_count. rewrite H3. reflexivity.
Qed.
Print Assumptions C06_independent.

Definition it_number : phone :=
  {| p_cc := Some 39%Z; p_nn := Some 236618300; p_ext := Some (bs "12"); p_ilz := Some true; p_nlz := None;
     p_raw := Some (bs "02 3661 8300 ext 12"); p_src := Some FROM_DEFAULT_COUNTRY; p_carrier := None |}.
Example C06_witness : nn_of it_number <> 0 /\ Format shipped it_number E164 = Ret (bs "+390236618300").
Proof. split; [discriminate|vm_compute; reflexivity]. Qed.
Example C06_witness_raw : let z := set_nn it_number (Some 0) in nn_of z = 0 /\ Format shipped z E164 = Ret (bs "02 3661 8300 ext 12").
Proof. vm_compute. auto. Qed.

(** C07 *)
Theorem C07_same_code : forall C a b, nn_of a <> 0 -> nn_of b <> 0 -> cc_of a = cc_of b -> Format C a E164 = Format C b E164 ->
  GetNationalSignificantNumber a = GetNationalSignificantNumber b.
Proof.
  intros C a b Ha Hb Hc H. rewrite !C06_e164 in H by auto. inversion H as [E]. rewrite Hc in E. apply app_inv_head in E. exact E.
Qed.
Print Assumptions C07_same_code.

Theorem C07_prefix_free_codes : forall C codes a b, prefix_free codes -> In (cc_of a) codes -> In (cc_of b) codes ->
  nn_of a <> 0 -> nn_of b <> 0 -> Format C a E164 = Format C b E164 ->
  cc_of a = cc_of b /\ GetNationalSignificantNumber a = GetNationalSignificantNumber b.
Proof.
  intros C codes a b P Ia Ib Ha Hb H. rewrite !C06_e164 in H by auto. inversion H as [E]. eapply e164_prefix_free; eauto.
Qed.
Print Assumptions C07_prefix_free_codes.

(** The calling codes of the shipped metadata are such a set. *)
Theorem C07_shipped_codes_prefix_free : prefix_free (map fst (c_cc2region shipped)).
Proof. apply prefix_free_b_ok. vm_cast_no_check (eq_refl true). Qed.
Print Assumptions C07_shipped_codes_prefix_free.

Theorem C07_shipped : forall a b,
  hasValidCountryCallingCode shipped (cc_of a) = true -> hasValidCountryCallingCode shipped (cc_of b) = true ->
  nn_of a <> 0 -> nn_of b <> 0 -> Format shipped a E164 = Format shipped b E164 ->
  cc_of a = cc_of b /\ GetNationalSignificantNumber a = GetNationalSignificantNumber b.
Proof.
  assert (K : forall c, hasValidCountryCallingCode shipped c = true -> In c (map fst (c_cc2region shipped))).
  { intros c H. unfold hasValidCountryCallingCode in H. destruct (assocz c (c_cc2region shipped)) eqn:E; [|discriminate].
    apply assocz_In in E. apply in_map_iff. eexists; split; [|exact E]. reflexivity. }
  intros a b Ha Hb. apply C07_prefix_free_codes with (codes := map fst (c_cc2region shipped)); auto using C07_shipped_codes_prefix_free.
Qed.
Print Assumptions C07_shipped.
Example C07_witness : hasValidCountryCallingCode shipped (cc_of it_number) = true /\ (200 < length (c_cc2region shipped))%nat.
Proof. split; [vm_compute; reflexivity|]. vm_compute. lia. Qed.

(** C14 *)
Theorem C14_symmetric : forall a b, IsNumberMatchWithNumbers a b = IsNumberMatchWithNumbers b a.
Proof. exact match_sym. Qed.
Print Assumptions C14_symmetric.

(** C15 *)
Theorem C15_exact_iff : forall a b, IsNumberMatchWithNumbers a b = EXACT_MATCH <->
  cc_of a <> 0%Z /\ cc_of a = cc_of b /\ nn_of a = nn_of b /\ zeros a = zeros b /\ ext_of a = ext_of b.
Proof. exact exact_iff. Qed.
Print Assumptions C15_exact_iff.
Theorem C15_reflexive : forall a, cc_of a <> 0%Z -> IsNumberMatchWithNumbers a a = EXACT_MATCH.
Proof. intros a H. apply exact_iff. auto. Qed.
Print Assumptions C15_reflexive.
Theorem C15_only_core_fields : forall a a' b b', same_core a a' -> same_core b b' ->
  IsNumberMatchWithNumbers a b = IsNumberMatchWithNumbers a' b'.
Proof. exact match_core. Qed.
Print Assumptions C15_only_core_fields.
Example C15_witness : cc_of it_number <> 0%Z /\ same_core it_number (set_raw it_number None).
Proof. split; [discriminate|repeat split]. Qed.

(** C16: with C15, a complete description of the four possible answers. *)
Theorem C16_nsn_match_iff : forall a b, IsNumberMatchWithNumbers a b = NSN_MATCH <->
  (cc_of a = 0%Z \/ cc_of b = 0%Z) /\ nn_of a = nn_of b /\ zeros a = zeros b /\ ext_of a = ext_of b.
Proof. exact nsn_match_iff. Qed.
Print Assumptions C16_nsn_match_iff.
Theorem C16_short_match_iff : forall a b, IsNumberMatchWithNumbers a b = SHORT_NSN_MATCH <->
  ~ (ext_of a <> [] /\ ext_of b <> [] /\ ext_of a <> ext_of b) /\
  (cc_of a = 0%Z \/ cc_of b = 0%Z \/ cc_of a = cc_of b) /\
  (suffix_of (dec (nn_of a)) (dec (nn_of b)) \/ suffix_of (dec (nn_of b)) (dec (nn_of a))) /\
  ~ (nn_of a = nn_of b /\ zeros a = zeros b /\ ext_of a = ext_of b).
Proof. exact short_match_iff. Qed.
Print Assumptions C16_short_match_iff.
Theorem C16_no_match_iff : forall a b, IsNumberMatchWithNumbers a b = NO_MATCH <->
  (ext_of a <> [] /\ ext_of b <> [] /\ ext_of a <> ext_of b) \/
  (cc_of a <> 0%Z /\ cc_of b <> 0%Z /\ cc_of a <> cc_of b) \/
  ~ (suffix_of (dec (nn_of a)) (dec (nn_of b)) \/ suffix_of (dec (nn_of b)) (dec (nn_of a))).
Proof. exact no_match_iff. Qed.
Print Assumptions C16_no_match_iff.
Theorem C16_dec_is_decimal : forall n, decimal_of (dec n) n.
Proof. exact decimal_of_dec. Qed.
Print Assumptions C16_dec_is_decimal.
(** SHORT_NSN_MATCH compares decimal national numbers, not the significant numbers with their zeros: two numbers with the
    same integer but different leading zeros still match "short", although neither NSN is a suffix of the other's caller's
    digits when zeros differ in the middle; here both are +39, "0236618300" against "00236618300". *)
Example C16_witness : IsNumberMatchWithNumbers it_number (set_nlz it_number (Some 2%Z)) = SHORT_NSN_MATCH
  /\ IsNumberMatchWithNumbers it_number (set_cc it_number None) = NSN_MATCH
  /\ IsNumberMatchWithNumbers it_number (set_ext it_number (Some (bs "3"))) = NO_MATCH.
Proof. vm_compute. auto. Qed.

(** C22 *)
Theorem C22_extract_found : forall C full cc rest, (forall c, In c full -> 48 <= c <= 57) ->
  extractCountryCode C full = Some (cc, rest) ->
  full = itoa cc ++ rest /\ (1 <= length (itoa cc) <= 3)%nat /\ hasValidCountryCallingCode C cc = true /\
  (forall cc', (0 < cc')%Z -> hasValidCountryCallingCode C cc' = true -> (exists t, full = itoa cc' ++ t) ->
     (length (itoa cc) <= length (itoa cc'))%nat).
Proof.
  intros C full cc rest D H. apply extract_some in H; [tauto|]. apply forallb_forall. intros c Hc. apply is_digit_iff. auto.
Qed.
Print Assumptions C22_extract_found.
Theorem C22_extract_not_found : forall C full, (forall c, In c full -> 48 <= c <= 57) -> extractCountryCode C full = None ->
  forall cc t, (0 < cc)%Z -> (length (itoa cc) <= 3)%nat -> full = itoa cc ++ t -> hasValidCountryCallingCode C cc = false.
Proof.
  intros C full D. apply extract_none. apply forallb_forall. intros c Hc. apply is_digit_iff. auto.
Qed.
Print Assumptions C22_extract_not_found.
Theorem C22_leading_zero : forall C t, extractCountryCode C (48 :: t) = None.
Proof. reflexivity. Qed.
Print Assumptions C22_leading_zero.
Example C22_witness : extractCountryCode shipped (bs "390236618300") = Some (39%Z, bs "0236618300")
  /\ extractCountryCode shipped (bs "2101234567") = None.
Proof. vm_compute. auto. Qed.
