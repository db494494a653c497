(** Properties C08, C09, C23-C25, C47: what formatting does to the digits of a number, with the shipped metadata.
    Vocabulary in FormatSpec.v, proofs in TextFacts.v, FormatFacts.v and FormatMore.v. *)
From Verif Require Import Base BaseFacts Utf8 Regex Consts Types Normalize NormalizeSpec NormalizeFacts Validate Format Parse NumberSpec NumberFacts MetaSpec
  ValidateSpec ValidateFacts MetaFacts Shipped FormatSpec TextFacts FormatFacts FormatMore PropsValidate.

(** The number carries a raw input and the number 0: then [Format] hands back the raw input. All statements below are about the other numbers. *)
Definition has_number (n : phone) : Prop := nn_of n <> 0 \/ get_raw n = [].
Lemma has_number_raw n : has_number n -> printed_raw n = false.
Proof.
  unfold printed_raw. change (get_nn n) with (nn_of n). intros [H|H]; [apply N.eqb_neq in H; rewrite H; reflexivity|]. rewrite H. apply andb_false_r.
Qed.
Definition supported (n : phone) : Prop := hasValidCountryCallingCode shipped (cc_of n) = true.
Definition with_ext (e : bytes) (n : phone) : phone := set_ext n (Some e).
Definition with_raw (r : bytes) (n : phone) : phone := set_raw n (Some r).
Definition with_src (x : ccsource) (n : phone) : phone := set_src n (Some x).

(** C08: the digits of the INTERNATIONAL form are those of the calling code, of the national significant number and of the extension, in this order. *)
Theorem C08_international_digits : forall n, supported n -> has_number n -> exists s, Format shipped n INTERNATIONAL = Ret s /\
  NormalizeDigitsOnly s = itoa (cc_of n) ++ GetNationalSignificantNumber n ++ NormalizeDigitsOnly (ext_of n).
Proof. intros n V R. apply intl_digits; auto using has_number_raw. Qed.
Print Assumptions C08_international_digits.
(** C08: more precisely, '+', calling code, space, the national significant number with ASCII separators put in, extension. *)
Theorem C08_international_shape : forall n, supported n -> has_number n -> exists body e,
  Format shipped n INTERNATIONAL = Ret (bs "+" ++ itoa (cc_of n) ++ bs " " ++ body ++ e) /\
  woven (fun c => (c <? 128) && negb (is_digit c)) (GetNationalSignificantNumber n) body /\ (ext_of n = [] -> e = []).
Proof.
  intros n V R. destruct (intl_shape n V (has_number_raw _ R)) as (m & body & Em & W & K & E). exists body. eexists. split; [exact E|]. split.
  - eapply woven_weaken; [exact W|]. intros c. unfold joint. rewrite !andb_true_iff. tauto.
  - intros X. unfold formattedExtension. change (get_ext n) with (ext_of n). rewrite X. reflexivity.
Qed.
Print Assumptions C08_international_shape.
Example C08_witness : supported (with_ext (bs "123") us) /\ has_number (with_ext (bs "123") us)
  /\ Format shipped (with_ext (bs "123") us) INTERNATIONAL = Ret (bs "+1 650-253-0000 ext. 123").
Proof. split; [vm_compute; reflexivity|]. split; [left; discriminate|]. vm_compute. reflexivity. Qed.

(** C09: the RFC3966 form. *)
Theorem C09_rfc3966 : forall n, supported n -> has_number n -> exists gs,
  concat gs = GetNationalSignificantNumber n /\ Forall (fun g => g <> [] /\ all_digits g = true) gs /\
  Format shipped n RFC3966 = Ret (bs "tel:+" ++ itoa (cc_of n) ++ bs "-" ++ join gs (bs "-") ++
    (if is_empty (ext_of n) then [] else bs ";ext=" ++ ext_of n)).
Proof. intros n V R. destruct (rfc_format n V (has_number_raw _ R)) as (gs & (H1 & H2) & H3). exists gs. auto. Qed.
Print Assumptions C09_rfc3966.
Example C09_witness : Format shipped (with_ext (bs "1") us) RFC3966 = Ret (bs "tel:+1-650-253-0000;ext=1").
Proof. vm_compute. reflexivity. Qed.
(** C09: a number whose calling code is not supported is printed as its national significant number alone. *)
Theorem C09_unsupported : forall C n nf, has_number n -> nf <> E164 -> hasValidCountryCallingCode C (cc_of n) = false ->
  Format C n nf = Ret (GetNationalSignificantNumber n).
Proof.
  intros C n nf R F V. unfold Format. fold (printed_raw n). rewrite (has_number_raw _ R). unfold formatWithBuf. change (get_cc n) with (cc_of n). rewrite V.
  destruct nf; try congruence; reflexivity.
Qed.
Print Assumptions C09_unsupported.

(** C47: NATIONAL loses no digit of the number, except for Argentina. *)
Theorem C47_national_keeps_digits : forall n, supported n -> has_number n -> cc_of n <> 54%Z -> exists body e,
  Format shipped n NATIONAL = Ret (body ++ e) /\ woven (fun c => c <? 128) (GetNationalSignificantNumber n) body /\ (ext_of n = [] -> e = []).
Proof.
  intros n V R A. destruct (national_shape n V (has_number_raw _ R) A) as (m & body & Em & W & E). exists body. eexists. split; [exact E|]. split; [exact W|].
  intros X. unfold formattedExtension. change (get_ext n) with (ext_of n). rewrite X. reflexivity.
Qed.
Print Assumptions C47_national_keeps_digits.
Example C47_witness : Format shipped (num 44 2087654321) NATIONAL = Ret (bs "020 8765 4321") /\ supported (num 44 2087654321) /\ has_number (num 44 2087654321).
Proof. split; [vm_compute; reflexivity|]. split; [vm_compute; reflexivity|left; discriminate]. Qed.
Lemma woven_in_l P w o : woven P w o -> forall c, In c w -> In c o.
Proof. induction 1; simpl; intros x I; auto. destruct I; auto. Qed.
(** C47: for Argentine mobile numbers the leading 9 disappears: the digits of the NATIONAL form are not those of the number. *)
Theorem C47_argentina_refuted : exists n s, supported n /\ has_number n /\ Format shipped n NATIONAL = Ret s /\ ~ woven (fun c => c <? 128) (GetNationalSignificantNumber n) s.
Proof.
  exists (num 54 91123456789). eexists. split; [vm_compute; reflexivity|]. split; [left; discriminate|]. split; [vm_compute; reflexivity|].
  intros W. assert (H : (count_occ N.eq_dec (dec 91123456789) 57%N <= count_occ N.eq_dec (bs "011 15-2345-6789") 57%N)%nat).
  { assert (G : forall P w o, woven P w o -> (count_occ N.eq_dec w 57%N <= count_occ N.eq_dec o 57%N)%nat).
    { induction 1; simpl; try destruct (N.eq_dec _ _); lia. }
    apply (G _ _ _ W). }
  vm_compute in H. lia.
Qed.
Print Assumptions C47_argentina_refuted.

(** C23: with a raw input and a recorded origin, FormatInOriginalFormat has the diallable characters of the raw input. *)
Theorem C23_original_digits : forall n from s, get_raw n <> [] -> get_src n <> UNSPECIFIED -> nn_of n <> 0 ->
  FormatInOriginalFormat shipped n from = Ret s -> NormalizeDiallableCharsOnly s = NormalizeDiallableCharsOnly (get_raw n).
Proof. exact original_shipped. Qed.
Print Assumptions C23_original_digits.
(** C23: with any metadata and any number the only other possibility is the empty string. *)
Theorem C23_any_metadata : forall C n from s, get_raw n <> [] -> get_src n <> UNSPECIFIED ->
  FormatInOriginalFormat C n from = Ret s -> s = [] \/ NormalizeDiallableCharsOnly s = NormalizeDiallableCharsOnly (get_raw n).
Proof. exact original_spec. Qed.
Print Assumptions C23_any_metadata.
Example C23_witness : FormatInOriginalFormat shipped (with_src FROM_NUMBER_WITH_PLUS_SIGN (with_raw (bs "+16502530000") us)) (bs "US") = Ret (bs "+1 650-253-0000").
Proof. vm_compute. reflexivity. Qed.
(** C23: without a recorded origin the raw input is ignored. *)
Theorem C23_unspecified_source_refuted : exists n from s, get_raw n <> [] /\ FormatInOriginalFormat shipped n from = Ret s /\
  NormalizeDiallableCharsOnly s <> NormalizeDiallableCharsOnly (get_raw n).
Proof.
  exists (with_raw (bs "+1 650 253 0000") us), (bs "US"). eexists. split; [discriminate|]. split; [vm_compute; reflexivity|]. vm_compute. discriminate.
Qed.
Print Assumptions C23_unspecified_source_refuted.

(** C24: the lengths can be used to cut the national significant number. *)
Theorem C24_destination_code : forall n, has_number n -> exists k, GetLengthOfNationalDestinationCode shipped n = Ret k /\ (k <= length (GetNationalSignificantNumber n))%nat.
Proof. intros n R. apply ndc_bound, has_number_raw, R. Qed.
Print Assumptions C24_destination_code.
Theorem C24_area_code : forall n, has_number n -> exists k, GetLengthOfGeographicalAreaCode shipped n = Ret k /\ (k <= length (GetNationalSignificantNumber n))%nat.
Proof. intros n R. apply area_bound, has_number_raw, R. Qed.
Print Assumptions C24_area_code.
Example C24_witness : GetLengthOfGeographicalAreaCode shipped us = Ret 3%nat /\ GetLengthOfNationalDestinationCode shipped (num 54 91187654321) = Ret 3%nat.
Proof. split; vm_compute; reflexivity. Qed.
(** C24: a number 0 with a raw input breaks the bound. *)
Theorem C24_raw_refuted : exists n k, GetLengthOfNationalDestinationCode shipped n = Ret k /\ (length (GetNationalSignificantNumber n) < k)%nat.
Proof. exists (with_raw (bs "1-2-33333-4444") (num 1 0)), 5%nat. split; [vm_compute; reflexivity|]. vm_compute. lia. Qed.
Print Assumptions C24_raw_refuted.

(** C25: dialling strings. *)
Theorem C25_only_diallable : forall n from, supported n -> has_number n -> exists s, FormatNumberForMobileDialing shipped n from false = Ret s /\
  forall c, In c s -> (48 <= c <= 57) \/ c = 43 \/ c = 42 \/ c = 35.
Proof.
  intros n from V R. destruct (mobile_total shipped n from false shipped_wf shipped_nanpa) as (s & E). exists s. split; [exact E|].
  intros c Hc. pose proof (mobile_plain _ _ _ _ shipped_wf V (has_number_raw _ R) E c Hc) as D. apply diallable_iff in D. lia.
Qed.
Print Assumptions C25_only_diallable.
Example C25_witness : FormatNumberForMobileDialing shipped (num 44 2087654321) (bs "GB") false = Ret (bs "02087654321")
  /\ FormatNumberForMobileDialing shipped (num 44 2087654321) (bs "US") false = Ret (bs "+442087654321").
Proof. split; vm_compute; reflexivity. Qed.
(** C25: for an unsupported calling code the raw input comes back as it is. *)
Theorem C25_unsupported_refuted : exists n from s c, FormatNumberForMobileDialing shipped n from false = Ret s /\ In c s /\ diallable c = false.
Proof. exists (with_raw (bs "a") (num 2 12345678)), (bs "US"), (bs "a"), 97. split; [vm_compute; reflexivity|]. split; [left; reflexivity|reflexivity]. Qed.
Print Assumptions C25_unsupported_refuted.
