(** Properties C17-C21: possible lengths, truncation, validity, type, region.
    Vocabulary in MetaSpec.v and ValidateSpec.v, proofs in ValidateFacts.v and MetaFacts.v. Each is stated for any well-formed
    metadata and, as a corollary, for the shipped metadata. *)
From Verif Require Import Base BaseFacts Utf8 Regex Consts Types Validate MetaSpec ValidateSpec ValidateFacts MetaFacts NumberSpec
  NumberFacts Shipped.

(** Numbers used as witnesses. *)
Definition num (cc : Z) (nn : N) : phone := set_nn (set_cc phone0 (Some cc)) (Some nn).
Definition us := num 1 6502530000.

Theorem shipped_metadata_well_formed : wf_container shipped /\ lengths_nested shipped.
Proof. exact (conj shipped_wf shipped_lengths_nested). Qed.
Print Assumptions shipped_metadata_well_formed.

(** C17: for a supported calling code the answer is the classification of the number's length against the allowed and local-only
    lengths of the main region; for an unsupported one it is INVALID_COUNTRY_CODE. The call never fails. *)
Theorem C17_classification : forall C n t, wf_container C -> exists v, IsPossibleNumberForTypeWithReason C n t = Ret v /\
  if hasValidCountryCallingCode C (cc_of n)
  then exists m, main_meta C (cc_of n) = Some m /\
         classified (allowed m t) (local_only m t) (Z.of_nat (length (GetNationalSignificantNumber n))) v
  else v = INVALID_COUNTRY_CODE.
Proof. exact possible_type_spec. Qed.
Print Assumptions C17_classification.

(** C17: the classes exclude one another, so the statement above determines the answer. *)
Theorem C17_exclusive : forall ok loc l v w, classified ok loc l v -> classified ok loc l w -> v = w.
Proof. exact classified_fun. Qed.
Print Assumptions C17_exclusive.

(** C17: only the calling code and the length matter. *)
Theorem C17_depends_only_on_length : forall C a b t, wf_container C -> cc_of a = cc_of b ->
  length (GetNationalSignificantNumber a) = length (GetNationalSignificantNumber b) ->
  IsPossibleNumberForTypeWithReason C a t = IsPossibleNumberForTypeWithReason C b t.
Proof.
  intros C a b t W E L. destruct (possible_type_spec C a t W) as (v & Ev & Hv). destruct (possible_type_spec C b t W) as (w & Ew & Hw).
  rewrite Ev, Ew. f_equal. rewrite E in Hv. destruct (hasValidCountryCallingCode C (cc_of b)); [|congruence].
  destruct Hv as (m & Em & Hv). destruct Hw as (m' & Em' & Hw). rewrite Em in Em'. inv Em'. rewrite L in Hv. eapply classified_fun; eauto.
Qed.
Print Assumptions C17_depends_only_on_length.

(** C17: without a type the question is about the region's general lengths. *)
Theorem C17_untyped : forall C n, wf_container C -> IsPossibleNumberWithReason C n = IsPossibleNumberForTypeWithReason C n UNKNOWN.
Proof. exact possible_spec. Qed.
Print Assumptions C17_untyped.

Theorem C17_shipped : forall n t, exists v, IsPossibleNumberForTypeWithReason shipped n t = Ret v /\
  if hasValidCountryCallingCode shipped (cc_of n)
  then exists m, main_meta shipped (cc_of n) = Some m /\
         classified (allowed m t) (local_only m t) (Z.of_nat (length (GetNationalSignificantNumber n))) v
  else v = INVALID_COUNTRY_CODE.
Proof. intros. apply possible_type_spec, shipped_wf. Qed.
Print Assumptions C17_shipped.
Example C17_witness : map (fun n => IsPossibleNumberForTypeWithReason shipped n FIXED_LINE_OR_MOBILE)
  [us; num 1 2530000; num 1 253000; num 1 25300000; num 1 65025300001; num 999 1; num 44 123456]
  = map Ret [IS_POSSIBLE; IS_POSSIBLE_LOCAL_ONLY; TOO_SHORT; TOO_SHORT; TOO_LONG; INVALID_COUNTRY_CODE; IS_POSSIBLE_LOCAL_ONLY].
Proof. vm_compute. reflexivity. Qed.

(** C18. [cut n k] is [n] with the last k decimal digits of the national number removed and nothing else changed. *)
(** Removing digits is taking a decimal prefix. *)
Theorem C18_cut_is_prefix : forall n k, nn_of n / 10 ^ N.of_nat k <> 0 -> exists t, length t = k /\ dec (nn_of n) = dec (nn_of (cut n k)) ++ t.
Proof.
  intros n k. unfold cut, nn_of, get_nn, set_nn. cbn [p_nn]. generalize (match p_nn n with Some v => v | None => 0 end). intros v. induction k as [|k IH]; intros H.
  - exists []. split; auto. change (10 ^ N.of_nat 0) with 1. rewrite N.div_1_r, app_nil_r. auto.
  - rewrite Nat2N.inj_succ, N.pow_succ_r', N.mul_comm in *.
    assert (P : 10 ^ N.of_nat k <> 0) by (apply N.pow_nonzero; discriminate).
    rewrite <- N.div_div in * by (auto; discriminate). destruct IH as (t & Lt & Et).
    { intros E. rewrite E in H. apply H. reflexivity. }
    destruct (dec_div10 (v / 10 ^ N.of_nat k)) as (d & Ed).
    { apply N.le_ngt. intros L. apply H. apply N.div_small. auto. }
    exists (d :: t). split; [simpl; congruence|]. rewrite Et, Ed, <- app_assoc. reflexivity.
Qed.
Print Assumptions C18_cut_is_prefix.
Lemma loop_nonzero C f : forall copy v w, v <> 0 -> truncate_loop C f copy v = Ret (Some w) -> w <> 0.
Proof.
  induction f as [|f IH]; intros copy v w V E; cbn [truncate_loop] in E; apply bind_ret in E as (b & _ & E).
  { destruct b; [injection E as <-; exact V|discriminate E]. }
  destruct b; [injection E as <-; exact V|]. apply bind_ret in E as (x & _ & E). destruct (vresult_eqb x TOO_SHORT || (v / 10 =? 0)) eqn:T; [discriminate E|].
  apply orb_false_iff in T as (_ & T). apply N.eqb_neq in T. exact (IH _ _ _ T E).
Qed.
Lemma truncate_nonzero C n n' : TruncateTooLongNumber C n = Ret (true, n') -> IsValidNumber C n = Ret true \/ nn_of n' <> 0.
Proof.
  unfold TruncateTooLongNumber. intros E. apply bind_ret in E as (b & B & E). destruct b; [left; exact B|]. right.
  apply bind_ret in E as (x & _ & E). destruct (vresult_eqb x TOO_SHORT || (get_nn n / 10 =? 0)) eqn:T; [discriminate E|].
  apply orb_false_iff in T as (_ & T). apply N.eqb_neq in T. apply bind_ret in E as (o & L & E).
  destruct o as [k|]; [|discriminate E]. injection E as <-. exact (loop_nonzero _ _ _ _ _ T L).
Qed.
Theorem C18_truncate : forall C n, wf_container C -> exists b n', TruncateTooLongNumber C n = Ret (b, n') /\
  (b = false -> n' = n) /\
  (b = true -> IsValidNumber C n' = Ret true /\ exists k, (k = 0%nat -> n' = n) /\
     (k <> 0%nat -> n' = cut n k /\ exists t, length t = k /\ dec (nn_of n) = dec (nn_of n') ++ t) /\
     forall i, (i < k)%nat -> IsValidNumber C (cut n i) = Ret false).
Proof.
  intros C n W. destruct (truncate_spec C n W) as (b & n' & E & H). exists b, n'. split; [exact E|]. destruct b.
  - split; [discriminate|]. intros _. destruct H as (k & V & H0 & Hk & Hi). split; [exact V|]. exists k. split; [exact H0|]. split; [|exact Hi].
    intros K. specialize (Hk K). split; [exact Hk|]. rewrite Hk. apply C18_cut_is_prefix.
    destruct (truncate_nonzero C n n' E) as [Y|Y].
    + exfalso. assert (X : IsValidNumber C (cut n 0) = Ret false) by (apply Hi; lia).
      unfold cut in X. change (10 ^ N.of_nat 0) with 1 in X. rewrite N.div_1_r, valid_set_same, Y in X. discriminate X.
    + rewrite Hk in Y. exact Y.
  - destruct H as (H & _). split; [auto|discriminate].
Qed.
Print Assumptions C18_truncate.
Theorem C18_shipped : forall n, exists b n', TruncateTooLongNumber shipped n = Ret (b, n') /\
  (b = false -> n' = n) /\
  (b = true -> IsValidNumber shipped n' = Ret true /\ exists k, (k = 0%nat -> n' = n) /\
     (k <> 0%nat -> n' = cut n k /\ exists t, length t = k /\ dec (nn_of n) = dec (nn_of n') ++ t) /\
     forall i, (i < k)%nat -> IsValidNumber shipped (cut n i) = Ret false).
Proof. intros n. apply C18_truncate, shipped_wf. Qed.
Print Assumptions C18_shipped.
Example C18_witness : TruncateTooLongNumber shipped (num 1 65025300001234) = Ret (true, us)
  /\ TruncateTooLongNumber shipped (num 1 650253) = Ret (false, num 1 650253) /\ TruncateTooLongNumber shipped us = Ret (true, us).
Proof. vm_compute. auto. Qed.
(** C18, a limit of the API: [false] does not mean that no prefix is valid. The seven-digit Canadian number 310-1234 is valid, but
    truncating +1 310123456 stops at eight digits, which is too short for the main region. *)
Theorem C18_false_incomplete_refuted : exists n k, TruncateTooLongNumber shipped n = Ret (false, n) /\ IsValidNumber shipped (cut n k) = Ret true.
Proof. exists (num 1 310123456), 2%nat. split; vm_compute; reflexivity. Qed.
Print Assumptions C18_false_incomplete_refuted.
(** C18: when a failed truncation does mean that: if the calling code has no local-only lengths. *)
Theorem C18_false_complete : forall C n n' m, wf_container C -> lengths_nested C -> main_meta C (cc_of n) = Some m ->
  (forall l, ~ local_only m UNKNOWN l) -> TruncateTooLongNumber C n = Ret (false, n') ->
  forall k, nn_of n / 10 ^ N.of_nat k <> 0 -> IsValidNumber C (cut n k) = Ret false.
Proof.
  intros C n n' m W L Em Loc T k Hk. destruct (truncate_spec C n W) as (b & n2 & E & H). rewrite T in E. inv E.
  destruct H as (_ & j & Hj & Bj & Sj). destruct (lt_dec k j) as [Lt|Ge]; [auto|].
  destruct (valid_total C (cut n k) W) as (v & Ev). destruct v; [exfalso|auto].
  destruct Sj as [Z|S].
  - apply Hk. replace k with (j + (k - j))%nat by lia. rewrite Nat2N.inj_add, N.pow_add_r, <- N.div_div by (apply N.pow_nonzero; discriminate).
    rewrite Z. apply N.div_small. apply N.neq_0_lt_0, N.pow_nonzero. discriminate.
  - pose proof (valid_possible C _ W L Ev) as P. unfold IsPossibleNumber in P. rewrite possible_spec in P, S by auto.
    destruct (possible_type_spec C (cut n j) UNKNOWN W) as (v & Ev' & Hv). rewrite Ev' in S. inv S.
    destruct (possible_type_spec C (cut n k) UNKNOWN W) as (w & Ew & Hw). rewrite Ew in P. cbn [bind] in P.
    change (cc_of (cut n j)) with (cc_of n) in Hv. change (cc_of (cut n k)) with (cc_of n) in Hw.
    destruct (hasValidCountryCallingCode C (cc_of n)); [|discriminate].
    destruct Hv as (m1 & E1 & Hv). destruct Hw as (m2 & E2 & Hw). rewrite Em in E1, E2. inv E1. inv E2.
    assert (Len : (length (GetNationalSignificantNumber (cut n k)) <= length (GetNationalSignificantNumber (cut n j)))%nat).
    { rewrite !nsn_eq, !app_length. change (zero_count (cut n k)) with (zero_count n). change (zero_count (cut n j)) with (zero_count n).
      apply Nat.add_le_mono_l. unfold cut, nn_of. cbn [get_nn p_nn set_nn].
      assert (Q : nn_of n / 10 ^ N.of_nat k <= nn_of n / 10 ^ N.of_nat j).
      { apply N.div_le_compat_l. split; [apply N.neq_0_lt_0, N.pow_nonzero; discriminate|]. apply N.pow_le_mono_r; lia. }
      pose proof (dec_length_le (nn_of n / 10 ^ N.of_nat k) (length (dec (nn_of n / 10 ^ N.of_nat j)))) as DL. apply DL.
      - pose proof (dec_nonempty (nn_of n / 10 ^ N.of_nat j)). destruct (dec (nn_of n / 10 ^ N.of_nat j)); [congruence|simpl; lia].
      - eapply N.le_lt_trans; [exact Q|]. rewrite <- (dval_dec (nn_of n / 10 ^ N.of_nat j)) at 1. apply dval_bound, dec_digits. }
    destruct Hv as (_ & _ & Hv). destruct w; try discriminate; simpl in Hw.
    + destruct Hw as (A & _). specialize (Hv _ A). lia.
    + destruct Hw as (_ & A). eapply Loc; eauto.
Qed.
Print Assumptions C18_false_complete.
Example C18_false_complete_witness : exists m, main_meta shipped 33 = Some m /\ (forall l, ~ local_only m UNKNOWN l) /\
  TruncateTooLongNumber shipped (num 33 12345678) = Ret (false, num 33 12345678).
Proof.
  eexists. split; [vm_compute; reflexivity|]. split; [|vm_compute; reflexivity]. intros l H. apply local_list_iff in H. exact H.
Qed.

(** C19 *)
Theorem C19_valid_iff_region : forall C n, wf_container C -> (IsValidNumber C n = Ret true <->
  exists r, GetRegionCodeForNumber C n = Ret r /\ r <> [] /\ IsValidNumberForRegion C n r = Ret true).
Proof.
  intros C n W. destruct (valid_spec C n W) as (r & b & Er & Eb & Ev). rewrite Ev. split.
  - intros H. inv H. exists r. split; auto. split; auto. intros ->. destruct (valid_for_region_spec C n [] W) as (b & Eb' & H).
    rewrite Eb in Eb'. inv Eb'. destruct (proj1 H eq_refl) as (m & t & Em & _). discriminate.
  - intros (r' & Er' & _ & Hv). rewrite Er in Er'. inv Er'. congruence.
Qed.
Print Assumptions C19_valid_iff_region.
(** C19: validity for a region means: the region has the number's calling code and the number has some type there. *)
Theorem C19_valid_for_region : forall C n r, wf_container C -> exists b, IsValidNumberForRegion C n r = Ret b /\
  (b = true <-> exists m t, getMetadataForRegionOrCallingCode C (cc_of n) r = Some m /\
     (r <> nonGeoEntity -> getCountryCodeForValidRegion C r = cc_of n) /\ has_type m (GetNationalSignificantNumber n) t).
Proof. exact valid_for_region_spec. Qed.
Print Assumptions C19_valid_for_region.
Theorem C19_type_unknown_iff_invalid : forall C n, wf_container C ->
  exists t b, GetNumberType C n = Ret t /\ IsValidNumber C n = Ret b /\ (b = false <-> t = UNKNOWN).
Proof.
  intros C n W. destruct (type_valid_spec C n W) as (t & b & Et & Eb & H & _). exists t, b. split; auto. split; auto.
  destruct b; split; try congruence; intros E.
  - exfalso. apply (proj1 H eq_refl). auto.
  - destruct (list_eq_dec Z.eq_dec [] []) as [_|]; [|congruence]. destruct t; auto; exfalso;
    match goal with H : false = true <-> ?x |- _ => assert (false = true) by (apply H; discriminate); discriminate end.
Qed.
Print Assumptions C19_type_unknown_iff_invalid.
(** C19: a reported type is one the number really has in the reported region. *)
Theorem C19_type_is_genuine : forall C n t, wf_container C -> GetNumberType C n = Ret t -> t <> UNKNOWN ->
  exists r m, GetRegionCodeForNumber C n = Ret r /\ meta_of C (cc_of n) r = Some m /\ has_type m (GetNationalSignificantNumber n) t.
Proof.
  intros C n t W Et Nt. destruct (type_valid_spec C n W) as (t' & b & Et' & Eb & H & H2). rewrite Et in Et'. inv Et'.
  destruct (H2 (proj2 H Nt)) as (r & m & Er & _ & _ & Em & _ & Ht). exists r, m. auto.
Qed.
Print Assumptions C19_type_is_genuine.
Theorem C19_shipped : forall n, exists t b, GetNumberType shipped n = Ret t /\ IsValidNumber shipped n = Ret b /\ (b = false <-> t = UNKNOWN).
Proof. intros. apply C19_type_unknown_iff_invalid, shipped_wf. Qed.
Print Assumptions C19_shipped.
Example C19_witness : IsValidNumber shipped us = Ret true /\ GetNumberType shipped us = Ret FIXED_LINE_OR_MOBILE
  /\ GetRegionCodeForNumber shipped us = Ret (bs "US") /\ GetNumberType shipped (num 1 253000) = Ret UNKNOWN
  /\ IsValidNumber shipped (num 800 12345678) = Ret true.
Proof. vm_compute. auto. Qed.

(** C20 *)
Theorem C20_valid_is_possible : forall C n, wf_container C -> lengths_nested C -> IsValidNumber C n = Ret true -> IsPossibleNumber C n = Ret true.
Proof. exact valid_possible. Qed.
Print Assumptions C20_valid_is_possible.
Theorem C20_shipped : forall n, IsValidNumber shipped n = Ret true -> IsPossibleNumber shipped n = Ret true.
Proof. intros n. apply valid_possible; [apply shipped_wf|apply shipped_lengths_nested]. Qed.
Print Assumptions C20_shipped.
(** C20, second half: false as stated. A valid VOIP number of Antigua is not a possible VOIP number, because possible lengths are
    looked up in the main region of +1, which has no VOIP numbers. *)
Theorem C20_type_refuted : exists n t, IsValidNumber shipped n = Ret true /\ GetNumberType shipped n = Ret t /\
  IsPossibleNumberForType shipped n t = Ret false.
Proof. exists (num 1 2684801234), VOIP. vm_compute. auto. Qed.
Print Assumptions C20_type_refuted.
(** C20: these are all the exceptions. *)
Definition type_exceptions : list (bytes * ptype) :=
  [ (bs "AG", VOIP); (bs "AG", PAGER); (bs "AI", PAGER); (bs "BB", VOIP); (bs "BB", UAN); (bs "BS", UAN);
    (bs "CA", VOIP); (bs "CA", UAN); (bs "TC", VOIP); (bs "TT", VOICEMAIL); (bs "VC", VOIP); (bs "KZ", VOIP) ].
Definition all_types : list ptype :=
  [FIXED_LINE; MOBILE; FIXED_LINE_OR_MOBILE; TOLL_FREE; PREMIUM_RATE; SHARED_COST; VOIP; PERSONAL_NUMBER; PAGER; UAN; VOICEMAIL; UNKNOWN].
Definition excepted_b (r : bytes) (t : ptype) : bool := existsb (fun x => beq r (fst x) && ptype_eqb t (snd x)) type_exceptions.
Lemma shipped_nested_types : forallb (fun t => forallb (fun x => forallb (fun r => excepted_b r t || nested_for_b shipped t (fst x) r) (snd x))
  (c_cc2region shipped)) all_types = true.
Proof. vm_cast_no_check (eq_refl true). Qed.
Theorem C20_type_shipped : forall n r t, IsValidNumber shipped n = Ret true -> GetNumberType shipped n = Ret t ->
  GetRegionCodeForNumber shipped n = Ret r -> ~ In (r, t) type_exceptions ->
  IsPossibleNumberForType shipped n t = Ret true.
Proof.
  intros n r t V T R E. apply valid_possible_for; auto using shipped_wf. intros mm Emm. cbn zeta.
  destruct (type_valid_spec shipped n shipped_wf) as (t' & b & Et & Eb & Hb & HB). rewrite V in Eb. inv Eb. rewrite T in Et. inv Et.
  destruct (HB eq_refl) as (r' & m & Er & Nr & Ir & Em & Wm & Ht). rewrite R in Er. inv Er.
  pose proof Ir as I. apply regions_of_In in I as (l & Il & Irl & _).
  pose proof shipped_nested_types as S. rewrite forallb_forall in S. specialize (S t'). cbn beta in S.
  assert (It : In t' all_types) by (destruct t'; simpl; tauto). specialize (S It). rewrite forallb_forall in S.
  specialize (S _ Il). cbn [fst snd] in S. rewrite forallb_forall in S. specialize (S _ Irl). apply orb_true_iff in S as [S|S].
  - exfalso. apply E. unfold excepted_b in S. apply existsb_exists in S as ((s & t0) & I1 & I2). cbn [fst snd] in I2.
    apply andb_true_iff in I2 as [I2 I3]. apply beq_eq in I2. subst s. replace t' with t0; auto. destruct t', t0; try discriminate; auto.
  - eapply nested_for_b_ok; eauto. eapply accepts_allowed; eauto.
Qed.
Print Assumptions C20_type_shipped.
Example C20_witness : IsValidNumber shipped us = Ret true /\ IsPossibleNumber shipped us = Ret true
  /\ IsPossibleNumberForType shipped us FIXED_LINE_OR_MOBILE = Ret true.
Proof. vm_compute. auto. Qed.

(** C21 *)
Theorem C21_region_of_code : forall C n, wf_container C -> exists r, GetRegionCodeForNumber C n = Ret r /\
  (r = [] \/ In r (GetRegionCodesForCountryCode C (cc_of n))).
Proof. intros C n W. destruct (region_for_number_spec C n W) as (r & Er & H & _). eauto. Qed.
Print Assumptions C21_region_of_code.
(** C21: with several candidate regions it is the first that claims the number; with none claiming it the answer is empty. *)
Theorem C21_first_claiming_region : forall C n, wf_container C -> (2 <= length (GetRegionCodesForCountryCode C (cc_of n)))%nat ->
  exists r, GetRegionCodeForNumber C n = Ret r /\
  ((r = [] /\ forall r', In r' (GetRegionCodesForCountryCode C (cc_of n)) -> ~ claims C (GetNationalSignificantNumber n) r') \/
   (exists pre post, GetRegionCodesForCountryCode C (cc_of n) = pre ++ r :: post /\ claims C (GetNationalSignificantNumber n) r /\
      forall r', In r' pre -> ~ claims C (GetNationalSignificantNumber n) r')).
Proof. intros C n W L. destruct (region_for_number_spec C n W) as (r & Er & _ & H & _). exists r. split; auto. Qed.
Print Assumptions C21_first_claiming_region.
(** C21: a code with a single region needs no test of the number. *)
Theorem C21_single_region : forall C n r, wf_container C -> GetRegionCodesForCountryCode C (cc_of n) = [r] -> GetRegionCodeForNumber C n = Ret r.
Proof. intros C n r W E. destruct (region_for_number_spec C n W) as (r' & Er & _ & _ & H). rewrite (H _ E) in Er. auto. Qed.
Print Assumptions C21_single_region.
Theorem C21_shipped : forall n, exists r, GetRegionCodeForNumber shipped n = Ret r /\
  (r = [] \/ In r (GetRegionCodesForCountryCode shipped (cc_of n))).
Proof. intros. apply C21_region_of_code, shipped_wf. Qed.
Print Assumptions C21_shipped.
Example C21_witness : (2 <= length (GetRegionCodesForCountryCode shipped 1))%nat /\ GetRegionCodeForNumber shipped (num 1 2684801234) = Ret (bs "AG")
  /\ GetRegionCodesForCountryCode shipped 33 = [bs "FR"].
Proof. vm_compute. split; [lia|auto]. Qed.
