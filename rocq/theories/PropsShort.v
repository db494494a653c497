(** Properties C26, C27, C28, C48: short numbers. *)
From Verif Require Import Base BaseFacts Utf8 Utf8Facts Regex Types Normalize Validate Container Shipped UnicodeSpec NormalizeSpec NumberSpec NumberFacts LangFacts MetaSpec MetaFacts
  ShortNumber ShortSpec ShortFacts ShippedShort ShortMeta.

Lemma go_short n : go_phone n -> (length (GetNationalSignificantNumber n) < 100)%nat.
Proof. intros (H & _). apply nsn_length in H. lia. Qed.

Theorem shipped_short_well_formed : wf_short shipped_short /\ short_nested shipped_short.
Proof. split; [exact shipped_short_wf|exact shipped_short_nested]. Qed.
Print Assumptions shipped_short_well_formed.

(** C26. What the two emergency queries accept: the possible number in the text has no plus sign, and its digits are (start
    with) a word of the region's emergency pattern. *)
Theorem C26_emergency_iff : forall SC s r, wf_short SC -> exists b, IsEmergencyNumber SC s r = Ret b /\
  (b = true <-> ~ has_plus (extractPossibleNumber s) /\ exists m, assocb r SC = Some m /\ get_d_pattern (md_emergency m) <> [] /\
                in_language (get_d_pattern (md_emergency m)) (digits_of (runes (extractPossibleNumber s)))).
Proof. intros SC s r W. destruct (emergency_spec SC s r false W) as (b & E & B). exists b. split; [exact E|exact B]. Qed.
Print Assumptions C26_emergency_iff.
Theorem C26_connects_iff : forall SC s r, wf_short SC -> exists b, ConnectsToEmergencyNumber SC s r = Ret b /\
  (b = true <-> ~ has_plus (extractPossibleNumber s) /\ exists m, assocb r SC = Some m /\ get_d_pattern (md_emergency m) <> [] /\
                let digits := digits_of (runes (extractPossibleNumber s)) in
                if existsb (beq r) [bs "BR"; bs "CL"; bs "NI"] then in_language (get_d_pattern (md_emergency m)) digits
                else begins_with (get_d_pattern (md_emergency m)) digits).
Proof.
  intros SC s r W. destruct (emergency_spec SC s r true W) as (b & E & B). exists b. split; [exact E|]. rewrite B. cbn [andb]. cbv zeta. change (mem_bytes r regionsWhereEmergencyNumbersMustBeExact) with (existsb (beq r) [bs "BR"; bs "CL"; bs "NI"]).
  destruct (existsb (beq r) [bs "BR"; bs "CL"; bs "NI"]); simpl negb; cbv iota; tauto.
Qed.
Print Assumptions C26_connects_iff.
Theorem C26_emergency_connects : forall SC s r, wf_short SC -> IsEmergencyNumber SC s r = Ret true -> ConnectsToEmergencyNumber SC s r = Ret true.
Proof.
  intros SC s r W H. destruct (C26_emergency_iff SC s r W) as (b & E & B). destruct (C26_connects_iff SC s r W) as (b' & E' & B'). rewrite H in E. injection E as <-. rewrite E'. f_equal. apply B'.
  destruct (proj1 B eq_refl) as (P & m & A & NE & L). split; auto. exists m. split; auto. split; auto. cbv zeta. destruct (existsb _ _); auto. eexists _, []. rewrite app_nil_r. eauto.
Qed.
Print Assumptions C26_emergency_connects.
Theorem C26_plus : forall SC s t r, wf_short SC -> s = encode_rune 43 ++ t \/ s = encode_rune 65291 ++ t ->
  IsEmergencyNumber SC s r = Ret false /\ ConnectsToEmergencyNumber SC s r = Ret false.
Proof.
  intros SC s t r W [-> | ->].
  - pose proof (decode_encode 43 t ltac:(unfold scalar; lia)) as D. split; eapply emergency_plus; eauto.
  - pose proof (decode_encode 65291 t ltac:(unfold scalar; lia)) as D. split; eapply emergency_plus; eauto.
Qed.
Print Assumptions C26_plus.
Theorem C26_shipped : forall s r, exists b b', IsEmergencyNumber shipped_short s r = Ret b /\ ConnectsToEmergencyNumber shipped_short s r = Ret b' /\ (b = true -> b' = true).
Proof.
  intros s r. destruct (C26_emergency_iff _ s r shipped_short_wf) as (b & E & _). destruct (C26_connects_iff _ s r shipped_short_wf) as (b' & E' & _). exists b, b'. split; auto. split; auto. intros ->.
  apply C26_emergency_connects in E; [|apply shipped_short_wf]. rewrite E in E'. injection E' as <-. reflexivity.
Qed.
Print Assumptions C26_shipped.
Example C26_witness : IsEmergencyNumber shipped_short (bs "9-1-1") (bs "US") = Ret true /\ ConnectsToEmergencyNumber shipped_short (bs "9116666666") (bs "US") = Ret true
  /\ IsEmergencyNumber shipped_short (bs "9116666666") (bs "US") = Ret false /\ ConnectsToEmergencyNumber shipped_short (bs "+911") (bs "US") = Ret false
  /\ ConnectsToEmergencyNumber shipped_short (bs "1903") (bs "BR") = Ret false /\ ConnectsToEmergencyNumber shipped_short (bs "190") (bs "BR") = Ret true.
Proof. vm_compute. auto 10. Qed.

(** C27 *)
Theorem C27_region : forall C SC n r, wf_short SC -> IsValidShortNumberForRegion C SC n r = Ret true -> IsPossibleShortNumberForRegion C SC n r = Ret true.
Proof. exact valid_region_possible. Qed.
Print Assumptions C27_region.
Theorem C27_any : forall C SC n, wf_short SC -> short_nested SC -> IsValidShortNumber C SC n = Ret true -> IsPossibleShortNumber C SC n = Ret true.
Proof. exact valid_possible_short. Qed.
Print Assumptions C27_any.
Theorem C27_shipped : forall n r,
  (IsValidShortNumberForRegion shipped shipped_short n r = Ret true -> IsPossibleShortNumberForRegion shipped shipped_short n r = Ret true) /\
  (IsValidShortNumber shipped shipped_short n = Ret true -> IsPossibleShortNumber shipped shipped_short n = Ret true).
Proof. intros n r. split; [apply C27_region; apply shipped_short_wf|apply C27_any; [apply shipped_short_wf|apply shipped_short_nested]]. Qed.
Print Assumptions C27_shipped.
Definition short_no cc nn : phone := set_nn (set_cc phone0 (Some cc)) (Some nn).
Example C27_witness : IsValidShortNumberForRegion shipped shipped_short (short_no 33 1010) (bs "FR") = Ret true /\ IsPossibleShortNumberForRegion shipped shipped_short (short_no 33 1010) (bs "FR") = Ret true
  /\ IsValidShortNumber shipped shipped_short (short_no 44 18001) = Ret true /\ IsPossibleShortNumber shipped shipped_short (short_no 44 18001) = Ret true
  /\ IsPossibleShortNumberForRegion shipped shipped_short (short_no 33 1234567) (bs "FR") = Ret false.
Proof. vm_compute. auto 10. Qed.

(** C48. What the possible and valid queries mean. *)
Theorem C48_possible_region : forall C SC n r, wf_short SC -> go_phone n -> exists b, IsPossibleShortNumberForRegion C SC n r = Ret b /\
  (b = true <-> In r (GetRegionCodesForCountryCode C (cc_of n)) /\ exists m g, assocb r SC = Some m /\ md_general m = Some g /\ In (Z.of_nat (length (GetNationalSignificantNumber n))) (d_len g)).
Proof. intros C SC n r W G. destruct (possible_region_spec C SC n r W) as (b & E & B). exists b. split; auto. rewrite int32_small in B by (pose proof (go_short n G); lia). exact B. Qed.
Print Assumptions C48_possible_region.
Theorem C48_possible : forall C SC n, wf_short SC -> go_phone n -> exists b, IsPossibleShortNumber C SC n = Ret b /\
  (b = true <-> exists r, In r (GetRegionCodesForCountryCode C (cc_of n)) /\ IsPossibleShortNumberForRegion C SC n r = Ret true).
Proof.
  intros C SC n W G. unfold IsPossibleShortNumber. destruct (possible_in_spec SC (GetRegionCodesForCountryCode C (get_cc n)) (to_int32 (Z.of_nat (len (GetNationalSignificantNumber n)))) W) as (b & E & B). exists b. split; auto. rewrite B. split.
  - intros (r & m & g & I & A & Gm & L). exists r. split; auto. destruct (possible_region_spec C SC n r W) as (b' & E' & B'). rewrite E'. f_equal. apply B'. split; auto. exists m, g. auto.
  - intros (r & I & H). destruct (possible_region_spec C SC n r W) as (b' & E' & B'). rewrite H in E'. injection E' as <-. destruct (proj1 B' eq_refl) as (_ & m & g & X). exists r, m, g. split; auto.
Qed.
Print Assumptions C48_possible.
Theorem C48_valid_region : forall C SC n r, wf_short SC -> go_phone n -> exists b, IsValidShortNumberForRegion C SC n r = Ret b /\
  (b = true <-> In r (GetRegionCodesForCountryCode C (cc_of n)) /\ exists m, assocb r SC = Some m /\
     short_accepts (md_general m) (GetNationalSignificantNumber n) /\ short_accepts (md_shortcode m) (GetNationalSignificantNumber n)).
Proof. intros C SC n r W G. apply (valid_region_spec C SC n r W (go_short n G)). Qed.
Print Assumptions C48_valid_region.
Theorem C48_valid : forall C SC n, wf_short SC -> go_phone n -> ~ In [] (GetRegionCodesForCountryCode C (cc_of n)) -> exists b, IsValidShortNumber C SC n = Ret b /\
  (b = true <-> exists r m, In r (GetRegionCodesForCountryCode C (cc_of n)) /\ assocb r SC = Some m /\ short_accepts (md_shortcode m) (GetNationalSignificantNumber n) /\
     (length (GetRegionCodesForCountryCode C (cc_of n)) = 1%nat -> short_accepts (md_general m) (GetNationalSignificantNumber n))).
Proof. intros C SC n W G NI. apply (valid_short_spec C SC n W NI (go_short n G)). Qed.
Print Assumptions C48_valid.
Theorem C48_carrier_sms : forall C SC n r, wf_short SC -> go_phone n ->
  (exists b, IsCarrierSpecificForRegion C SC n r = Ret b /\ (b = true <-> In r (GetRegionCodesForCountryCode C (cc_of n)) /\ exists m, assocb r SC = Some m /\ short_accepts (md_carrier m) (GetNationalSignificantNumber n))) /\
  (exists b, IsSmsServiceForRegion C SC n r = Ret b /\ (b = true <-> In r (GetRegionCodesForCountryCode C (cc_of n)) /\ exists m, assocb r SC = Some m /\ short_accepts (md_sms m) (GetNationalSignificantNumber n))).
Proof. intros C SC n r W G. apply (carrier_spec C SC n r W (go_short n G)). Qed.
Print Assumptions C48_carrier_sms.
Example C48_witness : go_phone (short_no 33 1010) /\ existsb (fun x => existsb (beq []) (snd x)) (c_cc2region shipped) = false
  /\ IsCarrierSpecificForRegion shipped shipped_short (short_no 1 33669) (bs "US") = Ret true /\ IsSmsServiceForRegion shipped shipped_short (short_no 1 21234) (bs "US") = Ret true.
Proof. split; [|vm_compute; auto]. unfold go_phone. simpl. split; [reflexivity|]. split; [split; [intros X; discriminate X|reflexivity]|exact I]. Qed.

(** C28 *)
Theorem C28_region : forall C SC n r, wf_short SC -> go_phone n -> exists c, GetExpectedCostForRegion C SC n r = Ret c /\
  (forall c', cost_in (GetRegionCodesForCountryCode C (cc_of n)) SC (GetNationalSignificantNumber n) r c' <-> c' = c).
Proof.
  intros C SC n r W G. destruct (cost_region_spec C SC n r W (go_short n G)) as (c & E & H). exists c. split; auto. intros c'. split; [intros H'; eapply cost_in_fun; eauto|intros ->; auto].
Qed.
Print Assumptions C28_region.
Theorem C28_max : forall C SC n, wf_short SC -> let l := GetRegionCodesForCountryCode C (cc_of n) in exists c, GetExpectedCost C SC n = Ret c /\
  (l = [] -> c = UNKNOWN_COST) /\ (l <> [] -> exists r, In r l /\ GetExpectedCostForRegion C SC n r = Ret c) /\
  (forall r d, In r l -> GetExpectedCostForRegion C SC n r = Ret d -> (rank d <= rank c)%nat).
Proof. exact cost_max. Qed.
Print Assumptions C28_max.
Theorem C28_order : forall C C' SC n, wf_short SC ->
  (forall r, In r (GetRegionCodesForCountryCode C (cc_of n)) <-> In r (GetRegionCodesForCountryCode C' (cc_of n))) -> GetExpectedCost C SC n = GetExpectedCost C' SC n.
Proof. exact cost_order. Qed.
Print Assumptions C28_order.
(** The North American code has many regions, in some of which 911 is not known: the answer for the code as a whole is UNKNOWN. *)
Example C28_witness : go_phone (short_no 1 911) /\ GetExpectedCostForRegion shipped shipped_short (short_no 1 911) (bs "US") = Ret TOLL_FREE_COST
  /\ GetExpectedCost shipped shipped_short (short_no 1 911) = Ret UNKNOWN_COST /\ GetExpectedCost shipped shipped_short (short_no 44 999) = Ret TOLL_FREE_COST
  /\ GetExpectedCost shipped shipped_short (short_no 33 1010) = Ret PREMIUM_RATE_COST /\ length (GetRegionCodesForCountryCode shipped 44) = 4%nat.
Proof. split; [|vm_compute; auto 10]. unfold go_phone. simpl. split; [reflexivity|]. split; [split; [intros X; discriminate X|reflexivity]|exact I]. Qed.
