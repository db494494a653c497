(** Property C46: no query function panics on the shipped metadata. [total m] means that the computation m returns a value: in
    the model every slice, array index, nil dereference and pattern compilation of the code is an explicit possible panic. *)
From Verif Require Import Base BaseFacts Utf8 Regex Consts Types Normalize Validate Format Parse Container Shipped NumberSpec NumberFacts MetaSpec MetaFacts ValidateSpec ValidateFacts FormatFacts FormatMore ParseSpec ParseFacts ParseMore
  ShortNumber ShortSpec ShortFacts ShippedShort ShortMeta.

Lemma helper_total C s r k ck p : wf_container C -> total (parseHelper C s r k ck p).
Proof.
  intros W. pose proof (parse_runs C s r k ck W) as H. destruct (parse_core C s r ck) as [x|e|]; [|destruct (H p) as (p' & ->)|destruct H]; [rewrite H|]; apply total_ret.
Qed.
Lemma parse_total C s r : wf_container C -> total (Parse C s r).
Proof. intros W. apply helper_total. auto. Qed.
Lemma valid_total' C n : wf_container C -> total (IsValidNumber C n).
Proof. apply valid_total. Qed.
Lemma one_number_total C a s : wf_container C -> total (IsNumberMatchWithOneNumber C a s).
Proof.
  intros W. apply total_bind; [apply parse_total; auto|]. intros [b [e|]] _; [|apply total_ret]. destruct e; try apply total_ret. cbv zeta. destruct (negb _).
  - apply total_bind; [apply parse_total; auto|]. intros [b' [e'|]] _; apply total_ret.
  - apply total_bind; [apply helper_total; auto|]. intros [b' [e'|]] _; apply total_ret.
Qed.
Lemma match_total C a b : wf_container C -> total (IsNumberMatch C a b).
Proof.
  intros W. apply total_bind; [apply parse_total; auto|]. intros [x [e|]] _; [|apply one_number_total; auto]. destruct e; try apply total_ret.
  apply total_bind; [apply parse_total; auto|]. intros [y [e|]] _; [|apply one_number_total; auto]. destruct e; try apply total_ret.
  apply total_bind; [apply helper_total; auto|]. intros [x' [e'|]] _; [apply total_ret|]. apply total_bind; [apply helper_total; auto|]. intros [y' [e'|]] _; apply total_ret.
Qed.
Lemma international_nonempty C n s : wf_container C -> Format C n INTERNATIONAL = Ret s -> s <> [].
Proof.
  intros W. unfold Format. destruct (get_nn n =? 0); cbn [andb].
  - destruct (get_raw n) as [|c raw] eqn:R; cbn [is_empty negb]; [|intros H; injection H as <-; discriminate]. unfold formatWithBuf. cbn [pformat_eqb]. destruct (negb _); [intros H; injection H as <-; apply nsn_nonempty|].
    destruct (formatNsn _ _ _) as [t| |]; cbn [bind]; intros H; try discriminate H. injection H as <-. discriminate.
  - unfold formatWithBuf. cbn [pformat_eqb]. destruct (negb _); [intros H; injection H as <-; apply nsn_nonempty|].
    destruct (formatNsn _ _ _) as [t| |]; cbn [bind]; intros H; try discriminate H. injection H as <-. discriminate.
Qed.
Lemma raw_prefix_total C raw np region : wf_container C -> total (rawInputContainsNationalPrefix C raw np region).
Proof.
  intros W. unfold rawInputContainsNationalPrefix. destruct (has_prefix _ _); [|apply total_ret]. apply total_bind; [apply parse_total; auto|]. intros [n [e|]] _; [apply total_ret|apply valid_total'; auto].
Qed.
Lemma original_national_total C n : wf_container C -> total (original_national C n).
Proof.
  intros W. unfold original_national. cbv zeta. apply total_bind; [apply format_total; auto|]. intros s _. destruct (is_empty _); [apply total_ret|]. apply total_bind; [apply raw_prefix_total; auto|]. intros c _. destruct c; [apply total_ret|].
  assert (F : Forall wf_format (mget [] md_nf (getMetadataForRegion C (GetRegionCodeForCountryCode C (get_cc n))))).
  { destruct (getMetadataForRegion C _) as [m|] eqn:E; [|constructor]. apply (wf_formats _ (region_meta_wf _ _ _ W E)). }
  destruct (choose_total _ (GetNationalSignificantNumber n) F) as (r & Er & I). rewrite Er. cbn [bind]. destruct r as [f|]; [|apply total_ret].
  destruct (index_of (get_npfr f) (bs "$1")) as [[|i]|]; [apply total_ret| |apply total_ret]. destruct (is_empty _); [apply total_ret|]. apply by_pattern_total; auto. constructor; [|constructor].
  rewrite Forall_forall in F. exact (F _ (I f eq_refl)).
Qed.
Lemma original_total C n from : wf_container C -> total (FormatInOriginalFormat C n from).
Proof.
  intros W. unfold FormatInOriginalFormat. cbv zeta. apply total_bind; [destruct (is_empty _); [apply total_ret|apply has_pattern_total; auto]|]. intros h _. destruct (negb h); [apply total_ret|].
  destruct (get_src n); try (apply format_total; auto); (apply total_bind; [|intros; apply total_if; apply total_ret]); [apply format_total; auto|apply out_of_country_total; auto| |apply original_national_total; auto].
  apply total_bind; [apply format_total; auto|]. intros s H. apply international_nonempty in H; auto. unfold slice_from. destruct s; [congruence|]. rewrite slice_ret; [apply total_ret|unfold len; simpl; lia|unfold len; lia].
Qed.
Lemma example_total C r t : wf_container C -> total (GetExampleNumberForTypeInRegion C r t).
Proof.
  intros W. unfold GetExampleNumberForTypeInRegion. destruct (negb _); [apply total_ret|]. cbv zeta. destruct (is_empty _); [apply total_ret|]. apply total_bind; [apply parse_total; auto|]. intros [n [e|]] _; apply total_ret.
Qed.
Lemma invalid_loop_total C ex r l : wf_container C -> total (invalid_example_loop C ex r l).
Proof.
  intros W. induction l as [|l IH]; cbn [invalid_example_loop].
  - apply total_if; [apply total_ret|]. apply total_bind; [apply parse_total; auto|]. intros [n [e|]] _; [apply total_ret|]. apply total_bind; [apply valid_total'; auto|]. intros v _. destruct v; apply total_ret.
  - apply total_if; [apply total_ret|]. apply total_bind; [apply parse_total; auto|]. intros [n [e|]] _; [exact IH|]. apply total_bind; [apply valid_total'; auto|]. intros v _. destruct v; [exact IH|apply total_ret].
Qed.
Lemma nongeo_example_total C cc : wf_container C -> total (GetExampleNumberForNonGeoEntity C cc).
Proof.
  intros W. unfold GetExampleNumberForNonGeoEntity. destruct (getMetadataForNonGeographicalRegion C cc); [|apply total_ret]. destruct (filter _ _); [apply total_ret|]. apply total_bind; [apply parse_total; auto|]. intros [n [e|]] _; apply total_ret.
Qed.
Lemma carrier_total C SC n : wf_short SC -> total (IsCarrierSpecific C SC n).
Proof.
  intros W. unfold IsCarrierSpecific, getShortNumberMetadataForRegion. apply total_bind.
  - unfold getRegionCodeForShortNumberFromRegionList. destruct (GetRegionCodesForCountryCode C (get_cc n)) as [|r [|r2 l]]; try apply total_ret. destruct (first_short_spec SC (GetNationalSignificantNumber n) (r :: r2 :: l) W (nsn_ascii n)) as (x & E & _). rewrite E. apply total_ret.
  - intros r _. destruct (assocb r SC) as [m|] eqn:A; [|apply total_ret].
    destruct (matches_total (GetNationalSignificantNumber n) (md_carrier m) (desc_clear m (md_carrier m) (short_meta _ _ _ W A) ltac:(simpl; tauto)) (nsn_ascii n)) as (b & E & _). rewrite E. apply total_ret.
Qed.
Lemma carrier_region_total C SC n r : wf_short SC -> total (IsCarrierSpecificForRegion C SC n r) /\ total (IsSmsServiceForRegion C SC n r).
Proof.
  intros W. unfold IsCarrierSpecificForRegion, IsSmsServiceForRegion, getShortNumberMetadataForRegion. destruct (negb _); [split; apply total_ret|]. destruct (assocb r SC) as [m|] eqn:A; [|split; apply total_ret].
  destruct (matches_total (GetNationalSignificantNumber n) (md_carrier m) (desc_clear m (md_carrier m) (short_meta _ _ _ W A) ltac:(simpl; tauto)) (nsn_ascii n)) as (b & E & _). rewrite E.
  destruct (matches_total (GetNationalSignificantNumber n) (md_sms m) (desc_clear m (md_sms m) (short_meta _ _ _ W A) ltac:(simpl; tauto)) (nsn_ascii n)) as (b' & E' & _). rewrite E'. split; apply total_ret.
Qed.
Lemma valid_short_total C SC n : wf_short SC -> total (IsValidShortNumber C SC n).
Proof.
  intros W. unfold IsValidShortNumber. cbv zeta. apply total_bind.
  - unfold getRegionCodeForShortNumberFromRegionList. destruct (GetRegionCodesForCountryCode C (get_cc n)) as [|r [|r2 l]]; try apply total_ret. destruct (first_short_spec SC (GetNationalSignificantNumber n) (r :: r2 :: l) W (nsn_ascii n)) as (x & E & _). rewrite E. apply total_ret.
  - intros r _. apply total_if; [apply total_ret|]. destruct (valid_region_total C SC n r W) as (b & E & _). rewrite E. apply total_ret.
Qed.

Theorem C46_validity : forall n r t, total (IsValidNumber shipped n) /\ total (IsValidNumberForRegion shipped n r) /\ total (GetNumberType shipped n) /\ total (GetRegionCodeForNumber shipped n) /\
  total (IsPossibleNumber shipped n) /\ total (IsPossibleNumberWithReason shipped n) /\ total (IsPossibleNumberForType shipped n t) /\ total (IsPossibleNumberForTypeWithReason shipped n t) /\
  total (TruncateTooLongNumber shipped n) /\ total (CanBeInternationallyDialled shipped n) /\ total (IsNumberGeographical shipped n).
Proof.
  pose proof shipped_wf as W. intros n r t.
  assert (P : forall t, total (IsPossibleNumberForTypeWithReason shipped n t)) by (intros u; destruct (possible_type_spec shipped n u W) as (v & E & _); rewrite E; apply total_ret).
  split; [apply valid_total'; auto|]. split; [destruct (valid_for_region_spec shipped n r W) as (b & E & _); rewrite E; apply total_ret|]. split; [apply type_total; auto|]. split; [apply region_total; auto|].
  split; [unfold IsPossibleNumber; rewrite possible_spec by auto; apply total_bind; [apply P|intros; apply total_ret]|]. split; [rewrite possible_spec by auto; apply P|].
  split; [apply total_bind; [apply P|intros; apply total_ret]|]. split; [apply P|]. split; [destruct (truncate_spec shipped n W) as (b & n' & E & _); rewrite E; apply total_ret|]. split; [apply dialled_total; auto|apply geo_total; auto].
Qed.
Print Assumptions C46_validity.
Theorem C46_format : forall n nf from carrier b, total (Format shipped n nf) /\ total (FormatNationalNumberWithCarrierCode shipped n carrier) /\ total (FormatNationalNumberWithPreferredCarrierCode shipped n carrier) /\
  total (FormatNumberForMobileDialing shipped n from b) /\ total (FormatOutOfCountryCallingNumber shipped n from) /\ total (FormatOutOfCountryKeepingAlphaChars shipped n from) /\ total (FormatInOriginalFormat shipped n from) /\
  total (GetLengthOfNationalDestinationCode shipped n) /\ total (GetLengthOfGeographicalAreaCode shipped n).
Proof.
  pose proof shipped_wf as W. intros n nf from carrier b. split; [apply format_total; auto|]. split; [apply national_carrier_total; auto|]. split; [apply national_carrier_total; auto|].
  split; [apply mobile_total; [auto|apply shipped_nanpa]|]. split; [apply out_of_country_total; auto|]. split; [apply keeping_alpha_total; auto|]. split; [apply original_total; auto|]. split; [apply ndc_total; auto|apply area_total; auto].
Qed.
Print Assumptions C46_format.
(** With the caller's own patterns: they have to compile, and then nothing else can go wrong. *)
Theorem C46_format_by_pattern : forall n nf l, Forall wf_format l -> total (FormatByPattern shipped n nf l).
Proof. intros n nf l. apply by_pattern_total. apply shipped_wf. Qed.
Print Assumptions C46_format_by_pattern.
Theorem C46_parse : forall s s' r n p cc t, total (Parse shipped s r) /\ total (ParseToNumber shipped s r p) /\ total (ParseAndKeepRawInput shipped s r) /\ total (ParseAndKeepRawInputToNumber shipped s r p) /\
  total (IsPossibleNumberFromRegion shipped s r) /\ total (IsNumberMatch shipped s s') /\ total (IsNumberMatchWithOneNumber shipped n s) /\
  total (GetExampleNumber shipped r) /\ total (GetExampleNumberForTypeInRegion shipped r t) /\ total (GetInvalidExampleNumber shipped r) /\ total (GetExampleNumberForNonGeoEntity shipped cc).
Proof.
  pose proof shipped_wf as W. intros s s' r n p cc t. split; [apply parse_total; auto|]. split; [apply helper_total; auto|]. split; [apply helper_total; auto|]. split; [apply helper_total; auto|].
  split. { apply total_bind; [apply parse_total; auto|]. intros [m [e|]] _; [apply total_ret|]. apply C46_validity; exact UNKNOWN || exact []. }
  split; [apply match_total; auto|]. split; [apply one_number_total; auto|]. split; [apply example_total; auto|]. split; [apply example_total; auto|].
  split; [|apply nongeo_example_total; auto]. unfold GetInvalidExampleNumber. destruct (negb _); [apply total_ret|]. cbv zeta. destruct (is_empty _); [apply total_ret|]. apply invalid_loop_total; auto.
Qed.
Print Assumptions C46_parse.
Theorem C46_short : forall s n r, total (IsPossibleShortNumber shipped shipped_short n) /\ total (IsPossibleShortNumberForRegion shipped shipped_short n r) /\ total (IsValidShortNumber shipped shipped_short n) /\
  total (IsValidShortNumberForRegion shipped shipped_short n r) /\ total (GetExpectedCost shipped shipped_short n) /\ total (GetExpectedCostForRegion shipped shipped_short n r) /\
  total (IsEmergencyNumber shipped_short s r) /\ total (ConnectsToEmergencyNumber shipped_short s r) /\ total (IsCarrierSpecific shipped shipped_short n) /\
  total (IsCarrierSpecificForRegion shipped shipped_short n r) /\ total (IsSmsServiceForRegion shipped shipped_short n r).
Proof.
  pose proof shipped_short_wf as W. intros s n r.
  split; [unfold IsPossibleShortNumber; destruct (possible_in_spec shipped_short (GetRegionCodesForCountryCode shipped (get_cc n)) (to_int32 (Z.of_nat (len (GetNationalSignificantNumber n)))) W) as (b & E & _); rewrite E; apply total_ret|].
  split; [destruct (possible_region_spec shipped shipped_short n r W) as (b & E & _); rewrite E; apply total_ret|]. split; [apply valid_short_total; auto|].
  split; [destruct (valid_region_total shipped shipped_short n r W) as (b & E & _); rewrite E; apply total_ret|]. split; [destruct (cost_max shipped shipped_short n W) as (b & E & _); rewrite E; apply total_ret|].
  split; [apply cost_region_total; auto|]. split; [destruct (emergency_spec shipped_short s r false W) as (b & E & _); unfold IsEmergencyNumber; rewrite E; apply total_ret|].
  split; [destruct (emergency_spec shipped_short s r true W) as (b & E & _); unfold ConnectsToEmergencyNumber; rewrite E; apply total_ret|]. split; [apply carrier_total; auto|]. apply carrier_region_total; auto.
Qed.
Print Assumptions C46_short.
(** The condition on the caller's patterns is needed: an invalid expression panics, as in the code. *)
Example C46_bad_pattern : FormatByPattern shipped (set_nn (set_cc phone0 (Some 1%Z)) (Some 6502530000)) INTERNATIONAL
  [{| nf_pattern := Some (bs "("); nf_format := Some (bs "$1"); nf_leading := []; nf_npfr := None; nf_npopt := None; nf_dccfr := None |}] = Panic.
Proof. vm_compute. reflexivity. Qed.
Example C46_witness : FormatByPattern shipped (set_nn (set_cc phone0 (Some 1%Z)) (Some 6502530000)) INTERNATIONAL [] = Ret (bs "+1 6502530000").
Proof. vm_compute. reflexivity. Qed.
