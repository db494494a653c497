(** Properties C54-C58: type precedence, numbers not diallable from abroad, geographical numbers, supported types, national
    prefixes. Vocabulary in QuerySpec.v and ValidateSpec.v, proofs in QueryFacts.v. *)
From Verif Require Import Base BaseFacts Utf8 Regex RegexSpec Consts Types Normalize Validate Format MetaSpec ValidateSpec ValidateFacts MetaFacts NumberSpec NumberFacts
  QuerySpec QueryFacts FormatFacts FormatMore PropsValidate Shipped.

(** C54: the type of a number is the first one, in the order of precedence, that it has in its region; with no region it is
    UNKNOWN. *)
Theorem C54_precedence : forall C n r m, wf_container C -> GetRegionCodeForNumber C n = Ret r -> r <> [] -> meta_of C (cc_of n) r = Some m ->
  exists t, GetNumberType C n = Ret t /\ reported_type m (GetNationalSignificantNumber n) t.
Proof. exact type_reported. Qed.
Print Assumptions C54_precedence.
Theorem C54_no_region : forall C n, GetRegionCodeForNumber C n = Ret [] -> GetNumberType C n = Ret UNKNOWN.
Proof. exact type_no_region. Qed.
Print Assumptions C54_no_region.
(** C54: at most one answer meets the description. *)
Theorem C54_unique : forall m s t u, reported_type m s t -> reported_type m s u -> t = u.
Proof. exact reported_unique. Qed.
Print Assumptions C54_unique.
Theorem C54_shipped : forall n r m, GetRegionCodeForNumber shipped n = Ret r -> r <> [] -> meta_of shipped (cc_of n) r = Some m ->
  exists t, GetNumberType shipped n = Ret t /\ reported_type m (GetNationalSignificantNumber n) t.
Proof. intros n r m. exact (type_reported shipped n r m shipped_wf). Qed.
Print Assumptions C54_shipped.
Example C54_shipped_witness : GetNumberType shipped us = Ret FIXED_LINE_OR_MOBILE /\ GetRegionCodeForNumber shipped us = Ret (bs "US").
Proof. vm_compute. auto. Qed.
(** Metadata of one region in which every type overlaps: 9912 has all of them, 4412 all but premium rate and toll free, 1234
    only those of fixed and mobile lines. *)
Definition overlap_desc (p : bytes) : option desc := Some {| d_pattern := Some p; d_len := [4%Z]; d_local := []; d_example := None |}.
Definition overlap_meta : meta :=
  let all := overlap_desc (bs "\d{4}") in let high := overlap_desc (bs "[49]\d{3}") in let top := overlap_desc (bs "9\d{3}") in
  {| md_general := all; md_fixed := all; md_mobile := all; md_tollfree := top; md_premium := top; md_shared := high; md_personal := high;
     md_voip := high; md_pager := high; md_uan := high; md_emergency := None; md_voicemail := high; md_shortcode := None; md_stdrate := None;
     md_carrier := None; md_sms := None; md_noint := top; md_id := Some (bs "QQ"); md_cc := Some 999%Z; md_iprefix := None; md_pref_iprefix := None;
     md_nprefix := Some (bs "0~0"); md_extn := None; md_np_parse := None; md_np_transform := None; md_same := None; md_nf := []; md_inf := [];
     md_main := None; md_leading := None; md_mnp := None |}.
Definition overlap : container :=
  {| c_cc2region := [(999%Z, [bs "QQ"])]; c_region := [(bs "QQ", overlap_meta)]; c_nongeo := []; c_nanpa := []; c_regions := [bs "QQ"];
     c_codes := [999%Z]; c_nongeo_codes := [] |}.
Lemma overlap_wf : wf_container overlap. Proof. apply wf_container_b_ok. vm_compute. reflexivity. Qed.
Example C54_witness : wf_container overlap /\ GetNumberType overlap (num 999 9912) = Ret PREMIUM_RATE /\ GetNumberType overlap (num 999 4412) = Ret SHARED_COST
  /\ GetNumberType overlap (num 999 1234) = Ret FIXED_LINE_OR_MOBILE /\ GetRegionCodeForNumber overlap (num 999 9912) = Ret (bs "QQ")
  /\ meta_of overlap 999 (bs "QQ") = Some overlap_meta.
Proof. split; [exact overlap_wf|]. vm_compute. auto 10. Qed.

(** C55: a number cannot be dialled from abroad exactly when its region says so. *)
Theorem C55_diallable : forall C n, wf_container C -> exists b, CanBeInternationallyDialled C n = Ret b /\
  (b = false <-> exists r m, GetRegionCodeForNumber C n = Ret r /\ In r (c_regions C) /\ assocb r (c_region C) = Some m /\
     accepts (md_noint m) (GetNationalSignificantNumber n)).
Proof. exact dialled_spec. Qed.
Print Assumptions C55_diallable.
Theorem C55_shipped : forall n, exists b, CanBeInternationallyDialled shipped n = Ret b /\
  (b = false <-> exists r m, GetRegionCodeForNumber shipped n = Ret r /\ In r (c_regions shipped) /\ assocb r (c_region shipped) = Some m /\
     accepts (md_noint m) (GetNationalSignificantNumber n)).
Proof. exact (fun n => dialled_spec shipped n shipped_wf). Qed.
Print Assumptions C55_shipped.

(** C55: for a caller in another region than the main one of the number's calling code, the text for a mobile phone is empty
    unless the number is valid and diallable from abroad; then it is the number without its extension, in INTERNATIONAL or
    E.164 format. *)
Theorem C55_from_abroad : forall C n from formatted, wf_container C -> hasValidCountryCallingCode C (cc_of n) = true ->
  from <> GetRegionCodeForCountryCode C (cc_of n) ->
  exists v d, IsValidNumber C n = Ret v /\ CanBeInternationallyDialled C n = Ret d /\
    FormatNumberForMobileDialing C n from formatted =
      if v && d then Format C (set_ext n None) (if formatted then INTERNATIONAL else E164) else Ret [].
Proof.
  intros C n from fm W V N. destruct (type_valid_spec C n W) as (t & v & Et & Ev & H & _). destruct (dialled_spec C n W) as (d & Ed & _).
  exists v, d. split; [auto|]. split; [auto|]. unfold FormatNumberForMobileDialing. change (get_cc n) with (cc_of n). rewrite V. cbn [negb].
  assert (T : GetNumberType C (set_ext n None) = GetNumberType C n) by reflexivity.
  assert (D : CanBeInternationallyDialled C (set_ext n None) = CanBeInternationallyDialled C n) by reflexivity.
  rewrite T, D, Et, Ed. cbn [bind]. apply beq_neq in N. rewrite N.
  assert (E : negb (ptype_eqb t UNKNOWN) = v).
  { destruct v, t; auto; try (exfalso; apply H; auto; fail); cbn; symmetry; exfalso; assert (false = true) by (apply H; discriminate); discriminate. }
  rewrite E. destruct v, d, fm; reflexivity.
Qed.
Print Assumptions C55_from_abroad.
Example C55_witness : CanBeInternationallyDialled shipped us = Ret true /\ CanBeInternationallyDialled shipped (num 376 18001234) = Ret false
  /\ IsValidNumber shipped (num 376 18001234) = Ret true /\ FormatNumberForMobileDialing shipped (num 376 18001234) (bs "FR") true = Ret []
  /\ FormatNumberForMobileDialing shipped us (bs "FR") true = Ret (bs "+1 650-253-0000")
  /\ FormatNumberForMobileDialing shipped us (bs "FR") false = Ret (bs "+16502530000").
Proof. vm_compute. auto 10. Qed.

(** C56: a number is geographical exactly when it is a fixed-line number, possibly a mobile one, or a mobile number of one of
    five calling codes. *)
Theorem C56_geographical : forall C n, wf_container C -> go_phone n -> exists t g, GetNumberType C n = Ret t /\
  IsNumberGeographical C n = Ret g /\ (g = true <-> geographical (cc_of n) t).
Proof.
  intros C n W (_ & R & _). destruct (type_total C n W) as (t & Et). exists t, (IsNumberGeographicalForType t (cc_of n)). split; [auto|].
  split; [|apply geographical_spec; auto]. unfold IsNumberGeographical. rewrite Et. reflexivity.
Qed.
Print Assumptions C56_geographical.
(** C56: a number with an area code is valid and geographical, and the area code is its national destination code. *)
Theorem C56_area_code : forall C n k, wf_container C -> GetLengthOfGeographicalAreaCode C n = Ret k -> k <> 0%nat ->
  IsNumberGeographical C n = Ret true /\ IsValidNumber C n = Ret true /\ GetLengthOfNationalDestinationCode C n = Ret k.
Proof.
  intros C n k W E K. unfold GetLengthOfGeographicalAreaCode in E. destruct (region_total C n W) as (r & Er). rewrite Er in E. cbn [bind] in E.
  destruct (getMetadataForRegion C r) as [m|]; [|inv E; congruence].
  destruct (type_valid_spec C n W) as (t & v & Et & Ev & H & _). rewrite Et in E. cbn [bind] in E.
  match type of E with (if ?b then _ else _) = _ => destruct b; [inv E; congruence|] end.
  match type of E with (if ?b then _ else _) = _ => destruct b; [inv E; congruence|] end.
  destruct (geo_total C n W) as (g & Eg). rewrite Eg in E. cbn [bind] in E. destruct g; [|inv E; congruence]. cbn [negb] in E.
  split; [auto|]. split; [|auto]. unfold IsNumberGeographical in Eg. rewrite Et in Eg. cbn [bind] in Eg. rewrite Ev. f_equal. apply H. intros ->.
  unfold IsNumberGeographicalForType in Eg. cbn [ptype_eqb orb] in Eg. rewrite andb_false_r in Eg. discriminate.
Qed.
Print Assumptions C56_area_code.
(** C56: no area code where there is neither a national prefix nor a kept leading zero, Mexico excepted, and none for Chinese
    mobile numbers. *)
Theorem C56_no_area_code : forall C n r m t, wf_container C -> GetRegionCodeForNumber C n = Ret r -> r <> nonGeoEntity -> r <> [] ->
  meta_of C (cc_of n) r = Some m -> GetNumberType C n = Ret t ->
  (get_bytes (md_nprefix m) = [] /\ p_ilz n <> Some true /\ cc_of n <> 52%Z) \/ (t = MOBILE /\ cc_of n = 86%Z) ->
  GetLengthOfGeographicalAreaCode C n = Ret 0%nat.
Proof.
  intros C n r m t W Er Ng Nr Em Et H. unfold GetLengthOfGeographicalAreaCode. rewrite Er. cbn [bind].
  destruct (found_region_meta C n r W Er Nr) as (m' & E1 & E2 & Wm & _). rewrite Em in E2. inv E2.
  unfold getMetadataForRegionOrCallingCode in E1. assert (B : beq nonGeoEntity r = false) by (apply beq_neq; congruence). rewrite B in E1.
  rewrite E1, Et. cbn [bind]. change (get_cc n) with (cc_of n). destruct H as [(H1 & H2 & H3)|(-> & H2)].
  - rewrite H1. assert (get_ilz n = false) as -> by (unfold get_ilz, get_bool; destruct (p_ilz n) as [[|]|]; congruence).
    unfold countriesWithoutNationalPrefixWithAreaCodes, memz. cbn [existsb is_empty negb andb].
    apply Z.eqb_neq in H3. rewrite H3. reflexivity.
  - rewrite H2. destruct (is_empty (get_bytes (md_nprefix m')) && negb (get_ilz n) && negb (memz 86 countriesWithoutNationalPrefixWithAreaCodes)); reflexivity.
Qed.
Print Assumptions C56_no_area_code.
Example C56_witness : IsNumberGeographical shipped (num 44 2087654321) = Ret true /\ IsNumberGeographical shipped (num 44 7912345678) = Ret false
  /\ IsNumberGeographical shipped (num 54 91187654321) = Ret true /\ GetLengthOfGeographicalAreaCode shipped (num 44 2087654321) = Ret 2%nat
  /\ GetLengthOfGeographicalAreaCode shipped (num 86 13812345678) = Ret 0%nat /\ GetNumberType shipped (num 86 13812345678) = Ret MOBILE
  /\ GetLengthOfGeographicalAreaCode shipped (num 65 61234567) = Ret 0%nat /\ GetNumberType shipped (num 65 61234567) = Ret FIXED_LINE.
Proof. vm_compute. auto 10. Qed.

(** C57: the supported types of a region, or of a non-geographical entity, are exactly those it has information on; the two
    pseudo-types are never among them, and unknown regions and entities have none. *)
Theorem C57_region : forall C r t, wf_container C -> In t (GetSupportedTypesForRegion C r) <->
  t <> UNKNOWN /\ exists m d, In r (c_regions C) /\ assocb r (c_region C) = Some m /\ desc_for m t = Some d /\ informs d.
Proof.
  intros C r t W. unfold GetSupportedTypesForRegion, getMetadataForRegion. destruct (isValidRegionCode C r) eqn:V.
  - apply valid_region_iff in V as [Nr Ir]. destruct (wf_supported _ W _ Ir) as (_ & _ & m & Em). rewrite Em.
    rewrite supported_spec by (eapply (wf_region _ W), assocb_In; eauto). split.
    + intros (Nt & d & Ed & Hd). split; [auto|]. exists m, d. auto.
    + intros (Nt & m' & d & _ & Em' & Ed & Hd). inv Em'. eauto.
  - split; [intros []|]. intros (_ & m & d & Ir & _). destruct (wf_supported _ W _ Ir) as (Nr & _).
    rewrite (proj2 (valid_region_iff C r) (conj Nr Ir)) in V. discriminate.
Qed.
Print Assumptions C57_region.
Theorem C57_entity : forall C cc t, wf_container C -> In t (GetSupportedTypesForNonGeoEntity C cc) <->
  t <> UNKNOWN /\ exists m d, hasValidCountryCallingCode C cc = true /\ assocz cc (c_nongeo C) = Some m /\ desc_for m t = Some d /\ informs d.
Proof.
  intros C cc t W. unfold GetSupportedTypesForNonGeoEntity, getMetadataForNonGeographicalRegion. destruct (hasValidCountryCallingCode C cc) eqn:V.
  - destruct (assocz cc (c_nongeo C)) as [m|] eqn:Em.
    + rewrite supported_spec by (eapply (wf_nongeo _ W), assocz_In; eauto). split.
      * intros (Nt & d & Ed & Hd). split; [auto|]. exists m, d. auto.
      * intros (Nt & m' & d & _ & Em' & Ed & Hd). inv Em'. eauto.
    + split; [intros []|]. intros (_ & m & d & _ & E & _). discriminate.
  - split; [intros []|]. intros (_ & m & d & E & _). discriminate.
Qed.
Print Assumptions C57_entity.
Theorem C57_no_pseudo_types : forall C r cc, ~ In UNKNOWN (GetSupportedTypesForRegion C r) /\ ~ In FIXED_LINE_OR_MOBILE (GetSupportedTypesForRegion C r)
  /\ ~ In UNKNOWN (GetSupportedTypesForNonGeoEntity C cc) /\ ~ In FIXED_LINE_OR_MOBILE (GetSupportedTypesForNonGeoEntity C cc).
Proof.
  assert (A : forall m t, t = UNKNOWN \/ t = FIXED_LINE_OR_MOBILE -> ~ In t (getSupportedTypesForMetadata m)).
  { intros m t H I. unfold getSupportedTypesForMetadata in I. apply filter_In in I as [_ I]. destruct H as [-> | ->]; discriminate. }
  intros C r cc. unfold GetSupportedTypesForRegion, GetSupportedTypesForNonGeoEntity.
  destruct (isValidRegionCode C r), (getMetadataForNonGeographicalRegion C cc); (split; [|split; [|split]]); auto.
Qed.
Print Assumptions C57_no_pseudo_types.
(** C57: the type reported for a number is supported where the number belongs; for FIXED_LINE_OR_MOBILE, fixed line is. *)
Theorem C57_reported_type_supported : forall C n t r, wf_container C -> GetNumberType C n = Ret t -> t <> UNKNOWN -> GetRegionCodeForNumber C n = Ret r ->
  let u := if ptype_eqb t FIXED_LINE_OR_MOBILE then FIXED_LINE else t in
  if beq r nonGeoEntity then In u (GetSupportedTypesForNonGeoEntity C (cc_of n)) else In u (GetSupportedTypesForRegion C r).
Proof.
  intros C n t r W Et Nt Er u. destruct (type_valid_spec C n W) as (t' & b & Et' & Eb & H & H2). rewrite Et in Et'. inv Et'.
  destruct (H2 (proj2 H Nt)) as (r' & m & Er' & Nr & Ir & Em & Wm & Ht). rewrite Er in Er'. inv Er'.
  assert (Hd : u <> UNKNOWN /\ exists d, desc_for m u = Some d /\ informs d).
  { destruct Ht as [_ Ht]. subst u. destruct t'; cbn [ptype_eqb]; (split; [discriminate || congruence|]); try congruence;
      repeat match goal with H : _ /\ _ |- _ => destruct H end;
      match goal with H : accepts ?d _ |- _ => let x := fresh in let E := fresh in
        pose proof H as (x & E & _); cbn [desc_for] in *; exists x; split; [exact E|]; rewrite E in H; eapply accepts_informs; exact H end. }
  destruct Hd as (Nu & d & Ed & Hd). unfold meta_of in Em. destruct (beq r' nonGeoEntity) eqn:B.
  - apply C57_entity; auto. split; [auto|]. exists m, d. split; [eapply regions_valid; eauto|auto].
  - apply C57_region; auto. split; [auto|]. exists m, d. split; [|auto].
    apply regions_of_In in Ir as (l & Il & Irl & _). destruct (wf_cc _ W _ _ Il) as (_ & _ & _ & _ & Hr). specialize (Hr _ Irl). unfold region_ok in Hr.
    rewrite B in Hr. destruct Hr as [Hr _]. exact Hr.
Qed.
Print Assumptions C57_reported_type_supported.
Theorem C57_shipped : forall r t, In t (GetSupportedTypesForRegion shipped r) <->
  t <> UNKNOWN /\ exists m d, In r (c_regions shipped) /\ assocb r (c_region shipped) = Some m /\ desc_for m t = Some d /\ informs d.
Proof. exact (fun r t => C57_region shipped r t shipped_wf). Qed.
Print Assumptions C57_shipped.
Example C57_witness : GetSupportedTypesForRegion shipped (bs "GB") = [FIXED_LINE; MOBILE; TOLL_FREE; PREMIUM_RATE; VOIP; PERSONAL_NUMBER; PAGER; UAN]
  /\ GetSupportedTypesForNonGeoEntity shipped 979 = [PREMIUM_RATE] /\ GetSupportedTypesForRegion shipped (bs "XX") = [].
Proof. vm_compute. auto. Qed.

(** C58: the national dialling prefix of a region is the one of its metadata; with the flag set, exactly the characters other
    than the tilde that marks the wait for a dial tone, in order. *)
Theorem C58_national_prefix : forall C r m, wf_container C -> In r (c_regions C) -> assocb r (c_region C) = Some m ->
  GetNddPrefixForRegion C r false = get_bytes (md_nprefix m) /\
  GetNddPrefixForRegion C r true = filter (fun c => negb (c =? 126)) (get_bytes (md_nprefix m)).
Proof.
  intros C r m W I E. destruct (wf_supported _ W _ I) as (Nr & _). unfold GetNddPrefixForRegion, getMetadataForRegion.
  rewrite (proj2 (valid_region_iff C r) (conj Nr I)), E. split; [reflexivity|].
  unfold remove_byte. reflexivity.
Qed.
Print Assumptions C58_national_prefix.
Theorem C58_unknown_region : forall C r b, ~ In r (c_regions C) -> GetNddPrefixForRegion C r b = [].
Proof.
  intros C r b H. unfold GetNddPrefixForRegion, getMetadataForRegion. destruct (isValidRegionCode C r) eqn:V; [|reflexivity].
  apply valid_region_iff in V as [_ V]. contradiction.
Qed.
Print Assumptions C58_unknown_region.
Lemma shipped_prefixes : forallb (fun e => forallb is_digit (GetNddPrefixForRegion shipped (fst e) true)) (c_region shipped) = true.
Proof. vm_cast_no_check (eq_refl true). Qed.
(** C58: with the shipped metadata the stripped prefix consists of digits, for every region code whatsoever. *)
Theorem C58_shipped_digits : forall r, all_digits (GetNddPrefixForRegion shipped r true) = true.
Proof.
  intros r. destruct (getMetadataForRegion shipped r) as [m|] eqn:E.
  - assert (I : exists m', In (r, m') (c_region shipped)).
    { unfold getMetadataForRegion in E. destruct (isValidRegionCode shipped r); [|discriminate]. exists m. apply assocb_In; auto. }
    destruct I as (m' & I). pose proof shipped_prefixes as H. rewrite forallb_forall in H. exact (H _ I).
  - unfold GetNddPrefixForRegion. rewrite E. reflexivity.
Qed.
Print Assumptions C58_shipped_digits.
Example C58_witness : GetNddPrefixForRegion shipped (bs "GB") true = bs "0" /\ GetNddPrefixForRegion shipped (bs "HU") false = bs "06"
  /\ GetNddPrefixForRegion overlap (bs "QQ") false = bs "0~0" /\ GetNddPrefixForRegion overlap (bs "QQ") true = bs "00".
Proof. vm_compute. auto. Qed.
