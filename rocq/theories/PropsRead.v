(** C62-C65: what the text of a number means. *)
From Verif Require Import Base BaseFacts Utf8 Utf8Facts Regex RegexSpec RegexFacts LangFacts Consts Types Normalize NormalizeSpec NormalizeFacts Validate Format Parse
  NumberSpec NumberFacts MetaSpec ValidateSpec ValidateFacts Container Shipped MetaFacts FormatSpec TextFacts FormatFacts FormatMore ParseSpec ParseFacts ParseMore ContextFacts
  RoundSpec DerivFacts RoundTripFacts PropsValidate RuleSpec RuleFacts RuleMore ReadSpec ReadFacts ReadMore.
Local Opaque compile re_find re_replace_all.

(** C62: a text that parses without a usable default region parses to the same number whatever the default region is. The codes
    used outside any region have no national prefix (true of the shipped metadata, below). *)
Theorem C62_any_region : forall C s r r' p n, wf_container C -> parse_ok C -> plain_nongeo C -> ~ In r (c_regions C) ->
  (ParseToNumber C s r p = Ret (n, None) -> ParseToNumber C s r' p = Ret (n, None)) /\
  (ParseAndKeepRawInputToNumber C s r p = Ret (n, None) -> ParseAndKeepRawInputToNumber C s r' p = Ret (n, None)).
Proof.
  intros C s r r' p n W PO P Nr. unfold ParseToNumber, ParseAndKeepRawInputToNumber. split; intros H.
  - apply parse_found in H as (x & H & ->); auto. apply (any_region C s r r') in H; auto. pose proof (parse_runs C s r' false true W) as R. rewrite H in R. apply R.
  - apply parse_found in H as (x & H & ->); auto. apply (any_region C s r r') in H; auto. pose proof (parse_runs C s r' true true W) as R. rewrite H in R. apply R.
Qed.
Print Assumptions C62_any_region.
Lemma shipped_plain : plain_nongeo shipped.
Proof.
  assert (B : forallb (fun e => is_empty (get_bytes (md_np_parse (snd e)))) (c_nongeo shipped) = true) by (vm_cast_no_check (eq_refl true)).
  rewrite forallb_forall in B. intros cc m I. specialize (B _ I). cbn [snd] in B. destruct (get_bytes (md_np_parse m)); [reflexivity|discriminate].
Qed.
Theorem C62_shipped : forall s r n, Parse shipped s (bs "ZZ") = Ret (n, None) -> Parse shipped s r = Ret (n, None).
Proof.
  intros s r n. apply C62_any_region; [exact shipped_wf|exact shipped_parse_ok|exact shipped_plain|]. intros I. apply mem_bytes_iff in I. vm_compute in I. discriminate.
Qed.
Print Assumptions C62_shipped.
Example C62_witness : exists n, Parse shipped (bs "+44 20 7031 3000") (bs "ZZ") = Ret (n, None) /\ Parse shipped (bs "+44 20 7031 3000") (bs "US") = Ret (n, None).
Proof. eexists. split; vm_compute; reflexivity. Qed.
(** Without the plus sign the default region matters. *)
Example C62_needs_plus : exists n n', Parse shipped (bs "020 7031 3000") (bs "GB") = Ret (n, None) /\ Parse shipped (bs "020 7031 3000") (bs "IT") = Ret (n', None) /\ cc_of n <> cc_of n'.
Proof. eexists _, _. split; [vm_compute; reflexivity|]. split; [vm_compute; reflexivity|]. vm_compute. discriminate. Qed.

(** C64: what a text of digits means, given the default region; and what a plus sign and digits mean. The specification leaves
    exactly one possibility. *)
Theorem C64_digits : forall C r m d, wf_container C -> parse_ok C -> getMetadataForRegion C r = Some m -> all_digits d = true -> (2 <= length d <= 250)%nat ->
  exists o, reads C m d o /\ outcome d (ParseAndKeepRawInput C d r) o.
Proof. exact reads_digits. Qed.
Print Assumptions C64_digits.
Theorem C64_plus : forall C r d, wf_container C -> parse_ok C -> r <> nonGeoEntity -> all_digits d = true -> (3 <= length d <= 249)%nat ->
  exists o, reads_plus C (getMetadataForRegion C r) d o /\ outcome (43 :: d) (ParseAndKeepRawInput C (43 :: d) r) o.
Proof. exact reads_plus_digits. Qed.
Print Assumptions C64_plus.
Theorem C64_determined : forall C, wf_container C ->
  (forall m d o o', reads C m d o -> reads C m d o' -> o = o') /\ (forall dm d o o', reads_plus C dm d o -> reads_plus C dm d o' -> o = o').
Proof. intros C W. split; intros *; [apply reads_unique|apply reads_plus_unique]; exact W. Qed.
Print Assumptions C64_determined.
Theorem C64_shipped : forall r m d, getMetadataForRegion shipped r = Some m -> all_digits d = true -> (2 <= length d <= 250)%nat ->
  exists o, reads shipped m d o /\ outcome d (ParseAndKeepRawInput shipped d r) o.
Proof. exact (fun r m d => reads_digits shipped r m d shipped_wf shipped_parse_ok). Qed.
Print Assumptions C64_shipped.
(** All the ways of reading occur: national prefix, exit prefix, own code without plus, carrier code, two errors. *)
Example C64_witness :
  (exists n, ParseAndKeepRawInput shipped (bs "02070313000") (bs "GB") = Ret (n, None) /\ p_src n = Some FROM_DEFAULT_COUNTRY /\ GetNationalSignificantNumber n = bs "2070313000") /\
  (exists n, ParseAndKeepRawInput shipped (bs "00442070313000") (bs "FR") = Ret (n, None) /\ p_src n = Some FROM_NUMBER_WITH_IDD /\ cc_of n = 44%Z) /\
  (exists n, ParseAndKeepRawInput shipped (bs "442070313000") (bs "GB") = Ret (n, None) /\ p_src n = Some FROM_NUMBER_WITHOUT_PLUS_SIGN /\ cc_of n = 44%Z) /\
  (exists n, ParseAndKeepRawInput shipped (bs "0412131231234") (bs "BR") = Ret (n, None) /\ p_carrier n = Some (bs "41") /\ GetNationalSignificantNumber n = bs "2131231234") /\
  (exists n, ParseAndKeepRawInput shipped (bs "0044") (bs "GB") = Ret (n, Some ErrTooShortAfterIDD)) /\
  (exists n, ParseAndKeepRawInput shipped (bs "00210123456") (bs "GB") = Ret (n, Some ErrInvalidCountryCode)) /\
  (exists n, ParseAndKeepRawInput shipped (bs "+00442070313000") (bs "GB") = Ret (n, None) /\ p_src n = Some FROM_NUMBER_WITH_IDD /\ cc_of n = 44%Z).
Proof.
  assert (T : forall r (A B : phone -> Prop) n, r = Ret (n, @None err) -> A n -> B n -> exists n, r = Ret (n, None) /\ A n /\ B n) by eauto.
  split; [eapply T; vm_compute; reflexivity|]. split; [eapply T; vm_compute; reflexivity|]. split; [eapply T; vm_compute; reflexivity|]. split; [eapply T; vm_compute; reflexivity|].
  split; [eexists; vm_compute; reflexivity|]. split; [eexists; vm_compute; reflexivity|]. eapply T; vm_compute; reflexivity.
Qed.

Lemma same_value n n' : p_cc n = p_cc n' -> p_nn n = p_nn n' -> p_ilz n = p_ilz n' -> p_nlz n = p_nlz n' -> cc_of n = cc_of n' /\ GetNationalSignificantNumber n = GetNationalSignificantNumber n'.
Proof. intros A B D E. unfold cc_of, GetNationalSignificantNumber, get_ilz, get_nlz, get_nn. rewrite A, B, D, E. auto. Qed.
(** C63: digits that start with the region's international prefix are the same number as "+" and what follows the prefix. *)
Theorem C63_exit_prefix : forall C r m d rest n r', wf_container C -> parse_ok C -> getMetadataForRegion C r = Some m -> all_digits d = true -> (2 <= length d <= 250)%nat ->
  dials_abroad m d rest -> Parse C d r = Ret (n, None) -> r' <> nonGeoEntity -> (length rest <= 249)%nat ->
  exists n', Parse C (43 :: rest) r' = Ret (n', None) /\ cc_of n' = cc_of n /\ GetNationalSignificantNumber n' = GetNationalSignificantNumber n.
Proof.
  intros C r m d rest n r' W PO Em D L DA H Ng Lr. destruct (reads_digits C r m d W PO Em D L) as (o & R & O).
  assert (Dr : all_digits rest = true).
  { destruct DA as (x & g & _ & _ & _ & -> & _). unfold all_digits in *. rewrite forallb_forall in *. intros c I. apply D. rewrite <- (firstn_skipn (m_end g) d). apply in_or_app. auto. }
  destruct (parse_agree C d r W) as [(e & n1 & n2 & H1 & _)|(n1 & n2 & H1 & H2 & Q)]; [congruence|]. rewrite H in H1. inv H1.
  destruct o as [src cc nsn car|e]; cbn [outcome] in O; [|destruct O; congruence]. destruct O as (n3 & H3 & Ecc & Ens & _). rewrite H2 in H3. inv H3.
  destruct R as [(rest' & DA' & R)|(ND & _)]; [|elim (ND _ DA)]. rewrite <- (dials_unique _ _ _ _ DA DA') in R. clear DA'.
  destruct R as [[(_ & X)|(L2 & cc' & t & mm & Fr & Me & F)]|(_ & X)]; [discriminate| |discriminate].
  assert (Ecc' : cc' = cc_of n3 /\ finished mm t FROM_NUMBER_WITH_PLUS_SIGN cc' (Means FROM_NUMBER_WITH_PLUS_SIGN cc' (GetNationalSignificantNumber n3) car)).
  { destruct F as [(_ & X)|(Lt & a & b & Nn & X)]; [discriminate|]. split.
    - destruct (length a <? 2)%nat; [discriminate|]. destruct (17 <? length a)%nat; [discriminate|]. congruence.
    - right. split; [exact Lt|]. exists a, b. split; [exact Nn|]. destruct (length a <? 2)%nat; [discriminate|]. destruct (17 <? length a)%nat; [discriminate|]. congruence. }
  destruct Ecc' as [-> F'].
  destruct (reads_plus_digits C r' rest W PO Ng Dr ltac:(lia)) as (o & R & O).
  rewrite (reads_plus_unique C (getMetadataForRegion C r') rest o _ W R (or_introl (or_intror (conj L2 (ex_intro _ _ (ex_intro _ _ (ex_intro _ _ (conj Fr (conj Me F'))))))))) in O.
  cbn [outcome] in O. destruct O as (n' & Hn' & E1 & E2 & _).
  destruct (parse_agree C (43 :: rest) r' W) as [(e & n4 & n5 & H4 & H5)|(n4 & n5 & H4 & H5 & Q')]; [congruence|]. rewrite Hn' in H5. inv H5.
  exists n4. split; [exact H4|]. destruct Q as (Q1 & Q2 & _ & Q3 & Q4 & _), Q' as (Q1' & Q2' & _ & Q3' & Q4' & _).
  destruct (same_value _ _ Q1 Q2 Q3 Q4) as [-> ->]. destruct (same_value _ _ Q1' Q2' Q3' Q4') as [-> ->]. auto.
Qed.
Print Assumptions C63_exit_prefix.
Example C63_witness : exists m, getMetadataForRegion shipped (bs "FR") = Some m /\ dials_abroad m (bs "00442070313000") (bs "442070313000") /\ exists n n', Parse shipped (bs "00442070313000") (bs "FR") = Ret (n, None) /\ Parse shipped (bs "+442070313000") (bs "US") = Ret (n', None) /\ cc_of n' = cc_of n /\ cc_of n = 44%Z.
Proof.
  destruct (getMetadataForRegion shipped (bs "FR")) as [m|] eqn:Em; [|vm_compute in Em; discriminate]. exists m. split; [reflexivity|]. vm_compute in Em. inv Em. split.
  - unfold dials_abroad. eexists _, _. split; [vm_compute; reflexivity|]. split; [vm_compute; reflexivity|]. split; [reflexivity|]. split; [vm_compute; reflexivity|]. vm_compute. discriminate.
  - eexists _, _. split; [vm_compute; reflexivity|]. split; [vm_compute; reflexivity|]. split; vm_compute; reflexivity.
Qed.

(** C65: separators between the digits make no difference. The text starts with a plus sign or a digit, ends with a digit and has at
    least three digits (one or two digits with a separator are not taken for a number at all, see below). *)
Theorem C65_separators : forall C p x d r, wf_container C -> p = [] /\ starts_digit (x ++ d) \/ p = [43] -> spaced (x ++ d) -> all_digits d = true -> d <> [] ->
  (3 <= length (only_digits (x ++ d)))%nat -> (length (p ++ x ++ d) <= 250)%nat ->
  (forall n, Parse C (p ++ x ++ d) r = Ret (n, None) <-> Parse C (p ++ only_digits (x ++ d)) r = Ret (n, None)) /\
  (forall e, (exists n, Parse C (p ++ x ++ d) r = Ret (n, Some e)) <-> (exists n, Parse C (p ++ only_digits (x ++ d)) r = Ret (n, Some e))).
Proof.
  intros C p x d r W Hp S D Ne L3 L. pose proof (spaced_core C p x d r Hp S D Ne L3 L) as E. pose proof (parse_runs C (p ++ x ++ d) r false true W) as R1. pose proof (parse_runs C (p ++ only_digits (x ++ d)) r false true W) as R2.
  rewrite E in R1. unfold Parse, ParseToNumber. destruct (parse_core C (p ++ only_digits (x ++ d)) r true) as [v|e|]; [| |destruct R1].
  - rewrite R1, R2. split; [intros n; change (store false (p ++ x ++ d) v phone0) with (store false (p ++ only_digits (x ++ d)) v phone0); tauto|]. intros e. split; intros (n & H); discriminate.
  - destruct (R1 phone0) as (n1 & E1), (R2 phone0) as (n2 & E2). rewrite E1, E2. split; [intros n; split; intros H; discriminate|]. intros e'. split; intros (n & H); injection H as _ <-; eauto.
Qed.
Print Assumptions C65_separators.
Example C65_witness : let x := bs "(020) 7031 - 30" in spaced (48 :: x ++ bs "00") /\ only_digits (48 :: x ++ bs "00") = bs "002070313000".
Proof.
  cbv zeta. split; [|vm_compute; reflexivity]. intros c I. rewrite runes_ascii in I by (repeat constructor). cbn in I. unfold separators. cbn [In].
  decompose [or] I; subst; try contradiction; try (left; split; discriminate || reflexivity); right; tauto.
Qed.
(** Three digits are needed: "12" is a number to the parser, "1 2" is not. *)
Theorem C65_two_digits_refuted : exists n n', Parse shipped (bs "12") (bs "US") = Ret (n, None) /\ Parse shipped (bs "1 2") (bs "US") = Ret (n', Some ErrNotANumber).
Proof. eexists _, _. split; vm_compute; reflexivity. Qed.
Print Assumptions C65_two_digits_refuted.
