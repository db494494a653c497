(** C94: what a mobile phone is told to dial means the number. *)
From Verif Require Import Base BaseFacts Utf8 Utf8Facts Regex RegexSpec RegexFacts LangFacts Consts Types Normalize NormalizeSpec NormalizeFacts Validate Format Parse
  NumberSpec NumberFacts MetaSpec ValidateSpec ValidateFacts Container Shipped MetaFacts FormatSpec TextFacts FormatFacts FormatMore ParseSpec ParseFacts ParseMore ContextFacts
  RoundSpec DerivFacts MatcherTotal RoundTripFacts PropsNumber PropsValidate PropsFormat PropsRound RuleSpec RuleFacts RuleMore PropsRule DialSpec DialFacts PropsDial ReadSpec ReadFacts ReadMore PropsRead ExtSpec ExtFacts BackFacts PropsBack NationalFacts NationalMore PropsNational.
Local Opaque compile re_find re_replace_all.

Lemma gap_silent c : gap_char c = true -> diallable c = false.
Proof. unfold gap_char. rewrite !orb_true_iff, !N.eqb_eq. intros [[[[->| ->]| ->]| ->]| ->]; reflexivity. Qed.
Lemma digits_dialled s : all_digits s = true -> filter diallable s = s.
Proof. induction s as [|c l IH]; [reflexivity|]. unfold all_digits. cbn [forallb filter]. intros H. apply andb_prop in H as [H1 H2]. rewrite digit_diallable by exact H1. rewrite IH by exact H2. reflexivity. Qed.
Lemma woven_dialled s o : all_digits s = true -> woven gap_char s o -> filter diallable o = s.
Proof. intros D H. rewrite (woven_filter _ _ _ _ H); [apply digits_dialled; exact D|exact gap_silent]. Qed.
Lemma head_dialled h : forallb head_char h = true -> filter diallable h = filter dig h.
Proof.
  induction h as [|c h IH]; [reflexivity|]. cbn [forallb filter]. intros H. apply andb_prop in H as [H1 H2]. rewrite (IH H2). unfold head_char in H1. destruct (is_digit c) eqn:D.
  - rewrite (digit_diallable _ D). apply is_digit_iff in D. rewrite (proj2 (dig_iff c)) by lia. reflexivity.
  - cbn [orb] in H1. rewrite (gap_silent _ H1). destruct (gap_sep _ H1) as (_ & _ & ->). reflexivity.
Qed.
(** The INTERNATIONAL text without its gaps is the E.164 text. *)
Lemma international_dialled C n : wf_container C -> rules_fine C -> rules_tame C -> hasValidCountryCallingCode C (cc_of n) = true -> printed_raw n = false -> ext_of n = [] ->
  exists text, Format C n INTERNATIONAL = Ret text /\ filter diallable text = 43 :: itoa (cc_of n) ++ GetNationalSignificantNumber n.
Proof.
  intros W RF RT V R X. destruct (format_rule C n INTERNATIONAL W RF R (or_intror eq_refl) V) as (m & body & Me & P & F). pose proof (valid_cc_pos _ _ W V) as Pos. destruct (itoa_len _ Pos) as [Da La].
  destruct (main_entry_ok C _ W V) as (m' & Me' & Em' & _). pose proof (entry_unique _ _ _ _ Me Me'). subst m'. apply main_meta_in in Em'. pose proof (printed_neat m _ _ (RT m Em') P) as (Wv & _).
  eexists. split; [exact F|]. rewrite X. cbn [extension_text]. rewrite app_nil_r. change (prefixNumberWithCountryCallingCode (cc_of n) INTERNATIONAL body) with (43 :: itoa (cc_of n) ++ 32 :: body).
  cbn [filter]. replace (diallable 43) with true by reflexivity. rewrite filter_app. cbn [filter]. replace (diallable 32) with false by reflexivity. rewrite (digits_dialled _ Da), (woven_dialled _ _ (nsn_digits n) Wv). reflexivity.
Qed.
(** The digits of the NATIONAL text alone are read like the text. *)
Lemma national_dialled C fuel : wf_container C -> parse_ok C -> rules_fine C -> nat_table fuel C = true -> forall n r t, IsValidNumber C n = Ret true -> GetRegionCodeForNumber C n = Ret r -> r <> nonGeoEntity ->
  GetNumberType C n = Ret t -> ~ nat_exception (cc_of n) t -> nn_of n <> 0 \/ p_raw n = None -> ext_of n = [] ->
  exists text n', Format C n NATIONAL = Ret text /\ Parse C (filter diallable text) r = Ret (n', None) /\ cc_of n' = cc_of n /\ GetNationalSignificantNumber n' = GetNationalSignificantNumber n /\ ext_of n' = [].
Proof.
  intros W PO RF B n r t V Er Ng T X R Ex. destruct (type_valid_spec C n W) as (t' & b & Et & Eb & _ & H). rewrite T in Et. rewrite V in Eb. injection Et as <-. injection Eb as <-. destruct (H eq_refl) as (r' & m & Er' & Nr & Ir & Em & Wm & Ht). rewrite Er in Er'. injection Er' as <-.
  assert (HV : hasValidCountryCallingCode C (cc_of n) = true). { unfold hasValidCountryCallingCode. unfold regions_of in Ir. destruct (assocz (cc_of n) (c_cc2region C)); [reflexivity|destruct Ir]. }
  assert (Pr : printed_raw n = false). { unfold printed_raw. destruct R as [R|R]; [apply N.eqb_neq in R; change (get_nn n) with (nn_of n); rewrite R; reflexivity|unfold get_raw; rewrite R; apply andb_false_r]. }
  destruct (format_rule C n NATIONAL W RF Pr (or_introl eq_refl) HV) as (mm & o & Me & P & F). destruct (main_entry_ok C _ W HV) as (m' & Me' & Em' & _). pose proof (entry_unique _ _ _ _ Me Me'). subst m'.
  unfold nat_table in B. rewrite forallb_forall in B. unfold regions_of in Ir. destruct (assocz (cc_of n) (c_cc2region C)) as [l|] eqn:El; [|destruct Ir]. apply assocz_In in El. apply B in El. clear B. cbn [fst snd] in El. rewrite forallb_forall in El. apply El in Ir. clear El.
  assert (Nb : beq r nonGeoEntity = false) by (destruct (beq r nonGeoEntity) eqn:E; [apply beq_eq in E; congruence|reflexivity]). rewrite Nb in Ir. pose proof (nat_ok_iff _ _ X) as Ok. pose proof (type_desc _ _ _ Ht) as (It & _ & _).
  destruct (forallb (fun t => negb (nat_ok (cc_of n) t)) all_types) eqn:Fx; [rewrite forallb_forall in Fx; apply Fx in It; rewrite Ok in It; discriminate|].
  rewrite Em', Em in Ir. apply andb_true_iff in Ir as [Rb Ec]. apply Z.eqb_eq in Ec.
  assert (Gm : getMetadataForRegion C r = Some m). { destruct (found_region_meta C n r W Er Nr) as (m1 & G1 & G2 & _). rewrite Em in G2. injection G2 as <-. unfold getMetadataForRegionOrCallingCode in G1. destruct (beq nonGeoEntity r) eqn:Q; [apply beq_eq in Q; congruence|exact G1]. }
  pose proof (nsn_digits n) as D. destruct (region_reads C fuel mm m (nat_ok (cc_of n)) _ t o Rb Wm Ht Ok D P) as (L & h & bb & c & -> & Hh & Lh & (Wv & _) & Rd).
  assert (Lf : (length (filter dig h) <= length h)%nat) by (clear; induction h as [|x h IH]; cbn [filter length]; [lia|destruct (dig x); cbn [length]; lia]).
  assert (Dp : all_digits (filter dig h ++ GetNationalSignificantNumber n) = true) by (rewrite all_digits_app, D, andb_true_r; apply forallb_forall; intros x Ix; apply filter_In in Ix as [_ Ix]; apply dig_iff in Ix; apply is_digit_iff; lia).
  destruct (back_parse C r m (filter dig h) _ c W PO Gm Dp) as (n0 & P0 & E1 & E2 & E3); [rewrite app_length; lia|exact Rd|].
  eexists. exists n0. split; [exact F|]. rewrite Ex. cbn [extension_text]. rewrite app_nil_r. cbn [prefixNumberWithCountryCallingCode]. rewrite filter_app, (head_dialled _ Hh), (woven_dialled _ _ D Wv). split; [exact P0|]. split; [congruence|]. split; [exact E2|]. unfold ext_of. rewrite E3. reflexivity.
Qed.

Lemma valid_without C n : IsValidNumber C (without_extension n) = IsValidNumber C n. Proof. destruct n; reflexivity. Qed.
Lemma type_without C n : GetNumberType C (without_extension n) = GetNumberType C n. Proof. destruct n; reflexivity. Qed.
Lemma region_without C n : GetRegionCodeForNumber C (without_extension n) = GetRegionCodeForNumber C n. Proof. destruct n; reflexivity. Qed.
Definition reaches (C : container) (text from : bytes) (n : phone) : Prop :=
  exists n', Parse C text from = Ret (n', None) /\ cc_of n' = cc_of n /\ GetNationalSignificantNumber n' = GetNationalSignificantNumber n /\ ext_of n' = [].
(** Any number without an extension: the international text, with or without formatting, anywhere. *)
Lemma international_reaches n t from s (pretty : bool) : IsValidNumber shipped n = Ret true -> GetNumberType shipped n = Ret t -> ~ (cc_of n = 81%Z /\ t = TOLL_FREE) -> ~ (cc_of n = 375%Z /\ t = PREMIUM_RATE) ->
  nn_of n <> 0 \/ p_raw n = None -> ext_of n = [] -> Format shipped n INTERNATIONAL = Ret s -> reaches shipped (if pretty then s else filter diallable s) from n.
Proof.
  intros V T X1 X2 R E F. destruct (valid_lengths shipped 1000 shipped_wf shipped_table n V) as [HV L].
  assert (HN : has_number n). { destruct R as [R|R]; [left; auto|right]. unfold get_raw. rewrite R. reflexivity. }
  destruct pretty.
  - destruct (C66_shipped n t from INTERNATIONAL 9%nat V T X1 X2 R (or_introl eq_refl)) as (text & r & F' & P & A1 & A2 & A3); [rewrite E; reflexivity|rewrite E; cbn; lia|]. rewrite F in F'. injection F' as <-. exists r. rewrite E in A3. auto.
  - destruct (international_dialled shipped n shipped_wf shipped_rules shipped_tame HV (has_number_raw _ HN) E) as (text & F' & D). rewrite F in F'. injection F' as <-.
    destruct (C10_shipped n t from V T X1 X2 R) as (e164 & r & F6 & P & Ec & En & Ee & _). rewrite format_e164 in F6. change ((nn_of n =? 0) && negb (is_empty (get_raw n))) with (printed_raw n) in F6. rewrite (has_number_raw _ HN) in F6. injection F6 as <-.
    exists r. rewrite D. split; [exact P|]. split; [exact Ec|]. split; [exact En|]. unfold ext_of. rewrite Ee. reflexivity.
Qed.
Lemma national_reaches n t r s (pretty : bool) : IsValidNumber shipped n = Ret true -> GetNumberType shipped n = Ret t -> GetRegionCodeForNumber shipped n = Ret r -> r <> nonGeoEntity -> ~ nat_exception (cc_of n) t ->
  nn_of n <> 0 \/ p_raw n = None -> ext_of n = [] -> Format shipped n NATIONAL = Ret s -> reaches shipped (if pretty then s else filter diallable s) r n.
Proof.
  intros V T G Ng X R E F. destruct pretty.
  - destruct (C74_shipped n r t V G Ng T X R) as (text & n' & F' & P & A1 & A2 & A3); [rewrite E; reflexivity|rewrite E; cbn; lia|]. rewrite F in F'. injection F' as <-. exists n'. rewrite E in A3. auto.
  - destruct (national_dialled shipped 1000 shipped_wf shipped_parse_ok shipped_rules shipped_nat_table n r t V G Ng T X R E) as (text & n' & F' & P & A). rewrite F in F'. injection F' as <-. exists n'. auto.
Qed.
Lemma line_dec t : line t \/ ~ line t. Proof. unfold line. destruct t; auto; right; intros [H|[H|H]]; discriminate. Qed.
Lemma same_dec (a b : bytes) : a = b \/ a <> b. Proof. destruct (beq a b) eqn:E; [left; apply beq_eq; exact E|right; intros ->; assert (beq b b = true) by (apply beq_eq; reflexivity); congruence]. Qed.
Lemma dialled_dec r t : dialled_internationally r t \/ ~ dialled_internationally r t.
Proof. unfold dialled_internationally. destruct (line_dec t), (same_dec r (bs "001")), (same_dec r (bs "MX")), (same_dec r (bs "CL")), (same_dec r (bs "UZ")); tauto. Qed.

(** C94, from anywhere but the main region of the number's calling code: a valid number that can be dialled from abroad gives a text that Parse, with any
    default region, reads as the number without its extension. *)
Theorem C94_abroad : forall n t from r rest pretty region, IsValidNumber shipped n = Ret true -> GetNumberType shipped n = Ret t ->
  ~ (cc_of n = 81%Z /\ t = TOLL_FREE) -> ~ (cc_of n = 375%Z /\ t = PREMIUM_RATE) -> nn_of n <> 0 \/ p_raw n = None ->
  assocz (cc_of n) (c_cc2region shipped) = Some (r :: rest) -> from <> r -> CanBeInternationallyDialled shipped (without_extension n) = Ret true ->
  exists text n', FormatNumberForMobileDialing shipped n from pretty = Ret text /\ Parse shipped text region = Ret (n', None) /\
    cc_of n' = cc_of n /\ GetNationalSignificantNumber n' = GetNationalSignificantNumber n /\ ext_of n' = [].
Proof.
  intros n t from r rest pretty region V T X1 X2 R A Nr Cd. destruct (C68_abroad n pretty from r rest A Nr) as (t' & d & Et & Ed & H & _). rewrite Cd in Ed. injection Ed as <-.
  pose proof T as T0. rewrite <- type_without in T. rewrite T in Et. injection Et as <-. pose proof V as V0. rewrite <- valid_without in V.
  assert (Nt : t <> UNKNOWN). { intros ->. destruct (type_valid_spec shipped n shipped_wf) as (t' & b & E1 & E2 & E3 & E4). rewrite T0 in E1. rewrite V0 in E2. injection E1 as <-. injection E2 as <-. destruct (E4 eq_refl) as (r' & m & _ & _ & _ & _ & _ & Ht). destruct (type_desc _ _ _ Ht) as (It & _ & _). cbn in It. intuition discriminate. }
  specialize (H Nt eq_refl). rewrite H. set (w := without_extension n) in *.
  assert (Rw : nn_of w <> 0 \/ p_raw w = None) by exact R. assert (Xw1 : ~ (cc_of w = 81%Z /\ t = TOLL_FREE)) by exact X1. assert (Xw2 : ~ (cc_of w = 375%Z /\ t = PREMIUM_RATE)) by exact X2.
  destruct pretty.
  - destruct (C66_shipped w t region INTERNATIONAL 9%nat V T Xw1 Xw2 Rw (or_introl eq_refl)) as (text & n' & F & P & A1 & A2 & A3); [reflexivity|cbn; lia|]. exists text, n'. auto.
  - destruct (C10_shipped w t region V T Xw1 Xw2 Rw) as (text & n' & F & P & A1 & A2 & A3 & _). exists text, n'. split; [exact F|]. split; [exact P|]. split; [exact A1|]. split; [exact A2|]. unfold ext_of. rewrite A3. reflexivity.
Qed.
Print Assumptions C94_abroad.
(** C94, at home: a valid number of the main region of its calling code, dialled there, unless it is a Brazilian line (which needs a carrier) or one of the
    exceptions of C74. *)
Theorem C94_home : forall n t r rest pretty, IsValidNumber shipped n = Ret true -> GetNumberType shipped n = Ret t -> GetRegionCodeForNumber shipped n = Ret r -> r <> nonGeoEntity ->
  ~ nat_exception (cc_of n) t -> ~ (cc_of n = 375%Z /\ t = PREMIUM_RATE) -> nn_of n <> 0 \/ p_raw n = None ->
  assocz (cc_of n) (c_cc2region shipped) = Some (r :: rest) -> ~ needs_carrier r t ->
  exists text n', FormatNumberForMobileDialing shipped n r pretty = Ret text /\ Parse shipped text r = Ret (n', None) /\
    cc_of n' = cc_of n /\ GetNationalSignificantNumber n' = GetNationalSignificantNumber n /\ ext_of n' = [].
Proof.
  intros n t r rest pretty V T G Ng X X2 R A Nc. destruct (C68_home n pretty r rest A) as (t' & s & Et & (_ & H2 & H3 & H4) & F).
  destruct (C68_abroad n pretty (0 :: r) r rest A) as (t'' & d & _ & Ed & _). { intros E. apply (f_equal (@length N)) in E. cbn [length] in E. lia. }
  rewrite <- type_without in T. rewrite T in Et. injection Et as <-. rewrite <- valid_without in V. rewrite <- region_without in G. set (w := without_extension n) in *.
  assert (Rw : nn_of w <> 0 \/ p_raw w = None) by exact R. assert (Xw1 : ~ (cc_of w = 81%Z /\ t = TOLL_FREE)). { intros [E1 E2]. apply X. right. split; [|exact E2]. change (cc_of w) with (cc_of n) in E1. rewrite E1. cbn [In]. auto. }
  assert (Xw2 : ~ (cc_of w = 375%Z /\ t = PREMIUM_RATE)) by exact X2. assert (Xw : ~ nat_exception (cc_of w) t) by exact X.
  assert (Q : reaches shipped (if pretty then s else filter diallable s) r w).
  { assert (I : Format shipped w INTERNATIONAL = Ret s -> reaches shipped (if pretty then s else filter diallable s) r w) by (intros Fi; exact (international_reaches w t r s pretty V T Xw1 Xw2 Rw eq_refl Fi)).
    assert (J : Format shipped w NATIONAL = Ret s -> reaches shipped (if pretty then s else filter diallable s) r w) by (intros Fi; exact (national_reaches w t r s pretty V T G Ng Xw Rw eq_refl Fi)).
    destruct (Z.eq_dec (get_cc w) 1) as [E1|E1].
    - destruct (H2 Nc E1) as [K1 K2]. destruct d; [|apply J; apply K2; left; exact Ed].
      destruct (IsPossibleNumberForTypeWithReason shipped w UNKNOWN) as [[]|e|] eqn:Ep; solve [apply J; apply K2; right; reflexivity|apply I; apply K1; [exact Ed|discriminate]].
    - destruct (dialled_dec r t) as [Y|Y]; [|apply J; apply H4; auto]. destruct (H3 Nc E1 Y) as [K1 K2]. destruct d; [apply I; apply K1; exact Ed|apply J; apply K2; exact Ed]. }
  destruct Q as (n' & P & Q). eexists. exists n'. split; [exact F|]. split; [exact P|exact Q].
Qed.
Print Assumptions C94_home.
Local Transparent compile re_find re_replace_all.
(** A number in London with an extension, dialled in the United Kingdom and in Mexico; a Mexican line, dialled in international form at home. *)
Example C94_witness : let n := set_ext (num 44 2070313000) (Some (bs "77")) in IsValidNumber shipped n = Ret true /\ GetNumberType shipped n = Ret FIXED_LINE /\ GetRegionCodeForNumber shipped n = Ret (bs "GB") /\
  (exists rest, assocz (cc_of n) (c_cc2region shipped) = Some (bs "GB" :: rest)) /\ CanBeInternationallyDialled shipped (without_extension n) = Ret true /\
  FormatNumberForMobileDialing shipped n (bs "GB") false = Ret (bs "02070313000") /\ FormatNumberForMobileDialing shipped n (bs "GB") true = Ret (bs "020 7031 3000") /\
  FormatNumberForMobileDialing shipped n (bs "MX") false = Ret (bs "+442070313000") /\ Parse shipped (bs "02070313000") (bs "GB") = Ret (num 44 2070313000, None).
Proof.
  cbv zeta. split; [vm_compute; reflexivity|]. split; [vm_compute; reflexivity|]. split; [vm_compute; reflexivity|]. split; [eexists; vm_compute; reflexivity|]. split; [vm_compute; reflexivity|].
  split; [vm_compute; reflexivity|]. split; [vm_compute; reflexivity|]. split; [vm_compute; reflexivity|]. vm_compute. reflexivity.
Qed.
Example C94_witness_2 : let n := num 52 5512345678 in IsValidNumber shipped n = Ret true /\ FormatNumberForMobileDialing shipped n (bs "MX") true = Ret (bs "+52 55 1234 5678") /\
  FormatNumberForMobileDialing shipped n (bs "MX") false = Ret (bs "+525512345678") /\ Parse shipped (bs "+525512345678") (bs "MX") = Ret (n, None).
Proof. cbv zeta. split; [vm_compute; reflexivity|]. split; [vm_compute; reflexivity|]. split; vm_compute; reflexivity. Qed.
(** The exceptions of C74 are needed: a number of Buenos Aires that starts like a mobile number, dialled in Argentina. *)
Theorem C94_argentina_refuted : exists n text n', IsValidNumber shipped n = Ret true /\ GetRegionCodeForNumber shipped n = Ret (bs "AR") /\ FormatNumberForMobileDialing shipped n (bs "AR") false = Ret text /\ text = bs "01115234567" /\
  Parse shipped text (bs "AR") = Ret (n', None) /\ GetNationalSignificantNumber n = bs "1115234567" /\ GetNationalSignificantNumber n' = bs "01115234567".
Proof.
  exists (num 54 1115234567). eexists. eexists. split; [vm_compute; reflexivity|]. split; [vm_compute; reflexivity|]. split; [vm_compute; reflexivity|]. split; [reflexivity|]. split; [vm_compute; reflexivity|]. split; vm_compute; reflexivity.
Qed.
Print Assumptions C94_argentina_refuted.
