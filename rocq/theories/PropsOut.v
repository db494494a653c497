(** C93: the text for dialling a number from another region, parsed there, is the number. *)
From Verif Require Import Base BaseFacts Utf8 Utf8Facts Regex RegexSpec RegexFacts LangFacts Consts Types Normalize NormalizeSpec NormalizeFacts Validate Format Parse
  NumberSpec NumberFacts MetaSpec ValidateSpec ValidateFacts Container Shipped MetaFacts FormatSpec TextFacts FormatFacts FormatMore ParseSpec ParseFacts ParseMore ContextFacts
  RoundSpec DerivFacts MatcherTotal RoundTripFacts PropsNumber PropsValidate PropsFormat PropsRound RuleSpec RuleFacts RuleMore PropsRule DialFacts ReadSpec ReadFacts ReadMore PropsRead ExtSpec ExtFacts BackFacts PropsBack NationalFacts NationalMore PropsNational OutFacts.

(** The expressions for dialling abroad with the prefix printed for them: the expression takes exactly the prefix, whatever follows. *)
Definition taken (e : bytes * bytes) : Prop := forall t, exists x g, compile (fst e) = Some x /\ re_find x (snd e ++ t) = Some g /\ m_start g = 0%nat /\ m_end g = length (snd e).
Definition takes (e : bytes * bytes) (t : bytes) : Prop := match compile (fst e) with Some x => match re_find x (snd e ++ t) with Some g => (m_start g, m_end g) = (0%nat, length (snd e)) | None => False end | None => False end.
Lemma takes_taken e : (forall t, takes e t) -> taken e.
Proof. intros H t. specialize (H t). unfold takes in H. destruct (compile (fst e)) as [x|]; [|destruct H]. destruct (re_find x (snd e ++ t)) as [g|] eqn:F; [|destruct H]. injection H as H1 H2. exists x, g. auto. Qed.
Definition exits : list (bytes * bytes) := [(bs "0", bs "0"); (bs "00", bs "00"); (bs "011", bs "011"); (bs "001[14-689]|14(?:1[14]|34|4[17]|[56]6|7[47]|88)0011", bs "0011");
  (bs "00|99(?:[01469]|5(?:[14]1|3[23]|5[59]|77|88|9[09]))", bs "00"); (bs "00|1(?:[12]\d|79)\d\d00", bs "00"); (bs "119", bs "119"); (bs "0(?:0|52)", bs "00"); (bs "001", bs "001");
  (bs "00|1(?:0(?:01|[12]0)|100)", bs "00"); (bs "010", bs "010"); (bs "000", bs "000"); (bs "0(?:0|[24-7]0|3[03])", bs "020"); (bs "0(?:0|19)", bs "00"); (bs "0[09]", bs "00"); (bs "009", bs "009");
  (bs "0(?:0|161)", bs "00"); (bs "00|19(?:1[124]|77|90)00", bs "00"); (bs "00|140[1-3]", bs "00"); (bs "010|0[0-2]", bs "00"); (bs "00|10(?:22|66|88|99)", bs "00"); (bs "00|16", bs "00"); (bs "0(?:0|1[3-9]\d)", bs "00")].
Lemma width1 n : (0 + (S n - n))%nat = 1%nat. Proof. lia. Qed.
Lemma width2 n : (0 + (S (S n) - S n) + (S n - n))%nat = 2%nat. Proof. lia. Qed.
Lemma width3 n : (0 + (S (S (S n)) - S (S n)) + (S (S n) - S n) + (S n - n))%nat = 3%nat. Proof. lia. Qed.
Lemma width4 n : (0 + (S (S (S (S n))) - S (S (S n))) + (S (S (S n)) - S (S n)) + (S (S n) - S n) + (S n - n))%nat = 4%nat. Proof. lia. Qed.
Lemma exits_taken : Forall taken exits.
Proof.
  unfold exits. repeat (apply Forall_cons; [apply takes_taken; intros t; vm_compute; first [exact (f_equal (pair 0%nat) (width1 (len t)))|exact (f_equal (pair 0%nat) (width2 (len t)))|exact (f_equal (pair 0%nat) (width3 (len t)))|exact (f_equal (pair 0%nat) (width4 (len t)))]|]). apply Forall_nil.
Qed.
Local Opaque compile re_find re_replace_all.
Definition exit_known (rm : bytes * meta) : bool := let p := exit_prefix (snd rm) in
  beq (fst rm) (bs "HK") || negb (all_digits p) || is_empty p || existsb (fun e => beq (fst e) (get_bytes (md_iprefix (snd rm))) && beq (snd e) p) exits.
Lemma shipped_exit_known : forallb exit_known (c_region shipped) = true. Proof. vm_cast_no_check (eq_refl true). Qed.
Lemma exit_taken C from mf w : forallb exit_known (c_region C) = true -> assocb from (c_region C) = Some mf -> from <> bs "HK" -> all_digits (exit_prefix mf) = true -> exit_prefix mf <> [] ->
  hd_error w <> Some 48 -> dials_abroad mf (exit_prefix mf ++ w) w /\ (length (exit_prefix mf) <= 10)%nat.
Proof.
  intros B E Nh Dp Np Hw. apply assocb_In in E. rewrite forallb_forall in B. specialize (B _ E). unfold exit_known in B. cbn [fst snd] in B. cbv zeta in B. rewrite Dp in B.
  destruct (beq from (bs "HK")) eqn:Eh; [apply beq_eq in Eh; congruence|]. destruct (exit_prefix mf) as [|c p] eqn:Ep; [congruence|]. cbn [negb orb is_empty] in B. set (q := c :: p) in *. clearbody q.
  apply existsb_exists in B as (e & Ie & Eq). apply andb_true_iff in Eq as [E1 E2]. apply beq_eq in E1, E2.
  assert (Le : forallb (fun e => (length (snd e) <=? 10)%nat) exits = true) by reflexivity. rewrite forallb_forall in Le. specialize (Le _ Ie). apply Nat.leb_le in Le. clear Ep. subst q. split; [|exact Le].
  pose proof exits_taken as T. rewrite Forall_forall in T. destruct (T e Ie w) as (x & g & Cx & F & S0 & S1). rewrite E1 in Cx. exists x, g. split; [exact Cx|]. split; [exact F|]. split; [exact S0|].
  rewrite S1, skipn_app, skipn_all, Nat.sub_diag. cbn [app skipn]. auto.
Qed.
Lemma itoa_head cc w : (0 < cc)%Z -> hd_error (itoa cc ++ w) <> Some 48.
Proof. intros Pos. rewrite itoa_pos by lia. destruct (dec_head (Z.to_N cc)) as (d & u & -> & H); [lia|]. cbn [app hd_error]. intros E. injection E as ->. lia. Qed.

(** C93: every valid number (with the exceptions of C10), every supported region of another calling code except Hong Kong and the six regions that
    print their prefix with a tilde: the text printed for dialling from there is read there as the same number. *)
Theorem C93_abroad : forall n t from mf, IsValidNumber shipped n = Ret true -> GetNumberType shipped n = Ret t ->
  ~ (cc_of n = 81%Z /\ t = TOLL_FREE) -> ~ (cc_of n = 375%Z /\ t = PREMIUM_RATE) -> nn_of n <> 0 \/ p_raw n = None -> all_digits (ext_of n) = true -> (length (ext_of n) <= 9)%nat ->
  In from (c_regions shipped) -> assocb from (c_region shipped) = Some mf -> mcc (Some mf) <> cc_of n -> from <> bs "HK" -> all_digits (exit_prefix mf) = true ->
  exists text n', FormatOutOfCountryCallingNumber shipped n from = Ret text /\ Parse shipped text from = Ret (n', None) /\
    cc_of n' = cc_of n /\ GetNationalSignificantNumber n' = GetNationalSignificantNumber n /\ ext_of n' = ext_of n.
Proof.
  intros n t from mf V T X1 X2 R De Le If Ef Nc Nh Dp.
  destruct (valid_lengths shipped 1000 shipped_wf shipped_table n V) as [HV L].
  assert (HN : has_number n). { destruct R as [R|R]; [left; auto|right]. unfold get_raw. rewrite R. reflexivity. }
  destruct (C61_out_of_country n from mf HV HN If Ef) as (text & nat & intl & F & _ & Fi & E). rewrite (proj2 (Z.eqb_neq _ _) Nc) in E.
  destruct (exit_prefix mf) as [|c0 p0] eqn:Ep.
  - destruct (C66_shipped n t from INTERNATIONAL 9%nat V T X1 X2 R (or_introl eq_refl) De Le) as (text' & r & F' & P & A). rewrite Fi in F'. injection F' as <-. subst text. exists (bs "+" ++ intl), r. split; [exact F|]. split; [exact P|exact A].
  - destruct (C10_shipped n t [] V T X1 X2 R) as (e164 & r & F' & P & Ec & En & _).
    assert (E6 : e164 = 43 :: itoa (cc_of n) ++ GetNationalSignificantNumber n). { rewrite format_e164 in F'. change ((nn_of n =? 0) && negb (is_empty (get_raw n))) with (printed_raw n) in F'. rewrite (has_number_raw _ HN) in F'. injection F' as <-. reflexivity. }
    subst e164. pose proof (valid_cc_pos _ _ shipped_wf HV) as Pos.
    destruct (exit_taken shipped from mf (itoa (cc_of n) ++ GetNationalSignificantNumber n) shipped_exit_known Ef Nh) as [DA Lp]; [rewrite Ep; exact Dp|rewrite Ep; discriminate|apply itoa_head; lia|]. rewrite Ep in DA, Lp.
    destruct (out_text shipped n from mf (c0 :: p0) intl shipped_wf shipped_parse_ok shipped_rules shipped_tame shipped_marks HV (has_number_raw _ HN) L De Le (region_valid shipped from mf shipped_wf If Ef) Dp Lp Fi DA r P) as (n' & P' & A1 & A2 & A3).
    subst text. exists ((c0 :: p0) ++ bs " " ++ intl), n'. split; [exact F|]. split; [exact P'|]. split; [congruence|]. split; [congruence|exact A3].
Qed.
Print Assumptions C93_abroad.
(** C93, at home: dialled from the number's own region outside the North American Numbering Plan the text is the national one; it is read as in C74. *)
Theorem C93_home : forall n t r mf, IsValidNumber shipped n = Ret true -> GetNumberType shipped n = Ret t -> GetRegionCodeForNumber shipped n = Ret r -> r <> nonGeoEntity ->
  ~ nat_exception (cc_of n) t -> nn_of n <> 0 \/ p_raw n = None -> all_digits (ext_of n) = true -> (length (ext_of n) <= 9)%nat ->
  In r (c_regions shipped) -> assocb r (c_region shipped) = Some mf -> mcc (Some mf) = cc_of n -> cc_of n <> 1%Z ->
  exists text n', FormatOutOfCountryCallingNumber shipped n r = Ret text /\ Parse shipped text r = Ret (n', None) /\
    cc_of n' = cc_of n /\ GetNationalSignificantNumber n' = GetNationalSignificantNumber n /\ ext_of n' = ext_of n.
Proof.
  intros n t r mf V T G Ng X R De Le Ir Er Ec N1. destruct (valid_lengths shipped 1000 shipped_wf shipped_table n V) as [HV _].
  assert (HN : has_number n). { destruct R as [R|R]; [left; auto|right]. unfold get_raw. rewrite R. reflexivity. }
  destruct (C61_out_of_country n r mf HV HN Ir Er) as (text & nat & intl & F & Fn & _ & E). rewrite Ec, Z.eqb_refl, (proj2 (Z.eqb_neq _ _) N1) in E. subst text.
  destruct (C74_shipped n r t V G Ng T X R De Le) as (text & n' & F' & P & A). rewrite Fn in F'. injection F' as <-. exists nat, n'. auto.
Qed.
Print Assumptions C93_home.
Local Transparent compile re_find re_replace_all.
(** Hong Kong is an exception: what is printed there for a number in Tokyo is read as a number in North America. *)
Theorem C93_hong_kong_refuted : exists n text n', IsValidNumber shipped n = Ret true /\ FormatOutOfCountryCallingNumber shipped n (bs "HK") = Ret text /\ text = bs "00 81 3-1234-5678" /\
  Parse shipped text (bs "HK") = Ret (n', None) /\ cc_of n = 81%Z /\ cc_of n' = 1%Z.
Proof. exists (num 81 312345678). eexists. eexists. split; [vm_compute; reflexivity|]. split; [vm_compute; reflexivity|]. split; [reflexivity|]. split; [vm_compute; reflexivity|]. split; reflexivity. Qed.
Print Assumptions C93_hong_kong_refuted.
(** A number in London with an extension, dialled from the United States and from Australia, whose expression allows several prefixes. *)
Example C93_witness : let n := set_ext (num 44 2070313000) (Some (bs "77")) in IsValidNumber shipped n = Ret true /\ GetNumberType shipped n = Ret FIXED_LINE /\
  In (bs "US") (c_regions shipped) /\ In (bs "AU") (c_regions shipped) /\ (exists mf, assocb (bs "AU") (c_region shipped) = Some mf /\ exit_prefix mf = bs "0011" /\ mcc (Some mf) <> cc_of n) /\
  FormatOutOfCountryCallingNumber shipped n (bs "US") = Ret (bs "011 44 20 7031 3000 x77") /\ FormatOutOfCountryCallingNumber shipped n (bs "AU") = Ret (bs "0011 44 20 7031 3000 x77") /\
  Parse shipped (bs "0011 44 20 7031 3000 x77") (bs "AU") = Ret (n, None).
Proof.
  cbv zeta. split; [vm_compute; reflexivity|]. split; [vm_compute; reflexivity|]. split; [apply mem_bytes_iff; vm_compute; reflexivity|]. split; [apply mem_bytes_iff; vm_compute; reflexivity|].
  split; [|split; [vm_compute; reflexivity|]; split; vm_compute; reflexivity].
  destruct (assocb (bs "AU") (c_region shipped)) as [mf|] eqn:E; [|vm_compute in E; discriminate]. exists mf. split; [reflexivity|]. vm_compute in E. injection E as <-. split; [reflexivity|discriminate].
Qed.
