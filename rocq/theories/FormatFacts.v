(** Facts about formatting: it never fails on well-formed metadata, and the shipped rules keep every digit in place. *)
From Verif Require Import Base BaseFacts Utf8 Utf8Facts Regex RegexSpec RegexFacts Consts Types Normalize NormalizeSpec NormalizeFacts Validate Format
  NumberSpec NumberFacts MetaSpec ValidateSpec ValidateFacts Container Shipped MetaFacts FormatSpec TextFacts.

(** * Totality *)
Lemma choose_total l s : Forall wf_format l -> exists r, chooseFormattingPatternForNumber l s = Ret r /\ (forall f, r = Some f -> In f l).
Proof.
  induction 1 as [|f l (W1 & W2 & W3) F (r & E & I)]; [exists None; split; [reflexivity|discriminate]|]. cbn [chooseFormattingPatternForNumber].
  destruct W2 as (x & Ex). unfold must_compile. rewrite Ex. cbn [or_panic bind].
  assert (Keep : forall b : bool, exists r, (if b then Ret (Some f) else chooseFormattingPatternForNumber l s) = Ret r /\ (forall f', r = Some f' -> In f' (f :: l))).
  { intros []; [exists (Some f); split; auto; intros f' Hf; inv Hf; left; auto|]. rewrite E. exists r. split; auto. intros. right. auto. }
  destruct (nf_leading f) as [|a ld] eqn:El; [apply Keep|].
  assert (Wl : compiles (last (a :: ld) [])).
  { rewrite Forall_forall in W3. apply W3. clear. revert a. induction ld as [|b ld IH]; intros a; [left; auto|].
    change (last (a :: b :: ld) []) with (last (b :: ld) []). right. apply IH. }
  destruct Wl as (y & Ey). rewrite Ey. cbn [or_panic bind]. destruct (re_find y s) as [m|]; [apply Keep|apply (Keep false)].
Qed.
Lemma format_using_total s f nf c : wf_format f -> exists r, formatNsnUsingPatternWithCarrier s f nf c = Ret r.
Proof. intros ((x & E) & _). unfold formatNsnUsingPatternWithCarrier, must_compile. rewrite E. cbn [or_panic bind]. eauto. Qed.
Lemma available_In m nf f : In f (available_formats (Some m) nf) -> In f (md_nf m) \/ In f (md_inf m).
Proof. unfold available_formats, mget. destruct (md_inf m) eqn:E; [auto|]. rewrite <- E. destruct (pformat_eqb nf NATIONAL); auto. Qed.
Lemma available_wf m nf : wf_meta m -> Forall wf_format (available_formats (Some m) nf).
Proof.
  intros W. destruct (wf_formats _ W) as [A B]. apply Forall_forall. intros f I. apply available_In in I as [I|I].
  - rewrite Forall_forall in A. auto.
  - rewrite Forall_forall in B. auto.
Qed.
Lemma formatNsn_cases s m nf c : wf_meta m -> exists r, formatNsnWithCarrier s (Some m) nf c = Ret r /\
  (r = s \/ exists f, In f (available_formats (Some m) nf) /\ formatNsnUsingPatternWithCarrier s f nf c = Ret r).
Proof.
  intros W. unfold formatNsnWithCarrier. destruct (choose_total _ s (available_wf m nf W)) as (r & E & I). rewrite E. cbn [bind].
  destruct r as [f|]; [|eauto]. specialize (I f eq_refl). destruct (format_using_total s f nf c) as (r & Er).
  { pose proof (available_wf m nf W) as A. rewrite Forall_forall in A. auto. }
  exists r. split; auto. right. eauto.
Qed.
(** Format of a number with a supported code, and not one of the numbers printed as typed. *)
Lemma format_total C n nf : wf_container C -> exists s, Format C n nf = Ret s.
Proof.
  intros W. unfold Format. destruct (_ && _); [eauto|]. unfold formatWithBuf. destruct (pformat_eqb nf E164); [eauto|].
  destruct (hasValidCountryCallingCode C (get_cc n)) eqn:V; cbn [negb]; [|eauto]. destruct (main_meta_ok C _ W V) as (m & Em & Wm & _).
  fold (main_meta C (get_cc n)). rewrite Em. unfold formatNsn. destruct (formatNsn_cases (GetNationalSignificantNumber n) m nf [] Wm) as (r & -> & _). cbn [bind]. eauto.
Qed.
Definition printed_raw (n : phone) : bool := (get_nn n =? 0) && negb (is_empty (get_raw n)).
Lemma format_supported C n nf : wf_container C -> printed_raw n = false -> nf <> E164 -> hasValidCountryCallingCode C (cc_of n) = true ->
  exists m s, main_meta C (cc_of n) = Some m /\ wf_meta m /\ formatNsn (GetNationalSignificantNumber n) (Some m) nf = Ret s /\
    Format C n nf = Ret (prefixNumberWithCountryCallingCode (cc_of n) nf (s ++ formattedExtension n (Some m) nf)).
Proof.
  intros W R NE V. unfold Format. fold (printed_raw n). rewrite R. unfold formatWithBuf. destruct (pformat_eqb nf E164) eqn:E; [destruct nf; try discriminate; congruence|].
  change (get_cc n) with (cc_of n). rewrite V. cbn [negb]. destruct (main_meta_ok C _ W V) as (m & Em & Wm & _).
  fold (main_meta C (cc_of n)). rewrite Em. unfold formatNsn.
  destruct (formatNsn_cases (GetNationalSignificantNumber n) m nf [] Wm) as (r & Er & _). rewrite Er. cbn [bind]. exists m, r. auto.
Qed.

(** * The shipped rules *)
Definition sep_cls : cls := Eval vm_compute in match re_ast separatorPattern with RCat (RClass k) _ => k | _ => any_not_nl end.
Definition nonsep_cls : cls := Eval vm_compute in match re_ast notSeparatorPattern with RCat (RClass k) _ => k | _ => any_not_nl end.
Definition nondigit_cls : cls := {| cneg := true; citems := d_items; cfold := false |}.
Lemma sep_plus : is_plus separatorPattern sep_cls. Proof. left. reflexivity. Qed.
Lemma nonsep_plus : is_plus notSeparatorPattern nonsep_cls. Proof. left. reflexivity. Qed.
Lemma nondigit_plus : is_plus nonDigitsPattern nondigit_cls. Proof. right. reflexivity. Qed.
Lemma nonsep_neg c : cls_match nonsep_cls c = negb (cls_match sep_cls c). Proof. reflexivity. Qed.
Lemma nondigit_neg c : cls_match nondigit_cls c = negb (is_digit c).
Proof. unfold cls_match, nondigit_cls, items_match. cbn. rewrite orb_false_r. reflexivity. Qed.
Lemma digit_not_sep c : is_digit c = true -> cls_match sep_cls c = false.
Proof.
  intros H. apply is_digit_iff in H.
  assert (E : forallb (fun c => negb (cls_match sep_cls c)) (bs "0123456789") = true) by reflexivity.
  rewrite forallb_forall in E. apply negb_true_iff, E. simpl. lia.
Qed.

(** Characters international formats put between digits: ASCII separators. *)
Definition joint (c : N) : bool := (c <? 128) && negb (is_digit c) && cls_match sep_cls c.
Lemma joint_digit c : joint c = true -> is_digit c = false.
Proof. unfold joint. rewrite !andb_true_iff, negb_true_iff. tauto. Qed.
Lemma joint_ascii c : joint c = true -> c < 128.
Proof. unfold joint. rewrite !andb_true_iff, N.ltb_lt. tauto. Qed.
Lemma joint_sep c : joint c = true -> cls_match sep_cls c = true.
Proof. unfold joint. rewrite !andb_true_iff. tauto. Qed.
Definition ascii_b (c : N) : bool := c <? 128.

Definition intl_formats (m : meta) : list nfmt := match md_inf m with [] => md_nf m | l => l end.
Definition rule_keeps (P : N -> bool) (f : nfmt) (tmpl : bytes) : bool :=
  match compile (get_pattern f) with Some x => rule_ok P x tmpl | None => false end.
Definition national_template (f : nfmt) : bytes := if is_empty (get_npfr f) then get_format f else replace_first_group (get_format f) (get_npfr f).
Definition plain (c : N) : bool := (c <? 128) && negb (is_digit c).
Definition meta_keeps (m : meta) : bool :=
  forallb (fun f => rule_keeps joint f (get_format f)) (intl_formats m)
  && (match md_cc m with Some 54%Z => true | _ => forallb (fun f => rule_keeps ascii_b f (national_template f)) (md_nf m) end)
  && forallb plain (get_bytes (md_extn m)).
Lemma shipped_keeps : forallb meta_keeps (map snd (c_region shipped) ++ map snd (c_nongeo shipped)) = true.
Proof. vm_cast_no_check (eq_refl true). Qed.
Lemma main_meta_in C cc m : main_meta C cc = Some m -> In m (map snd (c_region C) ++ map snd (c_nongeo C)).
Proof.
  unfold main_meta, getMetadataForRegionOrCallingCode, getMetadataForNonGeographicalRegion, getMetadataForRegion. intros H. apply in_or_app.
  destruct (beq _ _).
  - right. match goal with H : (if ?b then _ else _) = _ |- _ => destruct b; [|discriminate] | _ => idtac end.
    apply assocz_In in H. apply in_map_iff. exists (cc, m). auto.
  - left. destruct (isValidRegionCode _ _); [|discriminate]. apply assocb_In in H. apply in_map_iff. eexists. split; [|exact H]. reflexivity.
Qed.
Lemma main_keeps cc m : main_meta shipped cc = Some m -> meta_keeps m = true.
Proof. intros H. apply main_meta_in in H. pose proof shipped_keeps as K. rewrite forallb_forall in K. auto. Qed.

(** What formatting with a rule gives before RFC3966 separators are unified. *)
Lemma rule_keeps_ok P f tmpl x s : rule_keeps P f tmpl = true -> compile (get_pattern f) = Some x -> woven P s (re_replace_all x s tmpl).
Proof. unfold rule_keeps. intros H E. rewrite E in H. apply replace_all_woven; auto. Qed.
Definition plain_pattern (nf : pformat) := pformat_eqb nf NATIONAL = false.
Lemma format_using_intl f s nf r : plain_pattern nf -> formatNsnUsingPatternWithCarrier s f nf [] = Ret r -> rule_keeps joint f (get_format f) = true ->
  exists o, woven joint s o /\ r = if pformat_eqb nf RFC3966 then rfc3966_separators o else o.
Proof.
  unfold plain_pattern, formatNsnUsingPatternWithCarrier, must_compile. intros N. rewrite N. cbn [andb]. intros H K. destruct (compile (get_pattern f)) as [x|] eqn:E; [|discriminate].
  cbn [or_panic bind] in H. inv H. eexists. split; [eapply rule_keeps_ok; eauto|]. reflexivity.
Qed.
Lemma formatNsn_intl s m nf r : plain_pattern nf -> wf_meta m -> meta_keeps m = true -> formatNsn s (Some m) nf = Ret r ->
  r = s \/ exists o, woven joint s o /\ r = if pformat_eqb nf RFC3966 then rfc3966_separators o else o.
Proof.
  intros N W K H. unfold formatNsn in H. destruct (formatNsn_cases s m nf [] W) as (r' & E & [->|(f & I & Ef)]); rewrite H in E; inv E; auto.
  right. eapply format_using_intl; eauto. unfold meta_keeps in K. rewrite !andb_true_iff in K. destruct K as ((K & _) & _).
  rewrite forallb_forall in K. apply K. unfold available_formats, mget, intl_formats in *. rewrite N in I. destruct (md_inf m); auto.
Qed.

(** * RFC3966 separators *)
Lemma woven_in P w o c : woven P w o -> all_digits w = true -> In c o -> is_digit c = true \/ P c = true.
Proof.
  induction 1; intros D I; simpl in *; [tauto| |].
  - apply andb_true_iff in D as [D1 D2]. destruct I as [->|I]; auto.
  - destruct I as [->|I]; auto.
Qed.
Definition digit_groups (w : bytes) (gs : list bytes) : Prop := concat gs = w /\ Forall (fun g => g <> [] /\ all_digits g = true) gs.
Lemma rfc_spec w o : all_digits w = true -> woven joint w o -> exists gs, digit_groups w gs /\ rfc3966_separators o = join gs (bs "-").
Proof.
  intros D W. assert (A : ascii o). { eapply woven_Forall; eauto; [apply digits_ascii; auto|apply joint_ascii]. }
  unfold rfc3966_separators.
  set (o' := match re_find separatorPattern o with Some m => if (m_start m =? 0)%nat then skipn (m_end m) o else o | None => o end).
  assert (Sp : exists a, o = a ++ o' /\ forallb (cls_match sep_cls) a = true).
  { unfold o'. destruct (find_plus separatorPattern sep_cls o 0 sep_plus A ltac:(lia)) as [[E _]|(m & E & L1 & L2 & _ & R & _)];
      unfold re_find; rewrite E; [exists []; auto|]. destruct (m_start m =? 0)%nat eqn:Z; [|exists []; auto]. apply Nat.eqb_eq in Z. rewrite Z in *.
    exists (sub o 0 (m_end m)). split; auto. unfold sub. rewrite Nat.sub_0_r. symmetry. apply firstn_skipn. }
  destruct Sp as (a & Eo & Ha). clearbody o'.
  assert (A' : ascii o') by (rewrite Eo in A; apply ascii_app in A; tauto).
  pose proof (find_all_plus _ _ o' nonsep_plus A') as St. apply stretches_concat in St as [C F].
  assert (Ec : concat (re_find_all_string notSeparatorPattern o') = w).
  { rewrite C. rewrite (filter_ext _ _ nonsep_neg).
    transitivity (filter (fun c => negb (cls_match sep_cls c)) o).
    + rewrite Eo, filter_app. replace (filter (fun c => negb (cls_match sep_cls c)) a) with (@nil N); [reflexivity|]. symmetry. apply filter_none.
      clear -Ha. induction a; simpl in *; auto. apply andb_true_iff in Ha as [-> H]. simpl. auto.
    + rewrite (woven_filter _ _ _ _ W); [|intros c Hc; rewrite (joint_sep _ Hc); reflexivity].
      apply filter_all. apply forallb_forall. intros c Hc. rewrite digit_not_sep; auto. unfold all_digits in D. rewrite forallb_forall in D. auto. }
  exists (re_find_all_string notSeparatorPattern o'). split; [|reflexivity]. split; [exact Ec|].
  rewrite Forall_forall in *. intros g Hg. split; [apply F; auto|]. apply forallb_forall. intros c Hc. unfold all_digits in D. rewrite forallb_forall in D.
  apply D. rewrite <- Ec. apply in_concat. eauto.
Qed.

(** * Format *)
Lemma valid_cc_pos C cc : wf_container C -> hasValidCountryCallingCode C cc = true -> (0 < cc < 1000)%Z.
Proof. intros W V. apply hasValid_In in V as (l & I & _). apply (wf_cc _ W _ _ I). Qed.
Lemma itoa_digits z : (0 <= z)%Z -> all_digits (itoa z) = true.
Proof. intros H. rewrite itoa_nonneg by auto. apply dec_digits. Qed.

Lemma digits_plain p : forallb plain p = true -> filter is_digit p = [] /\ ascii p.
Proof.
  induction p as [|c p IH]; intros H; [split; [auto|constructor]|]. simpl in H. apply andb_true_iff in H as [H1 H2]. destruct (IH H2) as [E A].
  unfold plain in H1. apply andb_true_iff in H1 as [H1 H3]. apply N.ltb_lt in H1. apply negb_true_iff in H3. simpl. rewrite H3. split; auto. constructor; auto.
Qed.
Lemma digits_of_ascii s : ascii s -> digits_of s = filter is_digit s.
Proof.
  induction s as [|c s IH]; intros A; auto. apply ascii_tl in A as [A1 A2].
  change (digits_of (c :: s)) with (match digit_for c with Some d => [d] | None => [] end ++ digits_of s). rewrite IH by auto. simpl.
  destruct (is_digit c) eqn:E.
  - rewrite digit_for_self by (apply is_digit_iff; auto). reflexivity.
  - rewrite <- char_digit_spec. unfold char_digit. rewrite E.
    assert (Ec : forallb (fun n => match digit_in UnicodeTables.tab_Nd (N.of_nat n) with Some _ => is_digit (N.of_nat n) | None => true end) (seq 0 128) = true) by (vm_compute; reflexivity).
    rewrite forallb_forall in Ec. specialize (Ec (N.to_nat c)). rewrite N2Nat.id in Ec. rewrite E in Ec.
    destruct (digit_in UnicodeTables.tab_Nd c); [|reflexivity]. discriminate Ec. apply in_seq. lia.
Qed.
Lemma digits_only_ascii_app a b : ascii a -> NormalizeDigitsOnly (a ++ b) = filter is_digit a ++ NormalizeDigitsOnly b.
Proof. intros A. rewrite !NormalizeDigitsOnly_spec, runes_ascii_app, digits_of_app, digits_of_ascii by auto. reflexivity. Qed.
Lemma digits_only_ascii a : ascii a -> NormalizeDigitsOnly a = filter is_digit a.
Proof. intros A. rewrite <- (app_nil_r a) at 1. rewrite digits_only_ascii_app by auto. apply app_nil_r. Qed.
Lemma digits_only_plain p s : forallb plain p = true -> NormalizeDigitsOnly (p ++ s) = NormalizeDigitsOnly s.
Proof. intros H. destruct (digits_plain _ H) as [E A]. rewrite digits_only_ascii_app, E by auto. reflexivity. Qed.
Lemma digits_only_digits d s : all_digits d = true -> NormalizeDigitsOnly (d ++ s) = d ++ NormalizeDigitsOnly s.
Proof. intros H. rewrite digits_only_ascii_app by (apply digits_ascii; auto). rewrite filter_all; auto. Qed.

Lemma ext_digits n m nf : forallb plain (get_bytes (md_extn m)) = true -> NormalizeDigitsOnly (formattedExtension n (Some m) nf) = NormalizeDigitsOnly (ext_of n).
Proof.
  intros H. unfold formattedExtension. change (get_ext n) with (ext_of n). destruct (is_empty (ext_of n)) eqn:E.
  - apply is_empty_iff in E. rewrite E. reflexivity.
  - unfold mbytes, mget. destruct (pformat_eqb nf RFC3966); [apply digits_only_plain; reflexivity|]. destruct (negb _); apply digits_only_plain; auto.
Qed.

(** What comes between the calling code and the extension in an INTERNATIONAL string. *)
Lemma intl_shape n : hasValidCountryCallingCode shipped (cc_of n) = true -> printed_raw n = false ->
  exists m body, main_meta shipped (cc_of n) = Some m /\ woven joint (GetNationalSignificantNumber n) body /\ forallb plain (get_bytes (md_extn m)) = true /\
    Format shipped n INTERNATIONAL = Ret (43 :: itoa (cc_of n) ++ 32 :: body ++ formattedExtension n (Some m) INTERNATIONAL).
Proof.
  intros V R. destruct (format_supported shipped n INTERNATIONAL shipped_wf R ltac:(discriminate) V) as (m & s & Em & Wm & Es & Ef).
  pose proof (main_keeps _ _ Em) as K. exists m, s. split; [auto|]. split.
  - destruct (formatNsn_intl _ _ INTERNATIONAL _ eq_refl Wm K Es) as [->|(o & W & ->)]; [apply woven_refl|exact W].
  - split; [unfold meta_keeps in K; rewrite !andb_true_iff in K; tauto|]. rewrite Ef. reflexivity.
Qed.
Lemma intl_digits n : hasValidCountryCallingCode shipped (cc_of n) = true -> printed_raw n = false ->
  exists s, Format shipped n INTERNATIONAL = Ret s /\
    NormalizeDigitsOnly s = itoa (cc_of n) ++ GetNationalSignificantNumber n ++ NormalizeDigitsOnly (ext_of n).
Proof.
  intros V R. destruct (intl_shape n V R) as (m & body & Em & W & K & E). eexists. split; [exact E|].
  change (43 :: ?x) with ([43] ++ x). rewrite digits_only_plain by reflexivity.
  rewrite digits_only_digits by (apply itoa_digits; pose proof (valid_cc_pos _ _ shipped_wf V); lia). f_equal.
  change (32 :: ?x) with ([32] ++ x). rewrite digits_only_plain by reflexivity.
  rewrite digits_only_ascii_app by (eapply woven_Forall; eauto; [apply nsn_ascii|apply joint_ascii]).
  rewrite (woven_digits _ _ _ W joint_digit (nsn_digits n)). f_equal. apply ext_digits; auto.
Qed.
Lemma rfc_format n : hasValidCountryCallingCode shipped (cc_of n) = true -> printed_raw n = false ->
  exists gs, digit_groups (GetNationalSignificantNumber n) gs /\
    Format shipped n RFC3966 = Ret (bs "tel:+" ++ itoa (cc_of n) ++ bs "-" ++ join gs (bs "-") ++
      (if is_empty (ext_of n) then [] else bs ";ext=" ++ ext_of n)).
Proof.
  intros V R. destruct (format_supported shipped n RFC3966 shipped_wf R ltac:(discriminate) V) as (m & s & Em & Wm & Es & Ef).
  pose proof (main_keeps _ _ Em) as K.
  assert (G : exists gs, digit_groups (GetNationalSignificantNumber n) gs /\ s = join gs (bs "-")).
  { destruct (formatNsn_intl _ _ RFC3966 _ eq_refl Wm K Es) as [->|(o & W & ->)].
    - exists [GetNationalSignificantNumber n]. split; [|reflexivity]. split; [simpl; apply app_nil_r|]. constructor; auto. split; [apply nsn_nonempty|apply nsn_digits].
    - apply rfc_spec; auto using nsn_digits. }
  destruct G as (gs & Hg & ->). exists gs. split; [exact Hg|]. rewrite Ef. reflexivity.
Qed.

(** NATIONAL: nothing of the number is lost, except by the mobile rules of Argentina. *)
Lemma national_shape n : hasValidCountryCallingCode shipped (cc_of n) = true -> printed_raw n = false -> cc_of n <> 54%Z ->
  exists m body, main_meta shipped (cc_of n) = Some m /\ woven ascii_b (GetNationalSignificantNumber n) body /\
    Format shipped n NATIONAL = Ret (body ++ formattedExtension n (Some m) NATIONAL).
Proof.
  intros V R N54. destruct (format_supported shipped n NATIONAL shipped_wf R ltac:(discriminate) V) as (m & s & Em & Wm & Es & Ef).
  pose proof (main_keeps _ _ Em) as K. exists m, s. split; [auto|]. split; [|rewrite Ef; reflexivity].
  assert (Cc : md_cc m <> Some 54%Z).
  { intros E. apply N54. assert (Chk : forallb (fun x => match main_meta shipped (fst x) with Some m => negb (match md_cc m with Some 54%Z => true | _ => false end) || (fst x =? 54)%Z | None => true end) (c_cc2region shipped) = true) by (vm_cast_no_check (eq_refl true)).
    rewrite forallb_forall in Chk. apply hasValid_In in V as (l & I & _). specialize (Chk _ I). cbn [fst] in Chk. rewrite Em, E in Chk. simpl in Chk. apply Z.eqb_eq; auto. }
  unfold formatNsn in Es. destruct (formatNsn_cases (GetNationalSignificantNumber n) m NATIONAL [] Wm) as (r' & E & [->|(f & I & Eg)]); rewrite Es in E; inv E; [apply woven_refl|].
  unfold formatNsnUsingPatternWithCarrier, must_compile in Eg. destruct (compile (get_pattern f)) as [x|] eqn:Ex; [|discriminate]. cbn [or_panic bind pformat_eqb andb is_empty negb] in Eg.
  unfold meta_keeps in K. rewrite !andb_true_iff in K. destruct K as ((_ & K) & _).
  assert (Kn : rule_keeps ascii_b f (national_template f) = true).
  { assert (Kf : forallb (fun f => rule_keeps ascii_b f (national_template f)) (md_nf m) = true).
    { destruct (md_cc m) as [z|]; auto. destruct (Z.eq_dec z 54) as [->|Nz]; [congruence|]. destruct z as [|q|q]; auto. repeat (destruct q as [q|q|]; auto). }
    rewrite forallb_forall in Kf. apply Kf. unfold available_formats, mget in I. destruct (md_inf m); auto. }
  unfold national_template in Kn. destruct (is_empty (get_npfr f)); cbn [negb] in Eg; inv Eg; eapply rule_keeps_ok; eauto.
Qed.
