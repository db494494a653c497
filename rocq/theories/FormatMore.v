(** More facts about formatting: totality of every formatting function, area code lengths, mobile dialling. *)
From Verif Require Import Base BaseFacts Utf8 Utf8Facts Regex RegexSpec RegexFacts Consts Types Normalize NormalizeSpec NormalizeFacts Validate Format Parse
  NumberSpec NumberFacts MetaSpec ValidateSpec ValidateFacts Container Shipped MetaFacts FormatSpec TextFacts FormatFacts.

(** The call returns normally. *)
Definition total {A} (m : M A) : Prop := exists r, m = Ret r.
Lemma total_ret {A} (a : A) : total (Ret a). Proof. exists a. reflexivity. Qed.
Lemma total_bind {A B} (m : M A) (f : A -> M B) : total m -> (forall a, m = Ret a -> total (f a)) -> total (bind m f).
Proof. intros (a & ->) H. cbn [bind]. auto. Qed.
Lemma total_if {A} (b : bool) (x y : M A) : total x -> total y -> total (if b then x else y).
Proof. destruct b; auto. Qed.

Lemma region_total C n : wf_container C -> total (GetRegionCodeForNumber C n).
Proof. intros W. destruct (region_for_number_spec C n W) as (r & E & _). exists r. auto. Qed.
Lemma type_total C n : wf_container C -> total (GetNumberType C n).
Proof. intros W. destruct (type_valid_spec C n W) as (t & _ & E & _). exists t. auto. Qed.
Lemma region_meta_wf C r m : wf_container C -> getMetadataForRegion C r = Some m -> wf_meta m.
Proof. unfold getMetadataForRegion. intros W H. destruct (isValidRegionCode C r); [|discriminate]. apply assocb_In in H. eapply wf_region; eauto. Qed.
Lemma any_meta_wf C cc r m : wf_container C -> getMetadataForRegionOrCallingCode C cc r = Some m -> wf_meta m.
Proof.
  unfold getMetadataForRegionOrCallingCode, getMetadataForNonGeographicalRegion. intros W H. destruct (beq _ _).
  - match goal with H : (if ?b then _ else _) = _ |- _ => destruct b; [|discriminate] | _ => idtac end. apply assocz_In in H. eapply wf_nongeo; eauto.
  - eapply region_meta_wf; eauto.
Qed.
Lemma noint_wf m : wf_meta m -> wf_desc (md_noint m).
Proof. intros W. pose proof (wf_descs _ W) as D. rewrite Forall_forall in D. apply D. unfold typed_descs. simpl. tauto. Qed.
Lemma dialled_total C n : wf_container C -> total (CanBeInternationallyDialled C n).
Proof.
  intros W. apply total_bind; [apply region_total; auto|]. intros r _. destruct (getMetadataForRegion C r) as [m|] eqn:E; [|apply total_ret].
  destruct (matching_desc_spec (GetNationalSignificantNumber n) (md_noint m) (noint_wf _ (region_meta_wf _ _ _ W E))) as (b & Eb & _).
  rewrite Eb. cbn [bind]. apply total_ret.
Qed.
Lemma national_carrier_total C n c : wf_container C -> total (FormatNationalNumberWithCarrierCode C n c).
Proof.
  intros W. unfold FormatNationalNumberWithCarrierCode. destruct (hasValidCountryCallingCode C (get_cc n)) eqn:V; cbn [negb]; [|apply total_ret].
  destruct (main_meta_ok C _ W V) as (m & Em & Wm & _). fold (main_meta C (get_cc n)). rewrite Em.
  destruct (formatNsn_cases (GetNationalSignificantNumber n) m NATIONAL c Wm) as (r & Er & _). rewrite Er. cbn [bind]. apply total_ret.
Qed.
Lemma out_of_country_total C n from : wf_container C -> total (FormatOutOfCountryCallingNumber C n from).
Proof.
  intros W. unfold FormatOutOfCountryCallingNumber. destruct (isValidRegionCode C from); cbn [negb]; [|apply format_total; auto].
  destruct (hasValidCountryCallingCode C (get_cc n)) eqn:V; cbn [negb]; [|apply total_ret].
  destruct (_ && _). { apply total_bind; [apply format_total; auto|intros; apply total_ret]. }
  destruct (_ && _); [apply format_total; auto|]. destruct (main_meta_ok C _ W V) as (m & Em & Wm & _). fold (main_meta C (get_cc n)). rewrite Em.
  unfold formatNsn. destruct (formatNsn_cases (GetNationalSignificantNumber n) m INTERNATIONAL [] Wm) as (r & Er & _). rewrite Er. cbn [bind]. apply total_ret.
Qed.
Lemma using_pattern_total s f nf c : compiles (get_pattern f) -> total (formatNsnUsingPatternWithCarrier s f nf c).
Proof. intros (x & E). unfold formatNsnUsingPatternWithCarrier, must_compile. rewrite E. cbn [or_panic bind]. apply total_ret. Qed.
Lemma keeping_alpha_total C n from : wf_container C -> total (FormatOutOfCountryKeepingAlphaChars C n from).
Proof.
  intros W. unfold FormatOutOfCountryKeepingAlphaChars. destruct (is_empty (get_raw n)); [apply out_of_country_total; auto|].
  destruct (negb _); [apply total_ret|]. cbv zeta. destruct (_ && _); [apply total_ret|]. destruct (_ && _ && _) eqn:E; [|apply total_ret].
  destruct (getMetadataForRegion C from) as [m|] eqn:Em; [|cbn [is_some] in E; rewrite andb_false_r in E; discriminate].
  pose proof (region_meta_wf _ _ _ W Em) as Wm. destruct (wf_formats _ Wm) as [F _].
  destruct (choose_total _ (GetNationalSignificantNumber n) F) as (r & Er & _). unfold mget. rewrite Er. cbn [bind]. destruct r as [f|]; [|apply total_ret].
  apply using_pattern_total. unfold keep_alpha_format, get_pattern. cbn [nf_pattern get_bytes]. eexists. vm_compute. reflexivity.
Qed.
(** Formats supplied by the caller are the caller's responsibility: their patterns must compile. *)
Lemma by_pattern_total C n nf l : wf_container C -> Forall wf_format l -> total (FormatByPattern C n nf l).
Proof.
  intros W F. unfold FormatByPattern. destruct (hasValidCountryCallingCode C (get_cc n)) eqn:V; cbn [negb]; [|apply total_ret]. cbv zeta.
  destruct (choose_total l (GetNationalSignificantNumber n) F) as (r & Er & I). rewrite Er. cbn [bind].
  apply total_bind; [|intros; apply total_ret]. destruct r as [f|]; [|apply total_ret].
  apply using_pattern_total. specialize (I f eq_refl). rewrite Forall_forall in F. destruct (F _ I) as (Cp & _).
  destruct (negb (is_empty (get_npfr f))); [|exact Cp]. destruct (negb _); exact Cp.
Qed.
Lemma has_pattern_total C n : wf_container C -> total (hasFormattingPatternForNumber C n).
Proof.
  intros W. unfold hasFormattingPatternForNumber. destruct (getMetadataForRegionOrCallingCode _ _ _) as [m|] eqn:E; [|apply total_ret].
  pose proof (any_meta_wf _ _ _ _ W E) as Wm. destruct (wf_formats _ Wm) as [F _]. destruct (choose_total _ (GetNationalSignificantNumber n) F) as (r & Er & _).
  rewrite Er. cbn [bind]. apply total_ret.
Qed.
Lemma ndc_total C n : wf_container C -> total (GetLengthOfNationalDestinationCode C n).
Proof.
  intros W. unfold GetLengthOfNationalDestinationCode. cbv zeta. apply total_bind; [apply format_total; auto|]. intros s _.
  destruct (re_split nonDigitsPattern s) as [|? [|? [|g2 [|g3 l]]]]; try apply total_ret.
  apply total_bind; [apply type_total; auto|]. intros t _. apply total_if; apply total_ret.
Qed.
Lemma geo_total C n : wf_container C -> total (IsNumberGeographical C n).
Proof. intros W. apply total_bind; [apply type_total; auto|]. intros; apply total_ret. Qed.
Lemma area_total C n : wf_container C -> total (GetLengthOfGeographicalAreaCode C n).
Proof.
  intros W. unfold GetLengthOfGeographicalAreaCode. apply total_bind; [apply region_total; auto|]. intros r _.
  destruct (getMetadataForRegion C r); [|apply total_ret]. apply total_bind; [apply type_total; auto|]. intros t _.
  apply total_if; [apply total_ret|]. apply total_if; [apply total_ret|]. apply total_bind; [apply geo_total; auto|]. intros g _.
  apply total_if; [apply total_ret|apply ndc_total; auto].
Qed.
(** The main region of +1 is a geographical one. *)
Definition nanpa_ok (C : container) : Prop := hasValidCountryCallingCode C nanpaCountryCode = true -> exists m, getMetadataForRegion C (GetRegionCodeForCountryCode C nanpaCountryCode) = Some m.
Lemma shipped_nanpa : nanpa_ok shipped.
Proof. intros _. eexists. vm_compute. reflexivity. Qed.
Lemma mobile_same_total C n t : wf_container C -> nanpa_ok C -> hasValidCountryCallingCode C (get_cc n) = true ->
  total (mobile_same_region C n (GetRegionCodeForCountryCode C (get_cc n)) t).
Proof.
  intros W NO V. unfold mobile_same_region. cbv zeta. destruct (_ && _). { apply total_if; [apply national_carrier_total; auto|apply total_ret]. }
  destruct (Z.eqb (get_cc n) nanpaCountryCode) eqn:E.
  { apply Z.eqb_eq in E. apply total_bind; [apply dialled_total; auto|]. intros d _. destruct d; [|apply format_total; auto].
    rewrite E in *. destruct (NO V) as (m & Em). rewrite Em. destruct (testNumberLength_spec m UNKNOWN (GetNationalSignificantNumber n) (region_meta_wf _ _ _ W Em)) as (v & Ev & _).
    rewrite Ev. cbn [bind]. apply total_if; apply format_total; auto. }
  destruct (_ || _). { apply total_bind; [apply dialled_total; auto|]. intros d _. apply total_if; apply format_total; auto. }
  apply format_total; auto.
Qed.
Lemma mobile_total C n from b : wf_container C -> nanpa_ok C -> total (FormatNumberForMobileDialing C n from b).
Proof.
  intros W NO. unfold FormatNumberForMobileDialing. destruct (hasValidCountryCallingCode C (get_cc n)) eqn:V; cbn [negb]; [|apply total_ret]. cbv zeta.
  apply total_bind; [apply type_total; auto|]. intros t _. destruct (beq _ _).
  { apply total_bind; [|intros; apply total_ret]. apply (mobile_same_total C (set_ext n None) t W NO V). }
  destruct (negb _); [|apply total_ret]. apply total_bind; [apply dialled_total; auto|]. intros d _.
  destruct d; [|apply total_ret]. destruct b; apply format_total; auto.
Qed.

(** * Area codes *)
Lemma first_stop (P : N -> bool) a y r w x t : a ++ y :: r = w ++ x :: t -> forallb (fun c => negb (P c)) a = true -> forallb (fun c => negb (P c)) w = true ->
  P x = true -> P y = true -> a = w /\ y :: r = x :: t.
Proof.
  revert w. induction a as [|a0 a IH]; intros [|w0 w] E Ha Hw Px Py; simpl in *.
  - auto.
  - inv E. rewrite Py in Hw. discriminate.
  - inv E. rewrite Px in Ha. discriminate.
  - inv E. apply andb_true_iff in Ha as [_ Ha]. apply andb_true_iff in Hw as [_ Hw]. destruct (IH w H1 Ha Hw Px Py) as [-> ->]. auto.
Qed.
Lemma fields_head P w x t l : fields P (w ++ x :: t) l -> forallb (fun c => negb (P c)) w = true -> P x = true ->
  exists b c l', l = w :: l' /\ fields P c l' /\ x :: t = b ++ c /\ forallb P b = true /\ (c = [] \/ exists y u, c = y :: u /\ P y = false).
Proof.
  intros F Hw Px. remember (w ++ x :: t) as s eqn:Es. destruct F as [s H|a b c l Ha Hb Nb T F].
  - subst. rewrite forallb_app in H. apply andb_true_iff in H as [_ H]. simpl in H. rewrite Px in H. discriminate.
  - destruct b as [|y b]; [congruence|]. simpl in Hb. apply andb_true_iff in Hb as [Py Hb]. cbn [app] in Es.
    destruct (first_stop P a y (b ++ c) w x t Es Ha Hw Px Py) as [-> E]. inv E. exists (x :: b), c, l. split; auto. split; auto. split; auto. split; auto. simpl. rewrite Px. auto.
Qed.
Lemma ndc_bound n : printed_raw n = false -> exists k, GetLengthOfNationalDestinationCode shipped n = Ret k /\ (k <= length (GetNationalSignificantNumber n))%nat.
Proof.
  intros R. destruct (ndc_total shipped n shipped_wf) as (k & Ek). exists k. split; auto. revert Ek. unfold GetLengthOfNationalDestinationCode. cbv zeta.
  set (n' := if negb (is_empty (get_ext n)) then set_ext n None else n).
  assert (N' : GetNationalSignificantNumber n' = GetNationalSignificantNumber n /\ cc_of n' = cc_of n /\ ext_of n' = [] /\ printed_raw n' = false).
  { unfold n'. change (get_ext n) with (ext_of n). destruct (is_empty (ext_of n)) eqn:E; cbn [negb]; [apply is_empty_iff in E; auto|]. repeat split; auto. }
  destruct N' as (Nn & Nc & Ne & Nr). clearbody n'. intros Ek.
  destruct (hasValidCountryCallingCode shipped (cc_of n')) eqn:V.
  - destruct (intl_shape n' V Nr) as (m & body & Em & Wv & _ & Ef). rewrite Ef in Ek. cbn [bind] in Ek. unfold formattedExtension in Ek. change (get_ext n') with (ext_of n') in Ek.
    rewrite Ne in Ek. cbn [is_empty] in Ek. rewrite app_nil_r in Ek. rewrite Nn in Wv.
    pose proof (valid_cc_pos _ _ shipped_wf V) as Pc. pose proof (itoa_digits (cc_of n') ltac:(lia)) as Dc.
    assert (Nc0 : itoa (cc_of n') <> []) by (rewrite itoa_nonneg by lia; apply dec_nonempty). set (cc := itoa (cc_of n')) in *. clearbody cc.
    assert (Ab : ascii body) by (eapply woven_Forall; eauto; [apply nsn_ascii|apply joint_ascii]).
    assert (As : ascii (43 :: cc ++ 32 :: body)). { constructor; [reflexivity|]. apply ascii_app. split; [apply digits_ascii; auto|]. constructor; [reflexivity|auto]. }
    pose proof (re_split_plus _ _ _ nondigit_plus As) as F. set (P := cls_match nondigit_cls) in *.
    assert (PD : forall c, P c = negb (is_digit c)) by (intros; apply nondigit_neg).
    destruct (fields_head P [] 43 _ _ F eq_refl ltac:(rewrite PD; reflexivity)) as (b & c & l' & El & F' & E1 & Hb & T).
    assert (Eb : c = cc ++ 32 :: body).
    { destruct b as [|b0 b]; [simpl in E1; destruct T as [->|(y & u & -> & Py)]; [discriminate|inv E1; rewrite PD in Py; discriminate]|].
      simpl in E1. inv E1. destruct b as [|b1 b]; auto. destruct cc as [|d cc]; [congruence|]. simpl in H1. inv H1. simpl in Hb, Dc.
      apply andb_true_iff in Dc as [Dd _]. rewrite PD, Dd in Hb. discriminate Hb. }
    subst c. assert (Hcc : forallb (fun c => negb (P c)) cc = true).
    { apply forallb_forall. intros c Hc. rewrite PD, negb_involutive. unfold all_digits in Dc. rewrite forallb_forall in Dc. auto. }
    destruct (fields_head P cc 32 body l' F' Hcc ltac:(rewrite PD; reflexivity)) as (b2 & c2 & l2 & El2 & F2 & E2 & Hb2 & _).
    apply fields_concat in F2 as [C2 _].
    assert (Lc : length (concat l2) = length (GetNationalSignificantNumber n)).
    { rewrite C2. f_equal. transitivity (filter (fun c => negb (P c)) (32 :: body)).
      - rewrite E2, filter_app. replace (filter (fun c => negb (P c)) b2) with (@nil N); auto. symmetry. apply filter_none.
        apply forallb_forall. intros c Hc. rewrite forallb_forall in Hb2. rewrite Hb2; auto.
      - cbn [filter]. rewrite PD at 1. cbn [is_digit]. rewrite (filter_ext (fun c => negb (P c)) is_digit) by (intros c; rewrite PD, negb_involutive; auto).
        change (negb (negb (is_digit 32))) with false. cbn [negb]. apply (woven_digits _ _ _ Wv joint_digit (nsn_digits n)). }
    rewrite El, El2 in Ek. destruct l2 as [|g2 [|g3 l2]]; [inv Ek; lia|inv Ek; lia|]. simpl concat in Lc. rewrite !app_length in Lc.
    destruct (GetNumberType shipped n) as [t| |]; try discriminate. cbn [bind] in Ek. unfold len in Ek. destruct (_ && _); inv Ek; lia.
  - unfold Format in Ek. fold (printed_raw n') in Ek. rewrite Nr in Ek. unfold formatWithBuf in Ek. change (get_cc n') with (cc_of n') in Ek. rewrite V in Ek.
    cbn [pformat_eqb negb bind] in Ek. rewrite Nn in Ek. pose proof (re_split_plus _ _ _ nondigit_plus (nsn_ascii n)) as F.
    assert (Hd : forallb (fun c => negb (cls_match nondigit_cls c)) (GetNationalSignificantNumber n) = true).
    { apply forallb_forall. intros c Hc. rewrite nondigit_neg, negb_involutive. pose proof (nsn_digits n) as D. unfold all_digits in D. rewrite forallb_forall in D. auto. }
    revert Ek F Hd. generalize (GetNationalSignificantNumber n). intros s. generalize (re_split nonDigitsPattern s). intros l Ek F Hd. destruct F as [s H|a b c l Ha Hb Nb T F].
    + inv Ek. lia.
    + rewrite !forallb_app, !andb_true_iff in Hd. destruct Hd as (_ & Hd & _). destruct b; [congruence|]. simpl in Hb, Hd. apply andb_true_iff in Hb as [Hb _]. rewrite Hb in Hd. discriminate.
Qed.
Lemma area_bound n : printed_raw n = false -> exists k, GetLengthOfGeographicalAreaCode shipped n = Ret k /\ (k <= length (GetNationalSignificantNumber n))%nat.
Proof.
  intros R. destruct (area_total shipped n shipped_wf) as (k & Ek). exists k. split; auto. revert Ek. unfold GetLengthOfGeographicalAreaCode.
  destruct (GetRegionCodeForNumber shipped n) as [r| |]; try discriminate. cbn [bind]. destruct (getMetadataForRegion shipped r); [|intros E; inv E; lia].
  destruct (GetNumberType shipped n) as [t| |]; try discriminate. cbn [bind]. destruct (_ && _ && _); [intros E; inv E; lia|]. destruct (_ && _); [intros E; inv E; lia|].
  destruct (IsNumberGeographical shipped n) as [g| |]; try discriminate. cbn [bind]. destruct (negb g); [intros E; inv E; lia|].
  destruct (ndc_bound n R) as (k' & -> & L). intros E. inv E. auto.
Qed.

(** * Mobile dialling *)
Lemma filter_diallable s c : In c (NormalizeDiallableCharsOnly s) -> diallable c = true.
Proof. rewrite NormalizeDiallableCharsOnly_spec, filter_In. tauto. Qed.
Lemma digit_diallable c : is_digit c = true -> diallable c = true.
Proof. intros H. apply diallable_iff. apply is_digit_iff in H. lia. Qed.
Lemma mobile_plain C n from s : wf_container C -> hasValidCountryCallingCode C (cc_of n) = true -> printed_raw n = false ->
  FormatNumberForMobileDialing C n from false = Ret s -> forall c, In c s -> diallable c = true.
Proof.
  intros W V R. unfold FormatNumberForMobileDialing. change (get_cc n) with (cc_of n). rewrite V. cbn [negb]. cbv zeta.
  destruct (GetNumberType C (set_ext n None)) as [t| |]; try discriminate. cbn [bind]. destruct (beq _ _).
  { destruct (mobile_same_region _ _ _ _) as [x| |]; try discriminate. cbn [bind]. intros E. inv E. apply filter_diallable. }
  destruct (negb _); [|intros E; inv E; apply filter_diallable].
  destruct (CanBeInternationallyDialled _ _) as [d| |]; try discriminate. cbn [bind]. destruct d; [|intros E; inv E; apply filter_diallable].
  rewrite format_e164. change (nn_of (set_ext n None)) with (get_nn n). change (get_raw (set_ext n None)) with (get_raw n). fold (printed_raw n). rewrite R.
  change (cc_of (set_ext n None)) with (cc_of n). change (GetNationalSignificantNumber (set_ext n None)) with (GetNationalSignificantNumber n).
  intros E. inv E. intros c Hc. simpl in Hc. destruct Hc as [<-|Hc]; [reflexivity|]. apply in_app_or in Hc. apply digit_diallable. destruct Hc as [Hc|Hc].
  - pose proof (valid_cc_pos _ _ W V) as P. pose proof (itoa_digits (cc_of n) ltac:(lia)) as D. unfold all_digits in D. rewrite forallb_forall in D. auto.
  - pose proof (nsn_digits n) as D. unfold all_digits in D. rewrite forallb_forall in D. auto.
Qed.

(** * Formatting is never blank *)
Fixpoint has_lit (fuel : nat) (tmpl : bytes) : bool :=
  match fuel with
  | O => false
  | S f =>
      match tmpl with
      | [] => false
      | 36 :: t =>
          match t with
          | 36 :: _ => true
          | _ => match extract_ref t with
                 | None => true
                 | Some (_, rest) => has_lit f rest
                 end
          end
      | _ => true
      end
  end.
Lemma has_lit_expand f : forall tmpl s m, has_lit f tmpl = true -> expand f tmpl s m <> [].
Proof.
  induction f as [|f IH]; intros tmpl s m H; [discriminate|]. cbn [has_lit expand] in *. destruct tmpl as [|c t]; [discriminate|].
  destruct (N.eq_dec c 36) as [->|Nc]; [|rewrite case36 by auto; discriminate].
  assert (G : match extract_ref t with None => true | Some (_, rest) => has_lit f rest end = true ->
     match extract_ref t with None => 36 :: expand f t s m | Some (Some n, rest) => group_str s m n ++ expand f rest s m | Some (None, rest) => expand f rest s m end <> []).
  { destruct (extract_ref t) as [[[n|] rest]|]; intros G; [|apply IH; exact G|discriminate]. intros E. apply app_eq_nil in E as [_ E]. revert E. apply IH. exact G. }
  destruct t as [|d t']; [auto|]. destruct (N.eq_dec d 36) as [->|Nd]; [discriminate|]. rewrite case36 in H by auto. rewrite case36 by auto. auto.
Qed.
Lemma replace_lit x s repl : (forall m, repl m <> []) -> forall f sp, s <> [] -> replace_loop f x s repl 0 sp <> [].
Proof.
  intros R f sp N. destruct f as [|f]; cbn [replace_loop]; [auto|]. destruct (_ <? _)%nat; [auto|]. destruct (find_from x s sp) as [m|] eqn:E; [|auto].
  destruct (m_start m) as [|k] eqn:Em.
  - rewrite orb_true_r. intros H. apply app_eq_nil in H as [_ H]. apply app_eq_nil in H as [H _]. revert H. apply R.
  - destruct s as [|c s]; [congruence|]. unfold sub. simpl. discriminate.
Qed.
Definition blank_free (f : nfmt) (tmpl : bytes) : bool := rule_keeps ascii_b f tmpl || has_lit (S (len tmpl)) tmpl.
Lemma blank_free_ok f tmpl x s : blank_free f tmpl = true -> compile (get_pattern f) = Some x -> s <> [] -> re_replace_all x s tmpl <> [].
Proof.
  unfold blank_free. intros H E N. apply orb_true_iff in H as [H|H].
  - pose proof (rule_keeps_ok _ _ _ _ s H E) as W. intros E0. rewrite E0 in W. inversion W; congruence.
  - unfold re_replace_all, re_replace_func. apply replace_lit; auto. intros m. unfold expand_template. apply has_lit_expand; auto.
Qed.
Definition meta_blank_free (m : meta) : bool := forallb (fun f => blank_free f (get_format f) && blank_free f (national_template f)) (md_nf m).
Lemma shipped_blank_free : forallb meta_blank_free (map snd (c_region shipped) ++ map snd (c_nongeo shipped)) = true.
Proof. vm_cast_no_check (eq_refl true). Qed.
Lemma meta_in_blank_free m : In m (map snd (c_region shipped) ++ map snd (c_nongeo shipped)) -> forall f, In f (md_nf m) -> blank_free f (get_format f) = true /\ blank_free f (national_template f) = true.
Proof.
  intros I f Hf. pose proof shipped_blank_free as K. rewrite forallb_forall in K. specialize (K _ I). unfold meta_blank_free in K. rewrite forallb_forall in K.
  apply andb_true_iff. auto.
Qed.
Lemma region_meta_in C r m : getMetadataForRegion C r = Some m -> In m (map snd (c_region C) ++ map snd (c_nongeo C)).
Proof.
  unfold getMetadataForRegion. intros H. apply in_or_app. destruct (isValidRegionCode C r); [|discriminate].
  left. apply assocb_In in H. apply in_map_iff. exists (r, m). auto.
Qed.
Lemma format_not_blank n nf s : nf = NATIONAL \/ nf = INTERNATIONAL -> Format shipped n nf = Ret s -> s <> [].
Proof.
  intros Hf E. destruct (printed_raw n) eqn:R.
  - unfold Format in E. fold (printed_raw n) in E. rewrite R in E. inv E. unfold printed_raw in R. apply andb_true_iff in R as [_ R]. apply negb_true_iff in R. intros E. rewrite E in R. discriminate.
  - destruct (hasValidCountryCallingCode shipped (cc_of n)) eqn:V.
    + destruct Hf as [-> | ->].
      * destruct (format_supported shipped n NATIONAL shipped_wf R ltac:(discriminate) V) as (m & b & Em & Wm & Es & Ef). rewrite Ef in E.
        cbn [prefixNumberWithCountryCallingCode] in E. assert (s = b ++ formattedExtension n (Some m) NATIONAL) by (inv E; auto). subst s. clear E. intros E0. apply app_eq_nil in E0 as [-> _].
        unfold formatNsn in Es. destruct (formatNsn_cases (GetNationalSignificantNumber n) m NATIONAL [] Wm) as (r' & E & [->|(f & I & Eg)]); rewrite Es in E; inv E; [apply (nsn_nonempty n); auto|].
        unfold formatNsnUsingPatternWithCarrier, must_compile in Eg. destruct (compile (get_pattern f)) as [x|] eqn:Ex; [|discriminate]. cbn [or_panic bind pformat_eqb andb is_empty negb] in Eg.
        assert (If : In f (md_nf m)) by (unfold available_formats, mget in I; destruct (md_inf m); auto).
        destruct (meta_in_blank_free _ (main_meta_in _ _ _ Em) _ If) as [_ B]. pose proof (blank_free_ok _ _ _ _ B Ex (nsn_nonempty n)) as NB.
        unfold national_template in NB. destruct (is_empty (get_npfr f)); cbn [negb] in Eg; inv Eg; auto.
      * destruct (intl_shape n V R) as (m & body & _ & _ & _ & E'). rewrite E' in E. inv E. discriminate.
    + unfold Format in E. fold (printed_raw n) in E. rewrite R in E. unfold formatWithBuf in E. change (get_cc n) with (cc_of n) in E. rewrite V in E.
      destruct Hf as [->| ->]; cbn [pformat_eqb negb] in E; inv E; apply nsn_nonempty.
Qed.

(** * FormatInOriginalFormat *)
Lemma out_of_country_not_blank n from s : FormatOutOfCountryCallingNumber shipped n from = Ret s -> s <> [].
Proof.
  unfold FormatOutOfCountryCallingNumber. destruct (negb _); [apply format_not_blank; auto|]. cbv zeta. destruct (negb _); [intros E; inv E; apply nsn_nonempty|].
  destruct (_ && _).
  { destruct (Format shipped n NATIONAL) as [x| |]; try discriminate. cbn [bind]. intros E. injection E as <-. intros H. apply app_eq_nil in H as [_ H]. discriminate H. }
  destruct (_ && _); [apply format_not_blank; auto|]. destruct (formatNsn _ _ _) as [x| |]; try discriminate. cbn [bind].
  generalize (if negb (is_empty (mbytes md_pref_iprefix (getMetadataForRegion shipped from))) then mbytes md_pref_iprefix (getMetadataForRegion shipped from)
     else if re_match uniqueInternationalPrefix (mbytes md_iprefix (getMetadataForRegion shipped from)) then mbytes md_iprefix (getMetadataForRegion shipped from) else []).
  intros ipf. destruct ipf; cbn [is_empty negb]; intros E; injection E as <-; discriminate.
Qed.
Lemma get_npfr_none f : get_npfr (set_npfr f None) = [].
Proof. reflexivity. Qed.
Lemma chosen_in l s f : chooseFormattingPatternForNumber l s = Ret (Some f) -> In f l.
Proof.
  induction l as [|a l IH]; cbn [chooseFormattingPatternForNumber]; [discriminate|]. intros H.
  repeat match type of H with context [bind ?m _] => destruct m; cbn [bind] in H; try discriminate | context [match ?b with _ => _ end] => destruct b end;
    try (inv H; left; reflexivity); try (right; apply IH; exact H).
Qed.
Lemma original_national_not_blank n s : original_national shipped n = Ret s -> s <> [].
Proof.
  unfold original_national. destruct (Format shipped n NATIONAL) as [nat| |] eqn:En; try discriminate. cbn [bind]. pose proof (format_not_blank n NATIONAL nat (or_introl eq_refl) En) as NB.
  destruct (is_empty _); [intros E; inv E; auto|]. destruct (rawInputContainsNationalPrefix _ _ _ _) as [c| |]; try discriminate. cbn [bind]. destruct c; [intros E; inv E; auto|].
  destruct (chooseFormattingPatternForNumber _ _) as [fr| |] eqn:Ec; try discriminate. cbn [bind]. destruct fr as [f|]; [|intros E; inv E; auto].
  destruct (index_of _ _) as [[|i]|]; try (intros E; inv E; auto; fail). destruct (is_empty _); [intros E; inv E; auto|].
  unfold FormatByPattern. cbv zeta. destruct (negb _) eqn:V; [intros E; inv E; apply nsn_nonempty|].
  assert (If : exists m, In m (map snd (c_region shipped) ++ map snd (c_nongeo shipped)) /\ In f (md_nf m)).
  { apply chosen_in in Ec. destruct (getMetadataForRegion shipped _) as [m|] eqn:Em; [|destruct Ec]. exists m. split; [eapply region_meta_in; eauto|exact Ec]. }
  destruct If as (m & Im & If). destruct (meta_in_blank_free _ Im _ If) as [B _].
  destruct (chooseFormattingPatternForNumber [_] _) as [[f'|]| |] eqn:Ec'; cbn [bind]; try discriminate.
  - apply chosen_in in Ec'. destruct Ec' as [<-|[]]. rewrite get_npfr_none. cbn [is_empty negb]. unfold formatNsnUsingPattern, formatNsnUsingPatternWithCarrier, must_compile.
    change (get_pattern (set_npfr f None)) with (get_pattern f). change (get_format (set_npfr f None)) with (get_format f). rewrite get_npfr_none.
    destruct (compile (get_pattern f)) as [x|] eqn:Ex; [|discriminate]. cbn [or_panic bind pformat_eqb andb is_empty negb prefixNumberWithCountryCallingCode].
    intros E. inv E. intros H. apply app_eq_nil in H as [H _]. revert H. apply (blank_free_ok _ _ _ _ B Ex (nsn_nonempty n)).
  - cbn [prefixNumberWithCountryCallingCode]. intros E. inv E. intros H. apply app_eq_nil in H as [H _]. revert H. apply nsn_nonempty.
Qed.

Lemma original_spec C n from s : get_raw n <> [] -> get_src n <> UNSPECIFIED -> FormatInOriginalFormat C n from = Ret s ->
  s = [] \/ NormalizeDiallableCharsOnly s = NormalizeDiallableCharsOnly (get_raw n).
Proof.
  intros R Sr. unfold FormatInOriginalFormat. assert (Ne : is_empty (get_raw n) = false) by (destruct (get_raw n); [congruence|reflexivity]). rewrite Ne.
  destruct (hasFormattingPatternForNumber C n) as [h| |]; try discriminate. cbn [bind]. destruct h; cbn [negb]; [|intros E; inv E; auto].
  assert (K : forall m : M bytes, (f <- m ;; if negb (is_empty f) && true && negb (beq (NormalizeDiallableCharsOnly f) (NormalizeDiallableCharsOnly (get_raw n))) then Ret (get_raw n) else Ret f) = Ret s ->
    s = [] \/ NormalizeDiallableCharsOnly s = NormalizeDiallableCharsOnly (get_raw n)).
  { intros [f| |]; cbn [bind]; try discriminate. destruct (is_empty f) eqn:Ef; cbn [negb andb]; [intros E; inv E; left; apply is_empty_iff; auto|].
    destruct (beq _ _) eqn:Eb; cbn [negb]; intros E; inv E; [right; apply beq_eq; auto|auto]. }
  destruct (get_src n); [congruence|apply K..].
Qed.
Lemma original_shipped n from s : get_raw n <> [] -> get_src n <> UNSPECIFIED -> nn_of n <> 0 -> FormatInOriginalFormat shipped n from = Ret s ->
  NormalizeDiallableCharsOnly s = NormalizeDiallableCharsOnly (get_raw n).
Proof.
  intros R Sr N0 E. destruct (original_spec _ _ _ _ R Sr E) as [->|H]; auto. exfalso. revert E.
  assert (PR : printed_raw n = false) by (unfold printed_raw; apply N.eqb_neq in N0; change (get_nn n) with (nn_of n); rewrite N0; auto).
  unfold FormatInOriginalFormat. assert (Ne : is_empty (get_raw n) = false) by (destruct (get_raw n); [congruence|reflexivity]). rewrite Ne.
  destruct (hasFormattingPatternForNumber shipped n) as [h| |] eqn:Eh; try discriminate. cbn [bind]. destruct h; cbn [negb]; [|intros E; inv E; auto].
  assert (K : forall m : M bytes, (forall f, m = Ret f -> f <> []) -> (f <- m ;; if negb (is_empty f) && true && negb (beq (NormalizeDiallableCharsOnly f) (NormalizeDiallableCharsOnly (get_raw n))) then Ret (get_raw n) else Ret f) <> Ret []).
  { intros [f| |] Hf; cbn [bind]; try discriminate. destruct (_ && _); intros E; inv E; [auto|exact (Hf _ eq_refl eq_refl)]. }
  destruct (get_src n) eqn:Es; [congruence| | | |].
  - apply K. intros f. apply format_not_blank; auto.
  - apply K. intros f. apply out_of_country_not_blank.
  - apply K. intros f. destruct (hasValidCountryCallingCode shipped (cc_of n)) eqn:V.
    + destruct (intl_shape n V PR) as (m & body & _ & _ & _ & ->). cbn [bind]. unfold slice_from. cbn [length Nat.leb skipn]. intros E H. subst f.
      unfold slice in E. destruct (_ && _); [|discriminate]. injection E as E. revert E. unfold sub. cbn [skipn]. rewrite firstn_all2 by (unfold len; cbn [length]; lia). intros E. apply app_eq_nil in E as [_ E]. discriminate.
    + exfalso. revert Eh. unfold hasFormattingPatternForNumber. change (get_cc n) with (cc_of n).
      unfold GetRegionCodeForCountryCode, regions_of. unfold hasValidCountryCallingCode in V. destruct (assocz (cc_of n) (c_cc2region shipped)); [discriminate|].
      replace (getMetadataForRegionOrCallingCode shipped (cc_of n) unknownRegion) with (@None meta) by reflexivity. discriminate.
  - apply K. intros f. apply original_national_not_blank.
Qed.
