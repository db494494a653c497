(** More about formatting rules: the described text is unique, RFC3966 groups, carrier codes, calls from abroad. *)
From Verif Require Import Base BaseFacts Utf8 Utf8Facts Regex RegexSpec RegexFacts Consts Types Normalize NormalizeSpec NormalizeFacts Validate Format
  NumberSpec NumberFacts MetaSpec ValidateSpec ValidateFacts Container Shipped MetaFacts FormatSpec TextFacts LangFacts FormatFacts FormatMore DerivFacts RoundTripFacts
  RuleSpec RuleFacts.
Local Opaque compile re_find re_replace_all.

(** * Uniqueness *)
Lemma first_applying_unique l s : forall r r', first_applying l s r -> first_applying l s r' -> r = r'.
Proof.
  assert (G : forall f pre post r', l = pre ++ f :: post -> applies f s -> (forall g, In g pre -> ~ applies g s) -> first_applying l s r' -> r' = Some f).
  { intros f pre post [f'|] E A P H.
    - destruct H as (pre' & post' & E' & A' & P'). rewrite E in E'. clear E. revert pre' P' E'. induction pre as [|g pre IH]; intros [|g' pre'] P' E'; cbn [app] in E'.
      + inv E'. reflexivity.
      + inv E'. exfalso. apply (P' g'); [left; auto|auto].
      + inv E'. exfalso. apply (P f'); [left; auto|auto].
      + injection E' as -> E'. apply (IH (fun g I => P g (or_intror I)) pre'); [|exact E']. intros g I. apply P'. right. auto.
    - exfalso. apply (H f); auto. rewrite E. apply in_or_app. right. left. auto. }
  intros [f|] [f'|] H H'; auto.
  - destruct H as (pre & post & E & A & P). symmetry. eapply G; eauto.
  - destruct H as (pre & post & E & A & P). symmetry. eapply G; eauto.
  - destruct H' as (pre & post & E & A & P). eapply G; eauto.
Qed.
Lemma first_dollar (a a' b b' : bytes) : ~ In 36 a -> ~ In 36 a' -> a ++ 36 :: b = a' ++ 36 :: b' -> a = a' /\ b = b'.
Proof.
  revert a'. induction a as [|c a IH]; intros [|c' a'] H H' E; cbn [app] in E.
  - inv E. auto.
  - inv E. exfalso. apply H'. left. auto.
  - inv E. exfalso. apply H. left. auto.
  - injection E as -> E. destruct (IH a') as [-> ->]; auto; intros I; [apply H|apply H']; right; auto.
Qed.
Lemma combined_unique f r t t' : combined f r t -> combined f r t' -> t = t'.
Proof.
  intros (a & d & b & u & v & E1 & _ & N1 & E2 & N2 & _ & _ & ->) (a' & d' & b' & u' & v' & E1' & _ & N1' & E2' & N2' & _ & _ & ->).
  rewrite E1 in E1'. rewrite E2 in E2'. apply first_dollar in E1' as [-> E1']; auto. apply first_dollar in E2' as [-> E2']; auto. inv E1'. inv E2'. reflexivity.
Qed.
Lemma with_carrier_unique f c r r' : with_carrier f c r -> with_carrier f c r' -> r = r'.
Proof.
  intros (u & v & E & N1 & ->) (u' & v' & E' & N1' & ->). rewrite E in E'. change (bs "$CC") with [36; 67; 67] in E'. cbn [app] in E'.
  apply first_dollar in E' as [-> E']; auto. inv E'. reflexivity.
Qed.
Lemma template_unique f nf c t t' : template f nf c t -> template f nf c t' -> t = t'.
Proof.
  destruct nf; cbn [template]; try congruence. destruct (_ && _).
  - intros (r & H1 & H2) (r' & H1' & H2'). pose proof (with_carrier_unique _ _ _ _ H1 H1'). subst r'. eapply combined_unique; eauto.
  - destruct (is_empty _); [congruence|]. apply combined_unique.
Qed.
Lemma printed_unique m nf c s o o' : printed m nf c s o -> printed m nf c s o' -> o = o'.
Proof.
  intros (r & H & E) (r' & H' & E'). pose proof (first_applying_unique _ _ _ _ H H'). subst r'. destruct r as [f|]; [|congruence].
  destruct E as (x & t & C & T & ->). destruct E' as (x' & t' & C' & T' & ->). rewrite C in C'. inv C'. pose proof (template_unique _ _ _ _ _ T T'). congruence.
Qed.

(** * The main entry *)
Lemma main_entry_ok C cc : wf_container C -> hasValidCountryCallingCode C cc = true -> exists m, main_entry C cc m /\ main_meta C cc = Some m /\ wf_meta m.
Proof.
  intros W H. apply hasValid_In in H as (l & I & R). unfold main_meta, GetRegionCodeForCountryCode, main_entry. rewrite R.
  destruct l as [|r l]; [destruct (wf_cc _ W _ _ I) as (_ & Ne & _); congruence|].
  destruct (nongeo_valid_cc C cc (r :: l) r W I (or_introl eq_refl) R) as (m & E & E' & Wm & _). exists m. split; [|split; [exact E|exact Wm]].
  exists r, l. split; [|exact E']. unfold regions_of in R. destruct (assocz cc (c_cc2region C)); [congruence|discriminate].
Qed.
Lemma ext_text n m nf : nf <> RFC3966 -> formattedExtension n (Some m) nf = extension_text m (ext_of n).
Proof.
  intros N. unfold formattedExtension, extension_text, mbytes, mget. change (get_ext n) with (ext_of n). destruct (ext_of n); [reflexivity|].
  assert (E : pformat_eqb nf RFC3966 = false) by (destruct nf; auto; congruence). rewrite E. destruct (get_bytes (md_extn m)); reflexivity.
Qed.

(** * Format *)
Lemma format_rule C n nf : wf_container C -> rules_fine C -> printed_raw n = false -> (nf = NATIONAL \/ nf = INTERNATIONAL) -> hasValidCountryCallingCode C (cc_of n) = true ->
  exists m body, main_entry C (cc_of n) m /\ printed m nf [] (GetNationalSignificantNumber n) body /\
    Format C n nf = Ret (prefixNumberWithCountryCallingCode (cc_of n) nf (body ++ extension_text m (ext_of n))).
Proof.
  intros W F R Nf V. destruct (format_supported C n nf W R) as (m & s & Em & Wm & Es & Ef); [destruct Nf as [->| ->]; discriminate|exact V|].
  destruct (main_entry_ok C _ W V) as (m' & Me & Em' & _). rewrite Em in Em'. inv Em'.
  assert (Nr : nf <> RFC3966) by (destruct Nf as [->| ->]; discriminate).
  destruct (format_printed m' nf [] (GetNationalSignificantNumber n)) as (o & Eo & P); auto.
  { apply F. eapply main_meta_in; eauto. }
  unfold formatNsn in Es. rewrite Eo in Es. inv Es. exists m', s. split; [auto|]. split; [auto|]. rewrite Ef, ext_text by auto. reflexivity.
Qed.

(** * RFC3966 *)
Lemma stretches_cons P a s l : forallb (fun c => negb (P c)) a = true -> stretches P s l -> stretches P (a ++ s) l.
Proof.
  intros Ha H. destruct H as [s Hs|a' b c l H1 H2 H3 H4 H5].
  - constructor. rewrite forallb_app, Ha, Hs. reflexivity.
  - rewrite app_assoc. constructor; auto. rewrite forallb_app, Ha, H1. reflexivity.
Qed.
Lemma stretches_ext P Q s l : (forall c, In c s -> P c = Q c) -> stretches P s l -> stretches Q s l.
Proof.
  intros E H. induction H as [s Hs|a b c l H1 H2 H3 H4 H5 IH].
  - constructor. rewrite forallb_forall in *. intros c I. rewrite <- E by auto. auto.
  - rewrite forallb_forall in H1, H2. assert (Ea : forall x, In x a -> P x = Q x) by (intros; apply E; apply in_or_app; auto).
    assert (Eb : forall x, In x b -> P x = Q x) by (intros; apply E; apply in_or_app; right; apply in_or_app; auto).
    assert (Ec : forall x, In x c -> P x = Q x) by (intros; apply E; apply in_or_app; right; apply in_or_app; auto).
    constructor; auto.
    + apply forallb_forall. intros x I. rewrite <- Ea by auto. auto.
    + apply forallb_forall. intros x I. rewrite <- Eb by auto. auto.
    + destruct H4 as [H4|(x & t & -> & H4)]; [auto|]. right. exists x, t. split; [auto|]. rewrite <- Ec by (left; auto). auto.
Qed.
Lemma rfc_groups w o : all_digits w = true -> woven joint w o -> exists gs, stretches is_digit o gs /\ rfc3966_separators o = join gs (bs "-").
Proof.
  intros D W. assert (A : ascii o). { eapply woven_Forall; eauto; [apply digits_ascii; auto|apply joint_ascii]. }
  unfold rfc3966_separators.
  set (o' := match re_find separatorPattern o with Some m => if (m_start m =? 0)%nat then skipn (m_end m) o else o | None => o end).
  assert (Sp : exists a, o = a ++ o' /\ forallb (cls_match sep_cls) a = true).
  { unfold o'. destruct (find_plus separatorPattern sep_cls o 0 sep_plus A ltac:(lia)) as [[E _]|(m & E & L1 & L2 & _ & R & _)];
      change (find_from separatorPattern o 0) with (re_find separatorPattern o) in E; rewrite E; [exists []; auto|].
    destruct (m_start m =? 0)%nat eqn:Z; [|exists []; auto]. apply Nat.eqb_eq in Z. rewrite Z in *.
    exists (sub o 0 (m_end m)). split; auto. unfold sub. rewrite Nat.sub_0_r. symmetry. apply firstn_skipn. }
  destruct Sp as (a & Eo & Ha). clearbody o'.
  assert (A' : ascii o') by (rewrite Eo in A; apply ascii_app in A; tauto).
  pose proof (find_all_plus _ _ o' nonsep_plus A') as St. eexists. split; [|reflexivity].
  assert (Hc : forall c, In c o -> cls_match nonsep_cls c = is_digit c).
  { intros c I. rewrite nonsep_neg. destruct (woven_in _ _ _ c W D I) as [H|H].
    - rewrite H, digit_not_sep by auto. reflexivity.
    - rewrite (joint_digit _ H), (joint_sep _ H). reflexivity. }
  rewrite Eo. apply stretches_ext with (P := cls_match nonsep_cls); [intros c I; apply Hc; rewrite Eo; auto|]. apply stretches_cons; [|exact St].
  rewrite forallb_forall in *. intros c I. rewrite nonsep_neg, (Ha _ I). reflexivity.
Qed.
Lemma digits_stretch w : all_digits w = true -> w <> [] -> stretches is_digit w [w].
Proof.
  intros D Nw. rewrite <- (app_nil_r w) at 1. change (stretches is_digit ([] ++ w ++ []) [w]). constructor; auto. constructor. reflexivity.
Qed.
Lemma printed_woven m s o : meta_keeps m = true -> printed m INTERNATIONAL [] s o -> woven joint s o.
Proof.
  intros K (r & H & E). destruct r as [f|]; [|subst o; apply woven_refl].
  destruct E as (x & t & C & T & ->). cbn [template] in T. subst t. eapply rule_keeps_ok; [|exact C]. unfold meta_keeps in K. rewrite !andb_true_iff in K. destruct K as ((K & _) & _).
  rewrite forallb_forall in K. apply K. destruct H as (pre & post & El & _). unfold rules, intl_formats in *. destruct (md_inf m); rewrite El; apply in_or_app; right; left; auto.
Qed.
Lemma format_rfc n : printed_raw n = false -> hasValidCountryCallingCode shipped (cc_of n) = true ->
  exists m body gs, main_entry shipped (cc_of n) m /\ printed m INTERNATIONAL [] (GetNationalSignificantNumber n) body /\ stretches is_digit body gs /\
    Format shipped n RFC3966 = Ret (bs "tel:+" ++ itoa (cc_of n) ++ bs "-" ++ join gs (bs "-") ++ (if is_empty (ext_of n) then [] else bs ";ext=" ++ ext_of n)).
Proof.
  intros R V. destruct (format_supported shipped n RFC3966 shipped_wf R ltac:(discriminate) V) as (m & s & Em & Wm & Es & Ef).
  destruct (main_entry_ok shipped _ shipped_wf V) as (m' & Me & Em' & _). rewrite Em in Em'. inv Em'.
  assert (Fm : meta_fine m' = true) by (apply shipped_rules; eapply main_meta_in; eauto).
  destruct (format_printed m' INTERNATIONAL [] (GetNationalSignificantNumber n) Fm) as (o & Eo & P); [intros []|discriminate|].
  pose proof (printed_woven _ _ _ (main_keeps _ _ Em) P) as Wv.
  assert (G : exists gs, stretches is_digit o gs /\ s = join gs (bs "-")).
  { unfold formatNsn, formatNsnWithCarrier in Es. unfold formatNsnWithCarrier in Eo. rewrite available_rules in Eo, Es. change (rules m' RFC3966) with (rules m' INTERNATIONAL) in Es.
    destruct (chooseFormattingPatternForNumber (rules m' INTERNATIONAL) (GetNationalSignificantNumber n)) as [[f|]| |]; cbn [bind] in Eo, Es; try discriminate.
    - unfold formatNsnUsingPatternWithCarrier in Eo, Es. destruct (must_compile (get_pattern f)) as [x| |]; cbn [bind pformat_eqb andb] in Eo, Es; try discriminate.
      inv Eo. inv Es. apply rfc_groups with (w := GetNationalSignificantNumber n); auto using nsn_digits.
    - inv Eo. inv Es. exists [GetNationalSignificantNumber n]. split; [apply digits_stretch; [apply nsn_digits|apply nsn_nonempty]|reflexivity]. }
  destruct G as (gs & Hg & ->). exists m', o, gs. split; [auto|]. split; [auto|]. split; [auto|]. rewrite Ef. reflexivity.
Qed.

(** * Carrier codes *)
Lemma carrier_rule C n carrier : wf_container C -> rules_fine C -> ~ In 36 carrier -> hasValidCountryCallingCode C (cc_of n) = true ->
  exists m body, main_entry C (cc_of n) m /\ printed m NATIONAL carrier (GetNationalSignificantNumber n) body /\
    FormatNationalNumberWithCarrierCode C n carrier = Ret (body ++ extension_text m (ext_of n)).
Proof.
  intros W F Nc V. destruct (main_entry_ok C _ W V) as (m & Me & Em & _).
  destruct (format_printed m NATIONAL carrier (GetNationalSignificantNumber n)) as (o & Eo & P); [apply F; eapply main_meta_in; eauto|auto|discriminate|].
  exists m, o. split; [auto|]. split; [auto|]. unfold FormatNationalNumberWithCarrierCode. change (get_cc n) with (cc_of n). rewrite V. cbn [negb].
  fold (main_meta C (cc_of n)). rewrite Em, Eo. cbn [bind prefixNumberWithCountryCallingCode]. rewrite ext_text by discriminate. reflexivity.
Qed.
Lemma carrier_empty C n : printed_raw n = false -> FormatNationalNumberWithCarrierCode C n [] = Format C n NATIONAL.
Proof. intros R. unfold Format, FormatNationalNumberWithCarrierCode. fold (printed_raw n). rewrite R. reflexivity. Qed.
Lemma replace_front x s repl m : re_find x s = Some m -> m_start m = 0%nat -> exists rest, re_replace_func x s repl = repl m ++ rest.
Proof.
  intros F Z. unfold re_replace_func. cbn [replace_loop]. change (Nat.ltb (len s) 0) with false. cbv iota. change (find_from x s 0) with (re_find x s). rewrite F, Z.
  unfold sub. cbn [Nat.sub firstn skipn app Nat.eqb]. rewrite orb_true_r. eauto.
Qed.
Lemma expand_front u t s m : ~ In 36 u -> exists rest, expand_template (u ++ t) s m = u ++ rest.
Proof.
  intros H. unfold expand_template. assert (E : S (len (u ++ t)) = (length u + S (length t))%nat) by (unfold len; rewrite app_length; lia).
  rewrite E, expand_copy by auto. eauto.
Qed.
Lemma applies_front f x s : compile (get_pattern f) = Some x -> applies f s -> exists m, re_find x s = Some m /\ m_start m = 0%nat.
Proof. intros C ((x' & cs & C' & M) & _). apply (find_front _ _ s C). exists x', (length s), cs. auto. Qed.
Lemma carrier_shown m carrier s o f : ~ In 36 carrier -> carrier <> [] -> first_applying (md_nf m) s (Some f) -> get_dccfr f <> [] -> printed m NATIONAL carrier s o ->
  exists a b, o = a ++ carrier ++ b.
Proof.
  intros Nc Ne Fa Nd (r & H & E). pose proof (first_applying_unique _ _ _ _ Fa H). subst r. destruct E as (x & t & C & T & ->). cbn [template] in T.
  destruct carrier as [|c0 carrier0] eqn:Ec; [congruence|]. destruct (get_dccfr f) as [|d0 dc] eqn:Ed; [congruence|]. cbn [is_empty negb andb] in T. rewrite <- Ec in *. rewrite <- Ed in *.
  destruct T as (r & (w & z & E1 & N1 & ->) & (a & d & b & u & v & E2 & _ & N2 & E3 & N3 & _ & _ & ->)).
  assert (Eu : exists y, u = w ++ carrier ++ y).
  { clear -E3 N1 Nc N3. assert (G : forall p q, ~ In 36 p -> p ++ q = u ++ 36 :: 49 :: v -> exists y, u = p ++ y).
    { clear. intros p. revert u. induction p as [|c p IH]; intros u q Hp E; [exists u; auto|]. destruct u as [|c' u]; cbn [app] in E.
      - inv E. exfalso. apply Hp. left. auto.
      - injection E as -> E. destruct (IH u q) as (y & ->); auto. { intros I. apply Hp. right. auto. } exists y. reflexivity. }
    rewrite app_assoc in E3. destruct (G (w ++ carrier) z) as (y & ->); [intros I; apply in_app_or in I as [I|I]; auto|auto|]. exists y. rewrite app_assoc. reflexivity. }
  destruct Eu as (y & ->). destruct H as (pre & post & _ & Ap & _). destruct (applies_front _ _ _ C Ap) as (g & Fg & Z).
  Local Transparent re_replace_all. unfold re_replace_all.
  destruct (replace_front x s (fun mm => expand_template (a ++ (w ++ carrier ++ y) ++ 36 :: d :: v ++ b) s mm) g Fg Z) as (rest & ->).
  replace (a ++ (w ++ carrier ++ y) ++ 36 :: d :: v ++ b) with ((a ++ w ++ carrier) ++ y ++ 36 :: d :: v ++ b) by (rewrite <- !app_assoc; reflexivity).
  destruct (expand_front (a ++ w ++ carrier) (y ++ 36 :: d :: v ++ b) s g) as (rest' & ->).
  { intros I. apply in_app_or in I as [I|I]; [auto|]. apply in_app_or in I as [I|I]; auto. }
  exists (a ++ w), (rest' ++ rest). rewrite <- !app_assoc. reflexivity.
Qed.
Local Opaque re_replace_all.

(** * Calls from abroad *)
Definition exits_ok (C : container) (r : bytes) (m : meta) : bool := let ip := get_bytes (md_iprefix m) in
  Bool.eqb (re_match uniqueInternationalPrefix ip) (negb (is_empty ip) && all_digits ip) && Bool.eqb (IsNANPACountry C r) (Z.eqb (mcc (Some m)) 1).
Lemma shipped_exits r m : assocb r (c_region shipped) = Some m -> exits_ok shipped r m = true.
Proof.
  assert (H : forallb (fun rm => exits_ok shipped (fst rm) (snd rm)) (c_region shipped) = true) by (vm_cast_no_check (eq_refl true)).
  intros E. rewrite forallb_forall in H. apply (H (r, m)). apply assocb_In. auto.
Qed.
Lemma abroad_spec C n from mf : wf_container C -> printed_raw n = false -> hasValidCountryCallingCode C (cc_of n) = true ->
  In from (c_regions C) -> assocb from (c_region C) = Some mf -> exits_ok C from mf = true ->
  exists s nat intl, FormatOutOfCountryCallingNumber C n from = Ret s /\ Format C n NATIONAL = Ret nat /\ Format C n INTERNATIONAL = Ret (43 :: intl) /\
    s = if Z.eqb (mcc (Some mf)) (cc_of n) then (if Z.eqb (cc_of n) 1 then bs "1 " ++ nat else nat)
        else match exit_prefix mf with [] => 43 :: intl | p => p ++ bs " " ++ intl end.
Proof.
  intros W R V I E X. apply andb_true_iff in X as [X1 X2]. apply eqb_prop in X1. apply eqb_prop in X2.
  assert (Vf : isValidRegionCode C from = true).
  { unfold isValidRegionCode. apply andb_true_iff. split; [|apply mem_bytes_iff; auto]. destruct (wf_supported _ W _ I) as (Ne & _). destruct from; [congruence|reflexivity]. }
  destruct (format_supported C n NATIONAL W R ltac:(discriminate) V) as (m & nb & Em & Wm & En & Ef).
  destruct (format_supported C n INTERNATIONAL W R ltac:(discriminate) V) as (m' & ib & Em' & _ & Ei & Eg). rewrite Em in Em'. injection Em' as <-.
  unfold FormatOutOfCountryCallingNumber. rewrite Vf. cbn [negb]. change (get_cc n) with (cc_of n). rewrite V. cbn [negb]. fold (main_meta C (cc_of n)).
  unfold getCountryCodeForValidRegion, getMetadataForRegion. rewrite Vf, E, X2, Em, Ef, Ei, Eg. cbn [bind prefixNumberWithCountryCallingCode].
  unfold nanpaCountryCode.
  assert (Same : Z.eqb (cc_of n) (mcc (Some mf)) = Z.eqb (mcc (Some mf)) (cc_of n)) by apply Z.eqb_sym. rewrite Same.
  destruct (Z.eqb_spec (cc_of n) 1) as [E1|E1].
  - rewrite E1. cbn [andb negb]. destruct (Z.eqb_spec (mcc (Some mf)) 1) as [E2|E2].
    + do 3 eexists. split; [reflexivity|]. split; [reflexivity|]. split; [reflexivity|]. reflexivity.
    + cbn [negb andb]. do 3 eexists. split; [reflexivity|]. split; [reflexivity|]. split; [reflexivity|]. unfold exit_prefix, mbytes, mget. rewrite X1.
      destruct (get_bytes (md_pref_iprefix mf)) as [|p0 ps]; cbn [is_empty negb]; [|reflexivity].
      destruct (get_bytes (md_iprefix mf)) as [|q0 qs]; cbn [is_empty negb andb]; [reflexivity|]. destruct (all_digits (q0 :: qs)); reflexivity.
  - cbn [andb negb]. destruct (Z.eqb_spec (mcc (Some mf)) (cc_of n)) as [E2|E2].
    + do 3 eexists. split; [reflexivity|]. split; [reflexivity|]. split; [reflexivity|]. reflexivity.
    + do 3 eexists. split; [reflexivity|]. split; [reflexivity|]. split; [reflexivity|]. unfold exit_prefix, mbytes, mget. rewrite X1.
      destruct (get_bytes (md_pref_iprefix mf)) as [|p0 ps]; cbn [is_empty negb]; [|reflexivity].
      destruct (get_bytes (md_iprefix mf)) as [|q0 qs]; cbn [is_empty negb andb]; [reflexivity|]. destruct (all_digits (q0 :: qs)); reflexivity.
Qed.
Lemma abroad_unknown C n from : ~ In from (c_regions C) -> FormatOutOfCountryCallingNumber C n from = Format C n INTERNATIONAL.
Proof.
  intros N. unfold FormatOutOfCountryCallingNumber. replace (isValidRegionCode C from) with false; [reflexivity|]. symmetry. apply not_true_iff_false. unfold isValidRegionCode.
  rewrite andb_true_iff. intros [_ H]. apply mem_bytes_iff in H. auto.
Qed.

(** * Patterns of descriptors *)
Definition meta_framed (m : meta) : bool := forallb (fun d => framed_b (get_d_pattern d)) (typed_descs m) &&
  (is_empty (get_bytes (md_leading m)) || framed_left_b (get_bytes (md_leading m))).
Definition descs_framed (C : container) : Prop := forall m, In m (map snd (c_region C) ++ map snd (c_nongeo C)) -> meta_framed m = true.
Lemma shipped_framed : descs_framed shipped.
Proof.
  assert (H : forallb meta_framed (map snd (c_region shipped) ++ map snd (c_nongeo shipped)) = true) by (vm_cast_no_check (eq_refl true)).
  unfold descs_framed. rewrite forallb_forall in H. exact H.
Qed.
Lemma full_match_all p s : framed p -> full_match p s <-> matches_all p s.
Proof.
  intros F. pose proof F as (x & y & Cx & Cy & _). rewrite <- (framed_match p y s F Cy). unfold full_match. split.
  - intros (y' & C & M). rewrite Cy in C. inv C. auto.
  - eauto.
Qed.
Lemma starts_front p s : framed_left p -> starts_with p s <-> matches_front p s.
Proof.
  intros F. pose proof F as (x & y & Cx & Cy & _). rewrite <- (framed_left_match p y s F Cy). unfold starts_with. split.
  - intros (y' & C & M). rewrite Cy in C. inv C. auto.
  - eauto.
Qed.
