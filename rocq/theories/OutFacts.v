(** Texts for dialling from another region parse back there. *)
From Verif Require Import Base BaseFacts Utf8 Utf8Facts Regex RegexSpec RegexFacts LangFacts Consts Types Normalize NormalizeSpec NormalizeFacts Validate Format Parse
  NumberSpec NumberFacts MetaSpec ValidateSpec ValidateFacts Container Shipped MetaFacts FormatSpec TextFacts FormatFacts FormatMore ParseSpec ParseFacts ParseMore ContextFacts
  RoundSpec DerivFacts MatcherTotal RoundTripFacts PropsNumber PropsValidate PropsFormat PropsRound RuleSpec RuleFacts RuleMore ReadSpec ReadFacts ReadMore PropsRead ExtSpec ExtFacts BackFacts NationalFacts NationalMore.
Local Opaque compile re_find re_replace_all.

(** What is read after a plus sign is read in the same way after the region's international prefix. *)
Lemma plus_to_exit C r m d rest n : wf_container C -> parse_ok C -> getMetadataForRegion C r = Some m -> all_digits d = true -> (2 <= length d <= 250)%nat ->
  dials_abroad m d rest -> (3 <= length rest <= 249)%nat -> Parse C (43 :: rest) [] = Ret (n, None) ->
  exists n', Parse C d r = Ret (n', None) /\ cc_of n' = cc_of n /\ GetNationalSignificantNumber n' = GetNationalSignificantNumber n /\ p_ext n' = None.
Proof.
  intros W PO Em D L DA Lr H.
  assert (Dr : all_digits rest = true).
  { destruct DA as (x & g & _ & _ & _ & -> & _). unfold all_digits in *. rewrite forallb_forall in *. intros c I. apply D. rewrite <- (firstn_skipn (m_end g) d). apply in_or_app. auto. }
  destruct (reads_plus_digits C [] rest W PO ltac:(discriminate) Dr Lr) as (o & R & O).
  destruct (parse_agree C (43 :: rest) [] W) as [(e & n1 & n2 & H1 & _)|(n1 & n2 & H1 & H2 & Q)]; [congruence|]. rewrite H in H1. inv H1.
  destruct o as [src cc nsn car|e]; cbn [outcome] in O; [|destruct O; congruence]. destruct O as (n3 & H3 & Ecc & Ens & _). rewrite H2 in H3. inv H3.
  destruct R as [R|(_ & [(m0 & r0 & E0 & _)|[(m0 & c0 & mm0 & E0 & _)|(_ & X)]])]; [|discriminate E0|discriminate E0|discriminate X].
  destruct R as [(_ & X)|(L2 & cc' & t & mm & Fr & Me & F)]; [discriminate|].
  assert (Ecc' : cc' = cc_of n3 /\ finished mm t FROM_NUMBER_WITH_IDD cc' (Means FROM_NUMBER_WITH_IDD cc' (GetNationalSignificantNumber n3) car)).
  { destruct F as [(_ & X)|(Lt & a & b & Nn & X)]; [discriminate|]. split.
    - destruct (length a <? 2)%nat; [discriminate|]. destruct (17 <? length a)%nat; [discriminate|]. congruence.
    - right. split; [exact Lt|]. exists a, b. split; [exact Nn|]. destruct (length a <? 2)%nat; [discriminate|]. destruct (17 <? length a)%nat; [discriminate|]. congruence. }
  destruct Ecc' as [-> F'].
  destruct (reads_digits C r m d W PO Em D L) as (o & R & O).
  assert (R' : reads C m d (Means FROM_NUMBER_WITH_IDD (cc_of n3) (GetNationalSignificantNumber n3) car)).
  { left. exists rest. split; [exact DA|]. left. right. split; [exact L2|]. exists (cc_of n3), t, mm. auto. }
  rewrite (reads_unique C m d o _ W R R') in O. cbn [outcome] in O. destruct O as (n' & Hn' & E1 & E2 & _ & _ & _ & E3).
  destruct (parse_agree C d r W) as [(e & n4 & n5 & H4 & H5)|(n4 & n5 & H4 & H5 & Q')]; [congruence|]. rewrite Hn' in H5. inv H5.
  exists n4. split; [exact H4|]. destruct Q as (Q1 & Q2 & _ & Q3 & Q4 & _), Q' as (Q1' & Q2' & Q0' & Q3' & Q4' & _).
  destruct (same_value _ _ Q1 Q2 Q3 Q4) as [-> ->]. destruct (same_value _ _ Q1' Q2' Q3' Q4') as [-> ->]. split; [auto|]. split; [auto|]. congruence.
Qed.

(** The text: the prefix, a space and the INTERNATIONAL text without its plus sign. *)
Theorem out_text C n from mf p intl : wf_container C -> parse_ok C -> rules_fine C -> rules_tame C -> marks_known C -> hasValidCountryCallingCode C (cc_of n) = true -> printed_raw n = false ->
  (2 <= length (GetNationalSignificantNumber n) <= 17)%nat -> all_digits (ext_of n) = true -> (length (ext_of n) <= 9)%nat ->
  getMetadataForRegion C from = Some mf -> all_digits p = true -> (length p <= 10)%nat -> Format C n INTERNATIONAL = Ret (43 :: intl) ->
  dials_abroad mf (p ++ itoa (cc_of n) ++ GetNationalSignificantNumber n) (itoa (cc_of n) ++ GetNationalSignificantNumber n) ->
  forall r, Parse C (43 :: itoa (cc_of n) ++ GetNationalSignificantNumber n) [] = Ret (r, None) ->
  exists n', Parse C (p ++ 32 :: intl) from = Ret (n', None) /\ cc_of n' = cc_of r /\ GetNationalSignificantNumber n' = GetNationalSignificantNumber r /\ ext_of n' = ext_of n.
Proof.
  intros W PO RF RT MK V R Ls De Le Em Dp Lp Fi DA r Hr. destruct (format_rule C n INTERNATIONAL W RF R (or_intror eq_refl) V) as (m & body & Me & P & F). pose proof (valid_cc_pos _ _ W V) as Pos. destruct (itoa_len _ Pos) as [Da La].
  destruct (main_entry_ok C _ W V) as (m' & Me' & Em' & _). assert (m' = m). { destruct Me as (r0 & l & A & B). destruct Me' as (r' & l' & A' & B'). rewrite A in A'. injection A' as <- <-. rewrite B in B'. injection B' as <-. reflexivity. }
  subst m'. apply main_meta_in in Em'. pose proof (printed_neat m _ _ (RT m Em') P) as Nb. pose proof Nb as (Wv & Lb & Lo). pose proof (nsn_digits n) as Ds. set (s := GetNationalSignificantNumber n) in *. set (a := itoa (cc_of n)) in *.
  assert (Ns : s <> []) by (intros E; rewrite E in Ls; cbn [length] in Ls; lia).
  change (prefixNumberWithCountryCallingCode (cc_of n) INTERNATIONAL (body ++ extension_text m (ext_of n))) with (43 :: a ++ 32 :: body ++ extension_text m (ext_of n)) in F.
  rewrite F in Fi. injection Fi as <-.
  specialize (MK m Em'). apply existsb_exists in MK as ((q & k) & Iq & Eq). cbn [fst snd] in Eq. apply andb_true_iff in Eq as [Eq Lk]. apply beq_eq in Eq. apply Nat.leb_le in Lk. pose proof (labels_short q k Iq) as [Lq _].
  destruct (plus_to_exit C from mf (p ++ a ++ s) (a ++ s) r W PO Em) as (n0 & P0 & E1 & E2 & E3); auto.
  { rewrite !all_digits_app, Dp, Da, Ds. reflexivity. }
  { rewrite !app_length. lia. }
  { rewrite !app_length. lia. }
  set (h := p ++ 32 :: a ++ [32]).
  assert (Dh : forall w, all_digits w = true -> forallb head_char w = true). { intros w Hw. apply forallb_forall. intros c I. unfold all_digits in Hw. rewrite forallb_forall in Hw. unfold head_char. rewrite (Hw c I). reflexivity. }
  assert (Hh : forallb head_char h = true). { unfold h. rewrite forallb_app. cbn [forallb]. rewrite forallb_app, (Dh p Dp), (Dh a Da). reflexivity. }
  assert (Fh : filter dig h = p ++ a). { unfold h. rewrite filter_app. cbn [filter]. rewrite filter_app, (dig_filter p Dp), (dig_filter a Da). cbn. rewrite app_nil_r. reflexivity. }
  assert (Lh : (length h <= 15)%nat). { unfold h. rewrite app_length. cbn [length]. rewrite app_length. cbn [length]. lia. }
  assert (L3 : (3 <= length (filter dig h ++ s))%nat) by (rewrite Fh, !app_length; lia).
  destruct (ext_of n) as [|e0 e] eqn:Ee.
  - cbn [extension_text]. rewrite app_nil_r. exists n0. split; [|split; [exact E1|]; split; [exact E2|unfold ext_of; rewrite E3; reflexivity]].
    apply (core_parse C _ (p ++ a ++ s)); auto. replace (p ++ 32 :: a ++ 32 :: body) with (h ++ body) by (unfold h; rewrite <- !app_assoc; cbn [app]; rewrite <- app_assoc; reflexivity).
    replace (p ++ a ++ s) with (filter dig h ++ s) by (rewrite Fh, <- app_assoc; reflexivity). apply shown_core; auto; rewrite app_length; lia.
  - replace (extension_text m (e0 :: e)) with (q ++ e0 :: e) by (unfold extension_text; rewrite Eq; destruct (get_bytes (md_extn m)); reflexivity).
    exists (set_ext n0 (Some (e0 :: e))). split; [|destruct n0; split; [exact E1|]; split; [exact E2|reflexivity]].
    apply (core_parse_ext C _ (p ++ a ++ s)); auto; [discriminate|]. replace (p ++ 32 :: a ++ 32 :: body ++ q ++ e0 :: e) with ((h ++ body) ++ q ++ e0 :: e) by (unfold h; rewrite <- !app_assoc; cbn [app]; rewrite <- !app_assoc; reflexivity).
    replace (p ++ a ++ s) with (filter dig h ++ s) by (rewrite Fh, <- app_assoc; reflexivity). apply (shown_core_ext C h s body from q k (e0 :: e)); auto; [cbn [length] in *; lia|rewrite !app_length; cbn [length] in *; lia].
Qed.
