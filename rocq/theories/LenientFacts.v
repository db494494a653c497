(** What the leniency levels ask. *)
From Verif Require Import Base BaseFacts UnicodeTables Utf8 Utf8Facts Regex RegexSpec RegexFacts LangFacts Consts Types Normalize NormalizeSpec NormalizeFacts Validate Format Parse
  NumberSpec NumberFacts MetaSpec ValidateSpec ValidateFacts Container Shipped MetaFacts FormatSpec TextFacts FormatFacts FormatMore ParseSpec ParseFacts ParseMore ContextFacts
  RoundSpec DerivFacts Matcher MatcherSpec MatcherFacts MatcherRun MatcherTotal RoundTripFacts RuleSpec RuleFacts RuleMore ReadSpec ReadFacts
  FindSpec FindFacts FindMore FindPrint FindShip PropsTotal AytfSpec AytfFacts LenientSpec.
Local Opaque compile re_find re_replace_all re_find_all re_match.

(** * The letter x *)
Lemma leading_all s : forallb letter_x s = true -> leading_x s = length s.
Proof. induction s as [|c s IH]; [reflexivity|]. cbn [forallb leading_x length]. intros H. apply andb_true_iff in H as [-> H]. rewrite IH by auto. reflexivity. Qed.
Lemma forallb_rev (P : N -> bool) s : forallb P (rev s) = forallb P s.
Proof. induction s as [|c s IH]; [reflexivity|]. cbn [rev forallb]. rewrite forallb_app, IH. cbn [forallb]. rewrite andb_true_r. apply andb_comm. Qed.
Lemma leading_app s t : leading_x (s ++ t) = if forallb letter_x s then (length s + leading_x t)%nat else leading_x s.
Proof. induction s as [|c s IH]; [reflexivity|]. cbn [app leading_x forallb length]. destruct (letter_x c); [|reflexivity]. cbn [andb]. rewrite IH. destruct (forallb letter_x s); reflexivity. Qed.
Lemma trailing_cons c a : trailing_x (c :: a) = if forallb letter_x a then (if letter_x c then S (length a) else length a) else trailing_x a.
Proof.
  unfold trailing_x. cbn [rev]. rewrite leading_app, forallb_rev, rev_length. destruct (forallb letter_x a); [|reflexivity]. cbn [leading_x]. destruct (letter_x c); lia.
Qed.
Lemma trailing_all a : forallb letter_x a = true -> trailing_x a = length a.
Proof. intros H. unfold trailing_x. rewrite leading_all by (rewrite forallb_rev; auto). apply rev_length. Qed.
Lemma x_rule_cons C n c s : letter_x c = false -> x_rule C n (c :: s) <-> x_rule C n s.
Proof.
  intros Hc. assert (T : forall a, trailing_x (c :: a) = trailing_x a). { intros a. rewrite trailing_cons, Hc. destruct (forallb letter_x a) eqn:E; [|reflexivity]. symmetry. apply trailing_all. exact E. }
  split; intros H a e d b E X P.
  - apply (H (c :: a) e d b); [cbn [app]; rewrite E; reflexivity|exact X|rewrite T; exact P].
  - destruct a as [|c' a]; cbn [app] in E.
    + injection E as -> _. congruence.
    + injection E as <- ->. rewrite T in P. eapply H; eauto.
Qed.
Lemma x_rule_single C n c d s : letter_x c = true -> letter_x d = false -> x_rule C n (c :: d :: s) <-> NormalizeDigitsOnly (c :: d :: s) = ext_of n /\ x_rule C n (d :: s).
Proof.
  intros Hc Hd. assert (T : forall a, trailing_x (c :: d :: a) = trailing_x (d :: a)). { intros a. rewrite trailing_cons. cbn [forallb]. rewrite Hd. reflexivity. }
  split.
  - intros H. split; [pose proof (H [] c d s eq_refl Hc eq_refl) as K; rewrite Hd in K; exact K|]. intros a e f b E X P. destruct a as [|d' a]; cbn [app] in E.
    + injection E as -> _. congruence.
    + injection E as <- E. apply (H (c :: d :: a) e f b); [cbn [app]; rewrite E; reflexivity|exact X|rewrite T; exact P].
  - intros [H1 H2] a e f b E X P. destruct a as [|c' a]; cbn [app] in E.
    + injection E as <- <- <-. rewrite Hd. exact H1.
    + injection E as <- E. destruct a as [|d' a]; cbn [app] in E; [injection E as -> _; congruence|]. injection E as <- E. rewrite T in P. apply (H2 (d :: a) e f b); [cbn [app]; rewrite E; reflexivity|exact X|exact P].
Qed.
Lemma even_SS k : Nat.even (S (S k)) = Nat.even k. Proof. reflexivity. Qed.
Lemma x_rule_double C n c d s : letter_x c = true -> letter_x d = true -> x_rule C n (c :: d :: s) <-> IsNumberMatchWithOneNumber C n (d :: s) = Ret NSN_MATCH /\ x_rule C n s.
Proof.
  intros Hc Hd. assert (T : forall a, Nat.even (trailing_x (c :: d :: a)) = Nat.even (trailing_x a)).
  { intros a. rewrite !trailing_cons. cbn [forallb length]. rewrite Hc, Hd. cbn [andb]. destruct (forallb letter_x a) eqn:E; [|reflexivity]. rewrite (trailing_all a E), even_SS. reflexivity. }
  split.
  - intros H. split; [pose proof (H [] c d s eq_refl Hc eq_refl) as K; rewrite Hd in K; exact K|]. intros a e f b E X P.
    apply (H (c :: d :: a) e f b); [cbn [app]; rewrite E; reflexivity|exact X|rewrite T; exact P].
  - intros [H1 H2] a e f b E X P. destruct a as [|c' [|d' a]]; cbn [app] in E.
    + injection E as <- <- <-. rewrite Hd. exact H1.
    + exfalso. injection E as <- <- _. rewrite trailing_cons in P. cbn [forallb length] in P. rewrite Hc in P. discriminate.
    + injection E as <- <- ->. rewrite T in P. eapply H2; eauto.
Qed.
Lemma x_rule_short C n s : (length s <= 1)%nat -> x_rule C n s.
Proof. intros L a c d b -> _ _. exfalso. rewrite app_length in L. cbn [length] in L. lia. Qed.
Lemma xchars_spec C n s : wf_container C -> exists b, containsOnlyValidXChars C n s = Ret b /\ (b = true <-> x_rule C n s).
Proof.
  intros W. remember (length s) as k eqn:Ek. assert (L : (length s <= k)%nat) by lia. clear Ek. revert s L. induction k as [|k IH]; intros [|c [|d s]] L.
  1,2,4,5: exists true; split; [reflexivity|]; split; [intros _; apply x_rule_short; cbn; lia|reflexivity].
  - cbn [length] in L. lia.
  - cbn [length] in L. rewrite xchars_step. change is_x with letter_x. destruct (letter_x c) eqn:Hc.
    + destruct (letter_x d) eqn:Hd.
      * destruct (one_number_total C n (d :: s) W) as (v & Ev). rewrite Ev. cbn [bind]. pose proof (x_rule_double C n c d s Hc Hd) as K. rewrite Ev in K.
        destruct (IH s ltac:(lia)) as (b & Eb & Hb). destruct v; try (exists false; split; [reflexivity|]; rewrite K; split; [discriminate|intros [Q _]; discriminate]).
        exists b. split; [exact Eb|]. rewrite K, Hb. split; [auto|tauto].
      * pose proof (x_rule_single C n c d s Hc Hd) as K. change (get_ext n) with (ext_of n). destruct (beq_spec (NormalizeDigitsOnly (c :: d :: s)) (ext_of n)) as [E|E].
        -- destruct (IH (d :: s) ltac:(cbn [length]; lia)) as (b & Eb & Hb). exists b. split; [exact Eb|]. rewrite K, Hb. split; [auto|tauto].
        -- exists false. split; [reflexivity|]. rewrite K. split; [discriminate|intros [Q _]; congruence].
    + destruct (IH (d :: s) ltac:(cbn [length]; lia)) as (b & Eb & Hb). exists b. split; [exact Eb|]. rewrite x_rule_cons by auto. exact Hb.
Qed.

(** * The national prefix *)
Definition lit (c : N) : regex := RClass {| cneg := false; citems := [CR c c]; cfold := false |}.
Lemma decode_low s c t : decode_rune s = Some (c, t) -> c < 128 -> s = c :: t.
Proof. intros D L. rewrite (decode_inv _ _ _ D); [|unfold rune_error; lia]. unfold encode_rune. rewrite (proj2 (N.ltb_lt _ _) L). reflexivity. Qed.
Lemma lit_step c p s cs p' t cs' : c < 128 -> derives (lit c) p s cs p' t cs' -> s = c :: t.
Proof.
  intros L D. unfold lit in D. inv D. match goal with H : decode_rune s = _ |- _ => rename H into Hd end. match goal with H : cls_match _ _ = true |- _ => rename H into Hk end.
  assert (E : c0 = c). { cbn in Hk. unfold in_rng in Hk. rewrite orb_false_r, andb_true_iff, !N.leb_le in Hk. lia. }
  subst c0. apply decode_low; auto.
Qed.
Lemma opt_step c p s cs p' t cs' : c < 128 -> derives (RAlt (RCat (lit c) REmpty) REmpty) p s cs p' t cs' -> s = c :: t \/ s = t.
Proof.
  intros L D. inv D; [left|right].
  - match goal with H : derives (RCat _ _) _ _ _ _ _ _ |- _ => inv H end. match goal with H : derives REmpty _ _ _ _ _ _ |- _ => inv H end. eapply lit_step; eauto.
  - match goal with H : derives REmpty _ _ _ _ _ _ |- _ => inv H end. reflexivity.
Qed.
Lemma bare_match s : re_match firstGroupOnlyPrefixPattern s = true <-> In s bare_rules.
Proof.
  split.
  - rewrite re_match_iff. intros (i & e & w & cs & _ & D).
    change (re_ast firstGroupOnlyPrefixPattern) with (RCat RBegin (RCat (RAlt (RCat (lit 40) REmpty) REmpty) (RCat (lit 36) (RCat (lit 49) (RCat (RAlt (RCat (lit 41) REmpty) REmpty) REnd))))) in D.
    inv D. match goal with H : derives RBegin _ _ _ _ _ _ |- _ => inv H end. cbn [skipn] in *.
    do 4 match goal with H : derives (RCat _ _) _ _ _ _ _ _ |- _ => inv H end.
    match goal with H : derives REnd _ _ _ _ _ _ |- _ => inv H end.
    repeat match goal with H : derives (RAlt _ _) _ _ _ _ _ _ |- _ => apply opt_step in H; [|lia] end.
    repeat match goal with H : derives (lit _) _ _ _ _ _ _ |- _ => apply lit_step in H; [|lia] end. subst.
    change bare_rules with [[36; 49]; [40; 36; 49]; [36; 49; 41]; [40; 36; 49; 41]]. repeat match goal with H : _ \/ _ |- _ => destruct H end; subst; cbn [In]; tauto.
  - intros [<-|[<-|[<-|[<-|[]]]]]; vm_compute; reflexivity.
Qed.
Lemma strip_taken m s : wf_meta m -> exists core c b, maybeStripNationalPrefixAndCarrierCode s (Some m) = Ret (core, c, b) /\ (b = true <-> prefix_taken m s).
Proof.
  intros W. unfold maybeStripNationalPrefixAndCarrierCode, prefix_taken.
  change (mbytes md_np_parse (Some m)) with (get_bytes (md_np_parse m)). change (mbytes md_np_transform (Some m)) with (get_bytes (md_np_transform m)). change (get_d_pattern (mdesc md_general (Some m))) with (general m). cbv zeta.
  destruct (wf_np_parse _ W) as (x & Cx). unfold must_compile at 1. rewrite Cx. cbn [or_panic bind].
  destruct (get_bytes (md_np_parse m)) as [|p0 ps] eqn:Ep. { rewrite orb_true_r. exists s, [], false. split; [reflexivity|]. split; [discriminate|intros (_ & K & _); congruence]. }
  rewrite orb_false_r. destruct s as [|c0 s0] eqn:Es. { exists [], [], false. split; [reflexivity|]. split; [discriminate|intros (K & _); congruence]. }
  cbn [is_empty]. rewrite <- Es. assert (Ns : s <> []) by (rewrite Es; discriminate). clear Es. assert (Ne : p0 :: ps <> []) by discriminate.
  destruct (re_find x s) as [g|] eqn:F.
  2:{ exists s, [], false. split; [reflexivity|]. split; [discriminate|]. intros (_ & _ & x' & g & E1 & E2 & _). injection E1 as <-. congruence. }
  destruct (compiles_ret _ (general_compiles _ W)) as (rule & Cr). change (get_d_pattern (mdesc md_general (Some m))) with (general m) in Cr. rewrite Cr. cbn [bind].
  assert (FM : forall t, full_match (general m) t <-> re_match rule t = true).
  { apply general_match. unfold must_compile in Cr. destruct (compile (anchored _)) as [y|]; [|discriminate]. cbn [or_panic] in Cr. congruence. }
  assert (G : forall (t car : bytes), left_over m x s g = t -> exists (core c : bytes) (b : bool), (if re_match rule s && negb (re_match rule t) then Ret (s, [], false) else Ret (t, car, true)) = Ret (core, c, b) /\
    (b = true <-> s <> [] /\ p0 :: ps <> [] /\ exists x' g', Some x = Some x' /\ re_find x' s = Some g' /\ (full_match (general m) s -> full_match (general m) (left_over m x' s g')))).
  { intros t car Et. destruct (re_match rule s && negb (re_match rule t)) eqn:Q; do 3 eexists; (split; [reflexivity|]); (split; [|try reflexivity]).
    - discriminate.
    - intros (_ & _ & x' & g' & E1 & E2 & H). injection E1 as <-. rewrite F in E2. injection E2 as <-. rewrite !FM, Et in H. apply andb_true_iff in Q as [Q1 Q2]. apply negb_true_iff in Q2. rewrite H in Q2 by auto. discriminate.
    - intros _. split; [auto|]. split; [auto|]. exists x, g. split; [reflexivity|]. split; [exact F|]. rewrite !FM, Et. intros H. rewrite H in Q. cbn [andb] in Q. apply negb_false_iff in Q. exact Q. }
  assert (LO : left_over m x s g = if is_empty (get_bytes (md_np_transform m)) || negb (is_some (group g (re_ngroups x))) then skipn (m_end g) s else re_replace_all x s (get_bytes (md_np_transform m))) by reflexivity.
  revert LO. destruct (is_empty (get_bytes (md_np_transform m)) || negb (is_some (group g (re_ngroups x)))); intros LO; apply G; exact LO.
Qed.
Lemma home_of C cc m : wf_container C -> hasValidCountryCallingCode C cc = true -> getMetadataForRegion C (GetRegionCodeForCountryCode C cc) = Some m <-> home_entry C cc m.
Proof.
  intros W V. apply hasValid_iff in V as (l & E). unfold GetRegionCodeForCountryCode, regions_of, home_entry. rewrite E.
  pose proof (assocz_In _ _ _ E) as I. destruct (wf_cc _ W _ _ I) as (_ & Nl & _). destruct l as [|r l]; [congruence|].
  assert (K : forall a, getMetadataForRegion C a = Some m <-> In a (c_regions C) /\ assocb a (c_region C) = Some m).
  { intros a. unfold getMetadataForRegion, isValidRegionCode. destruct (mem_bytes a (c_regions C)) eqn:Q.
    - apply mem_bytes_iff in Q. destruct (wf_supported _ W _ Q) as (Na & _). destruct a as [|a0 a]; [congruence|]. cbn [is_empty negb andb]. tauto.
    - rewrite andb_false_r. split; [discriminate|]. intros [J _]. apply mem_bytes_iff in J. congruence. }
  rewrite K. split; [intros [H1 H2]; exists r, l; auto|]. intros (r' & l' & E' & H1 & H2). injection E' as <- <-. auto.
Qed.
Lemma prefix_spec C n : wf_container C -> rules_fine C -> hasValidCountryCallingCode C (cc_of n) = true -> exists b, isNationalPrefixPresentIfRequired C n = Ret b /\ (b = true <-> prefix_rule C n).
Proof.
  intros W RF V. unfold isNationalPrefixPresentIfRequired, prefix_rule. change (get_cc n) with (cc_of n). destruct (get_src n) eqn:Es; try (exists true; split; [reflexivity|split; [intros _ K; discriminate|reflexivity]]).
  pose proof (fun m => home_of C (cc_of n) m W V) as H. destruct (getMetadataForRegion C _) as [m|] eqn:E.
  2:{ exists true. split; [reflexivity|]. split; [|reflexivity]. intros _ _ m Hm. apply H in Hm. discriminate. }
  assert (U : forall m', home_entry C (cc_of n) m' <-> m' = m). { intros m'. rewrite <- H. split; [congruence|intros ->; reflexivity]. }
  pose proof (opt_wf_region C (GetRegionCodeForCountryCode C (cc_of n)) W) as Wm. rewrite E in Wm. cbn in Wm.
  assert (Fm : meta_fine m = true). { apply RF. apply in_or_app. left. destruct (proj1 (H m) eq_refl) as (r & l & _ & _ & A). apply assocb_In in A. apply in_map_iff. exists (r, m). auto. }
  assert (Fr : Forall rule_framed (md_nf m)). { apply Forall_forall. intros f I. apply rule_fine_framed. unfold meta_fine in Fm. apply andb_true_iff in Fm as [Fm _]. rewrite forallb_forall in Fm. auto. }
  destruct (choose_spec (md_nf m) (GetNationalSignificantNumber n) Fr) as (r & -> & A). cbn [bind].
  assert (Ok : forall v, v = true -> (forall f, first_applying (md_nf m) (GetNationalSignificantNumber n) (Some f) -> get_npfr f <> [] -> get_npopt f = false -> ~ In (get_npfr f) bare_rules -> False) ->
    (v = true <-> (FROM_DEFAULT_COUNTRY = FROM_DEFAULT_COUNTRY -> forall m', home_entry C (cc_of n) m' -> prefix_expected m' (GetNationalSignificantNumber n) -> prefix_taken m' (NormalizeDigitsOnly (get_raw n))))).
  { intros v -> K. split; [|reflexivity]. intros _ _ m' Hm (f & F1 & F2 & F3 & F4). apply U in Hm. subst m'. exfalso. eauto. }
  destruct r as [f|]. 2:{ exists true. split; [reflexivity|]. apply Ok; [reflexivity|]. intros f F1. pose proof (first_applying_unique _ _ _ _ A F1). discriminate. }
  assert (Uf : forall f', first_applying (md_nf m) (GetNationalSignificantNumber n) (Some f') -> f' = f) by (intros f' F1; pose proof (first_applying_unique _ _ _ _ A F1) as Q; injection Q as ->; reflexivity).
  destruct (get_npfr f) as [|r0 rs] eqn:Ef. { exists true. split; [reflexivity|]. apply Ok; [reflexivity|]. intros f' F1 F2. apply Uf in F1. subst. congruence. }
  cbn [is_empty]. destruct (get_npopt f) eqn:Eo. { exists true. split; [reflexivity|]. apply Ok; [reflexivity|]. intros f' F1 F2 F3. apply Uf in F1. subst. congruence. }
  unfold formattingRuleHasFirstGroupOnly. cbn [is_empty orb]. destruct (re_match firstGroupOnlyPrefixPattern (r0 :: rs)) eqn:Em.
  { exists true. split; [reflexivity|]. apply Ok; [reflexivity|]. intros f' F1 F2 F3 F4. apply Uf in F1. subst. apply F4. rewrite Ef. apply bare_match. exact Em. }
  destruct (strip_taken m (NormalizeDigitsOnly (get_raw n)) Wm) as (core & c & b & -> & B). cbn [bind]. exists b. split; [reflexivity|]. rewrite B. split.
  - intros T _ m' Hm _. apply U in Hm. subst. exact T.
  - intros T. apply (T eq_refl m); [apply U; reflexivity|]. exists f. split; [exact A|]. rewrite Ef. split; [discriminate|]. split; [exact Eo|]. intros I. apply bare_match in I. congruence.
Qed.

(** * Slashes *)
Lemma slash_none s : slashes s = 0%nat <-> ~ In 47 s.
Proof. unfold slashes. symmetry. apply count_occ_not_In. Qed.
Lemma slash_app a b : slashes (a ++ b) = (slashes a + slashes b)%nat.
Proof. unfold slashes. apply count_occ_app. Qed.
Lemma slash_one a b : ~ In 47 a -> slashes (a ++ 47 :: b) = S (slashes b).
Proof. intros H. rewrite slash_app. apply slash_none in H. rewrite H. unfold slashes. cbn [count_occ]. destruct (N.eq_dec 47 47); [reflexivity|congruence]. Qed.
Lemma contains_byte s c : contains s [c] = true <-> In c s.
Proof. rewrite contains_iff. split; [intros (a & b & ->); apply in_or_app; right; left; reflexivity|]. intros I. apply in_split in I as (a & b & ->). exists a, b. reflexivity. Qed.
Lemma first_at (a a' b b' : bytes) c : ~ In c a -> ~ In c a' -> a ++ c :: b = a' ++ c :: b' -> a = a' /\ b = b'.
Proof.
  revert a'. induction a as [|x a IH]; intros [|y a'] H H' E; cbn [app] in E.
  - injection E as ->. auto.
  - injection E as <- _. exfalso. apply H'. left. reflexivity.
  - injection E as -> _. exfalso. apply H. left. reflexivity.
  - injection E as <- E. destruct (IH a') as [-> ->]; auto; intros I; [apply H|apply H']; right; exact I.
Qed.
Lemma slash_spec n s : containsMoreThanOneSlashInNationalNumber n s = false <-> slash_rule n s.
Proof.
  unfold containsMoreThanOneSlashInNationalNumber, slash_rule. change (get_cc n) with (cc_of n). destruct (index_byte s 47) as [i|] eqn:Ei.
  2:{ apply index_byte_none in Ei. apply slash_none in Ei. split; [intros _; left; lia|reflexivity]. }
  apply index_byte_some in Ei as (a & b & -> & <- & Na). rewrite slash_one by auto. replace (skipn (S (length a)) (a ++ 47 :: b)) with b by (rewrite skipn_app, skipn_all2 by lia; replace (S (length a) - length a)%nat with 1%nat by lia; reflexivity).
  rewrite firstn_app, firstn_all, Nat.sub_diag, app_nil_r. destruct (index_byte b 47) as [j|] eqn:Ej.
  2:{ apply index_byte_none in Ej. apply slash_none in Ej. split; [intros _; left; lia|reflexivity]. }
  apply index_byte_some in Ej as (a2 & b2 & -> & <- & Na2). rewrite slash_one by auto. replace (skipn (S (length a2)) (a2 ++ 47 :: b2)) with b2 by (rewrite skipn_app, skipn_all2 by lia; replace (S (length a2) - length a2)%nat with 1%nat by lia; reflexivity).
  set (has := match get_src n with FROM_NUMBER_WITH_PLUS_SIGN | FROM_NUMBER_WITHOUT_PLUS_SIGN => true | _ => false end).
  assert (Hh : has = true <-> get_src n = FROM_NUMBER_WITH_PLUS_SIGN \/ get_src n = FROM_NUMBER_WITHOUT_PLUS_SIGN). { unfold has. destruct (get_src n); split; try discriminate; try (intros [K|K]; discriminate); auto. }
  clearbody has. destruct (has && beq (NormalizeDigitsOnly a) (itoa (cc_of n))) eqn:Q.
  - apply andb_true_iff in Q as [Q1 Q2]. apply beq_eq in Q2. apply Hh in Q1. split.
    + intros H. right. assert (N2 : ~ In 47 b2) by (intros I; apply contains_byte in I; congruence). apply slash_none in N2. split; [lia|]. split; [exact Q1|]. exists a, (a2 ++ 47 :: b2). auto.
    + intros [H|(H & _)]; [lia|]. apply not_true_iff_false. rewrite contains_byte. apply slash_none. lia.
  - split; [discriminate|]. intros [H|(_ & H1 & a' & b' & E & N' & H2)]; [lia|]. apply Hh in H1. destruct (first_at _ _ _ _ _ Na N' E) as [-> _]. rewrite H1 in Q. cbn [andb] in Q. apply beq_neq in Q. congruence.
Qed.

(** * The text with plain digits *)
Lemma plain_spec s : normalizeDigits s true = plain_text s.
Proof.
  unfold normalizeDigits, plain_text. f_equal. induction (runes s) as [|c l IH]; [reflexivity|]. cbn [flat_map map]. rewrite IH, char_digit_spec. destruct (digit_for c); reflexivity.
Qed.
Lemma Nd_digit c : is_Nd c = is_some (digit_for c).
Proof. apply is_Nd_decimal. Qed.

(** * Groups in order *)
Lemma app_le_split (a b c d : bytes) : a ++ b = c ++ d -> (length a <= length c)%nat -> exists e, c = a ++ e /\ b = e ++ d.
Proof.
  revert c. induction a as [|x a IH]; intros c E L; [exists c; auto|]. destruct c as [|y c]; cbn [length] in L; [lia|]. cbn [app] in E. injection E as <- E. destruct (IH c E ltac:(lia)) as (e & -> & ->). exists e. auto.
Qed.
Lemma index_leftmost s p i : index_of s p = Some i -> exists a b, leftmost p s a b /\ length a = i.
Proof.
  intros E. destruct (index_of_some _ _ _ E) as (t & T & L). exists (firstn i s), t. assert (Li : length (firstn i s) = i) by (rewrite firstn_length; unfold len in L; lia).
  split; [|exact Li]. split; [exact T|]. intros a' b' E'. rewrite Li. destruct (Nat.le_gt_cases i (length a')) as [K|K]; [exact K|]. exfalso. pose proof (index_of_first _ _ _ E _ K) as F.
  rewrite E', skipn_app, skipn_all, Nat.sub_diag in F. cbn [skipn app] in F. rewrite has_prefix_app in F. discriminate.
Qed.
Lemma index_no s p : index_of s p = None -> forall a b, s <> a ++ p ++ b.
Proof. intros E a b ->. pose proof (index_of_none _ _ E (length a)) as F. rewrite skipn_app, skipn_all, Nat.sub_diag in F. cbn [skipn app] in F. rewrite has_prefix_app in F. discriminate. Qed.
Lemma leftmost_unique p s a b a' b' : leftmost p s a b -> leftmost p s a' b' -> a = a' /\ b = b'.
Proof.
  intros [E H] [E' H']. pose proof (H _ _ E') as L. pose proof (H' _ _ E) as L'. rewrite E in E'. destruct (app_le_split _ _ _ _ E' L) as (e & -> & E2). rewrite app_length in L'. destruct e; [|cbn [length] in L'; lia].
  rewrite app_nil_r. split; [reflexivity|]. cbn [app] in E2. apply app_inv_head in E2. exact E2.
Qed.
Lemma order_more e gs p s : in_order e gs s -> in_order e gs (p ++ s).
Proof. intros H. inv H; rewrite app_assoc; constructor; auto. Qed.
Lemma order_greedy e g gs s a b : leftmost g s a b -> in_order e (g :: gs) s <-> in_order e gs b.
Proof.
  intros [E H]. split.
  - intros O. assert (K : exists a' b', s = a' ++ g ++ b' /\ in_order e gs b') by (inv O; eauto). destruct K as (a' & b' & E2 & O'). pose proof (H _ _ E2) as L. rewrite E, !app_assoc in E2.
    destruct (app_le_split (a ++ g) b (a' ++ g) b' E2) as (c & _ & ->); [rewrite !app_length; lia|]. apply order_more. assumption.
  - intros O. rewrite E. constructor. exact O.
Qed.
Definition passes (nc e : bytes) (r : bool + nat) : bool := match r with inl b => b | inr k => contains (skipn k nc) e end.
Lemma order_spec C n e gs : forall u s, exists r, groups_in_order C n (u ++ s) gs false (length u) = Ret r /\ (forall k, r = inr k -> (k <= length (u ++ s))%nat) /\ (passes (u ++ s) e r = true <-> in_order e gs s).
Proof.
  induction gs as [|g gs IH]; intros u s.
  - exists (inr (length u)). split; [reflexivity|]. split; [intros k Q; injection Q as <-; rewrite app_length; lia|]. cbn [passes]. rewrite skipn_app, skipn_all, Nat.sub_diag. cbn [skipn app]. rewrite contains_iff. split.
    + intros (a & b & ->). constructor.
    + intros O. inv O. eauto.
  - cbn [groups_in_order]. rewrite slice_from_app. cbn [bind andb]. destruct (index_of s g) as [i|] eqn:E.
    + destruct (index_leftmost _ _ _ E) as (a & b & Lm & <-). pose proof (proj1 Lm) as Es. replace (u ++ s) with ((u ++ a ++ g) ++ b) by (rewrite Es, <- !app_assoc; reflexivity).
      replace (length u + length a + len g)%nat with (length (u ++ a ++ g)) by (rewrite !app_length; unfold len; lia). destruct (IH (u ++ a ++ g) b) as (r & R1 & R2 & R3). exists r. split; [exact R1|]. split; [exact R2|]. rewrite R3, (order_greedy e _ _ _ _ _ Lm). reflexivity.
    + exists (inl false). split; [reflexivity|]. split; [discriminate|]. cbn [passes]. split; [discriminate|]. intros O. exfalso. inv O. eapply index_no; [exact E|reflexivity].
Qed.
Lemma skip_from (u s : bytes) k : k = length u -> skipn k (u ++ s) = s.
Proof. intros ->. rewrite skipn_app, skipn_all, Nat.sub_diag. reflexivity. Qed.
Lemma slice_at u s k : k = length u -> slice_from (u ++ s) k = Ret s.
Proof. intros ->. apply slice_from_app. Qed.
Lemma national_spec n nc : (0 < cc_of n < 1000)%Z -> (2 <= len nc)%nat -> exists u s, nc = u ++ s /\
  match get_src n with FROM_DEFAULT_COUNTRY => 0%nat | _ => let cc := itoa (get_cc n) in match index_of nc cc with Some i => (i + len cc)%nat | None => (len cc - 1)%nat end end = length u /\
  forall s', national_text n nc s' <-> s' = s.
Proof.
  intros Cc L. unfold national_text. change (get_cc n) with (cc_of n). cbv zeta. set (cc := itoa (cc_of n)).
  assert (G : exists u s, nc = u ++ s /\ match index_of nc cc with Some i => (i + len cc)%nat | None => (len cc - 1)%nat end = length u /\
    forall s', ((exists a, leftmost cc nc a s') \/ ((forall a b, nc <> a ++ cc ++ b) /\ s' = skipn (length cc - 1) nc)) <-> s' = s).
  { destruct (index_of nc cc) as [i|] eqn:E.
    - destruct (index_leftmost _ _ _ E) as (a & b & Lm & <-). exists (a ++ cc), b. pose proof (proj1 Lm) as En. split; [rewrite En, <- app_assoc; reflexivity|]. split; [rewrite app_length; reflexivity|]. intros s'. split.
      + intros [(a' & H)|(H & _)]; [destruct (leftmost_unique _ _ _ _ _ _ Lm H); auto|]. exfalso. eapply H. exact En.
      + intros ->. left. eauto.
    - exists (firstn (length cc - 1) nc), (skipn (length cc - 1) nc). split; [symmetry; apply firstn_skipn|]. pose proof (itoa_short _ Cc) as Lc. fold cc in Lc. split; [rewrite firstn_length; unfold len in *; lia|].
      intros s'. split; [|intros ->; right; split; [apply index_no; auto|reflexivity]]. intros [(a' & H & _)|(_ & H)]; [exfalso; eapply index_no; eauto|exact H]. }
  destruct (get_src n); try exact G. exists [], nc. split; [reflexivity|]. split; [reflexivity|]. intros s'. reflexivity.
Qed.
Lemma strict_spec C n nc gs : (0 < cc_of n < 1000)%Z -> (2 <= len nc)%nat -> gs <> [] -> exists b, allNumberGroupsRemainGrouped C n nc gs = Ret b /\ (b = true <-> strict_grouping C n nc gs).
Proof.
  intros Cc L Ng. destruct (national_spec n nc Cc L) as (u & s & En & Ef & U). unfold allNumberGroupsRemainGrouped. cbv zeta in Ef |- *. rewrite Ef. clear Ef. destruct gs as [|g gs]; [congruence|]. clear Ng.
  cbn [groups_in_order]. rewrite En, slice_from_app. cbn [bind]. rewrite <- En. destruct (index_of s g) as [i|] eqn:E.
  2:{ exists false. split; [reflexivity|]. split; [discriminate|]. intros (s' & g' & rest & a & b & H1 & H2 & (H3 & _) & _). apply U in H1. injection H2 as <- <-. subst s'. exfalso. eapply index_no; eauto. }
  destruct (index_leftmost _ _ _ E) as (a & b & Lm & <-). pose proof (proj1 Lm) as Es.
  assert (Nc : nc = (u ++ a ++ g) ++ b) by (rewrite En, Es, <- !app_assoc; reflexivity). assert (Lf : (length u + length a + len g)%nat = length (u ++ a ++ g)) by (rewrite !app_length; unfold len; lia). rewrite Lf. cbn [andb].
  set (ndd := GetNddPrefixForRegion C (GetRegionCodeForCountryCode C (get_cc n)) true).
  set (cond := (match decode_rune b with Some (c, _) => is_some (digit_for c) | None => false end) && negb (is_empty ndd)).
  assert (St : strict_grouping C n nc (g :: gs) <-> if cond then exists c, g ++ b = GetNationalSignificantNumber n ++ c else in_order (ext_of n) gs b).
  { unfold strict_grouping. split.
    - intros (s' & g' & rest & a' & b' & H1 & H2 & H3 & H4). apply U in H1. injection H2 as <- <-. subst s'. destruct (leftmost_unique _ _ _ _ _ _ Lm H3) as [<- <-]. exact H4.
    - intros H. exists s, g, gs, a, b. split; [apply U; reflexivity|]. split; [reflexivity|]. split; [exact Lm|]. exact H. }
  destruct (order_spec C n (ext_of n) gs (u ++ a ++ g) b) as (r & R1 & R2 & R3). rewrite <- Nc in R1, R2, R3.
  assert (Tail : cond = false -> exists v, (r0 <- Ret r ;; match r0 with inl b0 => Ret b0 | inr from' => tail <- slice_from nc from' ;; Ret (contains tail (get_ext n)) end) = Ret v /\ (v = true <-> strict_grouping C n nc (g :: gs))).
  { intros Q. rewrite Q, <- R3 in St. cbn [bind]. destruct r as [v|k]; [exists v; split; [reflexivity|rewrite St; reflexivity]|]. specialize (R2 k eq_refl). rewrite slice_from_total by (unfold len; lia). cbn [bind passes] in *. eexists. split; [reflexivity|]. rewrite St. reflexivity. }
  destruct (length (u ++ a ++ g) <? len nc)%nat eqn:Q.
  - rewrite Nc, slice_from_app. rewrite <- Nc. cbn [bind]. apply Nat.ltb_lt in Q. assert (Nb : b <> []). { intros ->. rewrite app_nil_r in Nc. rewrite Nc in Q. unfold len in Q. lia. }
    destruct (decode_rune b) as [[c t]|] eqn:Db; [|apply decode_rune_none in Db; congruence]. rewrite Nd_digit. fold ndd. rewrite andb_comm. fold cond. destruct cond eqn:Ec.
    + replace (length (u ++ a ++ g) - len g)%nat with (length (u ++ a)) by (rewrite !app_length; unfold len; lia).
      replace nc with ((u ++ a) ++ g ++ b) by (rewrite Nc, <- !app_assoc; reflexivity). rewrite slice_from_app. cbn [bind]. eexists. split; [reflexivity|]. rewrite <- app_assoc. 
      replace (u ++ a ++ g ++ b) with nc by (rewrite Nc, <- !app_assoc; reflexivity). rewrite St. apply has_prefix_iff.
    + rewrite R1. apply Tail. reflexivity.
  - rewrite R1. apply Tail. apply Nat.ltb_ge in Q. assert (Eb : b = []). { rewrite Nc in Q. unfold len in Q. rewrite (app_length (u ++ a ++ g) b) in Q. destruct b; [reflexivity|cbn [length] in Q; lia]. } unfold cond. rewrite Eb. reflexivity.
Qed.
