(** C86: typing a number as it is dialled at home ends in showing what Format prints for use at home. *)
From Verif Require Import Base BaseFacts Regex RegexFacts NumberSpec NumberFacts PropsNumber Consts Types Shipped Validate ValidateFacts Normalize Format MetaSpec ValidateSpec MetaFacts FormatSpec TextFacts LangFacts FormatFacts FormatMore DerivFacts PropsFormat RoundTripFacts
  RuleSpec RuleFacts RuleMore PropsRule AsYouType AytfSpec AytfFacts AytfMore AytfDigits NationalFacts PropsAytf PropsValidate ShowFacts ShowShip ShowMore ShowRun PropsShow NatSpec NatFacts NatRun NatShip.
Local Opaque compile re_find re_replace_all safe.

Lemma prints_front f s x u t : prints_same f = true -> compile (get_pattern f) = Some x -> all_digits s = true -> (length s <= 17)%nat -> lang (patt f) s -> ~ In 36 u ->
  re_replace_all x s (u ++ t) = u ++ re_replace_all x s t.
Proof.
  intros P Cx D L17 L Nu. pose proof (proj1 (blind_same f s P D) L) as Hl. unfold prints_same in P. rewrite Cx in P. destruct (compile (anchored (get_pattern f))) as [y|]; [|discriminate]. rewrite !andb_true_iff in P. destruct P as ((((B1 & B2) & M1) & M2) & T).
  rewrite forallb_forall in T. assert (I : In (length s) (seq 0 18)) by (apply in_seq; lia). specialize (T _ I). unfold takes in T. unfold has_len, patt, ast in Hl. rewrite Cx in Hl. rewrite Hl in T.
  assert (Al : alike s (repeat 48 (length s))) by (split; [exact D|]; split; [apply zeros_digits|rewrite repeat_length; reflexivity]).
  rewrite <- (blind_find x s _ B1 Al), <- (blind_find y s _ B2 Al) in T. destruct (re_find x s) as [a|] eqn:Fx; [|discriminate]. destruct (re_find y s) as [b|] eqn:Fy; [|discriminate].
  rewrite !andb_true_iff, !Nat.eqb_eq in T. destruct T as ((T1 & T2) & T3). apply Nat.ltb_lt in M1.
  Local Transparent re_replace_all. unfold re_replace_all. rewrite !(replace_whole x s _ a) by auto. Local Opaque re_replace_all.
  unfold expand_template. replace (S (len (u ++ t))) with (length u + S (length t))%nat by (unfold len; rewrite app_length; lia). apply expand_copy. exact Nu.
Qed.
Lemma split_dollar a x b y : ~ In 36 a -> ~ In 36 b -> a ++ 36 :: x = b ++ 36 :: y -> a = b /\ x = y.
Proof.
  revert b. induction a as [|c a IH]; intros [|d b] Ha Hb E; cbn [app] in E.
  - injection E as ->. auto.
  - injection E as <- _. elim Hb. left. reflexivity.
  - injection E as -> _. elim Ha. left. reflexivity.
  - injection E as -> E. destruct (IH b) as [-> ->]; auto; intros I; [apply Ha|apply Hb]; right; exact I.
Qed.
Lemma digits_no_dollar p : all_digits p = true -> ~ In 36 p.
Proof. intros H I. apply (all_digits_In _ _ H) in I. lia. Qed.
Lemma home_meta C region cc m : wf_container C -> hasValidCountryCallingCode C cc = true -> main_entry C cc m -> GetCountryCodeForRegion C region = cc -> GetRegionCodeForCountryCode C cc <> nonGeoEntity ->
  aytf_metadata C region = Some m /\ getMetadataForRegion C (GetRegionCodeForCountryCode C cc) = Some m /\ mcc (Some m) = cc.
Proof.
  intros W V Me Rg Ng. destruct (main_entry_ok C _ W V) as (m2 & Me2 & Mm & _). assert (E2 : m2 = m) by (destruct Me as (r & l & A & B), Me2 as (r1 & l1 & A1 & B1); congruence). subst m2.
  unfold main_meta, getMetadataForRegionOrCallingCode in Mm. destruct (beq_spec nonGeoEntity (GetRegionCodeForCountryCode C cc)) as [Q|Q]; [congruence|]. unfold aytf_metadata. rewrite Rg, Mm. split; [reflexivity|]. split; [reflexivity|].
  pose proof V as V'. apply hasValid_In in V' as (rs & I & R). unfold GetRegionCodeForCountryCode in *. rewrite R in *. destruct rs as [|r rs]; [destruct (wf_cc _ W _ _ I) as (_ & Ne & _); congruence|].
  destruct (nongeo_valid_cc C cc (r :: rs) r W I (or_introl eq_refl) R) as (m' & _ & _ & _ & H & _). destruct (H ltac:(congruence)) as [_ H2]. unfold getCountryCodeForValidRegion in H2. rewrite Mm in H2. exact H2.
Qed.

(** The digits of the prefix and of the number, typed one after the other, end in the prefix, a space where the rule's own prefix text has a space or a
    dash, and the number as the first fitting rule lays it out. *)
Theorem C86_shown_any : forall C region n m f x P ks, aytf_ok C -> wf_container C -> hasValidCountryCallingCode C (cc_of n) = true ->
  GetCountryCodeForRegion C region = cc_of n -> GetRegionCodeForCountryCode C (cc_of n) <> nonGeoEntity -> main_entry C (cc_of n) m ->
  nat_clear (negb (is_empty P)) m = true -> first_applying (filter (fits (negb (is_empty P))) (md_nf m)) (GetNationalSignificantNumber n) (Some f) -> compile (get_pattern f) = Some x ->
  (3 <= length (GetNationalSignificantNumber n) <= 17)%nat -> all_digits P = true -> typed ks = P ++ GetNationalSignificantNumber n ->
  dials_abroad m (firstn 3 (typed ks)) = false -> prefix_of m (firstn 3 (typed ks)) = P -> cc_of n <> 1%Z \/ hd 0 (typed ks) <> 49 ->
  exists s, press C (GetAsYouTypeFormatter C region) ks = Ret s /\ f_out s = P ++ gap_of P f ++ re_replace_all x (GetNationalSignificantNumber n) (get_format f).
Proof.
  intros C region n m f x P ks CO W V Rg Ng Me Nc (pre & post & El & Ap & Np) Cx L DP T Ab Px Na. destruct (home_meta C region _ m W V Me Rg Ng) as (Am & Gm & Mc).
  assert (Mo : aytf_meta_okb (Some m) = true) by (destruct CO as [CO1 CO2]; rewrite <- Gm; auto).
  destruct (press_total C region ks CO [] _ (good_new C region) (fun _ => new_np _ _ CO)) as (s & Es). exists s. split; [exact Es|].
  destruct (press_reset C region ks) as (k2 & M & K). specialize (K s Es). rewrite T in *. rewrite <- Mc in Na.
  pose proof (all_home C region m P (GetNationalSignificantNumber n) f pre post x Am Mo Nc DP (nsn_digits n) (proj1 L) (proj2 L) El Ap Np Cx Ab Px Na k2 M) as Q. rewrite K in Q. exact Q.
Qed.
Print Assumptions C86_shown_any.

(** The rule writes the prefix P, possibly a space, and then the number; or, if P is empty, just the number. *)
Definition writes (P : bytes) (f : nfmt) : Prop :=
  (P = [] /\ get_npfr f = []) \/ (P <> [] /\ (get_npfr f = P ++ bs "$1" \/ get_npfr f = P ++ bs " $1") /\ exists b, get_format f = bs "$1" ++ b).
Theorem C86_national_any : forall C region n m f P ks, aytf_ok C -> wf_container C -> rules_fine C -> hasValidCountryCallingCode C (cc_of n) = true -> has_number n -> ext_of n = [] ->
  GetCountryCodeForRegion C region = cc_of n -> GetRegionCodeForCountryCode C (cc_of n) <> nonGeoEntity -> main_entry C (cc_of n) m ->
  nat_clear (negb (is_empty P)) m = true -> first_applying (rules m NATIONAL) (GetNationalSignificantNumber n) (Some f) -> writes P f -> simple_format f = true ->
  (3 <= length (GetNationalSignificantNumber n) <= 17)%nat -> all_digits P = true -> typed ks = P ++ GetNationalSignificantNumber n ->
  dials_abroad m (firstn 3 (typed ks)) = false -> prefix_of m (firstn 3 (typed ks)) = P -> cc_of n <> 1%Z \/ hd 0 (typed ks) <> 49 ->
  exists s, press C (GetAsYouTypeFormatter C region) ks = Ret s /\ Format C n NATIONAL = Ret (f_out s).
Proof.
  intros C region n m f P ks CO W RF V H X Rg Ng Me Nc Fa Wr Sf L DP T Ab Px Na. pose proof (has_number_raw _ H) as R.
  destruct (format_rule C n NATIONAL W RF R (or_introl eq_refl) V) as (m1 & body & Me1 & Pb & Ef).
  assert (E1 : m1 = m) by (destruct Me as (r & l & A & B), Me1 as (r1 & l1 & A1 & B1); congruence). subst m1.
  destruct Pb as (r & Fr & Pb). pose proof (first_applying_unique _ _ _ _ Fa Fr). subst r. destruct Pb as (x & t & Cx & Tt & ->).
  assert (FT : fits (negb (is_empty P)) f = true).
  { unfold fits. rewrite Sf, andb_true_r. destruct Wr as [(-> & E)|(Ne & E & _)]; [unfold bare_rule; rewrite E; reflexivity|]. destruct P as [|p P]; [congruence|]. cbn [is_empty negb].
    replace (bare_rule f) with false; [reflexivity|]. symmetry. apply not_true_is_false. unfold bare_rule. rewrite mem_bytes_iff. assert (Dp : is_digit p = true) by (unfold all_digits in DP; cbn [forallb] in DP; apply andb_prop in DP; apply DP). apply is_digit_iff in Dp.
    assert (Hd : hd 0 (get_npfr f) = p) by (destruct E as [E|E]; rewrite E; reflexivity). intros [I|[I|[I|[I|[I|[]]]]]]; rewrite <- I in Hd; cbn in Hd; lia. }
  assert (Fa' : first_applying (filter (fits (negb (is_empty P))) (md_nf m)) (GetNationalSignificantNumber n) (Some f)).
  { destruct Fa as (pre & post & El & Ap & Np). cbn [rules] in El. exists (filter (fits (negb (is_empty P))) pre), (filter (fits (negb (is_empty P))) post). split; [rewrite El, filter_app; cbn [filter]; rewrite FT; reflexivity|]. split; [exact Ap|]. intros g Hg. apply filter_In in Hg. apply Np. apply Hg. }
  destruct (C86_shown_any C region n m f x P ks CO W V Rg Ng Me Nc Fa' Cx L DP T Ab Px Na) as (s & Es & Eo). exists s. split; [exact Es|]. rewrite Ef, Eo. cbn [prefixNumberWithCountryCallingCode]. rewrite X. cbn [extension_text]. rewrite app_nil_r. f_equal.
  (* the rule itself *)
  cbn [template is_empty negb andb] in Tt. destruct Wr as [(-> & E)|(Ne & E & b & Eb)].
  { rewrite E in Tt. cbn [is_empty] in Tt. subst t. unfold gap_of. rewrite E. reflexivity. }
  assert (Ex : exists sp, (sp = [] \/ sp = [32]) /\ get_npfr f = (P ++ sp) ++ 36 :: 49 :: []).
  { destruct E as [E|E]; [exists []|exists [32]]; (split; [auto|]); rewrite E, <- ?app_assoc; reflexivity. }
  clear E. destruct Ex as (sp & Hs & E). assert (Ns : ~ In 36 (P ++ sp)). { intros I. apply in_app_or in I as [I|I]; [exact (digits_no_dollar _ DP I)|]. destruct Hs as [->| ->]; [destruct I|]. destruct I as [I|[]]; discriminate. }
  assert (Gp : gap_of P f = sp).
  { unfold gap_of. rewrite E, <- app_assoc, !existsb_app. assert (Dx : existsb (fun c => (c =? 32) || (c =? 45)) P = false).
    { clear -DP. revert DP. induction P as [|c P IH]; [reflexivity|]. unfold all_digits. cbn [forallb existsb]. intros H. apply andb_prop in H as [H1 H2]. rewrite (IH H2). apply is_digit_iff in H1. replace (c =? 32) with false by (symmetry; apply N.eqb_neq; lia). replace (c =? 45) with false by (symmetry; apply N.eqb_neq; lia). reflexivity. }
    rewrite Dx. destruct Hs as [->| ->]; [reflexivity|]. cbn. destruct P; [congruence|reflexivity]. }
  rewrite Gp. replace (is_empty (get_npfr f)) with false in Tt by (rewrite E; destruct P; [congruence|reflexivity]).
  destruct Tt as (a & d & b' & u & v & E2 & _ & N2 & E3 & N3 & _ & _ & ->). rewrite E in E3. apply split_dollar in E3 as [<- E3]; [|exact Ns|exact N3]. injection E3 as <-.
  rewrite Eb in E2. change (bs "$1" ++ b) with ([] ++ 36 :: 49 :: b) in E2. apply split_dollar in E2 as [<- E2]; [|intros []|exact N2]. injection E2 as <- <-. cbn [app].
  change (36 :: 49 :: b) with (bs "$1" ++ b). rewrite <- Eb, app_assoc. destruct Fa as (pre & post & El & Ap & Np).
  assert (Rc : rule_clear f = true). { unfold nat_clear in Nc. cbv zeta in Nc. rewrite !andb_true_iff in Nc. destruct Nc as (((N1' & _) & _) & _). unfold rules_clear in N1'. rewrite !andb_true_iff in N1'. destruct N1' as ((N1' & _) & _). rewrite forallb_forall in N1'. apply N1'. apply filter_In. split; [cbn [rules] in El; rewrite El; apply in_or_app; right; left; reflexivity|exact FT]. }
  pose proof (clear_parts _ Rc) as (_ & _ & _ & _ & _ & _ & Pr & _).
  apply (prints_front f); [exact Pr|exact Cx|apply nsn_digits|apply L|apply (applies_lang f _ Rc (nsn_digits n)); exact Ap|exact Ns].
Qed.
Print Assumptions C86_national_any.


(** * The shipped metadata *)
Lemma shipped_home r m b : getMetadataForRegion shipped r = Some m -> b = true \/ ~ In r bare_exceptions -> nat_clear b m = true.
Proof.
  assert (G : forall C, forallb (fun rm => nat_clear true (snd rm) && (mem_bytes (fst rm) bare_exceptions || nat_clear false (snd rm))) (c_region C) = true ->
    getMetadataForRegion C r = Some m -> b = true \/ ~ In r bare_exceptions -> nat_clear b m = true).
  { intros C B H E. unfold getMetadataForRegion in H. destruct (isValidRegionCode C r); [|discriminate]. apply assocb_In in H. rewrite forallb_forall in B. specialize (B _ H). cbn [fst snd] in B. apply andb_prop in B as [B1 B2].
    destruct b; [exact B1|]. destruct E as [E|E]; [discriminate|]. apply orb_prop in B2 as [B2|B2]; [|exact B2]. apply mem_bytes_iff in B2. contradiction. }
  apply (G shipped). exact shipped_nat_clear.
Qed.
(** The formatter is made for a region of the number's calling code, P is what the region's expression takes for the national prefix, and the number is
    typed with P in front (or, outside the six exceptions, without a prefix): the display ends in the prefix, its gap and the number as the first fitting
    rule lays it out. *)
Theorem C86_shown : forall region n m f x P ks, supported n ->
  GetCountryCodeForRegion shipped region = cc_of n -> GetRegionCodeForCountryCode shipped (cc_of n) <> nonGeoEntity -> main_entry shipped (cc_of n) m ->
  P <> [] \/ ~ In (GetRegionCodeForCountryCode shipped (cc_of n)) bare_exceptions ->
  first_applying (filter (fits (negb (is_empty P))) (md_nf m)) (GetNationalSignificantNumber n) (Some f) -> compile (get_pattern f) = Some x ->
  (3 <= length (GetNationalSignificantNumber n) <= 17)%nat -> all_digits P = true -> typed ks = P ++ GetNationalSignificantNumber n ->
  dials_abroad m (firstn 3 (typed ks)) = false -> prefix_of m (firstn 3 (typed ks)) = P -> cc_of n <> 1%Z \/ hd 0 (typed ks) <> 49 ->
  exists s, press shipped (GetAsYouTypeFormatter shipped region) ks = Ret s /\ f_out s = P ++ gap_of P f ++ re_replace_all x (GetNationalSignificantNumber n) (get_format f).
Proof.
  intros region n m f x P ks Su Rg Ng Me Ex. apply C86_shown_any; auto using shipped_aytf_ok, shipped_wf.
  destruct (home_meta shipped region _ m shipped_wf Su Me Rg Ng) as (_ & Gm & _). apply (shipped_home _ _ _ Gm). destruct Ex as [Ex|Ex]; [left; destruct P; [congruence|reflexivity]|right; exact Ex].
Qed.
Print Assumptions C86_shown.
(** If the rule Format uses writes the prefix and then the number, the display ends in what Format prints for use at home. *)
Theorem C86_national : forall region n m f P ks, supported n -> has_number n -> ext_of n = [] ->
  GetCountryCodeForRegion shipped region = cc_of n -> GetRegionCodeForCountryCode shipped (cc_of n) <> nonGeoEntity -> main_entry shipped (cc_of n) m ->
  P <> [] \/ ~ In (GetRegionCodeForCountryCode shipped (cc_of n)) bare_exceptions ->
  first_applying (rules m NATIONAL) (GetNationalSignificantNumber n) (Some f) -> writes P f -> simple_format f = true ->
  (3 <= length (GetNationalSignificantNumber n) <= 17)%nat -> all_digits P = true -> typed ks = P ++ GetNationalSignificantNumber n ->
  dials_abroad m (firstn 3 (typed ks)) = false -> prefix_of m (firstn 3 (typed ks)) = P -> cc_of n <> 1%Z \/ hd 0 (typed ks) <> 49 ->
  exists s, press shipped (GetAsYouTypeFormatter shipped region) ks = Ret s /\ Format shipped n NATIONAL = Ret (f_out s).
Proof.
  intros region n m f P ks Su Hn X Rg Ng Me Ex. apply C86_national_any; auto using shipped_aytf_ok, shipped_wf, shipped_rules.
  destruct (home_meta shipped region _ m shipped_wf Su Me Rg Ng) as (_ & Gm & _). apply (shipped_home _ _ _ Gm). destruct Ex as [Ex|Ex]; [left; destruct P; [congruence|reflexivity]|right; exact Ex].
Qed.
Print Assumptions C86_national.

(** The hypotheses are met: a London number typed with its 0 into a formatter for Guernsey, and a Danish number, which has no prefix. *)
Definition home_entry (r : bytes) : meta := match getMetadataForRegion shipped r with Some m => m | None => emptyMetadata end.
Definition no_rule : nfmt := {| nf_pattern := None; nf_format := None; nf_leading := []; nf_npfr := None; nf_npopt := None; nf_dccfr := None |}.
Definition home_rule (r : bytes) (n : phone) : nfmt := match chooseFormattingPatternForNumber (md_nf (home_entry r)) (GetNationalSignificantNumber n) with Ret (Some f) => f | _ => no_rule end.
Lemma home_choice r n : forallb rule_fine (md_nf (home_entry r)) = true ->
  match chooseFormattingPatternForNumber (md_nf (home_entry r)) (GetNationalSignificantNumber n) with Ret (Some _) => true | _ => false end = true ->
  first_applying (rules (home_entry r) NATIONAL) (GetNationalSignificantNumber n) (Some (home_rule r n)).
Proof.
  intros Fr H. unfold home_rule. cbn [rules]. revert Fr H. generalize (md_nf (home_entry r)) as l. intros l Fr H. destruct (choose_spec l (GetNationalSignificantNumber n)) as (o & E & Fa).
  { apply Forall_forall. intros f I. apply rule_fine_framed. rewrite forallb_forall in Fr. apply Fr, I. }
  rewrite E in *. destruct o as [f|]; [exact Fa|discriminate].
Qed.
Definition copenhagen : phone := num 45 32123456.
Example C86_witness :
  (supported london /\ has_number london /\ ext_of london = [] /\ GetCountryCodeForRegion shipped (bs "GG") = cc_of london /\ GetRegionCodeForCountryCode shipped (cc_of london) <> nonGeoEntity /\
   main_entry shipped (cc_of london) (home_entry (bs "GB")) /\ bs "0" <> [] /\ first_applying (rules (home_entry (bs "GB")) NATIONAL) (GetNationalSignificantNumber london) (Some (home_rule (bs "GB") london)) /\
   writes (bs "0") (home_rule (bs "GB") london) /\ simple_format (home_rule (bs "GB") london) = true /\ length (GetNationalSignificantNumber london) = 10%nat /\
   typed (keys_of (bs "02070313000")) = bs "0" ++ GetNationalSignificantNumber london /\ dials_abroad (home_entry (bs "GB")) (bs "020") = false /\ prefix_of (home_entry (bs "GB")) (bs "020") = bs "0" /\
   Format shipped london NATIONAL = Ret (bs "020 7031 3000")) /\
  (supported copenhagen /\ has_number copenhagen /\ ext_of copenhagen = [] /\ GetCountryCodeForRegion shipped (bs "DK") = cc_of copenhagen /\ GetRegionCodeForCountryCode shipped (cc_of copenhagen) <> nonGeoEntity /\
   main_entry shipped (cc_of copenhagen) (home_entry (bs "DK")) /\ ~ In (GetRegionCodeForCountryCode shipped (cc_of copenhagen)) bare_exceptions /\
   first_applying (rules (home_entry (bs "DK")) NATIONAL) (GetNationalSignificantNumber copenhagen) (Some (home_rule (bs "DK") copenhagen)) /\
   writes [] (home_rule (bs "DK") copenhagen) /\ simple_format (home_rule (bs "DK") copenhagen) = true /\ length (GetNationalSignificantNumber copenhagen) = 8%nat /\
   typed (keys_of (bs "32123456")) = GetNationalSignificantNumber copenhagen /\ dials_abroad (home_entry (bs "DK")) (bs "321") = false /\ prefix_of (home_entry (bs "DK")) (bs "321") = [] /\
   Format shipped copenhagen NATIONAL = Ret (bs "32 12 34 56")).
Proof.
  split.
  - split; [vm_compute; reflexivity|]. split; [left; discriminate|]. split; [reflexivity|]. split; [vm_compute; reflexivity|]. split; [vm_compute; discriminate|]. split; [eexists _, _; split; vm_compute; reflexivity|]. split; [discriminate|].
    split; [apply home_choice; vm_compute; reflexivity|]. split; [right; split; [discriminate|]; split; [left; vm_compute; reflexivity|eexists; vm_compute; reflexivity]|]. repeat (split; [vm_compute; reflexivity|]). vm_compute. reflexivity.
  - split; [vm_compute; reflexivity|]. split; [left; discriminate|]. split; [reflexivity|]. split; [vm_compute; reflexivity|]. split; [vm_compute; discriminate|]. split; [eexists _, _; split; vm_compute; reflexivity|].
    split; [rewrite <- mem_bytes_iff; vm_compute; discriminate|]. split; [apply home_choice; vm_compute; reflexivity|]. split; [left; split; [reflexivity|vm_compute; reflexivity]|]. repeat (split; [vm_compute; reflexivity|]). vm_compute. reflexivity.
Qed.
(** Finding: where the rule puts the prefix into brackets the formatter shows the layout without them: an Australian number. *)
Theorem C86_brackets_refuted : exists n ks s, supported n /\ IsValidNumber shipped n = Ret true /\ ext_of n = [] /\ GetCountryCodeForRegion shipped (bs "AU") = cc_of n /\ typed ks = bs "0" ++ GetNationalSignificantNumber n /\
  press shipped (GetAsYouTypeFormatter shipped (bs "AU")) ks = Ret s /\ f_out s = bs "02 1234 5678" /\ Format shipped n NATIONAL = Ret (bs "(02) 1234 5678").
Proof.
  exists (num 61 212345678), (keys_of (bs "0212345678")). eexists. split; [vm_compute; reflexivity|]. split; [vm_compute; reflexivity|]. split; [reflexivity|]. split; [vm_compute; reflexivity|]. split; [vm_compute; reflexivity|]. split; [vm_compute; reflexivity|]. split; vm_compute; reflexivity.
Qed.
Print Assumptions C86_brackets_refuted.
