(** Proofs about what digits mean to the parser. *)
From Verif Require Import Base BaseFacts Utf8 Utf8Facts Regex RegexSpec RegexFacts LangFacts Consts Types Normalize NormalizeSpec NormalizeFacts Validate Format Parse
  NumberSpec NumberFacts MetaSpec ValidateSpec ValidateFacts Container Shipped MetaFacts FormatSpec TextFacts FormatFacts FormatMore ParseSpec ParseFacts ParseMore ContextFacts
  RoundSpec DerivFacts RoundTripFacts PropsValidate RuleSpec RuleFacts RuleMore ReadSpec.
Local Opaque compile re_find re_replace_all.

(** * The national prefix *)
Lemma general_match m rule : compile (anchored (general m)) = Some rule -> forall t, full_match (general m) t <-> re_match rule t = true.
Proof. intros E t. unfold full_match. rewrite E. split; [intros (z & Ez & H); inv Ez; auto|intros H; eauto]. Qed.
Lemma strip_spec m s : wf_meta m -> exists core c b, maybeStripNationalPrefixAndCarrierCode s (Some m) = Ret (core, c, b) /\ national_part m s core c.
Proof.
  intros W. unfold maybeStripNationalPrefixAndCarrierCode, national_part.
  change (mbytes md_np_parse (Some m)) with (get_bytes (md_np_parse m)). change (mbytes md_np_transform (Some m)) with (get_bytes (md_np_transform m)). change (get_d_pattern (mdesc md_general (Some m))) with (general m). cbv zeta.
  destruct (wf_np_parse _ W) as (x & Cx). unfold must_compile at 1. rewrite Cx. cbn [or_panic bind].
  destruct (get_bytes (md_np_parse m)) as [|p0 ps] eqn:Ep; [rewrite orb_true_r; do 3 eexists; split; [reflexivity|left; auto]|]. rewrite orb_false_r.
  destruct s as [|c0 s0] eqn:Es; [do 3 eexists; split; [reflexivity|right; split; [discriminate|exists x; split; auto]]|]. cbn [is_empty]. rewrite <- Es. clear Es.
  assert (Ne : p0 :: ps <> []) by discriminate.
  destruct (re_find x s) as [g|] eqn:F; [|do 3 eexists; split; [reflexivity|right; split; [exact Ne|exists x; split; auto]]; rewrite F; auto].
  destruct (compiles_ret _ (general_compiles _ W)) as (rule & Cr). change (get_d_pattern (mdesc md_general (Some m))) with (general m) in Cr. rewrite Cr. cbn [bind].
  assert (FM : forall t, full_match (general m) t <-> re_match rule t = true).
  { apply general_match. unfold must_compile in Cr. destruct (compile (anchored _)) as [y|]; [|discriminate]. cbn [or_panic] in Cr. congruence. }
  assert (G : forall t car core c b, left_over m x s g = t -> carrier_part m x s g = car ->
    (if re_match rule s && negb (re_match rule t) then Ret (s, [], false) else Ret (t, car, true)) = Ret (core, c, b) ->
    (full_match (general m) s /\ ~ full_match (general m) (left_over m x s g) /\ core = s /\ c = []) \/
    ((full_match (general m) s -> full_match (general m) (left_over m x s g)) /\ core = left_over m x s g /\ c = carrier_part m x s g)).
  { intros t car core c b Et Ec. rewrite !FM, Et, Ec. destruct (re_match rule s), (re_match rule t); cbn [andb negb]; intros H; inv H; auto; right; repeat split; auto; discriminate. }
  unfold left_over, carrier_part in G. destruct (get_bytes (md_np_transform m)) as [|t0 ts] eqn:Et; cbn [is_empty negb andb orb] in *.
  - match goal with |- context [if ?b then Ret ?u else Ret ?v] => destruct (if b then Ret u else Ret v) as [[[core c] b']| |] eqn:Q end; try (destruct (_ && _); discriminate).
    exists core, c, b'. split; [reflexivity|]. right. split; [exact Ne|]. exists x. split; [reflexivity|]. rewrite F. unfold left_over, carrier_part. rewrite Et. cbn [is_empty negb andb orb]. eapply G; [reflexivity|reflexivity|exact Q].
  - destruct (group g (re_ngroups x)) as [gr|] eqn:Gr; cbn [is_some negb andb orb] in *.
    + match goal with |- context [if ?b then Ret ?u else Ret ?v] => destruct (if b then Ret u else Ret v) as [[[core c] b']| |] eqn:Q end; try (destruct (_ && _); discriminate).
      exists core, c, b'. split; [reflexivity|]. right. split; [exact Ne|]. exists x. split; [reflexivity|]. rewrite F. unfold left_over, carrier_part. rewrite Et, Gr. cbn [is_empty is_some negb andb orb]. eapply G; [reflexivity|reflexivity|exact Q].
    + match goal with |- context [if ?b then Ret ?u else Ret ?v] => destruct (if b then Ret u else Ret v) as [[[core c] b']| |] eqn:Q end; try (destruct (_ && _); discriminate).
      exists core, c, b'. split; [reflexivity|]. right. split; [exact Ne|]. exists x. split; [reflexivity|]. rewrite F. unfold left_over, carrier_part. rewrite Et, Gr. cbn [is_empty is_some negb andb orb]. eapply G; [reflexivity|reflexivity|exact Q].
Qed.
Lemma part_unique m s a b a' b' : national_part m s a b -> national_part m s a' b' -> a = a' /\ b = b'.
Proof.
  intros [(E & -> & ->)|(E & x & C & H)] [(E' & -> & ->)|(E' & x' & C' & H')]; try congruence; auto.
  rewrite C in C'. inv C'. destruct (match s with [] => None | _ => re_find x' s end) as [g|]; [|destruct H as [-> ->], H' as [-> ->]; auto].
  destruct H as [(F & N & -> & ->)|(I & -> & ->)], H' as [(F' & N' & -> & ->)|(I' & -> & ->)]; auto; tauto.
Qed.
Lemma number_unique m s a b a' b' : national_number m s a b -> national_number m s a' b' -> a = a' /\ b = b'.
Proof.
  intros (co & c & v & P & Z & H) (co' & c' & v' & P' & Z' & H'). destruct (part_unique _ _ _ _ _ _ P P') as [<- <-].
  pose proof (C17_exclusive _ _ _ _ _ Z Z'). subst v'. destruct v; destruct H as [-> ->], H' as [-> ->]; auto.
Qed.
Lemma finished_unique m s src cc o o' : finished m s src cc o -> finished m s src cc o' -> o = o'.
Proof.
  intros [(L & ->)|(L & a & b & H & ->)] [(L' & ->)|(L' & a' & b' & H' & ->)]; auto; try lia. destruct (number_unique _ _ _ _ _ _ H H') as [<- <-]. reflexivity.
Qed.
Lemma finish_reads m s src cc : wf_meta m -> match finish_core s (Some m) with
  | Ret (nsn, c) => finished m s src cc (Means src cc nsn c) | Fail e => finished m s src cc (Error e) | Panic => False end.
Proof.
  intros W. unfold finish_core. destruct (Nat.ltb_spec (len s) minLengthForNSN) as [L|L]; [left; auto|].
  destruct (strip_spec m s W) as (core & c & b & -> & P). cbn [bind]. destruct (testNumberLength_spec m UNKNOWN core W) as (v & -> & Z). cbn [bind].
  set (q := match v with IS_POSSIBLE | TOO_LONG => (core, c) | _ => (s, []) end).
  assert (Q : match v with TOO_SHORT | IS_POSSIBLE_LOCAL_ONLY | INVALID_LENGTH => Ret (s, []) | _ => Ret (core, c) end = Ret q) by (destruct v; try reflexivity; destruct Z).
  rewrite Q. cbn [bind]. assert (Nn : national_number m s (fst q) (snd q)).
  { exists core, c, v. split; [exact P|]. split; [exact Z|]. destruct v; split; reflexivity. }
  destruct q as [nsn car]. cbn [fst snd] in Nn.
  assert (G : forall o, o = (if (length nsn <? 2)%nat then Error ErrTooShortNSN else if (17 <? length nsn)%nat then Error ErrNumTooLong else Means src cc nsn car) -> finished m s src cc o).
  { intros o Eo. right. split; [exact L|]. exists nsn, car. auto. }
  change (len nsn <? minLengthForNSN)%nat with (length nsn <? 2)%nat. change (maxLengthForNSN <? len nsn)%nat with (17 <? length nsn)%nat.
  destruct (length nsn <? 2)%nat; [apply G; reflexivity|]. destruct (17 <? length nsn)%nat; apply G; reflexivity.
Qed.

(** * Texts of digits *)
Lemma digit_runes d : all_digits d = true -> runes d = d.
Proof. intros D. apply runes_ascii. apply digits_ascii. auto. Qed.
Lemma in_digits10 d c : all_digits d = true -> In c (runes d) -> In c digits10.
Proof. intros D I. rewrite digit_runes in I by auto. apply digit_in10. unfold all_digits in D. rewrite forallb_forall in D. auto. Qed.
Lemma plus_needs : alive digits10 (re_ast plusCharsPattern) = false. Proof. vm_compute. reflexivity. Qed.
Lemma ext_needs10 : alive digits10 (re_ast extnPattern) = false. Proof. vm_compute. reflexivity. Qed.
Lemma digits_no_plus d : all_digits d = true -> re_find plusCharsPattern d = None.
Proof. intros D. apply (no_find digits10); [apply plus_needs|]. intros c. apply in_digits10. auto. Qed.
Lemma digits_no_ext d : all_digits d = true -> maybeStripExtension d = (d, []).
Proof. intros D. unfold maybeStripExtension. rewrite (no_find digits10); [reflexivity|apply ext_needs10|]. intros c. apply in_digits10. auto. Qed.
Lemma digits_text d : all_digits d = true -> d <> [] -> buildNationalNumberForParsing d = Ret d.
Proof.
  intros D Ne. apply (text_clean [] d); auto. destruct d as [|c d]; [congruence|]. assert (48 <= c <= 57) by (apply (all_digits_In (c :: d)); [auto|left; auto]). exists c, d. split; [apply decode_ascii; lia|].
  right. right. unfold decimal. rewrite digit_for_self by auto. reflexivity.
Qed.
Definition vp_begin : vec := [[RCat (RGroup 1 (RAlt vp_a (RCat (RStar true (RClass vp_k)) vp_b))) REnd]].
Lemma vp_check2 : forallb nul_hd (level (level [vp_begin])) && forallb (safe 400 0 nul_hd) (level (level (level [vp_begin]))) = true.
Proof. vm_cast_no_check (eq_refl true). Qed.
Lemma viable_digits2 d : all_digits d = true -> (2 <= length d)%nat -> isViablePhoneNumber d = true.
Proof.
  intros D L. unfold isViablePhoneNumber. replace (Nat.ltb (len d) minLengthForNSN) with false by (symmetry; apply Nat.ltb_ge; exact L).
  rewrite (anchored_match _ _ _ vp_shape); [|vm_compute; reflexivity]. rewrite digit_runes by auto. apply acc_one. unfold acc.
  pose proof vp_check2 as V. apply andb_true_iff in V as [V1 V2]. rewrite forallb_forall in V1, V2.
  destruct d as [|a [|b d]]; simpl in L; try lia. unfold all_digits in D. cbn [forallb] in D. apply andb_true_iff in D as [Da D]. apply andb_true_iff in D as [Db D].
  destruct d as [|c d].
  - change [a; b] with ([a] ++ [b]). rewrite run_app.
    specialize (V1 (vstep b (vstep a vp_begin)) ltac:(apply level_in; auto; apply level_in; auto; left; reflexivity)). exact V1.
  - apply andb_true_iff in D as [Dc D]. change (a :: b :: c :: d) with ([a; b; c] ++ d). rewrite run_app.
    specialize (V2 (vstep c (vstep b (vstep a vp_begin))) ltac:(apply level_in; auto; apply level_in; auto; apply level_in; auto; left; reflexivity)).
    destruct (safe_run _ _ _ _ V2 d D) as [X|X]; [discriminate|]. exact X.
Qed.

(** * International prefixes *)
Lemma nd_digits : forallb (cls_match k_nd) digits10 = true. Proof. vm_compute. reflexivity. Qed.
Lemma first_digit c t : is_digit c = true -> exists l, re_find_all_string capturingDigitPattern (c :: t) = [c] :: l.
Proof.
  intros D. assert (Hc : c < 128) by (apply is_digit_iff in D; lia).
  assert (F : find_from capturingDigitPattern (c :: t) 0 = Some {| m_start := 0; m_end := 1; m_caps := [(1%nat, (0%nat, 1%nat))] |}).
  { assert (M : rmatch (re_ast capturingDigitPattern) final 0 (c :: t) [] = Some (1%nat, [(1%nat, (0%nat, 1%nat))])).
    { change (re_ast capturingDigitPattern) with (RGroup 1 (RClass k_nd)). cbn [rmatch]. rewrite decode_ascii by auto.
      pose proof nd_digits as Y. rewrite forallb_forall in Y. rewrite (Y c (digit_in10 c D)). unfold final, len. cbn [length]. replace (0 + (S (length t) - length t))%nat with 1%nat by lia. reflexivity. }
    unfold find_from. cbn [skipn]. destruct (len (c :: t) - 0)%nat; cbn [search]; rewrite M; reflexivity. }
  unfold re_find_all_string, re_find_all. cbn [all_matches]. rewrite F. destruct (len (c :: t) <? 0)%nat eqn:E; [apply Nat.ltb_lt in E; lia|].
  cbn [m_start m_end Nat.eqb andb negb app map]. eexists. reflexivity.
Qed.
Lemma idd_digits x d : all_digits d = true ->
  match parsePrefixAsIdd x d with
  | Some rest => exists g, re_find x d = Some g /\ m_start g = 0%nat /\ rest = skipn (m_end g) d /\ hd_error rest <> Some 48
  | None => forall g, re_find x d = Some g -> m_start g = 0%nat -> hd_error (skipn (m_end g) d) = Some 48
  end.
Proof.
  intros D. unfold parsePrefixAsIdd. destruct (re_find x d) as [g|]; [|intros; discriminate].
  destruct (Nat.eqb_spec (m_start g) 0) as [Z0|Nz]; [|intros g' Eg Hg; inv Eg; congruence]. cbv zeta.
  assert (Dr : all_digits (skipn (m_end g) d) = true) by (unfold all_digits in *; rewrite forallb_forall in *; intros c I; apply D; rewrite <- (firstn_skipn (m_end g) d); apply in_or_app; auto).
  destruct (skipn (m_end g) d) as [|c t] eqn:Es.
  - change (re_find_all_string capturingDigitPattern []) with (@nil bytes). exists g. rewrite Es. split; [reflexivity|]. split; [exact Z0|]. split; [reflexivity|discriminate].
  - unfold all_digits in Dr. cbn [forallb] in Dr. apply andb_true_iff in Dr as [Dc _]. destruct (first_digit c t Dc) as (l & ->).
    rewrite NormalizeDigitsOnly_self by (unfold all_digits; cbn [forallb]; rewrite Dc; reflexivity).
    destruct (beq [c] [48]) eqn:E; [apply beq_eq in E; inv E|].
    + intros g' Eg Hg. inv Eg. rewrite Es. reflexivity.
    + exists g. rewrite Es. split; [reflexivity|]. split; [exact Z0|]. split; [reflexivity|]. cbn. intros Hx. inv Hx. discriminate E.
Qed.
(** * Calling codes in front *)
Lemma valid_pos C cc : wf_container C -> hasValidCountryCallingCode C cc = true -> (0 < cc < 1000)%Z.
Proof. intros W H. apply hasValid_In in H as (l & I & _). apply (wf_cc _ W _ _ I). Qed.
Lemma front_some C d cc t : wf_container C -> all_digits d = true -> extractCountryCode C d = Some (cc, t) -> code_in_front C d cc t.
Proof.
  intros W D H. destruct (extract_some _ _ _ _ D H) as (E & _ & _ & V & M). split; [exact E|]. split; [exact V|]. intros cc' t' V' E'. apply M; eauto. apply (valid_pos _ _ W V').
Qed.
Lemma itoa_small cc : (0 < cc < 1000)%Z -> (length (itoa cc) <= 3)%nat.
Proof.
  intros H. rewrite itoa_pos by lia. apply dec_length_le; [lia|]. change (10 ^ N.of_nat 3) with 1000. lia.
Qed.
Lemma front_none C d : wf_container C -> all_digits d = true -> extractCountryCode C d = None -> forall cc t, ~ code_in_front C d cc t.
Proof.
  intros W D H cc t (E & V & _). pose proof (valid_pos _ _ W V) as P. pose proof (extract_none _ _ D H cc t ltac:(lia) (itoa_small _ P) E). congruence.
Qed.
Lemma front_unique C d cc t cc' t' : wf_container C -> code_in_front C d cc t -> code_in_front C d cc' t' -> cc = cc' /\ t = t'.
Proof.
  intros W (E & V & M) (E' & V' & M'). pose proof (M _ _ V' E') as L1. pose proof (M' _ _ V E) as L2. rewrite E in E'. assert (X : itoa cc = itoa cc').
  { apply (f_equal (firstn (length (itoa cc)))) in E'. rewrite firstn_app, Nat.sub_diag, firstn_all, firstn_O, app_nil_r in E'. replace (length (itoa cc)) with (length (itoa cc')) in E' by lia. rewrite firstn_app, Nat.sub_diag, firstn_all, firstn_O, app_nil_r in E'. exact E'. }
  rewrite X in E'. apply app_inv_head in E'.
  split; [|exact E']. apply itoa_inj; auto.
Qed.
Lemma dials_unique m d a b : dials_abroad m d a -> dials_abroad m d b -> a = b.
Proof. intros (x & g & C1 & F1 & _ & -> & _) (y & h & C2 & F2 & _ & -> & _). congruence. Qed.
Lemma own_unique m d a b : own_code m d a -> own_code m d b -> a = b.
Proof. intros (t & c & E & P & _) (t' & c' & E' & P' & _). rewrite E in E'. apply app_inv_head in E'. subst t'. apply (part_unique _ _ _ _ _ _ P P'). Qed.
Lemma entry_unique C cc m m' : main_entry C cc m -> main_entry C cc m' -> m = m'.
Proof. intros (r & l & E & H) (r' & l' & E' & H'). congruence. Qed.
Lemma abroad_unique C r s o o' : wf_container C -> abroad C r s o -> abroad C r s o' -> o = o'.
Proof.
  intros W [(L & ->)|(L & cc & t & mm & F & E & H)] [(L' & ->)|(L' & cc' & t' & mm' & F' & E' & H')]; try lia; auto.
  destruct (front_unique _ _ _ _ _ _ W F F') as [<- <-]. rewrite <- (entry_unique _ _ _ _ E E') in H'. eapply finished_unique; eauto.
Qed.
Lemma abroad_code C r s o : abroad C r s o -> no_code C r -> False.
Proof. intros [(L & _)|(L & cc & t & mm & F & _)] (L' & N); [lia|]. eapply N; eauto. Qed.
Lemma dialled_unique C r o o' : wf_container C -> abroad C r FROM_NUMBER_WITH_IDD o \/ (no_code C r /\ o = Error ErrInvalidCountryCode) ->
  abroad C r FROM_NUMBER_WITH_IDD o' \/ (no_code C r /\ o' = Error ErrInvalidCountryCode) -> o = o'.
Proof. intros W [A|[A ->]] [B|[B ->]]; auto; [eapply abroad_unique; eauto| |]; exfalso; eapply abroad_code; eauto. Qed.
Theorem reads_unique C m d o o' : wf_container C -> reads C m d o -> reads C m d o' -> o = o'.
Proof.
  intros W [(r & A & H)|(A & H)] [(r' & A' & H')|(A' & H')].
  - rewrite <- (dials_unique _ _ _ _ A A') in H'. eapply dialled_unique; eauto.
  - elim (A' _ A).
  - elim (A _ A').
  - destruct H as [(c & mm & B & E & H)|(B & H)], H' as [(c' & mm' & B' & E' & H')|(B' & H')].
    + rewrite <- (own_unique _ _ _ _ B B'), <- (entry_unique _ _ _ _ E E') in H'. eapply finished_unique; eauto.
    + elim (B' _ B).
    + elim (B _ B').
    + eapply finished_unique; eauto.
Qed.
Theorem reads_plus_unique C dm d o o' : wf_container C -> reads_plus C dm d o -> reads_plus C dm d o' -> o = o'.
Proof.
  intros W [A|(Nc & H)] [A'|(Nc' & H')]; try (exfalso; eapply abroad_code; eauto; fail); [eapply abroad_unique; eauto|].
  destruct H as [(m & r & -> & A & H)|[(m & c & mm & -> & A & B & E & H)|(A & ->)]], H' as [(m' & r' & Em & A' & H')|[(m' & c' & mm' & Em & A' & B' & E' & H')|(A' & ->)]]; auto.
  - inv Em. rewrite <- (dials_unique _ _ _ _ A A') in H'. eapply dialled_unique; eauto.
  - inv Em. elim (A' _ A).
  - destruct (A' _ eq_refl) as [X _]. elim (X _ A).
  - inv Em. elim (A _ A').
  - inv Em. rewrite <- (own_unique _ _ _ _ B B'), <- (entry_unique _ _ _ _ E E') in H'. eapply finished_unique; eauto.
  - destruct (A' _ eq_refl) as [_ X]. elim (X _ B).
  - subst dm. destruct (A _ eq_refl) as [X _]. elim (X _ A').
  - subst dm. destruct (A _ eq_refl) as [_ X]. elim (X _ B').
Qed.

(** * The reading *)
Lemma extract_reads C m d : wf_container C -> wf_meta m -> hasValidCountryCallingCode C (code_of m) = true -> all_digits d = true -> d <> [] ->
  match extract_core C d (Some m) with
  | Ret (Some src, cc, norm) =>
      (src = FROM_NUMBER_WITH_IDD /\ exists rest, dials_abroad m d rest /\ (2 < length rest)%nat /\ code_in_front C rest cc norm) \/
      (src = FROM_NUMBER_WITHOUT_PLUS_SIGN /\ (forall rest, ~ dials_abroad m d rest) /\ cc = code_of m /\ own_code m d norm) \/
      (src = FROM_DEFAULT_COUNTRY /\ cc = 0%Z /\ norm = [] /\ (forall rest, ~ dials_abroad m d rest) /\ forall core, ~ own_code m d core)
  | Ret (None, _, _) => False
  | Fail e => exists rest, dials_abroad m d rest /\ (((length rest <= 2)%nat /\ e = ErrTooShortAfterIDD) \/ (no_code C rest /\ e = ErrInvalidCountryCode))
  | Panic => False
  end.
Proof.
  intros W Wm V D Ne. unfold extract_core. destruct d as [|c0 d0]; [congruence|]. set (d := c0 :: d0) in *. cbv zeta. change (mbytes md_iprefix (Some m)) with (get_bytes (md_iprefix m)).
  unfold maybeStripInternationalPrefixAndNormalize. unfold d at 1. fold d. rewrite digits_no_plus by auto.
  destruct (idd_compiles (Some m) Wm) as (x & Cx). change (mbytes md_iprefix (Some m)) with (get_bytes (md_iprefix m)) in Cx. unfold must_compile at 1. rewrite Cx. cbn [or_panic bind]. rewrite normalize_self by auto.
  pose proof (idd_digits x d D) as I. destruct (parsePrefixAsIdd x d) as [rest|].
  - destruct I as (g & F & Z0 & Er & Hz). assert (DA : dials_abroad m d rest) by (exists x, g; auto). cbn [bind].
    assert (Dr : all_digits rest = true) by (rewrite Er; unfold all_digits in *; rewrite forallb_forall in *; intros c I; apply D; rewrite <- (firstn_skipn (m_end g) d); apply in_or_app; auto).
    change (len rest <=? minLengthForNSN)%nat with (length rest <=? 2)%nat. destruct (Nat.leb_spec (length rest) 2) as [L|L]; [exists rest; auto|].
    destruct (extractCountryCode C rest) as [[cc t]|] eqn:X.
    + pose proof (front_some _ _ _ _ W Dr X) as Fr. assert (P : (0 < cc)%Z) by (destruct Fr as (_ & V' & _); apply (valid_pos _ _ W V')). replace (cc =? 0)%Z with false by (symmetry; apply Z.eqb_neq; lia).
      left. split; [reflexivity|]. exists rest. auto.
    + exists rest. split; [exact DA|]. right. split; [|reflexivity]. split; [exact L|]. apply front_none; auto.
  - assert (ND : forall rest, ~ dials_abroad m d rest). { intros rest (y & g & Cy & F & Z0 & -> & Hz). rewrite Cx in Cy. inv Cy. apply Hz. eapply I; eauto. }
    cbn [bind]. change (mcc (Some m)) with (code_of m). destruct (has_prefix d (itoa (code_of m))) eqn:HP.
    2:{ right. right. split; [reflexivity|]. split; [reflexivity|]. split; [reflexivity|]. split; [exact ND|]. intros core (t & c & E & _). rewrite E, has_prefix_app in HP. discriminate. }
    apply has_prefix_iff in HP as (t & Et). assert (Sk : skipn (len (itoa (code_of m))) d = t) by (rewrite Et; unfold len; rewrite skipn_app, skipn_all, Nat.sub_diag; reflexivity). rewrite Sk.
    destruct (general_compiles _ Wm) as (rule & Cr). unfold must_compile. rewrite Cr. cbn [or_panic bind]. change (get_d_pattern (mdesc md_general (Some m))) with (general m) in Cr.
    destruct (strip_spec m t Wm) as (core & c & b & -> & P). cbn [bind]. destruct (testNumberLength_spec m UNKNOWN d Wm) as (v & -> & Z0). cbn [bind].
    assert (Q : forall core', own_code m d core' <-> core' = core /\ (negb (re_match rule d) && re_match rule core || vresult_eqb v TOO_LONG = true)).
    { intros core'. rewrite orb_true_iff, andb_true_iff, negb_true_iff. unfold own_code. split.
      - intros (t' & c' & E' & P' & H). rewrite Et in E'. apply app_inv_head in E'. subst t'. destruct (part_unique _ _ _ _ _ _ P P') as [<- <-]. split; [reflexivity|].
        rewrite !(general_match _ _ Cr) in H. destruct H as [[H1 H2]|H]; [left; split; auto; destruct (re_match rule d); congruence|right]. rewrite (C17_exclusive _ _ _ _ _ Z0 H). reflexivity.
      - intros (-> & H). exists t, c. split; [exact Et|]. split; [exact P|]. rewrite !(general_match _ _ Cr). destruct H as [[H1 H2]|H]; [left; split; congruence|right]. destruct v; try discriminate. exact Z0. }
    destruct (negb (re_match rule d) && re_match rule core || vresult_eqb v TOO_LONG).
    + right. left. split; [reflexivity|]. split; [exact ND|]. split; [reflexivity|]. apply Q. auto.
    + right. right. split; [reflexivity|]. split; [reflexivity|]. split; [reflexivity|]. split; [exact ND|]. intros core' H. apply Q in H as [_ H]. discriminate.
Qed.
Definition non_match : re := Eval vm_compute in force (compile (bs "NonMatch")).
Lemma non_match_ok : must_compile (bs "NonMatch") = Ret non_match. Proof. vm_compute. reflexivity. Qed.
Lemma non_needs : alive digits10 (re_ast non_match) = false. Proof. vm_compute. reflexivity. Qed.
Lemma no_default C d : all_digits d = true -> d <> [] -> extract_core C d None = Ret (Some FROM_DEFAULT_COUNTRY, 0%Z, []).
Proof.
  intros D Ne. unfold extract_core. destruct d as [|c0 d0]; [congruence|]. set (d := c0 :: d0) in *. cbv zeta. unfold maybeStripInternationalPrefixAndNormalize. unfold d at 1. fold d. rewrite digits_no_plus by auto.
  rewrite non_match_ok. cbn [bind]. rewrite normalize_self by auto. unfold parsePrefixAsIdd. rewrite (no_find digits10); [reflexivity|apply non_needs|]. intros c. apply in_digits10. auto.
Qed.
Definition core_out (p : M parsed) (o : meaning) : Prop := match o with
  | Means src cc nsn car => p = Ret {| pr_cc := cc; pr_nsn := nsn; pr_ext := []; pr_src := Some src; pr_carrier := car |}
  | Error e => p = Fail e
  end.
Lemma finish_out m s src cc : wf_meta m -> exists o, finished m s src cc o /\
  core_out (x <- finish_core s (Some m) ;; Ret {| pr_cc := cc; pr_nsn := fst x; pr_ext := []; pr_src := Some src; pr_carrier := snd x |}) o.
Proof.
  intros W. pose proof (finish_reads m s src cc W) as F. destruct (finish_core s (Some m)) as [[nsn c]|e|]; [| |destruct F]; eexists; (split; [exact F|reflexivity]).
Qed.
Lemma core_outcome C s r o : wf_container C -> parse_ok C -> core_out (parse_core C s r true) o -> outcome s (ParseAndKeepRawInput C s r) o.
Proof.
  intros W P H. pose proof (parse_runs C s r true true W) as R. unfold ParseAndKeepRawInput, ParseAndKeepRawInputToNumber. destruct o as [src cc nsn car|e]; cbn [core_out outcome] in *.
  - pose proof H as H'. rewrite H in R. apply parse_core_ok in H'; auto. destruct H' as [D L V]. cbn [pr_nsn pr_cc] in *. specialize (R phone0). eexists. split; [exact R|].
    rewrite store_cc, store_nsn by auto. pose proof (store_fields true s {| pr_cc := cc; pr_nsn := nsn; pr_ext := []; pr_src := Some src; pr_carrier := car |} phone0) as (_ & _ & E3 & _ & E5 & E6 & E7).
    rewrite E3, E5, E6, E7. cbn [pr_cc pr_nsn pr_ext pr_src pr_carrier is_empty]. split; [reflexivity|]. split; [reflexivity|]. split; [reflexivity|]. split; [destruct car; reflexivity|]. auto.
  - rewrite H in R. destruct (R phone0) as (n & E). eauto.
Qed.
Lemma chosen_meta C cc r m : wf_container C -> getMetadataForRegion C r = m -> r <> nonGeoEntity -> hasValidCountryCallingCode C cc = true -> exists mm, main_entry C cc mm /\ wf_meta mm /\
  (if beq (GetRegionCodeForCountryCode C cc) r then m else getMetadataForRegionOrCallingCode C cc (GetRegionCodeForCountryCode C cc)) = Some mm.
Proof.
  intros W Em Nr V. destruct (main_entry_ok _ _ W V) as (mm & E & Mm & Wm). exists mm. split; [exact E|]. split; [exact Wm|]. destruct (beq _ r) eqn:B; [|exact Mm].
  apply beq_eq in B. unfold main_meta in Mm. rewrite B in Mm. unfold getMetadataForRegionOrCallingCode in Mm. replace (beq nonGeoEntity r) with false in Mm by (symmetry; apply beq_neq; congruence). congruence.
Qed.
Lemma region_known C r m : wf_container C -> getMetadataForRegion C r = Some m -> In r (c_regions C) /\ r <> [] /\ r <> nonGeoEntity /\ wf_meta m.
Proof.
  intros W H. pose proof (opt_wf_region C r W) as Wm. rewrite H in Wm. unfold getMetadataForRegion in H. destruct (isValidRegionCode C r) eqn:V; [|discriminate]. apply valid_region_iff in V as [_ V].
  destruct (wf_supported _ W _ V) as (A & B & _). auto.
Qed.
Theorem reads_digits C r m d : wf_container C -> parse_ok C -> getMetadataForRegion C r = Some m -> all_digits d = true -> (2 <= length d <= 250)%nat ->
  exists o, reads C m d o /\ outcome d (ParseAndKeepRawInput C d r) o.
Proof.
  intros W PO Em D L. destruct (region_known _ _ _ W Em) as (Ir & Nr & Ng & Wm). pose proof (po_codes _ PO _ _ Em) as V. change (mcc (Some m)) with (code_of m) in V. pose proof (valid_pos _ _ W V) as Pc.
  assert (Ne : d <> []) by (intros ->; simpl in L; lia).
  enough (exists o, reads C m d o /\ core_out (parse_core C d r true) o) as (o & A & B) by (exists o; split; [exact A|apply core_outcome; auto]).
  unfold parse_core. rewrite (proj2 (is_empty_false d) Ne). replace (Nat.ltb maxInputStringLength (len d)) with false by (symmetry; apply Nat.ltb_ge; unfold maxInputStringLength, len; lia).
  rewrite digits_text by auto. cbn [bind]. rewrite viable_digits2 by (auto; lia). cbn [negb]. unfold checkRegionForParsing. replace (isValidRegionCode C r) with true by (symmetry; apply valid_region_iff; auto).
  cbn [orb negb andb]. rewrite digits_no_ext by auto. rewrite Em. unfold code_core. rewrite digits_no_plus by auto.
  pose proof (extract_reads C m d W Wm V D Ne) as X. destruct (extract_core C d (Some m)) as [[[[src|] cc] norm]|e|]; [|destruct X| |destruct X].
  - cbn [bind]. destruct X as [(-> & rest & DA & Lr & Fr)|[(-> & ND & -> & Ow)|(-> & -> & -> & ND & NO)]].
    + pose proof (proj1 (proj2 Fr)) as Vc. pose proof (valid_pos _ _ W Vc) as Pcc. replace (cc =? 0)%Z with false by (symmetry; apply Z.eqb_neq; lia). cbn [negb].
      destruct (chosen_meta C cc r (Some m) W Em Ng Vc) as (mm & Me & Wmm & ->). rewrite int32_small by lia.
      destruct (finish_out mm norm FROM_NUMBER_WITH_IDD cc Wmm) as (o & F & O). exists o. split; [|exact O]. left. exists rest. split; [exact DA|]. left. right. split; [exact Lr|]. eauto 8.
    + replace (code_of m =? 0)%Z with false by (symmetry; apply Z.eqb_neq; lia). cbn [negb].
      destruct (chosen_meta C (code_of m) r (Some m) W Em Ng V) as (mm & Me & Wmm & ->). rewrite int32_small by lia.
      destruct (finish_out mm norm FROM_NUMBER_WITHOUT_PLUS_SIGN (code_of m) Wmm) as (o & F & O). exists o. split; [|exact O]. right. split; [exact ND|]. left. eauto 8.
    + change (0 =? 0)%Z with true. cbn [negb app]. rewrite normalize_self by auto. rewrite (proj2 (is_empty_false r) Nr). change (mcc (Some m)) with (code_of m). rewrite int32_small by lia.
      destruct (finish_out m d FROM_DEFAULT_COUNTRY (code_of m) Wm) as (o & F & O). exists o. split; [|exact O]. right. split; [exact ND|]. right. auto.
  - destruct X as (rest & DA & [(Lr & ->)|(Nc & ->)]).
    + exists (Error ErrTooShortAfterIDD). split; [|reflexivity]. left. exists rest. split; [exact DA|]. left. left. auto.
    + exists (Error ErrInvalidCountryCode). split; [|reflexivity]. left. exists rest. auto.
Qed.
Theorem reads_plus_digits C r d : wf_container C -> parse_ok C -> r <> nonGeoEntity -> all_digits d = true -> (3 <= length d <= 249)%nat ->
  exists o, reads_plus C (getMetadataForRegion C r) d o /\ outcome (43 :: d) (ParseAndKeepRawInput C (43 :: d) r) o.
Proof.
  intros W PO Ng D L. assert (Ne : d <> []) by (intros ->; simpl in L; lia).
  enough (exists o, reads_plus C (getMetadataForRegion C r) d o /\ core_out (parse_core C (43 :: d) r true) o) as (o & A & B) by (exists o; split; [exact A|apply core_outcome; auto]).
  unfold parse_core. change (is_empty (43 :: d)) with false. cbv iota. replace (Nat.ltb maxInputStringLength (len (43 :: d))) with false by (symmetry; apply Nat.ltb_ge; unfold maxInputStringLength, len; cbn [length]; lia).
  rewrite plus_text by auto. cbn [bind]. rewrite viable_digits by (auto; lia). cbn [negb]. unfold checkRegionForParsing. rewrite re_match_plus by auto. cbn [is_empty negb andb]. rewrite orb_true_r. cbn [negb andb].
  rewrite no_ext by auto. unfold code_core. 
  assert (Xp : extract_core C (43 :: d) (getMetadataForRegion C r) = match extractCountryCode C d with Some (cc, rest) => if (cc =? 0)%Z then Fail ErrInvalidCountryCode else Ret (Some FROM_NUMBER_WITH_PLUS_SIGN, cc, rest) | None => Fail ErrInvalidCountryCode end).
  { unfold extract_core. cbv zeta. rewrite intl_plus by auto. cbn [bind]. replace (Nat.leb (len d) minLengthForNSN) with false by (symmetry; apply Nat.leb_gt; unfold minLengthForNSN, len; lia). reflexivity. }
  rewrite Xp. clear Xp. destruct (extractCountryCode C d) as [[cc t]|] eqn:X.
  - pose proof (front_some _ _ _ _ W D X) as Fr. pose proof (proj1 (proj2 Fr)) as Vc. pose proof (valid_pos _ _ W Vc) as Pcc. replace (cc =? 0)%Z with false by (symmetry; apply Z.eqb_neq; lia). cbn [bind].
    replace (cc =? 0)%Z with false by (symmetry; apply Z.eqb_neq; lia). cbn [negb]. destruct (chosen_meta C cc r _ W eq_refl Ng Vc) as (mm & Me & Wmm & ->). rewrite int32_small by lia.
    destruct (finish_out mm t FROM_NUMBER_WITH_PLUS_SIGN cc Wmm) as (o & F & O). exists o. split; [|exact O]. left. right. split; [lia|]. eauto 8.
  - assert (Nc : no_code C d) by (split; [lia|apply front_none; auto]). destruct (plus_find d D) as (g & -> & _ & ->). cbn [skipn].
    destruct (getMetadataForRegion C r) as [m|] eqn:Em.
    + destruct (region_known _ _ _ W Em) as (Ir & Nr & _ & Wm). pose proof (po_codes _ PO _ _ Em) as V. change (mcc (Some m)) with (code_of m) in V. pose proof (valid_pos _ _ W V) as Pc.
      pose proof (extract_reads C m d W Wm V D Ne) as Y. destruct (extract_core C d (Some m)) as [[[[src|] cc] norm]|e|]; [|destruct Y| |destruct Y].
      * cbn [bind]. destruct Y as [(-> & rest & DA & Lr & Fr)|[(-> & ND & -> & Ow)|(-> & -> & -> & ND & NO)]].
        -- pose proof (proj1 (proj2 Fr)) as Vc. pose proof (valid_pos _ _ W Vc) as Pcc. replace (cc =? 0)%Z with false by (symmetry; apply Z.eqb_neq; lia). cbn [bind]. replace (cc =? 0)%Z with false by (symmetry; apply Z.eqb_neq; lia). cbn [negb].
           destruct (chosen_meta C cc r (Some m) W Em Ng Vc) as (mm & Me & Wmm & ->). rewrite int32_small by lia.
           destruct (finish_out mm norm FROM_NUMBER_WITH_IDD cc Wmm) as (o & F & O). exists o. split; [|exact O]. right. split; [exact Nc|]. left. exists m, rest. split; [reflexivity|]. split; [exact DA|]. left. right. split; [exact Lr|]. eauto 8.
        -- replace (code_of m =? 0)%Z with false by (symmetry; apply Z.eqb_neq; lia). cbn [bind]. replace (code_of m =? 0)%Z with false by (symmetry; apply Z.eqb_neq; lia). cbn [negb].
           destruct (chosen_meta C (code_of m) r (Some m) W Em Ng V) as (mm & Me & Wmm & ->). rewrite int32_small by lia.
           destruct (finish_out mm norm FROM_NUMBER_WITHOUT_PLUS_SIGN (code_of m) Wmm) as (o & F & O). exists o. split; [|exact O]. right. split; [exact Nc|]. right. left. exists m, norm, mm. auto.
        -- change (0 =? 0)%Z with true. cbn [bind]. exists (Error ErrInvalidCountryCode). split; [|reflexivity]. right. split; [exact Nc|]. right. right. split; [|reflexivity]. intros m' E'. inv E'. auto.
      * cbn [bind]. destruct Y as (rest & DA & [(Lr & ->)|(Nc' & ->)]).
        -- exists (Error ErrTooShortAfterIDD). split; [|reflexivity]. right. split; [exact Nc|]. left. exists m, rest. split; [reflexivity|]. split; [exact DA|]. left. left. auto.
        -- exists (Error ErrInvalidCountryCode). split; [|reflexivity]. right. split; [exact Nc|]. left. exists m, rest. auto.
    + exists (Error ErrInvalidCountryCode). split.
      { right. split; [exact Nc|]. right. right. split; [discriminate|reflexivity]. }
      assert (Y : extract_core C d None = Ret (Some FROM_DEFAULT_COUNTRY, 0%Z, [])).
      { apply no_default; auto. }
      rewrite Y. reflexivity.
Qed.

(** * Numbers with a plus sign do not depend on the default region *)
Definition plus_front (s : bytes) : Prop := exists g, re_find plusCharsPattern s = Some g /\ m_start g = 0%nat.
Lemma plus_extract C s : plus_front s -> forall dm dm', extract_core C s dm = extract_core C s dm'.
Proof.
  intros (g & F & Z0) dm dm'. unfold extract_core. destruct s as [|c s]; [reflexivity|]. cbv zeta. unfold maybeStripInternationalPrefixAndNormalize. rewrite F. destruct g as [a b cs]. cbn [m_start] in Z0. subst a. reflexivity.
Qed.
Lemma alone_extract C s src cc norm : extract_core C s None = Ret (src, cc, norm) -> plus_front s \/ cc = 0%Z.
Proof.
  intros H. unfold extract_core in H. destruct s as [|c0 s0]; [inv H; auto|]. set (s := c0 :: s0) in *. cbv zeta in H.
  unfold maybeStripInternationalPrefixAndNormalize in H. unfold s in H at 1. fold s in H.
  assert (K : (idd <- must_compile (bs "NonMatch");; match parsePrefixAsIdd idd (normalize s) with Some rest => Ret (rest, FROM_NUMBER_WITH_IDD) | None => Ret (normalize s, FROM_DEFAULT_COUNTRY) end) = Ret (normalize s, FROM_DEFAULT_COUNTRY)).
  { rewrite non_match_ok. cbn [bind]. unfold parsePrefixAsIdd. rewrite (no_find digits10); [reflexivity|apply non_needs|]. intros c. apply in_digits10. apply normalize_digits. }
  destruct (re_find plusCharsPattern s) as [[[|a] b cs]|] eqn:F.
  - left. eexists. split; [exact F|reflexivity].
  - rewrite K in H. cbn [bind] in H. inv H. auto.
  - rewrite K in H. cbn [bind] in H. inv H. auto.
Qed.
Lemma alone_code C s dm src cc norm : plus_front s -> code_core C s None = Ret (src, cc, norm) -> code_core C s dm = Ret (src, cc, norm).
Proof.
  intros P H. unfold code_core in *. rewrite (plus_extract C s P dm None). destruct (extract_core C s None) as [x|[]|]; auto.
  destruct (re_find plusCharsPattern s) as [g|]; [|discriminate]. destruct (extract_core C (skipn (m_end g) s) None) as [[[src' cc'] norm']|e|] eqn:X; cbn [bind] in H; try discriminate.
  destruct (alone_extract _ _ _ _ _ X) as [P'| ->]; [|discriminate]. rewrite (plus_extract C _ P' dm None), X. exact H.
Qed.
Definition plain_nongeo (C : container) : Prop := forall cc m, In (cc, m) (c_nongeo C) -> get_bytes (md_np_parse m) = [].
Lemma finish_plain m s : wf_meta m -> get_bytes (md_np_parse m) = [] -> finish_core s (Some m) = finish_core s None.
Proof.
  intros W E. unfold finish_core. destruct (_ <? _)%nat; [reflexivity|]. unfold maybeStripNationalPrefixAndCarrierCode. change (mbytes md_np_parse (Some m)) with (get_bytes (md_np_parse m)). rewrite E. cbn [is_empty].
  rewrite orb_true_r. cbn [bind]. destruct (test_total s m UNKNOWN W) as (v & ->). cbn [bind]. destruct v; reflexivity.
Qed.
Lemma used_meta C cc r s : wf_container C -> plain_nongeo C -> hasValidCountryCallingCode C cc = true -> 
  finish_core s (if beq (GetRegionCodeForCountryCode C cc) r then getMetadataForRegion C r else getMetadataForRegionOrCallingCode C cc (GetRegionCodeForCountryCode C cc)) = finish_core s (main_meta C cc).
Proof.
  intros W P V. unfold main_meta. destruct (beq _ r) eqn:B; [|reflexivity]. apply beq_eq in B. rewrite B. unfold getMetadataForRegionOrCallingCode at 1.
  destruct (beq nonGeoEntity r) eqn:B2; [|reflexivity]. apply beq_eq in B2. unfold getMetadataForRegion.
  replace (isValidRegionCode C r) with false. 2:{ symmetry. destruct (isValidRegionCode C r) eqn:V'; [|reflexivity]. apply valid_region_iff in V' as [_ V']. destruct (wf_supported _ W _ V') as (_ & Nn & _). congruence. }
  symmetry. destruct (main_entry_ok _ _ W V) as (mm & _ & Mm & Wm). unfold main_meta in Mm. rewrite B, <- B2 in Mm. unfold getMetadataForRegionOrCallingCode in Mm. rewrite beq_refl in Mm.
  rewrite Mm. apply finish_plain; auto. unfold getMetadataForNonGeographicalRegion in Mm. match goal with H : (if ?b then _ else _) = _ |- _ => destruct b; [|discriminate] | _ => idtac end. apply assocz_In in Mm. eapply P. exact Mm.
Qed.
Theorem any_region C s r r' x : wf_container C -> parse_ok C -> plain_nongeo C -> ~ In r (c_regions C) -> parse_core C s r true = Ret x -> parse_core C s r' true = Ret x.
Proof.
  intros W PO P Nr H. pose proof H as H0. unfold parse_core in *. destruct (is_empty s); [discriminate|]. destruct (_ <? len s)%nat; [discriminate|].
  destruct (buildNationalNumberForParsing s) as [t|e|]; cbn [bind] in *; try discriminate. destruct (isViablePhoneNumber t) eqn:V; cbn [negb] in *; [|discriminate].
  unfold checkRegionForParsing in *. replace (isValidRegionCode C r) with false in H. 2:{ symmetry. destruct (isValidRegionCode C r) eqn:V'; [|reflexivity]. apply valid_region_iff in V' as [_ V']. tauto. }
  cbn [orb] in H. destruct (negb (is_empty t) && re_match plusCharsPattern t) eqn:K; cbn [negb andb] in H; [|discriminate]. rewrite orb_true_r. cbn [negb andb].
  apply andb_true_iff in K as [_ K]. pose proof (viable_plus _ V K) as Sp. destruct (maybeStripExtension t) as [nn ext] eqn:Ee. pose proof (ext_plus _ _ _ Ee Sp) as Sn.
  replace (getMetadataForRegion C r) with (@None meta) in H at 1. 2:{ unfold getMetadataForRegion. destruct (isValidRegionCode C r) eqn:V'; [|reflexivity]. apply valid_region_iff in V' as [_ V']. tauto. }
  pose proof (starts_plus_find _ Sn) as Pf. destruct (code_core C nn None) as [[[src cc] norm]|e|] eqn:Cc; cbn [bind] in H; try discriminate.
  rewrite (alone_code _ _ (getMetadataForRegion C r') _ _ _ Pf Cc). cbn [bind].
  destruct (Z.eqb_spec cc 0) as [->|Nz]; cbn [negb] in *.
  { exfalso. eapply code_plus in Sn; eauto. }
  assert (Vc : hasValidCountryCallingCode C cc = true).
  { destruct (code_code C nn [] src cc norm W PO) as [E|E]; [|congruence|exact E]. rewrite <- Cc. reflexivity. }
  rewrite used_meta in * by auto. exact H.
Qed.
