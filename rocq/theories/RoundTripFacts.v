(** Parsing a number's own E.164 text. *)
From Verif Require Import Base BaseFacts Utf8 Utf8Facts Regex RegexSpec RegexFacts LangFacts Consts Types Normalize NormalizeSpec NormalizeFacts Validate Format Parse
  NumberSpec NumberFacts MetaSpec ValidateSpec ValidateFacts Container Shipped MetaFacts FormatSpec TextFacts FormatFacts FormatMore ParseSpec ParseFacts ParseMore ContextFacts RoundSpec DerivFacts MatcherTotal.

(** * Expressions that need a letter or a sign *)
(** Some word of the expression uses only these characters. *)
Fixpoint alive (l : list N) (r : regex) : bool :=
  match r with
  | RClass k => existsb (cls_match k) l
  | RCat a b => alive l a && alive l b
  | RAlt a b => alive l a || alive l b
  | RGroup _ a => alive l a
  | _ => true
  end.
Lemma alive_ok l r w : lang r w -> (forall c, In c w -> In c l) -> alive l r = true.
Proof.
  induction 1; intros A; cbn [alive]; auto.
  - apply existsb_exists. exists c. split; auto. apply A. left. auto.
  - rewrite IHlang1, IHlang2; auto; intros; apply A, in_or_app; auto.
  - rewrite IHlang; auto.
  - rewrite IHlang, orb_true_r; auto.
Qed.
Lemma no_find l x s : alive l (re_ast x) = false -> (forall c, In c (runes s) -> In c l) -> re_find x s = None.
Proof.
  intros A S. destruct (re_find x s) as [m|] eqn:F; [exfalso|reflexivity]. apply match_reads in F as (u & w & v & E & L & _). apply (alive_ok l) in L; [congruence|].
  intros c I. apply S. rewrite E. apply in_or_app. right. apply in_or_app. auto.
Qed.
Lemma ext_needs : alive (43 :: digits10) (re_ast extnPattern) = false. Proof. vm_compute. reflexivity. Qed.
Lemma alpha_needs : alive digits10 (re_ast validAlphaPhonePattern) = false. Proof. vm_compute. reflexivity. Qed.
Lemma normalize_self d : all_digits d = true -> normalize d = d.
Proof.
  intros D. unfold normalize, re_match. rewrite (no_find digits10); [cbn [is_some]; apply NormalizeDigitsOnly_self; auto|apply alpha_needs|].
  intros c I. rewrite runes_ascii in I by (apply digits_ascii; auto). apply digit_in10. unfold all_digits in D. rewrite forallb_forall in D. auto.
Qed.

(** * A plus sign and digits *)
Lemma plus_runes d : all_digits d = true -> runes (43 :: d) = 43 :: d.
Proof. intros D. apply runes_ascii. constructor; [reflexivity|apply digits_ascii; auto]. Qed.
Fixpoint vdedup (l : list vec) : list vec := match l with [] => [] | x :: t => if vmem x t then vdedup t else x :: vdedup t end.
Definition level (l : list vec) : list vec := vdedup (flat_map (fun x => map (fun c => vstep c x) digits10) l).
Lemma vmem_in x l : vmem x l = true -> In x l.
Proof. unfold vmem. intros H. apply existsb_exists in H as (y & I & E). apply vec_eqb_ok in E. subst. auto. Qed.
Lemma vdedup_in x l : In x l -> In x (vdedup l).
Proof. induction l as [|y l IH]; simpl; [auto|]. intros [->|I]; destruct (vmem _ l) eqn:M; auto using vmem_in; [left; auto|right; auto]. Qed.
Lemma level_in x l c : In x l -> is_digit c = true -> In (vstep c x) (level l).
Proof. intros I D. apply vdedup_in. apply in_flat_map. exists x. split; auto. apply in_map_iff. exists c. split; auto. apply digit_in10. auto. Qed.
Definition vp_states : vec := [run [43] [RCat (RGroup 1 (RAlt vp_a (RCat (RStar true (RClass vp_k)) vp_b))) REnd]].
Definition nul_hd (x : vec) : bool := match x with y :: _ => nuls y | [] => false end.
Lemma vp_check : forallb (safe 400 0 nul_hd) (level (level (level [vp_states]))) = true.
Proof. vm_cast_no_check (eq_refl true). Qed.
Lemma viable_digits d : all_digits d = true -> (3 <= length d)%nat -> isViablePhoneNumber (43 :: d) = true.
Proof.
  intros D L. unfold isViablePhoneNumber. replace (Nat.ltb (len (43 :: d)) minLengthForNSN) with false by (symmetry; apply Nat.ltb_ge; unfold minLengthForNSN, len; cbn [length]; lia).
  rewrite (anchored_match _ _ _ vp_shape); [|vm_compute; reflexivity]. rewrite plus_runes by auto. apply acc_one. unfold acc.
  destruct d as [|a [|b [|c d]]]; simpl in L; try lia. change (43 :: a :: b :: c :: d) with ([43] ++ [a; b; c] ++ d). rewrite !run_app.
  unfold all_digits in D. cbn [forallb] in D. apply andb_true_iff in D as [Da D]. apply andb_true_iff in D as [Db D]. apply andb_true_iff in D as [Dc D].
  pose proof vp_check as V. rewrite forallb_forall in V. specialize (V (vstep c (vstep b (vstep a vp_states))) ltac:(apply level_in; auto; apply level_in; auto; apply level_in; auto; left; reflexivity)).
  destruct (safe_run _ _ _ _ V d D) as [X|X]; [discriminate|]. exact X.
Qed.
(** * The parser on such a text *)
Lemma eats_digits s w t : eats s w t -> ascii s -> (length s = length w + length t)%nat.
Proof. intros E A. rewrite (eats_ascii _ _ _ E A) at 1. apply app_length. Qed.
Lemma plus_find d : all_digits d = true -> exists g, re_find plusCharsPattern (43 :: d) = Some g /\ m_start g = 0%nat /\ m_end g = 1%nat.
Proof.
  intros D. assert (A : ascii (43 :: d)) by (constructor; [reflexivity|apply digits_ascii; auto]).
  destruct (starts_plus_find (43 :: d)) as (g & F & Z). { exists 43, d. split; [apply decode_ascii; reflexivity|auto]. }
  exists g. split; [exact F|]. split; [exact Z|]. apply re_find_sound in F as (L1 & L2 & Dv & _). rewrite Z in Dv. cbn [skipn] in Dv. apply derives_lang in Dv as (w & E & L).
  pose proof (eats_digits _ _ _ E A) as Len. rewrite skipn_length in Len. apply eats_ascii in E; auto.
  change (re_ast plusCharsPattern) with (RCat (RClass plus_cls) (RStar true (RClass plus_cls))) in L. apply lang_cat in L as (u & v & -> & Lu & Lv). apply lang_cls in Lu as (c & -> & _). cbn [app length] in *. inversion E as [[E1 E2]]. subst c.
  destruct v as [|x v]; [cbn [length] in Len; lia|]. exfalso. apply star_class_lang in Lv. inversion Lv as [|? ? Hx _]. subst. apply plus_cls_iff in Hx. cbn [app] in E2. rewrite E2 in D. unfold all_digits in D. cbn [forallb] in D. apply andb_true_iff in D as [D _]. apply is_digit_iff in D. lia.
Qed.
Lemma intl_plus d idd : all_digits d = true -> maybeStripInternationalPrefixAndNormalize (43 :: d) idd = Ret (d, FROM_NUMBER_WITH_PLUS_SIGN).
Proof.
  intros D. unfold maybeStripInternationalPrefixAndNormalize. destruct (plus_find d D) as (g & -> & Z & E). destruct g as [a b cs]. cbn [m_start m_end] in *. subst. cbn [skipn]. rewrite normalize_self by auto. reflexivity.
Qed.
Lemma no_ext d : all_digits d = true -> maybeStripExtension (43 :: d) = (43 :: d, []).
Proof.
  intros D. unfold maybeStripExtension. rewrite (no_find (43 :: digits10)); [reflexivity|apply ext_needs|]. intros c I. rewrite plus_runes in I by auto. destruct I as [<-|I]; [left; auto|right].
  apply digit_in10. unfold all_digits in D. rewrite forallb_forall in D. auto.
Qed.
Lemma plus_text d : all_digits d = true -> d <> [] -> buildNationalNumberForParsing (43 :: d) = Ret (43 :: d).
Proof.
  intros D N. change (43 :: d) with ([43] ++ d). apply text_clean; auto.
  - exists 43, d. split; [apply decode_ascii; reflexivity|auto].
  - intros [E|[]]; discriminate.
  - intros [E|[]]; discriminate.
  - intros [E|[]]; discriminate.
Qed.
Lemma re_match_plus d : all_digits d = true -> re_match plusCharsPattern (43 :: d) = true.
Proof. intros D. unfold re_match. destruct (plus_find d D) as (g & -> & _). reflexivity. Qed.
(** "+" and digits, whatever the default region: the calling code is looked up, and the rest is finished with the metadata of
    that code's main region (or with none when the default region is "001"). *)
Lemma plus_core C d cc rest region : wf_container C -> all_digits d = true -> (3 <= length d <= 249)%nat -> extractCountryCode C d = Some (cc, rest) ->
  exists m, (m = main_meta C cc \/ m = None) /\
  parse_core C (43 :: d) region true = (x <- finish_core rest m ;;
    Ret {| pr_cc := to_int32 cc; pr_nsn := fst x; pr_ext := []; pr_src := Some FROM_NUMBER_WITH_PLUS_SIGN; pr_carrier := snd x |}).
Proof.
  intros W D L X. pose proof (extract_some _ _ _ _ D X) as (_ & _ & Pos & _).
  exists (if beq (GetRegionCodeForCountryCode C cc) region then getMetadataForRegion C region else getMetadataForRegionOrCallingCode C cc (GetRegionCodeForCountryCode C cc)). split.
  - unfold main_meta. destruct (beq (GetRegionCodeForCountryCode C cc) region) eqn:B; [|left; reflexivity]. apply beq_eq in B. rewrite B. unfold getMetadataForRegionOrCallingCode.
    destruct (beq nonGeoEntity region) eqn:B2; [|left; reflexivity]. right. apply beq_eq in B2. rewrite <- B2. unfold getMetadataForRegion. destruct (isValidRegionCode C nonGeoEntity) eqn:V; [exfalso|reflexivity]. unfold isValidRegionCode in V. apply andb_true_iff in V as [_ V]. apply mem_bytes_iff in V. destruct (wf_supported _ W _ V) as (_ & N & _). congruence.
  - unfold parse_core. change (is_empty (43 :: d)) with false. cbv iota. replace (Nat.ltb maxInputStringLength (len (43 :: d))) with false by (symmetry; apply Nat.ltb_ge; unfold maxInputStringLength, len; cbn [length]; lia).
    rewrite plus_text by (auto; intros ->; simpl in L; lia). cbn [bind]. rewrite viable_digits by (auto; lia). cbn [negb]. unfold checkRegionForParsing. rewrite re_match_plus by auto. cbn [is_empty negb andb]. rewrite orb_true_r. cbn [negb andb].
    rewrite no_ext by auto. unfold code_core, extract_core. rewrite intl_plus by auto. cbn [bind]. replace (Nat.leb (len d) minLengthForNSN) with false by (symmetry; apply Nat.leb_gt; unfold minLengthForNSN, len; lia).
    rewrite X. replace (cc =? 0)%Z with false by (symmetry; apply Z.eqb_neq; lia). cbn [bind]. replace (cc =? 0)%Z with false by (symmetry; apply Z.eqb_neq; lia). cbn [negb]. reflexivity.
Qed.
Lemma strip_keeps m s : wf_meta m -> unstripped m s -> exists c b, maybeStripNationalPrefixAndCarrierCode s (Some m) = Ret (s, c, b).
Proof.
  intros W U. unfold maybeStripNationalPrefixAndCarrierCode. change (mbytes md_np_parse (Some m)) with (get_bytes (md_np_parse m)). change (mbytes md_np_transform (Some m)) with (get_bytes (md_np_transform m)). change (mdesc md_general (Some m)) with (md_general m). cbv zeta.
  destruct (is_empty s || is_empty (get_bytes (md_np_parse m))) eqn:E; [eexists _, _; reflexivity|]. apply orb_false_iff in E as [Es En].
  destruct (wf_np_parse _ W) as (x & Cx). unfold must_compile at 1. rewrite Cx. cbn [or_panic bind]. destruct (re_find x s) as [g|] eqn:F; [|eexists _, _; reflexivity].
  destruct (compiles_ret _ (general_compiles _ W)) as (rule & Cr). change (mdesc md_general (Some m)) with (md_general m) in Cr. rewrite Cr. cbn [bind].
  assert (FM : forall t, full_match (get_d_pattern (md_general m)) t <-> re_match rule t = true).
  { intros t. unfold full_match. unfold must_compile in Cr. destruct (compile (anchored _)) as [y|]; [|discriminate]. cbn [or_panic] in Cr. injection Cr as ->. split; [intros (z & Ez & H); inv Ez; auto|intros H; eauto]. }
  destruct U as [U|U]; [rewrite U in En; discriminate|]. specialize (U x g Cx F). rewrite !FM in U. unfold left_over in U.
  destruct (is_empty (get_bytes (md_np_transform m)) || negb (is_some (group g (re_ngroups x)))).
  - destruct U as [U|[U1 U2]].
    + rewrite U. destruct (_ && _); eexists _, _; reflexivity.
    + rewrite U1. destruct (re_match rule (skipn (m_end g) s)); [congruence|]. eexists _, _; reflexivity.
  - destruct U as [U|[U1 U2]].
    + rewrite U. destruct (_ && _); eexists _, _; reflexivity.
    + rewrite U1. destruct (re_match rule (re_replace_all x s (get_bytes (md_np_transform m)))); [congruence|]. eexists _, _; reflexivity.
Qed.
Lemma finish_keeps s m : opt_wf m -> (forall x, m = Some x -> unstripped x s) -> (2 <= length s <= 17)%nat -> exists car, finish_core s m = Ret (s, car).
Proof.
  intros W U L. assert (E1 : Nat.ltb (len s) minLengthForNSN = false) by (apply Nat.ltb_ge; unfold minLengthForNSN, len; lia).
  assert (E2 : Nat.ltb maxLengthForNSN (len s) = false) by (apply Nat.ltb_ge; unfold maxLengthForNSN, len; lia).
  unfold finish_core. rewrite E1. destruct m as [m|]; [|cbn [bind]; rewrite E1, E2; eexists; reflexivity].
  destruct (strip_keeps m s W (U _ eq_refl)) as (c & b & ->). cbn [bind]. destruct (test_total s m UNKNOWN W) as (v & ->). cbn [bind].
  destruct v; cbn [bind]; rewrite E1, E2; eexists; reflexivity.
Qed.
Lemma extract_own C cc s : wf_container C -> prefix_free (map fst (c_cc2region C)) -> hasValidCountryCallingCode C cc = true -> all_digits s = true -> extractCountryCode C (itoa cc ++ s) = Some (cc, s).
Proof.
  intros W P V D. pose proof (valid_cc_pos _ _ W V) as Pos.
  assert (K : forall c, hasValidCountryCallingCode C c = true -> In c (map fst (c_cc2region C))).
  { intros c H. unfold hasValidCountryCallingCode in H. destruct (assocz c (c_cc2region C)) eqn:E; [|discriminate]. apply assocz_In in E. apply in_map_iff. eexists; split; [|exact E]. reflexivity. }
  assert (DD : all_digits (itoa cc ++ s) = true). { rewrite all_digits_app, D, andb_true_r. rewrite itoa_pos by lia. apply dec_digits. }
  destruct (extractCountryCode C (itoa cc ++ s)) as [[c r]|] eqn:X.
  - apply extract_some in X as (E & _ & _ & V' & _); auto. apply (e164_prefix_free _ _ _ _ _ P (K _ V) (K _ V')) in E as [-> ->]. reflexivity.
  - exfalso. pose proof (extract_none _ _ DD X cc s ltac:(lia)) as N. rewrite N in V; [discriminate| |reflexivity]. rewrite itoa_pos by lia. apply dec_length_le; [lia|]. change (10 ^ N.of_nat 3) with 1000. lia.
Qed.
(** * Deciding that the numbers of a descriptor are left alone *)
(** The expression between the anchors. *)
Definition body (p : bytes) : option regex :=
  match compile (anchored p) with
  | Some x => match re_ast x with RCat RBegin r => if ends_anchored r then Some r else None | _ => None end
  | None => None
  end.
Lemma body_ok p r s : body p = Some r -> ascii s -> full_match p s <-> acc [r] s = true.
Proof.
  unfold body, full_match. intros B A. rewrite acc_one. destruct (compile (anchored p)) as [x|]; [|discriminate]. destruct (re_ast x) as [| |a b| | | | |] eqn:X; try discriminate. destruct a; try discriminate.
  destruct (ends_anchored b) eqn:E; [|discriminate]. inv B. replace (lang r s) with (lang r (runes s)) by (rewrite runes_ascii; auto). rewrite <- (anchored_match _ _ s X E). split; [intros (y & Ey & M); inv Ey; auto|eauto].
Qed.
Definition chk2 (x : vec) : bool :=
  match x with [t; r; gu; g0] => if nuls t && nuls r then nuls gu && negb (nuls g0) else true | _ => false end.
Definition chk1 (fuel : nat) (gm : regex) (x : vec) : bool :=
  match x with
  | [t; r; q; k; g] => (if nuls t && nuls r && nuls q then nuls g else true) && (if nuls k then safe fuel 2 chk2 [t; r; g; [gm]] else true)
  | _ => false
  end.
(** Whenever a non-empty beginning of an accepted number is in q, the whole number is complete and the rest is not. *)
Definition scan (fuel : nat) (t r q gm : regex) : bool :=
  negb (nul gm) && forallb (fun c => safe fuel 3 (chk1 fuel gm) (vstep c [[t]; [r]; [q]; [kill_end q]; [gm]])) digits10.
(** No accepted number is in q, and no proper beginning of one is in k. *)
Definition chk3 (x : vec) : bool := match x with [t; r; q; k] => negb (nuls t && nuls r && nuls q) && negb (nuls k) | _ => false end.
Definition apart (fuel : nat) (t r q k : regex) : bool := safe fuel 3 chk3 [[t]; [r]; [q]; [k]].
(** Every number accepted by both is in gm. *)
Definition chk4 (x : vec) : bool := match x with [t; r; g] => negb (nuls t && nuls r) || nuls g | _ => false end.
Definition within (fuel : nat) (t r gm : regex) : bool := safe fuel 2 chk4 [[t]; [r]; [gm]].
Lemma vrun_list w l : vrun w l = map (run w) l. Proof. reflexivity. Qed.
Lemma live x u v : acc [x] (u ++ v) = true -> run u [x] <> [].
Proof. unfold acc. rewrite run_app. intros H. apply (run_nonempty _ v). exact H. Qed.
Lemma scan_ok fuel t r q gm u v : scan fuel t r q gm = true -> all_digits (u ++ v) = true -> acc [t] (u ++ v) = true -> acc [r] (u ++ v) = true -> u <> [] ->
  acc [q] u = true -> (v <> [] -> acc [kill_end q] u = true) -> acc [gm] (u ++ v) = true /\ acc [gm] v = false.
Proof.
  intros S D At Ar Nu Aq Ak. unfold scan in S. apply andb_true_iff in S as [Ng S]. apply negb_true_iff in Ng. rewrite forallb_forall in S. destruct u as [|c u]; [congruence|]. clear Nu.
  pose proof D as D'. unfold all_digits in D'. cbn [app forallb] in D'. apply andb_true_iff in D' as [Dc D']. fold (all_digits (u ++ v)) in D'. rewrite all_digits_app in D'. apply andb_true_iff in D' as [Du Dv].
  destruct (safe_run _ _ _ _ (S c (digit_in10 _ Dc)) u Du) as [X|X].
  - exfalso. revert X. apply not_true_iff_false. apply dead_false. unfold vrun, vstep. cbn [map firstn].
    constructor; [exact (live _ (c :: u) v At)|]. constructor; [exact (live _ (c :: u) v Ar)|]. constructor; [|constructor]. pose proof (live q (c :: u) []) as H. rewrite app_nil_r in H. exact (H Aq).
  - unfold vrun, vstep in X. cbn [map chk1] in X. apply andb_true_iff in X as [X1 X2]. unfold acc in *. rewrite run_app in At, Ar. rewrite run_app. cbn [run] in *.
    destruct v as [|x v].
    + cbn [run] in *. rewrite At, Ar, Aq in X1. cbn [andb] in X1. split; [exact X1|]. cbn [nuls existsb]. rewrite Ng. reflexivity.
    + rewrite Ak in X2 by discriminate. destruct (safe_run _ _ _ _ X2 (x :: v) Dv) as [Y|Y].
      * exfalso. revert Y. apply not_true_iff_false. apply dead_false. unfold vrun. cbn [map firstn]. constructor; [|constructor; [|constructor]]; intros E; rewrite E in *; discriminate.
      * unfold vrun in Y. cbn [map chk2] in Y. rewrite At, Ar in Y. cbn [andb] in Y. apply andb_true_iff in Y as [Y1 Y2]. apply negb_true_iff in Y2. auto.
Qed.
Lemma apart_ok fuel t r q k u v : apart fuel t r q k = true -> all_digits (u ++ v) = true -> acc [t] (u ++ v) = true -> acc [r] (u ++ v) = true ->
  acc [q] u = true -> (v <> [] -> acc [k] u = true) -> False.
Proof.
  intros S D At Ar Aq Ak. rewrite all_digits_app in D. apply andb_true_iff in D as [Du Dv]. destruct (safe_run _ _ _ _ S u Du) as [X|X].
  - revert X. apply not_true_iff_false. apply dead_false. unfold vrun. cbn [map firstn]. constructor; [exact (live _ u v At)|]. constructor; [exact (live _ u v Ar)|]. constructor; [|constructor]. pose proof (live q u []) as H. rewrite app_nil_r in H. auto.
  - unfold vrun in X. cbn [map chk3] in X. apply andb_true_iff in X as [X1 X2]. apply negb_true_iff in X1, X2. unfold acc in *. destruct v as [|v0 v]; [|rewrite Ak in X2 by discriminate; discriminate]. rewrite app_nil_r in *. rewrite At, Ar, Aq in X1. discriminate.
Qed.
Lemma within_ok fuel t r gm s : within fuel t r gm = true -> all_digits s = true -> acc [t] s = true -> acc [r] s = true -> acc [gm] s = true.
Proof.
  intros S D At Ar. destruct (safe_run _ _ _ _ S s D) as [X|X].
  - exfalso. revert X. apply not_true_iff_false. apply dead_false. unfold vrun. cbn [map firstn]. pose proof (live t s []) as H1. pose proof (live r s []) as H2. rewrite app_nil_r in *. constructor; [auto|]. constructor; [auto|]. constructor.
  - unfold vrun in X. cbn [map chk4] in X. unfold acc in *. rewrite At, Ar in X. exact X.
Qed.

(** * How much of a match lies outside a group *)
Fixpoint outside (n : nat) (r : regex) : option nat :=
  match r with
  | RCat a b =>
      match outside n a, outside n b with
      | Some x, Some y => Some (Nat.min (x + minrunes b) (minrunes a + y))%nat
      | Some x, None => Some (x + minrunes b)%nat
      | None, Some y => Some (minrunes a + y)%nat
      | None, None => None
      end
  | RAlt a b => match outside n a, outside n b with Some x, Some y => Some (Nat.min x y) | Some x, None => Some x | None, y => y end
  | RStar _ a => outside n a
  | RGroup m a => if (m =? n)%nat then Some 0%nat else outside n a
  | _ => None
  end.
Lemma derives_min r p s cs p' s' cs' : derives r p s cs p' s' cs' -> (minrunes r + length s' <= length s)%nat.
Proof.
  induction 1; cbn [minrunes]; try lia.
  - apply decode_rune_lt in H. lia.
Qed.
Definition gained (n : nat) (o : option nat) (cs cs' : caps) (k : nat) : Prop :=
  assoc Nat.eqb n cs' = assoc Nat.eqb n cs \/ exists i j x, assoc Nat.eqb n cs' = Some (i, j) /\ o = Some x /\ (i <= j)%nat /\ (j - i + x <= k)%nat.
Lemma derives_outside n r p s cs p' s' cs' : derives r p s cs p' s' cs' -> gained n (outside n r) cs cs' (length s - length s').
Proof.
  induction 1; cbn [outside]; try (left; reflexivity).
  - pose proof (derives_min _ _ _ _ _ _ _ H). pose proof (derives_min _ _ _ _ _ _ _ H0). destruct IHderives2 as [E2|(i & j & x & E2 & O2 & L & B)].
    + destruct IHderives1 as [E1|(i & j & x & E1 & O1 & L & B)]; [left; congruence|]. right. exists i, j. rewrite O1. destruct (outside n b) as [y|]; eexists; (split; [congruence|split; [reflexivity|lia]]).
    + right. exists i, j. rewrite O2. destruct (outside n a) as [y|]; eexists; (split; [congruence|split; [reflexivity|lia]]).
  - destruct IHderives as [E1|(i & j & x & E1 & O1 & L & B)]; [left; auto|]. right. exists i, j. rewrite O1. destruct (outside n b); eexists; (split; [eassumption|split; [reflexivity|lia]]).
  - destruct IHderives as [E1|(i & j & x & E1 & O1 & L & B)]; [left; auto|]. right. exists i, j. rewrite O1. destruct (outside n a); eexists; (split; [eassumption|split; [reflexivity|lia]]).
  - pose proof (derives_min _ _ _ _ _ _ _ H). pose proof (derives_min _ _ _ _ _ _ _ H1). cbn [outside] in IHderives2. destruct IHderives2 as [E2|(i & j & x & E2 & O2 & L & B)].
    + destruct IHderives1 as [E1|(i & j & x & E1 & O1 & L & B)]; [left; congruence|]. right. exists i, j, x. split; [congruence|]. split; [auto|]. lia.
    + right. exists i, j, x. split; [congruence|]. split; [auto|]. lia.
  - destruct (Nat.eqb_spec n0 n) as [->|NE].
    + right. apply derives_consumes in H as (u & new & E1 & E2 & _). exists p, p', 0%nat. cbn [assoc]. rewrite Nat.eqb_refl. split; [reflexivity|]. split; [reflexivity|]. rewrite E1, app_length. lia.
    + unfold gained. cbn [assoc]. destruct (Nat.eqb_spec n n0); [congruence|]. exact IHderives.
Qed.
Lemma left_find x q s p : re_ast x = RCat RBegin q -> (0 < p)%nat -> (p <= length s)%nat -> find_from x s p = None.
Proof.
  intros X P L. destruct (find_from x s p) as [m|] eqn:F; [exfalso|reflexivity]. apply find_from_sound in F as (L1 & _ & _ & D & _); auto. rewrite X in D. inversion D as [| |? ? p0 s0 cs0 p1 s1 cs1 p2 s2 cs2 D1 D2| | | | | | |]; subst. inversion D1; subst. lia.
Qed.
Lemma replace_left x q s repl g : re_ast x = RCat RBegin q -> re_find x s = Some g -> re_replace_func x s repl = repl g ++ skipn (m_end g) s.
Proof.
  intros X F. pose proof F as F'. apply re_find_sound in F' as (L1 & L2 & D & _). rewrite X in D. inversion D as [| |? ? p0 s0 cs0 p1 s1 cs1 p2 s2 cs2 D1 D2| | | | | | |]; subst. inversion D1; subst.
  assert (Z : m_start g = 0%nat) by auto. unfold re_replace_func. cbn [replace_loop]. change (Nat.ltb (len s) 0) with false. cbv iota. change (find_from x s 0) with (re_find x s). rewrite F, Z. unfold sub. cbn [Nat.sub firstn skipn app Nat.eqb]. rewrite orb_true_r. f_equal.
  match goal with |- context [find_from x s ?b] => set (pos := b) end. assert (P : (0 < pos)%nat).
  { unfold pos. destruct (Nat.ltb_spec (m_end g) (0 + rune_width_at s 0)); [lia|]. destruct (Nat.ltb_spec (m_end g) (0 + 1)); lia. }
  clearbody pos. destruct (Nat.ltb_spec (len s) pos); [reflexivity|]. rewrite (left_find _ _ _ _ X P); auto.
Qed.
(** The rewriting puts one digit in front of the group and drops at least two others. *)
Definition shrinks (fuel : nat) (mm : meta) (d : option desc) (pm : re) (t r q gm : regex) : bool :=
  match get_bytes (md_np_transform mm), re_ngroups pm, d, outside 1 q with
  | c :: tl, 1%nat, Some x, Some k =>
      beq tl [36; 49] && is_digit c && (2 <=? k)%nat && negb (match d_len x with [] => true | _ => false end) && forallb (fun z => (z <=? Z.of_nat (minrunes gm))%Z) (d_len x) && within fuel t r gm
  | _, _, _, _ => false
  end.
Definition stays (fuel : nat) (mm m : meta) (d : option desc) : bool :=
  is_empty (get_bytes (md_np_parse mm)) ||
  match body (get_d_pattern d), body (get_d_pattern (md_general m)), body (get_d_pattern (md_general mm)), compile (anchored_left (get_bytes (md_np_parse mm))) with
  | Some t, Some r, Some gm, Some pm =>
      match re_ast pm with
      | RCat RBegin q =>
          if is_empty (get_bytes (md_np_transform mm)) then scan fuel t r q gm
          else (0 <? re_ngroups pm)%nat && scan fuel t r (kill_group (re_ngroups pm) q) gm &&
            (apart fuel t r (via_group (re_ngroups pm) q) (via_group (re_ngroups pm) (kill_end q)) || shrinks fuel mm d pm t r q gm)
      | _ => false
      end
  | _, _, _, _ => false
  end.
Lemma assoc_has n (cs : caps) : is_some (assoc Nat.eqb n cs) = true <-> has_group n cs.
Proof.
  unfold has_group. induction cs as [|[k ij] cs IH]; cbn [assoc]; [split; [discriminate|intros (x & [])]|]. destruct (Nat.eqb_spec n k) as [->|NE].
  - split; auto. intros _. exists ij. left. auto.
  - rewrite IH. split; intros (x & H); exists x; [right; auto|destruct H as [E|H]; [congruence|auto]].
Qed.
Lemma ref_one : extract_ref [49] = Some (Some 1%nat, []). Proof. vm_compute. reflexivity. Qed.
Lemma expand_S f tmpl s m : expand (S f) tmpl s m =
  match tmpl with
  | [] => []
  | c :: t => if c =? 36 then match t with
      | 36 :: t' => 36 :: expand f t' s m
      | _ => match extract_ref t with None => 36 :: expand f t s m | Some (Some n, rest) => group_str s m n ++ expand f rest s m | Some (None, rest) => expand f rest s m end
      end else c :: expand f t s m
  end.
Proof. destruct tmpl as [|c t]; [reflexivity|]. rewrite <- case36'. reflexivity. Qed.
Lemma expand_one c s g : c <> 36 -> expand_template [c; 36; 49] s g = c :: group_str s g 1.
Proof.
  intros N. unfold expand_template. change (S (len [c; 36; 49])) with 4%nat. rewrite expand_S. apply N.eqb_neq in N. rewrite N. f_equal. rewrite expand_S. change (36 =? 36) with true. cbv iota. rewrite ref_one. rewrite expand_S. apply app_nil_r.
Qed.
Lemma stays_ok fuel mm m d s : stays fuel mm m d = true -> all_digits s = true -> accepts d s -> full_match (get_d_pattern (md_general m)) s -> unstripped mm s.
Proof.
  unfold stays. intros S D (dx & Ed & Ld & Ft) Fr. apply orb_true_iff in S as [S|S]; [left; destruct (get_bytes _); [auto|discriminate]|]. right. intros x g Cx F. rewrite Cx in S. pose proof (digits_ascii _ D) as A.
  destruct (body (get_d_pattern d)) as [t|] eqn:Bt; [|discriminate]. destruct (body (get_d_pattern (md_general m))) as [r|] eqn:Br; [|discriminate]. destruct (body (get_d_pattern (md_general mm))) as [gm|] eqn:Bg; [|discriminate].
  destruct (re_ast x) as [| |a q| | | | |] eqn:X; try discriminate. destruct a; try discriminate.
  apply (body_ok _ _ _ Bt A) in Ft. apply (body_ok _ _ _ Br A) in Fr. pose proof F as F0.
  apply re_find_sound in F as (L1 & L2 & Dv & _). rewrite X in Dv. inversion Dv as [| |? ? p0 s0 cs0 p1 s1 cs1 p2 s2 cs2 D1 D2| | | | | | |]; subst. inversion D1; subst. clear D1 Dv. match goal with H : 0%nat = m_start g |- _ => rewrite <- H in * | H : m_start g = 0%nat |- _ => rewrite H in * end. cbn [skipn] in D2.
  assert (Es : s = firstn (m_end g) s ++ skipn (m_end g) s) by (symmetry; apply firstn_skipn).
  assert (Lu : length (firstn (m_end g) s) = m_end g) by (rewrite firstn_length; lia). assert (Lv : length (skipn (m_end g) s) = (length s - m_end g)%nat) by apply skipn_length.
  set (e := m_end g) in *. set (u := firstn e s) in *. set (v := skipn e s) in *.
  assert (W : forall w, eats s w v -> w = u). { intros w E. apply eats_ascii in E; auto. rewrite Es in E at 1. apply app_inv_tail in E. auto. }
  assert (FG : full_match (get_d_pattern (md_general mm)) s <-> acc [gm] s = true) by (apply body_ok; auto).
  assert (FV : full_match (get_d_pattern (md_general mm)) v <-> acc [gm] v = true). { apply body_ok; auto. apply digits_ascii. unfold v. apply all_digits_skipn. auto. }
  assert (SC : forall q', scan fuel t r q' gm = true -> derives q' 0 s [] e v (m_caps g) -> v = s \/ (full_match (get_d_pattern (md_general mm)) s /\ ~ full_match (get_d_pattern (md_general mm)) v)).
  { intros q' Sc Dq. destruct u as [|c0 u0] eqn:Eu; [left; rewrite Es; reflexivity|]. right. rewrite FG, FV. rewrite Es in D, Ft, Fr.
    assert (Lq : acc [q'] (c0 :: u0) = true). { apply acc_one. apply derives_lang in Dq as (w & E & L). rewrite <- (W _ E). exact L. }
    destruct (scan_ok _ _ _ _ _ _ _ Sc D Ft Fr ltac:(discriminate) Lq) as [G1 G2]; [|rewrite Es at 1; split; [exact G1|rewrite G2; discriminate]].
    intros Nv. apply acc_one. apply derives_goes_on in Dq; auto. apply derives_lang in Dq as (w & E & L). rewrite <- (W _ E). exact L. }
  unfold left_over. destruct (is_empty (get_bytes (md_np_transform mm))) eqn:Tr; cbn [orb].
  - apply (SC _ S D2).
  - apply andb_true_iff in S as [S S3]. apply andb_true_iff in S as [S1 S2]. apply Nat.ltb_lt in S1. destruct (re_ngroups x) as [|n] eqn:Ng; [lia|]. cbn [group].
    destruct (is_some (assoc Nat.eqb (S n) (m_caps g))) eqn:G; cbn [negb].
    2:{ apply (SC _ S2). apply derives_without; auto. intros HG. apply assoc_has in HG. congruence. }
    pose proof G as G'. apply assoc_has in G. apply orb_true_iff in S3 as [S3|S3].
    + exfalso. pose proof D as D'. rewrite Es in D', Ft, Fr. apply (apart_ok _ _ _ _ _ _ _ S3 D' Ft Fr).
      * destruct (derives_via _ _ _ _ _ _ _ (S n) D2 G) as (w & E & L); [intros (? & [])|]. apply W in E. subst w. apply acc_one in L. exact L.
      * intros Nv. apply derives_goes_on in D2; auto. destruct (derives_via _ _ _ _ _ _ _ (S n) D2 G) as (w & E & L); [intros (? & [])|]. apply W in E. subst w. apply acc_one in L. exact L.
    + right. unfold shrinks in S3. rewrite Ng in S3. destruct (get_bytes (md_np_transform mm)) as [|c tl] eqn:Et; [discriminate|].
      destruct n as [|n]; [|discriminate]. destruct (outside 1 q) as [k|] eqn:Out; [|discriminate]. rewrite !andb_true_iff in S3. destruct S3 as [[[[[Etl N36] K2] Nl] Fl] Wi]. apply beq_eq in Etl. subst tl.
      apply is_digit_iff in N36. apply Nat.leb_le in K2. rewrite FG. split; [eapply within_ok; eauto|]. destruct Ld as [Ld|Ld]; [rewrite Ld in Nl; discriminate|]. rewrite forallb_forall in Fl. apply Fl in Ld. apply Z.leb_le in Ld.
      unfold re_replace_all. rewrite (replace_left _ _ _ _ _ X F0). rewrite expand_one by lia. intros FM.
      assert (Dr : ascii ((c :: group_str s g 1) ++ skipn (m_end g) s)).
      { constructor; [lia|]. apply Forall_app. split; apply digits_ascii; [apply group_digits; auto|apply all_digits_skipn; auto]. }
      apply (body_ok _ _ _ Bg Dr) in FM. apply acc_one, minrunes_ok in FM. apply derives_outside with (n := 1%nat) in D2. rewrite Out in D2. destruct D2 as [E|(i & j & y & E & Oy & Lij & B)].
      * rewrite E in G'. discriminate.
      * injection Oy as <-. fold e in FM. fold v in FM. rewrite app_length in FM. cbn [length] in FM. unfold group_str, group in FM. rewrite E in FM. unfold sub in FM. rewrite firstn_length in FM. lia.
Qed.
