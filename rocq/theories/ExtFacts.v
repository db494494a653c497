(** Proofs about extensions after a number. *)
From Verif Require Import Base BaseFacts Utf8 Utf8Facts Regex RegexSpec RegexFacts LangFacts Consts Types Normalize NormalizeSpec NormalizeFacts Validate Format Parse
  NumberSpec NumberFacts MetaSpec ValidateSpec ValidateFacts Container Shipped MetaFacts FormatSpec TextFacts FormatFacts FormatMore ParseSpec ParseFacts ParseMore ContextFacts
  RoundSpec DerivFacts MatcherTotal RoundTripFacts PropsValidate RuleSpec RuleFacts RuleMore ReadSpec ReadFacts ReadMore ExtSpec.
Local Opaque compile re_find re_replace_all.

(** * What the extension pattern can match: no digits, then digits (captured), then no digits *)
Definition nodig (r : regex) : bool := forallb (fun c => avoids c r) digits10.
Fixpoint only_nd (r : regex) : bool :=
  match r with
  | REmpty => true
  | RClass k => cls_eqb k k_nd
  | RCat a b | RAlt a b => only_nd a && only_nd b
  | _ => false
  end.
Fixpoint one_group (r : regex) : bool :=
  match r with
  | RAlt a b => one_group a && one_group b
  | RCat (RGroup n a) b => only_nd a && no_group a && (0 <? minrunes a)%nat && nodig b && no_group b && (1 <=? n)%nat && (n <=? 6)%nat
  | RCat a b => nodig a && no_group a && one_group b
  | RGroup n a => only_nd a && no_group a && (0 <? minrunes a)%nat && (1 <=? n)%nat && (n <=? 6)%nat
  | _ => false
  end.
Definition ext_body : regex := Eval vm_compute in match re_ast extnPattern with RCat b REnd => b | _ => REmpty end.
Lemma ext_shape : re_ast extnPattern = RCat ext_body REnd. Proof. vm_compute. reflexivity. Qed.
Lemma ext_one : one_group ext_body = true. Proof. vm_compute. reflexivity. Qed.
Lemma ext_groups : re_ngroups extnPattern = 6%nat. Proof. vm_compute. reflexivity. Qed.
Lemma nodig_ok r w : nodig r = true -> lang r w -> forall c, 48 <= c <= 57 -> ~ In c w.
Proof. intros H L c R I. unfold nodig in H. rewrite forallb_forall in H. refine (avoids_ok c r w L _ I). apply H, digit_in10, is_digit_iff. exact R. Qed.
Lemma only_nd_ok r w : lang r w -> only_nd r = true -> forallb (cls_match k_nd) w = true.
Proof.
  induction 1; cbn [only_nd]; intros H'; try discriminate; auto.
  - apply cls_eqb_ok in H'. subst. cbn [forallb]. rewrite H. reflexivity.
  - apply andb_true_iff in H' as [A B]. rewrite forallb_app. rewrite IHlang1, IHlang2; auto.
  - apply andb_true_iff in H' as [A B]. auto.
  - apply andb_true_iff in H' as [A B]. auto.
Qed.
Definition captured (s s' : bytes) (p : nat) (cs cs' : caps) : Prop := exists n q1 q2 s1 s2 u v w,
  cs' = (n, (q1, q2)) :: cs /\ (1 <= n <= 6)%nat /\ eats s u s1 /\ eats s1 v s2 /\ eats s2 w s' /\ (q1 + length s1 = p + length s)%nat /\ (q2 + length s2 = p + length s)%nat /\
  (forall c, 48 <= c <= 57 -> ~ In c u) /\ forallb (cls_match k_nd) v = true /\ v <> [] /\ (forall c, 48 <= c <= 57 -> ~ In c w).
Lemma group_captured n a p s cs p' s' cs' : derives (RGroup n a) p s cs p' s' cs' -> only_nd a = true -> no_group a = true -> (0 < minrunes a)%nat -> (1 <= n <= 6)%nat ->
  exists v, cs' = (n, (p, p')) :: cs /\ eats s v s' /\ (p' + length s' = p + length s)%nat /\ forallb (cls_match k_nd) v = true /\ v <> [].
Proof.
  intros D O G M R. inversion D as [| | | | | | |n0 a0 p0 s0 cs0 p1 s1 cs1 D1| |]; subst. pose proof (derives_len _ _ _ _ _ _ _ D1) as [L _]. unfold len in L.
  rewrite (derives_no_group _ _ _ _ _ _ _ D1 G). apply derives_lang in D1 as (v & E & Lv). exists v. split; [reflexivity|]. split; [exact E|]. split; [lia|]. split; [eapply only_nd_ok; eauto|].
  apply minrunes_ok in Lv. intros ->. cbn [length] in Lv. lia.
Qed.
Lemma ones r : forall p s cs p' s' cs', derives r p s cs p' s' cs' -> one_group r = true -> captured s s' p cs cs'.
Proof.
  induction r as [|k|a IHa b IHb|a IHa b IHb|g a IHa|n a IHa| |]; intros p s cs p' s' cs' D H; cbn [one_group] in H; try discriminate.
  - assert (Dec : (exists n x, a = RGroup n x) \/ nodig a && no_group a && one_group b = true) by (destruct a; eauto).
    inversion D as [| |a0 b0 p0 s0 cs0 p1 s1 cs1 p2 s2 cs2 D1 D2| | | | | | |]; subst. destruct Dec as [(n & x & ->)|Dec].
    + rewrite !andb_true_iff in H. destruct H as ((((((H1 & H2) & H3) & H4) & H5) & H6) & H7). apply Nat.ltb_lt in H3. apply Nat.leb_le in H6, H7.
      destruct (group_captured _ _ _ _ _ _ _ _ D1 H1 H2 H3 (conj H6 H7)) as (v & -> & Ev & Lv & Nv & Nn). pose proof (derives_no_group _ _ _ _ _ _ _ D2 H5) as ->. apply derives_lang in D2 as (w & Ew & Lw).
      exists n, p, p1, s, s1, [], v, w. split; [reflexivity|]. split; [auto|]. split; [constructor|]. split; [exact Ev|]. split; [exact Ew|]. split; [reflexivity|]. split; [exact Lv|]. split; [intros c _ []|]. split; [exact Nv|]. split; [exact Nn|]. eapply nodig_ok; eauto.
    + rewrite !andb_true_iff in Dec. destruct Dec as ((H1 & H2) & H3). pose proof (derives_len _ _ _ _ _ _ _ D1) as [L1 _]. unfold len in L1. pose proof (derives_no_group _ _ _ _ _ _ _ D1 H2) as ->. apply derives_lang in D1 as (u0 & Eu & Lu).
      destruct (IHb _ _ _ _ _ _ D2 H3) as (n & q1 & q2 & t1 & t2 & u & v & w & -> & R & A1 & A2 & A3 & A4 & A5 & A6 & A7 & A8 & A9).
      exists n, q1, q2, t1, t2, (u0 ++ u), v, w. split; [reflexivity|]. split; [exact R|]. split; [eapply eats_app; eauto|]. split; [exact A2|]. split; [exact A3|]. split; [lia|]. split; [lia|]. split; [|auto].
      intros c Rc I. apply in_app_or in I as [I|I]; [eapply (nodig_ok a u0); eauto|eapply A6; eauto].
  - apply andb_true_iff in H as [H1 H2]. inversion D; subst; eauto.
  - rewrite !andb_true_iff in H. destruct H as ((((H1 & H2) & H3) & H4) & H5). apply Nat.ltb_lt in H3. apply Nat.leb_le in H4, H5.
    destruct (group_captured _ _ _ _ _ _ _ _ D H1 H2 H3 (conj H4 H5)) as (v & -> & Ev & Lv & Nv & Nn).
    exists n, p, p', s, s', [], v, []. split; [reflexivity|]. split; [auto|]. split; [constructor|]. split; [exact Ev|]. split; [constructor|]. split; [reflexivity|]. split; [exact Lv|]. split; [intros c _ []|]. split; [exact Nv|]. split; [exact Nn|]. intros c _ [].
Qed.
Lemma after_prefix {A} (u : list A) : forall r1 a x r2, u ++ r1 = a ++ x :: r2 -> ~ In x u -> exists a', a = u ++ a' /\ r1 = a' ++ x :: r2.
Proof.
  induction u as [|y u IH]; intros r1 a x r2 E N; [exists a; auto|]. destruct a as [|z a]; cbn [app] in E; [injection E as -> E; elim N; left; auto|]. injection E as -> E.
  destruct (IH _ _ _ _ E) as (a' & -> & ->); [intros I; apply N; right; auto|]. exists a'. auto.
Qed.
Lemma before_suffix {A} (v w r : list A) y c : v ++ w = r ++ y :: c -> ~ In y w -> exists c', v = r ++ y :: c' /\ c = c' ++ w.
Proof.
  revert r. induction v as [|x v IH]; intros r E N; cbn [app] in E; [elim N; rewrite E; apply in_or_app; right; left; auto|]. destruct r as [|z r]; cbn [app] in E.
  - injection E as -> <-. exists v. auto.
  - injection E as -> E. destruct (IH _ E N) as (c' & -> & ->). exists c'. auto.
Qed.

(** * Labels *)
Fixpoint lv_ok (k : nat) (l : list vec) : bool := match k with O => true | S k => let l' := level l in forallb nul_hd l' && lv_ok k l' end.
Lemma lv_run k : forall l S e, lv_ok k l = true -> In [S] l -> all_digits e = true -> (1 <= length e <= k)%nat -> nuls (run e S) = true.
Proof.
  induction k as [|k IH]; intros l S e H I D L; [lia|]. cbn [lv_ok] in H. apply andb_true_iff in H as [H1 H2]. destruct e as [|c e]; [cbn [length] in L; lia|]. cbn [run].
  apply andb_true_iff in D as [D1 D2]. pose proof (level_in [S] l c I D1) as I'. cbn [vstep map] in I'. destruct e as [|c' e].
  - rewrite forallb_forall in H1. apply H1 in I'. exact I'.
  - apply (IH _ _ (c' :: e) H2 I' D2). cbn [length] in *. lia.
Qed.
Definition label_ok (r : regex) (q : bytes * nat) : bool :=
  lv_ok (snd q) [[run (fst q) [r]]] && negb (is_empty (fst q)) &&
  forallb (fun c => (c <? 128) && negb (cls_match k_nd c) && negb (c =? 43) && negb (c =? 47) && negb (c =? 92) && negb (c =? 112) && negb (c =? 98)) (fst q).
Lemma labels_check : forallb (label_ok ext_body) ext_labels && forallb (label_ok vp_ext) ext_labels = true.
Proof. vm_cast_no_check (eq_refl true). Qed.
Lemma label_facts q k : In (q, k) ext_labels -> q <> [] /\ ascii q /\ (forall c, In c q -> cls_match k_nd c = false /\ c <> 43 /\ c <> 47 /\ c <> 92 /\ c <> 112 /\ c <> 98) /\
  forall e, all_digits e = true -> (1 <= length e <= k)%nat -> lang ext_body (q ++ e) /\ lang vp_ext (q ++ e).
Proof.
  intros I. pose proof labels_check as L. apply andb_true_iff in L as [L1 L2]. rewrite forallb_forall in L1, L2. specialize (L1 _ I). specialize (L2 _ I). unfold label_ok in L1, L2. cbn [fst snd] in L1, L2. clear I.
  rewrite !andb_true_iff in L1, L2. destruct L1 as ((A1 & A2) & A3), L2 as ((B1 & _) & _). rewrite forallb_forall in A3.
  split; [intros ->; discriminate|]. split; [apply Forall_forall; intros c I; specialize (A3 c I); rewrite !andb_true_iff in A3; apply N.ltb_lt; tauto|]. split.
  - intros c I. specialize (A3 c I). rewrite !andb_true_iff, !negb_true_iff, !N.eqb_neq in A3. tauto.
  - intros e D L. split; apply acc_one; unfold acc; rewrite run_app; [apply (lv_run _ _ _ _ A1 (or_introl eq_refl) D L)|apply (lv_run _ _ _ _ B1 (or_introl eq_refl) D L)].
Qed.
Lemma boundary_app (t a : bytes) : ascii a -> boundary (t ++ a) (length t).
Proof.
  intros A. induction t as [|t c u D IH] using runes_ind; [constructor|]. pose proof (decode_rune_spec _ _ _ D) as (w & E & _).
  assert (L : (length t = len (t ++ a) - len (u ++ a) + length u)%nat). { unfold len. rewrite !app_length, E, app_length. lia. }
  rewrite L. eapply B_next; [|exact IH]. apply (decode_app t c u a D). intros x X. destruct a; [discriminate|]. inv X. inv A. auto.
Qed.
Lemma find_le x s i e w cs : boundary s i -> derives (re_ast x) i (skipn i s) [] e w cs -> exists m, re_find x s = Some m /\ (m_start m <= i)%nat.
Proof.
  intros B D. Local Transparent re_find. unfold re_find, find_from. cbn [skipn]. destruct (search (len s - 0) (re_ast x) 0 s) as [m|] eqn:E.
  - exists m. split; [reflexivity|]. destruct (Nat.le_gt_cases (m_start m) i) as [H|H]; [exact H|]. exfalso. rewrite Nat.sub_0_r in E. exact (search_leftmost (len s) _ 0 s m (le_n _) E i e w cs B H D).
  - exfalso. rewrite Nat.sub_0_r in E. exact (search_none (len s) _ 0 s (le_n _) E i e w cs B D).
  Local Opaque re_find.
Qed.
Lemma nd_digit c : is_digit c = true -> cls_match k_nd c = true.
Proof. intros D. pose proof nd_digits as Y. rewrite forallb_forall in Y. apply Y, digit_in10, D. Qed.
Lemma nd_not_digit c : cls_match k_nd c = false -> ~ 48 <= c <= 57.
Proof. intros H R. rewrite nd_digit in H; [discriminate|]. apply is_digit_iff. exact R. Qed.
Theorem ext_found t0 dl q k e : let t := t0 ++ [dl] in 48 <= dl <= 57 -> In (q, k) ext_labels -> all_digits e = true -> (1 <= length e <= k)%nat ->
  exists m n, re_find extnPattern (t ++ q ++ e) = Some m /\ m_start m = length t /\ (1 <= n <= 6)%nat /\ m_caps m = [(n, (length (t ++ q), length (t ++ q ++ e)))].
Proof.
  intros t Hd I D L. destruct (label_facts q k I) as (Nq & Aq & Cq & Lq). destruct (Lq e D L) as [Le _]. clear Lq I. assert (Ae : ascii (q ++ e)) by (apply Forall_app; split; [auto|apply digits_ascii; auto]).
  assert (Ne : exists y e', e = y :: e') by (destruct e as [|y e']; [cbn [length] in L; lia|eauto]). destruct Ne as (y & e' & Ee).
  assert (Dy : 48 <= y <= 57). { apply (all_digits_In e); [auto|rewrite Ee; left; auto]. }
  assert (Ex : exists e1 w1 cs1, derives (re_ast extnPattern) (length t) (skipn (length t) (t ++ q ++ e)) [] e1 w1 cs1).
  { rewrite skipn_app, skipn_all, Nat.sub_diag, skipn_O, app_nil_l. rewrite ext_shape. destruct (ends_lang (RCat ext_body REnd) (q ++ e)) with (s := q ++ e) (p := length t) (cs := @nil (nat * (nat * nat))) as (p' & cs' & Dv); eauto.
    - rewrite <- (app_nil_r (q ++ e)). constructor; [exact Le|constructor].
    - pose proof (eats_all (q ++ e)) as X. rewrite runes_ascii in X by auto. exact X. }
  destruct Ex as (e1 & w1 & cs1 & Ex). destruct (find_le _ _ _ _ _ _ (boundary_app t (q ++ e) Ae) Ex) as (m & F & Lm). clear Ex e1 w1 cs1. exists m.
  pose proof (re_find_boundary _ _ _ F) as B. pose proof F as F'. apply re_find_sound in F' as (L1 & L2 & Dv & _). rewrite ext_shape in Dv.
  inversion Dv as [| |a0 b0 p0 s0 cs0 p1 s1 cs1 p2 s2 cs2 D1 D2| | | | | | |]; subst a0 b0 p0 s0 cs0 p2 s2 cs2. inversion D2 as [| | | | | | | | |]; subst. match goal with H : [] = skipn _ _ |- _ => rename H into Hend end.
  destruct (ones _ _ _ _ _ _ _ D1 ext_one) as (n & q1 & q2 & s1 & s2 & u & v & w & Ec & Rn & E1 & E2 & E3 & P1 & P2 & Nu & Nv & Nv0 & Nw).
  assert (Run : runes (skipn (m_start m) (t ++ q ++ y :: e')) = u ++ v ++ w). { rewrite (eats_runes _ _ _ E1), (eats_runes _ _ _ E2), (eats_runes _ _ _ E3), runes_nil, app_nil_r. reflexivity. }
  assert (Ms : m_start m = length t).
  { destruct (Nat.eq_dec (m_start m) (length t)) as [H|H]; [exact H|exfalso]. assert (Lt : (m_start m <= length t0)%nat). { unfold t in H, Lm. rewrite app_length in H, Lm. cbn [length] in H, Lm. lia. }
    assert (R2 : runes (skipn (m_start m) (t ++ q ++ y :: e')) = runes (skipn (m_start m) t0) ++ dl :: q ++ y :: e').
    { unfold t. rewrite <- app_assoc, skipn_app. replace (m_start m - length t0)%nat with 0%nat by lia. rewrite skipn_O. apply (runes_app_ascii (skipn (m_start m) t0) (dl :: q ++ y :: e')). constructor; [lia|auto]. }
    rewrite R2 in Run. symmetry in Run. apply after_prefix in Run as (a' & _ & Run); [|apply Nu; lia].
    assert (Run' : v ++ w = (a' ++ dl :: q) ++ y :: e') by (rewrite Run, <- app_assoc; reflexivity). apply before_suffix in Run' as (c' & Ev & _); [|apply Nw; lia].
    destruct q as [|q0 q]; [congruence|]. destruct (Cq q0 (or_introl eq_refl)) as (X & _). rewrite forallb_forall in Nv. rewrite Nv in X; [discriminate|]. rewrite Ev. apply in_or_app. left. apply in_or_app. right. right. left. reflexivity. }
  exists n. split; [exact F|]. split; [exact Ms|]. split; [exact Rn|]. rewrite Ms in *. rewrite skipn_app, skipn_all, Nat.sub_diag, skipn_O, app_nil_l in *.
  rewrite runes_ascii in Run by auto. symmetry in Run. apply after_prefix in Run as (a' & Eq & Run); [|apply Nu; lia].
  assert (a' = []). { destruct a' as [|z a']; [reflexivity|exfalso]. destruct v as [|v0 v]; [congruence|]. injection Run as -> _. cbn [forallb] in Nv. apply andb_true_iff in Nv as [Nv _]. destruct (Cq z) as (X & _); [rewrite Eq; apply in_or_app; right; left; auto|]. congruence. }
  subst a'. rewrite app_nil_r in Eq. subst u. cbn [app] in Run.
  assert (w = []). { destruct w as [|z w]; [reflexivity|exfalso]. assert (Iz : In z (y :: e')) by (rewrite <- Run; apply in_or_app; right; left; auto). apply (all_digits_In _ _ D) in Iz. eapply Nw; [exact Iz|left; auto]. }
  subst w. rewrite app_nil_r in Run. subst v. rewrite Ec. apply eats_ascii in E1; [|auto]. apply app_inv_head in E1. subst s1. inversion E3; subst. apply eats_ascii in E2; [|apply digits_ascii; auto].
  f_equal. f_equal. f_equal; [rewrite !app_length in *; cbn [length] in *; lia|]. rewrite !app_length in *. cbn [length] in *. lia.
Qed.

(** * The text before parsing *)
Lemma index_none t p z : In z p -> ~ In z t -> index_of t p = None.
Proof.
  intros I H. destruct (index_of t p) as [i|] eqn:X; [exfalso|reflexivity]. apply index_of_some in X as (u & X & _). apply H. rewrite X. apply in_or_app. right. apply in_or_app. left. exact I.
Qed.
Lemma text_kept s t : extractPossibleNumber s = t -> ~ In 112 s -> ~ In 98 t -> buildNationalNumberForParsing s = Ret t.
Proof.
  intros E N1 N2. unfold buildNationalNumberForParsing. rewrite (index_none s rfc3966PhoneContext 112) by (auto; vm_compute; tauto). cbn [is_some andb bind]. rewrite E.
  rewrite (index_none t rfc3966IsdnSubaddress 98) by (auto; vm_compute; tauto). reflexivity.
Qed.
Lemma boundary_cons c t i : c < 128 -> boundary t i -> boundary (c :: t) (S i).
Proof. intros H B. replace (S i) with (len (c :: t) - len t + i)%nat by (unfold len; cbn [length]; lia). eapply B_next; [apply decode_ascii; auto|exact B]. Qed.
Lemma boundary_ascii i : forall t, (i <= length t)%nat -> ascii t -> boundary t i.
Proof. induction i as [|i IH]; intros [|c t] L A; try constructor; cbn [length] in L; [lia|]. inv A. apply boundary_cons; auto. apply IH; auto. lia. Qed.
Lemma tel_find t : clean t -> exists m, re_find validStartCharPattern (bs "tel:" ++ t) = Some m /\ m_start m = 4%nat.
Proof.
  intros (c & u & D & P). change (bs "tel:" ++ t) with (116 :: 101 :: 108 :: 58 :: t).
  assert (B : boundary (116 :: 101 :: 108 :: 58 :: t) 4) by (do 4 (apply boundary_cons; [reflexivity|]); constructor).
  assert (Dv : derives (re_ast validStartCharPattern) 4 (skipn 4 (116 :: 101 :: 108 :: 58 :: t)) [] (4 + (len t - len u)) u []).
  { cbn [skipn]. change (re_ast validStartCharPattern) with (RClass start_cls). econstructor; [exact D|]. rewrite start_ok. destruct P as [-> | [-> | P]]; [reflexivity|reflexivity|rewrite P; apply orb_true_r]. }
  destruct (find_le _ _ _ _ _ _ B Dv) as (m & F & L). exists m. split; [exact F|].
  apply re_find_sound in F as (_ & _ & D' & _). change (re_ast validStartCharPattern) with (RClass start_cls) in D'. revert D'. generalize (m_end m) (skipn (m_end m) (116 :: 101 :: 108 :: 58 :: t)) (m_caps m). intros e w cs D'.
  destruct (m_start m) as [|[|[|[|[|?]]]]]; try lia; cbn [skipn] in D'; inversion D' as [|k p0 s0 c0 t1 cs0 Dr M| | | | | | | |]; subst; rewrite decode_ascii in Dr by reflexivity; injection Dr as <- <-; vm_compute in M; discriminate.
Qed.
Lemma tel_possible t : clean t -> extractPossibleNumber t = t -> extractPossibleNumber (bs "tel:" ++ t) = t.
Proof.
  intros Cl E. unfold extractPossibleNumber in *. destruct (find_start _ Cl) as (m & F & Z). rewrite F, Z in E. rewrite skipn_O in E.
  destruct (tel_find _ Cl) as (m' & -> & ->). change (skipn 4 (bs "tel:" ++ t)) with t. exact E.
Qed.

(** * Viability *)
Lemma pieces_ext w x : (forall c, In c w -> In c letters27) -> (3 <= length (filter dig w))%nat -> lang vp_ext x -> lang vp_b (w ++ x).
Proof.
  intros A L X. rewrite vp_b_shape. destruct (length (filter dig w)) as [|[|[|n]]] eqn:E; try lia.
  destruct (to_digit w _ A E) as (u1 & c1 & v1 & -> & U1 & D1 & E1).
  assert (A1 : forall c, In c v1 -> In c letters27) by (intros c I; apply A; apply in_or_app; right; right; auto).
  destruct (to_digit v1 _ A1 E1) as (u2 & c2 & v2 & -> & U2 & D2 & E2).
  assert (A2 : forall c, In c v2 -> In c letters27) by (intros c I; apply A1; apply in_or_app; right; right; auto).
  destruct (to_digit v2 _ A2 E2) as (u3 & c3 & v3 & -> & U3 & D3 & E3).
  replace ((u1 ++ c1 :: u2 ++ c2 :: u3 ++ c3 :: v3) ++ x) with (((u1 ++ [c1]) ++ (u2 ++ [c2]) ++ (u3 ++ [c3]) ++ []) ++ (v3 ++ x)) by (rewrite <- !app_assoc; cbn [app]; rewrite <- ?app_assoc; cbn [app]; rewrite <- ?app_assoc; cbn [app]; rewrite <- ?app_assoc; reflexivity).
  constructor.
  - constructor; [apply piece_lang; auto|]. constructor; [apply piece_lang; auto|]. constructor; [apply piece_lang; auto|constructor].
  - constructor; [|apply L_alt_l; exact X]. pose proof punct_seps as P. apply andb_true_iff in P as [_ P]. apply star_lang. rewrite forallb_forall in *. intros c I. apply P, A2. apply in_or_app. right. right. auto.
Qed.
Lemma ext_viable p s x : p = [] \/ p = [43] -> spaced s -> (3 <= length (filter dig (runes s)))%nat -> ascii x -> lang vp_ext x -> isViablePhoneNumber (p ++ s ++ x) = true.
Proof.
  intros Hp S L Ax X. unfold isViablePhoneNumber. assert (R : runes (p ++ s ++ x) = p ++ runes s ++ x). { rewrite pre_runes by auto. f_equal. apply runes_app_ascii. auto. }
  assert (Ls : (2 <= length s)%nat).
  { assert (H : forall l, (length (filter dig l) <= length l)%nat) by (induction l as [|c l IH]; cbn [filter length]; [lia|destruct (dig c); cbn [length]; lia]). specialize (H (runes s)). pose proof (runes_short s). lia. }
  replace (Nat.ltb (len (p ++ s ++ x)) minLengthForNSN) with false by (symmetry; apply Nat.ltb_ge; unfold len, minLengthForNSN; rewrite !app_length; lia).
  rewrite (anchored_match _ _ _ vp_shape); [|vm_compute; reflexivity]. rewrite R. rewrite <- (app_nil_r (p ++ runes s ++ x)). constructor; [|constructor]. constructor. apply L_alt_r. constructor.
  - apply star_lang. destruct Hp as [-> | ->]; vm_compute; reflexivity.
  - apply pieces_ext; auto. intros c. apply spaced_in. auto.
Qed.

(** * Parsing a number with an extension *)
Definition with_ext (e : bytes) (x : parsed) : parsed := {| pr_cc := pr_cc x; pr_nsn := pr_nsn x; pr_ext := e; pr_src := pr_src x; pr_carrier := pr_carrier x |}.
Lemma strip_found t0 dl q k e : let t := t0 ++ [dl] in 48 <= dl <= 57 -> In (q, k) ext_labels -> all_digits e = true -> (1 <= length e <= k)%nat -> isViablePhoneNumber t = true ->
  maybeStripExtension (t ++ q ++ e) = (t, e).
Proof.
  intros t Hd I D L V. destruct (ext_found t0 dl q k e Hd I D L) as (m & n & F & Ms & Rn & Ec). fold t in F, Ms, Ec. unfold maybeStripExtension. rewrite F, Ms.
  replace (firstn (length t) (t ++ q ++ e)) with t by (rewrite firstn_app, firstn_all, Nat.sub_diag, app_nil_r; reflexivity). rewrite V, ext_groups. cbn [seq map].
  assert (G : forall i, group_str (t ++ q ++ e) m (S i) = if Nat.eqb (S i) n then e else []).
  { intros i. unfold group_str, group. rewrite Ec. cbn [assoc]. destruct (Nat.eqb_spec (S i) n); [|reflexivity]. unfold sub. rewrite !app_length.
    rewrite app_assoc, skipn_app, app_length. rewrite skipn_all2 by (rewrite app_length; lia). rewrite Nat.sub_diag, skipn_O. cbn [app]. replace (_ - _)%nat with (length e) by lia. apply firstn_all. }
  rewrite !G. clear G. assert (Ne : is_empty e = false) by (destruct e; [cbn [length] in L; lia|reflexivity]).
  destruct n as [|[|[|[|[|[|[|n]]]]]]]; try lia; cbn [Nat.eqb filter is_empty negb]; rewrite Ne; reflexivity.
Qed.
Lemma last_digit d : all_digits d = true -> d <> [] -> exists d0 dl, d = d0 ++ [dl] /\ 48 <= dl <= 57.
Proof.
  intros D N. destruct (exists_last N) as (d0 & dl & ->). exists d0, dl. split; [reflexivity|]. apply (all_digits_In _ _ D). apply in_or_app. right. left. reflexivity.
Qed.
Lemma start_clean p s : p = [] /\ starts_digit s \/ p = [43] -> clean (p ++ s).
Proof.
  intros [(-> & c & t & -> & Hc)| ->]; cbn [app]; [exists c, t; split; [apply decode_ascii; lia|]; right; right; unfold decimal; rewrite digit_for_self by auto; reflexivity|exists 43, s; split; [apply decode_ascii; reflexivity|auto]].
Qed.
Lemma spaced_no p s c : p = [] \/ p = [43] -> spaced s -> c <> 43 -> ~ In c letters27 -> ~ In c (runes (p ++ s)).
Proof. intros Hp S N1 N2 I. apply pre_in in I; auto. destruct I as [I|I]; [congruence|auto]. Qed.
Lemma spaced_no_byte p s c : p = [] \/ p = [43] -> spaced s -> c <> 43 -> c < 128 -> ~ In c letters27 -> ~ In c (p ++ s).
Proof. intros Hp S N1 L N2 I. apply byte_rune in I; auto. revert I. apply spaced_no; auto. Qed.
Lemma not27 : forallb (fun c => negb (existsb (N.eqb c) letters27)) [47; 92; 98; 112; 43] = true. Proof. vm_compute. reflexivity. Qed.
Lemma not_letter c : In c [47; 92; 98; 112; 43] -> ~ In c letters27.
Proof. intros I J. pose proof not27 as H. rewrite forallb_forall in H. specialize (H c I). apply negb_true_iff in H. rewrite (proj2 (existsb_exists _ _)) in H; [discriminate|]. exists c. split; [exact J|apply N.eqb_refl]. Qed.
(** The text is kept as it is. *)
Lemma ext_possible p x d q k e : p = [] /\ starts_digit (x ++ d) \/ p = [43] -> spaced (x ++ d) -> all_digits d = true -> In (q, k) ext_labels -> all_digits e = true -> (1 <= length e)%nat ->
  extractPossibleNumber (p ++ (x ++ d) ++ q ++ e) = p ++ (x ++ d) ++ q ++ e /\ ~ In 112 (p ++ (x ++ d) ++ q ++ e) /\ ~ In 98 (p ++ (x ++ d) ++ q ++ e) /\ clean (p ++ (x ++ d) ++ q ++ e).
Proof.
  intros Hp S D I De Le. assert (Hp' : p = [] \/ p = [43]) by tauto. destruct (label_facts q k I) as (_ & Aq & Cq & _). clear I.
  assert (Cl : clean (p ++ (x ++ d) ++ q ++ e)).
  { apply start_clean. destruct Hp as [[-> (c & t & E & Hc)]| ->]; [left; split; [reflexivity|]; rewrite E; exists c, (t ++ q ++ e); auto|auto]. }
  assert (Nb : forall c, In c [112; 98] -> ~ In c (p ++ (x ++ d) ++ q ++ e)).
  { intros c Ic I. assert (Cc : c <> 43 /\ c < 128 /\ ~ In c letters27 /\ ~ In c q /\ ~ 48 <= c <= 57).
    { destruct Ic as [<-|[<-|[]]]; (split; [discriminate|]; split; [reflexivity|]; split; [apply not_letter; cbn [In]; tauto|]; split; [intros Iq; apply Cq in Iq; tauto|lia]). }
    rewrite app_assoc in I. apply in_app_or in I as [I|I]; [revert I; apply spaced_no_byte; tauto|]. apply in_app_or in I as [I|I]; [tauto|]. apply (all_digits_In _ _ De) in I. lia. }
  split; [|split; [apply Nb; cbn; tauto|split; [apply Nb; cbn; tauto|exact Cl]]].
  replace (p ++ (x ++ d) ++ q ++ e) with ((p ++ (x ++ d) ++ q) ++ e) in * by (rewrite <- !app_assoc; reflexivity).
  assert (Nr : forall c, In c [92; 47] -> ~ In c (runes (p ++ (x ++ d) ++ q))).
  { intros c Ic I. assert (Cc : c <> 43 /\ ~ In c letters27 /\ ~ In c q).
    { destruct Ic as [<-|[<-|[]]]; (split; [discriminate|]; split; [apply not_letter; cbn [In]; tauto|]; intros Iq; apply Cq in Iq; tauto). }
    rewrite app_assoc, runes_app_ascii in I by auto. apply in_app_or in I as [I|I]; [revert I; apply spaced_no; tauto|tauto]. }
  apply possible_clean; auto; [destruct e; [cbn [length] in Le; lia|discriminate]|apply Nr; cbn; tauto|apply Nr; cbn; tauto].
Qed.
Theorem ext_core C p x d q k e r : p = [] /\ starts_digit (x ++ d) \/ p = [43] -> spaced (x ++ d) -> all_digits d = true -> d <> [] -> (3 <= length (only_digits (x ++ d)))%nat ->
  In (q, k) ext_labels -> all_digits e = true -> (1 <= length e <= k)%nat -> (length (p ++ (x ++ d) ++ q ++ e) <= 250)%nat ->
  parse_core C (p ++ (x ++ d) ++ q ++ e) r true = (y <- parse_core C (p ++ x ++ d) r true ;; Ret (with_ext e y)).
Proof.
  intros Hp S D Ne L3 I De Le L. assert (Hp' : p = [] \/ p = [43]) by tauto. destruct (label_facts q k I) as (Nq & Aq & Cq & Lq). destruct (Lq e De Le) as [_ Lv]. clear Lq.
  destruct (ext_possible p x d q k e Hp S D I De) as (E1 & E2 & E3 & _); [lia|].
  assert (B1 : buildNationalNumberForParsing (p ++ (x ++ d) ++ q ++ e) = Ret (p ++ (x ++ d) ++ q ++ e)) by (apply text_kept; auto).
  assert (B2 : buildNationalNumberForParsing (p ++ x ++ d) = Ret (p ++ x ++ d)).
  { rewrite app_assoc. assert (Sx : forall c, In c (runes (p ++ x)) -> In c (runes (p ++ x ++ d))) by (intros c Ic; rewrite app_assoc, runes_app_ascii by (apply digits_ascii; auto); apply in_or_app; auto).
    apply text_clean; auto.
    - rewrite <- app_assoc. apply start_clean. exact Hp.
    - intros Ic. apply Sx in Ic. revert Ic. apply spaced_no; auto; [discriminate|apply not_letter; cbn; tauto].
    - intros Ic. apply Sx in Ic. revert Ic. apply spaced_no; auto; [discriminate|apply not_letter; cbn; tauto].
    - intros Ic. apply byte_rune in Ic; [|reflexivity]. apply Sx in Ic. revert Ic. apply spaced_no; auto; [discriminate|]. cbn. lia. }
  assert (Aqe : ascii (q ++ e)) by (apply Forall_app; split; [auto|apply digits_ascii; auto]).
  assert (V1 : isViablePhoneNumber (p ++ (x ++ d) ++ q ++ e) = true) by (apply ext_viable; auto).
  assert (V2 : isViablePhoneNumber (p ++ x ++ d) = true) by (apply spaced_viable; auto).
  assert (St : maybeStripExtension (p ++ (x ++ d) ++ q ++ e) = (p ++ x ++ d, e)).
  { destruct (last_digit d D Ne) as (d0 & dl & E & Hd). rewrite E in V2 |- *. replace (p ++ x ++ d0 ++ [dl]) with ((p ++ x ++ d0) ++ [dl]) in * by (rewrite <- !app_assoc; reflexivity).
    replace (p ++ (x ++ d0 ++ [dl]) ++ q ++ e) with (((p ++ x ++ d0) ++ [dl]) ++ q ++ e) by (rewrite <- !app_assoc; reflexivity). apply (strip_found (p ++ x ++ d0) dl q k e); auto. }
  assert (Cr : checkRegionForParsing C (p ++ (x ++ d) ++ q ++ e) r = checkRegionForParsing C (p ++ x ++ d) r).
  { unfold checkRegionForParsing. f_equal. f_equal; [destruct p as [|? ?]; [|reflexivity]; cbn [app]; destruct (x ++ d) eqn:Exd; [apply app_eq_nil in Exd as [_ Exd]; congruence|reflexivity]|].
    destruct Hp' as [-> | ->]; cbn [app].
    - unfold re_match. rewrite (no_find letters27 plusCharsPattern (x ++ d)); [|apply seps_plus|intros c; apply spaced_in; auto].
      rewrite (no_find (letters27 ++ q) plusCharsPattern); [reflexivity| |].
      + change (re_ast plusCharsPattern) with (plus_re plus_cls). unfold plus_re. cbn [alive]. rewrite andb_true_r, existsb_app. pose proof seps_plus as X. change (re_ast plusCharsPattern) with (plus_re plus_cls) in X. unfold plus_re in X. cbn [alive] in X. rewrite andb_true_r in X. rewrite X.
        cbn [orb]. destruct (existsb (cls_match plus_cls) q) eqn:Y; [exfalso|reflexivity]. apply existsb_exists in Y as (c & Ic & M). apply plus_cls_iff in M. unfold ascii in Aq. rewrite Forall_forall in Aq. specialize (Aq c Ic). destruct (Cq c Ic) as (_ & N43 & _). destruct M; [congruence|]. subst. discriminate.
      + intros c Ic. rewrite runes_app_ascii in Ic by auto. apply in_app_or in Ic as [Ic|Ic]; [apply in_or_app; left; apply (spaced_in (x ++ d)); auto|]. apply in_app_or in Ic as [Ic|Ic]; [apply in_or_app; auto|]. apply in_or_app. left. apply in_or_app. left. apply digit_in10, is_digit_iff, (all_digits_In e); auto.
    - unfold re_match. assert (Sp : forall z, starts_plus (43 :: z)) by (intros z; exists 43, z; split; [apply decode_ascii; reflexivity|auto]).
      destruct (starts_plus_find _ (Sp ((x ++ d) ++ q ++ e))) as (m1 & -> & _). destruct (starts_plus_find _ (Sp (x ++ d))) as (m2 & -> & _). reflexivity. }
  unfold parse_core. rewrite B1, B2. replace (is_empty (p ++ (x ++ d) ++ q ++ e)) with false by (symmetry; apply is_empty_false; intros E; apply app_eq_nil in E as [_ E]; apply app_eq_nil in E as [E _]; apply app_eq_nil in E as [_ E]; congruence).
  replace (is_empty (p ++ x ++ d)) with false by (symmetry; apply is_empty_false; intros E; apply app_eq_nil in E as [_ E]; apply app_eq_nil in E as [_ E]; congruence).
  replace (Nat.ltb maxInputStringLength (len (p ++ (x ++ d) ++ q ++ e))) with false by (symmetry; apply Nat.ltb_ge; exact L).
  replace (Nat.ltb maxInputStringLength (len (p ++ x ++ d))) with false by (symmetry; apply Nat.ltb_ge; unfold len, maxInputStringLength; rewrite !app_length in *; lia).
  cbn [bind]. rewrite V1, V2. cbn [negb]. rewrite Cr. destruct (true && negb (checkRegionForParsing C (p ++ x ++ d) r)); [reflexivity|]. rewrite St, spaced_ext by auto.
  destruct (code_core C (p ++ x ++ d) (getMetadataForRegion C r)) as [[[src cc] norm]| |]; cbn [bind]; try reflexivity.
  destruct (negb (cc =? 0)%Z); (match goal with |- bind (finish_core ?a ?b) _ = _ => destruct (finish_core a b) as [[? ?]| |]; cbn [bind]; reflexivity end).
Qed.
Theorem tel_core C t r : extractPossibleNumber t = t -> ~ In 112 t -> ~ In 98 t -> clean t -> (length t <= 246)%nat -> parse_core C (bs "tel:" ++ t) r true = parse_core C t r true.
Proof.
  intros E N1 N2 Cl L. assert (B1 : buildNationalNumberForParsing (bs "tel:" ++ t) = Ret t).
  { apply text_kept; [apply tel_possible; auto| |auto]. intros I. apply in_app_or in I as [I|I]; [cbn in I; lia|auto]. }
  assert (B2 : buildNationalNumberForParsing t = Ret t) by (apply text_kept; auto). destruct Cl as (c & u & Dc & _).
  unfold parse_core. rewrite B1, B2. replace (is_empty (bs "tel:" ++ t)) with false by reflexivity. replace (is_empty t) with false by (symmetry; apply is_empty_false; intros ->; discriminate).
  replace (Nat.ltb maxInputStringLength (len (bs "tel:" ++ t))) with false by (symmetry; apply Nat.ltb_ge; unfold len, maxInputStringLength; rewrite app_length; cbn [length bs]; change (length (bs "tel:")) with 4%nat; lia).
  replace (Nat.ltb maxInputStringLength (len t)) with false by (symmetry; apply Nat.ltb_ge; unfold len, maxInputStringLength; lia). reflexivity.
Qed.
