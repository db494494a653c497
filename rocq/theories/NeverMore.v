(** Brackets, and where the matches of a search come from. *)
From Verif Require Import Base BaseFacts Utf8 Utf8Facts Regex RegexSpec RegexFacts LangFacts Consts Types Normalize Validate Format Parse Matcher MetaSpec MatcherSpec AytfFacts MatcherFacts ContextFacts ExtFacts NeverSpec NeverFacts.
Local Open Scope N_scope.

(** * Brackets *)
Definition k_open : cls := {| cneg := false; citems := [CR 40 40; CR 91 91; CR 65288 65288; CR 65339 65339]; cfold := false |}.
Definition k_close : cls := {| cneg := false; citems := [CR 41 41; CR 93 93; CR 65289 65289; CR 65341 65341]; cfold := false |}.
Definition k_none : cls := {| cneg := true; citems := [CR 40 40; CR 91 91; CR 65288 65288; CR 65339 65339; CR 41 41; CR 93 93; CR 65289 65289; CR 65341 65341]; cfold := false |}.
Definition r_in : regex := RCat (RClass k_none) (RStar true (RClass k_none)).
Definition r_pair : regex := RCat (RClass k_open) (RCat r_in (RClass k_close)).
Definition opt (r : regex) : regex := RAlt (RCat r REmpty) REmpty.
Definition r_brackets : regex := RCat (opt (RClass k_open)) (RCat (opt (RCat r_in (RClass k_close))) (RCat r_in (RCat (RAlt (RCat r_pair (RAlt (RCat r_pair (RAlt (RCat r_pair REmpty) REmpty)) REmpty)) REmpty) (RCat (RStar true (RClass k_none)) REnd)))).
Lemma brackets_ast : re_ast matchingBrackets = RCat RBegin r_brackets.
Proof. reflexivity. Qed.
Definition inner (c : N) : bool := negb (opening c) && negb (closing c).
Lemma open_ok c : cls_match k_open c = opening c.
Proof. apply eq_true_iff_eq. unfold cls_match, items_match, k_open, opening. cbn [cfold cneg citems existsb citem_match]. rewrite !orb_true_iff, !in_rng_iff, !N.eqb_eq. lia. Qed.
Lemma close_ok c : cls_match k_close c = closing c.
Proof. apply eq_true_iff_eq. unfold cls_match, items_match, k_close, closing. cbn [cfold cneg citems existsb citem_match]. rewrite !orb_true_iff, !in_rng_iff, !N.eqb_eq. lia. Qed.
Lemma none_ok c : cls_match k_none c = inner c.
Proof.
  unfold cls_match, items_match, k_none, inner, opening, closing. cbn [cfold cneg citems existsb citem_match]. rewrite <- negb_orb. f_equal. apply eq_true_iff_eq. rewrite !orb_true_iff, !in_rng_iff, !N.eqb_eq. lia.
Qed.
Definition kinds (w : list N) : list bool := flat_map kind w.
Lemma kinds_app u v : kinds (u ++ v) = kinds u ++ kinds v. Proof. apply flat_map_app. Qed.
Lemma kinds_inner w : forallb inner w = true -> kinds w = [].
Proof. induction w as [|c w IH]; [reflexivity|]. cbn [forallb]. unfold inner at 1, kinds. cbn [flat_map]. unfold kind at 1. destruct (opening c), (closing c); cbn [negb andb]; try discriminate. exact IH. Qed.
Lemma star_inner w : lang (RStar true (RClass k_none)) w -> forallb inner w = true.
Proof. intros H. remember (RStar true (RClass k_none)) as r eqn:E. induction H; try discriminate; [reflexivity|]. injection E as -> ->. rewrite lang_cls in H. destruct H as (c & -> & H). cbn [app forallb]. rewrite none_ok in H. rewrite H. apply IHlang2. reflexivity. Qed.
Lemma in_inner w : lang r_in w -> exists c t, w = c :: t /\ inner c = true /\ forallb inner t = true.
Proof. unfold r_in. rewrite lang_cat. intros (u & v & -> & U & V). rewrite lang_cls in U. destruct U as (c & -> & U). rewrite none_ok in U. exists c, v. split; [reflexivity|]. split; [exact U|apply star_inner; exact V]. Qed.
(** An opening bracket is followed by something that is not a bracket. *)
Definition filled_w (w : list N) : Prop := forall a o b, w = a ++ o :: b -> opening o = true -> exists c t, b = c :: t /\ opening c = false /\ closing c = false.
Lemma filled_app u v : filled_w u -> filled_w v -> filled_w (u ++ v).
Proof.
  intros U V a o b E O. revert u U E. induction a as [|x a IH]; intros [|y u] U E; cbn [app] in E.
  - exact (V [] o b E O).
  - injection E as -> <-. destruct (U [] o u eq_refl O) as (c & t & -> & H). exists c, (t ++ v). auto.
  - exact (V (x :: a) o b E O).
  - injection E as -> E. apply (IH u); [|exact E]. intros a' o' b' E' O'. apply (U (x :: a') o' b'); [rewrite E'; reflexivity|exact O'].
Qed.
Lemma filled_no w : forallb (fun c => negb (opening c)) w = true -> filled_w w.
Proof. intros H a o b -> O. rewrite forallb_app in H. cbn [forallb] in H. rewrite O in H. cbn [negb] in H. rewrite andb_false_r in H. discriminate. Qed.
Lemma inner_no w : forallb inner w = true -> forallb (fun c => negb (opening c)) w = true.
Proof. rewrite !forallb_forall. intros H c I. specialize (H c I). unfold inner in H. apply andb_true_iff in H as [H _]. exact H. Qed.
Lemma filled_open o c t : opening o = true -> inner c = true -> filled_w (c :: t) -> filled_w (o :: c :: t).
Proof.
  intros O I F a x b E X. unfold inner in I. apply andb_true_iff in I as [I1 I2]. apply negb_true_iff in I1, I2. destruct a as [|y a]; cbn [app] in E; injection E as E1 E2; [subst; exists c, t; auto|]. exact (F a x b E2 X).
Qed.
Lemma pair_ok w : lang r_pair w -> kinds w = [true; false] /\ filled_w w.
Proof.
  unfold r_pair. rewrite lang_cat. intros (u & v & -> & U & V). rewrite lang_cls in U. destruct U as (o & -> & U). rewrite open_ok in U. rewrite lang_cat in V. destruct V as (x & y & -> & X & Y). apply in_inner in X as (c & t & -> & Hc & Ht).
  rewrite lang_cls in Y. destruct Y as (d & -> & Y). rewrite close_ok in Y. assert (Od : opening d = false). { revert Y. unfold closing, opening. rewrite !orb_true_iff, !orb_false_iff, !N.eqb_eq, !N.eqb_neq. lia. }
  split.
  - rewrite kinds_app. rewrite (kinds_app (c :: t)). rewrite (kinds_inner (c :: t)) by (cbn [forallb]; rewrite Hc, Ht; reflexivity). cbn [kinds flat_map app]. unfold kind. rewrite U, Od, Y. reflexivity.
  - cbn [app]. apply filled_open; auto. change (filled_w ((c :: t) ++ [d])). apply filled_no. rewrite forallb_app, inner_no by (cbn [forallb]; rewrite Hc, Ht; reflexivity). cbn [forallb]. rewrite Od. reflexivity.
Qed.
Lemma opt_ok r w : lang (opt r) w -> lang r w \/ w = [].
Proof. unfold opt. rewrite lang_alt, lang_cat, lang_emp. intros [(u & v & -> & U & V)|H]; [|auto]. rewrite lang_emp in V. subst v. rewrite app_nil_r. auto. Qed.
Lemma tail_ok w : lang (RAlt (RCat r_pair (RAlt (RCat r_pair (RAlt (RCat r_pair REmpty) REmpty)) REmpty)) REmpty) w -> exists k, kinds w = pairs k /\ (k <= 3)%nat /\ filled_w w.
Proof.
  assert (F0 : filled_w []) by (intros a o b E; destruct a; discriminate).
  assert (Step : forall r n, (forall w, lang r w -> exists k, kinds w = pairs k /\ (k <= n)%nat /\ filled_w w) -> forall w, lang (RAlt (RCat r_pair r) REmpty) w -> exists k, kinds w = pairs k /\ (k <= S n)%nat /\ filled_w w).
  { intros r n H v. rewrite lang_alt, lang_cat, lang_emp. intros [(x & y & -> & X & Y)| ->]; [|exists 0%nat; split; [reflexivity|]; split; [lia|exact F0]]. apply pair_ok in X as [X1 X2]. destruct (H y Y) as (k & K1 & K2 & K3). exists (S k). rewrite kinds_app, X1, K1. split; [reflexivity|]. split; [lia|]. apply filled_app; auto. }
  apply (Step _ 2%nat), (Step _ 1%nat), (Step _ 0%nat). intros v. rewrite lang_emp. intros ->. exists 0%nat. split; [reflexivity|]. split; [lia|exact F0].
Qed.
Lemma brackets_ok s : re_match matchingBrackets s = true -> paired s /\ filled s.
Proof.
  rewrite (anchored_match _ _ _ brackets_ast) by reflexivity. unfold paired, filled, brackets. fold (kinds (runes s)). change (forall a o b, runes s = a ++ o :: b -> opening o = true -> exists c t, b = c :: t /\ opening c = false /\ closing c = false) with (filled_w (runes s)).
  generalize (runes s) as w. intros w H. unfold r_brackets in H. rewrite lang_cat in H. destruct H as (w0 & x & -> & H0 & H). rewrite lang_cat in H. destruct H as (w1 & y & -> & H1 & H). rewrite lang_cat in H. destruct H as (w2 & z & -> & H2 & H).
  rewrite lang_cat in H. destruct H as (w3 & u & -> & H3 & H). rewrite lang_cat in H. destruct H as (w4 & e & -> & H4 & H). inversion H; subst e. rewrite app_nil_r. clear H.
  apply opt_ok in H0, H1. apply in_inner in H2 as (c & t & -> & Hc & Ht). apply tail_ok in H3 as (k & K1 & K2 & K3). apply star_inner in H4.
  assert (I2 : forallb inner (c :: t) = true) by (cbn [forallb]; rewrite Hc, Ht; reflexivity).
  assert (F2 : filled_w ((c :: t) ++ w3 ++ w4)) by (apply filled_app; [apply filled_no, inner_no; exact I2|apply filled_app; [exact K3|apply filled_no, inner_no; exact H4]]).
  assert (E2 : kinds ((c :: t) ++ w3 ++ w4) = pairs k) by (rewrite !kinds_app, K1, (kinds_inner (c :: t) I2), (kinds_inner w4 H4), app_nil_r; reflexivity).
  (* the part with a closing bracket whose opening one is missing or comes first *)
  assert (M : exists c' t', w1 ++ (c :: t) ++ w3 ++ w4 = c' :: t' /\ inner c' = true /\ filled_w (c' :: t') /\ (kinds (c' :: t') = pairs k \/ kinds (c' :: t') = false :: pairs k)).
  { destruct H1 as [H1| ->]; [|exists c, (t ++ w3 ++ w4); auto]. rewrite lang_cat in H1. destruct H1 as (v & d & -> & Hv & Hd). apply in_inner in Hv as (c' & t' & -> & Hc' & Ht'). rewrite lang_cls in Hd. destruct Hd as (d' & -> & Hd). rewrite close_ok in Hd.
    assert (Od : opening d' = false). { revert Hd. unfold closing, opening. rewrite !orb_true_iff, !orb_false_iff, !N.eqb_eq, !N.eqb_neq. lia. }
    assert (I1 : forallb inner (c' :: t') = true) by (cbn [forallb]; rewrite Hc', Ht'; reflexivity).
    exists c', (t' ++ [d'] ++ (c :: t) ++ w3 ++ w4). split; [rewrite <- app_assoc; reflexivity|]. split; [exact Hc'|].
    change (c' :: t' ++ [d'] ++ (c :: t) ++ w3 ++ w4) with ((c' :: t') ++ [d'] ++ (c :: t) ++ w3 ++ w4). split.
    - apply filled_app; [apply filled_no, inner_no; exact I1|]. apply filled_app; [apply filled_no; cbn [forallb]; rewrite Od; reflexivity|exact F2].
    - right. rewrite kinds_app, (kinds_inner (c' :: t') I1), (kinds_app [d']), E2. cbn [kinds flat_map app]. unfold kind. rewrite Od, Hd. reflexivity. }
  destruct M as (c' & t' & Em & Hc' & Fm & Km). rewrite Em. destruct H0 as [H0| ->].
  - rewrite lang_cls in H0. destruct H0 as (o & -> & H0). rewrite open_ok in H0. cbn [app]. split; [|apply filled_open; auto].
    assert (Eo : kinds (o :: c' :: t') = true :: kinds (c' :: t')). { cbn [kinds flat_map]. unfold kind at 1. rewrite H0. reflexivity. }
    rewrite Eo. destruct Km as [-> | ->]; [exists k; right; left; split; [reflexivity|]; split; [exact K2|eauto]|exists (S k); left; split; [reflexivity|lia]].
  - cbn [app]. split; [|exact Fm]. destruct Km as [-> | ->]; exists k; [left; split; [reflexivity|lia]|right; right; split; [reflexivity|exact K2]].
Qed.

(** * No digit right before a colon *)
Definition no_digit (k : cls) : bool := forallb (fun c => negb (cls_match k c)) [48;49;50;51;52;53;54;55;56;57].
(** No word of the expression ends in a digit. *)
Fixpoint never_last (r : regex) : bool :=
  match r with
  | REmpty | RBegin | REnd => true
  | RClass k => no_digit k
  | RCat a b => never_last b && (negb (nullable b) || never_last a)
  | RAlt a b => never_last a && never_last b
  | RStar _ a | RGroup _ a => never_last a
  end.
Fixpoint never_next (r : regex) : bool :=
  match r with
  | REmpty | RBegin | REnd | RClass _ => true
  | RCat a b => never_next a && never_next b && (never_last a || never_first 58 b)
  | RAlt a b => never_next a && never_next b
  | RStar _ a => never_next a && (never_last a || never_first 58 a)
  | RGroup _ a => never_next a
  end.
Lemma never_last_ok r w : lang r w -> never_last r = true -> forall a d, w = a ++ [d] -> is_digit d = false.
Proof.
  induction 1 as [|k c M|a b v w L1 IH1 L2 IH2|a b w L IH|a b w L IH|g a|g a v w L1 IH1 L2 IH2|n a w L IH| |]; cbn [never_last]; intros F u d E; try (destruct u; discriminate).
  - destruct u as [|x [|]]; try discriminate. injection E as ->. destruct (is_digit d) eqn:D; [|reflexivity]. exfalso. apply is_digit_iff in D. unfold no_digit in F. rewrite forallb_forall in F. assert (I : In d [48;49;50;51;52;53;54;55;56;57]) by (cbn [In]; lia). apply F in I. rewrite M in I. discriminate.
  - apply andb_true_iff in F as [F1 F2]. destruct w as [|x w] using rev_ind.
    + rewrite app_nil_r in E. rewrite (lang_nullable _ _ L2 eq_refl) in F2. exact (IH1 F2 u d E).
    + rewrite app_assoc in E. apply app_inj_tail in E as [_ <-]. exact (IH2 F1 w x eq_refl).
  - apply andb_true_iff in F as [F1 F2]. exact (IH F1 u d E).
  - apply andb_true_iff in F as [F1 F2]. exact (IH F2 u d E).
  - destruct w as [|x w] using rev_ind; [rewrite app_nil_r in E; exact (IH1 F u d E)|]. rewrite app_assoc in E. apply app_inj_tail in E as [_ <-]. exact (IH2 F w x eq_refl).
  - exact (IH F u d E).
Qed.
Definition apart (w : list N) : Prop := forall a d b, w = a ++ d :: 58 :: b -> is_digit d = false.
Lemma apart_app u v : apart u -> apart v -> ((forall a d, u = a ++ [d] -> is_digit d = false) \/ (forall t, v <> 58 :: t)) -> apart (u ++ v).
Proof.
  intros U V O a d b E. revert u U O E. induction a as [|x a IH]; intros [|y u] U O E; cbn [app] in E.
  - exact (V [] d b E).
  - injection E as -> E. destruct u as [|z u]; cbn [app] in E; [destruct O as [O|O]; [exact (O [] d eq_refl)|congruence]|]. injection E as -> _. exact (U [] d u eq_refl).
  - exact (V (x :: a) d b E).
  - injection E as -> E. apply (IH u); [| |exact E].
    + intros a' d' b' E'. apply (U (x :: a') d' b'). rewrite E'. reflexivity.
    + destruct O as [O|O]; [left; intros a' d' E'; apply (O (x :: a') d'); rewrite E'; reflexivity|right; exact O].
Qed.
Lemma never_next_ok r w : lang r w -> never_next r = true -> apart w.
Proof.
  assert (N0 : apart []) by (intros a d b E; destruct a; discriminate).
  induction 1 as [|k c M|a b v w L1 IH1 L2 IH2|a b w L IH|a b w L IH|g a|g a v w L1 IH1 L2 IH2|n a w L IH| |]; cbn [never_next]; intros F; auto.
  - intros a d b E. destruct a as [|x [|]]; discriminate.
  - rewrite !andb_true_iff, orb_true_iff in F. destruct F as [[F1 F2] F3]. apply apart_app; auto. destruct F3 as [F3|F3]; [left; exact (never_last_ok _ _ L1 F3)|right; exact (never_first_ok _ _ _ L2 F3)].
  - apply andb_true_iff in F as [F1 F2]. auto.
  - apply andb_true_iff in F as [F1 F2]. auto.
  - assert (F' := F). rewrite !andb_true_iff, orb_true_iff in F. destruct F as [F1 F3]. apply apart_app; auto. destruct F3 as [F3|F3]; [left; exact (never_last_ok _ _ L1 F3)|right; exact (never_first_ok 58 (RStar g a) _ L2 F3)].
Qed.
Lemma matcher_apart : never_next (re_ast phoneNumberMatcherPattern) = true.
Proof. vm_compute. reflexivity. Qed.
Lemma apart_bytes s w : eats s w [] -> apart w -> apart s.
Proof.
  intros E A a d b Es. destruct (is_digit d) eqn:D; [|reflexivity]. exfalso. apply is_digit_iff in D as Dd. assert (Ld : d < 128) by lia.
  pose proof (ascii_boundary a d (58 :: b) Ld) as B. rewrite <- Es in B. apply ContextFacts.boundary_runes in B as (u & Bu). rewrite Es, skipn_app, skipn_all, Nat.sub_diag in Bu. cbn [app skipn] in Bu. rewrite <- Es in Bu.
  rewrite (runes_ascii_cons d), (runes_ascii_cons 58) in Bu by lia. apply eats_runes in E. change (runes []) with (@nil N) in E. rewrite app_nil_r in E. rewrite E in Bu. apply A in Bu. congruence.
Qed.
Lemma apart_infix a s b : apart (a ++ s ++ b) -> apart s.
Proof. intros H u d v ->. apply (H (a ++ u) d (v ++ b)). rewrite <- !app_assoc. reflexivity. Qed.

(** * Where a match comes from *)
Local Opaque re_find re_find_all re_match.
Local Open Scope nat_scope.
Definition clean (text cand : bytes) (off : nat) : Prop := occurs text cand off /\ apart cand /\ re_match slashSeparatedDates cand = false /\ is_timestamp text cand off = Ret false.
Definition looks (s : bytes) : Prop := re_match matchingBrackets s = true /\ re_match pubPages s = false.
Definition origin (text : bytes) (p : pmatch) : Prop := looks (pm_raw p) /\ exists cand off i, clean text cand off /\ occurs cand (pm_raw p) i /\ pm_start p = off + i.
Lemma pv_looks C A cfg s i : holds (parseAndVerify C A cfg s i) (fun o => forall p, o = Some p -> looks s /\ pm_raw p = s /\ pm_start p = i).
Proof.
  unfold parseAndVerify. destruct (negb _ || _) eqn:B; [apply holds_ret; discriminate|]. apply orb_false_iff in B as [B1 B2]. apply negb_false_iff in B1.
  apply holds_bind, holds_any. intros [|]; [apply holds_ret; discriminate|]. apply holds_bind, holds_any. intros [n [e|]]; [apply holds_ret; discriminate|]. apply holds_bind, holds_any. intros [|]; [|apply holds_ret; discriminate].
  apply holds_ret. intros p E. injection E as <-. split; [split; auto|]. split; reflexivity.
Qed.
Definition piece (s : bytes) (off : nat) (p : pmatch) : Prop := looks (pm_raw p) /\ exists i, occurs s (pm_raw p) i /\ pm_start p = off + i.
Lemma inner_loop_piece C A cfg s off gs : (forall g, In g gs -> m_start g <= length s /\ exists i j, group g 1 = Some (i, j) /\ i <= j /\ j <= length s) ->
  forall first w, holds (inner_loop C A cfg s off gs first w) (fun r => forall p, fst r = Some p -> piece s off p).
Proof.
  induction gs as [|g gs IH]; intros G first w; cbn [inner_loop]; [apply holds_ret; discriminate|]. destruct (w_tries w <=? 0)%Z; [apply holds_ret; discriminate|].
  destruct (G g (or_introl eq_refl)) as (Ls & i & j & Eg & Lij & Lj). apply holds_bind.
  apply holds_imp with (P := fun r : option pmatch * work => forall p, fst r = Some p -> piece s off p).
  - destruct first; [|apply holds_ret; discriminate]. apply holds_bind. eapply holds_imp; [apply pv_looks|]. intros [p|] Hp; apply holds_ret; cbn [fst]; [|discriminate]. intros q Eq. injection Eq as <-. destruct (Hp p eq_refl) as (H1 & H2 & H3). split; [rewrite H2; exact H1|].
    exists 0. split; [rewrite H2; change 0 with (0 + 0); eapply occurs_trans; [|apply trim_occurs]; apply sub_occurs; lia|lia].
  - intros [[p|] w1] Hp; cbn [fst] in Hp; [apply holds_ret; exact Hp|]. rewrite Eg. cbn [or_panic bind]. apply holds_bind. eapply holds_imp; [apply pv_looks|]. intros [q|] Hq.
    + apply holds_ret. cbn [fst]. intros q' Eq. injection Eq as <-. destruct (Hq q eq_refl) as (H1 & H2 & H3). split; [rewrite H2; exact H1|]. exists i. split; [rewrite H2; replace i with (i + 0) at 2 by lia; eapply occurs_trans; [|apply trim_occurs]; apply sub_occurs; lia|exact H3].
    + apply IH. intros g' I. apply G. right. exact I.
Qed.
Lemma inner_piece C A cfg s off pats : incl pats innerMatches -> forall w, holds (extractInnerMatch C A cfg s off pats w) (fun r => forall p, fst r = Some p -> piece s off p).
Proof.
  induction pats as [|x pats IH]; intros I w; cbn [extractInnerMatch]; [apply holds_ret; discriminate|]. apply holds_bind. eapply holds_imp; [apply inner_loop_piece|].
  - intros g Hg. eapply inner_find_all; [|exact Hg]. apply I. left. reflexivity.
  - intros [[p|] w1] Hp; [apply holds_ret; exact Hp|]. apply IH. intros y Hy. apply I. right. exact Hy.
Qed.
Lemma extract_origin C A cfg s off w : occurs (mc_text cfg) s off -> apart s -> holds (extractMatch C A cfg s off w) (fun r => forall p, fst r = Some p -> origin (mc_text cfg) p).
Proof.
  intros O Ap. unfold extractMatch. destruct (re_match slashSeparatedDates s) eqn:Sd; [apply holds_ret; discriminate|]. apply holds_bind. destruct (is_timestamp (mc_text cfg) s off) as [[|]| |] eqn:Ts; cbn [holds]; try exact I; [discriminate|].
  assert (Cl : clean (mc_text cfg) s off) by (split; [exact O|]; split; [exact Ap|]; split; [exact Sd|exact Ts]).
  apply holds_bind. eapply holds_imp; [apply pv_looks|]. intros [p|] Hp.
  - apply holds_ret. cbn [fst]. intros q Eq. injection Eq as <-. destruct (Hp p eq_refl) as (H1 & H2 & H3). split; [rewrite H2; exact H1|]. exists s, off, 0. split; [exact Cl|]. split; [rewrite H2; apply occurs_self|lia].
  - eapply holds_imp; [apply inner_piece, incl_refl|]. intros r Hr q Eq. destruct (Hr q Eq) as (H1 & i & H2 & H3). split; [exact H1|]. exists s, off, i. auto.
Qed.
Lemma cand_apart s loc : re_find phoneNumberMatcherPattern s = Some loc -> apart (sub s (m_start loc) (m_end loc)).
Proof.
  intros F. apply re_find_sound in F as (L1 & L2 & D & _). apply derives_lang in D as (w & E & L). apply eats_skip in E; [|lia|lia]. eapply apart_bytes; [exact E|]. eapply never_next_ok; [exact L|apply matcher_apart].
Qed.
Lemma find_origin C A cfg fuel : forall index w, holds (find fuel C A cfg index w) (fun r => forall p, fst r = Some p -> origin (mc_text cfg) p).
Proof.
  induction fuel as [|fuel IH]; intros index w; cbn [find]; [exact I|]. destruct (0 <? w_tries w)%Z; [|apply holds_ret; discriminate].
  unfold slice_from, slice at 1. destruct (_ && _) eqn:Lb; [|exact I]. apply andb_true_iff in Lb as [Lb _]. apply Nat.leb_le in Lb. cbn [bind]. fold (sub (mc_text cfg) index (len (mc_text cfg))). unfold len at 1. rewrite sub_to_end.
  destruct (re_find phoneNumberMatcherPattern (skipn index (mc_text cfg))) as [loc|] eqn:F; [|apply holds_ret; discriminate].
  pose proof (cand_apart _ _ F) as Ap. apply re_find_sound in F as (L1 & L2 & _). rewrite skipn_length in L2. rewrite sub_skipn in Ap. unfold len in Lb.
  unfold slice. destruct (_ && _); [|exact I]. cbn [bind]. fold (sub (mc_text cfg) (index + m_start loc) (index + m_end loc)).
  apply holds_bind. eapply holds_imp; [apply extract_origin|].
  - replace (index + m_start loc) with (index + m_start loc + 0) at 2 by lia. eapply occurs_trans; [|apply trim_occurs]. apply sub_occurs; lia.
  - destruct (trim_occurs secondNumberStartPattern (sub (mc_text cfg) (index + m_start loc) (index + m_end loc))) as (a & b & E & _). rewrite E in Ap. exact (apart_infix _ _ _ Ap).
  - intros [[p|] w1] Hp; [apply holds_ret; exact Hp|]. apply IH.
Qed.
Lemma has_origin C A m : (forall p, mx_last m = Some p -> origin (mc_text (mx_cfg m)) p) -> holds (hasNext C A m) (fun r => mx_cfg (fst r) = mx_cfg m /\ forall p, mx_last (fst r) = Some p -> origin (mc_text (mx_cfg m)) p).
Proof.
  intros L. unfold hasNext. apply holds_bind. apply holds_imp with (P := fun m' => mx_cfg m' = mx_cfg m /\ forall p, mx_last m' = Some p -> origin (mc_text (mx_cfg m)) p); [|intros m' H; apply holds_ret; exact H].
  destruct (mx_state m); [|apply holds_ret; auto|apply holds_ret; auto]. apply holds_bind. eapply holds_imp; [apply find_origin|]. intros [[p|] w] H; apply holds_ret; cbn [mx_cfg mx_last]; (split; [reflexivity|]); [|discriminate]. intros q Eq. apply (H q). exact Eq.
Qed.
Lemma loop_origin C A yield fuel : forall m got, (forall p, mx_last m = Some p -> origin (mc_text (mx_cfg m)) p) -> (forall p, In (Some p) got -> origin (mc_text (mx_cfg m)) p) ->
  holds (range_loop fuel C A yield m got) (fun r => forall p, In (Some p) (fst r) -> origin (mc_text (mx_cfg m)) p).
Proof.
  induction fuel as [|fuel IH]; intros m got L G; cbn [range_loop]; [exact I|]. apply holds_bind. eapply holds_imp; [apply has_origin; exact L|]. intros [m1 b] [E1 L1]. cbn [fst] in E1, L1. destruct b; cbn [negb]; [|apply holds_ret; exact G].
  apply holds_bind. unfold next. apply holds_bind. eapply holds_imp; [apply has_origin; rewrite E1; exact L1|]. intros [m2 b2] [E2 L2]. cbn [fst] in E2, L2. rewrite E1 in L2. destruct b2; cbn [negb]; apply holds_ret.
  - assert (G' : forall p, In (Some p) (got ++ [mx_last m2]) -> origin (mc_text (mx_cfg m)) p). { intros p I. apply in_app_or in I as [I|[I|[]]]; [apply G; exact I|apply L2; exact I]. }
    destruct (yield _); [|apply holds_ret; exact G']. match goal with |- holds (range_loop _ _ _ _ ?m' ?g) _ => eapply holds_imp; [apply (IH m' g)|] end; cbn [mx_last mx_cfg]; rewrite ?E2, ?E1; [discriminate|exact G'|auto].
  - assert (G' : forall p, In (Some p) (got ++ [None]) -> origin (mc_text (mx_cfg m)) p). { intros p I. apply in_app_or in I as [I|[I|[]]]; [apply G; exact I|discriminate]. }
    destruct (yield _); [|apply holds_ret; exact G']. match goal with |- holds (range_loop _ _ _ _ ?m' ?g) _ => eapply holds_imp; [apply (IH m' g)|] end; rewrite ?E2, ?E1; [exact L2|exact G'|auto].
Qed.
