(** Dates, times, page references and brackets: what the four expressions of the search say. *)
From Verif Require Import Base BaseFacts Utf8 Utf8Facts Regex RegexSpec RegexFacts LangFacts Consts Types Normalize Validate Format Parse Matcher MetaSpec MatcherSpec AytfFacts MatcherFacts ContextFacts ExtFacts NeverSpec.
Local Open Scope N_scope.

(** * Building words *)
Lemma lc_cls k r c w : cls_match k c = true -> lang r w -> lang (RCat (RClass k) r) (c :: w).
Proof. intros H L. change (c :: w) with ([c] ++ w). constructor; [constructor; exact H|exact L]. Qed.
Lemma lc_cat a b r w : lang (RCat a (RCat b r)) w -> lang (RCat (RCat a b) r) w.
Proof. intros H. rewrite lang_cat in H. destruct H as (u & v & -> & A & B). rewrite lang_cat in B. destruct B as (v1 & v2 & -> & B & R). rewrite app_assoc. constructor; [constructor; auto|auto]. Qed.
Lemma lc_emp r w : lang r w -> lang (RCat REmpty r) w.
Proof. intros H. change w with ([] ++ w). constructor; [constructor|exact H]. Qed.
Lemma lc_altl a b r w : lang (RCat a r) w -> lang (RCat (RAlt a b) r) w.
Proof. rewrite !lang_cat. intros (u & v & -> & A & B). exists u, v. split; [reflexivity|]. split; [apply L_alt_l; exact A|exact B]. Qed.
Lemma lc_altr a b r w : lang (RCat b r) w -> lang (RCat (RAlt a b) r) w.
Proof. rewrite !lang_cat. intros (u & v & -> & A & B). exists u, v. split; [reflexivity|]. split; [apply L_alt_r; exact A|exact B]. Qed.
Lemma lc_star g k c n r w : cls_match k c = true -> lang r w -> lang (RCat (RStar g (RClass k)) r) (repeat c n ++ w).
Proof.
  intros H L. constructor; [|exact L]. induction n as [|n IH]; [constructor|]. cbn [repeat]. change (c :: repeat c n) with ([c] ++ repeat c n). apply L_star_more; [constructor; exact H|exact IH].
Qed.
Ltac cls := unfold cls_match, items_match; cbn [cfold cneg citems existsb citem_match]; unfold in_rng; rewrite ?orb_true_iff, ?andb_true_iff, ?N.leb_le; lia.
Ltac lb := solve [ apply L_empty | apply L_end | apply L_class; cls | apply lc_cls; [cls|lb] | apply lc_star; [cls|lb] | apply lc_cat; lb | apply lc_emp; lb | apply lc_altl; lb | apply lc_altr; lb ].

(** * A word of ASCII inside a text *)
Lemma ascii_boundary a c t : c < 128 -> boundary (a ++ c :: t) (length a).
Proof.
  intros L. remember (length a) as n eqn:En. revert a En. induction n as [n IH] using (well_founded_induction Wf_nat.lt_wf). intros a ->. destruct a as [|x a]; [constructor|].
  destruct (decode_rune ((x :: a) ++ c :: t)) as [[d u]|] eqn:D; [|apply decode_rune_none in D; discriminate].
  destruct (decode_bytes _ _ _ D) as (v & Ev & Hv). pose proof (decode_rune_lt _ _ _ D) as Lt.
  assert (Lv : (1 <= length v <= length (x :: a))%nat).
  { rewrite Ev, app_length in Lt. split; [lia|]. destruct Hv as [[-> _]|Hv]; [cbn [length]; lia|]. destruct (Nat.le_gt_cases (length v) (length (x :: a))) as [K|K]; [exact K|exfalso].
    assert (Ic : nth_error v (length (x :: a)) = Some c). { assert (K' : nth_error ((x :: a) ++ c :: t) (length (x :: a)) = Some c) by (rewrite nth_error_app2, Nat.sub_diag by lia; reflexivity). rewrite Ev, nth_error_app1 in K' by exact K. exact K'. }
    apply nth_error_In in Ic. rewrite Forall_forall in Hv. specialize (Hv _ Ic). lia. }
  assert (Ea : exists a2, x :: a = v ++ a2 /\ u = a2 ++ c :: t).
  { exists (skipn (length v) (x :: a)). pose proof (f_equal (firstn (length v)) Ev) as E1. rewrite firstn_app, (firstn_app (length v) v), firstn_all, Nat.sub_diag, firstn_O, app_nil_r in E1. replace (length v - length (x :: a))%nat with 0%nat in E1 by lia. rewrite firstn_O, app_nil_r in E1.
    pose proof (f_equal (skipn (length v)) Ev) as E2. rewrite skipn_app, (skipn_app (length v) v), skipn_all, Nat.sub_diag in E2. replace (length v - length (x :: a))%nat with 0%nat in E2 by lia. cbn [app skipn] in E2.
    split; [rewrite <- E1 at 1; symmetry; apply firstn_skipn|symmetry; exact E2]. }
  destruct Ea as (a2 & Ea & ->). replace (length (x :: a)) with ((len ((x :: a) ++ c :: t) - len (a2 ++ c :: t)) + length a2)%nat.
  - econstructor; [exact D|]. apply (IH (length a2)); [|reflexivity]. rewrite Ea, app_length. lia.
  - unfold len. rewrite Ea, !app_length. lia.
Qed.
Lemma eats_word w t : ascii w -> eats (w ++ t) w t.
Proof. induction 1 as [|c w L A IH]; cbn [app]; [constructor|]. econstructor; [apply decode_ascii; exact L|exact IH]. Qed.
Lemma inside x a w b : anchorless (re_ast x) = true -> lang (re_ast x) w -> ascii w -> w <> [] -> re_match x (a ++ w ++ b) = true.
Proof.
  intros An L A N0. destruct w as [|c w]; [congruence|]. inversion A as [|? ? Lc Aw]; subst. apply re_match_iff. destruct (lang_derives _ _ L An ((c :: w) ++ b) b (length a) [] (eats_word _ _ A)) as (e & cs & D).
  exists (length a), e, b, cs. split; [exact (ascii_boundary a c (w ++ b) Lc)|]. rewrite skipn_app, skipn_all, Nat.sub_diag. exact D.
Qed.
Lemma at_end x a w : ends_anchored (re_ast x) = true -> lang (re_ast x) w -> ascii w -> w <> [] -> re_match x (a ++ w) = true.
Proof.
  intros An L A N0. destruct w as [|c w]; [congruence|]. inversion A as [|? ? Lc Aw]; subst. apply re_match_iff. pose proof (eats_word _ [] A) as E. rewrite app_nil_r in E. destruct (ends_lang _ _ L An (c :: w) (length a) [] E) as (e & cs & D).
  exists (length a), e, [], cs. split; [exact (ascii_boundary a c w Lc)|]. rewrite skipn_app, skipn_all, Nat.sub_diag. exact D.
Qed.
Ltac digs := repeat match goal with H : is_digit _ = true |- _ => apply is_digit_iff in H end.

Lemma date_lang s : slash_date s -> lang (re_ast slashSeparatedDates) s /\ ascii s /\ s <> [].
Proof.
  intros (d & m & y & -> & H & Y).
  assert (S3 : forall k s, k <= 3 -> small k s -> ascii s /\ s <> []). { intros k s K [(e & -> & He)|(t & e & -> & Ht & He)]; digs; (split; [repeat constructor; lia|discriminate]). }
  assert (Ay : ascii y). { destruct Y as [(a & b & -> & Ha & Hb)|(c & e & a & b & -> & Hc & He & Ha & Hb)]; digs; repeat constructor; lia. }
  assert (Adm : ascii d /\ d <> [] /\ ascii m). { destruct H as [[Hd Hm]|[Hd Hm]]; [destruct (S3 3 d ltac:(lia) Hd), (S3 1 m ltac:(lia) Hm)|destruct (S3 1 d ltac:(lia) Hd), (S3 3 m ltac:(lia) Hm)]; auto. }
  destruct Adm as (Ad & Nd & Am). split; [|split; [apply Forall_app; split; [exact Ad|]; constructor; [lia|]; apply Forall_app; split; [exact Am|]; constructor; [lia|exact Ay]|intros K; apply app_eq_nil in K as [K _]; congruence]].
  unfold slashSeparatedDates. cbn [re_ast]. unfold small, year in *.
  destruct H as [[Hd Hm]|[Hd Hm]]; destruct Hd as [(e & -> & He)|(t & e & -> & Ht & He)]; destruct Hm as [(e' & -> & He')|(t' & e' & -> & Ht' & He')]; destruct Y as [(a & b & -> & Ha & Hb)|(c & z & a & b & -> & Hc & Hz & Ha & Hb)]; digs; cbn [app]; lb.
Qed.
Lemma no_date s a w b : re_match slashSeparatedDates s = false -> slash_date w -> s <> a ++ w ++ b.
Proof. intros M H ->. destruct (date_lang w H) as (L & A & N0). rewrite (inside _ a w b) in M by (auto; reflexivity). discriminate. Qed.

Lemma upto_cases k s : digits_upto k s -> exists c t, s = c :: t /\ is_digit c = true /\ forallb is_digit t = true /\ (length t < k)%nat.
Proof. intros [D L]. destruct s as [|c t]; [cbn [length] in L; lia|]. cbn [forallb length] in *. apply andb_true_iff in D as [D1 D2]. exists c, t. repeat split; auto; lia. Qed.
Lemma digits_asc s : forallb is_digit s = true -> ascii s.
Proof. intros H. rewrite forallb_forall in H. apply Forall_forall. intros c I. apply H, is_digit_iff in I. lia. Qed.
Fixpoint reps (n : nat) (k : cls) : regex := match n with O => REmpty | S m => RAlt (RCat (RClass k) (reps m k)) REmpty end.
Lemma lc_reps n k : forall w, forallb (cls_match k) w = true -> (length w <= n)%nat -> lang (reps n k) w.
Proof.
  induction n as [|n IH]; intros [|c w] F L; cbn [reps length] in *; try lia; [constructor|apply L_alt_r; constructor|]. cbn [forallb] in F. apply andb_true_iff in F as [F1 F2].
  apply L_alt_l, lc_cls; [exact F1|]. apply IH; [exact F2|lia].
Qed.
Definition k_digit : cls := {| cneg := false; citems := [CR 48 57]; cfold := false |}.
Definition k_white : cls := {| cneg := false; citems := [CR 9 10; CR 12 13; CR 32 32]; cfold := false |}.
Definition k_one (c : N) : cls := {| cneg := false; citems := [CR c c]; cfold := false |}.
Lemma page_ast : re_ast pubPages = RCat (RCat (RClass k_digit) (reps 4 k_digit)) (RCat (RCat (RClass (k_one 45)) (RStar true (RClass (k_one 45)))) (RCat (RCat (RClass k_digit) (reps 4 k_digit)) (RCat (reps 4 k_white) (RCat (RClass (k_one 40)) (RCat (RClass k_digit) (reps 3 k_digit)))))).
Proof. reflexivity. Qed.
Lemma k_digit_ok c : cls_match k_digit c = is_digit c.
Proof. unfold cls_match, items_match, k_digit. cbn [cfold cneg citems existsb citem_match]. rewrite orb_false_r. reflexivity. Qed.
Lemma upto_lang k s : digits_upto (S k) s -> lang (RCat (RClass k_digit) (reps k k_digit)) s.
Proof.
  intros [D L]. destruct s as [|c t]; [cbn [length] in L; lia|]. cbn [forallb length] in *. apply andb_true_iff in D as [D1 D2]. apply lc_cls; [rewrite k_digit_ok; exact D1|]. apply lc_reps; [|lia].
  rewrite forallb_forall in *. intros x I. rewrite k_digit_ok. auto.
Qed.
Lemma page_lang s : page_reference s -> lang (re_ast pubPages) s /\ ascii s /\ s <> [].
Proof.
  intros (p & k & q & ws & y & -> & P & Q & Hw & Lw & Y). split.
  - rewrite page_ast. constructor; [apply upto_lang; exact P|]. constructor; [cbn [repeat]; apply lc_cls; [reflexivity|]; rewrite <- (app_nil_r (repeat 45 k))|].
    + induction k as [|k IH]; [constructor|]. cbn [repeat app]. change (45 :: repeat 45 k ++ []) with ([45] ++ (repeat 45 k ++ [])). apply L_star_more; [constructor; reflexivity|exact IH].
    + constructor; [apply upto_lang; exact Q|]. constructor; [|apply lc_cls; [reflexivity|apply upto_lang; exact Y]]. apply lc_reps; [|exact Lw]. rewrite forallb_forall in *. intros c I. specialize (Hw c I). unfold white in Hw. rewrite !orb_true_iff, !N.eqb_eq in Hw. destruct Hw as [[[[->| ->]| ->]| ->]| ->]; reflexivity.
  - destruct P as [P1 P2], Q as [Q1 Q2], Y as [Y1 Y2]. split.
    + apply Forall_app. split; [apply digits_asc; exact P1|]. apply Forall_app. split; [apply Forall_forall; intros c I; apply repeat_spec in I; lia|]. apply Forall_app. split; [apply digits_asc; exact Q1|]. apply Forall_app. split; [|constructor; [lia|apply digits_asc; exact Y1]].
      rewrite forallb_forall in Hw. apply Forall_forall. intros c I. specialize (Hw c I). unfold white in Hw. rewrite !orb_true_iff, !N.eqb_eq in Hw. lia.
    + intros K. apply app_eq_nil in K as [-> _]. cbn [length] in P2. lia.
Qed.
Lemma no_page s a w b : re_match pubPages s = false -> page_reference w -> s <> a ++ w ++ b.
Proof. intros M H ->. destruct (page_lang w H) as (L & A & N0). rewrite (inside _ a w b) in M by (auto; reflexivity). discriminate. Qed.

Lemma stamp_lang s : hour_stamp s -> lang (re_ast timeStamps) s /\ ascii s /\ s <> [].
Proof.
  intros (y1 & y2 & y3 & y4 & p & m1 & m2 & q & d1 & d2 & k & h1 & h2 & -> & H1 & H2 & H3 & H4 & P & H5 & H6 & Q & H7 & H8 & H9 & H10). digs. split; [|split; [|discriminate]].
  - unfold timeStamps. cbn [re_ast]. destruct P as [->|[->| ->]]; destruct Q as [->|[->| ->]]; cbn [app repeat];
      repeat first [apply lc_cls; [cls|] | apply lc_cat | apply lc_star; [cls|] | apply lc_emp | apply L_end | apply lc_altl, lc_cat, lc_cls; [cls|] | apply lc_altr].
  - assert (Ap : forall x, date_sep x -> ascii x) by (intros x [->|[->| ->]]; repeat constructor; lia).
    do 4 (constructor; [lia|]). apply Forall_app. split; [exact (Ap _ P)|]. do 2 (constructor; [lia|]). apply Forall_app. split; [exact (Ap _ Q)|]. do 2 (constructor; [lia|]). apply Forall_app. split; [apply Forall_forall; intros c I; apply repeat_spec in I; lia|]. repeat constructor; lia.
Qed.
Lemma no_stamp text cand off a w b c : is_timestamp text cand off = Ret false -> text = a ++ cand ++ b -> length a = off -> minutes b -> hour_stamp w -> cand <> c ++ w.
Proof.
  intros T Et <- (m1 & m2 & t & Eb & Hm1 & Hm2) H ->. destruct (stamp_lang w H) as (L & A & N0). unfold is_timestamp in T. rewrite (at_end _ c w) in T by (auto; reflexivity).
  assert (Es : slice_from text (length a + len (c ++ w)) = Ret b). { unfold slice_from, slice, len. rewrite Et. replace (_ && _) with true by (symmetry; apply andb_true_iff; split; apply Nat.leb_le; rewrite !app_length; lia). f_equal.
    rewrite app_assoc, <- app_length, skipn_app, skipn_all, Nat.sub_diag. cbn [app skipn]. rewrite app_length. rewrite firstn_all2; [reflexivity|lia]. }
  rewrite Es in T. cbn [bind] in T. digs.
  assert (Lm : lang (re_ast timeStampsSuffix) [58; m1; m2]). { unfold timeStampsSuffix. cbn [re_ast]. lb. }
  destruct (lang_derives _ _ Lm eq_refl b t 0 []) as (e & cs & D). { rewrite Eb. change (58 :: m1 :: m2 :: t) with ([58; m1; m2] ++ t). apply eats_word. repeat constructor; lia. }
  destruct (find_le timeStampsSuffix b 0 e t cs (B_here b) D) as (m & F & Le). rewrite F in T. injection T as T. apply Nat.eqb_neq in T. lia.
Qed.
