(** Languages of regular expressions over runes, positions and captures forgotten: what a match can have consumed. *)
From Verif Require Import Base BaseFacts Utf8 Utf8Facts Regex RegexSpec RegexFacts.

(** Reading the runes w from s leaves t. *)
Inductive eats : bytes -> list N -> bytes -> Prop :=
  | E_nil s : eats s [] s
  | E_cons s c t w u : decode_rune s = Some (c, t) -> eats t w u -> eats s (c :: w) u.
Lemma eats_app s w t : eats s w t -> forall v u, eats t v u -> eats s (w ++ v) u.
Proof. induction 1; intros; simpl; auto. econstructor; eauto. Qed.
Lemma eats_ascii s w t : eats s w t -> ascii s -> s = w ++ t.
Proof.
  induction 1; intros A; auto. destruct s as [|b s]; [discriminate|]. inversion A; subst. rewrite decode_ascii in H by auto. inv H. simpl. f_equal. auto.
Qed.
Lemma eats_runes s w t : eats s w t -> runes s = w ++ runes t.
Proof. induction 1; simpl; auto. rewrite <- IHeats. apply runes_step. auto. Qed.

Inductive lang : regex -> list N -> Prop :=
  | L_empty : lang REmpty []
  | L_class k c : cls_match k c = true -> lang (RClass k) [c]
  | L_cat a b v w : lang a v -> lang b w -> lang (RCat a b) (v ++ w)
  | L_alt_l a b w : lang a w -> lang (RAlt a b) w
  | L_alt_r a b w : lang b w -> lang (RAlt a b) w
  | L_star_nil g a : lang (RStar g a) []
  | L_star_more g a v w : lang a v -> lang (RStar g a) w -> lang (RStar g a) (v ++ w)
  | L_group n a w : lang a w -> lang (RGroup n a) w
  | L_begin : lang RBegin []
  | L_end : lang REnd [].
Lemma derives_lang r p s cs p' s' cs' : derives r p s cs p' s' cs' -> exists w, eats s w s' /\ lang r w.
Proof.
  induction 1.
  - exists []. split; constructor.
  - exists [c]. split; [econstructor; eauto; constructor|constructor; auto].
  - destruct IHderives1 as (v & E1 & L1). destruct IHderives2 as (w & E2 & L2). exists (v ++ w). split; [eapply eats_app; eauto|constructor; auto].
  - destruct IHderives as (w & E & L). exists w. split; auto. constructor. auto.
  - destruct IHderives as (w & E & L). exists w. split; auto. apply L_alt_r. auto.
  - exists []. split; constructor.
  - destruct IHderives1 as (v & E1 & L1). destruct IHderives2 as (w & E2 & L2). exists (v ++ w). split; [eapply eats_app; eauto|apply L_star_more; auto].
  - destruct IHderives as (w & E & L). exists w. split; auto. constructor. auto.
  - exists []. split; constructor.
  - exists []. split; constructor.
Qed.

(** No class of the expression matches c. *)
Fixpoint avoids (c : N) (r : regex) : bool :=
  match r with
  | REmpty | RBegin | REnd => true
  | RClass k => negb (cls_match k c)
  | RCat a b | RAlt a b => avoids c a && avoids c b
  | RStar _ a | RGroup _ a => avoids c a
  end.
Lemma avoids_ok c r w : lang r w -> avoids c r = true -> ~ In c w.
Proof.
  induction 1; simpl; intros A I; rewrite ?andb_true_iff in A; auto.
  - destruct I as [->|[]]. rewrite H in A. discriminate.
  - apply in_app_or in I. destruct A, I; [eapply IHlang1|eapply IHlang2]; eauto.
  - destruct A. eapply IHlang; eauto.
  - destruct A. eapply IHlang; eauto.
  - apply in_app_or in I. destruct I; [eapply IHlang1|eapply IHlang2]; eauto.
  - eapply IHlang; eauto.
Qed.

(** A rune other than U+FFFD was written with its own encoding. *)
Lemma decode_inv s c t : decode_rune s = Some (c, t) -> c <> rune_error -> s = encode_rune c ++ t.
Proof.
  intros H NE. destruct s as [|b0 s]; [discriminate|]. cbn [decode_rune] in H. unfold encode_rune.
  assert (Bad : forall l, Some (rune_error, l) = Some (c, t) -> b0 :: s = encode_rune c ++ t) by (intros l X; injection X as X _; congruence).
  unfold encode_rune in Bad.
  destruct (b0 <? 128) eqn:E0. { inv H. rewrite E0. reflexivity. }
  apply N.ltb_ge in E0. destruct (in_rng 194 223 b0) eqn:E1.
  { apply in_rng_iff in E1. destruct s as [|b1 s]; [eapply Bad; eauto|]. destruct (in_rng 128 191 b1) eqn:F1; [|eapply Bad; eauto]. apply in_rng_iff in F1.
    injection H as <- <-. replace (_ <? 128) with false by lia. replace (_ <? 2048) with true by lia. simpl. f_equal; [lia|f_equal; lia]. }
  destruct (in_rng 224 239 b0) eqn:E2.
  { apply in_rng_iff in E2. destruct s as [|b1 [|b2 s]]; try (eapply Bad; eauto; fail).
    destruct (in_rng (if b0 =? 224 then 160 else 128) (if b0 =? 237 then 159 else 191) b1 && in_rng 128 191 b2) eqn:F; [|eapply Bad; eauto].
    apply andb_true_iff in F as [F1 F2]. apply in_rng_iff in F1, F2. injection H as <- <-.
    assert (G : (b0 = 224 -> 160 <= b1) /\ (b0 = 237 -> b1 <= 159) /\ 128 <= b1 <= 191).
    { destruct (N.eqb_spec b0 224), (N.eqb_spec b0 237); lia. }
    clear F1. replace (_ <? 128) with false by lia. replace (_ <? 2048) with false by lia.
    replace (in_rng 55296 57343 _ || _) with false by (symmetry; apply orb_false_iff; split; [apply in_rng_false; lia|apply N.ltb_ge; lia]).
    replace (_ <? 65536) with true by lia. simpl. f_equal; [lia|f_equal; [lia|f_equal; lia]]. }
  destruct (in_rng 240 244 b0) eqn:E3; [|eapply Bad; eauto]. apply in_rng_iff in E3. destruct s as [|b1 [|b2 [|b3 s]]]; try (eapply Bad; eauto; fail).
  destruct (in_rng (if b0 =? 240 then 144 else 128) (if b0 =? 244 then 143 else 191) b1 && in_rng 128 191 b2 && in_rng 128 191 b3) eqn:F; [|eapply Bad; eauto].
  apply andb_true_iff in F as [F F3]. apply andb_true_iff in F as [F1 F2]. apply in_rng_iff in F1, F2, F3. injection H as <- <-.
  assert (G : (b0 = 240 -> 144 <= b1) /\ (b0 = 244 -> b1 <= 143) /\ 128 <= b1 <= 191).
  { destruct (N.eqb_spec b0 240), (N.eqb_spec b0 244); lia. }
  clear F1. replace (_ <? 128) with false by lia. replace (_ <? 2048) with false by lia.
  replace (in_rng 55296 57343 _ || _) with false by (symmetry; apply orb_false_iff; split; [apply in_rng_false; lia|apply N.ltb_ge; lia]).
  replace (_ <? 65536) with false by lia. simpl. f_equal; [lia|f_equal; [lia|f_equal; [lia|f_equal; lia]]].
Qed.
Lemma decode_any s c t u : decode_rune s = Some (c, t) -> c <> rune_error -> decode_rune (encode_rune c ++ u) = Some (c, u).
Proof. intros H _. apply decode_encode. apply decode_rune_spec in H as (w & _ & _ & S & _). auto. Qed.
(** A match starts at a rune boundary. *)
Lemma re_find_boundary x s m : re_find x s = Some m -> boundary s (m_start m).
Proof. unfold re_find, find_from. cbn [skipn]. intros H. apply search_sound in H as (i & w & B & M & _). rewrite M. exact B. Qed.
Lemma boundary_first s i c t : boundary s i -> i <> 0%nat -> decode_rune s = Some (c, t) -> (length s - length t <= i)%nat.
Proof. intros B. destruct B; intros; [congruence|]. match goal with H : decode_rune s = Some (_, t0), H' : decode_rune s = Some (c, t) |- _ => rewrite H in H'; inv H' end. unfold len. lia. Qed.

(** * Anchored expressions match exactly their language *)
Fixpoint anchorless (r : regex) : bool :=
  match r with
  | REmpty | RClass _ => true
  | RBegin | REnd => false
  | RCat a b | RAlt a b => anchorless a && anchorless b
  | RStar _ a | RGroup _ a => anchorless a
  end.
Lemma eats_split v : forall w s t, eats s (v ++ w) t -> exists u, eats s v u /\ eats u w t.
Proof.
  induction v as [|c v IH]; simpl; intros w s t E; [exists s; split; [constructor|auto]|]. inv E.
  match goal with H : eats _ (v ++ w) _ |- _ => apply IH in H as (u & E1 & E2) end. exists u. split; auto. econstructor; eauto.
Qed.
Lemma eats_len s v t : eats s v t -> v <> [] -> (len t < len s)%nat.
Proof.
  induction 1 as [|s c t v u D E IH]; intros NE; [congruence|]. pose proof (decode_rune_lt _ _ _ D). destruct v; [inv E; unfold len; lia|]. assert (len u < len t)%nat by (apply IH; discriminate). unfold len in *. lia.
Qed.
Lemma eats_all s : eats s (runes s) [].
Proof. induction s as [|s c t D IH] using runes_ind; [constructor|]. rewrite (runes_step _ _ _ D). econstructor; eauto. Qed.
Lemma lang_derives r w : lang r w -> anchorless r = true -> forall s t p cs, eats s w t -> exists p' cs', derives r p s cs p' t cs'.
Proof.
  induction 1; cbn [anchorless]; intros A s t p cs E; rewrite ?andb_true_iff in A; try discriminate A.
  - inv E. do 2 eexists. constructor.
  - inversion E as [|? ? t' ? ? D E']; subst. inv E'. do 2 eexists. econstructor; eauto.
  - destruct A as [A1 A2]. apply eats_split in E as (u & E1 & E2). destruct (IHlang1 A1 _ _ p cs E1) as (p1 & c1 & D1). destruct (IHlang2 A2 _ _ p1 c1 E2) as (p2 & c2 & D2).
    do 2 eexists. econstructor; eauto.
  - destruct A as [A1 A2]. destruct (IHlang A1 _ _ p cs E) as (p1 & c1 & D1). do 2 eexists. apply D_alt_l. eauto.
  - destruct A as [A1 A2]. destruct (IHlang A2 _ _ p cs E) as (p1 & c1 & D1). do 2 eexists. apply D_alt_r. eauto.
  - inv E. do 2 eexists. constructor.
  - apply eats_split in E as (u & E1 & E2). destruct v as [|x v].
    + inv E1. eapply IHlang2; eauto.
    + destruct (IHlang1 A _ _ p cs E1) as (p1 & c1 & D1). destruct (IHlang2 A _ _ p1 c1 E2) as (p2 & c2 & D2). do 2 eexists. eapply D_star_more; eauto. eapply eats_len; eauto. discriminate.
  - destruct (IHlang A _ _ p cs E) as (p1 & c1 & D1). do 2 eexists. constructor. eauto.
Qed.
(** Anchored at the end and nowhere else. *)
Fixpoint ends_anchored (r : regex) : bool :=
  match r with REnd => true | RCat a b => anchorless a && ends_anchored b | _ => false end.
Lemma ends_derives r p s cs p' s' cs' : derives r p s cs p' s' cs' -> ends_anchored r = true -> s' = [].
Proof. induction 1; cbn [ends_anchored]; intros A; try discriminate; auto. apply andb_true_iff in A as [_ A]. auto. Qed.
Lemma ends_lang r w : lang r w -> ends_anchored r = true -> forall s p cs, eats s w [] -> exists p' cs', derives r p s cs p' [] cs'.
Proof.
  induction 1; cbn [ends_anchored]; intros A s p cs E; try discriminate A.
  - apply andb_true_iff in A as [A1 A2]. apply eats_split in E as (u & E1 & E2). destruct (lang_derives _ _ H A1 _ _ p cs E1) as (p1 & c1 & D1).
    destruct (IHlang2 A2 _ p1 c1 E2) as (p2 & c2 & D2). do 2 eexists. econstructor; eauto.
  - inv E. do 2 eexists. constructor.
Qed.
Lemma anchored_match x r s : re_ast x = RCat RBegin r -> ends_anchored r = true -> re_match x s = true <-> lang r (runes s).
Proof.
  intros X A. rewrite re_match_iff, X. split.
  - intros (i & e & w & cs & B & D). inv D. match goal with H : derives RBegin _ _ _ _ _ _ |- _ => inv H end. simpl skipn in *.
    match goal with H : derives r _ _ _ _ _ _ |- _ => pose proof (ends_derives _ _ _ _ _ _ _ H A) as ->; apply derives_lang in H as (v & E & L) end.
    apply eats_runes in E. rewrite runes_nil, app_nil_r in E. rewrite E. auto.
  - intros L. destruct (ends_lang _ _ L A s 0%nat [] (eats_all s)) as (p' & cs' & D). exists 0%nat, p', [], cs'. split; [constructor|]. simpl. econstructor; [constructor|eauto].
Qed.
