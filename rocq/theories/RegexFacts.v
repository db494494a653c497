(** Soundness and completeness of the matcher of Regex.v for the relation of RegexSpec.v, and consequences. *)
From Verif Require Import Base BaseFacts Utf8 Utf8Facts Regex RegexSpec.
Local Open Scope nat_scope.

(** The star's loop, named. *)
Definition star_loop (g : bool) (ra : cont -> nat -> bytes -> caps -> option (nat * caps)) (k : cont) :=
  fix loop (fuel : nat) (pos : nat) (s : bytes) (cs : caps) {struct fuel} : option (nat * caps) :=
  match fuel with
  | O => None
  | S f =>
      let more (_ : unit) := ra (fun p' s' cs' => if (len s' <? len s)%nat then loop f p' s' cs' else None) pos s cs in
      if g then match more tt with Some x => Some x | None => k pos s cs end
      else match k pos s cs with Some x => Some x | None => more tt end
  end.
Lemma star_loop_S g ra k f p s cs : star_loop g ra k (S f) p s cs =
  if g then match ra (fun p' s' cs' => if (len s' <? len s)%nat then star_loop g ra k f p' s' cs' else None) p s cs with
            Some x => Some x | None => k p s cs end
  else match k p s cs with Some x => Some x
       | None => ra (fun p' s' cs' => if (len s' <? len s)%nat then star_loop g ra k f p' s' cs' else None) p s cs end.
Proof. reflexivity. Qed.
Lemma rmatch_star g a k p s cs : rmatch (RStar g a) k p s cs = star_loop g (rmatch a) k (S (len s)) p s cs.
Proof. reflexivity. Qed.

Lemma rmatch_sound r : forall k p s cs x, rmatch r k p s cs = Some x ->
  exists p' s' cs', derives r p s cs p' s' cs' /\ k p' s' cs' = Some x.
Proof.
  induction r as [|c|a IHa b IHb|a IHa b IHb|g a IHa|n a IHa| |]; intros k p s cs x H; [| | | |rewrite rmatch_star in H| | |]; cbn [rmatch] in H.
  - exists p, s, cs. split; [constructor|auto].
  - destruct (decode_rune s) as [[c' t]|] eqn:D; [|discriminate]. destruct (cls_match c c') eqn:E; [|discriminate].
    do 3 eexists. split; [econstructor; eauto|eauto].
  - apply IHa in H as (p1 & s1 & c1 & D1 & H). apply IHb in H as (p2 & s2 & c2 & D2 & H).
    do 3 eexists. split; [econstructor; eauto|eauto].
  - destruct (rmatch a k p s cs) as [y|] eqn:E.
    + inv H. apply IHa in E as (p1 & s1 & c1 & D1 & E). do 3 eexists. split; [apply D_alt_l; eauto|eauto].
    + apply IHb in H as (p1 & s1 & c1 & D1 & H). do 3 eexists. split; [apply D_alt_r; eauto|eauto].
  - remember (S (len s)) as f eqn:Ef. clear Ef. revert p s cs x H. induction f as [|f IHf]; intros p s cs x H; [discriminate|].
    rewrite star_loop_S in H.
    assert (More : forall x, rmatch a (fun p' s' cs' => if (len s' <? len s)%nat then star_loop g (rmatch a) k f p' s' cs' else None) p s cs = Some x ->
      exists p' s' cs', derives (RStar g a) p s cs p' s' cs' /\ k p' s' cs' = Some x).
    { intros y Hy. apply IHa in Hy as (p1 & s1 & c1 & D1 & Hy). destruct (len s1 <? len s) eqn:L; [|discriminate].
      apply Nat.ltb_lt in L. apply IHf in Hy as (p2 & s2 & c2 & D2 & Hy). do 3 eexists. split; [eapply D_star_more; eauto|eauto]. }
    destruct g.
    + destruct (rmatch a _ p s cs) as [y|] eqn:E; [inv H; auto|]. do 3 eexists. split; [apply D_star_done|eauto].
    + destruct (k p s cs) as [y|] eqn:E; [inv H; do 3 eexists; split; [apply D_star_done|eauto]|]. auto.
  - apply IHa in H as (p1 & s1 & c1 & D1 & H). do 3 eexists. split; [econstructor; eauto|eauto].
  - destruct (p =? 0) eqn:E; [|discriminate]. apply Nat.eqb_eq in E. subst. do 3 eexists. split; [constructor|eauto].
  - destruct s; [|discriminate]. do 3 eexists. split; [constructor|eauto].
Qed.

(** A derivation consumes a prefix of the remaining text and only adds captures lying in what it consumed. *)
Definition caps_in (p p' : nat) (new : caps) := forall n i j, In (n, (i, j)) new -> (p <= i /\ i <= j /\ j <= p').

Lemma caps_in_app p p' a b : caps_in p p' (a ++ b) <-> caps_in p p' a /\ caps_in p p' b.
Proof.
  unfold caps_in. split.
  - intros H. split; intros n i j Hi; apply (H n); apply in_app_iff; auto.
  - intros [H1 H2] n i j Hi. apply in_app_iff in Hi as [Hi|Hi]; eauto.
Qed.
Lemma caps_in_weaken p q p' q' a : caps_in p p' a -> q <= p -> p' <= q' -> caps_in q q' a.
Proof. unfold caps_in. intros H L1 L2 n i j Hi. specialize (H _ _ _ Hi). lia. Qed.

Lemma caps_in_nil p p' : caps_in p p' [].
Proof. intros ? ? ? []. Qed.
Local Hint Resolve caps_in_nil : core.
Lemma derives_consumes r p s cs p' s' cs' : derives r p s cs p' s' cs' ->
  exists w new, s = w ++ s' /\ p' = p + length w /\ cs' = new ++ cs /\ caps_in p p' new.
Proof.
  induction 1 as [p s cs|k c p s t cs D M|a b p s cs p1 s1 c1 p2 s2 c2 D1 IH1 D2 IH2|a b p s cs p' s' cs' D IH|a b p s cs p' s' cs' D IH
    |g a p s cs|g a p s cs p1 s1 c1 p2 s2 c2 D1 IH1 L D2 IH2|n a p s cs p' s' cs' D IH|s cs|p cs].
  - exists [], []. simpl. split; [|split; [|split]]; auto.
  - apply decode_rune_spec in D as (w & -> & Hw & _). exists w, []. unfold len. rewrite app_length. split; [|split; [|split]]; auto; unfold len; lia.
  - destruct IH1 as (w1 & n1 & -> & -> & -> & C1). destruct IH2 as (w2 & n2 & -> & -> & -> & C2).
    exists (w1 ++ w2), (n2 ++ n1). rewrite app_length, !app_assoc. split; [|split; [|split]]; auto; [lia|].
    apply caps_in_app. split; eapply caps_in_weaken; eauto; lia.
  - destruct IH as (w & n & H). exists w, n. auto.
  - destruct IH as (w & n & H). exists w, n. auto.
  - exists [], []. simpl. split; [|split; [|split]]; auto.
  - destruct IH1 as (w1 & n1 & -> & -> & -> & C1). destruct IH2 as (w2 & n2 & -> & -> & -> & C2).
    exists (w1 ++ w2), (n2 ++ n1). rewrite app_length, !app_assoc. split; [|split; [|split]]; auto; [lia|].
    apply caps_in_app. split; eapply caps_in_weaken; eauto; lia.
  - destruct IH as (w & l & -> & -> & -> & C). exists w, ((n, (p, p + length w)) :: l). split; [|split; [|split]]; auto.
    intros m i j [Hi|Hi]; [inv Hi; lia|]. apply (C m); auto.
  - exists [], []. simpl. split; [|split; [|split]]; auto.
  - exists [], []. simpl. split; [|split; [|split]]; auto.
Qed.
Lemma derives_len r p s cs p' s' cs' : derives r p s cs p' s' cs' -> p + len s = p' + len s' /\ len s' <= len s.
Proof. intros H. apply derives_consumes in H as (w & n & -> & -> & _). unfold len. rewrite app_length. lia. Qed.

Lemma rmatch_complete r : forall p s cs p' s' cs', derives r p s cs p' s' cs' ->
  forall k, k p' s' cs' <> None -> rmatch r k p s cs <> None.
Proof.
  induction r as [|c|a IHa b IHb|a IHa b IHb|g a IHa|n a IHa| |]; intros p s cs p' s' cs' D k K; [| | | |rewrite rmatch_star| | |]; cbn [rmatch].
  - inv D. auto.
  - inv D. match goal with H : decode_rune s = _ |- _ => rewrite H end. match goal with H : cls_match _ _ = _ |- _ => rewrite H end. auto.
  - inv D. eapply IHa; eauto; cbn beta; eapply IHb; eauto.
  - destruct (rmatch a k p s cs) eqn:E; [discriminate|]. inv D; [exfalso; eapply IHa; eauto|eapply IHb; eauto].
  - assert (G : forall f p s cs, derives (RStar g a) p s cs p' s' cs' -> len s < f -> star_loop g (rmatch a) k f p s cs <> None).
    { clear p s cs D. induction f as [|f IHf]; intros p s cs D L; [lia|]. rewrite star_loop_S.
      assert (More : forall p1 s1 cs1, derives a p s cs p1 s1 cs1 -> len s1 < len s -> derives (RStar g a) p1 s1 cs1 p' s' cs' ->
         rmatch a (fun p' s' cs' => if (len s' <? len s)%nat then star_loop g (rmatch a) k f p' s' cs' else None) p s cs <> None).
      { intros p1 s1 c1 D1 L1 D2. eapply IHa; eauto. cbn beta. apply Nat.ltb_lt in L1 as L1'. rewrite L1'. apply IHf; auto. lia. }
      destruct g.
      - destruct (rmatch a _ p s cs) eqn:E; [discriminate|]. inv D; auto. exfalso. eapply More; eauto.
      - destruct (k p s cs) eqn:E; [discriminate|]. inv D; [congruence|]. eapply More; eauto. }
    apply G; auto.
  - inv D. eapply IHa; eauto.
  - inv D. rewrite Nat.eqb_refl. auto.
  - inv D. auto.
Qed.

(** * Search *)
Lemma rmatch_final r p s : forall e cs, rmatch r final p s [] = Some (e, cs) ->
  exists s', derives r p s [] e s' cs.
Proof.
  intros e cs H. apply rmatch_sound in H as (p' & s' & cs' & D & H). unfold final in H. inv H. eauto.
Qed.

(** What a successful search returns. *)
Lemma search_sound f r : forall p s m, search f r p s = Some m ->
  exists i w, boundary s i /\ m_start m = p + i /\ derives r (p + i) (skipn i s) [] (m_end m) w (m_caps m) /\ i <= length s.
Proof.
  induction f as [|f IH]; intros p s m H; cbn [search] in H; destruct (rmatch r final p s []) as [[e cs]|] eqn:E; try discriminate.
  1,2: inv H; apply rmatch_final in E as (s' & E); exists 0, s'; rewrite Nat.add_0_r; repeat split; auto; try constructor; lia.
  destruct (decode_rune s) as [[c t]|] eqn:D; [|discriminate]. apply IH in H as (i & w & B & M & Dv & L).
  exists (len s - len t + i), w. pose proof (decode_rune_spec _ _ _ D) as (u & -> & U & _).
  unfold len in *. rewrite app_length in *. replace (length u + length t - length t) with (length u) in * by lia.
  split.
  { replace (length u + i) with (len (u ++ t) - len t + i) by (unfold len; rewrite app_length; lia). econstructor; eauto. }
  rewrite Nat.add_assoc, skipn_app, skipn_all2 by lia. replace (length u + i - length u) with i by lia. simpl.
  repeat split; auto. lia.
Qed.

(** No match at an earlier boundary (leftmost), and none anywhere when the search fails. *)
Lemma search_leftmost f r : forall p s m, length s <= f -> search f r p s = Some m ->
  forall i e w cs, boundary s i -> p + i < m_start m -> ~ derives r (p + i) (skipn i s) [] e w cs.
Proof.
  induction f as [|f IH]; intros p s m L H i e w cs B I D; cbn [search] in H; destruct (rmatch r final p s []) as [[e' cs']|] eqn:E; try discriminate.
  1,2: inv H; simpl in I; lia.
  destruct (decode_rune s) as [[c t]|] eqn:Dc; [|discriminate].
  inv B.
  - simpl in D. rewrite Nat.add_0_r in D. eapply (rmatch_complete _ _ _ _ _ _ _ D final) in E; auto. discriminate.
  - rewrite Dc in H0. inv H0. pose proof (decode_rune_spec _ _ _ Dc) as (u & -> & U & _). unfold len in *. rewrite app_length in *.
    replace (length u + length t0 - length t0) with (length u) in * by lia.
    refine (IH _ _ _ _ H i0 e w cs H1 _ _); [lia|lia|].
    rewrite skipn_app, skipn_all2 in D by lia. replace (length u + i0 - length u) with i0 in D by lia. simpl in D.
    rewrite <- Nat.add_assoc. exact D.
Qed.
Lemma search_none f r : forall p s, length s <= f -> search f r p s = None ->
  forall i e w cs, boundary s i -> ~ derives r (p + i) (skipn i s) [] e w cs.
Proof.
  induction f as [|f IH]; intros p s L H i e w cs B D; cbn [search] in H; destruct (rmatch r final p s []) as [[e' cs']|] eqn:E; try discriminate.
  - destruct s; [|simpl in L; lia]. inv B; [|discriminate]. simpl in D. rewrite Nat.add_0_r in D.
    eapply (rmatch_complete _ _ _ _ _ _ _ D final) in E; auto. discriminate.
  - destruct (decode_rune s) as [[c t]|] eqn:Dc.
    + inv B.
      * simpl in D. rewrite Nat.add_0_r in D. eapply (rmatch_complete _ _ _ _ _ _ _ D final) in E; auto. discriminate.
      * rewrite Dc in H0. inv H0. pose proof (decode_rune_spec _ _ _ Dc) as (u & -> & U & _). unfold len in *. rewrite app_length in *.
        replace (length u + length t0 - length t0) with (length u) in * by lia.
        refine (IH _ _ _ H i0 e w cs H1 _); [lia|].
        rewrite skipn_app, skipn_all2 in D by lia. replace (length u + i0 - length u) with i0 in D by lia. simpl in D.
        rewrite <- Nat.add_assoc. exact D.
    + apply decode_rune_none in Dc. subst. inv B; [|discriminate]. simpl in D. rewrite Nat.add_0_r in D.
      eapply (rmatch_complete _ _ _ _ _ _ _ D final) in E; auto. discriminate.
Qed.

Lemma find_from_sound x s p m : p <= length s -> find_from x s p = Some m ->
  p <= m_start m /\ m_start m <= m_end m /\ m_end m <= length s /\
  derives (re_ast x) (m_start m) (skipn (m_start m) s) [] (m_end m) (skipn (m_end m) s) (m_caps m) /\
  caps_in (m_start m) (m_end m) (m_caps m).
Proof.
  intros Lp H. unfold find_from in H. apply search_sound in H as (i & w & B & M & D & L).
  pose proof (derives_consumes _ _ _ _ _ _ _ D) as (u & new & E & E2 & E3 & C). rewrite app_nil_r in E3. subst new.
  rewrite skipn_add, M in *. assert (E' := E). apply (f_equal (@length N)) in E'. rewrite app_length, skipn_length in E'.
  rewrite skipn_length in L.
  assert (W : w = skipn (m_end m) s).
  { rewrite E2, <- skipn_add, E, skipn_app, skipn_all, Nat.sub_diag. reflexivity. }
  rewrite <- W. split; [lia|]. split; [lia|]. split; [lia|]. auto.
Qed.
Lemma re_find_sound x s m : re_find x s = Some m ->
  m_start m <= m_end m /\ m_end m <= length s /\
  derives (re_ast x) (m_start m) (skipn (m_start m) s) [] (m_end m) (skipn (m_end m) s) (m_caps m) /\
  caps_in (m_start m) (m_end m) (m_caps m).
Proof. intros H. apply find_from_sound in H as (_ & H); [auto|lia]. Qed.

(** MatchString is exactly "some derivation starts at some rune boundary". *)
Lemma re_match_iff x s : re_match x s = true <->
  exists i e w cs, boundary s i /\ derives (re_ast x) i (skipn i s) [] e w cs.
Proof.
  unfold re_match, re_find, find_from. simpl. rewrite Nat.sub_0_r. split.
  - destruct (search (len s) (re_ast x) 0 s) as [m|] eqn:E; [|discriminate]. intros _.
    apply search_sound in E as (i & w & B & M & D & L). exists i, (m_end m), w, (m_caps m). auto.
  - intros (i & e & w & cs & B & D). destruct (search (len s) (re_ast x) 0 s) as [m|] eqn:E; [reflexivity|].
    exfalso. eapply search_none with (i := i) in E; eauto.
Qed.

(** * Captures of a match lie inside it *)
Lemma group_in m n i j : caps_in (m_start m) (m_end m) (m_caps m) -> m_start m <= m_end m -> group m n = Some (i, j) ->
  m_start m <= i /\ i <= j /\ j <= m_end m.
Proof.
  intros C L H. destruct n; simpl in H; [inv H; lia|]. apply (C (S n)).
  eapply assoc_In; [|exact H]. intros; apply Nat.eqb_eq.
Qed.

(** * Which runes a match can consume *)
Fixpoint consumes_only (P : N -> Prop) (r : regex) : Prop :=
  match r with
  | REmpty | RBegin | REnd => True
  | RClass k => forall c, cls_match k c = true -> P c
  | RCat a b | RAlt a b => consumes_only P a /\ consumes_only P b
  | RStar _ a | RGroup _ a => consumes_only P a
  end.

Lemma decode_rune_self w t c : decode_rune (w ++ t) = Some (c, t) -> decode_rune w = Some (c, []).
Proof.
  intros H. pose proof (decode_rune_spec _ _ _ H) as (u & E & U & S & _). apply app_inv_tail in E. subst u.
  destruct w as [|b0 w]; [simpl in U; lia|]. cbn [decode_rune app] in *.
  assert (LW : length w <= 3) by (simpl in U; lia).
  destruct (b0 <? 128)%N. { inv H. destruct w; [reflexivity|]. apply (f_equal (@length N)) in H2. rewrite app_length in H2. simpl in H2. lia. }
  assert (Bad : forall x, Some (rune_error, w ++ t) = Some (x, t) -> w = [] /\ x = rune_error).
  { intros x Hx. inv Hx. split; auto. destruct w; auto. apply (f_equal (@length N)) in H2. rewrite app_length in H2. simpl in H2. lia. }
  assert (Nil : forall u : bytes, u ++ t = t -> u = []).
  { intros u Hu. destruct u; auto. apply (f_equal (@length N)) in Hu. rewrite app_length in Hu. simpl in Hu. lia. }
  destruct (in_rng 194 223 b0).
  { destruct w as [|b1 w]; simpl in H.
    - destruct t as [|b1 t]; [inv H; reflexivity|]. destruct (in_rng 128 191 b1); [|inv H; reflexivity].
      inv H. apply (f_equal (@length N)) in H2. simpl in H2. lia.
    - destruct (in_rng 128 191 b1); [|apply Bad in H as [H _]; discriminate]. inversion H as [[H1 H2]]. apply Nil in H2. subst. reflexivity. }
  destruct (in_rng 224 239 b0).
  { destruct w as [|b1 [|b2 w]]; simpl in H.
    - destruct t as [|b1 [|b2 t]]; try (inv H; reflexivity). destruct (_ && _); [|inv H; reflexivity].
      inv H. apply (f_equal (@length N)) in H2. simpl in H2. lia.
    - destruct t as [|b2 t]; [apply Bad in H as [H _]; discriminate|]. destruct (_ && _); [|apply Bad in H as [H _]; discriminate].
      inv H. apply (f_equal (@length N)) in H2. simpl in H2. lia.
    - destruct (_ && _); [|apply Bad in H as [H _]; discriminate]. inversion H as [[H1 H2]]. apply Nil in H2. subst. reflexivity. }
  destruct (in_rng 240 244 b0); [|apply Bad in H as [-> ->]; reflexivity].
  destruct w as [|b1 [|b2 [|b3 w]]]; simpl in H.
  - destruct t as [|b1 [|b2 [|b3 t]]]; try (inv H; reflexivity). destruct (_ && _); [|inv H; reflexivity].
    inv H. apply (f_equal (@length N)) in H2. simpl in H2. lia.
  - destruct t as [|b2 [|b3 t]]; try (apply Bad in H as [H _]; discriminate). destruct (_ && _); [|apply Bad in H as [H _]; discriminate].
    inv H. apply (f_equal (@length N)) in H2. simpl in H2. lia.
  - destruct t as [|b3 t]; try (apply Bad in H as [H _]; discriminate). destruct (_ && _); [|apply Bad in H as [H _]; discriminate].
    inv H. apply (f_equal (@length N)) in H2. simpl in H2. lia.
  - destruct (_ && _); [|apply Bad in H as [H _]; discriminate]. inversion H as [[H1 H2]]. apply Nil in H2. subst. reflexivity.
Qed.
