(** Facts about the text matcher: progress, order, work and the absence of panics. *)
From Verif Require Import Base BaseFacts Utf8 Utf8Facts Regex RegexSpec RegexFacts LangFacts Consts Types Normalize Validate Format Parse Matcher MetaSpec MatcherSpec AytfFacts.
From Coq Require Import Sorting.Sorted.
Local Opaque re_find re_find_all re_match.

(** * What the patterns can match *)
Fixpoint nullable (r : regex) : bool :=
  match r with
  | REmpty | RBegin | REnd | RStar _ _ => true
  | RClass _ => false
  | RCat a b => nullable a && nullable b
  | RAlt a b => nullable a || nullable b
  | RGroup _ a => nullable a
  end.
Lemma lang_nullable r w : lang r w -> w = [] -> nullable r = true.
Proof.
  induction 1; cbn [nullable]; intros E; auto; try discriminate.
  - apply app_eq_nil in E as [-> ->]. rewrite IHlang1, IHlang2; auto.
  - rewrite IHlang; auto.
  - rewrite IHlang; auto. apply orb_true_r.
Qed.
(** No word of the expression begins with c. *)
Fixpoint never_first (c : N) (r : regex) : bool :=
  match r with
  | REmpty | RBegin | REnd => true
  | RClass k => negb (cls_match k c)
  | RCat a b => never_first c a && (negb (nullable a) || never_first c b)
  | RAlt a b => never_first c a && never_first c b
  | RStar _ a | RGroup _ a => never_first c a
  end.
Lemma never_first_ok c r w : lang r w -> never_first c r = true -> forall t, w <> c :: t.
Proof.
  induction 1 as [|k d M|a b v w L1 IH1 L2 IH2|a b w L IH|a b w L IH|g a|g a v w L1 IH1 L2 IH2|n a w L IH| |]; cbn [never_first]; intros F t E; try discriminate.
  - inversion E; subst. rewrite M in F. discriminate.
  - apply andb_true_iff in F as [F1 F2]. destruct v as [|x v].
    + rewrite (lang_nullable _ _ L1 eq_refl) in F2. exact (IH2 F2 t E).
    + inversion E; subst. exact (IH1 F1 v eq_refl).
  - apply andb_true_iff in F as [F1 F2]. exact (IH F1 t E).
  - apply andb_true_iff in F as [F1 F2]. exact (IH F2 t E).
  - destruct v as [|x v]; [exact (IH2 F t E)|]. inversion E; subst. exact (IH1 F v eq_refl).
  - exact (IH F t E).
Qed.
(** In no word of the expression does b come after a. *)
Fixpoint never_after (x y : N) (r : regex) : bool :=
  match r with
  | REmpty | RBegin | REnd | RClass _ => true
  | RCat a b => never_after x y a && never_after x y b && (avoids x a || avoids y b)
  | RAlt a b => never_after x y a && never_after x y b
  | RStar _ a => never_after x y a && (avoids x a || avoids y a)
  | RGroup _ a => never_after x y a
  end.
Definition not_after (x y : N) (w : list N) : Prop := forall a b, w = a ++ x :: b -> ~ In y b.
Lemma not_after_app x y v w : not_after x y v -> not_after x y w -> (~ In x v \/ ~ In y w) -> not_after x y (v ++ w).
Proof.
  intros V W O a b E I. revert v V O E. induction a as [|z a IH]; intros v V O E.
  - destruct v as [|u v]; [simpl in E; exact (W [] b E I)|]. simpl in E. inversion E; subst. apply in_app_or in I. destruct I as [I|I]; [exact (V [] v eq_refl I)|]. destruct O as [O|O]; [apply O; left; auto|auto].
  - destruct v as [|u v]; [simpl in E; exact (W (z :: a) b E I)|]. simpl in E. inversion E; subst. apply (IH v); auto.
    + intros a' b' E' I'. apply (V (z :: a') b'); [rewrite E'; reflexivity|auto].
    + destruct O as [O|O]; [left; intros K; apply O; right; auto|auto].
Qed.
Lemma never_after_ok x y r w : lang r w -> never_after x y r = true -> not_after x y w.
Proof.
  assert (N0 : not_after x y []) by (intros a b E; destruct a; discriminate).
  induction 1 as [|k d M|a b v w L1 IH1 L2 IH2|a b w L IH|a b w L IH|g a|g a v w L1 IH1 L2 IH2|n a w L IH| |]; cbn [never_after]; intros F; auto.
  - intros a b E. destruct a as [|z [|]]; inversion E; subst; simpl; tauto.
  - rewrite !andb_true_iff, orb_true_iff in F. destruct F as [[F1 F2] F3]. apply not_after_app; auto. destruct F3 as [F3|F3]; [left|right]; eapply avoids_ok; eauto.
  - apply andb_true_iff in F as [F1 F2]. auto.
  - apply andb_true_iff in F as [F1 F2]. auto.
  - assert (F' := F). apply andb_true_iff in F as [F1 F2]. apply not_after_app; auto. apply orb_true_iff in F2 as [F2|F2]; [left; eapply avoids_ok; eauto|right].
    intros I. assert (L2' := L2). eapply (avoids_ok y (RStar g a)); eauto.
Qed.

Lemma matcher_never : negb (nullable (re_ast phoneNumberMatcherPattern)) && never_first 47 (re_ast phoneNumberMatcherPattern) && never_first 92 (re_ast phoneNumberMatcherPattern)
  && never_after 59 45 (re_ast phoneNumberMatcherPattern) = true.
Proof. vm_compute. reflexivity. Qed.

(** Reading a piece of text that ends where a rune of the longer text ends. *)
Lemma decode_cut v u t c : decode_rune (v ++ u ++ t) = Some (c, u ++ t) -> decode_rune (v ++ u) = Some (c, u).
Proof.
  intros H. pose proof (decode_rune_spec _ _ _ H) as (x & E & U & _). apply app_inv_tail in E. subst x. clear U.
  assert (Len : forall (a b : bytes), a = b -> length a = length b) by (intros; subst; auto).
  destruct v as [|b0 v]; [apply decode_rune_lt in H; simpl in H; lia|].
  assert (Bad : Some (rune_error, v ++ u ++ t) = Some (c, u ++ t) -> Some (rune_error, v ++ u) = Some (c, u)).
  { intros Hx. injection Hx as <- E. apply Len in E. rewrite app_length in E. destruct v; [reflexivity|simpl in E; lia]. }
  cbn [decode_rune app] in *. destruct (b0 <? 128)%N. { injection H as <- E. apply Len in E. rewrite app_length in E. destruct v; [reflexivity|simpl in E; lia]. }
  destruct (in_rng 194 223 b0).
  { destruct v as [|b1 v]; cbn [app] in *.
    - destruct u as [|b1 u]; cbn [app] in *; [destruct t as [|b1 t]; [auto|]; destruct (in_rng 128 191 b1); auto; injection H as _ E; apply Len in E; simpl in E; lia|].
      destruct (in_rng 128 191 b1); auto. injection H as _ E. apply Len in E. simpl in E. lia.
    - destruct (in_rng 128 191 b1); auto. injection H as <- E. apply Len in E. rewrite app_length in E. destruct v; [reflexivity|simpl in E; lia]. }
  destruct (in_rng 224 239 b0).
  { destruct v as [|b1 [|b2 v]]; cbn [app] in *.
    - destruct u as [|b1 [|b2 u]]; cbn [app] in *; auto.
      + destruct t as [|b1 [|b2 t]]; auto.  destruct (_ && _); auto. injection H as _ E. apply Len in E. simpl in E. lia.
      + destruct t as [|b2 t]; auto.  destruct (_ && _); auto. injection H as _ E. apply Len in E. simpl in E. lia.
      + destruct (_ && _); auto. injection H as _ E. apply Len in E. simpl in E. rewrite app_length in E. simpl in E. lia.
    - destruct u as [|b2 u]; cbn [app] in *.
      + destruct t as [|b2 t]; [apply Bad in H; discriminate|]. destruct (_ && _); [|apply Bad in H; discriminate]. injection H as _ E. apply Len in E. simpl in E. lia.
      + destruct (_ && _); auto. injection H as _ E. apply Len in E. simpl in E. lia.
    - destruct (_ && _); auto. injection H as <- E. apply Len in E. rewrite app_length in E. destruct v; [reflexivity|simpl in E; lia]. }
  destruct (in_rng 240 244 b0); [|auto].
  destruct v as [|b1 [|b2 [|b3 v]]]; cbn [app] in *.
  - destruct u as [|b1 [|b2 [|b3 u]]]; cbn [app] in *.
    + destruct t as [|b1 [|b2 [|b3 t]]]; auto. destruct (_ && _); auto. injection H as _ E. apply Len in E. simpl in E. lia.
    + destruct t as [|b2 [|b3 t]]; auto. destruct (_ && _); auto. injection H as _ E. apply Len in E. simpl in E. lia.
    + destruct t as [|b3 t]; auto. destruct (_ && _); auto. injection H as _ E. apply Len in E. simpl in E. lia.
    + destruct (_ && _); auto. injection H as _ E. apply Len in E. simpl in E. lia.
  - destruct u as [|b2 [|b3 u]]; cbn [app] in *.
    + destruct t as [|b2 [|b3 t]]; try (apply Bad in H; discriminate). destruct (_ && _); [|apply Bad in H; discriminate]. injection H as _ E. apply Len in E. simpl in E. lia.
    + destruct t as [|b3 t]; auto. destruct (_ && _); auto. injection H as _ E. apply Len in E. simpl in E. lia.
    + destruct (_ && _); auto. injection H as _ E. apply Len in E. simpl in E. lia.
  - destruct u as [|b3 u]; cbn [app] in *.
    + destruct t as [|b3 t]; [apply Bad in H; discriminate|]. destruct (_ && _); [|apply Bad in H; discriminate]. injection H as _ E. apply Len in E. simpl in E. lia.
    + destruct (_ && _); auto. injection H as _ E. apply Len in E. simpl in E. lia.
  - destruct (_ && _); auto. injection H as <- E. apply Len in E. rewrite app_length in E. destruct v; [reflexivity|simpl in E; lia].
Qed.
Lemma eats_suffix s w t : eats s w t -> exists u, s = u ++ t.
Proof.
  induction 1 as [s|s c s1 w t D E IH]; [exists []; auto|]. destruct IH as (u & ->). apply decode_rune_spec in D as (v & -> & _). exists (v ++ u). apply app_assoc.
Qed.
Lemma eats_cut s w t : eats s w t -> forall u, s = u ++ t -> eats u w [].
Proof.
  induction 1 as [s|s c s1 w t D E IH]; intros u Eu.
  - assert (u = []) as -> by (destruct u; [reflexivity|]; apply (f_equal (@length N)) in Eu; rewrite app_length in Eu; simpl in Eu; lia). constructor.
  - pose proof (eats_suffix _ _ _ E) as (u1 & ->). pose proof (decode_rune_spec _ _ _ D) as (v & Ev & _). subst s.
    rewrite app_assoc in Ev. apply app_inv_tail in Ev. subst u. rewrite <- app_assoc in D. apply decode_cut in D. econstructor; [exact D|]. apply IH. reflexivity.
Qed.
Lemma decode_bytes s c t : decode_rune s = Some (c, t) -> exists v, s = v ++ t /\ ((v = [c] /\ (c < 128)%N) \/ Forall (fun b => (128 <= b)%N) v).
Proof.
  intros D. destruct s as [|b0 s]; [discriminate|]. cbn [decode_rune] in D.
  destruct (b0 <? 128)%N eqn:B. { injection D as <- <-. exists [b0]. split; auto. left. split; auto. apply N.ltb_lt. auto. }
  apply N.ltb_ge in B. assert (Bad : s = t -> exists v, b0 :: s = v ++ t /\ ((v = [c] /\ (c < 128)%N) \/ Forall (fun b => (128 <= b)%N) v)).
  { intros <-. exists [b0]. split; auto. }
  destruct (in_rng 194 223 b0).
  { destruct s as [|b1 s]; [injection D as _ <-; auto|]. destruct (in_rng 128 191 b1) eqn:R1; [|injection D as _ <-; auto]. injection D as _ <-. apply in_rng_iff in R1. exists [b0; b1]. split; auto. right. repeat constructor; lia. }
  destruct (in_rng 224 239 b0).
  { destruct s as [|b1 [|b2 s]]; [injection D as _ <-; auto|injection D as _ <-; auto|]. destruct (_ && _) eqn:R1; [|injection D as _ <-; auto]. injection D as _ <-.
    apply andb_true_iff in R1 as [R1 R2]. apply in_rng_iff in R1, R2. exists [b0; b1; b2]. split; auto. right. repeat constructor; try lia. destruct (b0 =? 224)%N; lia. }
  destruct (in_rng 240 244 b0); [|injection D as _ <-; auto].
  destruct s as [|b1 [|b2 [|b3 s]]]; try (injection D as _ <-; auto; fail). destruct (_ && _) eqn:R1; [|injection D as _ <-; auto]. injection D as _ <-.
  rewrite !andb_true_iff in R1. destruct R1 as [[R1 R2] R3]. apply in_rng_iff in R1, R2, R3. exists [b0; b1; b2; b3]. split; auto. right. repeat constructor; try lia. destruct (b0 =? 240)%N; lia.
Qed.
Lemma eats_in s w t : eats s w t -> forall u b, s = u ++ t -> (b < 128)%N -> In b u -> In b w.
Proof.
  induction 1 as [s|s c s1 w t D E IH]; intros u b Eu L I.
  - assert (u = []) as -> by (destruct u; [reflexivity|]; apply (f_equal (@length N)) in Eu; rewrite app_length in Eu; simpl in Eu; lia). exact I.
  - pose proof (eats_suffix _ _ _ E) as (u1 & Eu1). apply decode_bytes in D as (v & Ev & V). rewrite Eu, Eu1, app_assoc in Ev. apply app_inv_tail in Ev. rewrite Ev in I.
    apply in_app_or in I as [I|I]; [|right; apply (IH u1); auto]. destruct V as [[-> _]|V]; [destruct I as [->|[]]; left; auto|]. rewrite Forall_forall in V. specialize (V _ I). lia.
Qed.
Lemma eats_not_after s w t x y : eats s w t -> forall u, s = u ++ t -> (x < 128)%N -> (y < 128)%N -> not_after x y w -> not_after x y u.
Proof.
  induction 1 as [s|s c s1 w t D E IH]; intros u Eu Lx Ly NA.
  - assert (u = []) as -> by (destruct u; [reflexivity|]; apply (f_equal (@length N)) in Eu; rewrite app_length in Eu; simpl in Eu; lia). intros a b. destruct a; discriminate.
  - pose proof (eats_suffix _ _ _ E) as (u1 & Eu1). apply decode_bytes in D as (v & Ev & V). rewrite Eu, Eu1, app_assoc in Ev. apply app_inv_tail in Ev. subst u.
    assert (NA1 : not_after x y w). { intros a b -> I. apply (NA (c :: a) b); auto. }
    apply not_after_app; [|apply (IH u1); auto|].
    + destruct V as [[-> _]|V]; intros a b Ea I.
      * destruct a as [|? [|]]; inversion Ea; subst; destruct I.
      * rewrite Forall_forall in V. assert (In x v) by (rewrite Ea; apply in_or_app; right; left; auto). specialize (V _ H). lia.
    + destruct V as [[-> _]|V].
      * destruct (N.eq_dec c x) as [->|NE]; [right|left; intros [K|[]]; congruence]. intros I. apply (NA [] w eq_refl). eapply eats_in; eauto.
      * left. intros I. rewrite Forall_forall in V. specialize (V _ I). lia.
Qed.
Lemma not_after_infix x y a s b : not_after x y (a ++ s ++ b) -> not_after x y s.
Proof. intros H u v -> I. apply (H (a ++ u) (v ++ b)); [rewrite <- !app_assoc; reflexivity|apply in_or_app; auto]. Qed.

(** * Pieces of the text *)
Local Open Scope nat_scope.
Lemma occurs_bound text s i : occurs text s i -> i + length s <= length text.
Proof. intros (a & b & -> & <-). rewrite !app_length. lia. Qed.
Lemma occurs_sub text s i : occurs text s i -> sub text i (i + length s) = s.
Proof. intros (a & b & -> & <-). apply sub_app_r. Qed.
Lemma sub_occurs text i j : i <= j -> j <= length text -> occurs text (sub text i j) i.
Proof.
  intros L1 L2. exists (firstn i text), (skipn j text). split; [|apply firstn_length_le; lia]. unfold sub.
  rewrite <- (firstn_skipn i text) at 1. f_equal. rewrite <- (firstn_skipn (j - i) (skipn i text)) at 1. f_equal. rewrite skipn_add. f_equal. lia.
Qed.
Lemma occurs_trans text s i u j : occurs text s i -> occurs s u j -> occurs text u (i + j).
Proof. intros (a & b & -> & <-) (a' & b' & -> & <-). exists (a ++ a'), (b' ++ b). split; [rewrite <- !app_assoc; auto|apply app_length]. Qed.
Lemma occurs_self s : occurs s s 0.
Proof. exists [], []. split; auto. simpl. rewrite app_nil_r. auto. Qed.
Lemma trim_occurs x s : occurs s (trimAfterFirstMatch x s) 0.
Proof.
  unfold trimAfterFirstMatch. destruct (re_find x s) as [m|] eqn:E; [|apply occurs_self]. apply re_find_sound in E as (L1 & L2 & _). apply sub_occurs; lia.
Qed.

(** * The candidate that a round of the search looks at *)
Lemma second_first w : lang (re_ast secondNumberStartPattern) w -> exists c t, w = c :: t /\ (c = 47 \/ c = 92)%N.
Proof.
  intros L. unfold secondNumberStartPattern in L. cbn [re_ast] in L. inversion L as [| |a b v u L1 L2 E1 E2| | | | | | |]; subst. inversion L1 as [|k c K| | | | | | | |]; subst.
  exists c, u. split; [reflexivity|]. unfold cls_match, items_match in K. cbn [cfold cneg citems existsb citem_match] in K. rewrite !orb_true_iff, !in_rng_iff in K. lia.
Qed.
Lemma eats_det s v t : eats s v t -> forall w, eats s w [] -> exists u, w = v ++ u.
Proof. intros E w W. apply eats_runes in E, W. rewrite W in E. change (runes []) with (@nil N) in E. rewrite app_nil_r in E. eauto. Qed.
Lemma eats_skip s i j w : i <= j -> j <= length s -> eats (skipn i s) w (skipn j s) -> eats (sub s i j) w [].
Proof.
  intros L1 L2 E. eapply eats_cut; [exact E|]. rewrite <- (sub_to_end s i), <- (sub_to_end s j). apply sub_split; lia.
Qed.
Lemma candidate_ok s loc : re_find phoneNumberMatcherPattern s = Some loc ->
  m_start loc <= m_end loc <= length s /\
  exists c0 c1, trimAfterFirstMatch secondNumberStartPattern (sub s (m_start loc) (m_end loc)) = c0 :: c1 /\ not_after 59 45 (c0 :: c1).
Proof.
  intros F. apply re_find_sound in F as (L1 & L2 & D & _). split; [lia|]. apply derives_lang in D as (w & E & L).
  apply eats_skip in E; [|lia|lia]. pose proof matcher_never as MN. rewrite !andb_true_iff, negb_true_iff in MN. destruct MN as [[[M1 M2] M3] M4].
  set (cand := sub s (m_start loc) (m_end loc)) in *. clearbody cand.
  assert (NA : not_after 59 45 cand). { eapply eats_not_after; [exact E|rewrite app_nil_r; reflexivity|reflexivity|reflexivity|]. eapply never_after_ok; eauto. }
  pose proof (trim_occurs secondNumberStartPattern cand) as (a & b & Ec & La). destruct a; [|discriminate]. cbn [app] in Ec.
  assert (NE : trimAfterFirstMatch secondNumberStartPattern cand <> []).
  { unfold trimAfterFirstMatch. assert (cand <> []). { intros ->. inversion E; subst; [|discriminate]. rewrite (lang_nullable _ _ L eq_refl) in M1. discriminate. }
    destruct (re_find secondNumberStartPattern cand) as [m|] eqn:F; [|auto]. apply re_find_sound in F as (K1 & K2 & D & _). destruct (m_start m) as [|k] eqn:Em.
    - exfalso. apply derives_lang in D as (v & Ev & Lv). cbn [skipn] in Ev. destruct (eats_det _ _ _ Ev _ E) as (u & ->). apply second_first in Lv as (c & t & -> & C).
      destruct C as [-> | ->]; [eapply never_first_ok in M2; [|exact L]|eapply never_first_ok in M3; [|exact L]]; [apply M2|apply M3]; reflexivity.
    - intros K. apply (f_equal (@length N)) in K. rewrite sub_length in K by lia. simpl in K. lia. }
  destruct (trimAfterFirstMatch secondNumberStartPattern cand) as [|c0 c1]; [congruence|]. exists c0, c1. split; auto. rewrite Ec in NA. apply (not_after_infix _ _ [] _ b) in NA. exact NA.
Qed.
Lemma not_after_occurs x y s u i : occurs s u i -> not_after x y s -> not_after x y u.
Proof. intros (a & b & -> & _). apply not_after_infix. Qed.

(** * The inner patterns always capture their group *)
Fixpoint always_group (n : nat) (r : regex) : bool :=
  match r with
  | RGroup m a => (n =? m)%nat || always_group n a
  | RCat a b => always_group n a || always_group n b
  | RAlt a b => always_group n a && always_group n b
  | _ => false
  end.
Lemma always_group_ok n r p s cs p' s' cs' : derives r p s cs p' s' cs' -> always_group n r = true -> exists ij, In (n, ij) cs'.
Proof.
  induction 1 as [ |k c p s t cs D M|a b p s cs p1 s1 cs1 p2 s2 cs2 D1 IH1 D2 IH2|a b p s cs p' s' cs' D IH|a b p s cs p' s' cs' D IH| | |m a p s cs p' s' cs' D IH| |]; cbn [always_group]; intros G; try discriminate.
  - apply orb_true_iff in G as [G|G]; [|auto]. destruct (IH1 G) as (ij & I). exists ij. apply derives_consumes in D2 as (u & new & _ & _ & -> & _). apply in_or_app. auto.
  - apply andb_true_iff in G as [G _]. auto.
  - apply andb_true_iff in G as [_ G]. auto.
  - apply orb_true_iff in G as [G|G].
    + apply Nat.eqb_eq in G as ->. exists (p, p'). left. auto.
    + destruct (IH G) as (ij & I). exists ij. right. auto.
Qed.
Lemma inner_group : forallb (fun x => always_group 1 (re_ast x)) innerMatches = true.
Proof. vm_compute. reflexivity. Qed.
Lemma rune_width_le s pos : rune_width_at s pos <= length s - pos.
Proof.
  unfold rune_width_at. destruct (decode_rune _) as [[c u]|] eqn:D; [|lia]. apply decode_rune_spec in D as (w & E & _). apply (f_equal (@length N)) in E. rewrite app_length, skipn_length in E. unfold len. rewrite skipn_length. lia.
Qed.
Lemma all_matches_sound f x s : forall pos pe, Forall (fun m => m_start m <= m_end m /\ m_end m <= length s /\
  derives (re_ast x) (m_start m) (skipn (m_start m) s) [] (m_end m) (skipn (m_end m) s) (m_caps m) /\ caps_in (m_start m) (m_end m) (m_caps m)) (all_matches f x s pos pe).
Proof.
  induction f as [|f IH]; intros pos pe; cbn [all_matches]; [constructor|]. destruct (len s <? pos) eqn:L; [constructor|]. apply Nat.ltb_ge in L. unfold len in L.
  destruct (find_from x s pos) as [m|] eqn:F; [|constructor]. apply find_from_sound in F; [|lia]. apply Forall_app. split; [|apply IH].
  destruct (negb _); [|constructor]. constructor; [|constructor]. tauto.
Qed.
Lemma inner_find_all x s g : In x innerMatches -> In g (re_find_all x s) -> m_start g <= length s /\ exists i j, group g 1 = Some (i, j) /\ i <= j /\ j <= length s.
Proof.
  intros Ix Ig. pose proof inner_group as G. rewrite forallb_forall in G. specialize (G _ Ix). pose proof (all_matches_sound (S (S (len s))) x s 0 None) as F.
  rewrite Forall_forall in F. specialize (F _ Ig). destruct F as (L1 & L2 & D & C). split; [lia|].
  destruct (always_group_ok 1 _ _ _ _ _ _ _ D G) as ([i j] & I). destruct (group g 1) as [[i' j']|] eqn:Eg.
  - pose proof (group_in _ _ _ _ C L1 Eg). exists i', j'. split; auto. lia.
  - exfalso. cbn [group] in Eg. clear -I Eg. induction (m_caps g) as [|[k v] l IH]; [destruct I|]. cbn [assoc] in Eg. destruct I as [I|I].
    + injection I as -> ->. cbn in Eg. discriminate.
    + destruct (Nat.eqb 1 k); [discriminate|auto].
Qed.
Lemma brackets_nonempty : re_match matchingBrackets [] = false.
Proof. vm_compute. reflexivity. Qed.
