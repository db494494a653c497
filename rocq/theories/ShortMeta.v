(** The shipped short-number table is well formed, checked entry by entry in the kernel. *)
From Verif Require Import Base BaseFacts Utf8 Utf8Facts Regex RegexSpec RegexFacts Types Validate LangFacts ContextFacts MetaFacts ShortNumber ShortSpec ShortFacts ShippedShort.

Definition ucat_eqb (a b : ucat) : bool := match a, b with UNd, UNd | UN, UN | UL, UL | UZ, UZ => true | _, _ => false end.
Definition citem_eqb (a b : citem) : bool :=
  match a, b with CR x y, CR u v => (x =? u) && (y =? v) | CU u, CU v | CUneg u, CUneg v => ucat_eqb u v | _, _ => false end.
Fixpoint items_eqb (a b : list citem) : bool := match a, b with [], [] => true | x :: a, y :: b => citem_eqb x y && items_eqb a b | _, _ => false end.
Definition cls_eqb (a b : cls) : bool := Bool.eqb (cneg a) (cneg b) && items_eqb (citems a) (citems b) && Bool.eqb (cfold a) (cfold b).
Fixpoint regex_eqb (a b : regex) : bool :=
  match a, b with
  | REmpty, REmpty | RBegin, RBegin | REnd, REnd => true
  | RClass k, RClass k' => cls_eqb k k'
  | RCat a b, RCat a' b' | RAlt a b, RAlt a' b' => regex_eqb a a' && regex_eqb b b'
  | RStar g a, RStar g' a' => Bool.eqb g g' && regex_eqb a a'
  | RGroup n a, RGroup n' a' => (n =? n')%nat && regex_eqb a a'
  | _, _ => false
  end.
Lemma ucat_eqb_ok a b : ucat_eqb a b = true -> a = b.
Proof. destruct a, b; simpl; congruence. Qed.
Lemma citem_eqb_ok a b : citem_eqb a b = true -> a = b.
Proof. destruct a, b; cbn [citem_eqb]; try discriminate; [rewrite andb_true_iff, !N.eqb_eq; intros [-> ->]; reflexivity|intros H; f_equal; apply ucat_eqb_ok; auto|intros H; f_equal; apply ucat_eqb_ok; auto]. Qed.
Lemma items_eqb_ok a : forall b, items_eqb a b = true -> a = b.
Proof. induction a as [|x a IH]; intros [|y b]; cbn [items_eqb]; try discriminate; auto. rewrite andb_true_iff. intros [H1 H2]. f_equal; [apply citem_eqb_ok|apply IH]; auto. Qed.
Lemma cls_eqb_ok a b : cls_eqb a b = true -> a = b.
Proof. destruct a as [n i f], b as [n' i' f']. unfold cls_eqb. cbn [cneg citems cfold]. rewrite !andb_true_iff, !eqb_true_iff. intros [[-> H] ->]. f_equal. apply items_eqb_ok. auto. Qed.
Lemma regex_eqb_ok a : forall b, regex_eqb a b = true -> a = b.
Proof.
  induction a; intros []; cbn [regex_eqb]; try discriminate; auto; rewrite ?andb_true_iff; intros H.
  - f_equal. apply cls_eqb_ok. auto.
  - destruct H. f_equal; auto.
  - destruct H. f_equal; auto.
  - destruct H. f_equal; [apply eqb_true_iff|]; auto.
  - destruct H. f_equal; [apply Nat.eqb_eq|]; auto.
Qed.
Definition clear_b (p : bytes) : bool :=
  is_empty p || match compile p, compile (anchored p) with
                | Some x, Some y => regex_eqb (re_ast y) (RCat RBegin (RCat (re_ast x) REnd)) && anchorless (re_ast x)
                | _, _ => false
                end.
Lemma clear_b_ok p : clear_b p = true -> clear_pattern p.
Proof.
  unfold clear_b, clear_pattern. rewrite orb_true_iff. intros [H|H]; [left; destruct p; [reflexivity|discriminate]|right]. destruct (compile p) as [x|]; [|discriminate]. destruct (compile (anchored p)) as [y|]; [|discriminate].
  apply andb_true_iff in H as [H1 H2]. apply regex_eqb_ok in H1. exists x, y. auto.
Qed.

(** The lengths of the words of a repetition-free expression. *)
Fixpoint insert (n : nat) (l : list nat) : list nat :=
  match l with [] => [n] | m :: t => if (n =? m)%nat then l else if (n <? m)%nat then n :: l else m :: insert n t end.
Definition union (a b : list nat) : list nat := fold_right insert b a.
Fixpoint lens (r : regex) : option (list nat) :=
  match r with
  | REmpty | RBegin | REnd => Some [0%nat]
  | RClass _ => Some [1%nat]
  | RCat a b => match lens a, lens b with Some x, Some y => Some (fold_right (fun n acc => union (map (Nat.add n) y) acc) [] x) | _, _ => None end
  | RAlt a b => match lens a, lens b with Some x, Some y => Some (union x y) | _, _ => None end
  | RStar _ _ => None
  | RGroup _ a => lens a
  end.
Lemma insert_In n l x : In x (insert n l) <-> x = n \/ In x l.
Proof.
  induction l as [|m l IH]; cbn [insert]; [simpl; firstorder|]. destruct (Nat.eqb_spec n m) as [->|]; [simpl; firstorder|]. destruct (n <? m)%nat; [simpl; firstorder|]. cbn [In]. rewrite IH. tauto.
Qed.
Lemma union_In a b x : In x (union a b) <-> In x a \/ In x b.
Proof. unfold union. induction a as [|n a IH]; cbn [fold_right]; [simpl; tauto|]. rewrite insert_In, IH. simpl. intuition. Qed.
Lemma lens_ok r w : lang r w -> forall l, lens r = Some l -> In (length w) l.
Proof.
  induction 1; cbn [lens]; intros l E; try (inv E; simpl; auto; fail); try discriminate.
  - destruct (lens a) as [x|]; [|discriminate]. destruct (lens b) as [y|]; [|discriminate]. inv E. rewrite app_length. specialize (IHlang1 _ eq_refl). specialize (IHlang2 _ eq_refl).
    revert IHlang1. generalize (length v). intros n. induction x as [|m x IH]; [intros []|]. cbn [fold_right]. rewrite union_In. intros [->|I]; [left; apply in_map; auto|right; auto].
  - destruct (lens a) as [x|]; [|discriminate]. destruct (lens b) as [y|]; [|discriminate]. inv E. apply union_In. auto.
  - destruct (lens a) as [x|]; [|discriminate]. destruct (lens b) as [y|]; [|discriminate]. inv E. apply union_In. auto.
Qed.

Definition no_empty_b (p : bytes) : bool :=
  match compile p with None => true | Some x => match lens (re_ast x) with Some l => negb (existsb (Nat.eqb 0) l) | None => false end end.
Definition wf_short_b (m : meta) : bool :=
  match md_general m with Some g => negb (match d_len g with [] => true | _ => false end) | None => false end
  && forallb (fun d => clear_b (get_d_pattern d)) (short_descs m) && (is_empty (get_d_pattern (md_emergency m)) || no_empty_b (get_d_pattern (md_emergency m))).
Lemma no_empty_ok p : no_empty_b p = true -> ~ in_language p [].
Proof.
  unfold no_empty_b. intros H (x & X & L). rewrite X in H. destruct (lens (re_ast x)) as [l|] eqn:E; [|discriminate]. apply (lens_ok _ _ L) in E. rewrite runes_nil in E. apply negb_true_iff in H.
  assert (existsb (Nat.eqb 0) l = true) by (apply existsb_exists; exists 0%nat; auto). congruence.
Qed.
Lemma wf_short_b_ok m : wf_short_b m = true -> wf_short_meta m.
Proof.
  unfold wf_short_b. rewrite !andb_true_iff, orb_true_iff. intros [[H1 H2] H3]. constructor.
  - destruct (md_general m) as [g|]; [|discriminate]. exists g. split; auto. destruct (d_len g); [discriminate|discriminate].
  - eapply forallb_Forall; [|exact H2]. intros d. apply clear_b_ok.
  - intros NE. destruct H3 as [H3|H3]; [destruct (get_d_pattern (md_emergency m)); [congruence|discriminate]|apply no_empty_ok; auto].
Qed.
Theorem shipped_short_wf : wf_short shipped_short.
Proof.
  intros r m I. apply wf_short_b_ok. revert I. assert (H : forallb (fun p => wf_short_b (snd p)) shipped_short = true) by (vm_cast_no_check (eq_refl true)).
  rewrite forallb_forall in H. intros I. apply (H _ I).
Qed.
Definition nested_b (m : meta) : bool :=
  is_empty (get_d_pattern (md_shortcode m)) ||
  match compile (get_d_pattern (md_shortcode m)), md_general m with
  | Some x, Some g => match lens (re_ast x) with Some l => forallb (fun k => existsb (Z.eqb (Z.of_nat k)) (d_len g) && (k <? 100)%nat) l | None => false end
  | _, _ => false
  end.
Lemma nested_b_ok m s : nested_b m = true -> ascii s -> get_d_pattern (md_shortcode m) <> [] -> in_language (get_d_pattern (md_shortcode m)) s ->
  (length s < 100)%nat /\ exists g, md_general m = Some g /\ In (Z.of_nat (length s)) (d_len g).
Proof.
  unfold nested_b. rewrite orb_true_iff. intros [H|H] As NE (x & X & L); [destruct (get_d_pattern (md_shortcode m)); [congruence|discriminate]|]. rewrite X in H. destruct (md_general m) as [g|]; [|discriminate].
  destruct (lens (re_ast x)) as [l|] eqn:E; [|discriminate]. apply (lens_ok _ _ L) in E. rewrite runes_ascii in E by auto. rewrite forallb_forall in H. apply H in E. apply andb_true_iff in E as [E1 E2].
  apply Nat.ltb_lt in E2. split; auto. exists g. split; auto. apply existsb_exists in E1 as (z & I & Q). apply Z.eqb_eq in Q. congruence.
Qed.
Theorem shipped_short_nested : short_nested shipped_short.
Proof.
  intros r m s I As NE L. assert (H : forallb (fun p => nested_b (snd p)) shipped_short = true) by (vm_cast_no_check (eq_refl true)). rewrite forallb_forall in H. apply H in I. cbn [snd] in I.
  destruct (nested_b_ok m s I As NE L) as [H1 H2]. auto.
Qed.
