(** What the regexp library functions do on the simple expressions the formatter uses: class+ searches, splitting, and
    replacing with a template. *)
From Verif Require Import Base BaseFacts Utf8 Utf8Facts Regex RegexSpec RegexFacts FormatSpec.

(** * woven *)
Lemma woven_refl P w : woven P w w.
Proof. induction w; constructor; auto. Qed.
Lemma woven_app P a b c d : woven P a b -> woven P c d -> woven P (a ++ c) (b ++ d).
Proof. induction 1; simpl; intros; auto; constructor; auto. Qed.
Lemma woven_put_l P p w o : forallb P p = true -> woven P w o -> woven P w (p ++ o).
Proof. induction p; simpl; auto. intros H W. apply andb_true_iff in H as [H1 H2]. constructor; auto. Qed.
Lemma woven_filter P Q w o : woven P w o -> (forall c, P c = true -> Q c = false) -> filter Q o = filter Q w.
Proof. induction 1; intros H1; simpl; auto. - rewrite IHwoven; auto. - rewrite H1; auto. Qed.
Lemma woven_digits P w o : woven P w o -> (forall c, P c = true -> is_digit c = false) -> all_digits w = true -> filter is_digit o = w.
Proof.
  intros W H D. rewrite (woven_filter _ _ _ _ W H). clear W. induction w; simpl in *; auto. apply andb_true_iff in D as [D1 D2]. rewrite D1. f_equal; auto.
Qed.
Lemma woven_Forall (P : N -> bool) (Q : N -> Prop) w o : woven P w o -> Forall Q w -> (forall c, P c = true -> Q c) -> Forall Q o.
Proof. induction 1; intros F H1; auto; constructor; auto; try (inv F; auto; fail). Qed.
Lemma woven_weaken (P Q : N -> bool) w o : woven P w o -> (forall c, P c = true -> Q c = true) -> woven Q w o.
Proof. induction 1; intros; constructor; auto. Qed.
Lemma woven_nil_l P o : woven P [] o -> forallb P o = true.
Proof. intros W. remember [] as w. induction W; simpl; auto; try discriminate. rewrite H; auto. Qed.
Lemma woven_length P w o : woven P w o -> (length w <= length o)%nat.
Proof. induction 1; simpl; lia. Qed.
Lemma woven_trans P a b c : woven P a b -> woven P b c -> woven P a c.
Proof.
  intros W1 W2. revert a W1. induction W2; intros a0 W1; auto.
  - inv W1; [constructor; auto|]. constructor; auto.
  - constructor; auto.
Qed.

(** * class+ on ASCII text *)
Definition plus_re (k : cls) : regex := RCat (RClass k) (RStar true (RClass k)).
Fixpoint run (P : N -> bool) (s : bytes) : nat := match s with c :: t => if P c then S (run P t) else 0%nat | [] => 0%nat end.
Lemma run_le P s : (run P s <= length s)%nat.
Proof. induction s; simpl; [lia|]. destruct (P a); lia. Qed.
Lemma run_split P s : s = firstn (run P s) s ++ skipn (run P s) s /\ forallb P (firstn (run P s) s) = true /\
  (skipn (run P s) s = [] \/ exists x t, skipn (run P s) s = x :: t /\ P x = false).
Proof.
  split; [symmetry; apply firstn_skipn|]. induction s; simpl; auto. destruct (P a) eqn:E; simpl.
  - rewrite E. auto.
  - split; auto. right. eauto.
Qed.
Lemma ascii_tl c s : ascii (c :: s) -> c < 128 /\ ascii s.
Proof. intros H. inv H. auto. Qed.
Lemma ascii_skipn n s : ascii s -> ascii (skipn n s).
Proof. intros H. apply Forall_forall. intros x Hx. apply skipn_In in Hx. eapply Forall_forall in H; eauto. Qed.
Lemma ascii_firstn n s : ascii s -> ascii (firstn n s).
Proof. intros H. apply Forall_forall. intros x Hx. apply firstn_In in Hx. eapply Forall_forall in H; eauto. Qed.

Lemma star_class k (kk : cont) : (forall p s cs, kk p s cs <> None) ->
  forall f p s cs, ascii s -> (length s < f)%nat ->
  star_loop true (rmatch (RClass k)) kk f p s cs = kk (p + run (cls_match k) s)%nat (skipn (run (cls_match k) s) s) cs.
Proof.
  intros K. induction f as [|f IH]; intros p s cs A L; [lia|]. rewrite star_loop_S. cbn [rmatch]. destruct s as [|c t].
  - cbn [decode_rune run]. rewrite Nat.add_0_r. reflexivity.
  - apply ascii_tl in A as [A1 A2]. rewrite decode_ascii by auto. cbn [run]. destruct (cls_match k c) eqn:E.
    + assert (L1 : (len t <? len (c :: t))%nat = true) by (apply Nat.ltb_lt; unfold len; simpl; lia). rewrite L1.
      rewrite IH by (auto; simpl in L; lia).
      assert (E1 : (len (c :: t) - len t = 1)%nat) by (unfold len; simpl length; lia). rewrite E1.
      replace (p + 1 + run (cls_match k) t)%nat with (p + S (run (cls_match k) t))%nat by lia. cbn [skipn].
      destruct (kk (p + S (run (cls_match k) t))%nat (skipn (run (cls_match k) t) t) cs) eqn:Ek; auto. exfalso; eapply K; eauto.
    + rewrite Nat.add_0_r. reflexivity.
Qed.
Lemma plus_rmatch k kk p s cs : (forall p s cs, kk p s cs <> None) -> ascii s -> rmatch (plus_re k) kk p s cs =
  if (run (cls_match k) s =? 0)%nat then None else kk (p + run (cls_match k) s)%nat (skipn (run (cls_match k) s) s) cs.
Proof.
  intros K A. unfold plus_re. cbn [rmatch]. destruct s as [|c t]; [reflexivity|]. apply ascii_tl in A as [A1 A2]. rewrite decode_ascii by auto.
  cbn [run]. destruct (cls_match k c) eqn:E; [|reflexivity]. cbn [Nat.eqb].
  change (rmatch (RStar true (RClass k)) kk (p + (len (c :: t) - len t)) t cs = kk (p + S (run (cls_match k) t))%nat (skipn (S (run (cls_match k) t)) (c :: t)) cs).
  rewrite rmatch_star, star_class by (auto; unfold len; lia). cbn [skipn]. f_equal. unfold len. simpl length. lia.
Qed.

(** The expressions of interest: class+ possibly inside a capturing group. *)
Definition is_plus (x : re) (k : cls) : Prop := re_ast x = plus_re k \/ re_ast x = RGroup 1 (plus_re k).
Lemma is_plus_rmatch x k p s : is_plus x k -> ascii s ->
  rmatch (re_ast x) final p s [] = None /\ run (cls_match k) s = 0%nat \/
  exists cs, rmatch (re_ast x) final p s [] = Some ((p + run (cls_match k) s)%nat, cs) /\ run (cls_match k) s <> 0%nat.
Proof.
  intros I A.
  assert (G : forall kk : cont, (forall p s cs, exists q, kk p s cs = Some (p, q)) -> rmatch (plus_re k) kk p s [] = None /\ run (cls_match k) s = 0%nat \/
    exists cs, rmatch (plus_re k) kk p s [] = Some ((p + run (cls_match k) s)%nat, cs) /\ run (cls_match k) s <> 0%nat).
  { intros kk K. rewrite plus_rmatch by (auto; intros p0 s0 c0; destruct (K p0 s0 c0) as (q & ->); discriminate).
    destruct (run (cls_match k) s =? 0)%nat eqn:Z; [apply Nat.eqb_eq in Z; auto|]. apply Nat.eqb_neq in Z. right.
    destruct (K (p + run (cls_match k) s)%nat (skipn (run (cls_match k) s) s) []) as (q & ->). eauto. }
  destruct I as [-> | ->]; [|cbn [rmatch]]; apply G; intros; unfold final; eauto.
Qed.
Definition gap (P : N -> bool) (s : bytes) : nat := run (fun c => negb (P c)) s.
Lemma search_plus x k : is_plus x k -> forall f p s, ascii s -> (length s <= f)%nat ->
  (search f (re_ast x) p s = None /\ forallb (fun c => negb (cls_match k c)) s = true) \/
  (exists m, search f (re_ast x) p s = Some m /\ m_start m = (p + gap (cls_match k) s)%nat /\
     m_end m = (m_start m + run (cls_match k) (skipn (gap (cls_match k) s) s))%nat /\ run (cls_match k) (skipn (gap (cls_match k) s) s) <> 0%nat).
Proof.
  intros I. induction f as [|f IH]; intros p s A L; cbn [search].
  - destruct s; [|simpl in L; lia]. destruct (is_plus_rmatch x k p [] I A) as [[-> _]|(cs & _ & N)]; [auto|]. simpl in N. congruence.
  - destruct (is_plus_rmatch x k p s I A) as [[-> R]|(cs & -> & R)].
    + destruct s as [|c t]; [auto|]. apply ascii_tl in A as [A1 A2]. rewrite decode_ascii by auto. simpl in R.
      destruct (cls_match k c) eqn:E; [discriminate|]. replace (len (c :: t) - len t)%nat with 1%nat by (unfold len; simpl length; lia).
      destruct (IH (p + 1)%nat t A2 ltac:(simpl in L; lia)) as [[E1 E2]|(m & E1 & E2 & E3 & E4)].
      * left. split; auto. simpl. rewrite E, E2. reflexivity.
      * right. exists m. unfold gap in *. cbn [run]. rewrite E. cbn [negb skipn]. split; auto. split; [lia|]. auto.
    + right. eexists. split; [reflexivity|]. cbn [m_start m_end]. destruct s as [|c t]; [simpl in R; congruence|]. unfold gap. cbn [run] in *.
      destruct (cls_match k c) eqn:E; [|congruence]. cbn [negb skipn run]. rewrite E. split; [lia|]. auto.
Qed.
Lemma find_plus x k s p : is_plus x k -> ascii s -> (p <= length s)%nat ->
  (find_from x s p = None /\ forallb (fun c => negb (cls_match k c)) (skipn p s) = true) \/
  (exists m, find_from x s p = Some m /\ (p <= m_start m < m_end m)%nat /\ (m_end m <= length s)%nat /\
     forallb (fun c => negb (cls_match k c)) (sub s p (m_start m)) = true /\ forallb (cls_match k) (sub s (m_start m) (m_end m)) = true /\
     (skipn (m_end m) s = [] \/ exists y t, skipn (m_end m) s = y :: t /\ cls_match k y = false)).
Proof.
  intros I A L. unfold find_from.
  destruct (search_plus x k I (len s - p) p (skipn p s) (ascii_skipn _ _ A) ltac:(rewrite skipn_length; unfold len; lia)) as [[E1 E2]|(m & E1 & E2 & E3 & E4)]; [auto|].
  right. exists m. split; auto. set (P := cls_match k) in *. set (g := gap P (skipn p s)) in *. rewrite skipn_add in *.
  pose proof (run_le (fun c => negb (P c)) (skipn p s)) as Lg. fold (gap P (skipn p s)) in Lg. fold g in Lg. rewrite skipn_length in Lg.
  pose proof (run_le P (skipn (p + g) s)) as Lr. rewrite skipn_length in Lr. split; [lia|]. split; [lia|].
  destruct (run_split (fun c => negb (P c)) (skipn p s)) as (_ & G1 & _). fold (gap P (skipn p s)) in G1. fold g in G1.
  destruct (run_split P (skipn (p + g) s)) as (_ & G2 & G3). rewrite skipn_add in G3.
  unfold sub. rewrite E2, E3, E2. replace (p + g - p)%nat with g by lia. split; [auto|].
  replace (p + g + run P (skipn (p + g) s) - (p + g))%nat with (run P (skipn (p + g) s)) by lia. split; auto.
Qed.

Lemma all_matches_plus x k s : is_plus x k -> ascii s -> forall f p pe, (p <= length s)%nat -> (length s - p < f)%nat ->
  stretches (cls_match k) (skipn p s) (map (fun m => sub s (m_start m) (m_end m)) (all_matches f x s p pe)).
Proof.
  intros I A. induction f as [|f IH]; intros p pe L F; [lia|]. cbn [all_matches].
  replace (len s <? p)%nat with false by (symmetry; apply Nat.ltb_ge; unfold len; lia).
  destruct (find_plus x k s p I A L) as [[-> E]|(m & -> & L1 & L2 & NP & R & T)].
  - constructor; auto.
  - replace (m_end m =? p)%nat with false by (symmetry; apply Nat.eqb_neq; lia). cbn [andb negb]. cbn [map app].
    replace (skipn p s) with (sub s p (m_start m) ++ sub s (m_start m) (m_end m) ++ skipn (m_end m) s).
    + apply S_some; auto.
      * intros E. apply (f_equal (@length N)) in E. rewrite sub_length in E by lia. simpl in E. lia.
      * apply IH; lia.
    + rewrite <- (sub_to_end s p), <- (sub_to_end s (m_end m)), <- sub_split, <- sub_split by lia. auto.
Qed.
Lemma find_all_plus x k s : is_plus x k -> ascii s -> stretches (cls_match k) s (re_find_all_string x s).
Proof. intros I A. apply (all_matches_plus x k s I A (S (S (len s))) 0%nat None); unfold len; lia. Qed.
Lemma all_matches_in x k s : is_plus x k -> ascii s -> forall f p pe, (p <= length s)%nat -> (length s - p < f)%nat ->
  all_matches f x s p pe = [] /\ forallb (fun c => negb (cls_match k c)) (skipn p s) = true \/
  exists m rest f', all_matches f x s p pe = m :: rest /\ rest = all_matches f' x s (m_end m) (Some (m_end m)) /\ (length s - m_end m < f')%nat /\
    (p <= m_start m < m_end m)%nat /\ (m_end m <= length s)%nat /\
    forallb (fun c => negb (cls_match k c)) (sub s p (m_start m)) = true /\ forallb (cls_match k) (sub s (m_start m) (m_end m)) = true /\
    (skipn (m_end m) s = [] \/ exists y t, skipn (m_end m) s = y :: t /\ cls_match k y = false).
Proof.
  intros I A f p pe L F. destruct f as [|f]; [lia|]. cbn [all_matches].
  replace (len s <? p)%nat with false by (symmetry; apply Nat.ltb_ge; unfold len; lia).
  destruct (find_plus x k s p I A L) as [[-> E]|(m & -> & L1 & L2 & NP & R & T)]; [auto|]. right.
  replace (m_end m =? p)%nat with false by (symmetry; apply Nat.eqb_neq; lia). cbn [andb negb app]. exists m, (all_matches f x s (m_end m) (Some (m_end m))), f.
  split; auto. split; auto. split; [lia|]. auto.
Qed.

(** Split at every stretch of P. *)
Inductive fields (P : N -> bool) : bytes -> list bytes -> Prop :=
  | F_last s : forallb (fun c => negb (P c)) s = true -> fields P s [s]
  | F_more a b c l : forallb (fun c => negb (P c)) a = true -> forallb P b = true -> b <> [] ->
      (c = [] \/ exists x t, c = x :: t /\ P x = false) -> fields P c l -> fields P (a ++ b ++ c) (a :: l).
Definition split_go (s : bytes) := fix go (ms : list mres) (beg last_end : nat) : list bytes :=
  match ms with
  | [] => if (last_end =? len s)%nat then [] else [skipn beg s]
  | m :: ms' => (if (m_end m =? 0)%nat then [] else [sub s beg (m_start m)]) ++ go ms' (m_end m) (m_start m)
  end.
Lemma re_split_plus x k s : is_plus x k -> ascii s -> fields (cls_match k) s (re_split x s).
Proof.
  intros I A. destruct s as [|c t]. { apply F_last. reflexivity. }
  set (s := c :: t) in *. change (re_split x s) with (split_go s (re_find_all x s) 0%nat 0%nat).
  assert (L0 : (0 < length s)%nat) by (simpl; lia). clearbody s.
  assert (G : forall n f p pe le, (length s - p <= n)%nat -> (p <= length s)%nat -> (length s - p < f)%nat -> (le < length s)%nat ->
    fields (cls_match k) (skipn p s) (split_go s (all_matches f x s p pe) p le)).
  { induction n as [|n IH]; intros f p pe le Ln L F Le; destruct (all_matches_in x k s I A f p pe L F) as [[-> E]|(m & rest & f' & -> & Er & F' & L1 & L2 & NP & R & T)].
    1,3: cbn [split_go]; replace (le =? len s)%nat with false by (symmetry; apply Nat.eqb_neq; unfold len; lia); apply F_last; auto.
    1: lia.
    cbn [split_go]. replace (m_end m =? 0)%nat with false by (symmetry; apply Nat.eqb_neq; lia). cbn [app].
    replace (skipn p s) with (sub s p (m_start m) ++ sub s (m_start m) (m_end m) ++ skipn (m_end m) s).
    2:{ rewrite <- (sub_to_end s p), <- (sub_to_end s (m_end m)), <- sub_split, <- sub_split by lia. auto. }
    apply F_more; auto.
    - intros Em. apply (f_equal (@length N)) in Em. rewrite sub_length in Em by lia. simpl in Em. lia.
    - subst rest. apply IH; lia. }
  apply (G (length s) (S (S (len s))) 0%nat None 0%nat); unfold len; lia.
Qed.
Lemma filter_all {A} (P : A -> bool) l : forallb P l = true -> filter P l = l.
Proof. induction l; simpl; auto. intros H. apply andb_true_iff in H as [H1 H2]. rewrite H1. f_equal; auto. Qed.
Lemma filter_none {A} (P : A -> bool) l : forallb (fun x => negb (P x)) l = true -> filter P l = [].
Proof. induction l; simpl; auto. intros H. apply andb_true_iff in H as [H1 H2]. apply negb_true_iff in H1. rewrite H1. auto. Qed.
Lemma fields_concat P s l : fields P s l -> concat l = filter (fun c => negb (P c)) s /\ Forall (fun f => forallb (fun c => negb (P c)) f = true) l.
Proof.
  induction 1 as [s H|a b c l Ha Hb Nb T F [E1 E2]].
  - simpl. rewrite app_nil_r. rewrite (filter_all _ _ H). auto.
  - simpl. rewrite E1, !filter_app, (filter_all _ _ Ha). split; [|constructor; auto]. f_equal.
    assert (Eb : filter (fun c => negb (P c)) b = []). { clear -Hb. induction b; simpl in *; auto. apply andb_true_iff in Hb as [-> H]. simpl. auto. }
    rewrite Eb. reflexivity.
Qed.
Lemma stretches_concat P s l : stretches P s l -> concat l = filter P s /\ Forall (fun f => f <> [] /\ forallb P f = true) l.
Proof.
  induction 1 as [s H|a b c l Ha Hb Nb T F [E1 E2]].
  - simpl. rewrite (filter_none _ _ H). auto.
  - simpl. rewrite E1, !filter_app, (filter_none _ _ Ha), (filter_all _ _ Hb). split; [reflexivity|constructor; auto].
Qed.

(** * Replacing with a template: every character of a match is captured by exactly one group, in order *)
Fixpoint no_group (r : regex) : bool :=
  match r with
  | RGroup _ _ => false
  | RCat a b | RAlt a b => no_group a && no_group b
  | RStar _ a => no_group a
  | _ => true
  end.
Lemma derives_no_group r p s cs p' s' cs' : derives r p s cs p' s' cs' -> no_group r = true -> cs' = cs.
Proof.
  induction 1; cbn [no_group]; intros G; auto; try discriminate; try (apply andb_true_iff in G as [G1 G2]); auto.
  - rewrite IHderives2; auto.
  - rewrite IHderives2; auto.
Qed.
Fixpoint groups_from (k : nat) (r : regex) : option nat :=
  match r with
  | REmpty => Some k
  | RGroup n a => if (n =? k)%nat && no_group a then Some (S k) else None
  | RCat a b => match groups_from k a with Some k1 => groups_from k1 b | None => None end
  | _ => None
  end.
Fixpoint number (k : nat) (offs : list (nat * nat)) : caps := match offs with [] => [] | o :: l => number (S k) l ++ [(k, o)] end.
Lemma number_app k a b : number k (a ++ b) = number (k + length a) b ++ number k a.
Proof.
  revert k. induction a; intros k; simpl; [rewrite Nat.add_0_r, app_nil_r; auto|]. rewrite IHa, app_assoc. replace (S k + length a0)%nat with (k + S (length a0))%nat by lia. reflexivity.
Qed.
Lemma assoc_app {V} n (a b : list (nat * V)) : assoc Nat.eqb n (a ++ b) = match assoc Nat.eqb n a with Some v => Some v | None => assoc Nat.eqb n b end.
Proof. induction a as [|[x v] a IH]; simpl; auto. destruct (n =? x)%nat; auto. Qed.
Lemma assoc_number n : forall offs k, (k <= n)%nat -> assoc Nat.eqb n (number k offs) = nth_error offs (n - k).
Proof.
  induction offs as [|o l IH]; intros k L; simpl; [destruct (n - k)%nat; auto|]. rewrite assoc_app. destruct (Nat.eq_dec n k) as [->|N].
  - rewrite Nat.sub_diag. simpl. rewrite Nat.eqb_refl.
    assert (E : forall l j, (k < j)%nat -> assoc Nat.eqb k (number j l) = None).
    { clear. induction l as [|o l IH]; intros j L; simpl; auto. rewrite assoc_app, IH by lia. simpl. replace (k =? j)%nat with false; auto. symmetry; apply Nat.eqb_neq; lia. }
    rewrite E by lia. reflexivity.
  - rewrite IH by lia. replace (n - k)%nat with (S (n - S k)) by lia. simpl. destruct (nth_error l (n - S k)); auto.
    replace (n =? k)%nat with false; auto. symmetry; apply Nat.eqb_neq; lia.
Qed.
Definition piece (T : bytes) (x : nat * nat) : bytes := sub T (fst x) (snd x).
Lemma derives_groups T r p s cs p' s' cs' : derives r p s cs p' s' cs' -> forall k k', groups_from k r = Some k' ->
  exists offs, cs' = number k offs ++ cs /\ k' = (k + length offs)%nat /\ concat (map (piece T) offs) = sub T p p'.
Proof.
  induction 1; intros j j' G; cbn [groups_from] in G; try discriminate.
  - inv G. exists []. rewrite sub_nil. simpl. auto.
  - destruct (groups_from j a) as [k1|] eqn:E; [|discriminate]. destruct (IHderives1 _ _ E) as (o1 & -> & -> & C1).
    destruct (IHderives2 _ _ G) as (o2 & -> & -> & C2). exists (o1 ++ o2). rewrite number_app, app_length, map_app, concat_app, C1, C2, <- app_assoc.
    split; auto. split; [lia|]. apply derives_len in H. apply derives_len in H0. rewrite <- sub_split by lia. reflexivity.
  - destruct ((n =? j)%nat && no_group a) eqn:E; [|discriminate]. apply andb_true_iff in E as [E1 E2]. apply Nat.eqb_eq in E1. subst. inv G.
    rewrite (derives_no_group _ _ _ _ _ _ _ H E2) in *. exists [(p, p')]. simpl. unfold piece. simpl. rewrite app_nil_r. split; auto. split; auto. lia.
Qed.

(** A template mentioning $k, ..., $(last-1) in this order, each once, with only characters satisfying P between. *)
Fixpoint tmpl_ok (P : N -> bool) (fuel : nat) (tmpl : bytes) (k last : nat) : bool :=
  match fuel with
  | O => false
  | S f =>
      match tmpl with
      | [] => (k =? last)%nat
      | 36 :: t =>
          match t with
          | 36 :: _ => false
          | _ => match extract_ref t with
                 | Some (Some n, rest) => (n =? k)%nat && (n <? last)%nat && tmpl_ok P f rest (S k) last
                 | _ => false
                 end
          end
      | c :: t => P c && tmpl_ok P f t k last
      end
  end.
Lemma case36 {A} (c : N) (x y : A) : c <> 36 -> match c with 36 => x | _ => y end = y.
Proof. intros H. destruct c as [|q]; auto. do 6 (destruct q as [q|q|]; auto). congruence. Qed.
Lemma expand_woven P T m offs : m_caps m = number 1 offs -> forall f tmpl k, (1 <= k)%nat -> tmpl_ok P f tmpl k (S (length offs)) = true ->
  woven P (concat (map (piece T) (skipn (k - 1) offs))) (expand f tmpl T m).
Proof.
  intros Hm. induction f as [|f IH]; intros tmpl k Lk H; [discriminate|]. cbn [tmpl_ok expand] in *. destruct tmpl as [|c t].
  - apply Nat.eqb_eq in H. rewrite skipn_all2 by lia. constructor.
  - destruct (N.eq_dec c 36) as [->|Nc].
    + assert (Hd : (match t with 36 :: _ => False | _ => True end) /\ match extract_ref t with
        | Some (Some n, rest) => (n =? k)%nat && (n <? S (length offs))%nat && tmpl_ok P f rest (S k) (S (length offs)) | _ => false end = true).
      { destruct t as [|d t']; [auto|]. destruct (N.eq_dec d 36) as [->|Nd]; [discriminate|]. rewrite case36 in H by auto. rewrite case36 by auto. auto. }
      destruct Hd as [N36 He]. destruct (extract_ref t) as [[[n|] rest]|] eqn:Ex; try discriminate.
      rewrite !andb_true_iff in He. destruct He as ((E1 & E2) & E3). apply Nat.eqb_eq in E1. apply Nat.ltb_lt in E2. subst n.
      assert (Eg : group_str T m k = piece T (nth (k - 1) offs (0%nat, 0%nat))).
      { unfold group_str, group. destruct k; [lia|]. rewrite Hm, assoc_number by lia.
        destruct (nth_error offs (S k - 1)) as [[i j]|] eqn:En.
        - rewrite (nth_error_nth _ _ _ En). reflexivity.
        - apply nth_error_None in En. lia. }
      assert (Es : skipn (k - 1) offs = nth (k - 1) offs (0%nat, 0%nat) :: skipn (S k - 1) offs).
      { assert (Lx : (k - 1 < length offs)%nat) by lia. replace (S k - 1)%nat with (S (k - 1)) by lia. revert Lx. generalize (k - 1)%nat. clear.
        induction offs as [|o l IH]; intros n Lx; simpl in Lx; [lia|]. destruct n; simpl; auto. apply IH. lia. }
      rewrite Es. simpl map. simpl concat. rewrite Eg.
      assert (W : woven P (piece T (nth (k - 1) offs (0%nat, 0%nat)) ++ concat (map (piece T) (skipn (S k - 1) offs)))
                    (piece T (nth (k - 1) offs (0%nat, 0%nat)) ++ expand f rest T m)).
      { apply woven_app; [apply woven_refl|]. apply IH; [lia|auto]. }
      replace (S k - 1)%nat with k in W by lia. replace (k - 0)%nat with k by lia. destruct t as [|d t']; [exact W|]. rewrite case36; [exact W|]. intros ->. contradiction.
    + rewrite case36 in H by auto. rewrite case36 by auto. apply andb_true_iff in H as [H1 H2]. apply W_put; auto.
Qed.

Lemma replace_woven P x s repl : (forall m, derives (re_ast x) (m_start m) (skipn (m_start m) s) [] (m_end m) (skipn (m_end m) s) (m_caps m) ->
    (m_start m <= m_end m)%nat -> woven P (sub s (m_start m) (m_end m)) (repl m)) ->
  forall f le sp, (le <= sp)%nat -> (le <= length s)%nat -> woven P (skipn le s) (replace_loop f x s repl le sp).
Proof.
  intros R. induction f as [|f IH]; intros le sp L1 L2; cbn [replace_loop]; [apply woven_refl|].
  destruct (len s <? sp)%nat eqn:E; [apply woven_refl|]. apply Nat.ltb_ge in E. unfold len in E.
  destruct (find_from x s sp) as [m|] eqn:Ef; [|apply woven_refl].
  apply find_from_sound in Ef as (A1 & A2 & A3 & D & _); [|lia].
  rewrite <- (sub_to_end s le), (sub_split s le (m_start m) (length s)), (sub_split s (m_start m) (m_end m) (length s)) by lia.
  apply woven_app; [apply woven_refl|]. apply woven_app.
  - destruct (_ || _) eqn:Eb; [auto|]. apply orb_false_iff in Eb as [Eb _]. apply Nat.ltb_ge in Eb.
    replace (m_end m) with (m_start m) by lia. rewrite sub_nil. constructor.
  - rewrite sub_to_end. apply IH; auto. destruct (_ <? _)%nat eqn:E1; [apply Nat.ltb_lt in E1; lia|]. destruct (m_end m <? sp + 1)%nat eqn:E2; [apply Nat.ltb_lt in E2; lia|lia].
Qed.
(** The shape of a rule that keeps every digit. *)
Definition rule_ok (P : N -> bool) (x : re) (tmpl : bytes) : bool :=
  match groups_from 1 (re_ast x) with Some k => tmpl_ok P (S (len tmpl)) tmpl 1 k | None => false end.
Lemma replace_all_woven P x s tmpl : rule_ok P x tmpl = true -> woven P s (re_replace_all x s tmpl).
Proof.
  unfold rule_ok. destruct (groups_from 1 (re_ast x)) as [k|] eqn:G; [|discriminate]. intros H. unfold re_replace_all, re_replace_func.
  change s with (skipn 0 s) at 1. apply replace_woven; try lia. intros m D L. destruct (derives_groups s _ _ _ _ _ _ _ D _ _ G) as (offs & E & -> & C).
  rewrite app_nil_r in E. rewrite <- C. apply (expand_woven P s m offs E _ _ 1%nat); auto.
Qed.
