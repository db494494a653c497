(** Partial derivatives of regular expressions, and a checked exploration of products of expressions: what all words over the
    ten digits have in common can be decided by looking at finitely many states. *)
From Verif Require Import Base BaseFacts Utf8 Utf8Facts Regex RegexSpec RegexFacts LangFacts.

(** * Membership by derivatives *)
Fixpoint nul (r : regex) : bool :=
  match r with
  | REmpty | RBegin | REnd | RStar _ _ => true
  | RClass _ => false
  | RCat a b => nul a && nul b
  | RAlt a b => nul a || nul b
  | RGroup _ a => nul a
  end.
Definition mkcat (a b : regex) : regex := match a with REmpty => b | _ => RCat a b end.
Fixpoint pder (c : N) (r : regex) : list regex :=
  match r with
  | REmpty | RBegin | REnd => []
  | RClass k => if cls_match k c then [REmpty] else []
  | RCat a b => map (fun x => mkcat x b) (pder c a) ++ (if nul a then pder c b else [])
  | RAlt a b => pder c a ++ pder c b
  | RStar g a => map (fun x => mkcat x (RStar g a)) (pder c a)
  | RGroup _ a => pder c a
  end.
Lemma nul_ok r : lang r [] <-> nul r = true.
Proof.
  split.
  - intros L. remember [] as w eqn:W. induction L; cbn [nul]; auto; try discriminate.
    + apply app_eq_nil in W as [-> ->]. rewrite IHL1, IHL2; auto.
    + rewrite IHL; auto.
    + rewrite IHL, orb_true_r; auto.
  - induction r; cbn [nul]; intros H; try discriminate; try (constructor; fail).
    + apply andb_true_iff in H as [A B]. change (@nil N) with (@nil N ++ []). constructor; auto.
    + apply orb_true_iff in H as [A|A]; [apply L_alt_l|apply L_alt_r]; auto.
    + constructor; auto.
Qed.
Lemma mkcat_lang a b w : lang (mkcat a b) w <-> lang (RCat a b) w.
Proof.
  unfold mkcat. destruct a; try reflexivity. split; intros L; [change w with ([] ++ w); constructor; [constructor|auto]|]. inversion L as [| |? ? u v H1 H2| | | | | | |]; subst. inv H1. auto.
Qed.
Lemma pder_ok r : forall c w, lang r (c :: w) <-> exists r', In r' (pder c r) /\ lang r' w.
Proof.
  induction r as [|k|a IHa b IHb|a IHa b IHb|g a IHa|n a IHa| |]; intros c w; cbn [pder].
  - split; [intros L; inv L|intros (x & [] & _)].
  - split.
    + intros L. inv L. match goal with H : cls_match _ _ = true |- _ => rewrite H end. exists REmpty. split; [left; auto|constructor].
    + intros (x & I & L). destruct (cls_match k c) eqn:M; [|destruct I]. destruct I as [<-|[]]. inv L. constructor. auto.
  - split.
    + intros L. inversion L as [| |? ? u v H1 H2 E1 E2| | | | | | |]; subst. destruct u as [|x u].
      * simpl in E2. subst v. apply nul_ok in H1. rewrite H1. apply IHb in H2 as (r' & I & L'). exists r'. split; auto. apply in_or_app. auto.
      * simpl in E2. inv E2. apply IHa in H1 as (r' & I & L'). exists (mkcat r' b). split; [apply in_or_app; left; apply in_map_iff; eauto|]. apply mkcat_lang. constructor; auto.
    + intros (r' & I & L'). apply in_app_or in I as [I|I].
      * apply in_map_iff in I as (x & <- & I). apply mkcat_lang in L'. inversion L' as [| |? ? u v H1 H2| | | | | | |]; subst. change (c :: u ++ v) with ((c :: u) ++ v). constructor; auto. apply IHa. eauto.
      * destruct (nul a) eqn:NA; [|destruct I]. change (c :: w) with ([] ++ c :: w). constructor; [apply nul_ok; auto|]. apply IHb. eauto.
  - split.
    + intros L. inversion L as [| | |? ? ? H E1 E2|? ? ? H E1 E2| | | | |]; subst; [apply IHa in H as (r' & I & L')|apply IHb in H as (r' & I & L')]; exists r'; (split; [apply in_or_app; auto|auto]).
    + intros (r' & I & L'). apply in_app_or in I as [I|I]; [apply L_alt_l; apply IHa|apply L_alt_r; apply IHb]; eauto.
  - split.
    + intros L. remember (RStar g a) as s eqn:S. remember (c :: w) as z eqn:Z. revert w Z. induction L as [| | | | | |g' a' v y H1 IH1 H2 IH2| | |]; intros w0 Z; try discriminate.
      injection S as -> ->. destruct v as [|x v].
      * simpl in Z. apply IH2; auto.
      * simpl in Z. inv Z. apply IHa in H1 as (r' & I & L'). exists (mkcat r' (RStar g a)). split; [apply in_map_iff; eauto|]. apply mkcat_lang. constructor; auto.
    + intros (r' & I & L'). apply in_map_iff in I as (x & <- & I). apply mkcat_lang in L'. inversion L' as [| |? ? u v H1 H2| | | | | | |]; subst.
      change (c :: u ++ v) with ((c :: u) ++ v). apply L_star_more; auto. apply IHa. eauto.
  - split.
    + intros L. inversion L as [| | | | | | |? ? ? H| |]; subst. apply IHa in H. auto.
    + intros H. constructor. apply IHa. auto.
  - split; [intros L; inv L|intros (x & [] & _)].
  - split; [intros L; inv L|intros (x & [] & _)].
Qed.

(** * Deciding equality of expressions, for recognising states *)
Definition ucat_eqb (a b : ucat) : bool := match a, b with UNd, UNd | UN, UN | UL, UL | UZ, UZ => true | _, _ => false end.
Definition citem_eqb (a b : citem) : bool :=
  match a, b with
  | CR x y, CR x' y' => (x =? x') && (y =? y')
  | CU u, CU v | CUneg u, CUneg v => ucat_eqb u v
  | _, _ => false
  end.
Fixpoint list_eqb {A} (e : A -> A -> bool) (l m : list A) : bool :=
  match l, m with
  | [], [] => true
  | x :: l, y :: m => e x y && list_eqb e l m
  | _, _ => false
  end.
Lemma list_eqb_ok {A} (e : A -> A -> bool) : (forall x y, e x y = true -> x = y) -> forall l m, list_eqb e l m = true -> l = m.
Proof.
  intros E. induction l as [|x l IH]; intros [|y m] H; simpl in H; try discriminate; auto. apply andb_true_iff in H as [H1 H2]. f_equal; auto.
Qed.
Definition cls_eqb (a b : cls) : bool := Bool.eqb (cneg a) (cneg b) && list_eqb citem_eqb (citems a) (citems b) && Bool.eqb (cfold a) (cfold b).
Fixpoint regex_eqb (a b : regex) : bool :=
  match a, b with
  | REmpty, REmpty | RBegin, RBegin | REnd, REnd => true
  | RClass k, RClass l => cls_eqb k l
  | RCat x y, RCat x' y' | RAlt x y, RAlt x' y' => regex_eqb x x' && regex_eqb y y'
  | RStar g x, RStar g' x' => Bool.eqb g g' && regex_eqb x x'
  | RGroup n x, RGroup n' x' => Nat.eqb n n' && regex_eqb x x'
  | _, _ => false
  end.
Lemma citem_eqb_ok a b : citem_eqb a b = true -> a = b.
Proof.
  destruct a as [x y|u|u], b as [x' y'|v|v]; simpl; try discriminate.
  - intros H. apply andb_true_iff in H as [H1 H2]. apply N.eqb_eq in H1, H2. congruence.
  - destruct u, v; simpl; congruence.
  - destruct u, v; simpl; congruence.
Qed.
Lemma cls_eqb_ok a b : cls_eqb a b = true -> a = b.
Proof.
  destruct a as [n l f], b as [n' l' f']. unfold cls_eqb. simpl. rewrite !andb_true_iff. intros [[H1 H2] H3]. apply Bool.eqb_prop in H1, H3. apply (list_eqb_ok _ citem_eqb_ok) in H2. congruence.
Qed.
Lemma regex_eqb_ok : forall a b, regex_eqb a b = true -> a = b.
Proof.
  induction a as [|k|a1 IH1 a2 IH2|a1 IH1 a2 IH2|g a IH|n a IH| |]; intros [|k'|b1 b2|b1 b2|g' b|n' b| |]; simpl; intros H; try discriminate; auto.
  - apply cls_eqb_ok in H. congruence.
  - apply andb_true_iff in H as [H1 H2]. f_equal; auto.
  - apply andb_true_iff in H as [H1 H2]. f_equal; auto.
  - apply andb_true_iff in H as [H1 H2]. apply Bool.eqb_prop in H1. f_equal; auto.
  - apply andb_true_iff in H as [H1 H2]. apply Nat.eqb_eq in H1. f_equal; auto.
Qed.

(** * Sets of expressions: the union of their languages *)
Definition rset := list regex.
Definition langs (S : rset) (w : list N) : Prop := exists r, In r S /\ lang r w.
Fixpoint dedup (l : rset) : rset :=
  match l with
  | [] => []
  | x :: t => if existsb (regex_eqb x) t then dedup t else x :: dedup t
  end.
Lemma dedup_in x l : In x (dedup l) <-> In x l.
Proof.
  induction l as [|y l IH]; simpl; [reflexivity|]. destruct (existsb (regex_eqb y) l) eqn:E.
  - rewrite IH. split; auto. intros [<-|H]; auto. apply existsb_exists in E as (z & I & Z). apply regex_eqb_ok in Z. subst. auto.
  - simpl. rewrite IH. reflexivity.
Qed.
Definition step (c : N) (S : rset) : rset := dedup (flat_map (pder c) S).
Definition nuls (S : rset) : bool := existsb nul S.
Fixpoint run (w : list N) (S : rset) : rset := match w with [] => S | c :: t => run t (step c S) end.
(** The word belongs to the language of the set. *)
Definition acc (S : rset) (w : list N) : bool := nuls (run w S).
Lemma run_app u v S : run (u ++ v) S = run v (run u S).
Proof. revert S. induction u; simpl; auto. Qed.
Lemma acc_ok S w : acc S w = true <-> langs S w.
Proof.
  unfold acc. revert S. induction w as [|c w IH]; intros S; cbn [run].
  - unfold nuls, langs. rewrite existsb_exists. split; intros (r & I & H); exists r; (split; [auto|apply nul_ok; auto]).
  - rewrite IH. unfold langs, step. split.
    + intros (r' & I & L). rewrite dedup_in in I. apply in_flat_map in I as (r & I & P). exists r. split; auto. apply pder_ok. eauto.
    + intros (r & I & L). apply pder_ok in L as (r' & P & L). exists r'. split; auto. apply dedup_in. apply in_flat_map. eauto.
Qed.
Lemma acc_one r w : acc [r] w = true <-> lang r w.
Proof. rewrite acc_ok. unfold langs. split; [intros (x & [<-|[]] & L); auto|intros L; exists r; split; [left|]; auto]. Qed.

(** * Exploring a product *)
Definition digits10 : list N := [48; 49; 50; 51; 52; 53; 54; 55; 56; 57].
Definition vec := list rset.
Definition vstep (c : N) (x : vec) : vec := map (step c) x.
Definition vrun (w : list N) (x : vec) : vec := map (run w) x.
Definition vec_eqb : vec -> vec -> bool := list_eqb (list_eqb regex_eqb).
Lemma vec_eqb_ok x y : vec_eqb x y = true -> x = y.
Proof. apply list_eqb_ok. intros. eapply list_eqb_ok; [|eauto]. apply regex_eqb_ok. Qed.
(** One of the first k languages has no word left. *)
Definition dead (k : nat) (x : vec) : bool := existsb (fun S => match S with [] => true | _ => false end) (firstn k x).
Definition vmem (x : vec) (l : list vec) : bool := existsb (vec_eqb x) l.
Fixpoint bfs (fuel k : nat) (todo seen : list vec) : list vec :=
  match fuel, todo with
  | S f, x :: t => if dead k x || vmem x seen then bfs f k t seen else bfs f k (map (fun c => vstep c x) digits10 ++ t) (x :: seen)
  | _, _ => seen
  end.
Definition closed_ok (k : nat) (chk : vec -> bool) (l : list vec) : bool :=
  forallb (fun x => chk x && forallb (fun c => let y := vstep c x in dead k y || vmem y l) digits10) l.
(** Every state reachable from x by digits either has a dead component or passes the check. *)
Definition safe (fuel k : nat) (chk : vec -> bool) (x : vec) : bool :=
  let l := bfs fuel k [x] [] in dead k x || (vmem x l && closed_ok k chk l).
Lemma step_nil c : step c [] = []. Proof. reflexivity. Qed.
Lemma dead_step k c x : dead k x = true -> dead k (vstep c x) = true.
Proof.
  unfold dead, vstep. rewrite firstn_map. generalize (firstn k x). intros l H. apply existsb_exists in H as (S & I & E). apply existsb_exists. exists (step c S). split; [apply in_map; auto|]. destruct S; [reflexivity|discriminate].
Qed.
Lemma dead_run k w : forall x, dead k x = true -> dead k (vrun w x) = true.
Proof.
  induction w as [|c w IH]; intros x D; [unfold vrun; replace (map (run []) x) with x by (symmetry; apply map_id); auto|].
  replace (vrun (c :: w) x) with (vrun w (vstep c x)) by (unfold vrun, vstep; rewrite map_map; reflexivity). apply IH. apply dead_step. auto.
Qed.
Lemma digit_in10 c : is_digit c = true -> In c digits10.
Proof. intros H. apply is_digit_iff in H. unfold digits10. simpl. lia. Qed.
Lemma closed_run k chk l : closed_ok k chk l = true -> forall w x, In x l -> all_digits w = true -> dead k (vrun w x) = true \/ chk (vrun w x) = true.
Proof.
  intros C. induction w as [|c w IH]; intros x I D.
  - right. unfold vrun. rewrite map_id. unfold closed_ok in C. rewrite forallb_forall in C. apply C in I. apply andb_true_iff in I. tauto.
  - cbn [all_digits forallb] in D. apply andb_true_iff in D as [D1 D2]. pose proof C as C'. unfold closed_ok in C'. rewrite forallb_forall in C'. apply C' in I. apply andb_true_iff in I as [_ I].
    rewrite forallb_forall in I. specialize (I c (digit_in10 _ D1)). cbv zeta in I. replace (vrun (c :: w) x) with (vrun w (vstep c x)) by (unfold vrun, vstep; rewrite map_map; reflexivity).
    apply orb_true_iff in I as [I|I]; [left; apply dead_run; auto|]. unfold vmem in I. apply existsb_exists in I as (y & Y & E). apply vec_eqb_ok in E. subst y. apply IH; auto.
Qed.
Lemma safe_run fuel k chk x : safe fuel k chk x = true -> forall w, all_digits w = true -> dead k (vrun w x) = true \/ chk (vrun w x) = true.
Proof.
  unfold safe. cbv zeta. intros H w D. apply orb_true_iff in H as [H|H]; [left; apply dead_run; auto|]. apply andb_true_iff in H as [H1 H2]. unfold vmem in H1. apply existsb_exists in H1 as (y & Y & E). apply vec_eqb_ok in E. subst y. eapply closed_run; eauto.
Qed.
(** A component with a word left is not empty. *)
Lemma run_nonempty S w : acc S w = true -> S <> [].
Proof. intros A E. subst. apply acc_ok in A as (r & [] & _). Qed.
Lemma dead_false k x : Forall (fun S => S <> []) (firstn k x) -> dead k x = false.
Proof.
  intros F. unfold dead. match goal with |- ?e = false => destruct e eqn:E end; [exfalso|reflexivity]. apply existsb_exists in E as (S & I & E). rewrite Forall_forall in F. apply F in I. destruct S; [congruence|discriminate].
Qed.

(** * What a match tells when the text goes on, and about a group *)
Definition never : regex := RClass {| cneg := false; citems := []; cfold := false |}.
(** Without the alternatives that need the end of the text. *)
Fixpoint kill_end (r : regex) : regex :=
  match r with
  | REnd => never
  | RCat a b => RCat (kill_end a) (kill_end b)
  | RAlt a b => RAlt (kill_end a) (kill_end b)
  | RStar g a => RStar g (kill_end a)
  | RGroup n a => RGroup n (kill_end a)
  | _ => r
  end.
(** Without the alternatives that pass through group n. *)
Fixpoint kill_group (n : nat) (r : regex) : regex :=
  match r with
  | RCat a b => RCat (kill_group n a) (kill_group n b)
  | RAlt a b => RAlt (kill_group n a) (kill_group n b)
  | RStar g a => RStar g (kill_group n a)
  | RGroup m a => if (m =? n)%nat then never else RGroup m (kill_group n a)
  | _ => r
  end.
(** Only the alternatives that pass through group n. *)
Fixpoint via_group (n : nat) (r : regex) : regex :=
  match r with
  | RCat a b => RAlt (RCat (via_group n a) b) (RCat a (via_group n b))
  | RAlt a b => RAlt (via_group n a) (via_group n b)
  | RStar g a => RCat (RStar g a) (RCat (via_group n a) (RStar g a))
  | RGroup m a => if (m =? n)%nat then a else via_group n a
  | _ => never
  end.
Lemma derives_le r p s cs p' s' cs' : derives r p s cs p' s' cs' -> (len s' <= len s)%nat.
Proof. induction 1; auto; try lia. apply decode_rune_lt in H. unfold len. lia. Qed.
Lemma derives_goes_on r p s cs p' s' cs' : derives r p s cs p' s' cs' -> s' <> [] -> derives (kill_end r) p s cs p' s' cs'.
Proof.
  assert (Suf : forall r p s cs p' s' cs', derives r p s cs p' s' cs' -> s' <> [] -> s <> []).
  { intros r0 p0 s0 cs0 p1 s1 cs1 D NE E. apply derives_le in D. subst s0. destruct s1; [congruence|]. unfold len in D. simpl in D. lia. }
  induction 1; intros NE; cbn [kill_end]; try (econstructor; eauto; fail).
  - congruence.
Qed.
Definition has_group (n : nat) (cs : caps) : Prop := exists ij, In (n, ij) cs.
Lemma caps_grow r p s cs p' s' cs' n : derives r p s cs p' s' cs' -> has_group n cs -> has_group n cs'.
Proof. induction 1; intros G; auto. destruct (IHderives G) as (ij & I). exists ij. right. auto. Qed.
Lemma derives_without r p s cs p' s' cs' n : derives r p s cs p' s' cs' -> ~ has_group n cs' -> derives (kill_group n r) p s cs p' s' cs'.
Proof.
  induction 1; intros NG; cbn [kill_group]; try (econstructor; eauto; fail).
  - econstructor; [apply IHderives1|apply IHderives2]; auto. intros G. apply NG. eapply caps_grow; eauto.
  - eapply D_star_more; [apply IHderives1|auto|apply IHderives2; auto]. intros G. apply NG. eapply caps_grow; [exact H1|auto].
  - destruct (Nat.eqb_spec n0 n) as [->|]; [exfalso; apply NG; eexists; left; reflexivity|]. constructor. apply IHderives. intros (ij & I). apply NG. exists ij. right. auto.
Qed.
Lemma has_group_dec n cs : has_group n cs \/ ~ has_group n cs.
Proof.
  induction cs as [|[m ij] cs IH]; [right; intros (x & [])|]. destruct (Nat.eq_dec m n) as [->|NE]; [left; exists ij; left; reflexivity|]. destruct IH as [(x & I)|NI]; [left; exists x; right; auto|]. right. intros (x & [E|I]); [congruence|]. apply NI. exists x. auto.
Qed.
Lemma derives_via r p s cs p' s' cs' n : derives r p s cs p' s' cs' -> has_group n cs' -> ~ has_group n cs -> exists w, eats s w s' /\ lang (via_group n r) w.
Proof.
  induction 1; intros G NG; cbn [via_group]; try (exfalso; apply NG; exact G).
  - destruct (has_group_dec n cs1) as [G1|G1].
    + destruct (IHderives1 G1 NG) as (w & E & L). apply derives_lang in H0 as (v & E' & L'). exists (w ++ v). split; [eapply eats_app; eauto|]. apply L_alt_l. constructor; auto.
    + destruct (IHderives2 G G1) as (w & E & L). apply derives_lang in H as (v & E' & L'). exists (v ++ w). split; [eapply eats_app; eauto|]. apply L_alt_r. constructor; auto.
  - destruct (IHderives G NG) as (w & E & L). exists w. split; auto. apply L_alt_l. auto.
  - destruct (IHderives G NG) as (w & E & L). exists w. split; auto. apply L_alt_r. auto.
  - destruct (has_group_dec n cs1) as [G1|G1].
    + destruct (IHderives1 G1 NG) as (w & E & L). apply derives_lang in H1 as (v & E' & L'). exists (w ++ v). split; [eapply eats_app; eauto|].
      change (w ++ v) with ([] ++ (w ++ v)). constructor; [constructor|]. constructor; auto.
    + destruct (IHderives2 G G1) as (w & E & L). cbn [via_group] in L. apply derives_lang in H as (v & E' & L'). exists (v ++ w). split; [eapply eats_app; eauto|].
      inversion L as [| |? ? x y H2 H3| | | | | | |]; subst. rewrite app_assoc. constructor; auto. apply L_star_more; auto.
  - destruct (Nat.eqb_spec n0 n) as [->|NE].
    + apply derives_lang in H. exact H.
    + apply IHderives; auto. destruct G as (ij & [E|I]); [congruence|]. exists ij. auto.
Qed.
