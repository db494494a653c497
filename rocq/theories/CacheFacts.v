(** Invariants of the expression cache under any schedule. *)
From Coq Require Import Lia.
From Verif Require Import Base BaseFacts RegexCache.
Local Open Scope nat_scope.

Lemma upd_length {A} (l : list A) i x : length (upd l i x) = length l.
Proof. revert i; induction l as [|y l IH]; intros [|i]; simpl; auto. Qed.
Lemma nth_upd {A} (l : list A) i x y j : nth_error l i = Some y -> nth_error (upd l i x) j = if Nat.eq_dec i j then Some x else nth_error l j.
Proof.
  revert i j; induction l as [|z l IH]; intros [|i] [|j] E; simpl in E |- *; try discriminate; auto.
  rewrite (IH i j E). destruct (Nat.eq_dec i j), (Nat.eq_dec (S i) (S j)); congruence || lia.
Qed.
Definition sum {A} (f : A -> nat) (l : list A) : nat := fold_right (fun x n => f x + n) 0 l.
Lemma sum_upd {A} (f : A -> nat) l i x y : nth_error l i = Some y -> sum f (upd l i x) + f y = sum f l + f x.
Proof. unfold sum. revert i; induction l as [|z l IH]; intros [|i] E; simpl in E |- *; try discriminate; [injection E as ->; lia|specialize (IH i E); lia]. Qed.
Lemma sum_zero {A} (f : A -> nat) l i x : sum f l = 0 -> nth_error l i = Some x -> f x = 0.
Proof. unfold sum. revert i; induction l as [|z l IH]; intros [|i] S0 E; simpl in S0, E; try discriminate; [injection E as ->; lia|apply (IH i); [lia|exact E]]. Qed.
Lemma sum_pos {A} (f : A -> nat) l : 0 < sum f l -> exists i x, nth_error l i = Some x /\ 0 < f x.
Proof.
  unfold sum. induction l as [|z l IH]; simpl; intros H; [lia|]. destruct (f z) eqn:E.
  - destruct IH as (i & x & Hi & Hx); [lia|]. exists (S i), x. auto.
  - exists 0, z. split; [reflexivity|lia].
Qed.

Lemma run_ind (P : state -> Prop) valid : (forall s t s', P s -> next valid s t = Some s' -> P s') -> forall sched s, P s -> P (run valid s sched).
Proof. intros H sched. induction sched as [|t sched IH]; intros s Ps; simpl; [exact Ps|]. apply IH. destruct (next valid s t) eqn:E; [eapply H; eauto|exact Ps]. Qed.
Lemma run_app valid a b s : run valid s (a ++ b) = run valid (run valid s a) b.
Proof. revert s; induction a as [|t a IH]; intros s; simpl; auto. Qed.

(** Every way a step can go. *)
Ltac steps s t E T :=
  unfold next in E; destruct (nth_error (s_thr s) t) as [[c todo]|] eqn:T; [|discriminate];
  destruct c as [|p|p|p v|p|p r|p r|p r|p r|p r|p]; cbv zeta in E;
  [ destruct todo as [|p todo]; [discriminate|]
  | destruct (s_writer s) as [w|] eqn:Wr; [discriminate|]
  | | | match type of E with context [if ?v then _ else _] => destruct v eqn:Vp end
  | destruct (s_writer s) as [w|] eqn:Wr; [discriminate|]
  | destruct (s_readers s) as [|n] eqn:Rd; [|discriminate]
  | | | | discriminate ];
  injection E as <-.

(** ** The lock *)
Definition reads (c : pc * list bytes) : nat := match fst c with Reading _ | ReadDone _ _ => 1 | _ => 0 end.
Definition owns (c : pc) : bool := match c with Draining _ _ | Writing _ _ | Unlocking _ _ => true | _ => false end.
Definition holds (c : pc) : bool := match c with Writing _ _ | Unlocking _ _ => true | _ => false end.
Record lock_inv (s : state) : Prop := {
  l_readers : s_readers s = sum reads (s_thr s);
  l_writer : forall t c todo, nth_error (s_thr s) t = Some (c, todo) -> (owns c = true <-> s_writer s = Some t);
  l_thread : forall t, s_writer s = Some t -> exists x, nth_error (s_thr s) t = Some x;
  l_hold : forall t c todo, nth_error (s_thr s) t = Some (c, todo) -> holds c = true -> s_readers s = 0
}.
Lemma lock_step valid s t s' : lock_inv s -> next valid s t = Some s' -> lock_inv s'.
Proof.
  intros [LR LW LT LH] E. steps s t E T;
  (assert (U := fun x => sum_upd reads (s_thr s) t x _ T); pose proof (LW _ _ _ T) as LWt; cbn [owns] in LWt;
   split; cbn [s_readers s_writer s_thr];
   [ match goal with |- context [upd _ _ ?x] => specialize (U x); cbn [reads fst] in U |- *; try (destruct v as [?|]; cbn [reads fst] in U); lia end
   | intros t0 c0 todo0 H0; rewrite (nth_upd _ _ _ _ _ T) in H0; destruct (Nat.eq_dec t t0) as [<-|Nt]; [injection H0 as <- <-; cbn [owns]|pose proof (LW _ _ _ H0) as LW0; try rewrite Wr in *]
   | intros t0 H0; try congruence; try rewrite (nth_upd _ _ _ _ _ T)
   | intros t0 c0 todo0 H0 Hh; rewrite (nth_upd _ _ _ _ _ T) in H0; destruct (Nat.eq_dec t t0) as [<-|Nt]; [injection H0 as <- <-; cbn [holds] in Hh; try discriminate|pose proof (LH _ _ _ H0 Hh) as LH0] ]).
  all: try (try rewrite Wr in *; first [tauto | congruence | lia]).
  all: try (destruct (Nat.eq_dec t t0); [eexists; reflexivity|]; first [apply LT; auto; fail | congruence]).
  - exfalso. pose proof (LW _ _ _ H0) as L. assert (owns c0 = true) by (destruct c0; cbn in Hh |- *; congruence). apply L in H. discriminate.
  - destruct v; cbn [owns]; tauto.
  - destruct v; discriminate.
  - split; [intros H; apply LW0 in H; discriminate|congruence].
  - apply (LH _ _ _ T). reflexivity.
  - split; discriminate.
  - split; [|discriminate]. intros H. apply LW0 in H. rewrite (proj1 LWt eq_refl) in H. congruence.
Qed.
Lemma lock_run valid calls sched : lock_inv (after valid calls sched).
Proof.
  apply (run_ind lock_inv); [intros; eapply lock_step; eauto|]. unfold start. split; cbn [s_readers s_writer s_thr].
  - induction calls; simpl; auto.
  - intros t c todo H. rewrite nth_error_map in H. destruct (nth_error calls t); [|discriminate]. injection H as <- <-. split; discriminate.
  - discriminate.
  - intros t c todo H. rewrite nth_error_map in H. destruct (nth_error calls t); [|discriminate]. injection H as <- <-. discriminate.
Qed.

(** ** What is stored and returned *)
Definition carries (c : pc) (p : bytes) (r : re) : Prop :=
  match c with
  | ReadDone q (Some x) => q = p /\ x = r
  | Locking q x | Draining q x | Writing q x | Unlocking q x | Returning q x => q = p /\ x = r
  | _ => False
  end.
Definition made (tr : list event) (p : bytes) (r : re) : Prop := re_pat r = p /\ exists t, In (ECompile t p (re_id r)) tr.
Record value_inv (s : state) : Prop := {
  v_cache : forall p r, In (p, r) (s_cache s) -> made (s_trace s) p r;
  v_thr : forall t c todo p r, nth_error (s_thr s) t = Some (c, todo) -> carries c p r -> made (s_trace s) p r;
  v_ret : forall a b t p r, s_trace s = a ++ EReturn t p r :: b -> made b p r
}.
Lemma made_cons e tr p r : made tr p r -> made (e :: tr) p r.
Proof. intros (A & t & B). split; [exact A|]. exists t. right. exact B. Qed.
Lemma assocb_In {V} k (l : list (bytes * V)) v : assocb k l = Some v -> In (k, v) l.
Proof. unfold assocb. induction l as [|[k' v'] l IH]; simpl; [discriminate|]. destruct (beq_spec k k') as [->|Ne]; [intros [= ->]; left; reflexivity|right; auto]. Qed.
Lemma cons_split {A} (e x : A) tr a b : e :: tr = a ++ x :: b -> (a = [] /\ e = x /\ tr = b) \/ exists a', a = e :: a' /\ tr = a' ++ x :: b.
Proof. intros H. destruct a as [|y a]; simpl in H; injection H as -> H; [left; auto|right; exists a; auto]. Qed.
Lemma value_step valid s t s' : value_inv s -> next valid s t = Some s' -> value_inv s'.
Proof.
  intros [VC VT VR] E. steps s t E T;
  (split; cbn [s_cache s_thr s_trace];
   [ intros p0 r0 H0; try (destruct H0 as [H0|H0]; [injection H0 as <- <-; apply (VT _ _ _ _ _ T); split; reflexivity|])
   | intros t0 c0 todo0 p0 r0 H0 Hc; rewrite (nth_upd _ _ _ _ _ T) in H0; destruct (Nat.eq_dec t t0) as [<-|Nt]; [injection H0 as <- <-|]
   | intros a b t0 p0 r0 H0; try (apply cons_split in H0 as [(-> & Q & <-)|(a' & -> & H0)]; [try discriminate; try (injection Q as <- <- <-)|]) ]).
  all: try (apply (VR _ _ _ _ _ H0)).
  all: try solve [repeat apply made_cons; first [apply (VC _ _ H0) | apply (VT _ _ _ _ _ H0 Hc) | apply (VT _ _ _ _ _ T); exact Hc | destruct Hc; fail]].
  - cbn [carries] in Hc. destruct (assocb p (s_cache s)) as [x|] eqn:A; [|destruct Hc]. destruct Hc as [<- <-]. apply VC. apply assocb_In. exact A.
  - destruct v as [x|]; [|destruct Hc]. apply (VT _ _ _ _ _ T). exact Hc.
  - destruct Hc as [<- <-]. split; [reflexivity|]. exists t. left. reflexivity.
  - apply (VT _ _ _ _ _ T). split; reflexivity.
Qed.
Lemma value_run valid calls sched : value_inv (after valid calls sched).
Proof.
  apply (run_ind value_inv); [intros; eapply value_step; eauto|]. unfold start. split; cbn [s_cache s_thr s_trace].
  - intros p r [].
  - intros t c todo p r H Hc. rewrite nth_error_map in H. destruct (nth_error calls t); [|discriminate]. injection H as <- <-. destruct Hc.
  - intros a b t p r H. destruct a; discriminate.
Qed.

(** ** Who compiles, and when *)
Definition known (s : state) (p : bytes) : Prop := exists r, assocb p (s_cache s) = Some r.
Definition busy (c : pc) : option bytes :=
  match c with
  | Idle => None
  | Entered p | Reading p | ReadDone p _ | Compiling p | Locking p _ | Draining p _ | Writing p _ | Unlocking p _ | Returning p _ | Panicked p => Some p
  end.
Definition missed (c : pc) : bool := match c with ReadDone _ None | Compiling _ => true | _ => false end.
Definition stored (c : pc) : bool := match c with ReadDone _ (Some _) | Unlocking _ _ | Returning _ _ => true | _ => false end.
Definition compiled (c : pc) : bool := match c with Locking _ _ | Draining _ _ | Writing _ _ | Unlocking _ _ | Returning _ _ => true | _ => false end.
Definition own (t : nat) (e : event) : bool := match e with ECall u _ | EReturn u _ _ => t =? u | _ => false end.
Record hist_inv (s : state) : Prop := {
  h_ret : forall t p r, In (EReturn t p r) (s_trace s) -> known s p;
  h_stored : forall t c todo p, nth_error (s_thr s) t = Some (c, todo) -> busy c = Some p -> stored c = true -> known s p;
  h_call : forall t c todo p, nth_error (s_thr s) t = Some (c, todo) -> busy c = Some p ->
             exists a b, s_trace s = a ++ ECall t p :: b /\ forallb (fun e => negb (own t e)) a = true /\ (missed c = true -> forall u r, ~ In (EReturn u p r) b);
  h_once : forall a b t p u r id, s_trace s = a ++ ECall t p :: b -> In (EReturn u p r) b -> ~ In (ECompile t p id) a;
  h_comp : forall t p id, In (ECompile t p id) (s_trace s) -> (exists r, In (EReturn t p r) (s_trace s)) \/ (exists c todo, nth_error (s_thr s) t = Some (c, todo) /\ busy c = Some p /\ compiled c = true);
  h_single : forall a b t p id id', s_trace s = a ++ ECompile t p id :: b -> ~ In (ECompile t p id') b
}.
Lemma known_grow s p q r : known s p -> exists x, assocb p ((q, r) :: s_cache s) = Some x.
Proof. intros (x & A). unfold assocb in *. simpl. destruct (beq p q); eauto. Qed.

Lemma hist_silent s t c todo c' s' : hist_inv s -> nth_error (s_thr s) t = Some (c, todo) -> s_thr s' = upd (s_thr s) t (c', todo) -> s_trace s' = s_trace s ->
  (forall p, known s p -> known s' p) -> busy c' = busy c -> (missed c' = true -> missed c = true \/ forall p, busy c = Some p -> ~ known s p) ->
  (stored c' = true -> forall p, busy c = Some p -> stored c = true \/ known s' p) -> (compiled c = true -> compiled c' = true) -> hist_inv s'.
Proof.
  intros [HR HS HC HO HM H1] T Th Tr Gr Bu Mi St Co. split; rewrite ?Tr; auto.
  - intros u p r I. apply Gr. eapply HR; eauto.
  - intros u c0 todo0 p H B S0. rewrite Th, (nth_upd _ _ _ _ _ T) in H. destruct (Nat.eq_dec t u) as [<-|Nt].
    + injection H as <- <-. rewrite Bu in B. destruct (St S0 p B) as [S1|K]; [apply Gr; eapply HS; eauto|exact K].
    + apply Gr. eapply HS; eauto.
  - intros u c0 todo0 p H B. rewrite Th, (nth_upd _ _ _ _ _ T) in H. destruct (Nat.eq_dec t u) as [<-|Nt].
    + injection H as <- <-. rewrite Bu in B. destruct (HC _ _ _ _ T B) as (a & b & E & F & G). exists a, b. split; [exact E|]. split; [exact F|]. intros M0 u r I. destruct (Mi M0) as [M1|Nk]; [eapply G; eauto|].
      apply (Nk p B). apply (HR u p r). rewrite E. apply in_or_app. right. right. exact I.
    + eapply HC; eauto.
  - intros u p id I. destruct (HM u p id I) as [L|(c0 & todo0 & H & B & C0)]; [left; exact L|right]. rewrite Th. destruct (Nat.eq_dec t u) as [<-|Nt].
    + rewrite T in H. injection H as <- <-. exists c', todo. rewrite (nth_upd _ _ _ _ _ T). destruct (Nat.eq_dec t t); [|congruence]. split; [reflexivity|]. split; [congruence|auto].
    + exists c0, todo0. rewrite (nth_upd _ _ _ _ _ T). destruct (Nat.eq_dec t u); [congruence|]. auto.
Qed.
(** Steps with an event that leave the cache alone. *)
Lemma hist_event s t c todo c' todo' e s' : hist_inv s -> nth_error (s_thr s) t = Some (c, todo) -> s_thr s' = upd (s_thr s) t (c', todo') -> s_trace s' = e :: s_trace s -> s_cache s' = s_cache s ->
  (forall u, u <> t -> own u e = false) -> (forall u p r, e = EReturn u p r -> u = t /\ busy c = Some p /\ stored c = true) ->
  (forall p, busy c' = Some p -> stored c' = false /\ missed c' = false /\ (e = ECall t p \/ busy c = Some p /\ own t e = false)) ->
  (forall u p id, e = ECompile u p id -> u = t /\ busy c = Some p /\ busy c' = Some p /\ missed c = true /\ compiled c = false /\ compiled c' = true) ->
  (compiled c = true -> exists p r, busy c = Some p /\ e = EReturn t p r) -> hist_inv s'.
Proof.
  intros [HR HS HC HO HM H1] T Th Tr Ca Ow Re Bu Cm Cc.
  assert (Kn : forall p, known s p -> known s' p) by (intros p K; unfold known in *; rewrite Ca; exact K).
  split; rewrite ?Tr.
  - intros u p r [->|I]; [|apply Kn; eapply HR; eauto]. destruct (Re _ _ _ eq_refl) as (-> & B & S0). apply Kn. eapply HS; eauto.
  - intros u c0 todo0 p H B S0. rewrite Th, (nth_upd _ _ _ _ _ T) in H. destruct (Nat.eq_dec t u) as [<-|Nt].
    + injection H as <- <-. destruct (Bu p B) as (S1 & _). congruence.
    + apply Kn. eapply HS; eauto.
  - intros u c0 todo0 p H B. rewrite Th, (nth_upd _ _ _ _ _ T) in H. destruct (Nat.eq_dec t u) as [<-|Nt].
    + injection H as <- <-. destruct (Bu p B) as (_ & M0 & [->|(B0 & O0)]).
      * exists [], (s_trace s). split; [reflexivity|]. split; [reflexivity|]. congruence.
      * destruct (HC _ _ _ _ T B0) as (a & b & E & F & G). exists (e :: a), b. split; [rewrite E; reflexivity|]. split; [simpl; rewrite O0; exact F|congruence].
    + destruct (HC _ _ _ _ H B) as (a & b & E & F & G). exists (e :: a), b. split; [rewrite E; reflexivity|]. split; [simpl; rewrite Ow by auto; exact F|exact G].
  - intros a b u p v r id E I J. apply cons_split in E as [(-> & _ & _)|(a' & -> & E)]; [destruct J|]. destruct J as [->|J]; [|eapply HO; eauto].
    destruct (Cm _ _ _ eq_refl) as (-> & B & _ & M0 & _). destruct (HC _ _ _ _ T B) as (a2 & b2 & E2 & F2 & G2). rewrite E in E2.
    (* the last call of t is the one at the head of b2, so the return lies in b2 *)
    assert (Sp : (exists m, b2 = m ++ ECall t p :: b) \/ (a' = a2 /\ b = b2)).
    { clear - E2 F2. revert a2 E2 F2. induction a' as [|x a' IH]; intros a2 E2 F2; destruct a2 as [|y a2]; simpl in E2.
      - injection E2 as E2. right. auto.
      - injection E2 as <- E2. simpl in F2. rewrite Nat.eqb_refl in F2. discriminate.
      - injection E2 as -> E2. left. exists a'. auto.
      - injection E2 as -> E2. simpl in F2. apply andb_true_iff in F2 as (_ & F2). destruct (IH a2 E2 F2) as [L|(-> & ->)]; [left; exact L|right; auto]. }
    destruct Sp as [(m & ->)|(_ & ->)]; eapply (G2 M0); [apply in_or_app; right; right; exact I|exact I].
  - intros u p id [->|I].
    + destruct (Cm _ _ _ eq_refl) as (-> & B & B' & _ & _ & C'). right. exists c', todo'. rewrite Th, (nth_upd _ _ _ _ _ T). destruct (Nat.eq_dec t t); [|congruence]. auto.
    + destruct (HM u p id I) as [(r & L)|(c0 & todo0 & H & B & C0)]; [left; exists r; right; exact L|]. destruct (Nat.eq_dec u t) as [->|Nt].
      * rewrite T in H. injection H as <- <-. destruct (Cc C0) as (q & r & B2 & ->). left. exists r. left. congruence.
      * right. exists c0, todo0. rewrite Th, (nth_upd _ _ _ _ _ T). destruct (Nat.eq_dec t u); [congruence|]. auto.
  - intros a b u p id id' E I. apply cons_split in E as [(-> & -> & <-)|(a' & -> & E)]; [|eapply H1; eauto].
    destruct (Cm _ _ _ eq_refl) as (-> & B & _ & M0 & C0 & _). destruct (HM _ _ _ I) as [(r & R)|(c0 & todo0 & H & B' & C1)]; [|rewrite T in H; injection H as <- <-; congruence].
    destruct (HC _ _ _ _ T B) as (a2 & b2 & E2 & F2 & G2). rewrite E2 in R. apply in_app_or in R as [R|[R|R]]; [|discriminate|eapply G2; eauto].
    rewrite forallb_forall in F2. specialize (F2 _ R). simpl in F2. rewrite Nat.eqb_refl in F2. discriminate.
Qed.
Ltac silent s t todo H T c' := eapply (hist_silent s t _ todo c' _ H T); try reflexivity; try (intros ? K; exact K); auto; try discriminate.
Lemma hist_step valid s t s' : hist_inv s -> next valid s t = Some s' -> hist_inv s'.
Proof.
  intros H E. steps s t E T.
  - eapply (hist_event s t _ _ (Entered p) _ (ECall t p)); try reflexivity; try exact T; try exact H; try discriminate.
    + intros u N0. simpl. apply Nat.eqb_neq. exact N0.
    + intros q [= ->]. auto.
  - silent s t todo H T (Reading p); discriminate.
  - silent s t todo H T (ReadDone p (assocb p (s_cache s))); try discriminate.
    + unfold known. destruct (assocb p (s_cache s)) eqn:A; [discriminate|]. intros _. right. intros q [= <-] (x & K). congruence.
    + unfold known. cbn [s_cache]. destruct (assocb p (s_cache s)) eqn:A; [|discriminate]. intros _ q [= <-]. right. eauto.
  - silent s t todo H T (match v with Some r => Returning p r | None => Compiling p end); try (destruct v; reflexivity); try (destruct v; auto; discriminate).
  - eapply (hist_event s t _ _ (Locking p _) _ (ECompile t p _)); try reflexivity; try exact T; try exact H; try discriminate.
    + intros q [= <-]. auto.
    + intros u q id [= <- <- _]. auto 10.
  - eapply (hist_event s t _ _ (Panicked p) _ (EPanic t p)); try reflexivity; try exact T; try exact H; try discriminate. intros q [= <-]. auto.
  - silent s t todo H T (Draining p r); discriminate.
  - silent s t todo H T (Writing p r); discriminate.
  - silent s t todo H T (Unlocking p r); try discriminate.
    + intros q K. destruct (known_grow s q p r K) as (x & X). exists x. exact X.
    + intros _ q [= <-]. right. exists r. unfold assocb. simpl. rewrite (proj2 (beq_eq p p) eq_refl). reflexivity.
  - silent s t todo H T (Returning p r); discriminate.
  - eapply (hist_event s t _ _ (Idle) _ (EReturn t p r)); try reflexivity; try exact T; try exact H; try discriminate.
    + intros u N0. simpl. apply Nat.eqb_neq. exact N0.
    + intros u q x [= <- <- _]. auto.
    + intros _. exists p, r. auto.
Qed.
Lemma hist_run valid calls sched : hist_inv (after valid calls sched).
Proof.
  apply (run_ind hist_inv); [intros; eapply hist_step; eauto|]. unfold start.
  assert (Q : forall t c todo, nth_error (map (fun l => (Idle, l)) calls) t = Some (c, todo) -> c = Idle) by (intros t c todo H; rewrite nth_error_map in H; destruct (nth_error calls t); [injection H as <- <-; reflexivity|discriminate]).
  split; cbn [s_cache s_thr s_trace].
  - intros t p r [].
  - intros t c todo p H B. apply Q in H. subst c. discriminate.
  - intros t c todo p H B. apply Q in H. subst c. discriminate.
  - intros a b t p u r id E. destruct a; discriminate.
  - intros t p id [].
  - intros a b t p id id' E. destruct a; discriminate.
Qed.

(** ** Progress *)
Definition weight (c : pc) : nat :=
  match c with
  | Idle => 0 | Entered _ => 9 | Reading _ => 8 | ReadDone _ _ => 7 | Compiling _ => 6 | Locking _ _ => 5 | Draining _ _ => 4 | Writing _ _ => 3 | Unlocking _ _ => 2 | Returning _ _ => 1 | Panicked _ => 0
  end.
Definition work (x : pc * list bytes) : nat := match fst x with Panicked _ => 0 | c => weight c + 10 * length (snd x) end.
Definition left_to_do (s : state) : nat := sum work (s_thr s).
Lemma work_step valid s t s' : next valid s t = Some s' -> left_to_do s' < left_to_do s.
Proof.
  intros E. unfold left_to_do. steps s t E T; cbn [s_thr]; match goal with |- sum work (upd _ _ ?x) < _ => pose proof (sum_upd work _ _ x _ T) as U end; unfold work in U at 2 4; cbn [fst snd weight length] in U; try lia.
  destruct v; cbn [weight] in U; lia.
Qed.
Definition finished (x : pc * list bytes) : Prop := x = (Idle, []) \/ exists p todo, x = (Panicked p, todo).
Lemma progress valid s : lock_inv s -> (forall t x, nth_error (s_thr s) t = Some x -> finished x) \/ exists t s', next valid s t = Some s'.
Proof.
  intros [LR LW LT LH].
  destruct (s_writer s) as [w|] eqn:Wr.
  - (* someone is writing or about to *)
    destruct (LT w eq_refl) as ((c & todo) & T). pose proof (proj2 (LW _ _ _ T) eq_refl) as O. right.
    destruct (s_readers s) as [|n] eqn:Rd.
    + exists w. unfold next. rewrite T. destruct c; try discriminate; rewrite ?Rd; eexists; reflexivity.
    + destruct (sum_pos reads (s_thr s)) as (i & (c' & todo') & Ti & Ri); [lia|]. exists i. unfold next. rewrite Ti. destruct c'; cbn in Ri; try lia; eexists; reflexivity.
  - destruct (sum work (s_thr s)) eqn:W.
    + left. intros t (c & todo) T. pose proof (sum_zero work _ _ _ W T) as Z0. unfold work in Z0. cbn [fst snd] in Z0. destruct c; cbn [weight] in Z0; try lia; [left|right; eauto]. destruct todo; [reflexivity|simpl in Z0; lia].
    + destruct (sum_pos work (s_thr s)) as (i & (c & todo) & Ti & Wi); [lia|].
      right. exists i. unfold next. rewrite Ti. pose proof (LW _ _ _ Ti) as L. destruct c; rewrite ?Wr; try (eexists; reflexivity); cbn [owns] in L.
      * destruct todo; [unfold work in Wi; simpl in Wi; lia|]. eexists. reflexivity.
      * destruct (valid p); eexists; reflexivity.
      * destruct L as (L & _). specialize (L eq_refl). discriminate.
      * unfold work in Wi. simpl in Wi. lia.
Qed.
