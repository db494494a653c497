(** C36: the cache of compiled expressions, for any number of goroutines, any calls and any schedule. *)
From Coq Require Import Lia.
From Verif Require Import Base BaseFacts RegexCache CacheFacts.
Local Open Scope nat_scope.

(** Traces are newest first: [a ++ e :: b] says that [b] happened before [e] and [a] after it. *)
(** Every call of For(p) returns an expression compiled from p, and compiled before the return. *)
Theorem C36_result : forall valid calls sched a b t p r, s_trace (after valid calls sched) = a ++ EReturn t p r :: b ->
  re_pat r = p /\ exists u, In (ECompile u p (re_id r)) b.
Proof. intros valid calls sched a b t p r E. apply (v_ret _ (value_run valid calls sched) _ _ _ _ _ E). Qed.
Print Assumptions C36_result.
(** Once some call of For(p) has returned, no call of For(p) that starts later compiles p. *)
Theorem C36_no_recompile : forall valid calls sched a b t p u r id, s_trace (after valid calls sched) = a ++ ECall t p :: b -> In (EReturn u p r) b -> ~ In (ECompile t p id) a.
Proof. intros valid calls sched a b t p u r id. apply (h_once _ (hist_run valid calls sched)). Qed.
Print Assumptions C36_no_recompile.
(** No goroutine compiles the same pattern twice, so a pattern is compiled at most once per goroutine. *)
Theorem C36_once_each : forall valid calls sched a b t p id id', s_trace (after valid calls sched) = a ++ ECompile t p id :: b -> ~ In (ECompile t p id') b.
Proof. intros valid calls sched a b t p id id'. apply (h_single _ (hist_run valid calls sched)). Qed.
Print Assumptions C36_once_each.
(** The map is never written while it is read or written by someone else. *)
Definition about_to_write (s : state) (t : nat) : Prop := exists p r todo, nth_error (s_thr s) t = Some (Writing p r, todo).
Definition about_to_read (s : state) (t : nat) : Prop := exists p todo, nth_error (s_thr s) t = Some (Reading p, todo).
Theorem C36_no_race : forall valid calls sched t u, let s := after valid calls sched in t <> u -> about_to_write s t -> ~ about_to_write s u /\ ~ about_to_read s u.
Proof.
  intros valid calls sched t u s Ne (p & r & todo & T). destruct (lock_run valid calls sched) as [LR LW LT LH]. fold s in LR, LW, LT, LH.
  assert (Wt : s_writer s = Some t) by (apply (LW _ _ _ T); reflexivity). split.
  - intros (p' & r' & todo' & U). assert (s_writer s = Some u) by (apply (LW _ _ _ U); reflexivity). congruence.
  - intros (p' & todo' & U). pose proof (LH _ _ _ T eq_refl) as R0. rewrite LR in R0. pose proof (sum_zero reads _ _ _ R0 U) as Z0. discriminate.
Qed.
Print Assumptions C36_no_race.
(** There is no deadlock: as long as a goroutine has calls to make or to finish (and has not panicked), some goroutine can go on. *)
Theorem C36_no_deadlock : forall valid calls sched, let s := after valid calls sched in
  (forall t, next valid s t = None) -> forall t x, nth_error (s_thr s) t = Some x -> finished x.
Proof.
  intros valid calls sched s Q t x T. destruct (progress valid s (lock_run valid calls sched)) as [F|(u & s' & N0)]; [apply (F t x T)|]. rewrite Q in N0. discriminate.
Qed.
Print Assumptions C36_no_deadlock.
(** Every execution ends: each call takes at most ten steps in all, whatever the schedule. *)
Fixpoint effective (valid : bytes -> bool) (s : state) (sched : list nat) : Prop :=
  match sched with [] => True | t :: l => exists s', next valid s t = Some s' /\ effective valid s' l end.
Theorem C36_terminates : forall valid calls sched, effective valid (start calls) sched -> length sched <= 10 * length (concat calls).
Proof.
  intros valid calls sched E.
  assert (B : forall sched s, effective valid s sched -> length sched <= left_to_do s).
  { clear. induction sched as [|t l IH]; intros s E; cbn [length effective] in *; [lia|]. destruct E as (s' & N0 & E). pose proof (work_step valid s t s' N0). specialize (IH s' E). lia. }
  specialize (B sched (start calls) E). enough (left_to_do (start calls) = 10 * length (concat calls)) by lia. clear.
  unfold left_to_do, start. cbn [s_thr]. induction calls as [|l calls IH]; [reflexivity|]. cbn [map concat]. rewrite app_length. unfold sum in *. cbn [fold_right]. rewrite IH. unfold work. cbn [fst snd weight]. lia.
Qed.
Print Assumptions C36_terminates.
(** When nothing can run any more, each goroutine got a result for its calls, in order, up to the first pattern that is not a valid expression, where it panicked. *)
Fixpoint returned (t : nat) (tr : list event) : list bytes :=
  match tr with
  | [] => []
  | EReturn u p _ :: tr => if t =? u then returned t tr ++ [p] else returned t tr
  | _ :: tr => returned t tr
  end.
Definition pending (x : pc * list bytes) : list bytes := match busy (fst x) with Some p => p :: snd x | None => snd x end.
Record calls_inv (valid : bytes -> bool) (calls : list (list bytes)) (s : state) : Prop := {
  c_all : forall t x l, nth_error (s_thr s) t = Some x -> nth_error calls t = Some l -> returned t (s_trace s) ++ pending x = l;
  c_len : length (s_thr s) = length calls;
  c_panic : forall t p todo, nth_error (s_thr s) t = Some (Panicked p, todo) -> valid p = false /\ In (EPanic t p) (s_trace s);
  c_valid : forall t p, In p (returned t (s_trace s)) -> valid p = true;
  c_carry : forall t c todo p r, nth_error (s_thr s) t = Some (c, todo) -> carries c p r -> valid p = true;
  c_cache : forall p r, In (p, r) (s_cache s) -> valid p = true
}.
Lemma calls_step valid calls s t s' : calls_inv valid calls s -> next valid s t = Some s' -> calls_inv valid calls s'.
Proof.
  intros [CA CL CP CV CC CH] E. steps s t E T;
  (split; cbn [s_thr s_trace s_cache];
   [ intros t0 x l H0 L0; rewrite (nth_upd _ _ _ _ _ T) in H0; destruct (Nat.eq_dec t t0) as [<-|Nt]; [injection H0 as <-; pose proof (CA _ _ _ T L0) as Ct; cbn in Ct |- *|pose proof (CA _ _ _ H0 L0) as Ct; cbn [returned]]
   | rewrite upd_length; exact CL
   | intros t0 p0 todo0 H0; rewrite (nth_upd _ _ _ _ _ T) in H0; destruct (Nat.eq_dec t t0) as [<-|Nt]; [try discriminate; try (destruct v; discriminate)|destruct (CP _ _ _ H0); split; [assumption|simpl; auto]]
   | intros t0 p0 H0; cbn [returned] in H0
   | intros t0 c0 todo0 p0 r0 H0 K0; rewrite (nth_upd _ _ _ _ _ T) in H0; destruct (Nat.eq_dec t t0) as [<-|Nt]; [injection H0 as <- <-; cbn [carries] in K0|apply (CC _ _ _ _ _ H0 K0)]
   | intros p0 r0 H0; try (destruct H0 as [H0|H0]; [injection H0 as <- <-|]) ]).
  all: try exact Ct; try (apply (CV _ _ H0)); try (apply (CH _ _ H0)); try (apply (CC _ _ _ _ _ T); exact K0); try (destruct K0; fail).
  - destruct (assocb p (s_cache s)) as [x|] eqn:A; [|destruct K0]. destruct K0 as [<- <-]. apply (CH _ _ (assocb_In _ _ _ A)).
  - destruct v; exact Ct.
  - destruct v; [|destruct K0]. apply (CC _ _ _ _ _ T K0).
  - destruct K0 as [<- _]. exact Vp.
  - injection H0 as <- <-. split; [exact Vp|left; reflexivity].
  - apply (CC _ _ _ p0 r0 T). exact K0.
  - apply (CC _ _ _ p0 r0 T). exact K0.
  - apply (CC _ _ _ p0 r0 T). exact K0.
  - apply (CC _ _ _ p r T). split; reflexivity.
  - apply (CC _ _ _ p0 r0 T). exact K0.
  - rewrite Nat.eqb_refl, <- app_assoc. exact Ct.
  - destruct (Nat.eqb_spec t0 t); [congruence|exact Ct].
  - destruct (t0 =? t); [|apply (CV _ _ H0)]. apply in_app_or in H0 as [H0|[<-|[]]]; [apply (CV _ _ H0)|]. apply (CC _ _ _ p r T). split; reflexivity.
Qed.
Lemma calls_run valid calls sched : calls_inv valid calls (after valid calls sched).
Proof.
  apply (run_ind (calls_inv valid calls)); [intros; eapply calls_step; eauto|]. unfold start.
  assert (Q : forall t x, nth_error (map (fun l => (Idle, l)) calls) t = Some x -> exists l, nth_error calls t = Some l /\ x = (Idle, l)) by (intros t x H; rewrite nth_error_map in H; destruct (nth_error calls t) as [l|]; [injection H as <-; eauto|discriminate]).
  split; cbn [s_cache s_thr s_trace].
  - intros t x l H L. apply Q in H as (l' & L' & ->). rewrite L in L'. injection L' as <-. reflexivity.
  - apply map_length.
  - intros t p todo H. apply Q in H as (l' & _ & [=]).
  - intros t p [].
  - intros t c todo p r H K. apply Q in H as (l' & _ & [= -> ->]). destruct K.
  - intros p r [].
Qed.
Theorem C36_complete : forall valid calls sched t l, let s := after valid calls sched in (forall t, next valid s t = None) -> nth_error calls t = Some l ->
  ((forall p, In p l -> valid p = true) -> returned t (s_trace s) = l)
  /\ (forall a p b, l = a ++ p :: b -> (forall q, In q a -> valid q = true) -> valid p = false -> returned t (s_trace s) = a /\ In (EPanic t p) (s_trace s)).
Proof.
  intros valid calls sched t l s Q L. destruct (calls_run valid calls sched) as [CA CL CP CV CC CH]. fold s in CA, CL, CP, CV, CC, CH.
  destruct (nth_error (s_thr s) t) as [x|] eqn:T; [|apply nth_error_None in T; assert (t < length calls) by (apply nth_error_Some; congruence); lia]. pose proof (CA _ _ _ T L) as E.
  destruct (C36_no_deadlock valid calls sched Q t x T) as [->|(p & todo & ->)].
  - cbn in E. rewrite app_nil_r in E. split; [auto|]. intros a p b -> _ F. exfalso. assert (valid p = true); [|congruence]. apply (CV t). rewrite E. apply in_or_app. right. left. reflexivity.
  - destruct (CP _ _ _ T) as (F & I). unfold pending in E. cbn [fst snd busy] in E. split.
    + intros V. exfalso. assert (valid p = true); [|congruence]. apply V. rewrite <- E. apply in_or_app. right. left. reflexivity.
    + intros a q b -> V Fq. assert (X : returned t (s_trace s) = a /\ p = q /\ todo = b); [|destruct X as (-> & -> & _); auto].
      assert (CVt := CV t). revert CVt V E. generalize (returned t (s_trace s)) as r. clear - F Fq. intros r. revert a. induction r as [|y r IH]; intros [|z a] CVt V E; simpl in E.
      * injection E as -> ->. auto.
      * injection E as -> E. rewrite V in F by (left; reflexivity). discriminate.
      * injection E as -> E. rewrite CVt in Fq by (left; reflexivity). discriminate.
      * injection E as -> E. destruct (IH a) as (-> & -> & ->); auto; intros; [apply CVt|apply V]; right; auto.
Qed.
Print Assumptions C36_complete.
(** Two calls of For(p) that overlap may compile twice and return different objects. *)
Theorem C36_same_object_refuted : exists valid calls sched t u p r r', let s := after valid calls sched in In (EReturn t p r) (s_trace s) /\ In (EReturn u p r') (s_trace s) /\ re_id r <> re_id r'.
Proof.
  exists (fun _ => true), [[bs "a"]; [bs "a"]], [0; 0; 0; 0; 1; 1; 1; 1; 0; 1; 0; 0; 0; 0; 0; 1; 1; 1; 1; 1], 0, 1, (bs "a"), (mkRe 0 (bs "a")), (mkRe 1 (bs "a")).
  vm_compute. split; [right; left; reflexivity|]. split; [left; reflexivity|discriminate].
Qed.
Print Assumptions C36_same_object_refuted.
(** Three goroutines, one of them with an invalid pattern, run to the end. *)
Example C36_witness : let valid := fun p => negb (beq p (bs "(")) in let s := after valid [[bs "a"; bs "b"]; [bs "a"; bs "("; bs "b"]; [bs "b"; bs "a"]] (concat (repeat [0; 1; 2; 2; 1] 40)) in
  forallb (fun t => match next valid s t with None => true | Some _ => false end) [0; 1; 2] = true /\ returned 0 (s_trace s) = [bs "a"; bs "b"] /\ returned 1 (s_trace s) = [bs "a"] /\ returned 2 (s_trace s) = [bs "b"; bs "a"]
  /\ s_readers s = 0 /\ s_writer s = None /\ (5 <= length (filter (fun e => match e with EReturn _ _ _ => true | _ => false end) (s_trace s)))
  /\ exists a b, s_trace s = a ++ ECall 0 (bs "b") :: b /\ exists u r, In (EReturn u (bs "b") r) b.
Proof.
  cbv zeta. split; [vm_compute; reflexivity|]. split; [vm_compute; reflexivity|]. split; [vm_compute; reflexivity|]. split; [vm_compute; reflexivity|]. split; [vm_compute; reflexivity|]. split; [vm_compute; reflexivity|]. split; [vm_compute; lia|].
  exists [EReturn 0 (bs "b") (mkRe 1 (bs "b"))]. eexists. split; [vm_compute; reflexivity|]. exists 2, (mkRe 1 (bs "b")). vm_compute. tauto.
Qed.
