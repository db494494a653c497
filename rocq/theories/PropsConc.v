(** C37: lookups that load their table on first use, under any schedule. *)
From Coq Require Import Lia.
From Verif Require Import Base BaseFacts Serialize PrefixMapper RegexCache CacheFacts Concurrency MetaBuild TableSpec.
Local Open Scope nat_scope.

Lemma assocb_cons {V} k (v : V) l : assocb k ((k, v) :: l) = Some v.
Proof. unfold assocb. simpl. rewrite (proj2 (beq_eq k k) eq_refl). reflexivity. Qed.

(** * The prefix mapper *)
Section Mapper.
Variables (dc : Z -> Z) (fs : bytes -> file).
(** What a lookup gives on its own, in a fresh mapper. *)
Definition alone (q : query) : M (bytes * Z) := snd (ValueForNumber dc fs [] (q_lang q) (q_max q) (q_num q)).
Ltac msteps s t E T :=
  unfold mnext in E; destruct (nth_error (m_thr s) t) as [[c todo]|] eqn:T; [|discriminate];
  destruct c as [|q|q|q|q r|q r|]; cbv zeta in E;
  [ destruct todo as [|q todo]; [discriminate|]
  | destruct (m_owner s) as [w|] eqn:Ow; [discriminate|]
  | | destruct (load_language dc (fs (q_lang q))) as [x|e|] eqn:Ld
  | | | discriminate ];
  injection E as <-.
Lemma mrun_ind (P : mstate -> Prop) : (forall s t s', P s -> mnext dc fs s t = Some s' -> P s') -> forall sched s, P s -> P (mrun dc fs s sched).
Proof. intros H sched. induction sched as [|t sched IH]; intros s Ps; simpl; [exact Ps|]. apply IH. destruct (mnext dc fs s t) eqn:E; [eapply H; eauto|exact Ps]. Qed.
Lemma start_idle {A B} (i : A) (calls : list B) t x : nth_error (map (fun l => (i, l)) calls) t = Some x -> exists l, nth_error calls t = Some l /\ x = (i, l).
Proof. intros H. rewrite nth_error_map in H. destruct (nth_error calls t) as [l|]; [injection H as <-; eauto|discriminate]. Qed.

Definition inside (c : mpc) : bool := match c with MHold _ | MLoad _ | MUnlock _ _ => true | _ => false end.
Definition mheld (c : mpc) : option (query * M (option (table bytes))) := match c with MUnlock q r | MFind q r => Some (q, r) | _ => None end.
Definition loaded_ok (l : bytes) : Prop := exists x, load_language dc (fs l) = Ret x.
Record minv (s : mstate) : Prop := {
  mi_owner : forall t c todo, nth_error (m_thr s) t = Some (c, todo) -> (inside c = true <-> m_owner s = Some t);
  mi_thread : forall t, m_owner s = Some t -> exists x, nth_error (m_thr s) t = Some x;
  mi_map : forall l x, assocb l (m_map s) = Some x -> load_language dc (fs l) = Ret x;
  mi_held : forall t c todo q r, nth_error (m_thr s) t = Some (c, todo) -> mheld c = Some (q, r) -> r = load_language dc (fs (q_lang q));
  mi_ret : forall t q v, In (MReturned t q v) (m_trace s) -> v = alone q;
  mi_loaded : forall t l, In (MLoaded t l) (m_trace s) -> loaded_ok l -> exists x, assocb l (m_map s) = Some x;
  mi_load : forall t q todo, nth_error (m_thr s) t = Some (MLoad q, todo) -> assocb (q_lang q) (m_map s) = None;
  mi_once : forall a b t u l, m_trace s = a ++ MLoaded t l :: b -> loaded_ok l -> ~ In (MLoaded u l) b
}.
Lemma alone_eq q : alone q = (x <- load_language dc (fs (q_lang q)) ;; value_for x (q_max q) (q_num q)).
Proof. unfold alone, ValueForNumber, lazyLoadPrefixes. cbn. destruct (load_language dc (fs (q_lang q))); reflexivity. Qed.
Lemma minv_step s t s' : minv s -> mnext dc fs s t = Some s' -> minv s'.
Proof.
  intros [MO MT MM MH MR ML MD M1] E. msteps s t E T;
  (pose proof (MO _ _ _ T) as Ot; cbn [inside] in Ot; split; cbn [m_map m_owner m_thr m_trace];
   [ intros t0 c0 todo0 H0; rewrite (nth_upd _ _ _ _ _ T) in H0; destruct (Nat.eq_dec t t0) as [<-|Nt]; [injection H0 as <- <-; cbn [inside]|pose proof (MO _ _ _ H0) as O0]
   | intros t0 H0; rewrite (nth_upd _ _ _ _ _ T); destruct (Nat.eq_dec t t0); [eexists; reflexivity|]
   | intros l0 x0 H0
   | intros t0 c0 todo0 q0 r0 H0 K0; rewrite (nth_upd _ _ _ _ _ T) in H0; destruct (Nat.eq_dec t t0) as [<-|Nt]; [injection H0 as <- <-; cbn [mheld] in K0|]
   | intros t0 q0 v0 I0; try (destruct I0 as [I0|I0]; [try discriminate|])
   | intros t0 l0 I0 L0; try (destruct I0 as [I0|I0]; [try discriminate; injection I0 as <- <-|])
   | intros t0 q0 todo0 H0; rewrite (nth_upd _ _ _ _ _ T) in H0; destruct (Nat.eq_dec t t0) as [<-|Nt]; [try discriminate|]
   | intros a b t0 u0 l0 H0 L0; try (apply cons_split in H0 as [(-> & Q0 & <-)|(a' & -> & H0)]; [try discriminate; try (injection Q0 as <- <-)|]) ]).
  all: try discriminate; try rewrite Ow in *.
  all: try first [tauto | congruence | apply (MR _ _ _ I0) | apply (ML _ _ I0 L0) | apply (MM _ _ H0) | apply (MH _ _ _ _ _ H0 K0) | apply (MH _ _ _ _ _ T K0) | apply (M1 _ _ _ _ _ H0 L0) | apply (MT _ H0) | apply (MD _ _ _ H0)].
  - split; [|congruence]. intros I. apply O0 in I. discriminate.
  - destruct (assocb (q_lang q) (m_map s)); cbn [inside]; tauto.
  - destruct (assocb (q_lang q) (m_map s)) as [x|] eqn:A; [|discriminate]. injection K0 as <- <-. symmetry. apply MM. exact A.
  - destruct (assocb (q_lang q) (m_map s)) as [x|] eqn:A; [discriminate|]. injection H0 as <- <-. exact A.
  - unfold assocb in H0. simpl in H0. destruct (beq_spec l0 (q_lang q)) as [->|Ne]; [injection H0 as <-; exact Ld|apply MM; exact H0].
  - exists x. apply assocb_cons.
  - destruct (ML _ _ I0 L0) as (y & A). unfold assocb in *. simpl. destruct (beq l0 (q_lang q)); eauto.
  - (* two goroutines inside the critical section *)
    exfalso. pose proof (proj1 (MO _ _ _ H0) eq_refl). pose proof (proj1 Ot eq_refl). congruence.
  - intros I. destruct (ML _ _ I L0) as (y & A). rewrite (MD _ _ _ T) in A. discriminate.
  - destruct L0 as (y & L0). congruence.
  - intros I. destruct (ML _ _ I L0) as (y & A). rewrite (MD _ _ _ T) in A. discriminate.
  - destruct L0 as (y & L0). congruence.
  - intros I. destruct (ML _ _ I L0) as (y & A). rewrite (MD _ _ _ T) in A. discriminate.
  - split; discriminate.
  - split; [|discriminate]. intros I. apply O0 in I. rewrite (proj1 Ot eq_refl) in I. congruence.
  - destruct (x <- r;; value_for x (q_max q) (q_num q)); cbn [inside]; tauto.
  - destruct (x <- r;; value_for x (q_max q) (q_num q)); discriminate.
  - injection I0 as <- <- <-. rewrite alone_eq. rewrite (MH _ _ _ _ _ T eq_refl). reflexivity.
  - destruct (x <- r;; value_for x (q_max q) (q_num q)); discriminate.
Qed.
Lemma minv_run calls sched : minv (mafter dc fs calls sched).
Proof.
  unfold mafter. apply mrun_ind; [intros; eapply minv_step; eauto|]. unfold mstart. split; cbn [m_map m_owner m_thr m_trace]; try discriminate.
  - intros t c todo H. apply start_idle in H as (l & _ & [= -> ->]). split; discriminate.
  - intros t c todo q r H. apply start_idle in H as (l & _ & [= -> ->]). discriminate.
  - intros t q v [].
  - intros t l [].
  - reflexivity.
  - intros a b t u l H. destruct a; discriminate.
Qed.

Definition mweight (x : mpc * list query) : nat :=
  match fst x with
  | MDead => 0
  | c => match c with MLock _ => 5 | MHold _ => 4 | MLoad _ => 3 | MUnlock _ _ => 2 | MFind _ _ => 1 | _ => 0 end + 6 * length (snd x)
  end.
Lemma mweight_step s t s' : mnext dc fs s t = Some s' -> sum mweight (m_thr s') < sum mweight (m_thr s).
Proof.
  intros E. msteps s t E T; cbn [m_thr]; match goal with |- sum mweight (upd _ _ ?x) < _ => pose proof (sum_upd mweight _ _ x _ T) as U end; unfold mweight in U at 2 4; cbn [fst snd length] in U; try lia.
  - destruct (assocb (q_lang q) (m_map s)); cbn [fst snd] in U; lia.
  - destruct (x <- r;; value_for x (q_max q) (q_num q)); cbn [fst snd] in U; lia.
Qed.
Definition mfinished (x : mpc * list query) : Prop := x = (MIdle, []) \/ exists todo, x = (MDead, todo).
Lemma mprogress s : minv s -> (forall t x, nth_error (m_thr s) t = Some x -> mfinished x) \/ exists t s', mnext dc fs s t = Some s'.
Proof.
  intros I. destruct (m_owner s) as [w|] eqn:Ow.
  - destruct (mi_thread s I w Ow) as ((c & todo) & T). pose proof (proj2 (mi_owner s I _ _ _ T) Ow) as O. right. exists w. unfold mnext. rewrite T.
    destruct c; try discriminate; try (eexists; reflexivity). destruct (load_language dc (fs (q_lang q))); eexists; reflexivity.
  - destruct (sum mweight (m_thr s)) eqn:W.
    + left. intros t (c & todo) T. pose proof (sum_zero mweight _ _ _ W T) as Z0. unfold mweight in Z0. cbn [fst snd] in Z0. destruct c; try lia; [left|right; eauto]. destruct todo; [reflexivity|simpl in Z0; lia].
    + destruct (sum_pos mweight (m_thr s)) as (i & (c & todo) & Ti & Wi); [lia|]. right. exists i. unfold mnext. rewrite Ti. destruct c; rewrite ?Ow; try (eexists; reflexivity).
      * destruct todo; [unfold mweight in Wi; simpl in Wi; lia|]. eexists. reflexivity.
      * destruct (load_language dc (fs (q_lang q))); eexists; reflexivity.
      * unfold mweight in Wi. simpl in Wi. lia.
Qed.
Fixpoint mreturned (t : nat) (tr : list mevent) : list query :=
  match tr with
  | [] => []
  | MReturned u q _ :: tr => if t =? u then mreturned t tr ++ [q] else mreturned t tr
  | _ :: tr => mreturned t tr
  end.
Definition mpending (x : mpc * list query) : list query :=
  match fst x with MLock q | MHold q | MLoad q | MUnlock q _ | MFind q _ => q :: snd x | _ => snd x end.
Record mcalls (calls : list (list query)) (s : mstate) : Prop := {
  mc_all : forall t x l, nth_error (m_thr s) t = Some x -> nth_error calls t = Some l -> mreturned t (m_trace s) ++ mpending x = l;
  mc_len : length (m_thr s) = length calls;
  mc_dead : forall t todo, nth_error (m_thr s) t = Some (MDead, todo) -> exists q, In (MReturned t q Panic) (m_trace s)
}.
Lemma mcalls_step calls s t s' : mcalls calls s -> mnext dc fs s t = Some s' -> mcalls calls s'.
Proof.
  intros [CA CL CD] E. msteps s t E T;
  (split; cbn [m_thr m_trace];
   [ intros t0 x0 l H0 L0; rewrite (nth_upd _ _ _ _ _ T) in H0; destruct (Nat.eq_dec t t0) as [<-|Nt]; [injection H0 as <-; pose proof (CA _ _ _ T L0) as Ct; unfold mpending in *; cbn [mreturned fst snd] in Ct |- *|pose proof (CA _ _ _ H0 L0) as Ct; cbn [mreturned]]
   | rewrite upd_length; exact CL
   | intros t0 todo0 H0; rewrite (nth_upd _ _ _ _ _ T) in H0; destruct (Nat.eq_dec t t0) as [<-|Nt]; [try discriminate|destruct (CD _ _ H0) as (q0 & I0); exists q0; simpl; auto] ]).
  all: try exact Ct.
  - destruct (assocb (q_lang q) (m_map s)); exact Ct.
  - destruct (assocb (q_lang q) (m_map s)); discriminate.
  - rewrite Nat.eqb_refl, <- app_assoc. destruct (x <- r;; value_for x (q_max q) (q_num q)); exact Ct.
  - destruct (Nat.eqb_spec t0 t); [congruence|exact Ct].
  - exists q. left. destruct (x <- r;; value_for x (q_max q) (q_num q)); [discriminate|discriminate|reflexivity].
Qed.
Lemma mcalls_run calls sched : mcalls calls (mafter dc fs calls sched).
Proof.
  unfold mafter. apply mrun_ind; [intros; eapply mcalls_step; eauto|]. unfold mstart. split; cbn [m_thr m_trace].
  - intros t x l H L. apply start_idle in H as (l' & L' & ->). rewrite L in L'. injection L' as <-. reflexivity.
  - apply map_length.
  - intros t todo H. apply start_idle in H as (l' & _ & [=]).
Qed.
End Mapper.

(** Whatever other goroutines do, every lookup returns what it would return on its own: no lookup ever sees a table that is missing or not complete. *)
Theorem C37_result : forall dc fs calls sched t q v, In (MReturned t q v) (m_trace (mafter dc fs calls sched)) -> v = snd (ValueForNumber dc fs [] (q_lang q) (q_max q) (q_num q)).
Proof. intros dc fs calls sched. apply (mi_ret dc fs _ (minv_run dc fs calls sched)). Qed.
Print Assumptions C37_result.
(** The file of a language is read and decoded at most once in all, unless reading or decoding it fails. *)
Theorem C37_loads_once : forall dc fs calls sched a b t u l, (exists x, load_language dc (fs l) = Ret x) -> m_trace (mafter dc fs calls sched) = a ++ MLoaded t l :: b -> ~ In (MLoaded u l) b.
Proof. intros dc fs calls sched a b t u l L E. apply (mi_once dc fs _ (minv_run dc fs calls sched) _ _ _ _ _ E L). Qed.
Print Assumptions C37_loads_once.
(** A failed load is not remembered: the next lookup tries again. *)
Theorem C37_failure_retried : exists fs calls sched a b t u l, m_trace (mafter go_digit_count fs calls sched) = a ++ MLoaded t l :: b /\ In (MLoaded u l) b.
Proof.
  exists (fun _ => FileError), [[mkQ (bs "en") 10 (bs "+1"); mkQ (bs "en") 10 (bs "+1")]], (repeat 0 12). eexists [_], _, 0, 0, (bs "en"). split; [vm_compute; reflexivity|]. vm_compute. tauto.
Qed.
Print Assumptions C37_failure_retried.
(** The map of tables is never touched by two goroutines at once. *)
Definition touches (s : mstate) (t : nat) : Prop := exists q todo, nth_error (m_thr s) t = Some (MHold q, todo) \/ nth_error (m_thr s) t = Some (MLoad q, todo).
Theorem C37_no_race : forall dc fs calls sched t u, let s := mafter dc fs calls sched in touches s t -> touches s u -> t = u.
Proof.
  intros dc fs calls sched t u s T U. pose proof (mi_owner dc fs _ (minv_run dc fs calls sched)) as O. fold s in O.
  assert (X : forall t, touches s t -> m_owner s = Some t) by (intros w (q & todo & [H|H]); apply (O _ _ _ H); reflexivity).
  apply X in T. apply X in U. congruence.
Qed.
Print Assumptions C37_no_race.
(** No deadlock, even when loading fails or panics; and every execution ends. *)
Theorem C37_no_deadlock : forall dc fs calls sched, let s := mafter dc fs calls sched in (forall t, mnext dc fs s t = None) -> forall t l, nth_error calls t = Some l ->
  (forall q, In q l -> snd (ValueForNumber dc fs [] (q_lang q) (q_max q) (q_num q)) <> Panic) -> mreturned t (m_trace s) = l.
Proof.
  intros dc fs calls sched s Q t l L NP. destruct (mcalls_run dc fs calls sched) as [CA CL CD]. fold s in CA, CL, CD.
  destruct (nth_error (m_thr s) t) as [x|] eqn:T; [|apply nth_error_None in T; assert (t < length calls) by (apply nth_error_Some; congruence); lia]. pose proof (CA _ _ _ T L) as E.
  destruct (mprogress dc fs s (minv_run dc fs calls sched)) as [F|(u & s' & N0)]; [|rewrite Q in N0; discriminate]. destruct (F t x T) as [->|(todo & ->)].
  - unfold mpending in E. cbn [fst snd] in E. rewrite app_nil_r in E. exact E.
  - exfalso. destruct (CD _ _ T) as (q & I). apply (NP q).
    + rewrite <- E. apply in_or_app. left. clear - I. revert I. generalize (m_trace s). intros tr. induction tr as [|e tr IH]; [intros []|]. intros [->|I]; cbn [mreturned].
      * rewrite Nat.eqb_refl. apply in_or_app. right. left. reflexivity.
      * destruct e; auto. destruct (t =? t0); [apply in_or_app; left|]; auto.
    + symmetry. apply (C37_result dc fs calls sched t q). exact I.
Qed.
Print Assumptions C37_no_deadlock.
Fixpoint meffective dc fs (s : mstate) (sched : list nat) : Prop :=
  match sched with [] => True | t :: l => exists s', mnext dc fs s t = Some s' /\ meffective dc fs s' l end.
Theorem C37_terminates : forall dc fs calls sched, meffective dc fs (mstart calls) sched -> length sched <= 6 * length (concat calls).
Proof.
  intros dc fs calls sched E.
  assert (B : forall sched s, meffective dc fs s sched -> length sched <= sum mweight (m_thr s)).
  { clear. induction sched as [|t l IH]; intros s E; cbn [length meffective] in *; [lia|]. destruct E as (s' & N0 & E). pose proof (mweight_step dc fs s t s' N0). specialize (IH s' E). lia. }
  specialize (B sched (mstart calls) E). enough (sum mweight (m_thr (mstart calls)) = 6 * length (concat calls)) by lia. clear.
  unfold mstart. cbn [m_thr]. induction calls as [|l calls IH]; [reflexivity|]. cbn [map concat]. rewrite app_length. unfold sum in *. cbn [fold_right]. rewrite IH. unfold mweight. cbn [fst snd]. lia.
Qed.
Print Assumptions C37_terminates.
Definition two_files (l : bytes) : file := if beq l (bs "en") then match MetaBuild.renderPrefixMap [(44%Z, bs "UK"); (4420%Z, bs "London")] with Ret b => FileData b | _ => NoFile end else NoFile.
Example C37_witness : let calls := [[mkQ (bs "en") 10 (bs "+442012"); mkQ (bs "fr") 10 (bs "+442012")]; [mkQ (bs "en") 10 (bs "+4412")]; [mkQ (bs "en") 10 (bs "+33")]] in
  let s := mafter TableSpec.digits two_files calls (concat (repeat [0; 1; 2; 2; 1; 0] 20)) in
  forallb (fun t => match mnext TableSpec.digits two_files s t with None => true | Some _ => false end) [0; 1; 2] = true
  /\ map (fun e => match e with MReturned _ _ v => v | _ => Panic end) (filter (fun e => match e with MReturned _ _ _ => true | _ => false end) (rev (m_trace s))) = [Ret ([], 0%Z); Ret (bs "UK", 44%Z); Ret (bs "London", 4420%Z); Ret ([], 0%Z)]
  /\ length (filter (fun e => match e with MLoaded _ _ => true | _ => false end) (m_trace s)) = 2.
Proof. vm_compute. auto. Qed.

(** * The time-zone table *)
Section Zones.
Variable load : M (table (list bytes)).
Ltac zsteps s t E T :=
  unfold znext in E; destruct (nth_error (z_thr s) t) as [[c todo]|] eqn:T; [|discriminate];
  destruct c as [|n|n|n|n|n b|n b|n b|]; cbv zeta in E;
  [ destruct todo as [|n todo]; [discriminate|]
  |
  | destruct (z_owner s) as [w|] eqn:Ow; [discriminate|]
  | | | | | | discriminate ];
  injection E as <-.
Lemma zrun_ind (P : zstate -> Prop) : (forall s t s', P s -> znext load s t = Some s' -> P s') -> forall sched s, P s -> P (zrun load s sched).
Proof. intros H sched. induction sched as [|t sched IH]; intros s Ps; simpl; [exact Ps|]. apply IH. destruct (znext load s t) eqn:E; [eapply H; eauto|exact Ps]. Qed.
Definition zinside (c : zpc) : bool := match c with ZHold _ | ZLoad _ | ZFlag _ _ | ZUnlock _ _ => true | _ => false end.
Definition zpast (c : zpc) : bool := match c with ZUnlock _ _ | ZFind _ _ => true | _ => false end.
Definition zpanics (c : zpc) : bool := match c with ZFlag _ b | ZUnlock _ b | ZFind _ b => b | _ => false end.
Definition goes_well : Prop := load <> Panic.
Definition loads (tr : list zevent) : nat := sum (fun e => match e with ZLoaded _ => 1 | _ => 0 end) tr.
Definition filled (s : zstate) : Prop := z_map s = match load with Ret x => Some x | _ => None end.
Definition flagging (s : zstate) : Prop := exists t n b todo, nth_error (z_thr s) t = Some (ZFlag n b, todo).
Record zinv (s : zstate) : Prop := {
  zi_owner : forall t c todo, nth_error (z_thr s) t = Some (c, todo) -> (zinside c = true <-> z_owner s = Some t);
  zi_thread : forall t, z_owner s = Some t -> exists x, nth_error (z_thr s) t = Some x;
  zi_done : z_done s = true -> loads (z_trace s) = 1 /\ filled s;
  zi_past : forall t c todo, nth_error (z_thr s) t = Some (c, todo) -> zpast c = true -> z_done s = true;
  zi_flag : forall t n b todo, nth_error (z_thr s) t = Some (ZFlag n b, todo) -> loads (z_trace s) = 1 /\ filled s;
  zi_load : forall t n todo, nth_error (z_thr s) t = Some (ZLoad n, todo) -> loads (z_trace s) = 0;
  zi_loaded : loads (z_trace s) <> 0 -> z_done s = true \/ flagging s;
  zi_panics : goes_well -> forall t c todo, nth_error (z_thr s) t = Some (c, todo) -> zpanics c = false;
  zi_ret : goes_well -> forall t n v, In (ZReturned t n v) (z_trace s) -> v = lookupTimeZones load n
}.
Lemma flagging_keep s t c todo c' todo' s' : nth_error (z_thr s) t = Some (c, todo) -> (forall n b, c <> ZFlag n b) -> z_thr s' = upd (z_thr s) t (c', todo') -> flagging s -> flagging s'.
Proof.
  intros T Nc Th (u & n & b & td & F). exists u, n, b, td. rewrite Th, (nth_upd _ _ _ _ _ T). destruct (Nat.eq_dec t u) as [<-|]; [|exact F]. rewrite T in F. injection F as -> _. destruct (Nc n b eq_refl).
Qed.
Lemma zinv_step s t s' : zinv s -> znext load s t = Some s' -> zinv s'.
Proof.
  intros [ZO ZT ZD ZP ZF ZL ZE ZN ZR] E. zsteps s t E T;
  (pose proof (ZO _ _ _ T) as Ot; cbn [zinside] in Ot; split; unfold filled in *; cbn [z_map z_done z_owner z_thr z_trace];
   [ intros t0 c0 todo0 H0; rewrite (nth_upd _ _ _ _ _ T) in H0; destruct (Nat.eq_dec t t0) as [<-|Nt]; [injection H0 as <- <-; cbn [zinside]|pose proof (ZO _ _ _ H0) as O0]
   | intros t0 H0; rewrite (nth_upd _ _ _ _ _ T); destruct (Nat.eq_dec t t0); [eexists; reflexivity|]
   | intros D0; try (apply (ZD D0))
   | intros t0 c0 todo0 H0 P0; rewrite (nth_upd _ _ _ _ _ T) in H0; destruct (Nat.eq_dec t t0) as [<-|Nt]; [injection H0 as <- <-; cbn [zpast] in P0; try discriminate|]
   | intros t0 n0 b0 todo0 H0; rewrite (nth_upd _ _ _ _ _ T) in H0; destruct (Nat.eq_dec t t0) as [<-|Nt]; [try discriminate|]
   | intros t0 n0 todo0 H0; rewrite (nth_upd _ _ _ _ _ T) in H0; destruct (Nat.eq_dec t t0) as [<-|Nt]; [try discriminate|]
   | intros L0; try (destruct (ZE L0) as [D1|F1]; [left; exact D1|right; eapply flagging_keep; [exact T|discriminate|reflexivity|exact F1]])
   | intros G t0 c0 todo0 H0; rewrite (nth_upd _ _ _ _ _ T) in H0; destruct (Nat.eq_dec t t0) as [<-|Nt]; [injection H0 as <- <-; cbn [zpanics]; try reflexivity|]
   | intros G t0 n0 v0 I0; try (destruct I0 as [I0|I0]; [try discriminate|]) ]).
  all: try rewrite Ow in *.
  all: try first [tauto | congruence | apply (ZT _ H0) | apply (ZP _ _ _ H0 P0) | apply (ZF _ _ _ _ H0) | apply (ZL _ _ _ H0) | apply (ZN G _ _ _ H0) | apply (ZN G _ _ _ T) | apply (ZR G _ _ _ I0)].
  - destruct (z_done s); cbn [zinside]; tauto.
  - destruct (z_done s); [reflexivity|discriminate].
  - destruct (z_done s); discriminate.
  - destruct (z_done s); discriminate.
  - destruct (z_done s); reflexivity.
  - split; [|congruence]. intros I. apply O0 in I. discriminate.
  - destruct (z_done s); cbn [zinside]; tauto.
  - destruct (z_done s); [reflexivity|discriminate].
  - destruct (z_done s); discriminate.
  - destruct (z_done s) eqn:D0; [discriminate|]. destruct (loads (z_trace s)) eqn:L0; [reflexivity|]. exfalso. destruct (ZE ltac:(discriminate)) as [F|(u & nx & b1 & td & F)]; [discriminate|].
    pose proof (proj1 (ZO _ _ _ F) eq_refl) as O1. pose proof (proj1 Ot eq_refl). assert (u = t) by congruence. subst u. rewrite T in F. discriminate.
  - destruct (z_done s); reflexivity.
  - split; [|reflexivity]. unfold loads in *. cbn [sum fold_right]. pose proof (ZL _ _ _ T) as L0. unfold sum in L0. rewrite L0. reflexivity.
  - split; [|reflexivity]. unfold loads in *. cbn [sum fold_right]. pose proof (ZL _ _ _ T) as L0. unfold sum in L0. rewrite L0. reflexivity.
  - split; [|reflexivity]. unfold loads in *. cbn [sum fold_right]. pose proof (ZL _ _ _ T) as L0. unfold sum in L0. rewrite L0. reflexivity.
  - exfalso. pose proof (proj1 (ZO _ _ _ H0) eq_refl). pose proof (proj1 Ot eq_refl). congruence.
  - right. exists t, n. eexists. exists todo. cbn [z_thr]. rewrite (nth_upd _ _ _ _ _ T). destruct (Nat.eq_dec t t); [reflexivity|congruence].
  - unfold goes_well in G. destruct load; [reflexivity|reflexivity|congruence].
  - apply (ZF _ _ _ _ T).
  - split; discriminate.
  - split; [|discriminate]. intros I. apply O0 in I. rewrite (proj1 Ot eq_refl) in I. congruence.
  - apply (ZP _ _ _ T). reflexivity.
  - match goal with |- context [match ?x with Panic => ZDead | _ => _ end] => destruct x end; cbn [zinside]; tauto.
  - match type of P0 with context [match ?x with Panic => ZDead | _ => _ end] => destruct x end; discriminate.
  - match type of H0 with context [match ?x with Panic => ZDead | _ => _ end] => destruct x end; discriminate.
  - match type of H0 with context [match ?x with Panic => ZDead | _ => _ end] => destruct x end; discriminate.
  - match goal with |- context [match ?x with Panic => ZDead | _ => _ end] => destruct x end; reflexivity.
  - injection I0 as <- <- <-. pose proof (ZN G _ _ _ T) as B0. cbn [zpanics] in B0. subst b. destruct (ZD (ZP _ _ _ T eq_refl)) as (_ & F). rewrite F. unfold goes_well in G. destruct load; [reflexivity|reflexivity|congruence].
Qed.
Lemma zinv_run calls sched : zinv (zafter load calls sched).
Proof.
  unfold zafter. apply zrun_ind; [intros; eapply zinv_step; eauto|]. unfold zstart. split; cbn [z_map z_done z_owner z_thr z_trace]; try discriminate.
  - intros t c todo H. apply start_idle in H as (l & _ & [= -> ->]). split; discriminate.
  - intros t c todo H. apply start_idle in H as (l & _ & [= -> ->]). discriminate.
  - intros t n b todo H. apply start_idle in H as (l & _ & [=]).
  - reflexivity.
  - intros H. destruct (H eq_refl).
  - intros _ t c todo H. apply start_idle in H as (l & _ & [= -> ->]). reflexivity.
  - intros _ t n v [].
Qed.
Definition zweight (x : zpc * list bytes) : nat :=
  match fst x with
  | ZDead => 0
  | c => match c with ZCheck _ => 7 | ZLock _ => 6 | ZHold _ => 5 | ZLoad _ => 4 | ZFlag _ _ => 3 | ZUnlock _ _ => 2 | ZFind _ _ => 1 | _ => 0 end + 8 * length (snd x)
  end.
Lemma zweight_step s t s' : znext load s t = Some s' -> sum zweight (z_thr s') < sum zweight (z_thr s).
Proof.
  intros E. zsteps s t E T; cbn [z_thr]; match goal with |- sum zweight (upd _ _ ?x) < _ => pose proof (sum_upd zweight _ _ x _ T) as U end; unfold zweight in U at 2 4; cbn [fst snd length] in U; try lia.
  - destruct (z_done s); cbn [fst snd] in U; lia.
  - destruct (z_done s); cbn [fst snd] in U; lia.
  - match type of U with context [match ?x with Panic => ZDead | _ => _ end] => destruct x end; cbn [fst snd] in U; lia.
Qed.
Definition zfinished (x : zpc * list bytes) : Prop := x = (ZIdle, []) \/ exists todo, x = (ZDead, todo).
Lemma zprogress s : zinv s -> (forall t x, nth_error (z_thr s) t = Some x -> zfinished x) \/ exists t s', znext load s t = Some s'.
Proof.
  intros I. destruct (z_owner s) as [w|] eqn:Ow.
  - destruct (zi_thread s I w Ow) as ((c & todo) & T). pose proof (proj2 (zi_owner s I _ _ _ T) Ow) as O. right. exists w. unfold znext. rewrite T. destruct c; try discriminate; eexists; reflexivity.
  - destruct (sum zweight (z_thr s)) eqn:W.
    + left. intros t (c & todo) T. pose proof (sum_zero zweight _ _ _ W T) as Z0. unfold zweight in Z0. cbn [fst snd] in Z0. destruct c; try lia; [left|right; eauto]. destruct todo; [reflexivity|simpl in Z0; lia].
    + destruct (sum_pos zweight (z_thr s)) as (i & (c & todo) & Ti & Wi); [lia|]. right. exists i. unfold znext. rewrite Ti. destruct c; rewrite ?Ow; try (eexists; reflexivity).
      * destruct todo; [unfold zweight in Wi; simpl in Wi; lia|]. eexists. reflexivity.
      * unfold zweight in Wi. simpl in Wi. lia.
Qed.
Fixpoint zreturned (t : nat) (tr : list zevent) : list bytes :=
  match tr with
  | [] => []
  | ZReturned u q _ :: tr => if t =? u then zreturned t tr ++ [q] else zreturned t tr
  | _ :: tr => zreturned t tr
  end.
Definition zpending (x : zpc * list bytes) : list bytes :=
  match fst x with ZCheck q | ZLock q | ZHold q | ZLoad q | ZFlag q _ | ZUnlock q _ | ZFind q _ => q :: snd x | _ => snd x end.
Record zcalls (calls : list (list bytes)) (s : zstate) : Prop := {
  zc_all : forall t x l, nth_error (z_thr s) t = Some x -> nth_error calls t = Some l -> zreturned t (z_trace s) ++ zpending x = l;
  zc_len : length (z_thr s) = length calls;
  zc_dead : forall t todo, nth_error (z_thr s) t = Some (ZDead, todo) -> exists q, In (ZReturned t q Panic) (z_trace s)
}.
Lemma zcalls_step calls s t s' : zcalls calls s -> znext load s t = Some s' -> zcalls calls s'.
Proof.
  intros [CA CL CD] E. zsteps s t E T;
  (split; cbn [z_thr z_trace];
   [ intros t0 x0 l H0 L0; rewrite (nth_upd _ _ _ _ _ T) in H0; destruct (Nat.eq_dec t t0) as [<-|Nt]; [injection H0 as <-; pose proof (CA _ _ _ T L0) as Ct; unfold zpending in *; cbn [zreturned fst snd] in Ct |- *|pose proof (CA _ _ _ H0 L0) as Ct; cbn [zreturned]]
   | rewrite upd_length; exact CL
   | intros t0 todo0 H0; rewrite (nth_upd _ _ _ _ _ T) in H0; destruct (Nat.eq_dec t t0) as [<-|Nt]; [try discriminate|destruct (CD _ _ H0) as (q0 & I0); exists q0; simpl; auto] ]).
  all: try exact Ct; try (destruct (z_done s); first [exact Ct|discriminate]).
  - rewrite Nat.eqb_refl, <- app_assoc. match goal with |- context [match ?x with Panic => ZDead | _ => _ end] => destruct x end; exact Ct.
  - destruct (Nat.eqb_spec t0 t); [congruence|exact Ct].
  - exists n. left. match type of H0 with context [match ?x with Panic => ZDead | _ => _ end] => destruct x end; [discriminate|discriminate|reflexivity].
Qed.
Lemma zcalls_run calls sched : zcalls calls (zafter load calls sched).
Proof.
  unfold zafter. apply zrun_ind; [intros; eapply zcalls_step; eauto|]. unfold zstart. split; cbn [z_thr z_trace].
  - intros t x l H L. apply start_idle in H as (l' & L' & ->). rewrite L in L'. injection L' as <-. reflexivity.
  - apply map_length.
  - intros t todo H. apply start_idle in H as (l' & _ & [=]).
Qed.
End Zones.
(** Every time-zone lookup of every goroutine uses the outcome of the one load, unless decoding the data panics. *)
Theorem C37_zones_result : forall load calls sched t n v, load <> Panic -> In (ZReturned t n v) (z_trace (zafter load calls sched)) -> v = lookupTimeZones load n.
Proof. intros load calls sched t n v G. apply (zi_ret load _ (zinv_run load calls sched) G). Qed.
Print Assumptions C37_zones_result.
(** The data are decoded at most once, whatever happens, and before any lookup uses the table. *)
Theorem C37_zones_once : forall load calls sched, let s := zafter load calls sched in
  loads (z_trace s) <= 1 /\ (forall t n b todo, nth_error (z_thr s) t = Some (ZFind n b, todo) -> loads (z_trace s) = 1 /\ forall u m todo', nth_error (z_thr s) u <> Some (ZLoad m, todo')).
Proof.
  intros load calls sched s. pose proof (zinv_run load calls sched : zinv load s) as I. split.
  - destruct (Nat.eq_dec (loads (z_trace s)) 0) as [->|Ne]; [lia|]. destruct (zi_loaded _ _ I Ne) as [D|(t & n & b & td & F)]; [rewrite (proj1 (zi_done _ _ I D))|rewrite (proj1 (zi_flag _ _ I _ _ _ _ F))]; lia.
  - intros t n b todo T. destruct (zi_done _ _ I (zi_past _ _ I _ _ _ T eq_refl)) as (L & _). split; [exact L|]. intros u m todo' U. pose proof (zi_load _ _ I _ _ _ U). lia.
Qed.
Print Assumptions C37_zones_once.
(** No deadlock: when nothing can run any more every goroutine has all its results; and every execution ends. *)
Theorem C37_zones_no_deadlock : forall load calls sched, let s := zafter load calls sched in (forall t, znext load s t = None) -> forall t l, nth_error calls t = Some l ->
  load <> Panic -> (forall n, In n l -> lookupTimeZones load n <> Panic) -> zreturned t (z_trace s) = l.
Proof.
  intros load calls sched s Q t l L G NP. destruct (zcalls_run load calls sched) as [CA CL CD]. fold s in CA, CL, CD.
  destruct (nth_error (z_thr s) t) as [x|] eqn:T; [|apply nth_error_None in T; assert (t < length calls) by (apply nth_error_Some; congruence); lia]. pose proof (CA _ _ _ T L) as E.
  destruct (zprogress load s (zinv_run load calls sched)) as [F|(u & s' & N0)]; [|rewrite Q in N0; discriminate]. destruct (F t x T) as [->|(todo & ->)].
  - unfold zpending in E. cbn [fst snd] in E. rewrite app_nil_r in E. exact E.
  - exfalso. destruct (CD _ _ T) as (q & I). apply (NP q).
    + rewrite <- E. apply in_or_app. left. clear - I. revert I. generalize (z_trace s). intros tr. induction tr as [|e tr IH]; [intros []|]. intros [->|I]; cbn [zreturned].
      * rewrite Nat.eqb_refl. apply in_or_app. right. left. reflexivity.
      * destruct e; auto. destruct (t =? t0); [apply in_or_app; left|]; auto.
    + symmetry. apply (C37_zones_result load calls sched t q Panic G). exact I.
Qed.
Print Assumptions C37_zones_no_deadlock.
Fixpoint zeffective load (s : zstate) (sched : list nat) : Prop :=
  match sched with [] => True | t :: l => exists s', znext load s t = Some s' /\ zeffective load s' l end.
Theorem C37_zones_terminates : forall load calls sched, zeffective load (zstart calls) sched -> length sched <= 8 * length (concat calls).
Proof.
  intros load calls sched E.
  assert (B : forall sched s, zeffective load s sched -> length sched <= sum zweight (z_thr s)).
  { clear. induction sched as [|t l IH]; intros s E; cbn [length zeffective] in *; [lia|]. destruct E as (s' & N0 & E). pose proof (zweight_step load s t s' N0). specialize (IH s' E). lia. }
  specialize (B sched (zstart calls) E). enough (sum zweight (z_thr (zstart calls)) = 8 * length (concat calls)) by lia. clear.
  unfold zstart. cbn [z_thr]. induction calls as [|l calls IH]; [reflexivity|]. cbn [map concat]. rewrite app_length. unfold sum in *. cbn [fold_right]. rewrite IH. unfold zweight. cbn [fst snd]. lia.
Qed.
Print Assumptions C37_zones_terminates.
Example C37_zones_witness : let load := Ret (mkTable [(1%Z, [bs "A"]); (12%Z, [bs "B"; bs "C"])] 2) in let calls := [[bs "+123"; bs "1"]; [bs "15"]; [bs "9"]] in
  let s := zafter load calls (concat (repeat [0; 1; 2; 2; 1; 0] 20)) in
  forallb (fun t => match znext load s t with None => true | Some _ => false end) [0; 1; 2] = true
  /\ map (fun t => map (lookupTimeZones load) (zreturned t (z_trace s))) [0; 1; 2] = [[Ret [bs "B"; bs "C"]; Ret [bs "A"]]; [Ret [bs "A"]]; [Ret [bs "Etc/Unknown"]]] /\ loads (z_trace s) = 1.
Proof. vm_compute. auto. Qed.
