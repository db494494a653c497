(** C92: one lookup after another in the same prefix mapper. *)
From Verif Require Import Base BaseFacts Serialize PrefixMapper RegexCache CacheFacts Concurrency MetaBuild TableSpec PropsConc.

(** The answers of a sequence of lookups in one mapper, and its state after them. *)
Fixpoint asked (dc : Z -> Z) (fs : bytes -> file) (lm : lang_map) (qs : list query) : lang_map * list (M (bytes * Z)) :=
  match qs with
  | [] => (lm, [])
  | q :: qs => let '(lm, v) := ValueForNumber dc fs lm (q_lang q) (q_max q) (q_num q) in let '(lm, vs) := asked dc fs lm qs in (lm, v :: vs)
  end.
(** What a lookup gives in a mapper of its own. *)
Definition fresh (dc : Z -> Z) (fs : bytes -> file) (q : query) : M (bytes * Z) := snd (ValueForNumber dc fs [] (q_lang q) (q_max q) (q_num q)).

Definition faithful_map dc fs (lm : lang_map) : Prop := forall l x, assocb l lm = Some x -> load_language dc (fs l) = Ret x.
Lemma assocb_other {V} k k' (v : V) l : k <> k' -> assocb k ((k', v) :: l) = assocb k l.
Proof. intros H. unfold assocb. cbn [assoc]. destruct (beq_spec k k'); [congruence|reflexivity]. Qed.
Lemma lookup_step dc fs lm q : faithful_map dc fs lm -> faithful_map dc fs (fst (ValueForNumber dc fs lm (q_lang q) (q_max q) (q_num q))) /\ snd (ValueForNumber dc fs lm (q_lang q) (q_max q) (q_num q)) = fresh dc fs q.
Proof.
  intros F. unfold fresh. fold (alone dc fs q). rewrite alone_eq. unfold ValueForNumber, lazyLoadPrefixes. destruct (assocb (q_lang q) lm) as [t|] eqn:A.
  - cbn [fst snd]. split; [exact F|]. rewrite (F _ _ A). reflexivity.
  - destruct (load_language dc (fs (q_lang q))) as [t|e|] eqn:Ld; cbn [fst snd]; (split; [|reflexivity]); try exact F.
    intros l x H. destruct (beq_spec l (q_lang q)) as [->|Ne]; [rewrite assocb_cons in H; injection H as <-; exact Ld|]. rewrite assocb_other in H by exact Ne. apply F. exact H.
Qed.
(** Whatever was looked up before, in whatever languages and with whatever success, a lookup gives what it gives in a new mapper. *)
Theorem C92_history : forall dc fs qs, snd (asked dc fs [] qs) = map (fresh dc fs) qs.
Proof.
  intros dc fs qs. assert (G : forall lm, faithful_map dc fs lm -> snd (asked dc fs lm qs) = map (fresh dc fs) qs).
  { induction qs as [|q qs IH]; intros lm F; [reflexivity|]. cbn [asked map]. destruct (lookup_step dc fs lm q F) as [F' E]. destruct (ValueForNumber dc fs lm _ _ _) as [lm' v]. cbn [fst snd] in *. specialize (IH lm' F'). destruct (asked dc fs lm' qs) as [lm2 vs]. cbn [snd] in *. congruence. }
  apply G. intros l x H. discriminate.
Qed.
Print Assumptions C92_history.
(** Once a language has been read, its data is never read again: the answers in that language stay the same even if every file changes. *)
Lemma asked_keeps dc qs : forall fs lm l t, assocb l lm = Some t -> assocb l (fst (asked dc fs lm qs)) = Some t.
Proof.
  induction qs as [|q qs IH]; intros fs lm l t A; [exact A|]. cbn [asked]. unfold ValueForNumber, lazyLoadPrefixes. destruct (assocb (q_lang q) lm) as [t'|] eqn:B.
  - specialize (IH fs lm l t A). destruct (asked dc fs lm qs). exact IH.
  - destruct (load_language dc (fs (q_lang q))) as [t'|e|].
    + assert (A' : assocb l ((q_lang q, t') :: lm) = Some t) by (rewrite assocb_other; [exact A|intros ->; congruence]). specialize (IH fs _ l t A'). destruct (asked dc fs ((q_lang q, t') :: lm) qs). exact IH.
    + specialize (IH fs lm l t A). destruct (asked dc fs lm qs). exact IH.
    + specialize (IH fs lm l t A). destruct (asked dc fs lm qs). exact IH.
Qed.
Theorem C92_read_once : forall dc fs fs' before between q q', q_lang q' = q_lang q -> (exists t, load_language dc (fs (q_lang q)) = Ret t) ->
  let lm := fst (asked dc fs [] (before ++ q :: between)) in snd (ValueForNumber dc fs' lm (q_lang q') (q_max q') (q_num q')) = fresh dc fs q' /\ fst (ValueForNumber dc fs' lm (q_lang q') (q_max q') (q_num q')) = lm.
Proof.
  intros dc fs fs' before between q q' El (t & Ld). cbv zeta. assert (A : assocb (q_lang q) (fst (asked dc fs [] (before ++ q :: between))) = Some t).
  { assert (G : forall lm, faithful_map dc fs lm -> assocb (q_lang q) (fst (asked dc fs lm (before ++ q :: between))) = Some t).
    { induction before as [|b before IH]; intros lm F; cbn [app asked].
      - assert (K : assocb (q_lang q) (fst (ValueForNumber dc fs lm (q_lang q) (q_max q) (q_num q))) = Some t).
        { unfold ValueForNumber, lazyLoadPrefixes. destruct (assocb (q_lang q) lm) as [t'|] eqn:B; [apply F in B as B'; cbn [fst]; congruence|]. rewrite Ld. cbn [fst]. apply assocb_cons. }
        destruct (ValueForNumber dc fs lm _ _ _) as [lm' v]. cbn [fst] in K. pose proof (asked_keeps dc between fs lm' _ _ K) as R. destruct (asked dc fs lm' between). exact R.
      - destruct (lookup_step dc fs lm b F) as [F' _]. destruct (ValueForNumber dc fs lm _ _ _) as [lm' v]. cbn [fst] in F'. specialize (IH lm' F'). destruct (asked dc fs lm' (before ++ q :: between)). exact IH. }
    apply G. intros l x H. discriminate. }
  unfold fresh. fold (alone dc fs q'). rewrite alone_eq. unfold ValueForNumber, lazyLoadPrefixes. rewrite El, A, Ld. split; reflexivity.
Qed.
Print Assumptions C92_read_once.
(** A language that could not be read leaves the mapper as it was, so the next lookup tries again. *)
Theorem C92_failure : forall dc fs lm q, assocb (q_lang q) lm = None -> (forall t, load_language dc (fs (q_lang q)) <> Ret t) -> fst (ValueForNumber dc fs lm (q_lang q) (q_max q) (q_num q)) = lm.
Proof. intros dc fs lm q A H. unfold ValueForNumber, lazyLoadPrefixes. rewrite A. destruct (load_language dc (fs (q_lang q))) as [t|e|]; [elim (H t eq_refl)|reflexivity|reflexivity]. Qed.
Print Assumptions C92_failure.
(** The hypotheses are met: English is read once and answers after the files are gone; French has no file; a broken file is tried again. *)
Example C92_witness : let q := mkQ (bs "en") 10 (bs "+442012") in let r := mkQ (bs "en") 10 (bs "+4412") in let f := mkQ (bs "fr") 10 (bs "+442012") in
  snd (asked TableSpec.digits two_files [] [f; q; r; f]) = [Ret ([], 0%Z); Ret (bs "London", 4420%Z); Ret (bs "UK", 44%Z); Ret ([], 0%Z)]
  /\ (exists t, load_language TableSpec.digits (two_files (q_lang q)) = Ret t)
  /\ snd (ValueForNumber TableSpec.digits (fun _ => NoFile) (fst (asked TableSpec.digits two_files [] [f; q])) (q_lang r) (q_max r) (q_num r)) = Ret (bs "UK", 44%Z)
  /\ fst (ValueForNumber TableSpec.digits (fun _ => FileError) [] (q_lang q) (q_max q) (q_num q)) = []
  /\ forall t, load_language TableSpec.digits FileError <> Ret t.
Proof. cbv zeta. split; [vm_compute; reflexivity|]. split; [eexists; vm_compute; reflexivity|]. split; [vm_compute; reflexivity|]. split; [vm_compute; reflexivity|]. intros t. discriminate. Qed.
