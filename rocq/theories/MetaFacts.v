(** The shipped metadata is well formed (checked entry by entry in the kernel). *)
From Verif Require Import Base BaseFacts Utf8 Regex Consts Types Validate MetaSpec ValidateSpec Container Shipped.
From Coq Require Import Sorting.Sorted.

Fixpoint sorted_b (l : list Z) : bool :=
  match l with a :: t => forallb (fun b => (a <? b)%Z) t && sorted_b t | [] => true end.
Lemma sorted_b_ok l : sorted_b l = true -> StronglySorted Z.lt l.
Proof.
  induction l as [|a l IH]; intros H; constructor; simpl in H; apply andb_true_iff in H as [H1 H2]; auto.
  apply Forall_forall. intros x Hx. rewrite forallb_forall in H1. apply Z.ltb_lt; auto.
Qed.
Definition compiles_b (p : bytes) : bool := is_some (compile p).
Lemma compiles_b_ok p : compiles_b p = true -> compiles p.
Proof. unfold compiles_b, compiles. destruct (compile p); [eauto|discriminate]. Qed.
Definition positive_b (l : list Z) : bool := forallb (fun x => (0 <? x)%Z) l.
Lemma positive_b_ok l : positive_b l = true -> Forall (fun l => (0 < l)%Z) l.
Proof. unfold positive_b. intros H. apply Forall_forall. rewrite forallb_forall in H. intros x Hx. apply Z.ltb_lt; auto. Qed.
Definition is_none_len (l : list Z) : bool := match l with [x] => Z.eqb x (-1) | _ => false end.
Lemma is_none_len_iff l : is_none_len l = true <-> l = [(-1)%Z].
Proof.
  unfold is_none_len. destruct l as [|x [|y l]]; split; try discriminate; intros H; [apply Z.eqb_eq in H; congruence|inv H; reflexivity].
Qed.

Definition wf_desc_b (d : option desc) : bool :=
  match d with
  | None => false
  | Some x => compiles_b (anchored (get_d_pattern d)) && sorted_b (d_len x) && sorted_b (d_local x)
              && (is_none_len (d_len x) || positive_b (d_len x)) && positive_b (d_local x)
  end.
Lemma wf_desc_b_ok d : wf_desc_b d = true -> wf_desc d.
Proof.
  destruct d as [x|]; [|discriminate]. cbn [wf_desc_b]. rewrite !andb_true_iff, orb_true_iff. intros ((((H1 & H2) & H3) & H4) & H5).
  exists x. split; auto. split; [apply compiles_b_ok; auto|]. split; [apply sorted_b_ok; auto|]. split; [apply sorted_b_ok; auto|].
  split; [destruct H4 as [H|H]; [left; apply is_none_len_iff; auto|right; apply positive_b_ok; auto]|apply positive_b_ok; auto].
Qed.
Definition wf_format_b (f : nfmt) : bool :=
  compiles_b (get_pattern f) && compiles_b (anchored (get_pattern f)) && forallb compiles_b (nf_leading f).
Lemma forallb_Forall {A} (f : A -> bool) (P : A -> Prop) l : (forall x, f x = true -> P x) -> forallb f l = true -> Forall P l.
Proof. intros H F. rewrite forallb_forall in F. apply Forall_forall. auto. Qed.
Lemma wf_format_b_ok f : wf_format_b f = true -> wf_format f.
Proof.
  unfold wf_format_b. rewrite !andb_true_iff. intros ((H1 & H2) & H3).
  split; [apply compiles_b_ok; auto|]. split; [apply compiles_b_ok; auto|]. eapply forallb_Forall; [apply compiles_b_ok|auto].
Qed.
Definition wf_general_b (m : meta) : bool :=
  match md_general m with
  | None => false
  | Some d => negb (match d_len d with [] => true | _ => false end) && negb (is_none_len (d_len d)) && negb (is_empty (get_d_pattern (Some d)))
  end.
Definition wf_meta_b (m : meta) : bool :=
  forallb wf_desc_b (typed_descs m) && wf_general_b m && compiles_b (anchored_left (get_bytes (md_leading m)))
  && compiles_b (get_bytes (md_iprefix m)) && compiles_b (anchored_left (get_bytes (md_np_parse m)))
  && forallb wf_format_b (md_nf m) && forallb wf_format_b (md_inf m).
Lemma wf_meta_b_ok m : wf_meta_b m = true -> wf_meta m.
Proof.
  unfold wf_meta_b. rewrite !andb_true_iff. intros ((((((H1 & H2) & H3) & H4) & H5) & H6) & H7). constructor.
  - eapply forallb_Forall; [apply wf_desc_b_ok|auto].
  - unfold wf_general_b in H2. destruct (md_general m) as [d|]; [|discriminate]. rewrite !andb_true_iff, !negb_true_iff in H2.
    destruct H2 as ((A & B) & D). exists d. split; auto. split; [destruct (d_len d); congruence|]. split.
    + rewrite <- is_none_len_iff. congruence.
    + apply is_empty_false. auto.
  - apply compiles_b_ok; auto.
  - apply compiles_b_ok; auto.
  - apply compiles_b_ok; auto.
  - split; (eapply forallb_Forall; [apply wf_format_b_ok|auto]).
Qed.

Definition region_ok_b (C : container) (cc : Z) (r : bytes) : bool :=
  if beq r nonGeoEntity then is_some (assocz cc (c_nongeo C))
  else mem_bytes r (c_regions C) && match assocb r (c_region C) with
                                    | Some m => match md_cc m with Some z => Z.eqb z cc | None => false end
                                    | None => false end.
Lemma region_ok_b_ok C cc r : region_ok_b C cc r = true -> region_ok C cc r.
Proof.
  unfold region_ok_b, region_ok. destruct (beq r nonGeoEntity).
  - destruct (assocz cc (c_nongeo C)); [eauto|discriminate].
  - rewrite andb_true_iff, mem_bytes_iff. intros [H1 H2]. split; auto. destruct (assocb r (c_region C)) as [m|]; [|discriminate].
    exists m. split; auto. destruct (md_cc m) as [z|]; [|discriminate]. apply Z.eqb_eq in H2. congruence.
Qed.
Fixpoint nodup_b (l : list bytes) : bool := match l with [] => true | x :: t => negb (mem_bytes x t) && nodup_b t end.
Lemma nodup_b_ok l : nodup_b l = true -> NoDup l.
Proof.
  induction l as [|x l IH]; intros H; constructor; simpl in H; apply andb_true_iff in H as [H1 H2]; auto.
  rewrite <- mem_bytes_iff. apply negb_true_iff in H1. congruence.
Qed.
Definition wf_cc_b (C : container) (x : Z * list bytes) : bool :=
  let '(cc, l) := x in
  (0 <? cc)%Z && (cc <? 1000)%Z && negb (match l with [] => true | _ => false end) && nodup_b l
  && (negb (mem_bytes nonGeoEntity l) || match l with [r] => beq r nonGeoEntity | _ => false end)
  && forallb (region_ok_b C cc) l.
Lemma wf_cc_b_ok C cc l : wf_cc_b C (cc, l) = true ->
  (0 < cc < 1000)%Z /\ l <> [] /\ NoDup l /\ (In nonGeoEntity l -> l = [nonGeoEntity]) /\ forall r, In r l -> region_ok C cc r.
Proof.
  unfold wf_cc_b. rewrite !andb_true_iff, orb_true_iff, !negb_true_iff, !Z.ltb_lt. intros (((((H1 & H2) & H3) & H4) & H5) & H6).
  split; [auto|]. split; [destruct l; congruence|]. split; [apply nodup_b_ok; auto|]. split.
  - intros I. apply mem_bytes_iff in I. destruct H5 as [H5|H5]; [congruence|]. destruct l as [|r [|? ?]]; try discriminate.
    apply beq_eq in H5. congruence.
  - intros r I. rewrite forallb_forall in H6. apply region_ok_b_ok; auto.
Qed.
Definition supported_b (C : container) (r : bytes) : bool := negb (is_empty r) && negb (beq r nonGeoEntity) && is_some (assocb r (c_region C)).

Definition wf_container_b (C : container) : bool :=
  forallb (fun x => wf_meta_b (snd x)) (c_region C) && forallb (fun x => wf_meta_b (snd x)) (c_nongeo C)
  && forallb (supported_b C) (c_regions C) && forallb (wf_cc_b C) (c_cc2region C).
Lemma wf_container_b_ok C : wf_container_b C = true -> wf_container C.
Proof.
  unfold wf_container_b. rewrite !andb_true_iff, !forallb_forall. intros (((H1 & H2) & H3) & H4). constructor.
  - intros r m I. apply wf_meta_b_ok. exact (H1 _ I).
  - intros r m I. apply wf_meta_b_ok. exact (H2 _ I).
  - intros r I. specialize (H3 _ I). unfold supported_b in H3. rewrite !andb_true_iff, !negb_true_iff in H3. destruct H3 as ((A & B) & D).
    split; [apply is_empty_false; auto|]. split; [apply beq_neq; auto|]. destruct (assocb r (c_region C)); [eauto|discriminate].
  - intros cc l I. apply wf_cc_b_ok. auto.
Qed.

Theorem shipped_wf : wf_container shipped.
Proof. apply wf_container_b_ok. vm_cast_no_check (eq_refl true). Qed.

(** * Length nesting *)
Definition allowed_list (m : meta) (t : ptype) : list Z :=
  let of d := match d with Some d => if is_none_len (d_len d) then [] else lengths_of m d | None => [] end in
  match t with FIXED_LINE_OR_MOBILE => of (md_fixed m) ++ of (md_mobile m) | _ => of (getNumberDescByType (Some m) t) end.
Definition local_list (m : meta) (t : ptype) : list Z :=
  let of d := match d with Some d => if is_none_len (d_len d) then [] else d_local d | None => [] end in
  match t with FIXED_LINE_OR_MOBILE => of (md_fixed m) ++ of (md_mobile m) | _ => of (getNumberDescByType (Some m) t) end.
Lemma of_iff (F : desc -> list Z) o k :
  In k (match o with Some d => if is_none_len (d_len d) then [] else F d | None => [] end) <->
  exists d, o = Some d /\ has_numbers d /\ In k (F d).
Proof.
  destruct o as [d|]; [|split; [intros []|intros (d & E & _); discriminate]]. unfold has_numbers.
  destruct (is_none_len (d_len d)) eqn:E.
  - apply is_none_len_iff in E. split; [intros []|]. intros (d' & E' & H & _). inv E'. contradiction.
  - assert (d_len d <> [(-1)%Z]) by (rewrite <- is_none_len_iff; congruence). split; [eauto|]. intros (d' & E' & _ & I). inv E'. auto.
Qed.
Lemma allowed_list_iff m t k : In k (allowed_list m t) <-> allowed m t k.
Proof. unfold allowed_list. destruct t; simpl; rewrite ?in_app_iff; rewrite !(of_iff (lengths_of m)); reflexivity. Qed.
Lemma local_list_iff m t k : In k (local_list m t) <-> local_only m t k.
Proof. unfold local_list. destruct t; simpl; rewrite ?in_app_iff; rewrite !(of_iff d_local); reflexivity. Qed.

(** Lengths of type [t] in region [r] are possible for [t] in the main region of [cc]. *)
Definition nested_for_b (C : container) (t : ptype) (cc : Z) (r : bytes) : bool :=
  match meta_of C cc r, main_meta C cc with
  | Some m, Some mm => forallb (fun k => memz k (allowed_list mm t) || memz k (local_list mm t)) (allowed_list m t)
  | _, _ => true
  end.
Lemma nested_for_b_ok C t cc r m mm k : nested_for_b C t cc r = true -> meta_of C cc r = Some m -> main_meta C cc = Some mm ->
  allowed m t k -> allowed mm t k \/ local_only mm t k.
Proof.
  unfold nested_for_b. intros H E1 E2. rewrite E1, E2 in H. rewrite <- !allowed_list_iff, <- local_list_iff, <- !memz_iff, <- orb_true_iff.
  intros I. rewrite forallb_forall in H. apply H. apply memz_iff. auto.
Qed.
Theorem shipped_lengths_nested : lengths_nested shipped.
Proof.
  assert (E : forallb (fun x => forallb (nested_for_b shipped UNKNOWN (fst x)) (snd x)) (c_cc2region shipped) = true)
    by (vm_cast_no_check (eq_refl true)).
  intros cc l r m mm k I Ir. rewrite forallb_forall in E. specialize (E _ I). rewrite forallb_forall in E. specialize (E _ Ir).
  apply nested_for_b_ok. exact E.
Qed.
