(** The timezone table of the repository, decoded by the model. *)
From Verif Require Import Base BaseFacts Serialize PrefixMapper PrefixData TableSpec TableFacts.

(** What LoadIntArrayMap makes of timezone/data/prefix_to_timezone.xml.gz when digits are counted exactly. *)
Definition shipped_tz : table (list bytes) := Eval vm_compute in
  match LoadIntArrayMap digits shipped_tz_blob with Ret t => t | _ => mkTable [] 0%Z end.
Lemma shipped_tz_loads_digits : LoadIntArrayMap digits shipped_tz_blob = Ret shipped_tz.
Proof. vm_cast_no_check (eq_refl (Ret shipped_tz)). Qed.

(** Only the counts at the keys matter. *)
Lemma load_arrays_dc dc1 dc2 values n key acc s t : load_arrays dc1 values n key acc s = Ret t -> (forall k, In k (map fst (t_map t)) -> dc1 k = dc2 k) ->
  load_arrays dc2 values n key acc s = Ret t.
Proof.
  assert (Mono : forall n key acc s t, load_arrays dc1 values n key acc s = Ret t -> incl (map fst (t_map acc)) (map fst (t_map t))).
  { clear. induction n as [|n IH]; intros key acc s t E; cbn [load_arrays] in E. { apply ret_inj in E. subst. apply incl_refl. }
    apply bind_ret in E as ([d s1] & _ & E). apply bind_ret in E as ([c s2] & _ & E). apply bind_ret in E as ([vs s3] & _ & E). apply IH in E. intros x X. apply E. right. exact X. }
  revert key acc s. induction n as [|n IH]; intros key acc s E H; [exact E|]. cbn [load_arrays] in *.
  apply bind_ret in E as ([d s1] & E1 & E). rewrite E1. cbn [bind]. apply bind_ret in E as ([c s2] & E2 & E). rewrite E2. cbn [bind]. apply bind_ret in E as ([vs s3] & E3 & E). rewrite E3. cbn [bind].
  rewrite <- H; [apply IH; auto|]. apply Mono in E. apply E. left. reflexivity.
Qed.
Lemma shipped_tz_keys : forallb (fun e => (0 <=? fst e)%Z && (fst e <? 1000000000)%Z) (t_map shipped_tz) = true.
Proof. vm_cast_no_check (eq_refl true). Qed.
Lemma key_range (t : table (list bytes)) k : forallb (fun e => (0 <=? fst e)%Z && (fst e <? 1000000000)%Z) (t_map t) = true -> In k (map fst (t_map t)) -> (0 <= k < 1000000000)%Z.
Proof.
  intros F K. rewrite forallb_forall in F. apply in_map_iff in K as (e & <- & I). specialize (F _ I). apply andb_true_iff in F as [F1 F2]. lia.
Qed.
Lemma array_dc dc1 dc2 s t : LoadIntArrayMap dc1 s = Ret t -> (forall k, In k (map fst (t_map t)) -> dc1 k = dc2 k) -> LoadIntArrayMap dc2 s = Ret t.
Proof.
  unfold LoadIntArrayMap. destruct (load_header s) as [[[values n] s1]|e|]; cbn [bind]; try discriminate. apply load_arrays_dc.
Qed.
Lemma shipped_tz_loads dc : (forall k, (0 <= k < 1000000000)%Z -> dc k = digits k) -> LoadIntArrayMap dc shipped_tz_blob = Ret shipped_tz.
Proof.
  intros H. apply (array_dc digits dc _ _ shipped_tz_loads_digits). intros k K. symmetry. apply H. exact (key_range shipped_tz k shipped_tz_keys K).
Qed.
