(** Longest-prefix lookup, the source text of the tables, and the limits of the file format: proofs. *)
From Coq Require Import Permutation Sorting Lia.
From Verif Require Import Base BaseFacts Utf8 Types Serialize MetaBuild Container PrefixMapper TableSpec TableFacts.
Local Open Scope N_scope.

(** Keys and textual prefixes *)
Lemma prefix_key ds k : all_digits ds = true -> hd 0 ds <> 48 -> starts (itoa k) ds <->
  exists j, (1 <= j <= length ds)%nat /\ k = Z.of_N (dval (firstn j ds)) /\ itoa k = firstn j ds.
Proof.
  intros D H. split.
  - intros (t & E). exists (length (itoa k)). assert (F : firstn (length (itoa k)) ds = itoa k) by (rewrite E, firstn_app, firstn_all, Nat.sub_diag; simpl; apply app_nil_r).
    assert (Nn : (0 <= k)%Z). { destruct k as [|p|p]; try lia. exfalso. simpl in E. rewrite E in D. simpl in D. discriminate. }
    rewrite F. rewrite (itoa_nonneg k Nn) in *. split; [|split; [|reflexivity]].
    + rewrite E, app_length. destruct (dec (Z.to_N k)) eqn:Q; [exfalso; apply (dec_nonempty _ Q)|simpl; lia].
    + rewrite dval_dec. lia.
  - intros (j & J & E & F). rewrite F. exists (skipn j ds). symmetry. apply firstn_skipn.
Qed.
Lemma key_prefix ds j : all_digits ds = true -> hd 0 ds <> 48 -> (1 <= j <= length ds)%nat -> itoa (Z.of_N (dval (firstn j ds))) = firstn j ds.
Proof.
  intros D H J. rewrite itoa_nonneg by lia. rewrite N2Z.id. apply dec_dval; [apply all_digits_firstn; exact D| |].
  - destruct ds; [simpl in J; lia|]. destruct j; [lia|]. discriminate.
  - destruct ds as [|c ds]; [simpl in J; lia|]. destruct j as [|j]; [lia|]. cbn [firstn hd] in *. intros ->. congruence.
Qed.
Lemma small_dval ds j : all_digits ds = true -> (j <= 18)%nat -> dval (firstn j ds) < two63.
Proof.
  intros D J. pose proof (dval_bound (firstn j ds) (all_digits_firstn j ds D)) as B. rewrite firstn_length in B.
  assert (10 ^ N.of_nat (Nat.min j (length ds)) <= 10 ^ 18) by (apply N.pow_le_mono_r; lia). change (10 ^ 18) with 1000000000000000000 in *. unfold two63. lia.
Qed.
Lemma firstn_nonempty {A} j (s : list A) : (1 <= j <= length s)%nat -> firstn j s <> [].
Proof. destruct s; simpl; [lia|]. destruct j; [lia|]. discriminate. Qed.
Lemma atoi_plus s : s <> [] -> all_digits s = true -> dval s < two63 -> atoi (43 :: s) = Some (Z.of_N (dval s)).
Proof.
  intros A B C. apply N.ltb_lt in C. cbn [atoi]. rewrite B, C. destruct s; [congruence|]. reflexivity.
Qed.

(** No key of the map is a prefix of [ds] with more than [i] digits (and at most [hi]). *)
Definition none_longer {V} (m : list (Z * V)) (ds : bytes) (i hi : nat) : Prop :=
  forall k, In k (map fst m) -> starts (itoa k) ds -> (length (itoa k) <= hi)%nat -> (length (itoa k) <= i)%nat.
Lemma represents_key {V} (f : Z -> option V) m k : represents f m -> f k = None -> ~ In k (map fst m).
Proof. intros R E I. apply in_map_iff in I as ([k' v] & E1 & I). simpl in E1. subst k'. apply R in I. congruence. Qed.
Lemma none_longer_step {V} (f : Z -> option V) m ds i hi : represents f m -> all_digits ds = true -> hd 0 ds <> 48 -> (S i <= length ds)%nat -> f (Z.of_N (dval (firstn (S i) ds))) = None ->
  none_longer m ds (S i) hi -> none_longer m ds i hi.
Proof.
  intros R D H L E Nl k K S B. specialize (Nl k K S B). destruct (Nat.eq_dec (length (itoa k)) (Datatypes.S i)) as [Eq|]; [|lia]. exfalso.
  apply (prefix_key ds k D H) in S as (j & J & Ek & Ei). rewrite Ei, firstn_length in Eq. replace j with (Datatypes.S i) in * by lia. rewrite <- Ek in E. eapply represents_key; eauto.
Qed.
Lemma prefix_loop_spec f m ds hi i : represents f m -> all_digits ds = true -> hd 0 ds <> 48 -> (i <= length ds)%nat -> (i <= hi)%nat -> (i <= 18)%nat -> none_longer m ds i hi ->
  (exists k v, longest_key m (fun k => (length (itoa k) <= hi)%nat) ds k /\ f k = Some v /\ prefix_loop f (43 :: ds) (S i) = Ret (v, k))
  \/ ((forall k, In k (map fst m) -> starts (itoa k) ds -> (hi < length (itoa k))%nat) /\ prefix_loop f (43 :: ds) (S i) = Ret ([], 0%Z)).
Proof.
  intros R D H. induction i as [|i IH]; intros L Hi S18 Nl.
  - right. split; [|reflexivity]. intros k K S. destruct (Nat.lt_ge_cases hi (length (itoa k))) as [|G]; [auto|]. specialize (Nl k K S G).
    apply (prefix_key ds k D H) in S as (j & J & _ & Ei). rewrite Ei, firstn_length in Nl. lia.
  - cbn [prefix_loop]. change (firstn (S (S i)) (43 :: ds)) with (43 :: firstn (S i) ds). rewrite atoi_plus; [|apply firstn_nonempty; lia|apply all_digits_firstn; exact D|apply small_dval; auto].
    cbn [rd bind]. set (k := Z.of_N (dval (firstn (S i) ds))). pose proof (key_prefix ds (S i) D H ltac:(lia)) as Kp. fold k in Kp. destruct (f k) as [v|] eqn:E.
    + left. exists k, v. split; [|split; [exact E|reflexivity]]. assert (Lk : length (itoa k) = S i) by (rewrite Kp, firstn_length; lia). split; [|split; [rewrite Lk; auto|split]].
      * apply in_map_iff. exists (k, v). split; [reflexivity|]. apply R. exact E.
      * rewrite Kp. exists (skipn (S i) ds). symmetry. apply firstn_skipn.
      * intros k' K' O' S'. rewrite Lk. apply Nl; auto.
    + apply IH; try lia. eapply none_longer_step; eauto.
Qed.
Lemma tz_loop_spec f m ds i : represents f m -> all_digits ds = true -> hd 0 ds <> 48 -> (i <= length ds)%nat -> (i <= 18)%nat -> (forall k, In k (map fst m) -> starts (itoa k) ds -> (length (itoa k) <= i)%nat) ->
  (exists k v, longest_key m (fun _ => True) ds k /\ f k = Some v /\ tz_loop f ds i = Ret v)
  \/ ((forall k, In k (map fst m) -> ~ starts (itoa k) ds) /\ tz_loop f ds i = Ret [tz_Unknown]).
Proof.
  intros R D H. induction i as [|i IH]; intros L S18 Nl.
  - right. split; [|reflexivity]. intros k K S. specialize (Nl k K S). apply (prefix_key ds k D H) in S as (j & J & _ & Ei). rewrite Ei, firstn_length in Nl. lia.
  - cbn [tz_loop]. rewrite atoi_digits; [|apply firstn_nonempty; lia|apply all_digits_firstn; exact D|apply small_dval; auto].
    cbn [rd bind]. set (k := Z.of_N (dval (firstn (S i) ds))). pose proof (key_prefix ds (S i) D H ltac:(lia)) as Kp. fold k in Kp. destruct (f k) as [v|] eqn:E.
    + left. exists k, v. split; [|split; [exact E|reflexivity]]. assert (Lk : length (itoa k) = S i) by (rewrite Kp, firstn_length; lia). split; [|split; [exact I|split]].
      * apply in_map_iff. exists (k, v). split; [reflexivity|]. apply R. exact E.
      * rewrite Kp. exists (skipn (S i) ds). symmetry. apply firstn_skipn.
      * intros k' K' O' S'. rewrite Lk. apply Nl; auto.
    + apply IH; try lia. intros k' K' S'. assert (Nl' : none_longer m ds (S i) (length (itoa k'))) by (intros k'' A B _; apply Nl; auto).
      apply (none_longer_step f m ds i (length (itoa k')) R D H L E Nl' k' K' S'). lia.
Qed.
Lemma trim_plus_digits ds : all_digits ds = true -> trim_plus ds = ds.
Proof. destruct ds as [|c ds]; [reflexivity|]. simpl. intros H. apply andb_true_iff in H as [H _]. apply is_digit_iff in H. destruct c as [|[[[p|p|]|[p|p|]|]|[[p|p|]|[p|p|]|]|]]; try reflexivity. all: destruct p as [[p|p|]|[p|p|]|]; try reflexivity; lia. Qed.

(** What any blob can decode to *)
Definition octets (s : bytes) : Prop := Forall (fun c => c < 256) s.
Lemma octets_skipn n s : octets s -> octets (skipn n s).
Proof. unfold octets. rewrite !Forall_forall. intros H c C. apply H. eapply skipn_In. exact C. Qed.
Lemma read_u16_octets s i r : octets s -> read_u16 s = Some (i, r) -> i < 65536 /\ octets r.
Proof.
  intros O. destruct s as [|a [|b t]]; simpl; try discriminate. intros E. injection E as <- <-. inversion_clear O as [|? ? Oa Ot]. inversion_clear Ot. split; [lia|auto].
Qed.
Lemma read_uvarint_octets k sh x s i r : octets s -> read_uvarint_aux k sh x s = Some (i, r) -> octets r.
Proof.
  revert sh x s. induction k as [|k IH]; intros sh x s O; [discriminate|]. destruct s as [|b t]; [discriminate|]. cbn [read_uvarint_aux]. inversion_clear O as [|? ? Ob Ot].
  destruct (b <? 128); [destruct (_ && _); [discriminate|]; intros E; injection E as <- <-; exact Ot|apply IH; exact Ot].
Qed.
Lemma read_u32_octets s i r : octets s -> read_u32 s = Some (i, r) -> octets r.
Proof.
  intros O. destruct s as [|a [|b [|c [|d t]]]]; simpl; try discriminate. intros E. injection E as <- <-. inversion_clear O as [|? ? _ O1]. inversion_clear O1 as [|? ? _ O2]. inversion_clear O2 as [|? ? _ O3]. inversion_clear O3; auto.
Qed.
Lemma rd_ret {A} (o : option A) a : rd o = Ret a -> o = Some a.
Proof. destruct o; simpl; congruence. Qed.
Lemma nth_firstn {A} (l : list A) i n v : nth_error l i = Some v -> (i < n)%nat -> In v (firstn n l).
Proof.
  revert i n. induction l as [|x l IH]; intros [|i] [|n]; simpl; try discriminate; try lia.
  - intros E _. injection E as <-. auto.
  - intros E L. right. eapply IH; [exact E|lia].
Qed.
Lemma read_value_bound values s v r : octets s -> read_value values s = Ret (v, r) -> In v (firstn (N.to_nat 65536) values) /\ octets r.
Proof.
  intros O E. unfold read_value in E. apply bind_ret in E as ([i s'] & E1 & E). apply rd_ret in E1. destruct (read_u16_octets _ _ _ O E1) as (B & O').
  apply bind_ret in E as (w & E2 & E). apply rd_ret in E2. apply ret_inj in E. apply pair_equal_spec in E as [-> ->]. split; [|exact O'].
  eapply nth_firstn; [exact E2|]. lia.
Qed.
Lemma read_values_bound values c s vs r : octets s -> read_values values c s = Ret (vs, r) -> length vs = c /\ octets r /\ forall v, In v vs -> In v (firstn (N.to_nat 65536) values).
Proof.
  revert s vs r. induction c as [|c IH]; intros s vs r O E; cbn [read_values] in E.
  - apply ret_inj in E. apply pair_equal_spec in E as [<- <-]. split; [reflexivity|]. split; [exact O|]. intros v [].
  - apply bind_ret in E as ([v s1] & E1 & E). destruct (read_value_bound _ _ _ _ O E1) as (B & O1). apply bind_ret in E as ([vs' s2] & E2 & E). apply ret_inj in E. apply pair_equal_spec in E as [<- <-].
    destruct (IH _ _ _ O1 E2) as (L & O2 & F). split; [simpl; lia|]. split; [exact O2|]. intros w [<-|W]; auto.
Qed.
Definition array_ok (values : list bytes) (e : Z * list bytes) : Prop := (length (snd e) <= 255)%nat /\ forall v, In v (snd e) -> In v (firstn (N.to_nat 65536) values).
Lemma load_arrays_bound dc values n key acc s t : octets s -> Forall (array_ok values) (t_map acc) -> load_arrays dc values n key acc s = Ret t -> Forall (array_ok values) (t_map t).
Proof.
  revert key acc s. induction n as [|n IH]; intros key acc s O F E; cbn [load_arrays] in E. { apply ret_inj in E. subst. exact F. }
  apply bind_ret in E as ([d s1] & E1 & E). apply rd_ret in E1. apply (read_uvarint_octets _ _ _ _ _ _ O) in E1. apply bind_ret in E as ([c s2] & E2 & E). apply rd_ret in E2.
  destruct s1 as [|c' s1']; [discriminate|]. simpl in E2. injection E2 as <- <-. inversion_clear E1 as [|? ? Oc O1].
  apply bind_ret in E as ([vs s3] & E3 & E). destruct (read_values_bound _ _ _ _ _ O1 E3) as (L & O3 & G). eapply IH; [exact O3| |exact E]. cbn [t_map]. constructor; [|exact F]. split; [simpl; lia|exact G].
Qed.
Lemma load_prefixes_bound dc values n key acc s t : octets s -> Forall (fun e => In (snd e) (firstn (N.to_nat 65536) values)) (t_map acc) -> load_prefixes dc values n key acc s = Ret t ->
  Forall (fun e => In (snd e) (firstn (N.to_nat 65536) values)) (t_map t).
Proof.
  revert key acc s. induction n as [|n IH]; intros key acc s O F E; cbn [load_prefixes] in E. { apply ret_inj in E. subst. exact F. }
  apply bind_ret in E as ([d s1] & E1 & E). apply rd_ret in E1. apply (read_uvarint_octets _ _ _ _ _ _ O) in E1.
  apply bind_ret in E as ([v s3] & E3 & E). destruct (read_value_bound _ _ _ _ E1 E3) as (L & O3). eapply IH; [exact O3| |exact E]. cbn [t_map]. constructor; [exact L|exact F].
Qed.
Lemma load_header_octets s x n r : octets s -> load_header s = Ret (x, n, r) -> octets r.
Proof.
  intros O E. unfold load_header in E. apply bind_ret in E as ([size s1] & E1 & E). apply rd_ret in E1. apply (read_u32_octets _ _ _ O) in E1. destruct (_ <? _); [discriminate|]. cbv zeta in E.
  apply bind_ret in E as ([c s2] & E2 & E). apply rd_ret in E2. apply read_u32_octets in E2; [|apply octets_skipn; exact E1]. apply ret_inj in E. apply pair_equal_spec in E as [_ <-]. exact E2.
Qed.
Lemma array_limits dc s t : octets s -> LoadIntArrayMap dc s = Ret t -> (forall k vs, look t k = Some vs -> (length vs <= 255)%nat) /\
  exists strings, N.of_nat (length strings) <= 65536 /\ forall k vs v, look t k = Some vs -> In v vs -> In v strings.
Proof.
  intros O E. unfold LoadIntArrayMap in E. apply bind_ret in E as ([[values n] s1] & E1 & E). apply (load_header_octets _ _ _ _ O) in E1.
  apply (load_arrays_bound _ _ _ _ _ _ _ E1) in E; [|constructor]. rewrite Forall_forall in E. split.
  - intros k vs H. apply assocz_In in H. apply (E _ H).
  - exists (firstn (N.to_nat 65536) values). split; [pose proof (firstn_le_length (N.to_nat 65536) values); lia|]. intros k vs v H V. apply assocz_In in H. apply (proj2 (E _ H)). exact V.
Qed.
Lemma prefix_limits dc s t : octets s -> LoadPrefixMap dc s = Ret t -> exists strings, N.of_nat (length strings) <= 65536 /\ forall k v, look t k = Some v -> In v strings.
Proof.
  intros O E. unfold LoadPrefixMap in E. apply bind_ret in E as ([[values n] s1] & E1 & E). apply (load_header_octets _ _ _ _ O) in E1.
  apply (load_prefixes_bound _ _ _ _ _ _ _ E1) in E; [|constructor]. rewrite Forall_forall in E.
  exists (firstn (N.to_nat 65536) values). split; [pose proof (firstn_le_length (N.to_nat 65536) values); lia|]. intros k v H. apply assocz_In in H. apply (E _ H).
Qed.

(** Loaders never panic. *)
Lemma rd_total {A} (o : option A) : rd o <> Panic. Proof. destruct o; discriminate. Qed.
Lemma bind_total {A B} (m : M A) (f : A -> M B) : m <> Panic -> (forall a, m = Ret a -> f a <> Panic) -> bind m f <> Panic.
Proof. destruct m; simpl; auto; congruence. Qed.
Lemma load_header_total s : load_header s <> Panic.
Proof.
  unfold load_header. apply bind_total; [apply rd_total|]. intros [size s1] _. destruct (_ <? _); [discriminate|]. apply bind_total; [apply rd_total|]. intros [c s2] _. discriminate.
Qed.
Lemma read_value_total values s : read_value values s <> Panic.
Proof. unfold read_value. apply bind_total; [apply rd_total|]. intros [i s1] _. apply bind_total; [apply rd_total|]. discriminate. Qed.
Lemma read_values_total values n s : read_values values n s <> Panic.
Proof.
  revert s. induction n as [|n IH]; intros s; cbn [read_values]; [discriminate|]. apply bind_total; [apply read_value_total|]. intros [v s1] _. apply bind_total; [apply IH|]. intros [vs s2] _. discriminate.
Qed.
Lemma array_total dc s : LoadIntArrayMap dc s <> Panic.
Proof.
  unfold LoadIntArrayMap. apply bind_total; [apply load_header_total|]. intros [[values n] s1] _. clear s. set (acc := mkTable [] 0%Z). clearbody acc. generalize 0%Z. revert acc s1. induction (N.to_nat n) as [|k IH]; intros acc s key; cbn [load_arrays]; [discriminate|].
  apply bind_total; [apply rd_total|]. intros [d s1] _. apply bind_total; [apply rd_total|]. intros [c s2] _. apply bind_total; [apply read_values_total|]. intros [vs s3] _. apply IH.
Qed.
Lemma prefix_total dc s : LoadPrefixMap dc s <> Panic.
Proof.
  unfold LoadPrefixMap. apply bind_total; [apply load_header_total|]. intros [[values n] s1] _. clear s. set (acc := mkTable [] 0%Z). clearbody acc. generalize 0%Z. revert acc s1. induction (N.to_nat n) as [|k IH]; intros acc s key; cbn [load_prefixes]; [discriminate|].
  apply bind_total; [apply rd_total|]. intros [d s1] _. apply bind_total; [apply read_value_total|]. intros [v s2] _. apply IH.
Qed.

(** Rendering succeeds for keys below 2^42, whatever the order in which the map is visited. *)
Lemma render_entries_fits values l last : (0 <= last)%Z -> (last = 0%Z \/ Forall (Z.le last) (map fst l)) -> StronglySorted Z.le (map fst l) -> Forall (fun k => 0 <= k < 4398046511104)%Z (map fst l) ->
  exists b, render_entries values last l = Ret b.
Proof.
  revert last. induction l as [|[k vs] l IH]; intros last L0 LL S F; cbn [render_entries]; [eauto|]. cbn [map fst] in *. apply StronglySorted_inv in S as (S & Fo). inversion_clear F as [|? ? Fk Fl].
  destruct (put_diff_fits k last) as (d & ->); [|lia|]. { destruct LL as [->|LL]; [lia|]. inversion LL. lia. }
  cbn [bind]. destruct (IH k ltac:(lia) (or_intror Fo) S Fl) as (r & ->). cbn [bind]. eauto.
Qed.
Lemma prefix_entries_fits values l last : (0 <= last)%Z -> (last = 0%Z \/ Forall (Z.le last) (map fst l)) -> StronglySorted Z.le (map fst l) -> Forall (fun k => 0 <= k < 4398046511104)%Z (map fst l) ->
  exists b, prefix_entries values last l = Ret b.
Proof.
  revert last. induction l as [|[k vs] l IH]; intros last L0 LL S F; cbn [prefix_entries]; [eauto|]. cbn [map fst] in *. apply StronglySorted_inv in S as (S & Fo). inversion_clear F as [|? ? Fk Fl].
  destruct (put_diff_fits k last) as (d & ->); [|lia|]. { destruct LL as [->|LL]; [lia|]. inversion LL. lia. }
  cbn [bind]. destruct (IH k ltac:(lia) (or_intror Fo) S Fl) as (r & ->). cbn [bind]. eauto.
Qed.
Lemma keys_forall {V} (m : list (Z * V)) (P : Z -> Prop) : (forall k v, In (k, v) m -> P k) -> Forall P (map fst (by_key m)).
Proof.
  intros H. rewrite by_key_keys. apply Forall_forall. intros k K. eapply Permutation_in in K; [|apply sort_perm]. apply in_map_iff in K as ([k' v] & <- & I). eapply H. exact I.
Qed.
Lemma render_fits m : (forall k vs, In (k, vs) m -> 0 <= k < 4398046511104)%Z -> exists b, renderMap m = Ret b.
Proof.
  intros H. unfold renderMap. cbv zeta. destruct (render_entries_fits (sort bleb (distinct (concat (map snd m)))) (by_key m) 0%Z ltac:(lia) (or_introl eq_refl) (by_key_sorted m)) as (b & ->); [apply keys_forall; exact H|]. cbn [bind]. eauto.
Qed.
Lemma render_prefix_fits m : (forall k v, In (k, v) m -> 0 <= k < 4398046511104)%Z -> N.of_nat (length (distinct (map snd m))) <= 65535 -> exists b, renderPrefixMap m = Ret b.
Proof.
  intros H L. unfold renderPrefixMap. cbv zeta. apply N.ltb_ge in L. rewrite L. destruct (prefix_entries_fits (sort bleb (distinct (map snd m))) (by_key m) 0%Z ltac:(lia) (or_introl eq_refl) (by_key_sorted m)) as (b & ->); [apply keys_forall; exact H|]. cbn [bind]. eauto.
Qed.
Lemma render_perm m m' : NoDup (map fst m) -> Permutation m m' -> renderMap m = renderMap m'.
Proof.
  intros D P. unfold renderMap. cbv zeta. rewrite (by_key_perm m m' D P), (Permutation_length P).
  change (sort bleb (distinct (concat (map snd m)))) with (pool (concat (map snd m))). change (sort bleb (distinct (concat (map snd m')))) with (pool (concat (map snd m'))).
  rewrite (pool_perm (concat (map snd m)) (concat (map snd m'))); [reflexivity|]. intros v. rewrite !in_concat. split; intros (x & X & V); exists x; (split; [|exact V]).
  - eapply Permutation_in; [apply Permutation_map; exact P|exact X].
  - eapply Permutation_in; [apply Permutation_map, Permutation_sym; exact P|exact X].
Qed.
Lemma render_prefix_perm m m' : NoDup (map fst m) -> Permutation m m' -> renderPrefixMap m = renderPrefixMap m'.
Proof.
  intros D P. unfold renderPrefixMap. cbv zeta. rewrite (by_key_perm m m' D P), (Permutation_length P).
  change (sort bleb (distinct (map snd m))) with (pool (map snd m)). change (sort bleb (distinct (map snd m'))) with (pool (map snd m')).
  assert (I : forall v, In v (map snd m) <-> In v (map snd m')). { intros v. split; apply Permutation_in, Permutation_map; [exact P|apply Permutation_sym; exact P]. }
  rewrite (pool_perm (map snd m) (map snd m') I). replace (length (distinct (map snd m'))) with (length (distinct (map snd m))); [reflexivity|].
  apply Permutation_length. destruct (distinct_spec (map snd m)) as (D1 & I1), (distinct_spec (map snd m')) as (D2 & I2). apply NoDup_Permutation; auto. intros v. rewrite I1, I2. apply I.
Qed.
