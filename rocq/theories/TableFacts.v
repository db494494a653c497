(** Encoding and decoding of prefix tables: proofs. *)
From Coq Require Import Permutation Sorting Lia.
From Verif Require Import Base BaseFacts Serialize MetaBuild Container TableSpec.
Local Open Scope N_scope.

(** Numbers *)
Lemma ret_inj {A} (a b : A) : Ret a = Ret b -> a = b.
Proof. congruence. Qed.
Lemma to_int64_id z : (-9223372036854775808 <= z < 9223372036854775808)%Z -> to_int64 z = z.
Proof. intros H. unfold to_int64. rewrite Z.mod_small; lia. Qed.
Lemma to_int64_range z : (-9223372036854775808 <= to_int64 z < 9223372036854775808)%Z.
Proof. unfold to_int64. pose proof (Z.mod_pos_bound (z + 9223372036854775808) 18446744073709551616 ltac:(lia)). lia. Qed.
Lemma read_put_u8 x s : read_u8 (put_u8 x ++ s) = Some (x mod 256, s).
Proof. reflexivity. Qed.
Lemma read_put_u16 x s : read_u16 (put_u16 x ++ s) = Some (x mod 65536, s).
Proof.
  unfold put_u16. cbn [put_le app read_u16]. do 2 f_equal. change 65536 with (256 * 256). rewrite N.mod_mul_r by lia. lia.
Qed.
Lemma read_put_u32 x s : x < 4294967296 -> read_u32 (put_u32 x ++ s) = Some (x, s).
Proof.
  intros H. unfold put_u32. cbn [put_le app read_u32]. do 2 f_equal. rewrite !N.div_div by lia.
  assert (E : x / (256 * 256 * 256) < 256) by (apply N.div_lt_upper_bound; lia).
  rewrite (N.mod_small (x / (256 * 256 * 256))) by auto.
  rewrite <- (N.div_div x (256 * 256) 256), <- (N.div_div x 256 256) by lia.
  pose proof (N.div_mod x 256 ltac:(lia)). pose proof (N.div_mod (x / 256) 256 ltac:(lia)). pose proof (N.div_mod (x / 256 / 256) 256 ltac:(lia)). lia.
Qed.
Lemma put_u32_len x : length (put_u32 x) = 4%nat.
Proof. reflexivity. Qed.

Lemma uvarint_more f g x : x < 128 ^ N.of_nat f -> (0 < f)%nat -> uvarint (f + g) x = uvarint f x.
Proof.
  revert x. induction f as [|f IH]; intros x H P; [lia|]. cbn [uvarint Nat.add]. destruct (N.ltb_spec x 128); [reflexivity|]. f_equal.
  destruct f as [|f]. { change (128 ^ N.of_nat 1) with 128 in H. lia. }
  apply IH; [|lia]. apply N.div_lt_upper_bound; [lia|]. rewrite Nnat.Nat2N.inj_succ, N.pow_succ_r' in H. exact H.
Qed.
Lemma uvarint_len f x k : 128 ^ N.of_nat k <= x -> (k < f)%nat -> (k < length (uvarint f x))%nat.
Proof.
  revert x k. induction f as [|f IH]; intros x k H P; [lia|]. cbn [uvarint]. destruct k as [|k]. { destruct (x <? 128); simpl; lia. }
  rewrite Nnat.Nat2N.inj_succ, N.pow_succ_r' in H. assert (1 <= 128 ^ N.of_nat k) by (assert (128 ^ N.of_nat k <> 0) by (apply N.pow_nonzero; lia); lia).
  destruct (N.ltb_spec x 128); [nia|]. simpl. apply -> Nat.succ_lt_mono. apply IH; [|lia]. apply N.div_le_lower_bound; lia.
Qed.
Lemma read_uvarint_ok f k sh acc x s : x < 128 ^ N.of_nat f -> (0 < f)%nat -> (f < k)%nat -> read_uvarint_aux k sh acc (uvarint f x ++ s) = Some (acc + x * sh, s).
Proof.
  revert k sh acc x. induction f as [|f IH]; intros k sh acc x H P K; [lia|]. destruct k as [|k]; [lia|]. cbn [uvarint]. destruct (N.ltb_spec x 128) as [L|L].
  - cbn [app read_uvarint_aux]. destruct (N.ltb_spec x 128); [|lia]. destruct (Nat.eqb_spec k 0); [lia|]. reflexivity.
  - cbn [app read_uvarint_aux]. pose proof (N.mod_lt x 128 ltac:(lia)). destruct (N.ltb_spec (128 + x mod 128) 128); [lia|].
    destruct f as [|f]. { change (128 ^ N.of_nat 1) with 128 in H. lia. }
    rewrite IH; [|apply N.div_lt_upper_bound; [lia|]; rewrite Nnat.Nat2N.inj_succ, N.pow_succ_r' in H; exact H|lia|lia].
    do 2 f_equal. pose proof (N.div_mod x 128 ltac:(lia)). replace (128 + x mod 128 - 128) with (x mod 128) by lia. nia.
Qed.
(** What a difference written by the builder reads back as. *)
Lemma put_diff_ok key last b s : (-9223372036854775808 <= key < 9223372036854775808)%Z -> (0 <= last < 9223372036854775808)%Z -> (last = 0 \/ last <= key)%Z -> put_diff key last = Ret b ->
  (last <= key)%Z /\ read_uvarint (b ++ s) = Some (Z.to_N (key - last), s).
Proof.
  unfold put_diff. intros K L LK. cbv zeta. destruct (Nat.ltb_spec 6 (len (uvarint 10 (Z.to_N (to_int64 (key - last) mod 18446744073709551616))))) as [H|H]; [discriminate|].
  intros E. apply ret_inj in E. subst b. set (x := Z.to_N (to_int64 (key - last) mod 18446744073709551616)) in *. unfold len in H.
  assert (X : x < 128 ^ N.of_nat 6). { destruct (N.lt_ge_cases x (128 ^ N.of_nat 6)); auto. pose proof (uvarint_len 10 x 6 H0 ltac:(lia)). lia. }
  change (128 ^ N.of_nat 6) with 4398046511104 in X.
  assert (Q : (to_int64 (key - last) mod 18446744073709551616 < 4398046511104)%Z). { pose proof (Z.mod_pos_bound (to_int64 (key - last)) 18446744073709551616 ltac:(lia)). lia. }
  pose proof (Z.mod_pos_bound (to_int64 (key - last)) 18446744073709551616 ltac:(lia)) as MB.
  assert (D : (last <= key)%Z /\ x = Z.to_N (key - last)).
  { subst x. clear H X. unfold to_int64 in *. rewrite Zminus_mod_idemp_l in *. replace (key - last + 9223372036854775808 - 9223372036854775808)%Z with (key - last)%Z in * by lia.
    destruct (Z.le_gt_cases last key) as [G|G]. { split; [exact G|]. rewrite Z.mod_small by lia. reflexivity. }
    exfalso. assert (Em : ((key - last) mod 18446744073709551616 = key - last + 18446744073709551616)%Z). { symmetry. apply (Z.mod_unique _ _ (-1)); lia. }
    lia. }
  destruct D as (D1 & D2). split; [exact D1|]. unfold read_uvarint.
  change 10%nat with (6 + 4)%nat at 2. rewrite (uvarint_more 6 4 x); [|change (128 ^ N.of_nat 6) with 4398046511104; exact X|lia].
  rewrite read_uvarint_ok; [|change (128 ^ N.of_nat 6) with 4398046511104; exact X|lia|lia]. rewrite D2. do 2 f_equal. lia.
Qed.
Lemma put_diff_fits key last : (0 <= last <= key)%Z -> (key < 4398046511104)%Z -> exists b, put_diff key last = Ret b.
Proof.
  intros L K. unfold put_diff. cbv zeta. rewrite to_int64_id by lia. rewrite Z.mod_small by lia.
  assert (X : Z.to_N (key - last) < 128 ^ N.of_nat 6) by (change (128 ^ N.of_nat 6) with 4398046511104; lia).
  change 10%nat with (6 + 4)%nat. rewrite (uvarint_more 6 4) by (auto; lia). set (x := Z.to_N (key - last)) in *.
  assert (LB : forall f y, (length (uvarint f y) <= f)%nat). { induction f; intros y; simpl; [lia|]. destruct (y <? 128); simpl; [lia|]. specialize (IHf (y / 128)). lia. }
  unfold len. specialize (LB 6%nat x). destruct (Nat.ltb_spec 6 (length (uvarint 6 x))); [lia|]. eauto.
Qed.

(** Sorting *)
Section Sort.
Context {A : Type} (leb : A -> A -> bool).
Hypothesis total_leb : forall a b, leb a b = false -> leb b a = true.
Hypothesis trans_leb : forall a b c, leb a b = true -> leb b c = true -> leb a c = true.
Lemma insert_perm x l : Permutation (insert leb x l) (x :: l).
Proof. induction l as [|y l IH]; simpl; [reflexivity|]. destruct (leb x y); [reflexivity|]. rewrite IH. apply perm_swap. Qed.
Lemma sort_perm l : Permutation (sort leb l) l.
Proof. induction l as [|x l IH]; simpl; [reflexivity|]. rewrite insert_perm. constructor. exact IH. Qed.
Lemma insert_sorted x l : StronglySorted (fun a b => leb a b = true) l -> StronglySorted (fun a b => leb a b = true) (insert leb x l).
Proof.
  induction 1 as [|y l S IH F]; simpl; [constructor; constructor|]. destruct (leb x y) eqn:E.
  - constructor; [constructor; auto|]. constructor; [exact E|]. revert F. apply Forall_impl. intros a. apply trans_leb. exact E.
  - constructor; [exact IH|]. rewrite insert_perm. constructor; [apply total_leb; exact E|exact F].
Qed.
Lemma sort_sorted l : StronglySorted (fun a b => leb a b = true) (sort leb l).
Proof. induction l as [|x l IH]; simpl; [constructor|]. apply insert_sorted. exact IH. Qed.
Lemma sorted_unique (anti : forall a b, leb a b = true -> leb b a = true -> a = b) l1 l2 :
  StronglySorted (fun a b => leb a b = true) l1 -> StronglySorted (fun a b => leb a b = true) l2 -> Permutation l1 l2 -> l1 = l2.
Proof.
  intros S1. revert l2. induction S1 as [|x l1 S1 IH F1]; intros l2 S2 P. { apply Permutation_nil in P. auto. }
  destruct S2 as [|y l2 S2 F2]. { apply Permutation_sym, Permutation_nil in P. discriminate. }
  assert (E : x = y).
  { assert (I : In x (y :: l2)) by (rewrite <- P; left; auto). assert (J : In y (x :: l1)) by (rewrite P; left; auto).
    destruct I as [->|I]; [reflexivity|]. destruct J as [->|J]; [reflexivity|]. rewrite Forall_forall in F1, F2. apply anti; auto. }
  subst y. f_equal. apply IH; auto. eapply Permutation_cons_inv. exact P.
Qed.
End Sort.

Lemma zleb_total a b : (a <=? b)%Z = false -> (b <=? a)%Z = true. Proof. lia. Qed.
Lemma zleb_trans a b c : (a <=? b)%Z = true -> (b <=? c)%Z = true -> (a <=? c)%Z = true. Proof. lia. Qed.
Lemma bleb_total a b : bleb a b = false -> bleb b a = true.
Proof.
  revert b. induction a as [|x a IH]; intros [|y b]; simpl; try discriminate; auto. intros H. apply orb_false_iff in H as [H1 H2].
  apply N.ltb_ge in H1. destruct (N.eqb_spec x y) as [->|Ne]. { rewrite N.eqb_refl. simpl in *. rewrite IH by auto. apply orb_true_r. }
  assert (y < x) as L by lia. apply N.ltb_lt in L. rewrite L. reflexivity.
Qed.
Lemma bleb_trans a b c : bleb a b = true -> bleb b c = true -> bleb a c = true.
Proof.
  revert b c. induction a as [|x a IH]; intros [|y b] [|z c]; simpl; try discriminate; auto. intros H1 H2.
  apply orb_true_iff in H1, H2. apply orb_true_iff. rewrite !andb_true_iff, !N.ltb_lt, !N.eqb_eq in *.
  destruct H1 as [H1|[-> H1]], H2 as [H2|[-> H2]]; try (left; lia). right. split; [reflexivity|]. eauto.
Qed.
Lemma bleb_anti a b : bleb a b = true -> bleb b a = true -> a = b.
Proof.
  revert b. induction a as [|x a IH]; intros [|y b]; simpl; try discriminate; auto. intros H1 H2.
  apply orb_true_iff in H1, H2. rewrite !andb_true_iff, !N.ltb_lt, !N.eqb_eq in *. destruct H1 as [H1|[-> H1]], H2 as [H2|[E2 H2]]; try lia. f_equal. auto.
Qed.

(** Interned strings *)
Lemma set_add_in (x y : bytes) l : In y (set_add mem_bytes x l) <-> y = x \/ In y l.
Proof.
  unfold set_add. destruct (mem_bytes x l) eqn:E.
  - apply mem_bytes_iff in E. split; [auto|]. intros [->|H]; auto.
  - rewrite in_app_iff. simpl. split; [intros [H|[H|[]]]; auto|intros [H|H]; auto].
Qed.
Lemma set_add_nodup (x : bytes) l : NoDup l -> NoDup (set_add mem_bytes x l).
Proof.
  intros H. unfold set_add. destruct (mem_bytes x l) eqn:E; [exact H|]. apply Permutation_NoDup with (l := x :: l); [apply Permutation_cons_append|].
  constructor; [|exact H]. intros I. apply mem_bytes_iff in I. congruence.
Qed.
Lemma distinct_spec l : NoDup (distinct l) /\ forall v, In v (distinct l) <-> In v l.
Proof.
  unfold distinct. assert (G : forall acc, NoDup acc -> NoDup (fold_left (fun acc v => set_add mem_bytes v acc) l acc) /\ forall v, In v (fold_left (fun acc v => set_add mem_bytes v acc) l acc) <-> In v acc \/ In v l).
  { induction l as [|x l IH]; intros acc H; simpl. { split; [exact H|]. intros v. tauto. }
    destruct (IH (set_add mem_bytes x acc) (set_add_nodup x acc H)) as (A & B). split; [exact A|]. intros v. rewrite B, set_add_in. split; intros K; intuition. }
  destruct (G [] (NoDup_nil _)) as (A & B). split; [exact A|]. intros v. rewrite B. simpl. tauto.
Qed.
Definition pool (l : list bytes) : list bytes := sort bleb (distinct l).
Lemma pool_spec l : NoDup (pool l) /\ forall v, In v (pool l) <-> In v l.
Proof.
  unfold pool. pose proof (sort_perm bleb (distinct l)) as P. destruct (distinct_spec l) as (D & I). split.
  - eapply Permutation_NoDup; [apply Permutation_sym, P|exact D].
  - intros v. rewrite <- I. split; apply Permutation_in; [exact P|apply Permutation_sym, P].
Qed.
Lemma pool_perm l l' : (forall v, In v l <-> In v l') -> pool l = pool l'.
Proof.
  intros H. apply (sorted_unique bleb bleb_anti); try apply (sort_sorted bleb bleb_total bleb_trans).
  destruct (pool_spec l) as (D1 & I1), (pool_spec l') as (D2 & I2). apply NoDup_Permutation; auto. intros v. rewrite I1, I2. auto.
Qed.
Lemma position_spec v l i : position v l = Some i -> nth_error l i = Some v.
Proof.
  revert i. induction l as [|x l IH]; intros i; simpl; [discriminate|]. destruct (position v l) as [j|].
  - intros E. injection E as <-. apply IH. reflexivity.
  - destruct (beq_spec v x) as [->|]; [|discriminate]. intros E. injection E as <-. reflexivity.
Qed.
Lemma position_some v l : In v l -> exists i, position v l = Some i.
Proof.
  induction l as [|x l IH]; simpl; [intros []|]. intros [->|H].
  - destruct (position v l); [eauto|]. rewrite beq_refl. eauto.
  - destruct (IH H) as (i & ->). eauto.
Qed.
Lemma intern_spec values v : In v values -> N.of_nat (length values) <= 65536 -> intern values v < 65536 /\ nth_error values (N.to_nat (intern values v)) = Some v.
Proof.
  intros H L. destruct (position_some v values H) as (i & E). unfold intern. rewrite E. pose proof (position_spec v values i E) as P. rewrite Nnat.Nat2N.id. split; [|exact P].
  assert (i < length values)%nat by (apply nth_error_Some; congruence). lia.
Qed.
Lemma split_join values : values <> [] -> (forall v, In v values -> ~ In 10 v) -> split_byte (join values [10]) 10 = values.
Proof.
  assert (One : forall v, ~ In 10 v -> split_byte v 10 = [v]).
  { induction v as [|c v IH]; intros H; simpl; [reflexivity|]. destruct (N.eqb_spec c 10) as [->|]; [exfalso; apply H; left; auto|]. rewrite IH; [reflexivity|]. intros I. apply H. right. auto. }
  assert (Two : forall v r, ~ In 10 v -> split_byte (v ++ 10 :: r) 10 = v :: split_byte r 10).
  { induction v as [|c v IH]; intros r H; simpl; [reflexivity|]. destruct (N.eqb_spec c 10) as [->|]; [exfalso; apply H; left; auto|]. rewrite IH; [reflexivity|]. intros I. apply H. right. auto. }
  induction values as [|x values IH]; [congruence|]. intros _ H. destruct values as [|y values].
  - apply One. apply H. left. auto.
  - change (join (x :: y :: values) [10]) with (x ++ 10 :: join (y :: values) [10]). rewrite Two by (apply H; left; auto). f_equal. apply IH; [discriminate|]. intros v I. apply H. right. auto.
Qed.
Lemma join_length values : values <> [] -> S (length (join values [10])) = (length (concat values) + length values)%nat.
Proof.
  induction values as [|x values IH]; [congruence|]. intros _. destruct values as [|y values].
  - cbn [join concat length]. rewrite app_nil_r. lia.
  - change (join (x :: y :: values) [10]) with (x ++ 10 :: join (y :: values) [10]). change (concat (x :: y :: values)) with (x ++ concat (y :: values)). rewrite !app_length.
    change (length (10 :: join (y :: values) [10])) with (S (length (join (y :: values) [10]))). rewrite IH by discriminate. change (length (x :: y :: values)) with (S (length (y :: values))). lia.
Qed.
Lemma concat_incl_length (a l : list bytes) : NoDup a -> incl a l -> (length (concat a) <= length (concat l))%nat.
Proof.
  revert l. induction a as [|x a IH]; intros l D I; simpl; [lia|]. inversion_clear D as [|? ? Dx Da].
  destruct (in_split x l (I x (or_introl eq_refl))) as (l1 & l2 & ->). assert (I' : incl a (l1 ++ l2)).
  { intros y Y. assert (J : In y (l1 ++ x :: l2)) by (apply I; right; auto). apply in_app_iff in J as [J|[->|J]]; apply in_app_iff; auto. contradiction. }
  specialize (IH _ Da I'). rewrite concat_app in *. cbn [concat]. rewrite !app_length in *. lia.
Qed.

(** The header *)
Definition pool_read (values : list bytes) : list bytes := match values with [] => [[]] | _ => values end.
Lemma load_header_ok values count s : N.of_nat (length (concat values) + length values) <= 2 ^ 32 -> (forall v, In v values -> ~ In 10 v) -> N.of_nat count < 2 ^ 32 ->
  load_header (put_strings values ++ put_u32 (N.of_nat count) ++ s) = Ret (pool_read values, N.of_nat count, s).
Proof.
  intros H L C. change (2 ^ 32) with 4294967296 in *. unfold load_header, put_strings. cbv zeta. rewrite <- app_assoc.
  assert (J : N.of_nat (len (join values [10])) < 4294967296).
  { unfold len. destruct values as [|x t]; [simpl; lia|]. pose proof (join_length (x :: t) ltac:(discriminate)) as E. unfold bytes in *. rewrite <- E in H. set (j := length (join (x :: t) [10])) in *. clearbody j. clear - H. lia. }
  rewrite read_put_u32 by exact J. cbn [rd bind]. unfold len in *. rewrite Nnat.Nat2N.id. rewrite app_length.
  destruct (N.ltb_spec (N.of_nat (length (join values [10]) + length (put_u32 (N.of_nat count) ++ s))) (N.of_nat (length (join values [10])))); [lia|].
  rewrite firstn_app, firstn_all, Nat.sub_diag, firstn_O, app_nil_r. rewrite skipn_app, skipn_all, Nat.sub_diag, skipn_O. cbn [app].
  rewrite read_put_u32 by exact C. cbn [rd bind]. do 3 f_equal. unfold pool_read. destruct values as [|x t]; [reflexivity|]. apply split_join; [discriminate|exact L].
Qed.
Lemma read_value_ok values v s : In v values -> N.of_nat (length values) <= 65536 -> read_value (pool_read values) (put_u16 (intern values v) ++ s) = Ret (v, s).
Proof.
  intros I L. destruct (intern_spec values v I L) as (B & E). unfold read_value. rewrite read_put_u16. rewrite N.mod_small by exact B. cbn [rd bind].
  destruct values as [|x t]; [destruct I|]. unfold pool_read. rewrite E. reflexivity.
Qed.
Lemma read_values_ok values vs s : (forall v, In v vs -> In v values) -> N.of_nat (length values) <= 65536 ->
  read_values (pool_read values) (length vs) (concat (map (fun v => put_u16 (intern values v)) vs) ++ s) = Ret (vs, s).
Proof.
  intros I L. induction vs as [|v vs IH]; [reflexivity|]. cbn [map concat length read_values]. rewrite <- app_assoc. rewrite read_value_ok by (auto; apply I; left; auto). cbn [bind].
  rewrite IH by (intros w W; apply I; right; auto). reflexivity.
Qed.

(** The maximum of [dc] over the keys. *)
Definition max_dc (dc : Z -> Z) (l : list Z) (a : Z) : Z := fold_left (fun a k => Z.max a (dc k)) l a.
Lemma max_dc_ge dc l a : (a <= max_dc dc l a)%Z /\ forall k, In k l -> (dc k <= max_dc dc l a)%Z.
Proof.
  revert a. induction l as [|k l IH]; intros a; simpl. { split; [lia|intros k []]. }
  destruct (IH (Z.max a (dc k))) as (A & B). unfold max_dc in *. split; [lia|]. intros k' [->|H]; [lia|]. apply B; auto.
Qed.
Lemma max_dc_attained dc l a : max_dc dc l a = a \/ exists k, In k l /\ max_dc dc l a = dc k.
Proof.
  revert a. induction l as [|k l IH]; intros a; simpl; [auto|]. destruct (IH (Z.max a (dc k))) as [E|(k' & I & E)].
  - unfold max_dc in *. rewrite E. destruct (Z.max_spec a (dc k)) as [[_ ->]|[_ ->]]; [right; exists k; auto|left; auto].
  - right. exists k'. auto.
Qed.

(** Entries, array form *)
Lemma load_arrays_ok dc values l last acc b : (forall k vs, In (k, vs) l -> (-9223372036854775808 <= k < 9223372036854775808)%Z /\ (length vs <= 255)%nat /\ forall v, In v vs -> In v values) ->
  N.of_nat (length values) <= 65536 -> (0 <= last < 9223372036854775808)%Z -> (last = 0%Z \/ Forall (Z.le last) (map fst l)) -> StronglySorted Z.le (map fst l) -> render_entries values last l = Ret b ->
  load_arrays dc (pool_read values) (length l) last acc b = Ret (mkTable (rev l ++ t_map acc) (max_dc dc (map fst l) (t_max acc))).
Proof.
  revert last acc b. induction l as [|[k vs] l IH]; intros last acc b H L La LL So E. { cbn in E. injection E as <-. destruct acc. reflexivity. }
  cbn [render_entries] in E. apply bind_ret in E as (d & Ed & E). apply bind_ret in E as (r & Er & E). apply ret_inj in E. subst b.
  destruct (H k vs (or_introl eq_refl)) as (R & N255 & I). cbn [length load_arrays]. cbn [map fst] in So, LL. apply StronglySorted_inv in So as (So & Fo).
  assert (LK : (last = 0 \/ last <= k)%Z) by (destruct LL as [LL|LL]; [auto|right; inversion LL; auto]).
  destruct (put_diff_ok k last d (put_u8 (N.of_nat (length vs)) ++ concat (map (fun v => put_u16 (intern values v)) vs) ++ r) R La LK Ed) as (G & Rd). rewrite Rd. cbn [rd bind].
  rewrite Z2N.id by lia. replace (last + (k - last))%Z with k by lia. rewrite to_int64_id by lia. rewrite read_put_u8. rewrite N.mod_small by lia. cbn [rd bind].
  rewrite Nnat.Nat2N.id. rewrite read_values_ok by auto. cbn [bind].
  rewrite IH; [|intros; apply H; right; auto|auto|lia|right; exact Fo|exact So|exact Er]. cbn [t_map t_max map fst rev]. unfold max_dc. cbn [fold_left]. rewrite <- app_assoc. reflexivity.
Qed.
Lemma load_prefixes_ok dc values l last acc b : (forall k v, In (k, v) l -> (-9223372036854775808 <= k < 9223372036854775808)%Z /\ In v values) ->
  N.of_nat (length values) <= 65536 -> (0 <= last < 9223372036854775808)%Z -> (last = 0%Z \/ Forall (Z.le last) (map fst l)) -> StronglySorted Z.le (map fst l) -> prefix_entries values last l = Ret b ->
  load_prefixes dc (pool_read values) (length l) last acc b = Ret (mkTable (rev l ++ t_map acc) (max_dc dc (map fst l) (t_max acc))).
Proof.
  revert last acc b. induction l as [|[k v] l IH]; intros last acc b H L La LL So E. { cbn in E. injection E as <-. destruct acc. reflexivity. }
  cbn [prefix_entries] in E. apply bind_ret in E as (d & Ed & E). apply bind_ret in E as (r & Er & E). apply ret_inj in E. subst b.
  destruct (H k v (or_introl eq_refl)) as (R & I). cbn [length load_prefixes]. cbn [map fst] in So, LL. apply StronglySorted_inv in So as (So & Fo).
  assert (LK : (last = 0 \/ last <= k)%Z) by (destruct LL as [LL|LL]; [auto|right; inversion LL; auto]).
  destruct (put_diff_ok k last d (put_u16 (intern values v) ++ r) R La LK Ed) as (G & Rd). rewrite Rd. cbn [rd bind].
  rewrite Z2N.id by lia. replace (last + (k - last))%Z with k by lia. rewrite to_int64_id by lia. rewrite read_value_ok by auto. cbn [bind].
  rewrite IH; [|intros; apply H; right; auto|auto|lia|right; exact Fo|exact So|exact Er]. cbn [t_map t_max map fst rev]. unfold max_dc. cbn [fold_left]. rewrite <- app_assoc. reflexivity.
Qed.

(** The entries in key order *)
Lemma assocz_nodup {V} (m : list (Z * V)) k v : NoDup (map fst m) -> (assocz k m = Some v <-> In (k, v) m).
Proof.
  intros D. split; [apply assocz_In|]. unfold assocz. induction m as [|[k' v'] m IH]; simpl; [intros []|]. inversion_clear D as [|? ? Dx Dm]. intros [E|H].
  - injection E as -> ->. rewrite Z.eqb_refl. reflexivity.
  - destruct (Z.eqb_spec k k') as [->|]; [|auto]. exfalso. apply Dx. apply in_map_iff. exists (k', v). auto.
Qed.
Lemma by_key_keys {V} (m : list (Z * V)) : map fst (by_key m) = sort Z.leb (map fst m).
Proof.
  unfold by_key. pose proof (sort_perm Z.leb (map fst m)) as P. assert (I : forall k, In k (sort Z.leb (map fst m)) -> In k (map fst m)) by (intros k; apply Permutation_in; exact P).
  revert I. generalize (sort Z.leb (map fst m)). clear P. induction l as [|k l IH]; intros I; [reflexivity|]. cbn [map concat]. rewrite map_app, IH by (intros; apply I; right; auto).
  destruct (assocz k m) as [v|] eqn:E; [reflexivity|]. exfalso. specialize (I k (or_introl eq_refl)). apply in_map_iff in I as ([k' v] & E1 & I). simpl in E1. subst k'.
  clear IH. unfold assocz in E. induction m as [|[k' v'] m IHm]; [destruct I|]. simpl in E. destruct (Z.eqb_spec k k') as [->|]; [discriminate|]. destruct I as [I|I]; [congruence|auto].
Qed.
Lemma by_key_sorted {V} (m : list (Z * V)) : StronglySorted Z.le (map fst (by_key m)).
Proof.
  rewrite by_key_keys. pose proof (sort_sorted Z.leb zleb_total zleb_trans (map fst m)) as S. induction S as [|x l S IH F]; constructor; [exact IH|].
  revert F. apply Forall_impl. intros a. apply Zle_bool_imp_le.
Qed.
Lemma by_key_in {V} (m : list (Z * V)) k v : NoDup (map fst m) -> (In (k, v) (by_key m) <-> In (k, v) m).
Proof.
  intros D. unfold by_key. rewrite in_concat. split.
  - intros (l & L & I). apply in_map_iff in L as (k' & <- & K). destruct (assocz k' m) as [v'|] eqn:E; [|destruct I]. destruct I as [I|[]]. injection I as -> ->. apply assocz_In. exact E.
  - intros I. exists [(k, v)]. split; [|left; auto]. apply in_map_iff. exists k. split. { apply assocz_nodup in I; [|exact D]. rewrite I. reflexivity. }
    eapply Permutation_in; [apply Permutation_sym, sort_perm|]. apply in_map_iff. exists (k, v). auto.
Qed.
Lemma by_key_length {V} (m : list (Z * V)) : length (by_key m) = length m.
Proof. rewrite <- (map_length fst), by_key_keys, (Permutation_length (sort_perm Z.leb (map fst m))). apply map_length. Qed.
Lemma by_key_perm {V} (m m' : list (Z * V)) : NoDup (map fst m) -> Permutation m m' -> by_key m = by_key m'.
Proof.
  intros D P. assert (D' : NoDup (map fst m')) by (eapply Permutation_NoDup; [apply Permutation_map; exact P|exact D]).
  unfold by_key. replace (sort Z.leb (map fst m')) with (sort Z.leb (map fst m)).
  - f_equal. apply map_ext. intros k. replace (assocz k m') with (assocz k m); [reflexivity|]. destruct (assocz k m) as [v|] eqn:E.
    + symmetry. apply assocz_nodup; [exact D'|]. eapply Permutation_in; [exact P|]. apply assocz_In. exact E.
    + destruct (assocz k m') as [v|] eqn:E'; [|reflexivity]. apply assocz_In in E'. assert (J : In (k, v) m) by (eapply Permutation_in; [apply Permutation_sym; exact P|exact E']).
      apply assocz_nodup in J; [congruence|exact D].
  - apply (sorted_unique Z.leb ltac:(intros; lia)); try apply (sort_sorted Z.leb zleb_total zleb_trans).
    rewrite !sort_perm. apply Permutation_map. exact P.
Qed.
Lemma look_rev {V} (l : list (Z * V)) mx k v : NoDup (map fst l) -> (look (mkTable (rev l ++ []) mx) k = Some v <-> In (k, v) l).
Proof.
  intros D. unfold look. cbn [t_map]. rewrite app_nil_r. rewrite assocz_nodup; [symmetry; apply in_rev|]. rewrite map_rev. apply NoDup_rev. exact D.
Qed.
Lemma by_key_nodup {V} (m : list (Z * V)) : NoDup (map fst m) -> NoDup (map fst (by_key m)).
Proof. intros D. rewrite by_key_keys. eapply Permutation_NoDup; [apply Permutation_sym, sort_perm|exact D]. Qed.

(** Round trips *)
Lemma pool_limits strings l n : within_limits strings n -> (forall v, In v l -> In v strings) ->
  N.of_nat (length (concat (pool l)) + length (pool l)) <= 2 ^ 32 /\ N.of_nat (length (pool l)) <= 65536 /\ (forall v, In v (pool l) -> ~ In 10 v).
Proof.
  intros [We Ws Wz Wl] I. destruct (pool_spec l) as (D & J). assert (Inc : incl (pool l) strings) by (intros v V; apply I, J, V).
  pose proof (NoDup_incl_length D Inc). pose proof (concat_incl_length _ _ D Inc). split; [lia|]. split; [lia|]. intros v V. apply Wl, Inc, V.
Qed.
Lemma array_round_trip dc m strings b : go_map m -> (forall k vs, In (k, vs) m -> (length vs <= 255)%nat) -> strings_in strings m -> within_limits strings (length m) ->
  renderMap m = Ret b -> exists t, LoadIntArrayMap dc b = Ret t /\ represents (look t) m /\ t_max t = max_dc dc (map fst (by_key m)) 0.
Proof.
  intros (D & R) L S W E. unfold renderMap in E. cbv zeta in E. change (sort bleb (distinct (concat (map snd m)))) with (pool (concat (map snd m))) in E.
  assert (IS : forall v, In v (concat (map snd m)) -> In v strings).
  { intros v V. apply in_concat in V as (vs & V1 & V2). apply in_map_iff in V1 as ([k vs'] & <- & V1). eapply S; eauto. }
  destruct (pool_limits strings (concat (map snd m)) (length m) W IS) as (P1 & P2 & P3). set (values := pool (concat (map snd m))) in *.
  apply bind_ret in E as (body & E & E'). apply ret_inj in E'. subst b. unfold LoadIntArrayMap. rewrite load_header_ok; [|exact P1|exact P3|apply W]. cbn [bind].
  rewrite Nnat.Nat2N.id. rewrite <- by_key_length. rewrite load_arrays_ok with (b := body) (last := 0%Z); [|intros k vs I|exact P2|lia|left; reflexivity|apply by_key_sorted|exact E].
  - eexists. split; [reflexivity|]. split; [|reflexivity]. intros k v. cbn [t_map t_max]. rewrite look_rev by (apply by_key_nodup; exact D). apply by_key_in. exact D.
  - apply (proj1 (by_key_in m k _ D)) in I. split; [eapply R; exact I|]. split; [eapply L; exact I|]. intros v V. apply pool_spec. apply in_concat. exists vs. split; [|exact V]. apply in_map_iff. exists (k, vs). auto.
Qed.
Lemma prefix_round_trip dc m b : go_map m -> within_limits (map snd m) (length m) \/ (exists strings, (forall k v, In (k, v) m -> In v strings) /\ within_limits strings (length m)) ->
  renderPrefixMap m = Ret b -> exists t, LoadPrefixMap dc b = Ret t /\ represents (look t) m /\ t_max t = max_dc dc (map fst (by_key m)) 0.
Proof.
  intros (D & R) W E. assert (W' : exists strings, (forall k v, In (k, v) m -> In v strings) /\ within_limits strings (length m)).
  { destruct W as [W|W]; [|exact W]. exists (map snd m). split; [|exact W]. intros k v I. apply in_map_iff. exists (k, v). auto. }
  clear W. destruct W' as (strings & S & W). unfold renderPrefixMap in E. cbv zeta in E. destruct (65535 <? _); [discriminate|]. change (sort bleb (distinct (map snd m))) with (pool (map snd m)) in E.
  assert (IS : forall v, In v (map snd m) -> In v strings). { intros v V. apply in_map_iff in V as ([k v'] & <- & V1). eapply S; eauto. }
  destruct (pool_limits strings (map snd m) (length m) W IS) as (P1 & P2 & P3). set (values := pool (map snd m)) in *.
  apply bind_ret in E as (body & E & E'). apply ret_inj in E'. subst b. unfold LoadPrefixMap. rewrite load_header_ok; [|exact P1|exact P3|apply W]. cbn [bind].
  rewrite Nnat.Nat2N.id. rewrite <- by_key_length. rewrite load_prefixes_ok with (b := body) (last := 0%Z); [|intros k v I|exact P2|lia|left; reflexivity|apply by_key_sorted|exact E].
  - eexists. split; [reflexivity|]. split; [|reflexivity]. intros k v. cbn [t_map t_max]. rewrite look_rev by (apply by_key_nodup; exact D). apply by_key_in. exact D.
  - apply (proj1 (by_key_in m k _ D)) in I. split; [eapply R; exact I|]. apply pool_spec. apply in_map_iff. exists (k, v). auto.
Qed.
