(** Basic facts about the byte-string functions of Base.v. *)
From Coq Require Import List NArith ZArith Bool Lia Arith ZifyBool ZifyNat ZifyN.
From Verif Require Import Base.
Import ListNotations.
Local Open Scope N_scope.
Ltac Zify.zify_post_hook ::= Z.div_mod_to_equations.
Global Arguments N.add : simpl never.
Global Arguments N.sub : simpl never.
Global Arguments N.mul : simpl never.
Global Arguments N.div : simpl never.
Global Arguments N.modulo : simpl never.
Global Arguments N.pow : simpl never.
Global Arguments N.leb : simpl never.
Global Arguments N.ltb : simpl never.
Global Arguments N.eqb : simpl never.

(** Case analysis on a monadic bind in a hypothesis. *)
Lemma bind_ret {A B} (m : M A) (f : A -> M B) b : bind m f = Ret b -> exists a, m = Ret a /\ f a = Ret b.
Proof. destruct m; simpl; intros H; try discriminate. eauto. Qed.

Ltac inv H := inversion H; subst; clear H.

Lemma beq_refl a : beq a a = true.
Proof. induction a as [|x a IH]; simpl; [reflexivity|]. rewrite N.eqb_refl, IH. reflexivity. Qed.

Lemma beq_eq a b : beq a b = true <-> a = b.
Proof.
  split; [|intros ->; apply beq_refl].
  revert b; induction a as [|x a IH]; intros [|y b]; simpl; try discriminate; auto.
  intros H. apply andb_true_iff in H as [H1 H2]. apply N.eqb_eq in H1. apply IH in H2. congruence.
Qed.
Lemma beq_neq a b : beq a b = false <-> a <> b.
Proof. rewrite <- beq_eq. destruct (beq a b); split; congruence. Qed.

Lemma beq_spec a b : reflect (a = b) (beq a b).
Proof. destruct (beq a b) eqn:E; constructor; [apply beq_eq|apply beq_neq]; auto. Qed.

Lemma is_empty_iff s : is_empty s = true <-> s = [].
Proof. destruct s; simpl; split; congruence. Qed.
Lemma is_empty_false s : is_empty s = false <-> s <> [].
Proof. destruct s; simpl; split; congruence. Qed.

Lemma has_prefix_iff s p : has_prefix s p = true <-> exists t, s = p ++ t.
Proof.
  revert s; induction p as [|x p IH]; intros s; simpl.
  - destruct s; (split; [intros _; eexists; reflexivity|reflexivity]).
  - destruct s as [|y s]; simpl.
    + split; [discriminate|]. intros [t H]; discriminate.
    + rewrite andb_true_iff, N.eqb_eq, IH. split.
      * intros [-> [t ->]]. eauto.
      * intros [t H]. inv H. eauto.
Qed.

Lemma has_prefix_app p t : has_prefix (p ++ t) p = true.
Proof. apply has_prefix_iff; eauto. Qed.

Lemma has_prefix_nil s : has_prefix s [] = true.
Proof. destruct s; reflexivity. Qed.

Lemma has_suffix_iff s p : has_suffix s p = true <-> exists t, s = t ++ p.
Proof.
  unfold has_suffix, len. rewrite andb_true_iff, Nat.leb_le, beq_eq. split.
  - intros [H E]. exists (firstn (length s - length p) s). rewrite <- E at 2. symmetry. apply firstn_skipn.
  - intros [t ->]. rewrite app_length. split; [lia|].
    replace (length t + length p - length p)%nat with (length t) by lia.
    rewrite skipn_app, skipn_all, Nat.sub_diag. reflexivity.
Qed.

(** First occurrence. *)
Lemma index_of_some s p i : index_of s p = Some i ->
  exists t, s = firstn i s ++ p ++ t /\ (i + len p <= len s)%nat.
Proof.
  revert i; induction s as [|x s IH]; intros i; cbn [index_of].
  - destruct (has_prefix [] p) eqn:E; [|discriminate]. intros H; inv H.
    apply has_prefix_iff in E as [t E]. exists t. simpl. split; auto.
    apply (f_equal (@length N)) in E. rewrite app_length in E. unfold len; simpl in *. lia.
  - destruct (has_prefix (x :: s) p) eqn:E.
    + intros H; inv H. apply has_prefix_iff in E as [t E]. exists t. split; [exact E|].
      apply (f_equal (@length N)) in E. rewrite app_length in E. unfold len; simpl in *. lia.
    + destruct (index_of s p) as [j|]; [|discriminate]. intros H; inv H.
      destruct (IH j eq_refl) as (t & H1 & H2). exists t. simpl. rewrite <- H1. split; auto. unfold len in *; simpl; lia.
Qed.

Lemma index_of_first s p i : index_of s p = Some i -> forall j, (j < i)%nat -> has_prefix (skipn j s) p = false.
Proof.
  revert i; induction s as [|x s IH]; intros i; cbn [index_of].
  - destruct (has_prefix [] p); intros H; inv H. lia.
  - destruct (has_prefix (x :: s) p) eqn:E.
    + intros H; inv H. lia.
    + destruct (index_of s p) as [k|]; [|discriminate]. intros H; inv H. intros [|j] Hj; simpl; auto.
      apply (IH k); auto. lia.
Qed.

Lemma index_of_none s p : index_of s p = None -> forall j, has_prefix (skipn j s) p = false.
Proof.
  induction s as [|x s IH]; cbn [index_of].
  - destruct (has_prefix [] p) eqn:E; intros H; inv H. intros [|j]; exact E.
  - destruct (has_prefix (x :: s) p) eqn:E; [discriminate|].
    destruct (index_of s p); intros H; inv H. intros [|j]; simpl; auto.
Qed.

Lemma contains_iff s p : contains s p = true <-> exists a b, s = a ++ p ++ b.
Proof.
  unfold contains. destruct (index_of s p) eqn:E; split; try discriminate; auto.
  - intros _. apply index_of_some in E as (t & E & _). eauto.
  - intros (a & b & ->). pose proof (index_of_none _ _ E (length a)) as H.
    rewrite skipn_app, skipn_all, Nat.sub_diag in H. simpl in H. rewrite has_prefix_app in H. discriminate.
Qed.

Lemma index_byte_some s c i : index_byte s c = Some i -> exists a b, s = a ++ c :: b /\ length a = i /\ ~ In c a.
Proof.
  revert i; induction s as [|x s IH]; intros i; simpl; [discriminate|].
  destruct (x =? c) eqn:E.
  - intros H; inv H. apply N.eqb_eq in E. subst. exists [], s. auto.
  - destruct (index_byte s c) as [k|]; [|discriminate]. intros H; inv H.
    destruct (IH k eq_refl) as (a & b & -> & <- & Hn). exists (x :: a), b. simpl. repeat split; auto.
    intros [->|H]; auto. apply N.eqb_neq in E. auto.
Qed.
Lemma index_byte_none s c : index_byte s c = None -> ~ In c s.
Proof.
  induction s as [|x s IH]; simpl; auto. destruct (x =? c) eqn:E; [discriminate|].
  destruct (index_byte s c); [discriminate|]. intros _ [->|H]; [|apply IH; auto].
  rewrite N.eqb_refl in E. discriminate.
Qed.

(** Digits *)
Lemma is_digit_iff c : is_digit c = true <-> 48 <= c <= 57.
Proof. unfold is_digit. rewrite andb_true_iff, !N.leb_le. tauto. Qed.

Lemma all_digits_app a b : all_digits (a ++ b) = all_digits a && all_digits b.
Proof. unfold all_digits. apply forallb_app. Qed.
Lemma all_digits_In s c : all_digits s = true -> In c s -> 48 <= c <= 57.
Proof. intros H1 H2. apply is_digit_iff. eapply forallb_forall in H1; eauto. Qed.

Lemma dval_fold_app s a : fold_left (fun a d => a * 10 + (d - 48)) s a = a * 10 ^ N.of_nat (length s) + dval s.
Proof.
  unfold dval. revert a; induction s as [|x s IH]; intros a; cbn [fold_left length].
  - rewrite N.mul_1_r, N.add_0_r. reflexivity.
  - rewrite IH, (IH (0 * 10 + _)). rewrite Nat2N.inj_succ, N.pow_succ_r'. lia.
Qed.
Lemma dval_app a b : dval (a ++ b) = dval a * 10 ^ N.of_nat (length b) + dval b.
Proof. unfold dval at 1. rewrite fold_left_app. apply dval_fold_app. Qed.
Lemma dval_cons x s : dval (x :: s) = (x - 48) * 10 ^ N.of_nat (length s) + dval s.
Proof. change (x :: s) with ([x] ++ s). rewrite dval_app. unfold dval at 1. simpl. reflexivity. Qed.
Lemma dval_nil : dval [] = 0. Proof. reflexivity. Qed.
Lemma dval_snoc s x : dval (s ++ [x]) = dval s * 10 + (x - 48).
Proof. rewrite dval_app. simpl. unfold dval at 2. simpl. lia. Qed.

Lemma dval_bound s : all_digits s = true -> dval s < 10 ^ N.of_nat (length s).
Proof.
  induction s as [|x s IH]; [reflexivity|]. cbn [all_digits forallb]. intros H. apply andb_true_iff in H as [H1 H2].
  specialize (IH H2). rewrite dval_cons. cbn [length]. rewrite Nat2N.inj_succ, N.pow_succ_r'. apply is_digit_iff in H1.
  assert (x - 48 <= 9) by lia. nia.
Qed.

Lemma dval_zeros k s : dval (repeat 48 k ++ s) = dval s.
Proof. induction k as [|k IH]; [reflexivity|]. simpl repeat. rewrite <- app_comm_cons, dval_cons, IH. lia. Qed.

(** Decimal representation *)
Lemma dec_aux_spec f n acc : n < 10 ^ N.of_nat f ->
  exists ds, dec_aux f n acc = ds ++ acc /\ all_digits ds = true /\ dval ds = n /\
             (f = O \/ (ds <> [] /\ (hd 0 ds = 48 -> n = 0 /\ ds = [48]))).
Proof.
  revert n acc; induction f as [|f IH]; intros n acc Hn.
  - exists []. simpl in Hn. assert (n = 0) by lia. subst. simpl. auto.
  - cbn [dec_aux]. destruct (n <? 10) eqn:E.
    + apply N.ltb_lt in E. exists [48 + n]. split; [reflexivity|]. split.
      * unfold all_digits. cbn [forallb]. rewrite andb_true_r. apply is_digit_iff. lia.
      * split; [unfold dval; cbn [fold_left]; lia|]. right. split; [discriminate|]. cbn [hd]. intros. assert (n = 0) by lia. subst. auto.
    + apply N.ltb_ge in E. rewrite Nat2N.inj_succ, N.pow_succ_r' in Hn.
      destruct (IH (n / 10) ((48 + n mod 10) :: acc)) as (ds & H1 & H2 & H3 & H4).
      { apply N.div_lt_upper_bound; lia. }
      exists (ds ++ [48 + n mod 10]). split; [rewrite H1, <- app_assoc; reflexivity|]. split.
      * rewrite all_digits_app, H2. unfold all_digits. cbn [forallb]. rewrite andb_true_r. simpl.
        apply is_digit_iff. pose proof (N.mod_upper_bound n 10). lia.
      * split; [rewrite dval_snoc, H3; pose proof (N.div_mod n 10); lia|].
        right. split; [destruct ds; discriminate|]. destruct H4 as [->|[H4 H5]].
        { exfalso. simpl in Hn. lia. }
        destruct ds as [|d ds]; [congruence|]. cbn [hd app] in *. intros ->. destruct H5 as [H5 _]; auto.
        exfalso. assert (n / 10 <> 0); [|auto]. intros Hz. apply N.div_small_iff in Hz; lia.
Qed.

Lemma size_nat_pow n : n < 10 ^ N.of_nat (S (N.size_nat n)).
Proof.
  assert (H : n < 2 ^ N.of_nat (N.size_nat n)).
  { destruct n as [|p]; [reflexivity|]. simpl N.size_nat.
    pose proof (Pos.size_gt p). 
    assert (E : N.of_nat (Pos.size_nat p) = N.pos (Pos.size p)).
    { clear. induction p; [| |reflexivity];
        (change (N.of_nat (S (Pos.size_nat p)) = N.pos (Pos.succ (Pos.size p))); rewrite Nat2N.inj_succ, IHp; reflexivity). }
    rewrite E. change (N.pos p < 2 ^ N.pos (Pos.size p)). simpl. exact H. }
  eapply N.lt_le_trans; [exact H|]. rewrite Nat2N.inj_succ.
  transitivity (10 ^ N.of_nat (N.size_nat n)); [apply N.pow_le_mono_l; lia|apply N.pow_le_mono_r; lia].
Qed.

Lemma dec_spec n : all_digits (dec n) = true /\ dval (dec n) = n /\ dec n <> [] /\ (hd 0 (dec n) = 48 -> n = 0 /\ dec n = [48]).
Proof.
  unfold dec. destruct (dec_aux_spec (S (N.size_nat n)) n [] (size_nat_pow n)) as (ds & -> & H1 & H2 & [H3|[H3 H4]]); [discriminate|].
  rewrite app_nil_r. auto.
Qed.
Lemma dec_digits n : all_digits (dec n) = true. Proof. apply dec_spec. Qed.
Lemma dval_dec n : dval (dec n) = n. Proof. apply dec_spec. Qed.
Lemma dec_nonempty n : dec n <> []. Proof. apply dec_spec. Qed.
Lemma dec_0 : dec 0 = [48]. Proof. reflexivity. Qed.
Lemma dec_head n : n <> 0 -> exists d t, dec n = d :: t /\ 49 <= d <= 57.
Proof.
  intros H. destruct (dec_spec n) as (H1 & H2 & H3 & H4). destruct (dec n) as [|d t]; [congruence|].
  exists d, t. split; auto. simpl in *. apply andb_true_iff in H1 as [H1 _]. apply is_digit_iff in H1.
  assert (d <> 48). { intros ->. destruct H4; auto. } lia.
Qed.

(** Digit strings of the same length with the same value are equal. *)
Lemma dval_inj a b : all_digits a = true -> all_digits b = true -> length a = length b -> dval a = dval b -> a = b.
Proof.
  revert b; induction a as [|x a IH]; intros [|y b]; simpl length; try discriminate; auto.
  cbn [all_digits forallb]. rewrite !andb_true_iff, !is_digit_iff. intros [Hx Ha] [Hy Hb] Hl. inv Hl.
  rewrite !dval_cons, H0. intros E.
  pose proof (dval_bound a Ha). pose proof (dval_bound b Hb). rewrite H0 in H. 
  set (P := 10 ^ N.of_nat (length b)) in *.
  assert (x - 48 = y - 48) by nia. assert (x = y) by lia. subst. f_equal. apply IH; auto. nia.
Qed.

Lemma dval_lower x s : all_digits (x :: s) = true -> x <> 48 -> 10 ^ N.of_nat (length s) <= dval (x :: s).
Proof.
  cbn [all_digits forallb]. rewrite andb_true_iff, is_digit_iff. intros [Hx Hs] Hn. rewrite dval_cons. nia.
Qed.

(** The decimal representation is the only digit string of its value without a leading zero. *)
Lemma dec_dval s : all_digits s = true -> s <> [] -> (hd 0 s = 48 -> s = [48]) -> dec (dval s) = s.
Proof.
  intros Hd Hne H0. destruct (dec_spec (dval s)) as (H1 & H2 & H3 & H4).
  destruct s as [|x s]; [congruence|]. cbn [hd] in H0.
  destruct (N.eq_dec x 48) as [->|Hx].
  - rewrite (H0 eq_refl). reflexivity.
  - apply dval_inj; auto. pose proof (dval_lower x s Hd Hx) as L.
    destruct (dec (dval (x :: s))) as [|y t] eqn:E; [congruence|].
    assert (Hy : y <> 48).
    { cbn [hd] in H4. intros ->. destruct H4 as [Hz _]; auto. rewrite Hz in L.
      assert (0 < 10 ^ N.of_nat (length s)) by (apply N.neq_0_lt_0, N.pow_nonzero; lia). lia. }
    pose proof (dval_lower y t H1 Hy) as L2. pose proof (dval_bound _ Hd) as U1. pose proof (dval_bound _ H1) as U2.
    rewrite H2 in *. cbn [length] in *.
    assert (A : N.of_nat (length s) < N.of_nat (S (length t))).
    { apply (N.pow_lt_mono_r_iff 10); lia. }
    assert (B : N.of_nat (length t) < N.of_nat (S (length s))).
    { apply (N.pow_lt_mono_r_iff 10); lia. }
    lia.
Qed.

Lemma dec_inj a b : dec a = dec b -> a = b.
Proof. intros H. rewrite <- (dval_dec a), <- (dval_dec b), H. reflexivity. Qed.

Lemma dec_length_le n k : (0 < k)%nat -> n < 10 ^ N.of_nat k -> (length (dec n) <= k)%nat.
Proof.
  intros Hk Hn. destruct (N.eq_dec n 0) as [->|Hz]; [simpl; lia|].
  destruct (dec_head n Hz) as (d & t & E & Hd). rewrite E. cbn [length].
  pose proof (dec_digits n) as D. rewrite E in D. assert (d <> 48) by lia. pose proof (dval_lower d t D H) as L.
  pose proof (dval_dec n) as V. rewrite E in V. rewrite V in L.
  assert (N.of_nat (length t) < N.of_nat k) by (apply (N.pow_lt_mono_r_iff 10); lia). lia.
Qed.

Lemma dec_length_ge n k : 10 ^ N.of_nat k <= n -> (k < length (dec n))%nat.
Proof.
  intros Hn. pose proof (dval_bound _ (dec_digits n)) as U. rewrite dval_dec in U.
  assert (N.of_nat k < N.of_nat (length (dec n))) by (apply (N.pow_lt_mono_r_iff 10); lia). lia.
Qed.

(** Dropping the last decimal digit. *)
Lemma dec_div10 n : 10 <= n -> exists d, dec n = dec (n / 10) ++ [d].
Proof.
  intros H. exists (48 + n mod 10). symmetry.
  pose proof (N.div_mod n 10) as E.
  rewrite <- (dec_dval (dec (n / 10) ++ [48 + n mod 10])).
  - rewrite dval_snoc, dval_dec. f_equal. lia.
  - rewrite all_digits_app, dec_digits. unfold all_digits. cbn [forallb]. rewrite andb_true_r. simpl. apply is_digit_iff.
    pose proof (N.mod_upper_bound n 10). lia.
  - destruct (dec (n / 10)); discriminate.
  - destruct (dec_head (n / 10)) as (d & t & -> & Hd).
    { intros Hz. apply N.div_small_iff in Hz; lia. }
    cbn [hd app]. intros. lia.
Qed.

Lemma atoi_digits s : s <> [] -> all_digits s = true -> dval s < two63 -> atoi s = Some (Z.of_N (dval s)).
Proof.
  intros Hne Hd Hv. destruct s as [|c t]; [congruence|].
  assert (Hc : 48 <= c <= 57). { eapply all_digits_In; eauto. left; auto. }
  unfold atoi.
  assert (K : (if negb (is_empty (c :: t)) && all_digits (c :: t) && (dval (c :: t) <? two63) then Some (Z.of_N (dval (c :: t))) else None) = Some (Z.of_N (dval (c :: t)))).
  { rewrite Hd. apply N.ltb_lt in Hv. rewrite Hv. reflexivity. }
  destruct c as [|p]; [lia|]. do 6 (destruct p as [p|p|]; try exact K; try lia).
Qed.

Lemma itoa_pos z : (0 < z)%Z -> itoa z = dec (Z.to_N z).
Proof. destruct z; simpl; try lia. reflexivity. Qed.
Lemma itoa_nonneg z : (0 <= z)%Z -> itoa z = dec (Z.to_N z).
Proof. destruct z; simpl; try lia; reflexivity. Qed.

Lemma itoa_inj a b : itoa a = itoa b -> a = b.
Proof.
  assert (D : forall n c t, dec n = c :: t -> c <> 45).
  { intros n c t E. pose proof (dec_digits n) as D. rewrite E in D. assert (48 <= c <= 57); [|lia].
    eapply all_digits_In; eauto. left; auto. }
  assert (P : forall p, dec (N.pos p) <> [48]).
  { intros p E. destruct (dec_head (N.pos p)) as (d & t & E2 & Hd); [discriminate|]. rewrite E in E2. inv E2. lia. }
  destruct a as [|p|p], b as [|q|q]; cbn [itoa]; intros H; auto.
  - symmetry in H. elim (P _ H).
  - discriminate.
  - elim (P _ H).
  - apply dec_inj in H. congruence.
  - elim (D _ _ _ H). reflexivity.
  - discriminate.
  - symmetry in H. elim (D _ _ _ H). reflexivity.
  - inv H. apply dec_inj in H1. congruence.
Qed.

Lemma to_int32_id z : (-2147483648 <= z < 2147483648)%Z -> to_int32 z = z.
Proof. unfold to_int32. intros. rewrite Z.mod_small; lia. Qed.

(** Sublists *)
Lemma sub_length s i j : (j <= length s)%nat -> length (sub s i j) = (j - i)%nat.
Proof. unfold sub. intros. rewrite firstn_length, skipn_length. lia. Qed.
Lemma sub_app_r a b c : sub (a ++ b ++ c) (length a) (length a + length b) = b.
Proof.
  unfold sub. rewrite skipn_app, skipn_all, Nat.sub_diag. simpl.
  replace (length a + length b - length a)%nat with (length b) by lia.
  rewrite firstn_app, firstn_all, Nat.sub_diag. simpl. apply app_nil_r.
Qed.
Lemma sub_all s : sub s 0 (length s) = s.
Proof. unfold sub. simpl. rewrite Nat.sub_0_r. apply firstn_all. Qed.
Lemma skipn_add {A} (s : list A) i k : skipn i (skipn k s) = skipn (k + i) s.
Proof. revert s; induction k as [|k IH]; intros [|x s]; simpl; auto. apply skipn_nil. Qed.
Lemma sub_skipn s i j k : sub (skipn k s) i j = sub s (k + i) (k + j).
Proof. unfold sub. rewrite skipn_add. f_equal; lia. Qed.
Lemma sub_to_end s i : sub s i (length s) = skipn i s.
Proof. unfold sub. rewrite <- (skipn_length i s). apply firstn_all. Qed.
Lemma sub_nil s i : sub s i i = [].
Proof. unfold sub. rewrite Nat.sub_diag. reflexivity. Qed.
Lemma sub_split s i j k : (i <= j)%nat -> (j <= k)%nat -> sub s i k = sub s i j ++ sub s j k.
Proof.
  intros. unfold sub. replace (k - i)%nat with ((j - i) + (k - j))%nat by lia.
  rewrite <- (firstn_skipn (j - i) (firstn (j - i + (k - j)) (skipn i s))) at 1.
  rewrite firstn_firstn. f_equal; [f_equal; lia|].
  rewrite skipn_firstn_comm, skipn_add. f_equal; [lia|f_equal; lia].
Qed.
Lemma sub_In s i j c : In c (sub s i j) -> In c s.
Proof. unfold sub. intros H. rewrite <- (firstn_skipn i s). apply in_or_app. right.
  rewrite <- (firstn_skipn (j - i) (skipn i s)). apply in_or_app. left. exact H. Qed.
Lemma firstn_In {A} n (s : list A) c : In c (firstn n s) -> In c s.
Proof. intros H. rewrite <- (firstn_skipn n s). apply in_or_app. auto. Qed.
Lemma skipn_In {A} n (s : list A) c : In c (skipn n s) -> In c s.
Proof. intros H. rewrite <- (firstn_skipn n s). apply in_or_app. auto. Qed.
Lemma all_digits_firstn n s : all_digits s = true -> all_digits (firstn n s) = true.
Proof. intros. rewrite <- (firstn_skipn n s), all_digits_app in H. apply andb_true_iff in H. tauto. Qed.
Lemma all_digits_skipn n s : all_digits s = true -> all_digits (skipn n s) = true.
Proof. intros. rewrite <- (firstn_skipn n s), all_digits_app in H. apply andb_true_iff in H. tauto. Qed.
Lemma all_digits_sub s i j : all_digits s = true -> all_digits (sub s i j) = true.
Proof. intros. unfold sub. auto using all_digits_firstn, all_digits_skipn. Qed.

Lemma slice_ret s i j t : slice s i j = Ret t <-> (i <= j /\ j <= length s)%nat /\ t = sub s i j.
Proof.
  unfold slice, len, sub. destruct ((i <=? j)%nat && (j <=? length s)%nat) eqn:E.
  - apply andb_true_iff in E as [E1 E2]. apply Nat.leb_le in E1, E2. split; [intros H; inv H; auto|intros [_ ->]; auto].
  - split; [discriminate|]. intros [[H1 H2] _]. apply Nat.leb_le in H1, H2. rewrite H1, H2 in E. discriminate.
Qed.

(** Sets and maps as lists *)
Lemma mem_bytes_iff x l : mem_bytes x l = true <-> In x l.
Proof.
  induction l as [|y l IH]; simpl; [split; [discriminate|tauto]|].
  rewrite orb_true_iff, beq_eq, IH. split; intros [H|H]; auto.
Qed.
Lemma memz_iff x l : memz x l = true <-> In x l.
Proof.
  induction l as [|y l IH]; simpl; [split; [discriminate|tauto]|].
  rewrite orb_true_iff, Z.eqb_eq, IH. split; intros [H|H]; auto.
Qed.
Lemma memz_false x l : memz x l = false <-> ~ In x l.
Proof. rewrite <- memz_iff. destruct (memz x l); split; congruence. Qed.

Lemma assoc_In {K V} (eqb : K -> K -> bool) (He : forall a b, eqb a b = true <-> a = b) k (l : list (K * V)) v :
  assoc eqb k l = Some v -> In (k, v) l.
Proof.
  induction l as [|[k' v'] l IH]; simpl; [discriminate|]. destruct (eqb k k') eqn:E; [|auto].
  apply He in E. subst. intros H; inv H. auto.
Qed.
Lemma assocb_In {V} k (l : list (bytes * V)) v : assocb k l = Some v -> In (k, v) l.
Proof. apply assoc_In. apply beq_eq. Qed.
Lemma assocz_In {V} k (l : list (Z * V)) v : assocz k l = Some v -> In (k, v) l.
Proof. apply assoc_In. apply Z.eqb_eq. Qed.
Lemma assoc_none {K V} (eqb : K -> K -> bool) (He : forall a b, eqb a b = true <-> a = b) k (l : list (K * V)) :
  assoc eqb k l = None <-> ~ In k (map fst l).
Proof.
  induction l as [|[k' v'] l IH]; simpl; [tauto|]. destruct (eqb k k') eqn:E.
  - apply He in E. subst. split; [discriminate|]. intros H. elim H. auto.
  - rewrite IH. split; [|tauto]. intros H [->|H']; auto. assert (eqb k k = true) by (apply He; auto). congruence.
Qed.
