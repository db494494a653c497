(** Proofs about national significant numbers, E.164 strings, number matching and country code extraction. *)
From Coq Require Import List NArith ZArith Bool Lia Arith ZifyBool ZifyNat ZifyN.
From Verif Require Import Base BaseFacts Utf8 Utf8Facts Regex Consts Types Normalize Validate Format Parse NumberSpec.
Import ListNotations.
Local Open Scope N_scope.

Lemma decimal_of_dec n : decimal_of (dec n) n.
Proof.
  constructor.
  - intros c. apply all_digits_In, dec_digits.
  - apply dec_nonempty.
  - intros t E. destruct (dec_spec n) as (_ & _ & _ & H). rewrite E in H. destruct H as [_ H]; [reflexivity|]. congruence.
  - pose proof (dval_dec n) as H. unfold dval in H. rewrite <- H at 2.
    assert (G : forall l a, fold_left (fun acc c => 10 * acc + (c - 48)) l a = fold_left (fun a d => a * 10 + (d - 48)) l a).
    { induction l as [|x l IH]; intros a; [reflexivity|]. cbn [fold_left]. rewrite IH. f_equal. lia. }
    apply G.
Qed.
Lemma decimal_of_unique d n : decimal_of d n -> d = dec n.
Proof.
  intros [H1 H2 H3 H4]. assert (D : all_digits d = true).
  { apply forallb_forall. intros c Hc. apply is_digit_iff. auto. }
  assert (V : dval d = n).
  { rewrite <- H4. unfold dval. 
    assert (G : forall l a, fold_left (fun acc c => 10 * acc + (c - 48)) l a = fold_left (fun a d => a * 10 + (d - 48)) l a).
    { induction l as [|x l IH]; intros a; [reflexivity|]. cbn [fold_left]. rewrite IH. f_equal. lia. }
    symmetry. apply G. }
  rewrite <- V. symmetry. apply dec_dval; auto. intros E. destruct d as [|x t]; [congruence|]. simpl in E. subst.
  f_equal. apply H3. reflexivity.
Qed.

Lemma nsn_eq n : GetNationalSignificantNumber n = repeat 48 (zero_count n) ++ dec (nn_of n).
Proof.
  unfold GetNationalSignificantNumber, zero_count, zeros, get_ilz, get_nlz, get_nn, nn_of, get_bool.
  destruct (p_ilz n) as [[|]|]; cbn [andb]; try reflexivity.
  destruct (0 <? match p_nlz n with Some z => z | None => 1 end)%Z; reflexivity.
Qed.

Lemma zero_count_le n : (zero_count n <= 17)%nat.
Proof. unfold zero_count. destruct (zeros n) as [k|]; [|lia]. destruct (0 <? k)%Z; lia. Qed.

Lemma repeat_digits k : all_digits (repeat 48 k) = true.
Proof. induction k; simpl; auto. Qed.
Lemma nsn_digits n : all_digits (GetNationalSignificantNumber n) = true.
Proof. rewrite nsn_eq, all_digits_app, repeat_digits, dec_digits. reflexivity. Qed.
Lemma nsn_nonempty n : GetNationalSignificantNumber n <> [].
Proof. rewrite nsn_eq. intros H. apply app_eq_nil in H as [_ H]. apply (dec_nonempty _ H). Qed.
Lemma nsn_ascii n : ascii (GetNationalSignificantNumber n).
Proof. apply digits_ascii, nsn_digits. Qed.

Lemma dec_len_64 n : n < 18446744073709551616 -> (length (dec n) <= 20)%nat.
Proof. intros H. apply dec_length_le; [lia|]. eapply N.lt_trans; [exact H|]. reflexivity. Qed.
Lemma nsn_length n : nn_of n < 18446744073709551616 -> (length (GetNationalSignificantNumber n) <= 37)%nat.
Proof.
  intros H. rewrite nsn_eq, app_length, repeat_length. pose proof (dec_len_64 _ H). pose proof (zero_count_le n). lia.
Qed.

(** ** Leading zeros round trip *)
Lemma count_zeros_split s : exists t, s = repeat 48 (count_zeros s) ++ t /\ hd 0 t <> 48.
Proof.
  induction s as [|c s IH]; [exists []; simpl; split; [reflexivity|discriminate]|].
  destruct (N.eq_dec c 48) as [->|Hc].
  - destruct IH as (t & E & H). exists t. split; auto. cbn [count_zeros repeat app]. congruence.
  - exists (c :: s). assert (Z : count_zeros (c :: s) = 0%nat).
    { cbn [count_zeros]. destruct c as [|p]; auto. do 6 (destruct p as [p|p|]; auto). lia. }
    rewrite Z. simpl. auto.
Qed.

Lemma repeat_snoc {A} (x : A) k : repeat x (S k) = repeat x k ++ [x].
Proof. induction k as [|k IH]; [reflexivity|]. simpl in *. congruence. Qed.

(** The digits after the stored zeros are the decimal of the value. *)
Lemma strip_zeros s : all_digits s = true -> s <> [] -> s = repeat 48 (num_lead_zeros s) ++ dec (dval s).
Proof.
  intros D Hne. destruct (count_zeros_split s) as (t & E & Hh). unfold num_lead_zeros, len.
  assert (Hd : dval s = dval t) by (rewrite E, dval_zeros; reflexivity). rewrite Hd.
  assert (Dt : all_digits t = true). { rewrite E, all_digits_app in D. apply andb_true_iff in D. tauto. }
  assert (L : length s = (count_zeros s + length t)%nat). { rewrite E at 1. rewrite app_length, repeat_length. reflexivity. }
  destruct t as [|c t].
  - rewrite app_nil_r in E. simpl in L. rewrite dval_nil, dec_0.
    destruct (count_zeros s) as [|k]; [destruct s; [congruence|simpl in L; lia]|].
    replace (Nat.min (S k) (length s - 1)) with k by lia. rewrite E at 1. apply repeat_snoc.
  - replace (Nat.min (count_zeros s) (length s - 1)) with (count_zeros s) by (simpl in L; lia).
    rewrite (dec_dval (c :: t)); auto; [discriminate|]. simpl in *. congruence.
Qed.

Lemma num_lead_zeros_0 s : (forall t x, s <> 48 :: x :: t) -> s <> [] -> num_lead_zeros s = 0%nat.
Proof.
  intros H Hne. unfold num_lead_zeros, len. destruct s as [|c [|x t]]; [congruence|simpl; lia|].
  assert (c <> 48) by (intros ->; eapply H; eauto).
  replace (count_zeros (c :: x :: t)) with 0%nat; [reflexivity|]. cbn [count_zeros].
  destruct c as [|p]; auto. do 6 (destruct p as [p|p|]; auto). lia.
Qed.

Lemma set_zeros_cases s p :
  (exists x t, s = 48 :: x :: t /\ setItalianLeadingZerosForPhoneNumber s p =
     if (num_lead_zeros s =? 1)%nat then set_ilz p (Some true)
     else set_nlz (set_ilz p (Some true)) (Some (Z.of_nat (num_lead_zeros s)))) \/
  ((forall t x, s <> 48 :: x :: t) /\ setItalianLeadingZerosForPhoneNumber s p = set_ilz p None).
Proof.
  destruct s as [|c [|x t]].
  - right. split; [intros; discriminate|reflexivity].
  - right. split; [intros; discriminate|]. cbn [setItalianLeadingZerosForPhoneNumber].
    destruct c as [|q]; auto. do 6 (destruct q as [q|q|]; auto).
  - destruct (N.eq_dec c 48) as [->|Hc].
    + left. exists x, t. split; reflexivity.
    + right. split; [intros t' x' H; congruence|]. cbn [setItalianLeadingZerosForPhoneNumber].
      destruct c as [|q]; auto. do 6 (destruct q as [q|q|]; auto). lia.
Qed.

Lemma leading_zeros_roundtrip s p :
  all_digits s = true -> (1 <= length s <= 17)%nat -> p_nlz p = None ->
  GetNationalSignificantNumber (set_nn (setItalianLeadingZerosForPhoneNumber s p) (Some (parse_uint_val s))) = s.
Proof.
  intros D L Hp. assert (Hne : s <> []) by (intros ->; simpl in L; lia).
  assert (V : parse_uint_val s = dval s).
  { unfold parse_uint_val. rewrite D. replace (is_empty s) with false by (destruct s; auto; congruence). cbn [negb andb].
    pose proof (dval_bound s D) as B.
    replace (dval s <? two64) with true; [reflexivity|]. symmetry. apply N.ltb_lt. eapply N.lt_le_trans; [exact B|].
    transitivity (10 ^ 17); [apply N.pow_le_mono_r; lia|]. unfold two64. lia. }
  rewrite V, nsn_eq. transitivity (repeat 48 (num_lead_zeros s) ++ dec (dval s)); [|symmetry; apply strip_zeros; auto].
  f_equal. f_equal.
  destruct (set_zeros_cases s p) as [(x & t & E & ->)|[H ->]].
  - unfold zero_count, zeros. assert (K : (1 <= num_lead_zeros s <= 16)%nat).
    { unfold num_lead_zeros, len. rewrite E. cbn [count_zeros]. rewrite E in L. simpl in *. lia. }
    destruct (num_lead_zeros s =? 1)%nat eqn:F.
    + apply Nat.eqb_eq in F. simpl. rewrite Hp. simpl. lia.
    + simpl. replace (0 <? Z.of_nat (num_lead_zeros s))%Z with true by lia. lia.
  - unfold zero_count, zeros. simpl. rewrite num_lead_zeros_0; auto.
Qed.

(** ** E.164 *)
Lemma format_e164 C n :
  Format C n E164 = Ret (if (nn_of n =? 0) && negb (is_empty (get_raw n)) then get_raw n
                         else 43 :: itoa (cc_of n) ++ GetNationalSignificantNumber n).
Proof.
  unfold Format. change (get_nn n) with (nn_of n). destruct ((nn_of n =? 0) && negb (is_empty (get_raw n))); reflexivity.
Qed.

Lemma app_prefix_or {A} (a b c d : list A) : a ++ b = c ++ d -> (exists t, c = a ++ t) \/ (exists t, a = c ++ t).
Proof.
  revert c; induction a as [|x a IH]; intros c H.
  - left. exists c. reflexivity.
  - destruct c as [|y c]; [right; eexists; reflexivity|]. inversion H; subst.
    destruct (IH c H2) as [[t ->]|[t ->]]; [left|right]; exists t; reflexivity.
Qed.

Lemma e164_prefix_free codes a b x y : prefix_free codes -> In a codes -> In b codes -> itoa a ++ x = itoa b ++ y -> a = b /\ x = y.
Proof.
  intros P Ha Hb E. assert (a = b).
  { destruct (app_prefix_or _ _ _ _ E) as [[t H]|[t H]]; [eapply P; eauto|symmetry; eapply P; eauto]. }
  subst. apply app_inv_head in E. auto.
Qed.

(** Decision procedure for prefix-freeness. *)
Definition prefix_free_b (codes : list Z) : bool :=
  forallb (fun a => forallb (fun b => Z.eqb a b || negb (has_prefix (itoa b) (itoa a))) codes) codes.
Lemma prefix_free_b_ok codes : prefix_free_b codes = true -> prefix_free codes.
Proof.
  intros H a b t Ha Hb E. unfold prefix_free_b in H. eapply forallb_forall in H; [|exact Ha]. eapply forallb_forall in H; [|exact Hb].
  apply orb_true_iff in H as [H|H]; [apply Z.eqb_eq; auto|]. rewrite E, has_prefix_app in H. discriminate.
Qed.

(** ** Number match *)

(** What IsNumberMatchWithNumbers does, without the intermediate copies. *)
Definition zeros_eqb (a b : option Z) : bool := opt_eqb Z.eqb a b.
Definition ext_clash (a b : phone) : bool :=
  negb (is_empty (ext_of a)) && negb (is_empty (ext_of b)) && negb (beq (ext_of a) (ext_of b)).
Definition nat_eqb (a b : phone) : bool :=
  (nn_of a =? nn_of b) && beq (ext_of a) (ext_of b) && zeros_eqb (zeros a) (zeros b).
Definition suffix_eqb (a b : phone) : bool :=
  has_suffix (dec (nn_of a)) (dec (nn_of b)) || has_suffix (dec (nn_of b)) (dec (nn_of a)).
Definition match_direct (a b : phone) : mtype :=
  if ext_clash a b then NO_MATCH
  else if negb (cc_of a =? 0)%Z && negb (cc_of b =? 0)%Z then
    if (cc_of a =? cc_of b)%Z && nat_eqb a b then EXACT_MATCH
    else if (cc_of a =? cc_of b)%Z && suffix_eqb a b then SHORT_NSN_MATCH else NO_MATCH
  else if nat_eqb a b then NSN_MATCH
  else if suffix_eqb a b then SHORT_NSN_MATCH else NO_MATCH.

Lemma copy_ext n : get_ext (copyCoreFieldsOnly n) = ext_of n.
Proof.
  unfold get_ext, copyCoreFieldsOnly, ext_of. simpl. unfold get_ext, get_bytes. destruct (p_ext n) as [[|x e]|]; reflexivity.
Qed.
Lemma copy_cc n : get_cc (copyCoreFieldsOnly n) = cc_of n. Proof. reflexivity. Qed.
Lemma copy_nn n : get_nn (copyCoreFieldsOnly n) = nn_of n. Proof. reflexivity. Qed.

Lemma proto_equal_copy a b :
  proto_equal (copyCoreFieldsOnly a) (copyCoreFieldsOnly b) = (cc_of a =? cc_of b)%Z && nat_eqb a b.
Proof.
  unfold proto_equal, nat_eqb, zeros_eqb. simpl. change (get_cc a) with (cc_of a). change (get_cc b) with (cc_of b).
  change (get_nn a) with (nn_of a). change (get_nn b) with (nn_of b). change (get_ext a) with (ext_of a). change (get_ext b) with (ext_of b).
  assert (X : opt_eqb beq (if is_empty (ext_of a) then None else Some (ext_of a)) (if is_empty (ext_of b) then None else Some (ext_of b)) = beq (ext_of a) (ext_of b)).
  { destruct (ext_of a), (ext_of b); reflexivity. }
  rewrite X.
  assert (Y : opt_eqb Bool.eqb (if get_ilz a then Some true else None) (if get_ilz b then Some true else None) &&
              opt_eqb Z.eqb (if get_ilz a then Some (get_nlz a) else None) (if get_ilz b then Some (get_nlz b) else None) = opt_eqb Z.eqb (zeros a) (zeros b)).
  { unfold zeros, get_ilz, get_nlz, get_bool. destruct (p_ilz a) as [[|]|], (p_ilz b) as [[|]|]; reflexivity. }
  rewrite <- Y. rewrite !andb_assoc. reflexivity.
Qed.

Lemma proto_equal_set_cc a b :
  proto_equal (set_cc (copyCoreFieldsOnly a) (Some (cc_of b))) (copyCoreFieldsOnly b) = nat_eqb a b.
Proof.
  set (a' := set_cc a (Some (cc_of b))).
  change (set_cc (copyCoreFieldsOnly a) (Some (cc_of b))) with (copyCoreFieldsOnly a').
  rewrite proto_equal_copy. unfold a'. unfold cc_of at 1. simpl. rewrite Z.eqb_refl. reflexivity.
Qed.

Lemma match_eq a b : IsNumberMatchWithNumbers a b = match_direct a b.
Proof.
  unfold IsNumberMatchWithNumbers, match_direct, ext_clash. rewrite !copy_ext, !copy_cc, proto_equal_copy, proto_equal_set_cc. reflexivity.
Qed.

Lemma beq_sym a b : beq a b = beq b a.
Proof. destruct (beq_spec a b), (beq_spec b a); congruence. Qed.
Lemma zeros_eqb_iff a b : zeros_eqb a b = true <-> a = b.
Proof. unfold zeros_eqb. destruct a, b; simpl; rewrite ?Z.eqb_eq; split; try congruence. Qed.
Lemma zeros_eqb_sym a b : zeros_eqb a b = zeros_eqb b a.
Proof. unfold zeros_eqb. destruct a, b; simpl; auto. apply Z.eqb_sym. Qed.
Lemma nat_eqb_sym a b : nat_eqb a b = nat_eqb b a.
Proof. unfold nat_eqb. rewrite N.eqb_sym, beq_sym, zeros_eqb_sym. reflexivity. Qed.
Lemma nat_eqb_iff a b : nat_eqb a b = true <-> nn_of a = nn_of b /\ zeros a = zeros b /\ ext_of a = ext_of b.
Proof. unfold nat_eqb. rewrite !andb_true_iff, N.eqb_eq, beq_eq, zeros_eqb_iff. tauto. Qed.

Lemma match_sym a b : IsNumberMatchWithNumbers a b = IsNumberMatchWithNumbers b a.
Proof.
  rewrite !match_eq. unfold match_direct, ext_clash, suffix_eqb. rewrite (beq_sym (ext_of a)), (nat_eqb_sym a b), (Z.eqb_sym (cc_of a) (cc_of b)).
  rewrite (orb_comm (has_suffix (dec (nn_of a)) _)).
  rewrite (andb_comm (negb (cc_of a =? 0)%Z)). rewrite (andb_comm (negb (is_empty (ext_of a)))). reflexivity.
Qed.

Lemma ext_clash_iff a b : ext_clash a b = true <-> ext_of a <> [] /\ ext_of b <> [] /\ ext_of a <> ext_of b.
Proof. unfold ext_clash. rewrite !andb_true_iff, !negb_true_iff, !is_empty_false, beq_neq. tauto. Qed.

Lemma suffix_eqb_iff a b : suffix_eqb a b = true <-> suffix_of (dec (nn_of a)) (dec (nn_of b)) \/ suffix_of (dec (nn_of b)) (dec (nn_of a)).
Proof. unfold suffix_eqb, suffix_of. rewrite orb_true_iff, !has_suffix_iff. tauto. Qed.

Lemma cc0 n : negb (cc_of n =? 0)%Z = true <-> cc_of n <> 0%Z.
Proof. rewrite negb_true_iff, Z.eqb_neq. tauto. Qed.

Lemma exact_iff a b : IsNumberMatchWithNumbers a b = EXACT_MATCH <->
  cc_of a <> 0%Z /\ cc_of a = cc_of b /\ nn_of a = nn_of b /\ zeros a = zeros b /\ ext_of a = ext_of b.
Proof.
  rewrite match_eq. unfold match_direct. split.
  - destruct (ext_clash a b); [discriminate|].
    destruct (negb (cc_of a =? 0)%Z && negb (cc_of b =? 0)%Z) eqn:E.
    + apply andb_true_iff in E as [E1 _]. apply cc0 in E1.
      destruct ((cc_of a =? cc_of b)%Z && nat_eqb a b) eqn:F; [|destruct ((cc_of a =? cc_of b)%Z && suffix_eqb a b); discriminate].
      apply andb_true_iff in F as [F1 F2]. apply Z.eqb_eq in F1. apply nat_eqb_iff in F2. tauto.
    + destruct (nat_eqb a b); [discriminate|]. destruct (suffix_eqb a b); discriminate.
  - intros (H1 & H2 & H3 & H4 & H5).
    destruct (ext_clash a b) eqn:X; [apply ext_clash_iff in X; tauto|].
    assert (N : nat_eqb a b = true) by (apply nat_eqb_iff; auto).
    rewrite H2 in *. apply cc0 in H1. rewrite H1, Z.eqb_refl, N. reflexivity.
Qed.

Lemma nsn_match_iff a b : IsNumberMatchWithNumbers a b = NSN_MATCH <->
  (cc_of a = 0%Z \/ cc_of b = 0%Z) /\ nn_of a = nn_of b /\ zeros a = zeros b /\ ext_of a = ext_of b.
Proof.
  rewrite match_eq. unfold match_direct. split.
  - destruct (ext_clash a b); [discriminate|].
    destruct (negb (cc_of a =? 0)%Z && negb (cc_of b =? 0)%Z) eqn:E.
    + destruct (_ && nat_eqb a b); [discriminate|]. destruct (_ && suffix_eqb a b); discriminate.
    + destruct (nat_eqb a b) eqn:F; [|destruct (suffix_eqb a b); discriminate]. apply nat_eqb_iff in F. intros _. split; [|tauto].
      destruct (Z.eqb_spec (cc_of a) 0); [auto|]. destruct (Z.eqb_spec (cc_of b) 0); [auto|]. discriminate.
  - intros (H1 & H3 & H4 & H5).
    destruct (ext_clash a b) eqn:X; [apply ext_clash_iff in X; tauto|].
    assert (N : nat_eqb a b = true) by (apply nat_eqb_iff; auto). rewrite N.
    destruct (negb (cc_of a =? 0)%Z && negb (cc_of b =? 0)%Z) eqn:E; [|reflexivity].
    apply andb_true_iff in E as [E1 E2]. apply cc0 in E1, E2. tauto.
Qed.

Lemma short_match_iff a b : IsNumberMatchWithNumbers a b = SHORT_NSN_MATCH <->
  ~ (ext_of a <> [] /\ ext_of b <> [] /\ ext_of a <> ext_of b) /\
  (cc_of a = 0%Z \/ cc_of b = 0%Z \/ cc_of a = cc_of b) /\
  (suffix_of (dec (nn_of a)) (dec (nn_of b)) \/ suffix_of (dec (nn_of b)) (dec (nn_of a))) /\
  ~ (nn_of a = nn_of b /\ zeros a = zeros b /\ ext_of a = ext_of b).
Proof.
  rewrite match_eq, <- ext_clash_iff, <- suffix_eqb_iff, <- nat_eqb_iff. unfold match_direct.
  destruct (ext_clash a b), (nat_eqb a b), (suffix_eqb a b);
  destruct (Z.eqb_spec (cc_of a) 0), (Z.eqb_spec (cc_of b) 0), (Z.eqb_spec (cc_of a) (cc_of b)); simpl;
  split; try discriminate; intros; intuition congruence.
Qed.

Lemma no_match_iff a b : IsNumberMatchWithNumbers a b = NO_MATCH <->
  (ext_of a <> [] /\ ext_of b <> [] /\ ext_of a <> ext_of b) \/
  (cc_of a <> 0%Z /\ cc_of b <> 0%Z /\ cc_of a <> cc_of b) \/
  ~ (suffix_of (dec (nn_of a)) (dec (nn_of b)) \/ suffix_of (dec (nn_of b)) (dec (nn_of a))).
Proof.
  assert (N : nat_eqb a b = true -> suffix_eqb a b = true).
  { intros H. apply nat_eqb_iff in H as (H & _). apply suffix_eqb_iff. left. rewrite H. exists []. reflexivity. }
  rewrite match_eq, <- ext_clash_iff, <- suffix_eqb_iff. unfold match_direct. revert N.
  destruct (ext_clash a b), (nat_eqb a b), (suffix_eqb a b);
  destruct (Z.eqb_spec (cc_of a) 0), (Z.eqb_spec (cc_of b) 0), (Z.eqb_spec (cc_of a) (cc_of b)); simpl; intros N;
  try (specialize (N eq_refl)); split; try discriminate; intros; intuition congruence.
Qed.

Lemma match_never_nan a b : IsNumberMatchWithNumbers a b <> NOT_A_NUMBER.
Proof.
  rewrite match_eq. unfold match_direct. destruct (ext_clash a b); [discriminate|].
  destruct (negb _ && negb _); [destruct (_ && nat_eqb a b); [discriminate|destruct (_ && suffix_eqb a b); discriminate]|destruct (nat_eqb a b); [discriminate|destruct (suffix_eqb a b); discriminate]].
Qed.

Lemma match_core a a' b b' : same_core a a' -> same_core b b' -> IsNumberMatchWithNumbers a b = IsNumberMatchWithNumbers a' b'.
Proof.
  intros (A1 & A2 & A3 & A4 & A5) (B1 & B2 & B3 & B4 & B5). rewrite !match_eq.
  unfold match_direct, ext_clash, nat_eqb, suffix_eqb, ext_of, cc_of, nn_of, zeros. rewrite A1, A2, A3, A4, A5, B1, B2, B3, B4, B5. reflexivity.
Qed.

(** ** Country code extraction *)
Lemma cc_try_some C full i tries cc rest : cc_try C full i tries = Some (cc, rest) ->
  exists k, (i <= k < i + tries)%nat /\ (k <= length full)%nat /\ cc = atoi_or_0 (firstn k full) /\ rest = skipn k full /\
    hasValidCountryCallingCode C cc = true /\
    (forall j, (i <= j < k)%nat -> hasValidCountryCallingCode C (atoi_or_0 (firstn j full)) = false).
Proof.
  revert i; induction tries as [|t IH]; intros i; cbn [cc_try]; [discriminate|]. unfold len.
  destruct (length full <? i)%nat eqn:L; [discriminate|]. apply Nat.ltb_ge in L.
  destruct (hasValidCountryCallingCode C (atoi_or_0 (firstn i full))) eqn:V.
  - intros H; inv H. exists i. repeat split; auto; try lia; intros; try lia.
  - intros H. apply IH in H as (k & K1 & K2 & K3 & K4 & K5 & K6). exists k. repeat split; auto; try lia.
    intros j Hj. destruct (Nat.eq_dec j i) as [->|]; auto. apply K6. lia.
Qed.
Lemma cc_try_none C full i tries : cc_try C full i tries = None ->
  forall k, (i <= k < i + tries)%nat -> (k <= length full)%nat -> hasValidCountryCallingCode C (atoi_or_0 (firstn k full)) = false.
Proof.
  revert i; induction tries as [|t IH]; intros i; cbn [cc_try]; [intros; lia|]. unfold len.
  destruct (length full <? i)%nat eqn:L.
  - apply Nat.ltb_lt in L. intros; lia.
  - destruct (hasValidCountryCallingCode C (atoi_or_0 (firstn i full))) eqn:V; [discriminate|].
    intros H k Hk1 Hk2. destruct (Nat.eq_dec k i) as [->|]; auto. eapply IH; eauto. lia.
Qed.

Lemma extractCountryCode_cases C full :
  (full = [] /\ extractCountryCode C full = None) \/ (exists t, full = 48 :: t /\ extractCountryCode C full = None) \/
  (exists d t, full = d :: t /\ d <> 48 /\ extractCountryCode C full = cc_try C full 1 3).
Proof.
  destruct full as [|d t]; [left; auto|]. right. destruct (N.eq_dec d 48) as [->|H]; [left; eauto|]. right. exists d, t. split; auto. split; auto.
  unfold extractCountryCode. destruct d as [|p]; auto. do 6 (destruct p as [p|p|]; auto). lia.
Qed.

Lemma atoi_or_0_prefix full k : all_digits full = true -> (1 <= k <= 3)%nat -> (k <= length full)%nat ->
  atoi_or_0 (firstn k full) = Z.of_N (dval (firstn k full)).
Proof.
  intros D K L. unfold atoi_or_0. rewrite atoi_digits; auto.
  - destruct full; [simpl in L; lia|]. destruct k; [lia|]. discriminate.
  - apply all_digits_firstn; auto.
  - eapply N.lt_le_trans; [apply dval_bound, all_digits_firstn; auto|]. rewrite firstn_length, Nat.min_l by lia.
    transitivity (10 ^ 3); [apply N.pow_le_mono_r; lia|]. unfold two63. lia.
Qed.

Lemma dec_prefix d t k : all_digits (d :: t) = true -> d <> 48 -> (1 <= k)%nat -> dec (dval (firstn k (d :: t))) = firstn k (d :: t).
Proof.
  intros D H K. apply dec_dval.
  - apply all_digits_firstn; auto.
  - destruct k; [lia|]. discriminate.
  - destruct k; [lia|]. simpl. congruence.
Qed.

Lemma dval_pos d t k : all_digits (d :: t) = true -> d <> 48 -> (1 <= k)%nat -> 0 < dval (firstn k (d :: t)).
Proof.
  intros D H K. destruct k; [lia|]. cbn [firstn]. pose proof (dval_lower d (firstn k t)) as L.
  assert (0 < 10 ^ N.of_nat (length (firstn k t))) by (apply N.neq_0_lt_0, N.pow_nonzero; lia).
  eapply N.lt_le_trans; [eassumption|]. apply L; auto. cbn [all_digits forallb] in *. apply andb_true_iff in D as [D1 D2].
  rewrite D1. simpl. apply all_digits_firstn; auto.
Qed.

Lemma extract_some C full cc rest : all_digits full = true -> extractCountryCode C full = Some (cc, rest) ->
  full = itoa cc ++ rest /\ (1 <= length (itoa cc) <= 3)%nat /\ (0 < cc)%Z /\ hasValidCountryCallingCode C cc = true /\
  (forall cc', (0 < cc')%Z -> hasValidCountryCallingCode C cc' = true -> (exists t, full = itoa cc' ++ t) ->
     (length (itoa cc) <= length (itoa cc'))%nat).
Proof.
  intros D H. destruct (extractCountryCode_cases C full) as [[-> E]|[(t & -> & E)|(d & t & -> & Hd & E)]]; [congruence|congruence|].
  rewrite E in H. apply cc_try_some in H as (k & K1 & K2 & -> & -> & K5 & K6).
  rewrite atoi_or_0_prefix in * by (auto; lia).
  assert (P : 0 < dval (firstn k (d :: t))) by (apply dval_pos; auto; lia).
  assert (I : itoa (Z.of_N (dval (firstn k (d :: t)))) = firstn k (d :: t)).
  { rewrite itoa_pos by lia. rewrite N2Z.id. apply dec_prefix; auto; lia. }
  rewrite I. rewrite firstn_skipn. repeat split; auto; try lia.
  - rewrite firstn_length. lia.
  - rewrite firstn_length. lia.
  - intros cc' P' V' [t' E']. rewrite firstn_length, Nat.min_l by lia.
    destruct (le_lt_dec k (length (itoa cc'))) as [|L]; [auto|]. exfalso.
    assert (F : firstn (length (itoa cc')) (d :: t) = itoa cc').
    { rewrite E', firstn_app, firstn_all, Nat.sub_diag. simpl. apply app_nil_r. }
    assert (N : (1 <= length (itoa cc'))%nat).
    { rewrite itoa_pos by lia. pose proof (dec_nonempty (Z.to_N cc')). destruct (dec (Z.to_N cc')); [congruence|simpl; lia]. }
    specialize (K6 (length (itoa cc')) ltac:(lia)). rewrite atoi_or_0_prefix in K6 by (auto; lia).
    rewrite F, itoa_pos, dval_dec in K6 by lia. rewrite Z2N.id in K6 by lia. congruence.
Qed.

Lemma extract_none C full : all_digits full = true -> extractCountryCode C full = None ->
  forall cc t, (0 < cc)%Z -> (length (itoa cc) <= 3)%nat -> full = itoa cc ++ t -> hasValidCountryCallingCode C cc = false.
Proof.
  intros D H cc t' P L E'. destruct (extractCountryCode_cases C full) as [[-> E]|[(t & -> & E)|(d & t & -> & Hd & E)]].
  - rewrite itoa_pos in E' by lia. symmetry in E'. apply app_eq_nil in E' as [E' _]. elim (dec_nonempty _ E').
  - rewrite itoa_pos in E' by lia. destruct (dec_head (Z.to_N cc)) as (x & y & F & Hx); [lia|]. rewrite F in E'. inversion E'. lia.
  - rewrite E in H.
    assert (N : (1 <= length (itoa cc))%nat).
    { rewrite itoa_pos by lia. pose proof (dec_nonempty (Z.to_N cc)). destruct (dec (Z.to_N cc)); [congruence|simpl; lia]. }
    assert (F : firstn (length (itoa cc)) (d :: t) = itoa cc).
    { rewrite E', firstn_app, firstn_all, Nat.sub_diag. simpl. apply app_nil_r. }
    assert (LL : (length (itoa cc) <= length (d :: t))%nat) by (rewrite E', app_length; lia).
    pose proof (cc_try_none _ _ _ _ H (length (itoa cc)) ltac:(lia) LL) as V.
    rewrite atoi_or_0_prefix in V by (auto; lia). rewrite F, itoa_pos, dval_dec in V by lia. rewrite Z2N.id in V by lia. auto.
Qed.
