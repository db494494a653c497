(** C97: exactly which files the loaders of the prefix tables accept, and what they make of them. *)
From Verif Require Import Base BaseFacts Serialize PrefixFacts FileSpec.

Lemma uvarint_exact k : forall sh x s w r, octets s -> read_uvarint_aux k sh x s = Some (w, r) <->
  exists ds z, s = map (N.add 128) ds ++ z :: r /\ Forall (fun d => d < 128) ds /\ z < 128 /\ (length ds < k)%nat /\ (S (length ds) = k -> z <= 1) /\ w = x + base128 ds z * sh.
Proof.
  induction k as [|k IH]; intros sh x s w r O; [split; [discriminate|intros (ds & z & _ & _ & _ & L & _); lia]|]. destruct s as [|b t]; [split; [discriminate|intros ([|d ds] & z & E & _); discriminate]|].
  inversion_clear O as [|? ? Ob Ot]. cbn [read_uvarint_aux]. destruct (N.ltb_spec b 128) as [Lb|Lb].
  - split.
    + intros H. exists [], b. cbn [map app length base128 fold_right]. destruct ((k =? 0)%nat && (1 <? b)) eqn:Q; [discriminate|]. injection H as <- <-. repeat split; auto; [lia|]. intros E. assert (k = 0%nat) by lia. subst k. cbn [Nat.eqb andb] in Q. apply N.ltb_ge in Q. exact Q.
    + intros ([|d ds] & z & E & F & Z & L & M & ->); [|cbn [map app] in E; injection E as E _; lia]. cbn [map app] in E. injection E as -> ->. cbn [length base128 fold_right] in *. destruct ((k =? 0)%nat && (1 <? z)) eqn:Q; [|reflexivity].
      apply andb_true_iff in Q as [Q1 Q2]. apply Nat.eqb_eq in Q1. apply N.ltb_lt in Q2. subst k. specialize (M eq_refl). lia.
  - rewrite (IH _ _ _ _ _ Ot). split.
    + intros (ds & z & -> & F & Z & L & M & ->). exists ((b - 128) :: ds), z. cbn [map app length]. split; [f_equal; lia|]. split; [constructor; [lia|exact F]|]. split; [exact Z|]. split; [lia|]. split; [intros E; apply M; lia|]. cbn [base128 fold_right]. fold (base128 ds z). lia.
    + intros ([|d ds] & z & E & F & Z & L & M & ->); [cbn [map app] in E; injection E as -> _; lia|]. cbn [map app] in E. injection E as -> ->. inversion_clear F as [|? ? Fd Fs]. cbn [length] in *. exists ds, z. split; [reflexivity|]. split; [exact Fs|]. split; [exact Z|]. split; [lia|]. split; [intros E; apply M; lia|].
      cbn [base128 fold_right]. fold (base128 ds z). replace (128 + d - 128) with d by lia. lia.
Qed.
Lemma base128_bound ds z : Forall (fun d => d < 128) ds -> z * 128 ^ N.of_nat (length ds) <= base128 ds z /\ base128 ds z < (z + 1) * 128 ^ N.of_nat (length ds).
Proof.
  induction 1 as [|d ds Hd F IH]; [cbn [base128 fold_right length]; rewrite N.pow_0_r; lia|]. cbn [length base128 fold_right]. fold (base128 ds z). rewrite Nat2N.inj_succ, N.pow_succ_r'. set (p := 128 ^ N.of_nat (length ds)) in *. nia.
Qed.
Lemma varint_exact s v r : octets s -> read_uvarint s = Some (v, r) <-> varint s v r.
Proof.
  intros O. unfold read_uvarint, varint. rewrite (uvarint_exact 10 1 0 s v r O). split; intros (ds & z & E & F & Z & H); exists ds, z; (split; [exact E|]); (split; [exact F|]); (split; [exact Z|]); destruct (base128_bound ds z F) as [B1 B2].
  - destruct H as (L & M & ->). split; [lia|]. rewrite N.mul_1_r, N.add_0_l. split; [reflexivity|]. destruct (Nat.eq_dec (length ds) 9) as [E9|N9].
    + specialize (M ltac:(lia)). rewrite E9 in B2. change (128 ^ N.of_nat 9) with (2 ^ 63) in B2. change (2 ^ 64) with (2 * 2 ^ 63). nia.
    + assert (P : 128 ^ N.of_nat (length ds) <= 128 ^ 8) by (apply N.pow_le_mono_r; lia). change (2 ^ 64) with (256 * 128 ^ 8). nia.
  - destruct H as (L & -> & Lt). split; [lia|]. split; [|lia]. intros E10. assert (E9 : length ds = 9%nat) by lia. rewrite E9 in B1. change (128 ^ N.of_nat 9) with (2 ^ 63) in B1. change (2 ^ 64) with (2 * 2 ^ 63) in Lt. nia.
Qed.
Lemma joined_exact s : forall l, split_byte s 10 = l <-> joined l s.
Proof.
  assert (A : joined (split_byte s 10) s).
  { induction s as [|c s IH]; cbn [split_byte]; [constructor; intros []|]. destruct (N.eqb_spec c 10) as [->|N10].
    - change (10 :: s) with ([] ++ 10 :: s). constructor; [intros []|exact IH].
    - inversion IH as [v Nv E|v l s' Nv J E]; [constructor; intros [->|I]; auto|]. change (c :: v ++ 10 :: s') with ((c :: v) ++ 10 :: s'). constructor; [intros [->|I]; auto|exact J]. }
  assert (B : forall l, joined l s -> split_byte s 10 = l).
  { clear A. intros l J. assert (S1 : forall v, ~ In 10 v -> split_byte v 10 = [v]). { induction v as [|c v IH]; intros N; [reflexivity|]. cbn [split_byte]. destruct (N.eqb_spec c 10); [exfalso; apply N; left; auto|]. rewrite IH by (intros I; apply N; right; exact I). reflexivity. }
    induction J as [v N|v l s' N J IH]; [auto|]. rewrite <- IH. clear IH J. induction v as [|c v IHv]; cbn [app split_byte]; [reflexivity|]. destruct (N.eqb_spec c 10); [exfalso; apply N; left; auto|]. rewrite IHv by (intros I; apply N; right; exact I). reflexivity. }
  intros l. split; [intros <-; exact A|apply B].
Qed.
Lemma u32_exact s v r : read_u32 s = Some (v, r) <-> u32 s v r.
Proof.
  unfold u32. split.
  - destruct s as [|a [|b [|c [|d s]]]]; try discriminate. cbn [read_u32]. intros E. injection E as <- <-. exists a, b, c, d. split; [reflexivity|]. change (2 ^ 8) with 256. change (2 ^ 16) with 65536. change (2 ^ 24) with 16777216. lia.
  - intros (a & b & c & d & -> & ->). cbn [app read_u32]. do 2 f_equal. change (2 ^ 8) with 256. change (2 ^ 16) with 65536. change (2 ^ 24) with 16777216. lia.
Qed.
Lemma header_exact s values count r : load_header s = Ret (values, count, r) <-> heading s values count r.
Proof.
  unfold load_header, heading. split.
  - intros H. apply bind_ret in H as ([size s1] & E1 & H). apply rd_ret, u32_exact in E1. destruct (N.ltb_spec (N.of_nat (len s1)) size) as [|Ls]; [discriminate|]. cbv zeta in H. apply bind_ret in H as ([cnt s2] & E2 & H). apply rd_ret, u32_exact in E2. injection H as <- <- <-.
    exists size, s1, (firstn (N.to_nat size) s1), (skipn (N.to_nat size) s1). split; [exact E1|]. split; [symmetry; apply firstn_skipn|]. split; [rewrite firstn_length_le by (unfold len in Ls; lia); lia|]. split; [apply joined_exact; reflexivity|exact E2].
  - intros (size & s1 & text & s2 & U1 & -> & L & J & U2). apply u32_exact in U1, U2. rewrite U1. cbn [rd bind]. destruct (N.ltb_spec (N.of_nat (len (text ++ s2))) size) as [Q|_]; [unfold len in Q; rewrite app_length in Q; lia|]. cbv zeta.
    replace (N.to_nat size) with (length text) by lia. rewrite firstn_app, Nat.sub_diag, firstn_O, app_nil_r, firstn_all, skipn_app, Nat.sub_diag, skipn_all. cbn [skipn app]. rewrite U2. cbn [rd bind]. apply joined_exact in J. rewrite J. reflexivity.
Qed.
Lemma wraps_exact z w : to_int64 z = w <-> wraps z w.
Proof.
  unfold to_int64, wraps. change (2 ^ 63)%Z with 9223372036854775808%Z. change (2 ^ 64)%Z with 18446744073709551616%Z. pose proof (Z.mod_pos_bound (z + 9223372036854775808) 18446744073709551616 ltac:(lia)) as B. pose proof (Z.div_mod (z + 9223372036854775808) 18446744073709551616 ltac:(lia)) as E. split.
  - intros <-. split; [lia|]. exists ((z + 9223372036854775808) / 18446744073709551616)%Z. lia.
  - intros (Hw & k & ->). replace (w + k * 18446744073709551616 + 9223372036854775808)%Z with (w + 9223372036854775808 + k * 18446744073709551616)%Z by lia. rewrite Z.mod_add by lia. rewrite Z.mod_small by lia. lia.
Qed.
Lemma varint_octets s v r : octets s -> varint s v r -> octets r.
Proof. intros O (ds & z & -> & _). apply Forall_app in O as [_ O]. inversion O; auto. Qed.
Definition folded {V} (dc : Z -> Z) (acc : table V) (l : list (Z * V)) : table V := mkTable (rev l ++ t_map acc) (fold_left (fun m e => Z.max m (dc (fst e))) l (t_max acc)).
Lemma folded_cons {V} dc (acc : table V) k v l : folded dc (mkTable ((k, v) :: t_map acc) (Z.max (t_max acc) (dc k))) l = folded dc acc ((k, v) :: l).
Proof. unfold folded. cbn [rev fold_left fst t_map t_max]. rewrite <- app_assoc. reflexivity. Qed.
Lemma folded_tabled {V} dc l (t : table V) : t = folded dc (mkTable [] 0%Z) l <-> tabled dc l t.
Proof. unfold folded, tabled. cbn [t_map t_max]. rewrite app_nil_r. destruct t as [a b]. cbn [t_map t_max]. split; [intros E; injection E as -> ->; auto|intros [-> ->]; reflexivity]. Qed.
Lemma value_exact values s v r : read_value values s = Ret (v, r) <-> exists a b, s = a :: b :: r /\ nth_error values (N.to_nat (a + 2 ^ 8 * b)) = Some v.
Proof.
  unfold read_value. change (2 ^ 8) with 256. split.
  - intros H. apply bind_ret in H as ([i s1] & E1 & H). apply rd_ret in E1. destruct s as [|a [|b s]]; try discriminate. cbn [read_u16] in E1. injection E1 as <- <-. apply bind_ret in H as (v' & E2 & H). apply rd_ret in E2. injection H as <- <-. eauto.
  - intros (a & b & -> & E). cbn [read_u16 rd bind]. rewrite E. reflexivity.
Qed.
Lemma entries_exact dc values n : forall p acc s t, octets s -> load_prefixes dc values n p acc s = Ret t <-> exists l, entries values n p s l /\ t = folded dc acc l.
Proof.
  induction n as [|n IH]; intros p acc s t O; cbn [load_prefixes].
  - split; [intros E; injection E as <-; exists []; split; [constructor|destruct acc; reflexivity]|]. intros (l & E & ->). inversion E; subst. destruct acc. reflexivity.
  - split.
    + intros H. apply bind_ret in H as ([d s1] & E1 & H). apply rd_ret in E1. apply (varint_exact _ _ _ O) in E1. apply bind_ret in H as ([v s2] & E2 & H). apply value_exact in E2 as (a & b & -> & Nv). pose proof (varint_octets _ _ _ O E1) as O1. inversion_clear O1 as [|? ? _ O2]. inversion_clear O2 as [|? ? _ O3].
      apply (IH _ _ _ _ O3) in H as (l & El & ->). exists ((to_int64 (p + Z.of_N d), v) :: l). split; [|apply folded_cons]. econstructor; eauto. apply wraps_exact. reflexivity.
    + intros (l & E & ->). inversion E as [|n' p' s' d q a b v rest l' Vr Wq Nv El]; subst. pose proof (varint_octets _ _ _ O Vr) as O1. apply (varint_exact _ _ _ O) in Vr. rewrite Vr. cbn [rd bind]. apply wraps_exact in Wq. rewrite Wq. rewrite (proj2 (value_exact values (a :: b :: rest) v rest)) by eauto. cbn [bind].
      inversion_clear O1 as [|? ? _ O2]. inversion_clear O2 as [|? ? _ O3]. apply (IH _ _ _ _ O3). exists l'. split; [exact El|]. symmetry. apply folded_cons.
Qed.
Lemma texts_exact values n : forall s vs r, read_values values n s = Ret (vs, r) <-> texts values n s vs r.
Proof.
  induction n as [|n IH]; intros s vs r; cbn [read_values].
  - split; [intros E; injection E as <- <-; constructor|intros E; inversion E; subst; reflexivity].
  - split.
    + intros H. apply bind_ret in H as ([v s1] & E1 & H). apply value_exact in E1 as (a & b & -> & Nv). apply bind_ret in H as ([l s2] & E2 & H). injection H as <- <-. apply IH in E2. econstructor; eauto.
    + intros E. inversion E as [|n' a b v rest l s' Nv T]; subst. rewrite (proj2 (value_exact values (a :: b :: rest) v rest)) by eauto. cbn [bind]. apply IH in T. rewrite T. reflexivity.
Qed.
Lemma texts_octets values n s vs r : octets s -> texts values n s vs r -> octets r.
Proof. intros O T. induction T as [|n a b v rest l s' _ T IH]; [exact O|]. inversion_clear O as [|? ? _ O2]. inversion_clear O2 as [|? ? _ O3]. auto. Qed.
Lemma arrays_exact dc values n : forall p acc s t, octets s -> load_arrays dc values n p acc s = Ret t <-> exists l, arrays values n p s l /\ t = folded dc acc l.
Proof.
  induction n as [|n IH]; intros p acc s t O; cbn [load_arrays].
  - split; [intros E; injection E as <-; exists []; split; [constructor|destruct acc; reflexivity]|]. intros (l & E & ->). inversion E; subst. destruct acc. reflexivity.
  - split.
    + intros H. apply bind_ret in H as ([d s1] & E1 & H). apply rd_ret in E1. apply (varint_exact _ _ _ O) in E1. apply bind_ret in H as ([c s2] & E2 & H). apply rd_ret in E2. destruct s1 as [|c' s1]; [discriminate|]. injection E2 as -> ->. apply bind_ret in H as ([vs s3] & E3 & H). apply texts_exact in E3.
      pose proof (varint_octets _ _ _ O E1) as O1. inversion_clear O1 as [|? ? _ O2]. pose proof (texts_octets _ _ _ _ _ O2 E3) as O3. apply (IH _ _ _ _ O3) in H as (l & El & ->). exists ((to_int64 (p + Z.of_N d), vs) :: l). split; [|apply folded_cons]. econstructor; eauto. apply wraps_exact. reflexivity.
    + intros (l & E & ->). inversion E as [|n' p' s' d q c s1 vs s2 l' Vr Wq Tx El]; subst. pose proof (varint_octets _ _ _ O Vr) as O1. inversion_clear O1 as [|? ? _ O2]. pose proof (texts_octets _ _ _ _ _ O2 Tx) as O3. apply (varint_exact _ _ _ O) in Vr. rewrite Vr. cbn [rd bind]. apply wraps_exact in Wq. rewrite Wq. cbn [read_u8 rd bind]. apply texts_exact in Tx. rewrite Tx. cbn [bind].
      apply (IH _ _ _ _ O3). exists l'. split; [exact El|]. symmetry. apply folded_cons.
Qed.
Lemma heading_octets s values count r : octets s -> heading s values count r -> octets r.
Proof. intros O (size & s1 & text & s2 & (a & b & c & d & -> & _) & -> & _ & _ & (a' & b' & c' & d' & -> & _)). repeat (apply Forall_app in O as [_ O]). exact O. Qed.

(** C97: a file is loaded exactly if it has the layout, and the table is the one laid out. Any bytes may follow. *)
Theorem C97_prefix_file : forall dc s t, octets s -> LoadPrefixMap dc s = Ret t <->
  exists values count rest l, heading s values count rest /\ entries values (N.to_nat count) 0 rest l /\ tabled dc l t.
Proof.
  intros dc s t O. unfold LoadPrefixMap. split.
  - intros H. apply bind_ret in H as ([[values count] rest] & E & H). apply header_exact in E. pose proof (heading_octets _ _ _ _ O E) as O1. apply (entries_exact _ _ _ _ _ _ _ O1) in H as (l & El & Et). apply folded_tabled in Et. exists values, count, rest, l. auto.
  - intros (values & count & rest & l & Hd & El & Et). pose proof (heading_octets _ _ _ _ O Hd) as O1. apply header_exact in Hd. rewrite Hd. cbn [bind]. apply (entries_exact _ _ _ _ _ _ _ O1). exists l. split; [exact El|]. apply folded_tabled. exact Et.
Qed.
Print Assumptions C97_prefix_file.
Theorem C97_array_file : forall dc s t, octets s -> LoadIntArrayMap dc s = Ret t <->
  exists values count rest l, heading s values count rest /\ arrays values (N.to_nat count) 0 rest l /\ tabled dc l t.
Proof.
  intros dc s t O. unfold LoadIntArrayMap. split.
  - intros H. apply bind_ret in H as ([[values count] rest] & E & H). apply header_exact in E. pose proof (heading_octets _ _ _ _ O E) as O1. apply (arrays_exact _ _ _ _ _ _ _ O1) in H as (l & El & Et). apply folded_tabled in Et. exists values, count, rest, l. auto.
  - intros (values & count & rest & l & Hd & El & Et). pose proof (heading_octets _ _ _ _ O Hd) as O1. apply header_exact in Hd. rewrite Hd. cbn [bind]. apply (arrays_exact _ _ _ _ _ _ _ O1). exists l. split; [exact El|]. apply folded_tabled. exact Et.
Qed.
Print Assumptions C97_array_file.

(** A file of two entries: 44 is "ab", 44 + 300 = 344 is "c"; a stray byte follows. *)
Definition small_file : bytes := [4; 0; 0; 0; 97; 98; 10; 99; 2; 0; 0; 0; 44; 0; 0; 172; 2; 1; 0; 7].
Example C97_witness : octets small_file /\ exists values count rest l, heading small_file values count rest /\ entries values (N.to_nat count) 0 rest l /\ l = [(44%Z, [97; 98]); (344%Z, [99])] /\
  LoadPrefixMap (fun _ => 3%Z) small_file = Ret (mkTable (rev l) 3%Z).
Proof.
  assert (O : octets small_file) by (unfold octets, small_file; repeat constructor; lia). split; [exact O|].
  assert (L : LoadPrefixMap (fun _ => 3%Z) small_file = Ret (mkTable (rev [(44%Z, [97; 98]); (344%Z, [99])]) 3%Z)) by (vm_compute; reflexivity).
  pose proof L as L'. apply (C97_prefix_file _ _ _ O) in L' as (values & count & rest & l & Hd & El & Tm & _). exists values, count, rest, l. cbn [t_map] in Tm. apply (f_equal (@rev _)) in Tm. rewrite !rev_involutive in Tm. subst l. auto.
Qed.
(** An array file: 7 has both texts. *)
Definition small_arrays : bytes := [4; 0; 0; 0; 97; 98; 10; 99; 1; 0; 0; 0; 7; 2; 1; 0; 0; 0].
Example C97_array_witness : octets small_arrays /\ LoadIntArrayMap (fun _ => 1%Z) small_arrays = Ret (mkTable [(7%Z, [[99]; [97; 98]])] 1%Z).
Proof. split; [unfold octets, small_arrays; repeat constructor; lia|vm_compute; reflexivity]. Qed.
(** A distance of ten bytes is accepted up to 2^64 - 1, which is one step down, and refused from 2^64 on. *)
Definition ten_bytes (last : N) : bytes := [1; 0; 0; 0; 97; 1; 0; 0; 0; 255; 255; 255; 255; 255; 255; 255; 255; 255; last; 0; 0].
Example C97_ten_bytes : LoadPrefixMap (fun _ => 2%Z) (ten_bytes 1) = Ret (mkTable [((-1)%Z, [97])] 2%Z) /\ (forall t, LoadPrefixMap (fun _ => 2%Z) (ten_bytes 2) <> Ret t).
Proof. split; [vm_compute; reflexivity|]. intros t. vm_compute. discriminate. Qed.
