(** C45: the string buffer. *)
From Coq Require Import Lia.
From Verif Require Import Base BaseFacts Utf8 StringBuilder BuilderSpec.
Local Open Scope nat_scope.

(** The slice header never exceeds the capacity. *)
Definition ok (b : builder) : Prop := b_len b <= cap b.
(** One operation of the code. *)
Definition step (g : growth) (b : builder) (o : op) : M builder :=
  match o with
  | OWrite p => Ret (fst (Write g b p))
  | OWriteByte c => Ret (WriteByte g b c)
  | OWriteRune r => Ret (fst (WriteRune g b r))
  | OInsert i p => Ret (fst (fst (Insert g b i p)))
  | OReset => Ret (Reset b)
  | OResetWith p => Ret (fst (ResetWith g b p))
  | OSetLength n => SetLength g b n
  | ODelete i j => Delete g b i j
  end.
Fixpoint run (g : growth) (b : builder) (l : list op) : M builder :=
  match l with [] => Ret b | o :: l => b <- step g b o ;; run g b l end.

Lemma append_ok g b k p : k <= cap b -> ok (append_at g b k p) /\ contents (append_at g b k p) = firstn k (b_arr b) ++ p.
Proof.
  intros K. unfold append_at, ok, contents, cap in *. destruct (Nat.leb_spec (k + length p) (length (b_arr b))); cbn [b_len b_arr].
  - split; [rewrite !app_length, firstn_length_le, skipn_length by lia; lia|]. rewrite app_assoc, firstn_app. rewrite app_length, firstn_length_le by lia. replace (k + length p - (k + length p)) with 0 by lia. rewrite firstn_O, app_nil_r. apply firstn_all2. rewrite app_length, firstn_length_le by lia. lia.
  - split; [rewrite !app_length, firstn_length_le, repeat_length by lia; lia|]. rewrite app_assoc, firstn_app. rewrite app_length, firstn_length_le by lia. replace (k + length p - (k + length p)) with 0 by lia. rewrite firstn_O, app_nil_r. apply firstn_all2. rewrite app_length, firstn_length_le by lia. lia.
Qed.
Lemma contents_length b : ok b -> length (contents b) = b_len b.
Proof. intros O. apply firstn_length_le. exact O. Qed.
Lemma write_ok g b p : ok b -> ok (append_at g b (b_len b) p) /\ contents (append_at g b (b_len b) p) = contents b ++ p.
Proof. intros O. apply append_ok. exact O. Qed.
Lemma firstn_contents b k : k <= b_len b -> firstn k (contents b) = firstn k (b_arr b).
Proof. intros K. unfold contents. rewrite firstn_firstn. f_equal. lia. Qed.
Lemma skipn_contents b k : skipn k (contents b) = firstn (b_len b - k) (skipn k (b_arr b)).
Proof. unfold contents. rewrite firstn_skipn_comm. destruct (Nat.le_gt_cases k (b_len b)).
  - replace (k + (b_len b - k)) with (b_len b) by lia. reflexivity.
  - replace (b_len b - k) with 0 by lia. rewrite Nat.add_0_r. rewrite !skipn_all2; [reflexivity|rewrite firstn_length; lia|rewrite firstn_length; lia]. Qed.
Lemma pad_ok g k : forall b, ok b -> ok (pad g b k) /\ contents (pad g b k) = contents b ++ repeat 0%N k.
Proof.
  induction k as [|k IH]; intros b O; cbn [pad repeat]; [split; [exact O|rewrite app_nil_r; reflexivity]|].
  destruct (write_ok g b [0%N] O) as (O' & E). destruct (IH _ O') as (O2 & E2). split; [exact O2|]. rewrite E2, E, <- app_assoc. reflexivity.
Qed.
Lemma step_spec g b o s' : ok b -> does (contents b) o s' -> exists b', step g b o = Ret b' /\ ok b' /\ contents b' = s'.
Proof.
  intros O D. remember (contents b) as s eqn:Es. destruct D; subst s; cbn [step].
  - eexists. split; [reflexivity|]. apply write_ok. exact O.
  - eexists. split; [reflexivity|]. apply write_ok. exact O.
  - eexists. split; [reflexivity|]. apply write_ok. exact O.
  - eexists. split; [reflexivity|]. unfold size in H. rewrite contents_length in H by exact O. unfold Insert.
    destruct (Z.ltb_spec i 0); [lia|]. destruct (Z.ltb_spec (Z.of_nat (b_len b)) i); [lia|]. cbn [orb fst]. unfold take, drop.
    assert (K : Z.to_nat i <= b_len b) by lia. rewrite firstn_contents by exact K. rewrite skipn_contents.
    destruct (Nat.eqb_spec (length p) 0) as [E0|E0].
    + split; [exact O|]. destruct p; [|discriminate]. cbn [app]. rewrite <- firstn_contents by exact K. rewrite <- skipn_contents. symmetry. apply firstn_skipn.
    + unfold ok, cap in *. cbn [b_len b_arr]. set (new := firstn (Z.to_nat i) (b_arr b) ++ p ++ firstn (b_len b - Z.to_nat i) (skipn (Z.to_nat i) (b_arr b))).
      assert (Ln : length new = b_len b + length p) by (subst new; rewrite !app_length, !firstn_length_le by (rewrite ?skipn_length; lia); lia).
      unfold contents. cbn [b_len b_arr]. clearbody new. split; [rewrite app_length; lia|]. rewrite firstn_app, Ln, Nat.sub_diag, firstn_O, app_nil_r. apply firstn_all2. lia.
  - eexists. split; [reflexivity|]. unfold size in H. rewrite contents_length in H by exact O. unfold Insert.
    replace ((i <? 0)%Z || (Z.of_nat (b_len b) <? i)%Z) with true; [cbn [fst]; auto|]. symmetry. apply orb_true_iff. lia.
  - eexists. split; [reflexivity|]. split; [unfold ok; simpl; lia|reflexivity].
  - eexists. split; [reflexivity|]. apply (append_ok g b 0 p). lia.
  - unfold size in H. rewrite contents_length in H by exact O. unfold SetLength. destruct (Z.leb_spec n (Z.of_nat (b_len b))); [|lia]. destruct (Z.ltb_spec n 0); [lia|].
    eexists. split; [reflexivity|]. unfold ok, cap in *. cbn [b_len b_arr]. split; [lia|]. unfold take. rewrite firstn_contents by lia. reflexivity.
  - unfold size in *. rewrite contents_length in * by exact O. unfold SetLength. destruct (Z.leb_spec n (Z.of_nat (b_len b))); [lia|].
    eexists. split; [reflexivity|]. replace (Z.to_nat (n - Z.of_nat (b_len b))) with (Z.to_nat n - b_len b) by lia. apply pad_ok. exact O.
  - unfold size in *. rewrite contents_length in * by exact O. unfold Delete. unfold ok in O. destruct (Z.ltb_spec i 0); [lia|]. destruct (Z.ltb_spec (Z.of_nat (cap b)) i); [lia|]. destruct (Z.ltb_spec j 0); [lia|]. destruct (Z.ltb_spec (Z.of_nat (b_len b)) j); [lia|].
    cbn [orb]. eexists. split; [reflexivity|]. unfold take, drop. rewrite firstn_contents by lia. rewrite skipn_contents. apply append_ok. lia.
Qed.

(** Whatever the runtime's growth policy and whatever the spare bytes of the initial slice hold, a history of operations with arguments in range produces the bytes the plain description gives, and does not panic. *)
Theorem C45_history : forall g buf spare l s, history buf l s -> exists b, run g (New buf spare) l = Ret b /\ Bytes b = s /\ Len b = size s.
Proof.
  intros g buf spare l s H. assert (O : ok (New buf spare)) by (unfold ok, cap, New; cbn [b_len b_arr]; rewrite app_length; lia).
  assert (E : contents (New buf spare) = buf). { unfold contents, New. cbn [b_len b_arr]. rewrite firstn_app, Nat.sub_diag, firstn_O, app_nil_r. apply firstn_all. }
  revert O E. generalize (New buf spare) as b. induction H as [s|s o s' l s'' D H IH]; intros b O E; cbn [run].
  - exists b. split; [reflexivity|]. split; [exact E|]. unfold Len, size. rewrite <- E, contents_length; auto.
  - subst s. destruct (step_spec g b o s' O D) as (b' & E & O' & C'). rewrite E. cbn [bind]. apply IH; auto.
Qed.
Print Assumptions C45_history.
(** Inserting and deleting what was inserted restores the contents. *)
Theorem C45_insert_delete : forall g buf spare i p, (0 <= i <= size buf)%Z -> exists b, run g (New buf spare) [OInsert i p; ODelete i (i + size p)] = Ret b /\ Bytes b = buf.
Proof.
  intros g buf spare i p I. destruct (C45_history g buf spare [OInsert i p; ODelete i (i + size p)] buf) as (b & E & C & _); [|exists b; auto].
  eapply history_cons; [apply does_insert; exact I|]. eapply history_cons; [|apply history_nil].
  assert (Q : take i (take i buf ++ p ++ drop i buf) ++ drop (i + size p) (take i buf ++ p ++ drop i buf) = buf).
  { unfold size, take, drop in *. assert (L : length (firstn (Z.to_nat i) buf) = Z.to_nat i) by (apply firstn_length_le; lia). rewrite firstn_app, L, Nat.sub_diag, firstn_O, app_nil_r, firstn_firstn, Nat.min_id.
    replace (Z.to_nat (i + Z.of_nat (length p))) with (Z.to_nat i + length p) by lia. rewrite skipn_app, L. rewrite (skipn_all2 (firstn _ _)) by (rewrite L; lia). replace (Z.to_nat i + length p - Z.to_nat i) with (length p) by lia.
    rewrite skipn_app, skipn_all, Nat.sub_diag. cbn [app]. rewrite skipn_O. apply firstn_skipn. }
  rewrite <- Q at 3. apply does_delete; [unfold size; lia|]. unfold size, take, drop in *. rewrite !app_length, firstn_length_le, skipn_length by lia. lia.
Qed.
Print Assumptions C45_insert_delete.
(** What the calls report: bytes written, and an error with nothing changed for an insertion out of range. *)
Theorem C45_reports : forall g b p r i, ok b -> snd (Write g b p) = size p /\ snd (WriteRune g b r) = size (encode_rune r)
  /\ ((0 <= i <= Len b)%Z -> snd (Insert g b i p) = true /\ snd (fst (Insert g b i p)) = size p)
  /\ (~ (0 <= i <= Len b)%Z -> Insert g b i p = (b, (-1)%Z, false)).
Proof.
  intros g b p r i O. split; [reflexivity|]. split.
  { unfold WriteRune, Len. cbn [snd]. destruct (write_ok g b (encode_rune r) O) as (O' & E). rewrite <- (contents_length _ O'), E, app_length, contents_length by exact O. unfold size. lia. }
  unfold Insert, Len. split; intros I.
  - destruct (Z.ltb_spec i 0); [lia|]. destruct (Z.ltb_spec (Z.of_nat (b_len b)) i); [lia|]. split; reflexivity.
  - replace ((i <? 0)%Z || (Z.of_nat (b_len b) <? i)%Z) with true; [reflexivity|]. symmetry. apply orb_true_iff. lia.
Qed.
Print Assumptions C45_reports.
(** Reading: a byte, and a range inside the buffer. *)
Theorem C45_reads : forall b i j, ok b ->
  ((0 <= i < Len b)%Z -> exists c, nth_error (Bytes b) (Z.to_nat i) = Some c /\ ByteAt b i = Some c /\ CharAt b i = Ret c)
  /\ (~ (0 <= i < Len b)%Z -> ByteAt b i = None /\ CharAt b i = Panic)
  /\ ((0 <= i <= j)%Z -> (j <= Len b)%Z -> exists s, Substring b i j = Ret s /\ size s = (j - i)%Z /\ Bytes b = take i (Bytes b) ++ s ++ drop j (Bytes b)).
Proof.
  intros b i j O. unfold Len, Bytes, ByteAt, CharAt, Substring. split; [|split]; intros I.
  - destruct (Z.ltb_spec i 0); [lia|]. destruct (Z.leb_spec (Z.of_nat (b_len b)) i); [lia|]. cbn [orb]. destruct (nth_error (b_arr b) (Z.to_nat i)) as [c|] eqn:E.
    + exists c. split; [|split; reflexivity]. unfold contents. rewrite <- (firstn_skipn (b_len b) (b_arr b)) in E. rewrite nth_error_app1 in E; [exact E|]. unfold ok, cap in O. rewrite firstn_length_le by exact O. lia.
    + exfalso. apply nth_error_None in E. unfold ok, cap in O. lia.
  - replace ((i <? 0)%Z || (Z.of_nat (b_len b) <=? i)%Z) with true; [split; reflexivity|]. symmetry. apply orb_true_iff. lia.
  - intros J. unfold ok in O. destruct (Z.ltb_spec i 0); [lia|]. destruct (Z.ltb_spec j i); [lia|]. destruct (Z.ltb_spec (Z.of_nat (cap b)) j); [lia|]. cbn [orb]. eexists. split; [reflexivity|].
    unfold size, take, drop, cap in *. split; [rewrite firstn_length_le by (rewrite skipn_length; lia); lia|].
    rewrite firstn_contents by lia. replace (firstn (Z.to_nat j - Z.to_nat i) (skipn (Z.to_nat i) (b_arr b))) with (firstn (Z.to_nat j - Z.to_nat i) (skipn (Z.to_nat i) (contents b))).
    + rewrite <- (firstn_skipn (Z.to_nat i) (contents b)) at 1. rewrite firstn_contents by lia. f_equal.
      rewrite <- (firstn_skipn (Z.to_nat j - Z.to_nat i) (skipn (Z.to_nat i) (contents b))) at 1. f_equal. rewrite skipn_add. f_equal. lia.
    + rewrite skipn_contents, firstn_firstn. f_equal. lia.
Qed.
Print Assumptions C45_reads.
(** The comment in the code says that reading out of range panics. It does not between the length and the capacity: stale bytes come back, here those deleted before. *)
Theorem C45_substring_refuted : exists g buf l b, run g (New buf []) l = Ret b /\ Len b = 2%Z /\ Substring b 0 5 = Ret (bs "12345").
Proof. exists (fun _ _ => O), (bs "12345"), [OSetLength 2]. eexists. split; [vm_compute; reflexivity|]. split; vm_compute; reflexivity. Qed.
Print Assumptions C45_substring_refuted.
Example C45_witness : history (bs "ad") [OInsert 1 (bs "bc"); OWriteByte 101; OInsert 9 (bs "no"); ODelete 0 2; OSetLength 4] (bs "cde" ++ [0%N])
  /\ run (fun c n => c + n) (New (bs "ad") []) [OInsert 1 (bs "bc"); OWriteByte 101; OInsert 9 (bs "no"); ODelete 0 2; OSetLength 4] = Ret (mkB 4 (bs "cde" ++ [0; 101; 0; 0; 0; 0; 0]%N)).
Proof.
  split; [|vm_compute; reflexivity]. eapply history_cons; [apply does_insert; unfold size; simpl; lia|]. eapply history_cons; [apply does_byte|]. eapply history_cons; [apply does_insert_out; unfold size; simpl; lia|].
  eapply history_cons; [apply does_delete; unfold size; simpl; lia|]. eapply history_cons; [|apply history_nil]. apply does_pad. unfold size. simpl. lia.
Qed.
