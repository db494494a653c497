(** Lemmas about possible lengths, validity, types and regions. *)
From Verif Require Import Base BaseFacts Utf8 Regex Consts Types Validate MetaSpec ValidateSpec NumberSpec NumberFacts.
From Coq Require Import Sorting.Sorted Sorting.Permutation.

(** * Possible lengths *)
Lemma sorted_lt_le l : StronglySorted Z.lt l -> StronglySorted Z.le l.
Proof.
  induction 1 as [|a l H IH F]; constructor; auto. eapply Forall_impl; [|exact F]. intros; lia.
Qed.
Lemma sorted_last_max l : StronglySorted Z.le l -> forall d x, In x l -> (x <= last l d)%Z.
Proof.
  induction 1 as [|a l H IH F]; intros d x I; [destruct I|]. destruct l as [|b l].
  - destruct I as [->|[]]. simpl. lia.
  - change (last (a :: b :: l) d) with (last (b :: l) d). destruct I as [->|I]; [|auto].
    rewrite Forall_forall in F. specialize (F b (or_introl eq_refl)). specialize (IH d b (or_introl eq_refl)). lia.
Qed.
Lemma last_In {A} (l : list A) d : l <> [] -> In (last l d) l.
Proof. induction l as [|a [|b l] IH]; intros H; [congruence|left; reflexivity|right; apply IH; discriminate]. Qed.

Lemma compareLength_spec possible local actual : possible <> [] -> StronglySorted Z.le possible ->
  (possible = [(-1)%Z] \/ Forall (fun l => (0 < l)%Z) possible) ->
  exists v, compareLength possible local actual = Ret v /\
    classified (fun l => possible <> [(-1)%Z] /\ In l possible) (fun l => In l local) actual v.
Proof.
  intros NE S W. destruct possible as [|mn rest]; [congruence|]. unfold compareLength.
  destruct (mn =? -1)%Z eqn:E1.
  { apply Z.eqb_eq in E1. subst. destruct W as [W|W]; [|inv W; lia]. eexists; split; [reflexivity|]. simpl. left.
    intros (k & H & _). congruence. }
  apply Z.eqb_neq in E1. assert (N1 : mn :: rest <> [(-1)%Z]) by congruence.
  assert (EX : exists k, mn :: rest <> [(-1)%Z] /\ In k (mn :: rest)) by (exists mn; simpl; auto).
  destruct (memz actual local) eqn:E2.
  { apply memz_iff in E2. eexists; split; [reflexivity|]. simpl. auto. }
  apply memz_false in E2.
  destruct (mn =? actual)%Z eqn:E3.
  { apply Z.eqb_eq in E3. subst. eexists; split; [reflexivity|]. simpl. auto. }
  apply Z.eqb_neq in E3. inversion S as [|a l S' F]; subst. rewrite Forall_forall in F.
  destruct (actual <? mn)%Z eqn:E4.
  { apply Z.ltb_lt in E4. eexists; split; [reflexivity|]. simpl. split; [auto|]. split; [auto|].
    intros k (_ & [->|I]); auto. specialize (F _ I). lia. }
  apply Z.ltb_ge in E4.
  destruct (last (mn :: rest) mn <? actual)%Z eqn:E5.
  { apply Z.ltb_lt in E5. eexists; split; [reflexivity|]. simpl. split; [auto|]. split; [auto|]. intros k (_ & I).
    pose proof (sorted_last_max _ S mn k I). lia. }
  apply Z.ltb_ge in E5.
  destruct (memz actual rest) eqn:E6.
  { apply memz_iff in E6. eexists; split; [reflexivity|]. simpl. auto. }
  apply memz_false in E6. eexists; split; [reflexivity|]. simpl. right. split; [auto|]. split; [intros (_ & [?|?]); auto|].
  split; [exists mn; split; [auto|lia]|].
  exists (last (mn :: rest) mn). split; [split; [exact N1|exact (last_In (mn :: rest) mn ltac:(discriminate))]|].
  assert (last (mn :: rest) mn <> actual); [|lia]. intros E. pose proof (last_In (mn :: rest) mn ltac:(discriminate)) as L.
  rewrite E in L. destruct L; auto.
Qed.

Lemma mergeLengths_eq l1 l2 : mergeLengths l1 l2 = match l1, l2 with
  | [], _ => l2 | x :: t1, [] => x :: mergeLengths t1 []
  | x :: t1, y :: t2 => if (x <=? y)%Z then x :: mergeLengths t1 l2 else y :: mergeLengths l1 t2 end.
Proof. destruct l1; destruct l2; reflexivity. Qed.

Lemma mergeLengths_perm l1 : forall l2, Permutation (mergeLengths l1 l2) (l1 ++ l2).
Proof.
  induction l1 as [|x t1 IH1]; intros l2; [destruct l2; apply Permutation_refl|].
  induction l2 as [|y t2 IH2]; rewrite mergeLengths_eq.
  - rewrite IH1, !app_nil_r. reflexivity.
  - destruct (x <=? y)%Z.
    + rewrite IH1. reflexivity.
    + rewrite IH2. apply Permutation_middle.
Qed.
Lemma mergeLengths_In l1 l2 x : In x (mergeLengths l1 l2) <-> In x l1 \/ In x l2.
Proof.
  rewrite <- in_app_iff. split; apply Permutation_in; [|apply Permutation_sym]; apply mergeLengths_perm.
Qed.
Lemma mergeLengths_sorted l1 : forall l2, StronglySorted Z.le l1 -> StronglySorted Z.le l2 -> StronglySorted Z.le (mergeLengths l1 l2).
Proof.
  induction l1 as [|x t1 IH1]; intros l2 S1 S2; [destruct l2; auto|].
  inversion S1 as [|a l S1' F1]; subst. rewrite Forall_forall in F1.
  induction l2 as [|y t2 IH2]; rewrite mergeLengths_eq.
  - constructor; [apply IH1; auto; constructor|]. apply Forall_forall. intros z Hz. apply mergeLengths_In in Hz as [Hz|[]]. auto.
  - inversion S2 as [|a l S2' F2]; subst. rewrite Forall_forall in F2. destruct (x <=? y)%Z eqn:E.
    + apply Z.leb_le in E. constructor; [apply IH1; auto|]. apply Forall_forall. intros z Hz. apply mergeLengths_In in Hz as [Hz|[->|Hz]]; auto.
      specialize (F2 _ Hz). lia.
    + apply Z.leb_gt in E. constructor; [apply IH2; auto|]. apply Forall_forall. intros z Hz. apply mergeLengths_In in Hz as [[->|Hz]|Hz]; auto; [lia|].
      specialize (F1 _ Hz). lia.
Qed.

Lemma classified_iff ok ok' loc loc' l v : (forall k, ok k <-> ok' k) -> ((exists k, ok k) -> (loc l <-> loc' l)) -> classified ok loc l v -> classified ok' loc' l v.
Proof.
  intros H1 H2. assert (EX : (exists k, ok k) <-> (exists k, ok' k)).
  { split; intros [k K]; exists k; apply H1; auto. }
  destruct v; simpl.
  - intros [A B]. split; [apply H1; auto|]. rewrite <- H2; eauto.
  - intros [A B]. split; [apply EX; auto|apply H2; auto].
  - auto.
  - intros (A & B & D). split; [apply EX; auto|]. split; [rewrite <- H2; auto|]. intros k K. apply D, H1, K.
  - intros [A|(A & B & (k1 & K1 & L1) & (k2 & K2 & L2))]; [left; rewrite <- EX; auto|right].
    split; [rewrite <- H2; eauto|]. split; [rewrite <- H1; auto|]. split; [exists k1|exists k2]; rewrite <- H1; auto.
  - intros (A & B & D). split; [apply EX; auto|]. split; [rewrite <- H2; auto|]. intros k K. apply D, H1, K.
Qed.

(** The answers exclude one another: at most one can be right. *)
Lemma classified_fun ok loc l v w : classified ok loc l v -> classified ok loc l w -> v = w.
Proof.
  destruct v, w; simpl; auto; intros H1 H2; exfalso;
  repeat match goal with
    | H : _ /\ _ |- _ => destruct H | H : exists _, _ |- _ => destruct H | H : _ \/ _ |- _ => destruct H end;
  first [ tauto
        | match goal with H : ~ (exists _, _) |- _ => apply H; eauto end
        | match goal with H : forall k, ?ok k -> (_ < _)%Z, K : ?ok _ |- _ => pose proof (H _ K); lia end
        | match goal with H : forall k, ?ok k -> (_ < _)%Z, H' : forall k, ?ok k -> (_ < _)%Z, K : ?ok _ |- _ =>
            pose proof (H _ K); pose proof (H' _ K); lia end ].
Qed.

(** * Number length test *)
Lemma wf_desc_in m t : wf_meta m -> wf_desc (getNumberDescByType (Some m) t).
Proof.
  intros W. pose proof (wf_descs _ W) as F. rewrite Forall_forall in F. apply F.
  destruct t; simpl; tauto.
Qed.
Lemma desc_has_iff d : descHasPossibleNumberData d = true <-> has_numbers d.
Proof.
  unfold descHasPossibleNumberData, has_numbers. destruct (d_len d) as [|x [|y l]]; split; intros H; try congruence; auto.
  - apply negb_true_iff, Z.eqb_neq in H. congruence.
  - apply negb_true_iff, Z.eqb_neq. congruence.
Qed.
Lemma desc_has_false d : descHasPossibleNumberData d = false -> d_len d = [(-1)%Z].
Proof.
  intros H. unfold descHasPossibleNumberData in H. destruct (d_len d) as [|x [|y l]]; try discriminate.
  apply negb_false_iff, Z.eqb_eq in H. congruence.
Qed.

Lemma lengths_or_general_spec m d : wf_meta m -> wf_desc (Some d) ->
  lengths_or_general (Some m) d = Ret (lengths_of m d) /\ lengths_of m d <> [] /\ StronglySorted Z.lt (lengths_of m d) /\
  (lengths_of m d = [(-1)%Z] \/ Forall (fun l => (0 < l)%Z) (lengths_of m d)) /\ (lengths_of m d = [(-1)%Z] <-> d_len d = [(-1)%Z]).
Proof.
  intros W (x & E & _ & S & _ & F & _). inv E. unfold lengths_or_general, lengths_of.
  destruct (wf_general _ W) as (g & Eg & Ng & Ng' & _).
  destruct (d_len x) as [|a l] eqn:E; [|repeat split; auto; discriminate].
  rewrite Eg. simpl. destruct (wf_desc_in m UNKNOWN W) as (g' & Eg' & _ & S' & _ & F' & _). simpl in Eg'. rewrite Eg in Eg'. inv Eg'.
  repeat split; auto; congruence.
Qed.

Lemma test_length_of_spec m d s : wf_meta m -> wf_desc (Some d) ->
  exists v, test_length_of (Some m) (Some d) s = Ret v /\
    classified (fun l => has_numbers d /\ In l (lengths_of m d)) (fun l => has_numbers d /\ In l (d_local d)) s v.
Proof.
  intros W Wd. destruct (lengths_or_general_spec m d W Wd) as (E & N & S & F & I).
  unfold test_length_of. cbn [or_panic bind]. rewrite E. cbn [bind].
  destruct (compareLength_spec (lengths_of m d) (d_local d) s N (sorted_lt_le _ S) F) as (v & Ev & C).
  exists v. split; auto. eapply classified_iff; [| |exact C].
  - intros k. cbn beta. unfold has_numbers. rewrite <- I. tauto.
  - intros (k & K & _). cbn beta. unfold has_numbers. rewrite <- I. tauto.
Qed.

Lemma testNumberLength_spec m t s : wf_meta m ->
  exists v, testNumberLength s (Some m) t = Ret v /\ classified (allowed m t) (local_only m t) (Z.of_nat (length s)) v.
Proof.
  intros W.
  assert (Simple : t <> FIXED_LINE_OR_MOBILE -> exists v, test_length_of (Some m) (getNumberDescByType (Some m) t) (Z.of_nat (length s)) = Ret v /\
      classified (fun l => exists d, getNumberDescByType (Some m) t = Some d /\ has_numbers d /\ In l (lengths_of m d))
                 (fun l => exists d, getNumberDescByType (Some m) t = Some d /\ has_numbers d /\ In l (d_local d)) (Z.of_nat (length s)) v).
  { intros _. pose proof (wf_desc_in m t W) as Wd. pose proof Wd as (d & E & _). rewrite E in *.
    destruct (test_length_of_spec m d (Z.of_nat (length s)) W Wd) as (v & Ev & C). exists v. split; auto.
    eapply classified_iff; [| |exact C].
    - intros k. split; [intros; eauto|]. intros (d' & Ed & H). inv Ed. auto.
    - intros _. split; [intros; eauto|]. intros (d' & Ed & H). inv Ed. auto. }
  destruct t; try (apply Simple; discriminate). clear Simple.
  unfold testNumberLength. pose proof (wf_desc_in m FIXED_LINE W) as Wf. pose proof (wf_desc_in m MOBILE W) as Wm.
  simpl in Wf, Wm. pose proof Wf as (f & Ef & _). pose proof Wm as (b & Eb & _). simpl in *. rewrite Ef, Eb in *. cbn [or_panic bind].
  destruct (lengths_or_general_spec m f W Wf) as (E1 & N1 & S1 & F1 & I1).
  destruct (lengths_or_general_spec m b W Wm) as (E2 & N2 & S2 & F2 & I2).
  rewrite E1. cbn [bind]. unfold len.
  destruct (descHasPossibleNumberData f) eqn:Hf; cbn [negb].
  2:{ apply desc_has_false in Hf. destruct (test_length_of_spec m b (Z.of_nat (length s)) W Wm) as (v & Ev & C). rewrite Ev.
      exists v. split; auto. eapply classified_iff; [| |exact C].
      - intros k. simpl. rewrite Ef, Eb. split; [eauto|]. intros [(d & Ed & H & _)|(d & Ed & H)]; inv Ed; [congruence|auto].
      - intros _. simpl. rewrite Ef, Eb. split; [eauto|]. intros [(d & Ed & H & _)|(d & Ed & H)]; inv Ed; [congruence|auto]. }
  apply desc_has_iff in Hf.
  destruct (descHasPossibleNumberData b) eqn:Hb.
  2:{ apply desc_has_false in Hb.
      destruct (compareLength_spec (lengths_of m f) (d_local f) (Z.of_nat (length s)) N1 (sorted_lt_le _ S1) F1) as (v & Ev & C). rewrite Ev.
      exists v. split; auto. eapply classified_iff; [| |exact C].
      - intros k. simpl. rewrite Ef, Eb. rewrite I1. split; [eauto|]. intros [(d & Ed & H & H')|(d & Ed & H & _)]; inv Ed; [auto|congruence].
      - intros _. simpl. rewrite Ef, Eb. split; [eauto|]. intros [(d & Ed & H & H')|(d & Ed & H & _)]; inv Ed; [auto|congruence]. }
  apply desc_has_iff in Hb. rewrite E2. cbn [bind].
  assert (P1 : Forall (fun l => (0 < l)%Z) (lengths_of m f)). { destruct F1 as [F|F]; auto. apply I1 in F. contradiction. }
  assert (P2 : Forall (fun l => (0 < l)%Z) (lengths_of m b)). { destruct F2 as [F|F]; auto. apply I2 in F. contradiction. }
  rewrite Forall_forall in P1, P2.
  set (loc := match d_local f with [] => d_local b | l => mergeLengths l (d_local b) end).
  assert (Loc : forall x, In x loc <-> In x (d_local f) \/ In x (d_local b)).
  { intros x. unfold loc. destruct (d_local f) as [|a l]; [simpl; tauto|]. apply mergeLengths_In. }
  assert (Pm : forall x, In x (mergeLengths (lengths_of m f) (lengths_of m b)) -> (0 < x)%Z).
  { intros x Hx. apply mergeLengths_In in Hx as [Hx|Hx]; auto. }
  destruct (compareLength_spec (mergeLengths (lengths_of m f) (lengths_of m b)) loc (Z.of_nat (length s))) as (v & Ev & C).
  - intros E. destruct (lengths_of m f) as [|a l]; [congruence|]. assert (In a (mergeLengths (a :: l) (lengths_of m b))) as I by (apply mergeLengths_In; left; left; auto).
    rewrite E in I. destruct I.
  - apply mergeLengths_sorted; apply sorted_lt_le; auto.
  - right. apply Forall_forall. auto.
  - exists v. split; [exact Ev|]. eapply classified_iff; [| |exact C].
    + intros k. cbn beta. rewrite mergeLengths_In. simpl. rewrite Ef, Eb. split.
      * intros [_ [H|H]]; eauto.
      * intros H. split.
        -- intros E. assert (I : In k [(-1)%Z]). { rewrite <- E. apply mergeLengths_In. destruct H as [(d & Ed & _ & H)|(d & Ed & _ & H)]; inv Ed; auto. }
           rewrite <- E in I. specialize (Pm _ I). rewrite E in I. destruct I as [<-|[]]. lia.
        -- destruct H as [(d & Ed & _ & H)|(d & Ed & _ & H)]; inv Ed; auto.
    + intros _. cbn beta. rewrite Loc. simpl. rewrite Ef, Eb. split; [intros [H|H]; eauto|].
      intros [(d & Ed & _ & H)|(d & Ed & _ & H)]; inv Ed; auto.
Qed.

(** * Descriptors and types *)
Lemma compiles_must p : compiles p -> exists x, must_compile p = Ret x /\ compile p = Some x.
Proof. intros (x & E). exists x. unfold must_compile. rewrite E. auto. Qed.

Lemma matching_desc_spec s d : wf_desc d -> exists b, isNumberMatchingDesc s d = Ret b /\ (b = true <-> accepts d s).
Proof.
  intros (x & -> & Cp & _). destruct (compiles_must _ Cp) as (r & Er & Ec).
  unfold isNumberMatchingDesc, isNumberPossibleForDesc, strict_match. rewrite Er. cbn [bind].
  assert (FM : full_match (get_d_pattern (Some x)) s <-> re_match r s = true).
  { unfold full_match. rewrite Ec. split; [intros (y & Ey & M); inv Ey; auto|eauto]. }
  unfold accepts. unfold len.
  destruct (d_len x) as [|a l] eqn:E.
  - cbn [negb andb bind]. rewrite andb_diag. eexists. split; [reflexivity|]. rewrite <- FM. split; [eauto|].
    intros (y & Ey & _ & H). inv Ey. auto.
  - cbn [negb andb]. destruct (memz (Z.of_nat (length s)) (a :: l)) eqn:M; cbn [negb bind].
    + rewrite andb_diag. eexists. split; [reflexivity|]. rewrite <- FM. apply memz_iff in M. split; [intros; exists x; rewrite E; auto|].
      intros (y & Ey & _ & H). inv Ey. auto.
    + eexists. split; [reflexivity|]. apply memz_false in M. split; [discriminate|].
      intros (y & Ey & [H|H] & _); inv Ey; [congruence|]. rewrite E in H. contradiction.
Qed.

Lemma first_type_spec s m l : wf_meta m -> (forall t f, In (t, f) l -> mdesc f (Some m) = getNumberDescByType (Some m) t /\ t <> FIXED_LINE_OR_MOBILE /\ t <> UNKNOWN) ->
  exists o, first_type s (Some m) l = Ret o /\
    match o with Some t => In t (map fst l) /\ accepts (getNumberDescByType (Some m) t) s
               | None => forall t, In t (map fst l) -> ~ accepts (getNumberDescByType (Some m) t) s end.
Proof.
  intros W. induction l as [|[t f] l IH]; intros H; cbn [first_type].
  - exists None. split; auto. 
  - destruct (H t f (or_introl eq_refl)) as (E & _). rewrite E.
    destruct (matching_desc_spec s _ (wf_desc_in m t W)) as (b & Eb & Ib). rewrite Eb. cbn [bind]. destruct b.
    + exists (Some t). split; auto. split; [left; reflexivity|]. apply Ib; auto.
    + destruct IH as (o & Eo & Ho); [intros; apply H; right; auto|]. exists o. split; auto. destruct o as [t'|].
      * destruct Ho. split; auto. right. auto.
      * intros t' [<-|I]; auto. rewrite <- Ib. discriminate.
Qed.

(** The type of a number in a region is total on well-formed metadata; a type other than UNKNOWN is one the number has, and
    UNKNOWN means that it has none. *)
Lemma number_type_spec s m : wf_meta m -> exists t, getNumberTypeHelper s (Some m) = Ret t /\
  (t <> UNKNOWN -> has_type m s t) /\ (t = UNKNOWN -> forall t', ~ has_type m s t').
Proof.
  intros W. unfold getNumberTypeHelper.
  destruct (matching_desc_spec s _ (wf_desc_in m UNKNOWN W)) as (g & Eg & Ig). simpl in Eg, Ig.
  change (mdesc md_general (Some m)) with (md_general m). rewrite Eg. cbn [bind]. destruct g; cbn [negb].
  2:{ exists UNKNOWN. split; auto. split; [congruence|]. intros _ t' [H _]. apply Ig in H. discriminate. }
  assert (G : accepts (md_general m) s) by (apply Ig; auto).
  destruct (first_type_spec s m type_order W) as (o & Eo & Ho).
  { unfold type_order. intros t f I. simpl in I. repeat (destruct I as [I|I]; [inv I; simpl; repeat split; auto; discriminate|]). destruct I. }
  rewrite Eo. cbn [bind]. destruct o as [t|].
  { destruct Ho as [I A]. exists t. split; auto. split.
    - intros _. split; auto. unfold type_order in I. simpl in I. repeat (destruct I as [<-|I]; [exact A|]). destruct I.
    - intros ->. exfalso. unfold type_order in I. simpl in I. repeat (destruct I as [I|I]; [discriminate|]). destruct I. }
  destruct (matching_desc_spec s _ (wf_desc_in m FIXED_LINE W)) as (fx & Ef & If). simpl in Ef, If.
  destruct (matching_desc_spec s _ (wf_desc_in m MOBILE W)) as (mb & Em & Im). simpl in Em, Im.
  change (mdesc md_fixed (Some m)) with (md_fixed m). change (mdesc md_mobile (Some m)) with (md_mobile m).
  rewrite Ef, Em. cbn [bind]. unfold mbool, mget.
  assert (Same : get_bool (md_same m) = true <-> md_same m = Some true).
  { unfold get_bool. destruct (md_same m) as [[|]|]; split; congruence. }
  assert (None' : fx = false -> (get_bool (md_same m) = false -> mb = false) -> forall t', ~ has_type m s t').
  { intros Hfx Hmb t' [_ H]. subst fx.
    pose proof (Ho t') as Ho'. destruct t'; simpl in H; try (apply Ho'; [unfold type_order; simpl; tauto|exact H]); try contradiction.
    - apply If in H. discriminate.
    - destruct H as [Hs H]. destruct (get_bool (md_same m)) eqn:Es; [apply Hs, Same; auto|]. rewrite Hmb in Im by auto. apply Im in H. discriminate.
    - destruct H as [H _]. apply If in H. discriminate. }
  destruct fx.
  - destruct (get_bool (md_same m)) eqn:Es; [|destruct mb]; eexists; (split; [reflexivity|]); (split; [intros _; split; auto; simpl|discriminate]).
    + split; [apply If; auto|]. left. apply Same; auto.
    + split; [apply If; auto|]. right. apply Im; auto.
    + apply If; auto.
  - destruct (get_bool (md_same m)) eqn:Es; [|destruct mb]; eexists; (split; [reflexivity|]).
    + split; [congruence|]. intros _. apply None'; auto. congruence.
    + split; [|discriminate]. intros _. split; auto. simpl. split; [rewrite <- Same; discriminate|]. apply Im; auto.
    + split; [congruence|]. intros _. apply None'; auto.
Qed.

(** * Look-ups in a well-formed container *)
Lemma regions_of_In C cc r : In r (regions_of C cc) -> exists l, In (cc, l) (c_cc2region C) /\ In r l /\ regions_of C cc = l.
Proof.
  unfold regions_of. destruct (assocz cc (c_cc2region C)) as [l|] eqn:E; [|intros []]. intros H. exists l. split; [apply assocz_In; auto|auto].
Qed.
Lemma hasValid_iff C cc : hasValidCountryCallingCode C cc = true <-> exists l, assocz cc (c_cc2region C) = Some l.
Proof. unfold hasValidCountryCallingCode. destruct (assocz cc (c_cc2region C)); split; eauto; [discriminate|intros [l H]; discriminate]. Qed.
Lemma hasValid_In C cc : hasValidCountryCallingCode C cc = true -> exists l, In (cc, l) (c_cc2region C) /\ regions_of C cc = l.
Proof.
  intros H. apply hasValid_iff in H as (l & H). exists l. split; [apply assocz_In; auto|]. unfold regions_of. rewrite H. auto.
Qed.

Lemma valid_region_iff C r : isValidRegionCode C r = true <-> r <> [] /\ In r (c_regions C).
Proof.
  unfold isValidRegionCode. rewrite andb_true_iff, mem_bytes_iff, negb_true_iff, is_empty_false. tauto.
Qed.

Lemma nongeo_valid_cc C cc l r : wf_container C -> In (cc, l) (c_cc2region C) -> In r l -> regions_of C cc = l ->
  exists m, getMetadataForRegionOrCallingCode C cc r = Some m /\ meta_of C cc r = Some m /\ wf_meta m /\
    (r <> nonGeoEntity -> getMetadataForRegion C r = Some m /\ getCountryCodeForValidRegion C r = cc) /\ r <> [].
Proof.
  intros W I Ir R. destruct (wf_cc _ W _ _ I) as (Hc & Hl & Hn & _ & Hr). specialize (Hr _ Ir). unfold region_ok in Hr.
  unfold getMetadataForRegionOrCallingCode, meta_of. destruct (beq_spec r nonGeoEntity) as [E|E].
  - subst r. rewrite beq_refl. destruct Hr as (m & Hm). unfold getMetadataForNonGeographicalRegion.
    assert (V : hasValidCountryCallingCode C cc = true).
    { apply hasValid_iff. unfold regions_of in R. destruct (assocz cc (c_cc2region C)); eauto. subst l. destruct Ir. }
    rewrite V, Hm. exists m. split; [auto|]. split; [auto|]. split; [eapply (wf_nongeo _ W); apply assocz_In; eauto|].
    split; [congruence|discriminate].
  - destruct (beq_spec nonGeoEntity r) as [E'|_]; [congruence|]. destruct Hr as (Hs & m & Hm & Hcc). unfold getMetadataForRegion.
    destruct (wf_supported _ W _ Hs) as (Hne & _ & _).
    assert (V : isValidRegionCode C r = true) by (apply valid_region_iff; auto). rewrite V, Hm. exists m.
    split; [auto|]. split; [auto|]. split; [eapply (wf_region _ W), assocb_In; eauto|]. split; [|auto]. intros _. split; auto.
    unfold getCountryCodeForValidRegion, getMetadataForRegion. rewrite V, Hm. unfold mcc, mget. rewrite Hcc. auto.
Qed.

Lemma main_meta_ok C cc : wf_container C -> hasValidCountryCallingCode C cc = true -> exists m, main_meta C cc = Some m /\ wf_meta m /\
  In (GetRegionCodeForCountryCode C cc) (regions_of C cc).
Proof.
  intros W H. apply hasValid_In in H as (l & I & R). unfold main_meta, GetRegionCodeForCountryCode. rewrite R.
  destruct l as [|r l]; [destruct (wf_cc _ W _ _ I) as (_ & N & _); congruence|].
  destruct (nongeo_valid_cc C cc (r :: l) r W I (or_introl eq_refl) R) as (m & E & _ & Wm & _). exists m. split; [exact E|]. split; auto. left; auto.
Qed.

(** * Possible numbers *)
Lemma possible_type_spec C n t : wf_container C ->
  exists v, IsPossibleNumberForTypeWithReason C n t = Ret v /\
    if hasValidCountryCallingCode C (cc_of n)
    then exists m, main_meta C (cc_of n) = Some m /\ classified (allowed m t) (local_only m t) (Z.of_nat (length (GetNationalSignificantNumber n))) v
    else v = INVALID_COUNTRY_CODE.
Proof.
  intros W. unfold IsPossibleNumberForTypeWithReason. change (get_cc n) with (cc_of n).
  destruct (hasValidCountryCallingCode C (cc_of n)) eqn:E; cbn [negb]; [|eauto].
  destruct (main_meta_ok C _ W E) as (m & Em & Wm & _). fold (main_meta C (cc_of n)). rewrite Em.
  destruct (testNumberLength_spec m t (GetNationalSignificantNumber n) Wm) as (v & Ev & Hv). eauto.
Qed.
Lemma possible_spec C n : wf_container C -> IsPossibleNumberWithReason C n = IsPossibleNumberForTypeWithReason C n UNKNOWN.
Proof.
  intros W. unfold IsPossibleNumberForTypeWithReason, IsPossibleNumberWithReason.
  destruct (hasValidCountryCallingCode C (get_cc n)) eqn:E; cbn [negb]; [|auto].
  destruct (main_meta_ok C _ W E) as (m & Em & Wm & _). fold (main_meta C (get_cc n)). rewrite Em.
  destruct (wf_general _ Wm) as (d & Ed & _ & _ & Np). unfold mdesc, mget. rewrite Ed.
  destruct (get_d_pattern (Some d)); [congruence|]. reflexivity.
Qed.

(** * Regions and validity *)
Lemma region_list_spec C s l : wf_container C -> (forall r, In r l -> exists m, getMetadataForRegion C r = Some m /\ wf_meta m) ->
  exists r, getRegionCodeForNumberFromRegionList C s l = Ret r /\
    ((r = [] /\ forall r', In r' l -> ~ claims C s r') \/
     (exists pre post, l = pre ++ r :: post /\ claims C s r /\ forall r', In r' pre -> ~ claims C s r')).
Proof.
  intros W. induction l as [|r l IH]; intros H; cbn [getRegionCodeForNumberFromRegionList].
  - exists []. split; auto.
  - destruct IH as (r0 & E0 & H0); [intros; apply H; right; auto|].
    destruct (H r (or_introl eq_refl)) as (m & Em & Wm). rewrite Em. unfold mbytes, mget.
    assert (Skip : ~ claims C s r -> exists r1, Ret r0 = Ret r1 /\
       ((r1 = [] /\ forall r', In r' (r :: l) -> ~ claims C s r') \/
        (exists pre post, r :: l = pre ++ r1 :: post /\ claims C s r1 /\ forall r', In r' pre -> ~ claims C s r'))).
    { intros NC. exists r0. split; auto. destruct H0 as [[-> H0]|(pre & post & -> & H1 & H2)].
      - left. split; auto. intros r' [<-|I]; auto.
      - right. exists (r :: pre), post. split; auto. split; auto. intros r' [<-|I]; auto. }
    assert (Take : claims C s r -> exists r1, Ret r = Ret r1 /\
       ((r1 = [] /\ forall r', In r' (r :: l) -> ~ claims C s r') \/
        (exists pre post, r :: l = pre ++ r1 :: post /\ claims C s r1 /\ forall r', In r' pre -> ~ claims C s r'))).
    { intros CC. exists r. split; auto. right. exists [], l. split; [auto|]. split; [auto|]. intros r' []. }
    destruct (is_empty (get_bytes (md_leading m))) eqn:Le; cbn [negb].
    + apply is_empty_iff in Le. destruct (number_type_spec s m Wm) as (t & Et & T1 & T2). rewrite Et. cbn [bind].
      destruct (ptype_eqb t UNKNOWN) eqn:Ht; cbn [negb].
      * rewrite E0. apply Skip. intros (m' & Em' & [[? _]|[_ (t' & Ht')]]); rewrite Em in Em'; inv Em'; [congruence|].
        eapply T2; [|exact Ht']. destruct t; try discriminate; auto.
      * apply Take. exists m. split; auto. right. split; auto. exists t. apply T1. intros ->. discriminate.
    + apply is_empty_false in Le. destruct (compiles_must _ (wf_leading _ Wm)) as (x & Ex & Ec). rewrite Ex. cbn [bind].
      destruct (re_match x s) eqn:Er.
      * apply Take. exists m. split; auto. left. split; auto. exists x. auto.
      * rewrite E0. apply Skip. intros (m' & Em' & [[_ (y & Ey & My)]|[? _]]); rewrite Em in Em'; inv Em'; [|congruence].
        rewrite Ec in Ey. inv Ey. congruence.
Qed.

Lemma region_for_number_spec C n : wf_container C -> exists r, GetRegionCodeForNumber C n = Ret r /\
  (r = [] \/ In r (regions_of C (cc_of n))) /\
  ((2 <= length (regions_of C (cc_of n)))%nat ->
     (r = [] /\ forall r', In r' (regions_of C (cc_of n)) -> ~ claims C (GetNationalSignificantNumber n) r') \/
     (exists pre post, regions_of C (cc_of n) = pre ++ r :: post /\ claims C (GetNationalSignificantNumber n) r /\
        forall r', In r' pre -> ~ claims C (GetNationalSignificantNumber n) r')) /\
  (forall r1, regions_of C (cc_of n) = [r1] -> r = r1).
Proof.
  intros W. unfold GetRegionCodeForNumber. change (get_cc n) with (cc_of n).
  destruct (regions_of C (cc_of n)) as [|r1 [|r2 l]] eqn:E.
  - exists []. split; auto. split; auto. split; [simpl; lia|discriminate].
  - exists r1. split; auto. split; [right; left; auto|]. split; [simpl; lia|]. congruence.
  - destruct (region_list_spec C (GetNationalSignificantNumber n) (r1 :: r2 :: l) W) as (r & Er & Hr).
    { intros r I. rewrite <- E in I. apply regions_of_In in I as (l0 & I0 & Ir & R). rewrite R in E. subst l0.
      destruct (nongeo_valid_cc C _ _ r W I0 Ir R) as (m & _ & _ & Wm & Hm & _). exists m. split; auto. apply Hm.
      intros ->. destruct (wf_cc _ W _ _ I0) as (_ & _ & _ & Hng & _). specialize (Hng Ir). discriminate. }
    exists r. split; [exact Er|]. split; [|split; [auto|discriminate]].
    destruct Hr as [[-> _]|(pre & post & Hl & _)]; [left; auto|right]. rewrite Hl. apply in_or_app. right. left. auto.
Qed.

(** Validity for a region, for any region that has metadata. *)
Lemma valid_for_region_spec C n r : wf_container C -> exists b, IsValidNumberForRegion C n r = Ret b /\
  (b = true <-> exists m t, getMetadataForRegionOrCallingCode C (cc_of n) r = Some m /\
     (r <> nonGeoEntity -> getCountryCodeForValidRegion C r = cc_of n) /\ has_type m (GetNationalSignificantNumber n) t).
Proof.
  intros W. unfold IsValidNumberForRegion. change (get_cc n) with (cc_of n).
  destruct (getMetadataForRegionOrCallingCode C (cc_of n) r) as [m|] eqn:E.
  2:{ exists false. split; auto. split; [discriminate|]. intros (m & t & H & _). discriminate. }
  assert (Wm : wf_meta m).
  { unfold getMetadataForRegionOrCallingCode in E. destruct (beq nonGeoEntity r).
    - unfold getMetadataForNonGeographicalRegion in E. destruct (hasValidCountryCallingCode C (cc_of n)); [|discriminate].
      eapply (wf_nongeo _ W). apply assocz_In. eauto.
    - unfold getMetadataForRegion in E. destruct (isValidRegionCode C r); [|discriminate]. eapply (wf_region _ W), assocb_In; eauto. }
  destruct (number_type_spec (GetNationalSignificantNumber n) m Wm) as (t & Et & T1 & T2).
  assert (U : ptype_eqb t UNKNOWN = false <-> t <> UNKNOWN) by (destruct t; simpl; split; congruence).
  destruct (negb (beq nonGeoEntity r) && negb (cc_of n =? getCountryCodeForValidRegion C r)%Z) eqn:B.
  - exists false. split; auto. split; [discriminate|]. intros (m' & t' & _ & H & _). apply andb_true_iff in B as [B1 B2].
    apply negb_true_iff, beq_neq in B1. apply negb_true_iff, Z.eqb_neq in B2. rewrite H in B2; auto; congruence.
  - rewrite Et. cbn [bind]. eexists. split; [reflexivity|]. rewrite negb_true_iff, U. split.
    + intros Ht. exists m, t. split; auto. split; auto. intros Hr. apply andb_false_iff in B as [B|B].
      * apply negb_false_iff, beq_eq in B. congruence.
      * apply negb_false_iff, Z.eqb_eq in B. auto.
    + intros (m' & t' & Em & _ & Ht') ->. inv Em. eapply T2; eauto.
Qed.

Lemma valid_spec C n : wf_container C -> exists r b, GetRegionCodeForNumber C n = Ret r /\ IsValidNumberForRegion C n r = Ret b /\ IsValidNumber C n = Ret b.
Proof.
  intros W. destruct (region_for_number_spec C n W) as (r & Er & _). destruct (valid_for_region_spec C n r W) as (b & Eb & _).
  exists r, b. unfold IsValidNumber. rewrite Er. cbn [bind]. auto.
Qed.

(** A region found for a number has the number's calling code. *)
Lemma found_region_meta C n r : wf_container C -> GetRegionCodeForNumber C n = Ret r -> r <> [] ->
  exists m, getMetadataForRegionOrCallingCode C (cc_of n) r = Some m /\ meta_of C (cc_of n) r = Some m /\ wf_meta m /\
    (r <> nonGeoEntity -> getCountryCodeForValidRegion C r = cc_of n) /\ In r (regions_of C (cc_of n)).
Proof.
  intros W E N. destruct (region_for_number_spec C n W) as (r' & Er & [H|H] & _); rewrite E in Er; inv Er; [congruence|].
  pose proof H as I. apply regions_of_In in H as (l & Il & Ir & R).
  destruct (nongeo_valid_cc C _ l r' W Il Ir R) as (m & E1 & E2 & Wm & H & _). exists m. split; [auto|]. split; [auto|]. split; [auto|]. split; [apply H|auto].
Qed.

Lemma no_meta_nil C cc : wf_container C -> getMetadataForRegionOrCallingCode C cc [] = None.
Proof. reflexivity. Qed.

Lemma type_valid_spec C n : wf_container C -> exists t b, GetNumberType C n = Ret t /\ IsValidNumber C n = Ret b /\ (b = true <-> t <> UNKNOWN) /\
  (b = true -> exists r m, GetRegionCodeForNumber C n = Ret r /\ r <> [] /\ In r (regions_of C (cc_of n)) /\ meta_of C (cc_of n) r = Some m /\
     wf_meta m /\ has_type m (GetNationalSignificantNumber n) t).
Proof.
  intros W. destruct (valid_spec C n W) as (r & b & Er & Eb & Ev). unfold GetNumberType. rewrite Er. cbn [bind].
  destruct (list_eq_dec N.eq_dec r []) as [->|Nr].
  - change (get_cc n) with (cc_of n). rewrite no_meta_nil by auto. exists UNKNOWN, b. split; [auto|]. split; [auto|].
    assert (Bf : b = true -> False).
    { intros ->. destruct (valid_for_region_spec C n [] W) as (b' & Eb' & H). rewrite Eb in Eb'. inv Eb'.
      destruct (proj1 H eq_refl) as (m & t & Em & _). discriminate. }
    split; [split; [intros B; destruct (Bf B)|congruence]|]. intros B; destruct (Bf B).
  - destruct (found_region_meta C n r W Er Nr) as (m & Em & Em' & Wm & Hcc & Ir). change (get_cc n) with (cc_of n). rewrite Em.
    destruct (number_type_spec (GetNationalSignificantNumber n) m Wm) as (t & Et & T1 & T2). exists t, b. split; auto. split; auto.
    destruct (valid_for_region_spec C n r W) as (b' & Eb' & H). rewrite Eb in Eb'. inv Eb'.
    assert (BT : b' = true <-> t <> UNKNOWN).
    { rewrite H. split.
      - intros (m' & t' & Em2 & _ & Ht') ->. rewrite Em in Em2. inv Em2. eapply T2; eauto.
      - intros Ht. exists m, t. auto. }
    split; auto. intros B. exists r, m. split; [auto|]. split; [auto|]. split; [auto|]. split; [auto|]. split; [auto|]. apply T1, BT. auto.
Qed.

Lemma accepts_allowed m s t : wf_meta m -> has_type m s t -> allowed m t (Z.of_nat (length s)) /\ allowed m UNKNOWN (Z.of_nat (length s)).
Proof.
  intros W [G T].
  assert (A : forall d, accepts (Some d) s -> has_numbers d /\ (d_len d = [] \/ In (Z.of_nat (length s)) (d_len d))).
  { intros d (x & E & H & _). inv E. split; auto. intros E. rewrite E in H. destruct H as [H|[H|[]]]; [discriminate|lia]. }
  destruct (wf_general _ W) as (g & Eg & Ng & Ng' & _). rewrite Eg in G. destruct (A _ G) as [_ Ag].
  assert (Lg : In (Z.of_nat (length s)) (d_len g)) by (destruct Ag; [congruence|auto]).
  assert (L : forall d, accepts (Some d) s -> has_numbers d /\ In (Z.of_nat (length s)) (lengths_of m d)).
  { intros d H. destruct (A _ H) as [H1 H2]. split; auto. unfold lengths_of. rewrite Eg. destruct (d_len d); auto. destruct H2; [congruence|auto]. }
  assert (D : forall o, accepts o s -> exists d, o = Some d /\ has_numbers d /\ In (Z.of_nat (length s)) (lengths_of m d)).
  { intros o H. pose proof H as (x & E & _). subst o. exists x. split; auto. }
  split.
  - destruct t; simpl in T; try (apply D; exact T); try contradiction; [apply D; apply T|]. left. apply D. apply T.
  - simpl. exists g. split; [auto|]. apply L; auto.
Qed.

Lemma classified_possible ok loc l v : classified ok loc l v -> (exists k, ok k) -> ok l \/ loc l -> is_possible_result v = true.
Proof.
  intros H E D. destruct v; simpl in *; auto; exfalso.
  - destruct H as (_ & A & B). destruct D as [D|D]; auto. specialize (B _ D). lia.
  - destruct H as [H|(A & B & _)]; [auto|]. destruct D; auto.
  - destruct H as (_ & A & B). destruct D as [D|D]; auto. specialize (B _ D). lia.
Qed.

Lemma local_exists m t l : wf_meta m -> local_only m t l -> exists k, allowed m t k.
Proof.
  intros W H.
  assert (G : forall d, wf_desc (Some d) -> exists k, In k (lengths_of m d)).
  { intros d Wd. destruct (lengths_or_general_spec m d W Wd) as (_ & N & _). destruct (lengths_of m d) as [|k ?]; [congruence|exists k; left; auto]. }
  assert (S : forall t, t <> FIXED_LINE_OR_MOBILE -> (exists d, getNumberDescByType (Some m) t = Some d /\ has_numbers d /\ In l (d_local d)) ->
    exists k d, getNumberDescByType (Some m) t = Some d /\ has_numbers d /\ In k (lengths_of m d)).
  { intros t' _ (d & E & Hd & _). pose proof (wf_desc_in m t' W) as Wd. rewrite E in Wd. destruct (G d Wd) as (k & K). exists k, d. auto. }
  destruct t; simpl in *; try (apply (S _ ltac:(discriminate) H)).
  { exact (S FIXED_LINE ltac:(discriminate) H). } { exact (S MOBILE ltac:(discriminate) H). }
  { destruct H as [H|H].
    - destruct (S FIXED_LINE ltac:(discriminate) H) as (k & d & K). exists k. left. eauto.
    - destruct (S MOBILE ltac:(discriminate) H) as (k & d & K). exists k. right. eauto. }
  all: match goal with |- exists k d, ?x = Some d /\ _ => idtac end.
  { exact (S TOLL_FREE ltac:(discriminate) H). } { exact (S PREMIUM_RATE ltac:(discriminate) H). } { exact (S SHARED_COST ltac:(discriminate) H). }
  { exact (S VOIP ltac:(discriminate) H). } { exact (S PERSONAL_NUMBER ltac:(discriminate) H). } { exact (S PAGER ltac:(discriminate) H). }
  { exact (S UAN ltac:(discriminate) H). } { exact (S VOICEMAIL ltac:(discriminate) H). } { exact (S UNKNOWN ltac:(discriminate) H). }
Qed.

Lemma regions_valid C cc r : In r (regions_of C cc) -> hasValidCountryCallingCode C cc = true.
Proof. unfold regions_of, hasValidCountryCallingCode. destruct (assocz cc (c_cc2region C)); [auto|intros []]. Qed.

(** A number of type [t] whose length fits the main region's lengths for a type [u] is possible for [u]. *)
Lemma valid_possible_for C n u : wf_container C -> IsValidNumber C n = Ret true ->
  (forall m, main_meta C (cc_of n) = Some m -> let l := Z.of_nat (length (GetNationalSignificantNumber n)) in allowed m u l \/ local_only m u l) ->
  IsPossibleNumberForType C n u = Ret true.
Proof.
  intros W V H. destruct (type_valid_spec C n W) as (t & b & Et & Eb & Hb & HB). rewrite V in Eb. inv Eb.
  destruct (HB eq_refl) as (r & m & Er & Nr & Ir & Em & Wm & Ht).
  destruct (possible_type_spec C n u W) as (v & Ev & Hv). rewrite (regions_valid _ _ _ Ir) in Hv.
  destruct Hv as (mm & Emm & Cl). specialize (H _ Emm). cbn zeta in H.
  unfold IsPossibleNumberForType. rewrite Ev. cbn [bind]. f_equal. eapply classified_possible; eauto.
  destruct H as [H|H]; [eauto|]. destruct (main_meta_ok C (cc_of n) W (regions_valid _ _ _ Ir)) as (m' & E' & W' & _).
  rewrite Emm in E'. inv E'. eapply local_exists; eauto.
Qed.

Lemma valid_possible C n : wf_container C -> lengths_nested C -> IsValidNumber C n = Ret true -> IsPossibleNumber C n = Ret true.
Proof.
  intros W L V. assert (P : IsPossibleNumberForType C n UNKNOWN = Ret true).
  { apply valid_possible_for; auto. intros mm Emm. cbn zeta.
    destruct (type_valid_spec C n W) as (t & b & Et & Eb & Hb & HB). rewrite V in Eb. inv Eb.
    destruct (HB eq_refl) as (r & m & Er & Nr & Ir & Em & Wm & Ht).
    pose proof Ir as I. apply regions_of_In in I as (l & Il & Irl & _). eapply L; eauto. eapply accepts_allowed; eauto. }
  unfold IsPossibleNumber. rewrite possible_spec by auto. exact P.
Qed.

(** * Truncation *)
Definition cut (n : phone) (k : nat) : phone := set_nn n (Some (nn_of n / 10 ^ N.of_nat k)).

Lemma cut_S n k : nn_of n / 10 ^ N.of_nat k / 10 = nn_of n / 10 ^ N.of_nat (S k).
Proof. rewrite N.div_div by (try apply N.pow_nonzero; discriminate). f_equal. rewrite Nat2N.inj_succ, N.pow_succ_r'. apply N.mul_comm. Qed.
Lemma valid_total C n : wf_container C -> exists b, IsValidNumber C n = Ret b.
Proof. intros W. destruct (valid_spec C n W) as (r & b & _ & _ & H). eauto. Qed.
Lemma possible_total C n : wf_container C -> exists v, IsPossibleNumberWithReason C n = Ret v.
Proof. intros W. rewrite possible_spec by auto. destruct (possible_type_spec C n UNKNOWN W) as (v & H & _). eauto. Qed.

Lemma valid_set_same C n : IsValidNumber C (set_nn n (Some (nn_of n))) = IsValidNumber C n.
Proof. reflexivity. Qed.

Lemma truncate_loop_spec C n f : wf_container C -> forall k, nn_of n / 10 ^ N.of_nat k <> 0 -> nn_of n / 10 ^ N.of_nat k < 10 ^ N.of_nat f ->
  exists o, truncate_loop C f (cut n k) (nn_of n / 10 ^ N.of_nat k) = Ret o /\
  match o with
  | Some v => exists j, (k <= j)%nat /\ v = nn_of n / 10 ^ N.of_nat j /\ IsValidNumber C (cut n j) = Ret true /\
                forall i, (k <= i < j)%nat -> IsValidNumber C (cut n i) = Ret false
  | None => exists j, (k < j)%nat /\ (forall i, (k <= i < j)%nat -> IsValidNumber C (cut n i) = Ret false) /\
              (nn_of n / 10 ^ N.of_nat j = 0 \/ IsPossibleNumberWithReason C (cut n j) = Ret TOO_SHORT)
  end.
Proof.
  intros W. induction f as [|f IH]; intros k N0 Lf; cbn [truncate_loop].
  { exfalso. change (10 ^ N.of_nat 0) with 1 in Lf. revert N0 Lf. generalize (nn_of n / 10 ^ N.of_nat k). intros; lia. }
  destruct (valid_total C (cut n k) W) as (b & Eb). rewrite Eb. cbn [bind]. destruct b.
  { exists (Some (nn_of n / 10 ^ N.of_nat k)). split; auto. exists k. repeat split; auto. intros; lia. }
  rewrite cut_S. set (c := set_nn (cut n k) (Some (nn_of n / 10 ^ N.of_nat (S k)))). assert (Ec : c = cut n (S k)) by reflexivity. rewrite Ec. clear c Ec.
  destruct (possible_total C (cut n (S k)) W) as (v & Ev). rewrite Ev. cbn [bind].
  assert (Bk : forall i, (k <= i < S k)%nat -> IsValidNumber C (cut n i) = Ret false) by (intros i Hi; replace i with k by lia; auto).
  destruct (vresult_eqb v TOO_SHORT || (nn_of n / 10 ^ N.of_nat (S k) =? 0)) eqn:S1.
  - exists None. split; auto. exists (S k). split; [lia|]. split; auto. apply orb_true_iff in S1 as [S1|S1].
    + right. destruct v; try discriminate. auto.
    + left. apply N.eqb_eq in S1. auto.
  - apply orb_false_iff in S1 as [_ S1]. apply N.eqb_neq in S1. destruct (IH (S k)) as (o & Eo & Ho); auto.
    { rewrite <- cut_S. rewrite Nat2N.inj_succ, N.pow_succ_r' in Lf. apply N.div_lt_upper_bound; [discriminate|exact Lf]. }
    exists o. split; auto. destruct o as [x|].
    + destruct Ho as (j & Hj & Ej & Vj & Bj). exists j. split; [lia|]. split; auto. split; auto. intros i Hi.
      destruct (Nat.eq_dec i k) as [->|]; auto. apply Bj. lia.
    + destruct Ho as (j & Hj & Bj & Sj). exists j. split; [lia|]. split; auto. intros i Hi.
      destruct (Nat.eq_dec i k) as [->|]; auto. apply Bj. lia.
Qed.

Lemma truncate_spec C n : wf_container C -> exists b n', TruncateTooLongNumber C n = Ret (b, n') /\
  if b then exists k, IsValidNumber C n' = Ret true /\ (k = 0%nat -> n' = n) /\ (k <> 0%nat -> n' = cut n k) /\
              forall i, (i < k)%nat -> IsValidNumber C (cut n i) = Ret false
  else n' = n /\ exists k, (0 < k)%nat /\ (forall i, (i < k)%nat -> IsValidNumber C (cut n i) = Ret false) /\
              (nn_of n / 10 ^ N.of_nat k = 0 \/ IsPossibleNumberWithReason C (cut n k) = Ret TOO_SHORT).
Proof.
  intros W. unfold TruncateTooLongNumber. destruct (valid_total C n W) as (b & Eb). rewrite Eb. cbn [bind]. destruct b.
  { exists true, n. split; auto. exists 0%nat. split; auto. split; auto. split; [congruence|intros; lia]. }
  assert (E0 : IsValidNumber C (cut n 0) = Ret false).
  { unfold cut. change (10 ^ N.of_nat 0) with 1. rewrite N.div_1_r, valid_set_same. auto. }
  change (get_nn n) with (nn_of n). assert (E1 : nn_of n / 10 = nn_of n / 10 ^ N.of_nat 1) by reflexivity. rewrite E1.
  change (set_nn n (Some (nn_of n / 10 ^ N.of_nat 1))) with (cut n 1).
  destruct (possible_total C (cut n 1) W) as (v & Ev). rewrite Ev. cbn [bind].
  assert (B1 : forall i, (i < 1)%nat -> IsValidNumber C (cut n i) = Ret false) by (intros i Hi; replace i with 0%nat by lia; auto).
  destruct (vresult_eqb v TOO_SHORT || (nn_of n / 10 ^ N.of_nat 1 =? 0)) eqn:S1.
  { exists false, n. split; auto. split; auto. exists 1%nat. split; [lia|]. split; auto. apply orb_true_iff in S1 as [S1|S1].
    - right. destruct v; try discriminate. auto.
    - left. apply N.eqb_eq in S1. auto. }
  apply orb_false_iff in S1 as [_ S1]. apply N.eqb_neq in S1.
  destruct (truncate_loop_spec C n (S (N.size_nat (nn_of n / 10 ^ N.of_nat 1))) W 1%nat S1 (size_nat_pow _)) as (o & Eo & Ho).
  rewrite Eo. cbn [bind]. destruct o as [x|].
  - destruct Ho as (j & Hj & -> & Vj & Bj). exists true, (cut n j). split; auto. exists j. split; auto. split; [lia|]. split; auto.
    intros i Hi. destruct i; auto. apply Bj. lia.
  - destruct Ho as (j & Hj & Bj & Sj). exists false, n. split; auto. split; auto. exists j. split; [lia|]. split; auto.
    intros i Hi. destruct i; auto. apply Bj. lia.
Qed.
