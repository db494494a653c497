(** Properties C72 and C73: example numbers, and the package-global metadata. *)
From Verif Require Import Base BaseFacts Regex RegexSpec Consts Types Normalize NormalizeSpec Validate Format Parse NumberSpec MetaSpec ValidateSpec ValidateFacts MetaFacts Shipped
  FormatMore PropsValidate PropsFormat Session.
From Coq Require Import Permutation.

(** * C72 *)
(** The type asked for; lines that are fixed or mobile count as both, and asking for those gives a fixed line. *)
Definition suits (asked got : ptype) : Prop := match asked with
  | FIXED_LINE => got = FIXED_LINE \/ got = FIXED_LINE_OR_MOBILE
  | MOBILE => got = MOBILE \/ got = FIXED_LINE_OR_MOBILE
  | FIXED_LINE_OR_MOBILE => got = FIXED_LINE \/ got = FIXED_LINE_OR_MOBILE
  | t => got = t
  end.
Definition suits_b (asked got : ptype) : bool := match asked with
  | FIXED_LINE | FIXED_LINE_OR_MOBILE => ptype_eqb got FIXED_LINE || ptype_eqb got FIXED_LINE_OR_MOBILE
  | MOBILE => ptype_eqb got MOBILE || ptype_eqb got FIXED_LINE_OR_MOBILE
  | t => ptype_eqb got t
  end.
Lemma ptype_eqb_eq a b : ptype_eqb a b = true -> a = b.
Proof. destruct a, b; try discriminate; reflexivity. Qed.
Lemma suits_ok a g : suits_b a g = true -> suits a g.
Proof. destruct a; cbn [suits_b suits]; rewrite ?orb_true_iff; intros H; try (destruct H as [H|H]; [left|right]); apply ptype_eqb_eq; exact H. Qed.
(** The example the metadata has for a type. *)
Definition example_of (m : meta) (t : ptype) : bytes := get_d_example (match t with FIXED_LINE_OR_MOBILE => md_fixed m | _ => desc_for m t end).
(** A number of the region, of the type asked for. *)
Definition good_example (C : container) (r : bytes) (t : ptype) (n : phone) : Prop :=
  IsValidNumberForRegion C n r = Ret true /\ exists t', GetNumberType C n = Ret t' /\ suits t t'.
Definition good_b (C : container) (r : bytes) (t : ptype) (n : phone) : bool :=
  match IsValidNumberForRegion C n r, GetNumberType C n with Ret true, Ret t' => suits_b t t' | _, _ => false end.
Lemma good_ok C r t n : good_b C r t n = true -> good_example C r t n.
Proof.
  unfold good_b, good_example. destruct (IsValidNumberForRegion C n r) as [[]| |]; try discriminate. destruct (GetNumberType C n) as [t'| |]; try discriminate.
  intros H. split; [reflexivity|]. exists t'. split; [reflexivity|]. apply suits_ok. exact H.
Qed.
Definition asked_types : list ptype := [FIXED_LINE; MOBILE; TOLL_FREE; PREMIUM_RATE; SHARED_COST; VOIP; PERSONAL_NUMBER; PAGER; UAN; VOICEMAIL; UNKNOWN].
Definition example_ok (C : container) (r : bytes) (m : meta) (t : ptype) : bool :=
  match GetExampleNumberForTypeInRegion C r t with
  | Ret (Some n) => negb (is_empty (example_of m t)) && good_b C r t n
  | Ret None => is_empty (example_of m t)
  | _ => false
  end.
Lemma examples_checked : forallb (fun rm => forallb (example_ok shipped (fst rm) (snd rm)) asked_types) (c_region shipped) = true.
Proof. vm_cast_no_check (eq_refl true). Qed.
(** C72: for every region and type the example number of the metadata, if it has one, is returned as a valid number of that
    region and type; without one the result is nil. *)
Theorem C72_in_region : forall r m t, assocb r (c_region shipped) = Some m -> exists o, GetExampleNumberForTypeInRegion shipped r t = Ret o /\
  match o with
  | Some n => example_of m t <> [] /\ good_example shipped r t n
  | None => example_of m t = []
  end.
Proof.
  intros r m t E. assert (H : t <> FIXED_LINE_OR_MOBILE -> example_ok shipped r m t = true).
  { intros Nt. pose proof examples_checked as H. rewrite forallb_forall in H. specialize (H (r, m) (assocb_In _ _ _ E)). rewrite forallb_forall in H. apply H.
    unfold asked_types. destruct t; try congruence; cbn [In]; tauto. }
  assert (G : forall t0, example_ok shipped r m t0 = true -> exists o, GetExampleNumberForTypeInRegion shipped r t0 = Ret o /\
     match o with Some n => example_of m t0 <> [] /\ good_example shipped r t0 n | None => example_of m t0 = [] end).
  { intros t0 Q. unfold example_ok in Q. destruct (GetExampleNumberForTypeInRegion shipped r t0) as [[n|]| |]; try discriminate.
    - exists (Some n). split; [reflexivity|]. apply andb_true_iff in Q as [Q1 Q2]. split; [|apply good_ok; exact Q2]. intros X. rewrite X in Q1. discriminate.
    - exists None. split; [reflexivity|]. destruct (example_of m t0); [reflexivity|discriminate]. }
  destruct (ptype_eqb t FIXED_LINE_OR_MOBILE) eqn:Et.
  - apply ptype_eqb_eq in Et. subst t. assert (Q : example_ok shipped r m FIXED_LINE = true) by (pose proof examples_checked as Q; rewrite forallb_forall in Q; specialize (Q (r, m) (assocb_In _ _ _ E)); rewrite forallb_forall in Q; apply Q; left; reflexivity). exact (G FIXED_LINE Q).
  - apply G, H. intros ->. discriminate.
Qed.
Print Assumptions C72_in_region.
(** C72: every supported region has an example of a fixed line, so GetExampleNumber never gives nil there. *)
Lemma regions_known : forallb (fun r => is_some (assocb r (c_region shipped))) (c_regions shipped) = true.
Proof. vm_compute. reflexivity. Qed.
Lemma fixed_examples : forallb (fun rm => negb (is_empty (example_of (snd rm) FIXED_LINE))) (c_region shipped) = true.
Proof. vm_compute. reflexivity. Qed.
Lemma region_meta r : In r (c_regions shipped) -> exists m, assocb r (c_region shipped) = Some m.
Proof. intros I. pose proof regions_known as H. rewrite forallb_forall in H. specialize (H _ I). destruct (assocb r (c_region shipped)) as [m|]; [eauto|discriminate]. Qed.
Theorem C72_example : forall r, In r (c_regions shipped) -> exists n, GetExampleNumber shipped r = Ret (Some n) /\ good_example shipped r FIXED_LINE n.
Proof.
  intros r I. destruct (region_meta r I) as (m & E). destruct (C72_in_region r m FIXED_LINE E) as (o & Eo & H). destruct o as [n|]; [exists n; split; [exact Eo|apply H]|].
  pose proof fixed_examples as Q. rewrite forallb_forall in Q. specialize (Q (r, m) (assocb_In _ _ _ E)). cbn [snd] in Q. rewrite H in Q. discriminate.
Qed.
Print Assumptions C72_example.
(** C72: an invalid example is never a valid number, whatever the metadata; it is a proper beginning of the fixed line example. *)
Theorem C72_invalid : forall C r n, GetInvalidExampleNumber C r = Ret (Some n) -> IsValidNumber C n = Ret false /\
  exists m a b, getMetadataForRegion C r = Some m /\ example_of m FIXED_LINE = a ++ b /\ b <> [] /\ (2 <= length a)%nat /\ Parse C a r = Ret (n, None).
Proof.
  intros C r n H. unfold GetInvalidExampleNumber in H. destruct (isValidRegionCode C r); cbn [negb] in H; [|discriminate].
  destruct (getMetadataForRegion C r) as [m|]; [|discriminate]. cbn [getNumberDescByType mdesc mget] in H. change (get_d_example (md_fixed m)) with (example_of m FIXED_LINE) in H.
  destruct (is_empty (example_of m FIXED_LINE)) eqn:E; [discriminate|]. set (ex := example_of m FIXED_LINE) in *.
  assert (L : forall l, (l < length ex)%nat -> invalid_example_loop C ex r l = Ret (Some n) -> IsValidNumber C n = Ret false /\
    exists a b, ex = a ++ b /\ b <> [] /\ (2 <= length a)%nat /\ Parse C a r = Ret (n, None)).
  { induction l as [|l IH]; intros Ll Hl; [discriminate|]. cbn [invalid_example_loop] in Hl. destruct (S l <? minLengthForNSN)%nat eqn:Lm; [discriminate|]. apply Nat.ltb_ge in Lm. unfold minLengthForNSN in Lm.
    destruct (Parse C (firstn (S l) ex) r) as [[n0 [er|]]| |] eqn:P; cbn [bind] in Hl; try discriminate; [apply IH; [lia|exact Hl]|].
    destruct (IsValidNumber C n0) as [[]| |] eqn:V; cbn [bind] in Hl; try discriminate; [apply IH; [lia|exact Hl]|]. injection Hl as <-. split; [exact V|].
    exists (firstn (S l) ex), (skipn (S l) ex). split; [symmetry; apply firstn_skipn|]. split; [intros Q; apply (f_equal (@length N)) in Q; rewrite skipn_length in Q; cbn [length] in Q; lia|].
    split; [rewrite firstn_length; lia|exact P]. }
  destruct (L (length ex - 1)%nat) as (V & a & b & Q); [destruct ex; [discriminate|cbn [length]; lia]|exact H|]. split; [exact V|]. exists m, a, b. split; [reflexivity|exact Q].
Qed.
Print Assumptions C72_invalid.
Lemma invalid_checked : forallb (fun r => match GetInvalidExampleNumber shipped r with Ret (Some _) => true | _ => false end) (c_regions shipped) = true.
Proof. vm_cast_no_check (eq_refl true). Qed.
(** C72: and every supported region has one. *)
Theorem C72_invalid_exists : forall r, In r (c_regions shipped) -> exists n, GetInvalidExampleNumber shipped r = Ret (Some n).
Proof. intros r I. pose proof invalid_checked as H. rewrite forallb_forall in H. specialize (H _ I). destruct (GetInvalidExampleNumber shipped r) as [[n|]| |]; try discriminate. eauto. Qed.
Print Assumptions C72_invalid_exists.
(** C72: an example for a type from anywhere. Whatever the order in which the regions and entities are tried, there is one for
    every type but UNKNOWN, and it is a valid number of some region and of that type. *)
Lemma some_region : forallb (fun t => existsb (fun r => match assocb r (c_region shipped) with Some m => negb (is_empty (example_of m t)) | None => false end) (c_regions shipped))
  [FIXED_LINE; MOBILE; FIXED_LINE_OR_MOBILE; TOLL_FREE; PREMIUM_RATE; SHARED_COST; VOIP; PERSONAL_NUMBER; PAGER; UAN; VOICEMAIL] = true.
Proof. vm_compute. reflexivity. Qed.
Lemma no_unknown : forallb (fun m => is_empty (example_of m UNKNOWN)) (map snd (c_region shipped) ++ map snd (c_nongeo shipped)) = true.
Proof. vm_compute. reflexivity. Qed.
Lemma regions_scan t : forall l, (forall r, In r l -> In r (c_regions shipped)) -> exists o, example_in_regions shipped t l = Ret o /\
  match o with
  | Some n => exists r, In r l /\ good_example shipped r t n
  | None => forall r m, In r l -> assocb r (c_region shipped) = Some m -> example_of m t = []
  end.
Proof.
  induction l as [|r l IH]; intros Hl; cbn [example_in_regions]; [exists None; split; [reflexivity|intros r m []]|].
  destruct (region_meta r (Hl _ (or_introl eq_refl))) as (m & E). destruct (C72_in_region r m t E) as (o & Eo & H). rewrite Eo. cbn [bind]. destruct o as [n|].
  - exists (Some n). split; [reflexivity|]. exists r. split; [left; reflexivity|apply H].
  - destruct (IH ltac:(intros; apply Hl; right; auto)) as (o & Eo' & H'). exists o. split; [exact Eo'|]. destruct o as [n|].
    + destruct H' as (r' & I & G). exists r'. split; [right; exact I|exact G].
    + intros r' m' [<-|I] E'; [rewrite E in E'; injection E' as <-; exact H|exact (H' r' m' I E')].
Qed.
Theorem C72_any_order : forall t regions codes, t <> UNKNOWN -> Permutation regions (c_regions shipped) -> exists n r,
  GetExampleNumberForType shipped regions codes t = Ret (Some n) /\ In r (c_regions shipped) /\ good_example shipped r t n.
Proof.
  intros t regions codes Nt P. destruct (regions_scan t regions) as (o & Eo & H); [intros r I; eapply Permutation_in; eauto|]. unfold GetExampleNumberForType. rewrite Eo. cbn [bind]. destruct o as [n|].
  - destruct H as (r & I & G). exists n, r. split; [reflexivity|]. split; [eapply Permutation_in; eauto|exact G].
  - exfalso. pose proof some_region as Q. rewrite forallb_forall in Q. specialize (Q t). assert (It : In t [FIXED_LINE; MOBILE; FIXED_LINE_OR_MOBILE; TOLL_FREE; PREMIUM_RATE; SHARED_COST; VOIP; PERSONAL_NUMBER; PAGER; UAN; VOICEMAIL]) by (destruct t; try congruence; cbn [In]; tauto).
    specialize (Q It). apply existsb_exists in Q as (r & I & Q). destruct (assocb r (c_region shipped)) as [m|] eqn:E; [|discriminate]. rewrite (H r m) in Q; [discriminate| |exact E]. eapply Permutation_in; [apply Permutation_sym; exact P|exact I].
Qed.
Print Assumptions C72_any_order.
Theorem C72_unknown : forall regions codes, (forall r, In r regions -> In r (c_regions shipped)) -> GetExampleNumberForType shipped regions codes UNKNOWN = Ret None.
Proof.
  intros regions codes Hr. pose proof no_unknown as Q. rewrite forallb_forall in Q. assert (Q' : forall m, In m (map snd (c_region shipped) ++ map snd (c_nongeo shipped)) -> example_of m UNKNOWN = []).
  { intros m I. specialize (Q m I). destruct (example_of m UNKNOWN); [reflexivity|discriminate]. }
  clear Q. destruct (regions_scan UNKNOWN regions Hr) as (o & Eo & H). unfold GetExampleNumberForType. rewrite Eo. cbn [bind]. destruct o as [n|].
  - exfalso. assert (S : forall l, (forall r, In r l -> In r (c_regions shipped)) -> example_in_regions shipped UNKNOWN l = Ret None).
    { induction l as [|r l IH]; intros Hl; [reflexivity|]. cbn [example_in_regions]. destruct (region_meta r (Hl _ (or_introl eq_refl))) as (m & E). destruct (C72_in_region r m UNKNOWN E) as (o & E' & H0). rewrite E'. cbn [bind].
      destruct o as [n0|]; [|apply IH; intros; apply Hl; right; auto]. exfalso. apply (proj1 H0). apply Q'. apply in_or_app. left. apply in_map_iff. exists (r, m). split; [reflexivity|apply assocb_In; exact E]. }
    rewrite (S regions Hr) in Eo. discriminate.
  - clear H Eo Hr. induction codes as [|cc codes IH]; [reflexivity|]. cbn [example_in_entities]. cbn [getNumberDescByType].
    assert (E : get_d_example (mdesc md_general (getMetadataForNonGeographicalRegion shipped cc)) = []).
    { unfold getMetadataForNonGeographicalRegion. destruct (hasValidCountryCallingCode shipped cc); [|reflexivity]. destruct (assocz cc (c_nongeo shipped)) as [m|] eqn:A; [|reflexivity]. change (example_of m UNKNOWN = []). apply Q'. apply in_or_app. right. apply in_map_iff. exists (cc, m). split; [reflexivity|apply assocz_In; exact A]. }
    rewrite E. exact IH.
Qed.
Print Assumptions C72_unknown.
(** C72: each global service has an example, a valid number. *)
Theorem C72_entities : forall cc m, assocz cc (c_nongeo shipped) = Some m -> exists n, GetExampleNumberForNonGeoEntity shipped cc = Ret (Some n) /\ IsValidNumber shipped n = Ret true /\ cc_of n = cc.
Proof.
  assert (H : forallb (fun cm => match GetExampleNumberForNonGeoEntity shipped (fst cm) with Ret (Some n) => match IsValidNumber shipped n with Ret b => b | _ => false end && Z.eqb (cc_of n) (fst cm) | _ => false end) (c_nongeo shipped) = true) by (vm_cast_no_check (eq_refl true)).
  intros cc m E. rewrite forallb_forall in H. specialize (H (cc, m) (assocz_In _ _ _ E)). cbn [fst] in H. destruct (GetExampleNumberForNonGeoEntity shipped cc) as [[n|]| |]; try discriminate.
  exists n. split; [reflexivity|]. destruct (IsValidNumber shipped n) as [[]| |]; try discriminate. split; [reflexivity|]. apply Z.eqb_eq. exact H.
Qed.
Print Assumptions C72_entities.
Example C72_witness : GetExampleNumber shipped (bs "US") = Ret (Some (num 1 2015550123)) /\ GetExampleNumberForTypeInRegion shipped (bs "DE") PAGER = Ret (Some (num 49 16412345))
  /\ GetExampleNumberForTypeInRegion shipped (bs "US") PAGER = Ret None /\ GetInvalidExampleNumber shipped (bs "US") = Ret (Some (num 1 201555012))
  /\ GetExampleNumberForNonGeoEntity shipped 800 = Ret (Some (num 800 12345678)) /\ In (bs "US") (c_regions shipped).
Proof. repeat (split; [vm_compute; reflexivity|]). apply mem_bytes_iff. vm_compute. reflexivity. Qed.
(** C72: an example asked for as FIXED_LINE_OR_MOBILE need not be reported as such. *)
Theorem C72_fixed_or_mobile_refuted : exists r n, GetExampleNumberForTypeInRegion shipped r FIXED_LINE_OR_MOBILE = Ret (Some n) /\ GetNumberType shipped n = Ret FIXED_LINE.
Proof. exists (bs "DE"), (num 49 30123456). vm_compute. auto. Qed.
Print Assumptions C72_fixed_or_mobile_refuted.

(** * C73: the active metadata *)
(** Uses and restores that are nested: k restore functions exist before and k' after the sequence, and each Use in it is undone by
    its own restore function after everything within. *)
Inductive nested : nat -> list act -> nat -> Prop :=
| nested_nil k : nested k [] k
| nested_use k i l k' l' k'' : nested (S k) l k' -> nested k' l' k'' -> nested k (AUse i :: l ++ ARestore k :: l') k''.
Definition restores (s : session) : nat := length (s_restores s).
Lemma nested_restores k l k' : nested k l k' -> forall s, restores s = k ->
  s_heap (do_acts s l) = s_heap s /\ s_current (do_acts s l) = s_current s /\ (exists more, s_restores (do_acts s l) = s_restores s ++ more) /\ restores (do_acts s l) = k'.
Proof.
  induction 1 as [k|k i l k' l' k'' N1 IH1 N2 IH2]; intros s E.
  - repeat split; [exists []; rewrite app_nil_r; reflexivity|exact E].
  - unfold do_acts. cbn [fold_left]. rewrite fold_left_app. cbn [fold_left]. set (s1 := do_act s (AUse i)).
    assert (E1 : restores s1 = S k) by (unfold restores, s1; cbn [do_act s_restores]; rewrite app_length; unfold restores in E; cbn [length]; lia).
    destruct (IH1 s1 E1) as (H1 & C1 & (more & R1) & L1). unfold do_acts in *. set (s2 := fold_left do_act l s1) in *. set (s3 := do_act s2 (ARestore k)).
    assert (C3 : s_current s3 = s_current s).
    { unfold s3. cbn [do_act s_current]. rewrite R1. unfold s1. cbn [do_act s_restores]. rewrite <- app_assoc, app_nth2 by (unfold restores in E; lia). unfold restores in E. rewrite E, Nat.sub_diag. reflexivity. }
    destruct (IH2 s3 L1) as (H2 & C2 & (more2 & R2) & L2). repeat split.
    + rewrite H2. unfold s3. cbn [do_act s_heap]. rewrite H1. reflexivity.
    + rewrite C2. exact C3.
    + rewrite R2. unfold s3. cbn [do_act s_restores]. rewrite R1. unfold s1. cbn [do_act s_restores]. eexists. rewrite <- !app_assoc. reflexivity.
    + exact L2.
Qed.
(** C73: after nested uses and restores the library works with the metadata it worked with before. *)
Theorem C73_restored : forall s l k', nested (restores s) l k' -> active (do_acts s l) = active s.
Proof. intros s l k' H. destruct (nested_restores _ _ _ H s eq_refl) as (H1 & H2 & _). unfold active. rewrite H1, H2. reflexivity. Qed.
Print Assumptions C73_restored.
(** C73: in between it works with the container of the innermost Use. *)
Theorem C73_innermost : forall s i l k', nested (S (restores s)) l k' -> active (do_acts s (AUse i :: l)) = nth_error (s_heap s) i.
Proof.
  intros s i l k' H. change (do_acts s (AUse i :: l)) with (do_acts (do_act s (AUse i)) l). assert (E : restores (do_act s (AUse i)) = S (restores s)) by (unfold restores; cbn [do_act s_restores]; rewrite app_length; cbn [length]; lia).
  rewrite (C73_restored _ l k') by (rewrite E; exact H). reflexivity.
Qed.
Print Assumptions C73_innermost.
Example C73_witness : nested 0 [AUse 1; AUse 2; ARestore 1; AUse 0; ARestore 2; ARestore 0] 3.
Proof.
  apply (nested_use 0 1 [AUse 2; ARestore 1; AUse 0; ARestore 2] 3 [] 3); [|constructor].
  apply (nested_use 1 2 [] 2 [AUse 0; ARestore 2] 3); [constructor|]. apply (nested_use 2 0 [] 3 [] 3); constructor.
Qed.
(** C73: restores in another order leave a container in use that should have been replaced. *)
Theorem C73_order_refuted : exists s l, active (do_acts s l) <> active s /\ l = [AUse 1; AUse 2; ARestore 0; ARestore 1].
Proof.
  exists {| s_heap := [shipped; drop_region (bs "US") shipped]; s_current := 0; s_restores := [] |}, [AUse 1; AUse 2; ARestore 0; ARestore 1]. split; [|reflexivity].
  cbn [do_acts fold_left do_act s_heap s_current s_restores nth app active nth_error]. intros E.
  apply (f_equal (fun o => match o with Some C => mem_bytes (bs "US") (c_regions C) | None => false end)) in E. revert E. vm_compute. discriminate.
Qed.
Print Assumptions C73_order_refuted.
(** C73: GetSupportedRegions hands out the library's own map. Deleting a region from it makes the region unsupported. *)
Theorem C73_shared_map_refuted : exists C C' n, active {| s_heap := [C]; s_current := 0; s_restores := [] |} = Some C /\
  active (do_acts {| s_heap := [C]; s_current := 0; s_restores := [] |} [ADelete (bs "US")]) = Some C' /\
  Parse C (bs "6502530000") (bs "US") = Ret (n, None) /\ (exists n', Parse C' (bs "6502530000") (bs "US") = Ret (n', Some ErrInvalidCountryCode)).
Proof.
  exists shipped, (drop_region (bs "US") shipped), us. split; [reflexivity|]. split; [reflexivity|]. split; [vm_compute; reflexivity|].
  match eval vm_compute in (Parse (drop_region (bs "US") shipped) (bs "6502530000") (bs "US")) with Ret (?x, _) => exists x end. vm_compute. reflexivity.
Qed.
Print Assumptions C73_shared_map_refuted.
