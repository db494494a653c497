(** C41-C43: the metadata container and the metadata builder. *)
From Coq Require Import Lia Permutation Sorted.
From Verif Require Import Base BaseFacts Types Consts Container Builder MetadataData Shipped TableFacts SourceFacts BuildSpec TestXml.

(** * C41: NewContainer *)
Lemma map_put_lookb {V} k k' (v : V) l : assocb k (map_put beq k' v l) = if beq k k' then Some v else assocb k l.
Proof.
  unfold assocb. induction l as [|[k0 v0] l IH]; simpl; [destruct (beq k k'); reflexivity|]. destruct (beq_spec k' k0) as [->|Ne]; simpl.
  - destruct (beq_spec k k0); reflexivity.
  - destruct (beq_spec k k0) as [->|]; [|exact IH]. destruct (beq_spec k0 k'); [congruence|reflexivity].
Qed.
Lemma add_meta_fold coll : forall acc,
  (forall r, r <> nonGeoEntity -> assocb r (fst (fold_left add_meta coll acc)) = match find (fun m => beq (id_of m) r) (rev coll) with Some m => Some m | None => assocb r (fst acc) end)
  /\ (assocb nonGeoEntity (fst (fold_left add_meta coll acc)) = assocb nonGeoEntity (fst acc))
  /\ (forall k, assocz k (snd (fold_left add_meta coll acc)) = match find (fun m => beq (id_of m) nonGeoEntity && (code_of m =? k)%Z) (rev coll) with Some m => Some m | None => assocz k (snd acc) end).
Proof.
  assert (F : forall (p : meta -> bool) l m, find p (l ++ [m]) = match find p l with Some x => Some x | None => if p m then Some m else None end).
  { intros p l m. induction l as [|x l IH]; simpl; [reflexivity|]. destruct (p x); [reflexivity|exact IH]. }
  induction coll as [|m coll IH]; intros acc; cbn [fold_left rev]; [split; [|split]; reflexivity|].
  destruct (IH (add_meta acc m)) as (A & B & D). unfold add_meta in *. fold (id_of m) in *. destruct (beq_spec (id_of m) nonGeoEntity) as [E|E]; cbn [fst snd] in *.
  - split; [|split].
    + intros r Nr. rewrite A, F by exact Nr. destruct (find _ (rev coll)); [reflexivity|]. destruct (beq_spec (id_of m) r); [congruence|reflexivity].
    + rewrite B. reflexivity.
    + intros k. rewrite D, F. destruct (find _ (rev coll)); [reflexivity|]. rewrite map_put_look. change (mcc (Some m)) with (code_of m). rewrite E, beq_refl. cbn [andb]. rewrite Z.eqb_sym. destruct (code_of m =? k)%Z; reflexivity.
  - split; [|split].
    + intros r Nr. rewrite A, F by exact Nr. destruct (find _ (rev coll)); [reflexivity|]. rewrite map_put_lookb. destruct (beq_spec r (id_of m)) as [->|Ne]; [rewrite beq_refl; reflexivity|]. destruct (beq_spec (id_of m) r); [congruence|reflexivity].
    + rewrite B, map_put_lookb. destruct (beq_spec nonGeoEntity (id_of m)); [congruence|reflexivity].
    + intros k. rewrite D, F. destruct (find _ (rev coll)); [reflexivity|]. apply beq_neq in E. rewrite E. reflexivity.
Qed.
Lemma find_last {A} (p : A -> bool) (P : A -> Prop) l : (forall x, p x = true <-> P x) ->
  (exists m, find p (rev l) = Some m /\ last_with P l m) \/ (find p (rev l) = None /\ forall x, In x l -> ~ P x).
Proof.
  intros H. induction l as [|x l IH]; cbn [rev]; [right; split; [reflexivity|intros x []]|].
  assert (F : find p (rev l ++ [x]) = match find p (rev l) with Some y => Some y | None => if p x then Some x else None end).
  { clear. induction (rev l) as [|y t IH]; simpl; [reflexivity|]. destruct (p y); [reflexivity|exact IH]. }
  rewrite F. destruct IH as [(m & E & (a & b & -> & Pm & Nb))|(E & Nn)]; rewrite E.
  - left. exists m. split; [reflexivity|]. exists (x :: a), b. auto.
  - destruct (p x) eqn:Px.
    + left. exists x. split; [reflexivity|]. exists [], l. split; [reflexivity|]. split; [apply H; exact Px|exact Nn].
    + right. split; [reflexivity|]. intros y [<-|Y]; [rewrite <- H; congruence|auto].
Qed.
Lemma last_with_fun {A} (P : A -> Prop) l m m' : last_with P l m -> last_with P l m' -> m = m'.
Proof.
  intros (a & b & -> & Pm & Nb) (a' & b' & E & Pm' & Nb'). revert a' E. induction a as [|x a IH]; intros [|y a'] E; simpl in E; injection E; intros; subst; auto.
  - destruct (Nb m' ltac:(apply in_or_app; right; left; reflexivity) Pm').
  - destruct (Nb' m ltac:(apply in_or_app; right; left; reflexivity) Pm).
  - apply (IH a'). assumption.
Qed.
Lemma find_last_iff {A} (p : A -> bool) (P : A -> Prop) l m : (forall x, p x = true <-> P x) -> (find p (rev l) = Some m <-> last_with P l m).
Proof.
  intros H. destruct (find_last p P l H) as [(m' & E & L)|(E & Nn)]; rewrite E.
  - split; [intros [= <-]; exact L|]. intros L'. f_equal. apply (last_with_fun P l); assumption.
  - split; [discriminate|]. intros (a & b & -> & Pm & _). exfalso. apply (Nn m); [apply in_or_app; right; left; reflexivity|exact Pm].
Qed.

(** Loading fails exactly on an empty collection, and never panics. *)
Theorem C41_empty : forall coll cc, match NewContainer coll cc with Ret _ => coll <> [] | Fail _ => coll = [] | Panic => False end.
Proof.
  intros coll cc. unfold NewContainer. destruct coll as [|m coll]; [reflexivity|]. destruct (fold_left add_meta (m :: coll) ([], [])) as [a b]. destruct (fold_left add_code cc ([], [], [])) as [[x y] z]. discriminate.
Qed.
Print Assumptions C41_empty.
(** The metadata of a region is the last entry of the collection with that id; of a non-geographical code the last entry "001" with that code. "001" itself is no region. *)
Theorem C41_metadata : forall coll cc C, NewContainer coll cc = Ret C ->
  (forall r m, assocb r (c_region C) = Some m <-> r <> bs "001" /\ last_with (fun m => id_of m = r) coll m)
  /\ (forall k m, assocz k (c_nongeo C) = Some m <-> last_with (fun m => id_of m = bs "001" /\ code_of m = k) coll m).
Proof.
  intros coll cc C E. unfold NewContainer in E. destruct coll as [|m0 coll0]; [discriminate|]. set (coll := m0 :: coll0) in *. clearbody coll. destruct (add_meta_fold coll ([], [])) as (A & B & D).
  destruct (fold_left add_meta coll ([], [])) as [a b]. destruct (fold_left add_code cc ([], [], [])) as [[x y] z]. apply ret_inj in E. subst C. cbn [c_region c_nongeo fst snd] in *. split.
  - intros r m. destruct (beq_spec r nonGeoEntity) as [->|Ne].
    + rewrite B. split; [discriminate|]. intros (Q & _). destruct (Q eq_refl).
    + rewrite A by exact Ne. rewrite <- (find_last_iff (fun m => beq (id_of m) r)) by (intros q; apply beq_eq). destruct (find _ (rev coll)); [tauto|]. split; [discriminate|intros (_ & Q); discriminate].
  - intros k m. rewrite D. rewrite <- (find_last_iff (fun m => beq (id_of m) nonGeoEntity && (code_of m =? k)%Z)) by (intros q; rewrite andb_true_iff, beq_eq, Z.eqb_eq; reflexivity). destruct (find _ (rev coll)); [tauto|]. split; discriminate.
Qed.
Print Assumptions C41_metadata.
Lemma memz_add x k l : In x (set_add memz k l) <-> x = k \/ In x l.
Proof. unfold set_add. destruct (memz k l) eqn:E; [apply memz_iff in E; split; [auto|intros [->|H]; auto]|]. rewrite in_app_iff. simpl. intuition. Qed.
Lemma fold_set l : forall acc x, In x (fold_left (fun acc r => set_add mem_bytes r acc) l acc) <-> In x acc \/ In x l.
Proof. induction l as [|y l IH]; intros acc x; simpl; [tauto|]. rewrite IH, set_add_in. intuition. Qed.
Lemma add_code_fold cc : forall ng rs cs ng' rs' cs', fold_left add_code cc (ng, rs, cs) = (ng', rs', cs') ->
  (forall k, In k ng' <-> In k ng \/ In (k, [bs "001"]) cc) /\ (forall r, In r rs' <-> In r rs \/ exists k l, In (k, l) cc /\ In r l /\ l <> [bs "001"]) /\ (forall k, In k cs' <-> In k cs \/ In k (map fst cc)).
Proof.
  induction cc as [|[k l] cc IH]; intros ng rs cs ng' rs' cs' E; cbn [fold_left] in E.
  - injection E as <- <- <-. split; [|split]; intros; simpl; [tauto| |tauto]. split; [auto|intros [H|(? & ? & [] & _)]; exact H].
  - unfold add_code at 2 in E. set (single := match l with [r] => beq nonGeoEntity r | _ => false end) in E.
    assert (S : single = true <-> l = [bs "001"]). { subst single. destruct l as [|r [|r' l]]; [split; discriminate| |split; discriminate]. rewrite beq_eq. split; [intros <-; reflexivity|intros [= ->]; reflexivity]. }
    clearbody single. destruct single.
    + destruct (IH _ _ _ _ _ _ E) as (A & B & D). assert (Sl := proj1 S eq_refl). subst l. split; [|split].
      * intros x. rewrite A, memz_add. cbn [In]. split; [intros [[->|H]|H]; auto|intros [H|[[= <-]|H]]; auto].
      * intros r. rewrite B. split; (intros [H|(k' & l' & H & R & Nl)]; [left; exact H|right]); exists k', l'; [split; [right|]; auto|destruct H as [[= <- <-]|H]; [destruct (Nl eq_refl)|auto]].
      * intros x. rewrite D, memz_add. simpl. intuition.
    + destruct (IH _ _ _ _ _ _ E) as (A & B & D). assert (Sl : l <> [bs "001"]) by (intros Q; apply S in Q; discriminate). split; [|split].
      * intros x. rewrite A. cbn [In]. split; [intros [H|H]; auto|intros [H|[Q|H]]; auto]. exfalso. apply Sl. congruence.
      * intros r. rewrite B, fold_set. split.
        -- intros [[H|H]|(k' & l' & H & R & Nl)]; [left; exact H|right; exists k, l; split; [left|]; auto|right; exists k', l'; split; [right|]; auto].
        -- intros [H|(k' & l' & [[= <- <-]|H] & R & Nl)]; [left; left; exact H|left; right; exact R|right; exists k', l'; auto].
      * intros x. rewrite D, memz_add. simpl. intuition.
Qed.
(** What is supported: exactly the codes of the map; exactly the regions it lists other than "001"; the codes of "001" alone are the non-geographical ones; the regions of code 1 form the NANPA. *)
Theorem C41_supported : forall coll cc C, NewContainer coll cc = Ret C ->
  (forall k, In k (c_codes C) <-> exists l, In (k, l) cc) /\ (forall r, In r (c_regions C) <-> r <> bs "001" /\ exists k l, In (k, l) cc /\ In r l)
  /\ (forall k, In k (c_nongeo_codes C) <-> In (k, [bs "001"]) cc) /\ (forall r, In r (c_nanpa C) <-> exists l, assocz 1 cc = Some l /\ In r l) /\ c_cc2region C = cc.
Proof.
  intros coll cc C E. unfold NewContainer in E. destruct coll as [|m0 coll0]; [discriminate|]. destruct (fold_left add_meta (m0 :: coll0) ([], [])) as [a b]. destruct (fold_left add_code cc ([], [], [])) as [[x y] z] eqn:F.
  apply ret_inj in E. subst C. cbn [c_codes c_regions c_nongeo_codes c_nanpa c_cc2region]. destruct (add_code_fold _ _ _ _ _ _ _ F) as (A & B & D). split; [|split; [|split; [|split]]].
  - intros k. rewrite D. rewrite in_map_iff. split.
    + intros [[]|([k' l] & <- & I)]. eauto.
    + intros (l & I). right. exists (k, l). auto.
  - intros r. rewrite filter_In, B, negb_true_iff, beq_neq. split.
    + intros ([[]|(k & l & I & R & Nl)] & Ne). split; [exact Ne|]. eauto.
    + intros (Ne & k & l & I & R). split; [|exact Ne]. right. exists k, l. split; [exact I|]. split; [exact R|]. intros ->. destruct R as [<-|[]]. destruct (Ne eq_refl).
  - intros k. rewrite A. simpl. tauto.
  - intros r. rewrite fold_set. change nanpaCountryCode with 1%Z. destruct (assocz 1 cc) as [l|]; simpl; split; [intros [[]|H]; eauto|intros (l' & [= <-] & H); auto|tauto|intros (l' & Q & _); discriminate].
  - reflexivity.
Qed.
Print Assumptions C41_supported.
(** Go iterates over the map in any order; no order changes what is supported. *)
Theorem C41_order : forall coll cc cc' C C', NoDup (map fst cc) -> Permutation cc cc' -> NewContainer coll cc = Ret C -> NewContainer coll cc' = Ret C' ->
  c_region C = c_region C' /\ c_nongeo C = c_nongeo C' /\ Permutation (nodup Z.eq_dec (c_codes C)) (nodup Z.eq_dec (c_codes C')) /\ (forall r, In r (c_regions C) <-> In r (c_regions C')) /\ (forall k, In k (c_nongeo_codes C) <-> In k (c_nongeo_codes C')) /\ c_nanpa C = c_nanpa C'
  /\ forall k, assocz k (c_cc2region C) = assocz k (c_cc2region C').
Proof.
  intros coll cc cc' C C' D P E E'. destruct (C41_supported _ _ _ E) as (A1 & A2 & A3 & _ & A5). destruct (C41_supported _ _ _ E') as (B1 & B2 & B3 & _ & B5).
  assert (I : forall x, In x cc <-> In x cc') by (intros x; split; [apply Permutation_in; exact P|apply Permutation_in; symmetry; exact P]).
  assert (Look : forall k, assocz k cc = assocz k cc').
  { intros k. assert (D' : NoDup (map fst cc')) by (apply (Permutation_NoDup (l := map fst cc)); [apply Permutation_map; exact P|exact D]).
    destruct (assocz k cc) as [l|] eqn:K.
    - apply (assocz_nodup _ _ _ D) in K. apply I in K. apply (assocz_nodup _ _ _ D') in K. auto.
    - destruct (assocz k cc') as [l|] eqn:K'; [|reflexivity]. apply (assocz_nodup _ _ _ D') in K'. apply I in K'. apply (assocz_nodup _ _ _ D) in K'. congruence. }
  split; [|split; [|split; [|split; [|split; [|split]]]]].
  1,2,6: clear - E E' Look; unfold NewContainer in E, E'; destruct coll; [discriminate|]; destruct (fold_left add_meta _ _) as [a b]; destruct (fold_left add_code cc _) as [[x y] z]; destruct (fold_left add_code cc' _) as [[x' y'] z']; apply ret_inj in E, E'; subst C C'; cbn [c_region c_nongeo c_nanpa]; rewrite ?Look; reflexivity.
  - apply NoDup_Permutation; try apply NoDup_nodup. intros x. rewrite !nodup_In, A1, B1. split; intros (l & H); exists l; apply I; exact H.
  - intros r. rewrite A2, B2. split; intros (Ne & k & l & H & R); split; auto; exists k, l; split; auto; apply I; exact H.
  - intros k. rewrite A3, B3. apply I.
  - intros k. rewrite A5, B5. apply Look.
Qed.
Print Assumptions C41_order.
Example C41_witness : exists C, NewContainer [md_US; md_CA; md_US; md_001_800] [(800%Z, [bs "001"]); (1%Z, [bs "US"; bs "CA"; bs "001"])] = Ret C /\ c_regions C = [bs "US"; bs "CA"] /\ c_codes C = [800; 1]%Z /\ c_nongeo_codes C = [800%Z] /\ assocb (bs "US") (c_region C) = Some md_US /\ assocb (bs "001") (c_region C) = None.
Proof. eexists. split; [vm_compute; reflexivity|]. split; [vm_compute; reflexivity|]. split; [vm_compute; reflexivity|]. split; [vm_compute; reflexivity|]. split; vm_compute; reflexivity. Qed.

(** * C42: the map from calling codes to regions *)
Definition region_step (o : option (list bytes)) (m : meta) : option (list bytes) :=
  Some (match o with Some l => if main_of m then id_of m :: l else l ++ [id_of m] | None => if is_empty (id_of m) then [] else [id_of m] end).
Lemma put_region_look k cc f l : assocz k (put_region cc f l) = if (k =? cc)%Z then Some (f (assocz cc l)) else assocz k l.
Proof.
  unfold assocz. induction l as [|[k0 v0] l IH]; simpl; [destruct (k =? cc)%Z; reflexivity|]. destruct (Z.eqb_spec cc k0) as [->|Ne]; simpl.
  - destruct (Z.eqb_spec k k0); reflexivity.
  - destruct (Z.eqb_spec k k0) as [->|]; [|exact IH]. destruct (Z.eqb_spec k0 cc); [congruence|reflexivity].
Qed.
Lemma build_fold k coll : forall acc, assocz k (fold_left add_region coll acc) = fold_left region_step (filter (fun m => (code_of m =? k)%Z) coll) (assocz k acc).
Proof.
  induction coll as [|m coll IH]; intros acc; cbn [fold_left filter]; [reflexivity|]. rewrite IH. unfold add_region at 1. rewrite put_region_look. change (mcc (Some m)) with (code_of m). rewrite (Z.eqb_sym k). destruct (Z.eqb_spec (code_of m) k) as [->|Ne]; [|reflexivity].
  cbn [fold_left]. f_equal.
Qed.
(** The regions of a code are exactly the ids of its territories, each as often as it occurs. *)
Theorem C42_regions : forall coll k, (forall m, In m coll -> id_of m <> []) ->
  (assocz k (BuildCountryCodeToRegionMap coll) = None <-> forall m, In m coll -> code_of m <> k)
  /\ forall l, assocz k (BuildCountryCodeToRegionMap coll) = Some l -> Permutation l (map id_of (filter (fun m => (code_of m =? k)%Z) coll)).
Proof.
  intros coll k Id. unfold BuildCountryCodeToRegionMap. rewrite build_fold. change (assocz k []) with (@None (list bytes)).
  assert (G : forall es l, exists l', fold_left region_step es (Some l) = Some l' /\ Permutation l' (l ++ map id_of es)).
  { induction es as [|e es IH]; intros l; cbn [fold_left map]; [exists l; rewrite app_nil_r; auto|]. unfold region_step at 2. destruct (main_of e).
    - destruct (IH (id_of e :: l)) as (l' & E & P). exists l'. split; [exact E|]. rewrite P. simpl. apply Permutation_middle.
    - destruct (IH (l ++ [id_of e])) as (l' & E & P). exists l'. split; [exact E|]. rewrite P, <- app_assoc. reflexivity. }
  assert (F : forall m, In m (filter (fun m => (code_of m =? k)%Z) coll) <-> In m coll /\ code_of m = k) by (intros m; rewrite filter_In, Z.eqb_eq; reflexivity).
  destruct (filter _ coll) as [|e es]; cbn [fold_left].
  - split; [|discriminate]. split; [|reflexivity]. intros _ m I Ec. apply (proj2 (F m)). auto.
  - unfold region_step at 2 4. assert (Ie : In e coll) by (apply F; left; reflexivity). pose proof (Id e Ie) as Ne. apply is_empty_false in Ne. rewrite Ne. destruct (G es [id_of e]) as (l' & E & P). rewrite E. split.
    + split; [discriminate|]. intros H. exfalso. apply (H e Ie). apply F. left. reflexivity.
    + intros l [= <-]. exact P.
Qed.
Print Assumptions C42_regions.
(** If some territory of the code is marked as the main one, the region listed first is the (last) one so marked. *)
Theorem C42_main_first : forall coll k m, (forall m, In m coll -> id_of m <> []) -> last_with (fun m => code_of m = k /\ main_of m = true) coll m ->
  exists l, assocz k (BuildCountryCodeToRegionMap coll) = Some (id_of m :: l).
Proof.
  intros coll k m Id (a & b & -> & (Ck & Mm) & Nb). unfold BuildCountryCodeToRegionMap. rewrite build_fold. change (assocz k []) with (@None (list bytes)). rewrite filter_app, fold_left_app. cbn [filter]. apply Z.eqb_eq in Ck. rewrite Ck. cbn [fold_left].
  assert (H0 : exists l, region_step (fold_left region_step (filter (fun m => (code_of m =? k)%Z) a) None) m = Some (id_of m :: l)).
  { unfold region_step at 1. rewrite Mm. destruct (fold_left _ _ _) as [l|]; [eauto|]. assert (Q : is_empty (id_of m) = false) by (apply is_empty_false; apply Id; apply in_or_app; right; left; reflexivity). rewrite Q. eauto. }
  destruct H0 as (l & ->). revert l. induction b as [|x b IH]; intros l; cbn [filter]; [exists l; reflexivity|].
  assert (IH' := IH ltac:(intros y Y; apply Id; apply in_app_or in Y as [Y|[Y|Y]]; apply in_or_app; [left|right; left|right; right; right]; auto) ltac:(intros y Y; apply Nb; right; exact Y)).
  destruct (Z.eqb_spec (code_of x) k) as [Ex|Ex]; [|apply IH']. cbn [fold_left]. unfold region_step at 2. destruct (main_of x) eqn:Mx; [exfalso; apply (Nb x); [left; reflexivity|auto]|]. apply (IH' (l ++ [id_of x])).
Qed.
Print Assumptions C42_main_first.
(** The shipped map is what the builder makes of the shipped metadata. *)
Fixpoint beq_lists (a b : list bytes) : bool := match a, b with [], [] => true | x :: a, y :: b => beq x y && beq_lists a b | _, _ => false end.
Lemma beq_lists_eq a : forall b, beq_lists a b = true -> a = b.
Proof. induction a as [|x a IH]; intros [|y b] H; simpl in H; try discriminate; [reflexivity|]. apply andb_true_iff in H as [H1 H2]. apply beq_eq in H1. subst y. f_equal. auto. Qed.
Definition same_maps (a b : list (Z * list bytes)) : bool :=
  forallb (fun e => match assocz (fst e) b with Some l => beq_lists (match assocz (fst e) a with Some l => l | None => [] end) l | None => false end) a
  && forallb (fun e => is_some (assocz (fst e) a)) b.
Lemma same_maps_eq a b : same_maps a b = true -> forall k, assocz k a = assocz k b.
Proof.
  unfold same_maps. rewrite andb_true_iff, !forallb_forall. intros [A B] k. destruct (assocz k a) as [l|] eqn:E.
  - pose proof (assocz_In _ _ _ E) as I. specialize (A _ I). cbn [fst] in A. rewrite E in A. destruct (assocz k b) as [l'|]; [|discriminate]. apply beq_lists_eq in A. congruence.
  - destruct (assocz k b) as [l'|] eqn:E'; [|reflexivity]. pose proof (assocz_In _ _ _ E') as I. specialize (B _ I). cbn [fst] in B. rewrite E in B. discriminate.
Qed.
Theorem C42_shipped : forall k, assocz k (BuildCountryCodeToRegionMap shipped_collection) = assocz k shipped_cc2region.
Proof. apply same_maps_eq. vm_cast_no_check (eq_refl true). Qed.
Print Assumptions C42_shipped.
Example C42_witness : (forall m, In m [md_CA; md_GB; md_US; md_AG] -> id_of m <> []) /\ last_with (fun m => code_of m = 1%Z /\ main_of m = true) [md_CA; md_GB; md_US; md_AG] md_US /\ assocz 1 (BuildCountryCodeToRegionMap [md_CA; md_GB; md_US; md_AG]) = Some [bs "US"; bs "CA"; bs "AG"].
Proof.
  split; [intros m H; simpl in H; destruct H as [<-|[<-|[<-|[<-|[]]]]]; discriminate|]. split; [|vm_compute; reflexivity].
  exists [md_CA; md_GB], [md_AG]. split; [reflexivity|]. split; [split; reflexivity|]. intros x [<-|[]] [_ H]. discriminate.
Qed.
(** Without ids the map is not faithful: a first territory without id is dropped, a later one listed as an empty name. *)
Theorem C42_no_id_refuted : exists coll k l, assocz k (BuildCountryCodeToRegionMap coll) = Some l /\ (forall m, In m coll -> id_of m = [] /\ code_of m = k) /\ length coll = 2%nat /\ length l = 1%nat.
Proof. pose (e := set_id md_US None). exists [e; e], 1%Z, [[]]. split; [vm_compute; reflexivity|]. split; [|split; reflexivity]. intros m [<-|[<-|[]]]; split; reflexivity. Qed.
Print Assumptions C42_no_id_refuted.

(** * C43: possible lengths *)
Lemma zset_add_in x y l : In x (zset_add y l) <-> x = y \/ In x l.
Proof. unfold zset_add. destruct (memz y l) eqn:E; [apply memz_iff in E; split; [auto|intros [->|H]; auto]|]. rewrite in_app_iff. simpl. intuition. Qed.
Lemma zset_add_nodup y l : NoDup l -> NoDup (zset_add y l).
Proof.
  intros D. unfold zset_add. destruct (memz y l) eqn:E; [exact D|]. apply NoDup_app_iff || idtac.
  apply (Permutation_NoDup (l := y :: l)); [apply Permutation_cons_append|]. constructor; [|exact D]. intros H. apply memz_iff in H. congruence.
Qed.
Lemma zset_union_in x b : forall a, In x (zset_union a b) <-> In x a \/ In x b.
Proof. unfold zset_union. induction b as [|y b IH]; intros a; cbn [fold_left]; [simpl; tauto|]. rewrite IH, zset_add_in. simpl. intuition. Qed.
Lemma zset_union_nodup b : forall a, NoDup a -> NoDup (zset_union a b).
Proof. unfold zset_union. induction b as [|y b IH]; intros a D; cbn [fold_left]; [exact D|]. apply IH. apply zset_add_nodup. exact D. Qed.
Lemma zrange_in x n : forall m, In x (zrange m n) <-> (m <= x < m + Z.of_nat n)%Z.
Proof. induction n as [|n IH]; intros m; cbn [zrange]; [simpl; lia|]. cbn [In]. rewrite IH. lia. Qed.
Lemma digits_not c s : all_digits s = true -> (c < 48 \/ 57 < c) -> ~ In c s.
Proof. intros A H I. unfold all_digits in A. rewrite forallb_forall in A. specialize (A _ I). apply is_digit_iff in A. lia. Qed.
Lemma atoi_val_digits s : s <> [] -> all_digits s = true -> atoi_val s = Z.min (Z.of_N (dval s)) (Z.of_N two63 - 1).
Proof.
  intros Ne A. destruct s as [|c t]; [congruence|].
  assert (I : ~ In 43 (c :: t) /\ ~ In 45 (c :: t)) by (split; apply digits_not; auto; lia). assert (H : c <> 43 /\ c <> 45) by (simpl in I; tauto). clear I.
  assert (G : forall body neg, body = c :: t -> neg = false -> (if is_empty body || negb (all_digits body) then 0%Z else if neg : bool then Z.max (- Z.of_N (dval body)) (- Z.of_N two63) else Z.min (Z.of_N (dval body)) (Z.of_N two63 - 1)) = Z.min (Z.of_N (dval (c :: t))) (Z.of_N two63 - 1)) by (intros ? ? -> ->; rewrite A; reflexivity).
  unfold atoi_val. cbv zeta. apply G; clear G A Ne; destruct c as [|p]; try reflexivity; do 6 (destruct p as [p|p|]; try reflexivity); lia.
Qed.
Lemma atoi_val_dec n : n < two63 -> atoi_val (dec n) = Z.of_N n.
Proof. intros H. rewrite atoi_val_digits by (try apply dec_nonempty; apply dec_digits). rewrite dval_dec. lia. Qed.
Lemma to_int32_small z : (0 <= z < 2147483648)%Z -> to_int32 z = z.
Proof. intros H. unfold to_int32. rewrite Z.mod_small by lia. destruct (Z.ltb_spec z 2147483648); lia. Qed.
Lemma show_element i acc : proper i -> NoDup acc -> exists l, length_element (show i) acc = Ret l /\ NoDup l /\ forall x, In x l <-> In x acc \/ covers i x.
Proof.
  intros P D. destruct i as [n|a b]; cbn [show proper covers] in *.
  - pose proof (dec_spec n) as (A & V & Ne & _). exists (zset_add (Z.of_N n) acc). split; [|split; [apply zset_add_nodup; exact D|intros x; rewrite zset_add_in; tauto]].
    assert (T : to_int32 (atoi_val (dec n)) = Z.of_N n) by (rewrite atoi_val_dec by (unfold two63; lia); apply to_int32_small; lia).
    rewrite <- T. clear T V. assert (I : ~ In 91 (dec n)) by (apply digits_not; auto; lia). unfold length_element. destruct (dec n) as [|c t]; [congruence|]. clear A Ne.
    assert (c <> 91) by (simpl in I; tauto). destruct c as [|p]; [reflexivity|]. do 7 (destruct p as [p|p|]; try reflexivity). lia.
  - destruct P as [P1 P2]. exists (zset_union acc (map to_int32 (zrange (Z.of_N a) (Z.to_nat (Z.of_N b - Z.of_N a + 1))))). split; [|split; [apply zset_union_nodup; exact D|]].
    + change (bs "[" ++ dec a ++ bs "-" ++ dec b ++ bs "]") with (91 :: (dec a ++ 45 :: dec b ++ [93])). cbn [length_element].
      assert (L : 91 :: dec a ++ 45 :: dec b ++ [93] = (91 :: dec a ++ 45 :: dec b) ++ [93]) by (simpl; rewrite <- app_assoc; reflexivity).
      rewrite L, last_last. assert (R : dec a ++ 45 :: dec b ++ [93] = (dec a ++ 45 :: dec b) ++ [93]) by (rewrite <- app_assoc; reflexivity). rewrite R, removelast_last.
      change (negb (93 =? 93)) with false. cbv iota.
      assert (S : split_byte (dec a ++ 45 :: dec b) 45 = [dec a; dec b]) by (apply split_two; split; [reflexivity|]; split; apply digits_not; try apply dec_digits; lia). rewrite S.
      rewrite !atoi_val_dec by (unfold two63; lia). destruct (Z.ltb_spec (Z.of_N b - Z.of_N a) 2); [lia|]. destruct (Z.eqb_spec (Z.of_N b) (Z.of_N two63 - 1)) as [Q|]; [unfold two63 in Q; lia|]. reflexivity.
    + intros x. rewrite zset_union_in, in_map_iff. split.
      * intros [H|(y & <- & H)]; [left; exact H|right]. apply zrange_in in H. rewrite to_int32_small; lia.
      * intros [H|H]; [left; exact H|right]. exists x. split; [apply to_int32_small; lia|]. apply zrange_in. lia.
Qed.
Lemma split_join_gen c values : values <> [] -> (forall v, In v values -> ~ In c v) -> split_byte (join values [c]) c = values.
Proof.
  induction values as [|v vs IH]; intros Ne H; [congruence|]. destruct vs as [|w vs].
  - cbn [join]. apply split_none. apply H. left. reflexivity.
  - cbn [join app] in *. rewrite split_one by (apply H; left; reflexivity). f_equal. apply IH; [discriminate|]. intros u U. apply H. right. exact U.
Qed.
Lemma show_no_comma i : ~ In 44 (show i).
Proof.
  destruct i as [n|a b]; cbn [show]; [apply digits_not; [apply dec_digits|lia]|]. intros H. rewrite !in_app_iff in H.
  destruct H as [H|[H|[H|[H|H]]]]; [| |apply (digits_not 44 (dec a)); [apply dec_digits|lia|exact H] || idtac| |]; try (simpl in H; destruct H as [H|[]]; discriminate H); revert H; apply digits_not; try apply dec_digits; lia.
Qed.
Lemma spec_text_split es : es <> [] -> split_byte (spec_text es) 44 = map show es.
Proof. intros Ne. apply split_join_gen; [destruct es; [congruence|discriminate]|]. intros v V. apply in_map_iff in V as (i & <- & _). apply show_no_comma. Qed.
(** A specification denotes the union of its items. *)
Theorem C43_decodes : forall es, es <> [] -> Forall proper es -> exists l, parsePossibleLengthStringToSet (spec_text es) = Ret l /\ NoDup l /\ forall x, In x l <-> Exists (fun i => covers i x) es.
Proof.
  intros es Ne P. unfold parsePossibleLengthStringToSet. rewrite spec_text_split by exact Ne.
  assert (E : is_empty (spec_text es) = false).
  { destruct (spec_text es) eqn:E; [|reflexivity]. pose proof (spec_text_split es Ne) as Q. rewrite E in Q. cbn [split_byte] in Q. destruct es as [|[n|a b] es]; [congruence| |discriminate]. cbn [map show] in Q. injection Q as Q _. symmetry in Q. destruct (dec_nonempty _ Q). }
  rewrite E. clear E Ne.
  assert (G : forall acc, NoDup acc -> exists l, length_elements (map show es) acc = Ret l /\ NoDup l /\ forall x, In x l <-> In x acc \/ Exists (fun i => covers i x) es).
  { induction P as [|i es Pi P IH]; intros acc D; cbn [map length_elements]; [exists acc; split; [reflexivity|]; split; [exact D|]; intros x; rewrite Exists_nil; tauto|].
    destruct (show_element i acc Pi D) as (l1 & E1 & D1 & I1). rewrite E1. cbn [bind]. destruct (IH l1 D1) as (l & E & D2 & I2). exists l. split; [exact E|]. split; [exact D2|]. intros x. rewrite I2, I1, Exists_cons. tauto. }
  destruct (G [] (NoDup_nil _)) as (l & H). exists l. simpl in H. destruct H as (H1 & H2 & H3). split; [exact H1|]. split; [exact H2|]. intros x. rewrite H3. tauto.
Qed.
Print Assumptions C43_decodes.
Example C43_witness : spec_text [One 4; Range 6 8] = bs "4,[6-8]" /\ Forall proper [One 4; Range 6 8] /\ parsePossibleLengthStringToSet (bs "4,[6-8]") = Ret [4; 6; 7; 8]%Z.
Proof. split; [reflexivity|]. split; [|vm_compute; reflexivity]. constructor; [|constructor; [|constructor]]; simpl; lia. Qed.
(** A malformed list aborts: an empty part, an unclosed bracket, a bracket without exactly one hyphen, or a range shorter than three lengths. *)
Inductive bad_part : bytes -> Prop :=
  | bad_empty : bad_part []
  | bad_open t c : c <> 93 -> bad_part (91 :: t ++ [c])
  | bad_alone : bad_part [91]
  | bad_no_hyphen t : ~ In 45 t -> bad_part (91 :: t ++ [93])
  | bad_two_hyphens a b c : bad_part (91 :: a ++ 45 :: b ++ 45 :: c ++ [93])
  | bad_range a b : a < two63 -> b < a + 2 -> bad_part (91 :: dec a ++ 45 :: dec b ++ [93]).
Lemma split_app_ge c a b : (length (split_byte (a ++ c :: b) c) = length (split_byte a c) + length (split_byte b c))%nat.
Proof.
  induction a as [|x a IH]; cbn [app split_byte].
  - rewrite N.eqb_refl. reflexivity.
  - destruct (x =? c); [simpl; lia|]. pose proof (split_nonempty c (a ++ c :: b)). pose proof (split_nonempty c a). destruct (split_byte (a ++ c :: b) c); [congruence|]. destruct (split_byte a c); [congruence|]. simpl in *. lia.
Qed.
Lemma bad_part_panics p acc : bad_part p -> length_element p acc = Panic.
Proof.
  intros B. destruct B as [|t c Hc| |t Ht|a b c|a b Ha Hb]; cbn [length_element].
  - reflexivity.
  - change (91 :: t ++ [c]) with ((91 :: t) ++ [c]). rewrite last_last. apply N.eqb_neq in Hc. rewrite Hc. reflexivity.
  - reflexivity.
  - change (91 :: t ++ [93]) with ((91 :: t) ++ [93]). rewrite last_last, removelast_last, split_none by exact Ht. reflexivity.
  - assert (Q : a ++ 45 :: b ++ 45 :: c ++ [93] = (a ++ 45 :: b ++ 45 :: c) ++ [93]) by (rewrite <- app_assoc; simpl; rewrite <- app_assoc; reflexivity). rewrite Q. change (91 :: ((a ++ 45 :: b ++ 45 :: c) ++ [93])) with ((91 :: a ++ 45 :: b ++ 45 :: c) ++ [93]). rewrite last_last, removelast_last.
    pose proof (split_app_ge 45 a (b ++ 45 :: c)) as L. rewrite (split_app_ge 45 b c) in L. pose proof (split_nonempty 45 a). pose proof (split_nonempty 45 b). pose proof (split_nonempty 45 c).
    destruct (split_byte a 45); [congruence|]. destruct (split_byte b 45); [congruence|]. destruct (split_byte c 45); [congruence|]. destruct (split_byte (a ++ _) 45) as [|x [|y [|z r]]]; simpl in L; try lia. reflexivity.
  - assert (Q : dec a ++ 45 :: dec b ++ [93] = (dec a ++ 45 :: dec b) ++ [93]) by (rewrite <- app_assoc; reflexivity). rewrite Q. change (91 :: ((dec a ++ 45 :: dec b) ++ [93])) with ((91 :: dec a ++ 45 :: dec b) ++ [93]). rewrite last_last, removelast_last. change (negb (93 =? 93)) with false. cbv iota.
    assert (S : split_byte (dec a ++ 45 :: dec b) 45 = [dec a; dec b]) by (apply split_two; split; [reflexivity|]; split; apply digits_not; try apply dec_digits; lia). rewrite S.
    rewrite (atoi_val_dec a Ha). assert (V : (atoi_val (dec b) < Z.of_N a + 2)%Z).
    { rewrite atoi_val_digits by (try apply dec_nonempty; apply dec_digits). rewrite dval_dec. lia. }
    destruct (Z.ltb_spec (atoi_val (dec b) - Z.of_N a) 2); [reflexivity|lia].
Qed.
Lemma length_element_no_fail p acc : match length_element p acc with Fail _ => False | _ => True end.
Proof.
  unfold length_element. destruct p as [|c t]; [exact I|]. destruct (c =? 91) eqn:E.
  - apply N.eqb_eq in E. subst c. destruct (negb _); [exact I|]. destruct (split_byte _ _) as [|a [|b [|d r]]]; try exact I. destruct (_ <? _)%Z; [exact I|]. destruct (_ =? _)%Z; exact I.
  - apply N.eqb_neq in E. destruct c as [|p]; [exact I|]. do 7 (destruct p as [p|p|]; try exact I). lia.
Qed.
Theorem C43_rejects : forall parts, (forall p, In p parts -> ~ In 44 p) -> (parts = [] \/ Exists bad_part parts) -> parsePossibleLengthStringToSet (join parts (bs ",")) = Panic.
Proof.
  intros parts Nc B. unfold parsePossibleLengthStringToSet. destruct B as [->|B]; [reflexivity|]. destruct (is_empty _); [reflexivity|].
  change (bs ",") with [44]. rewrite split_join_gen by (auto; intros ->; inversion B). clear Nc. generalize (@nil Z). induction B as [p l Hp|p l B IH]; intros acc; cbn [length_elements].
  - rewrite bad_part_panics by exact Hp. reflexivity.
  - pose proof (length_element_no_fail p acc) as F. destruct (length_element p acc); [apply IH|destruct F|reflexivity].
Qed.
Print Assumptions C43_rejects.
Example C43_rejects_witness : join [bs "4"; bs "[6-7]"; bs ""] (bs ",") = bs "4,[6-7]," /\ Exists bad_part [bs "4"; bs "[6-7]"; bs ""].
Proof. split; [reflexivity|]. apply Exists_cons_tl, Exists_cons_hd. apply (bad_range 6 7); [reflexivity|lia]. Qed.
(** Not every malformed specification is rejected: text that is no number counts as length 0, and duplicates are accepted. *)
Theorem C43_garbage_refuted : parsePossibleLengthStringToSet (bs "4,x") = Ret [4; 0]%Z /\ parsePossibleLengthStringToSet (bs "4,4") = Ret [4%Z] /\ parsePossibleLengthStringToSet (bs "7,[x-2]") = Ret [7; 0; 1; 2]%Z.
Proof. split; [|split]; vm_compute; reflexivity. Qed.
Print Assumptions C43_garbage_refuted.
Lemma zinsert_in x y l : In x (zinsert y l) <-> x = y \/ In x l.
Proof. induction l as [|z l IH]; simpl; [intuition|]. destruct (y <=? z)%Z; simpl; [intuition|]. rewrite IH. intuition. Qed.
Lemma zinsert_sorted y l : increasing l -> ~ In y l -> increasing (zinsert y l).
Proof.
  unfold increasing. intros S. induction S as [|z l S IH F]; intros Nn; simpl; [constructor; constructor|]. rewrite Forall_forall in F. destruct (Z.leb_spec y z).
  - constructor; [constructor; [exact S|rewrite Forall_forall; exact F]|]. rewrite Forall_forall. intros x [<-|X]; [simpl in Nn; assert (y <> z) by intuition; lia|]. specialize (F x X). lia.
  - constructor; [apply IH; simpl in Nn; tauto|]. rewrite Forall_forall. intros x X. apply zinsert_in in X as [->|X]; [lia|auto].
Qed.
Lemma zsort_spec l : NoDup l -> increasing (zsort l) /\ forall x, In x (zsort l) <-> In x l.
Proof.
  intros D. induction D as [|y l Ny D [IH1 IH2]]; cbn [zsort fold_right]; [split; [constructor|tauto]|]. fold (zsort l). split.
  - apply zinsert_sorted; [exact IH1|]. rewrite IH2. exact Ny.
  - intros x. rewrite zinsert_in, IH2. simpl. intuition.
Qed.
(** The possible lengths stored for a description are strictly increasing. Without a parent they are exactly the given ones, with a parent also, unless the list is left empty because it equals the parent's; the lengths only possible locally are the given ones that are no full lengths; and nothing outside the parent's lengths is accepted. *)
Theorem C43_stored : forall lengths locals parent d d', NoDup lengths -> NoDup locals -> setPossibleLengths lengths locals parent d = Ret d' ->
  increasing (d_len d') /\ increasing (d_local d') /\ (forall x, In x (d_local d') <-> In x locals /\ ~ In x lengths)
  /\ match parent with
     | None => forall x, In x (d_len d') <-> In x lengths
     | Some p => (forall x, In x lengths -> NoDup (d_len p) -> In x (d_len p)) /\ (forall x, In x (d_local d') -> In x (d_len p) \/ In x (d_local p))
                 /\ (NoDup (d_len p) -> (d_len d' = [] /\ (forall x, In x lengths <-> In x (d_len p))) \/ ((forall x, In x (d_len d') <-> In x lengths) /\ ~ (forall x, In x lengths <-> In x (d_len p))))
     end.
Proof.
  intros lengths locals parent d d' D1 D2 E. unfold setPossibleLengths in E.
  set (same := match parent with None => false | Some p => arePossibleLengthsEqual lengths p end) in E.
  set (loc := filter (fun x => negb (memz x lengths)) locals) in E.
  assert (Il : forall x, In x loc <-> In x locals /\ ~ In x lengths). { intros x. unfold loc. rewrite filter_In, negb_true_iff. split; intros [A B]; split; auto; [intros Q; apply memz_iff in Q; congruence|]. destruct (memz x lengths) eqn:M; [apply memz_iff in M; tauto|reflexivity]. }
  assert (Dl : NoDup loc) by (apply NoDup_filter; exact D2). clearbody loc.
  destruct (if same then Ret [] else _) as [pl|e|] eqn:Ep; [|discriminate|discriminate]. cbn [bind] in E. destruct (forallb _ loc) eqn:Fl; [|discriminate]. apply ret_inj in E. subst d'. cbn [d_len d_local].
  assert (Dp : NoDup pl). { destruct same; [apply ret_inj in Ep; subst pl; constructor|]. destruct (forallb _ lengths); [apply ret_inj in Ep; subst pl; exact D1|discriminate]. }
  destruct (zsort_spec _ Dp) as [S1 I1]. destruct (zsort_spec _ Dl) as [S2 I2]. split; [exact S1|]. split; [exact S2|]. split; [intros x; rewrite I2; apply Il|]. rewrite forallb_forall in Fl. destruct parent as [p|].
  - assert (Eq : NoDup (d_len p) -> (same = true <-> forall x, In x lengths <-> In x (d_len p))).
    { intros Np. unfold same, arePossibleLengthsEqual. rewrite andb_true_iff, Nat.eqb_eq, forallb_forall. split.
      - intros [L F] x. assert (J : incl (d_len p) lengths) by (intros y Y; apply memz_iff; apply F; exact Y). split; [|apply J]. intros X. apply (NoDup_length_incl Np (l' := lengths)); [lia|exact J|exact X].
      - intros H. split; [|intros x X; apply memz_iff; apply H; exact X]. apply Nat.le_antisymm; apply NoDup_incl_length; auto; intros y Y; apply H; exact Y. }
    clearbody same. split; [|split].
    + intros x X Np. destruct same; [apply (proj1 (Eq Np) eq_refl); exact X|]. destruct (forallb _ lengths) eqn:Fo; [|discriminate]. rewrite forallb_forall in Fo. specialize (Fo x X). apply memz_iff. exact Fo.
    + intros x X. apply I2 in X. specialize (Fl x X). apply orb_true_iff in Fl as [Q|Q]; apply memz_iff in Q; auto.
    + intros Np. destruct same.
      * left. apply ret_inj in Ep. subst pl. split; [reflexivity|]. apply (Eq Np). reflexivity.
      * right. destruct (forallb _ lengths); [|discriminate]. apply ret_inj in Ep. subst pl. split; [exact I1|]. intros H. apply (Eq Np) in H. discriminate.
  - cbn in same. subst same. destruct (forallb _ lengths); [|discriminate]. apply ret_inj in Ep. subst pl. exact I1.
Qed.
Print Assumptions C43_stored.
Example C43_stored_witness : setPossibleLengths [8; 6]%Z [4; 8]%Z (Some {| d_pattern := None; d_len := [6; 8; 9]%Z; d_local := [4%Z]; d_example := None |}) desc0 = Ret {| d_pattern := None; d_len := [6; 8]%Z; d_local := [4%Z]; d_example := None |}.
Proof. vm_compute. reflexivity. Qed.
