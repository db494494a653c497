(** C91: which data the short-number functions consult. *)
From Verif Require Import Base BaseFacts Regex Consts Types Shipped ShippedShort ShortData Normalize Validate Container ShortNumber PropsBuild PropsValidate.

(** The last entry of the collection for the region. *)
Definition latest (r : bytes) (coll : list meta) : option meta := find (fun m => beq (get_bytes (md_id m)) r) (rev coll).

Lemma find_app {A} (p : A -> bool) a b : find p (a ++ b) = match find p a with Some x => Some x | None => find p b end.
Proof. induction a as [|x a IH]; [reflexivity|]. cbn [app find]. destruct (p x); [reflexivity|exact IH]. Qed.
Lemma short_fold coll : forall st r, assocb r (fold_left (fun st m => let region := get_bytes (md_id m) in if beq region nonGeoEntity then st else map_put beq region m st) coll st) =
  if beq r nonGeoEntity then assocb r st else match latest r coll with Some m => Some m | None => assocb r st end.
Proof.
  induction coll as [|m coll IH]; intros st r; [cbn; destruct (beq r nonGeoEntity); reflexivity|]. cbn [fold_left]. rewrite IH. cbv zeta. unfold latest. cbn [rev]. rewrite find_app. cbn [find].
  destruct (beq_spec r nonGeoEntity) as [->|Nr].
  - destruct (beq_spec (get_bytes (md_id m)) nonGeoEntity) as [E|E]; [reflexivity|]. rewrite map_put_lookb. destruct (beq_spec nonGeoEntity (get_bytes (md_id m))); [congruence|reflexivity].
  - destruct (find _ (rev coll)); [reflexivity|]. destruct (beq_spec (get_bytes (md_id m)) nonGeoEntity) as [E|E].
    + destruct (beq_spec (get_bytes (md_id m)) r); [congruence|reflexivity].
    + rewrite map_put_lookb. destruct (beq_spec r (get_bytes (md_id m))) as [->|Ne]; [rewrite beq_refl; reflexivity|]. destruct (beq_spec (get_bytes (md_id m)) r); [congruence|reflexivity].
Qed.
(** Every collection that is not empty makes a table; the entry of a region is the last one of the collection for it, and there is none for "001". *)
Theorem C91_table : forall coll, coll <> [] -> exists SC, loadShortNumberMetadata coll = Ret SC /\ assocb (bs "001") SC = None /\ forall r, r <> bs "001" -> getShortNumberMetadataForRegion SC r = latest r coll.
Proof.
  intros [|m0 coll] Ne; [congruence|]. unfold loadShortNumberMetadata. eexists. split; [reflexivity|]. split; [rewrite short_fold; reflexivity|]. intros r Nr. unfold getShortNumberMetadataForRegion. rewrite short_fold. destruct (beq_spec r nonGeoEntity) as [E|_]; [elim Nr; exact E|]. destruct (latest r (m0 :: coll)); reflexivity.
Qed.
Print Assumptions C91_table.
Theorem C91_empty : loadShortNumberMetadata [] = Panic. Proof. reflexivity. Qed.
Print Assumptions C91_empty.
(** For "001" and for regions without an entry there are no short numbers, no emergency numbers, no costs and no examples. *)
Theorem C91_unlisted : forall C coll SC r n s c, loadShortNumberMetadata coll = Ret SC -> r = bs "001" \/ (forall m, In m coll -> get_bytes (md_id m) <> r) ->
  IsPossibleShortNumberForRegion C SC n r = Ret false /\ IsValidShortNumberForRegion C SC n r = Ret false /\ IsCarrierSpecificForRegion C SC n r = Ret false /\ IsSmsServiceForRegion C SC n r = Ret false /\
  GetExpectedCostForRegion C SC n r = Ret UNKNOWN_COST /\ IsEmergencyNumber SC s r = Ret false /\ ConnectsToEmergencyNumber SC s r = Ret false /\ getExampleShortNumber SC r = [] /\ getExampleShortNumberForCost SC r c = [].
Proof.
  intros C coll SC r n s c L H. assert (E : getShortNumberMetadataForRegion SC r = None).
  { destruct coll as [|m0 coll]; [discriminate|]. destruct (C91_table (m0 :: coll)) as (SC' & L' & Z & T); [discriminate|]. rewrite L in L'. injection L' as <-. destruct (beq_spec r (bs "001")) as [->|Nr]; [exact Z|]. rewrite (T r Nr). destruct H as [H|H]; [congruence|].
    unfold latest. destruct (find _ _) as [m|] eqn:F; [|reflexivity]. apply find_some in F as [I F]. apply in_rev in I. apply beq_eq in F. elim (H m I F). }
  unfold IsPossibleShortNumberForRegion, IsValidShortNumberForRegion, IsCarrierSpecificForRegion, IsSmsServiceForRegion, GetExpectedCostForRegion, IsEmergencyNumber, ConnectsToEmergencyNumber, matchesEmergencyNumber, getExampleShortNumber, getExampleShortNumberForCost. rewrite E.
  destruct (regionDialingFromMatchesNumber C n r), (re_match plusCharsPattern (extractPossibleNumber s)); cbn [negb]; auto 20.
Qed.
Print Assumptions C91_unlisted.
(** The table the library starts with: each entry is that of a supported region, once. *)
Lemma shipped_short_keys : forallb (fun rm => beq (get_bytes (md_id (snd rm))) (fst rm) && mem_bytes (fst rm) (c_regions shipped)) shipped_short = true.
Proof. vm_cast_no_check (eq_refl true). Qed.
Theorem C91_shipped : loadShortNumberMetadata short_collection = Ret shipped_short /\
  (forall r m, assocb r shipped_short = Some m -> latest r short_collection = Some m /\ In r (c_regions shipped)).
Proof.
  split; [exact shipped_short_loaded|]. intros r m E.
  assert (G : forall C coll SC, loadShortNumberMetadata coll = Ret SC -> forallb (fun rm => beq (get_bytes (md_id (snd rm))) (fst rm) && mem_bytes (fst rm) (c_regions C)) SC = true -> assocb r SC = Some m -> latest r coll = Some m /\ In r (c_regions C)).
  { clear E. intros C coll SC L K E. destruct coll as [|m0 coll]; [discriminate|]. destruct (C91_table (m0 :: coll)) as (SC' & L' & Z & T); [discriminate|]. rewrite L in L'. injection L' as <-. split.
    - rewrite <- T; [exact E|]. intros ->. congruence.
    - rewrite forallb_forall in K. specialize (K _ (assocb_In _ _ _ E)). cbn [fst snd] in K. apply andb_prop in K as [_ K]. apply mem_bytes_iff. exact K. }
  exact (G shipped short_collection shipped_short shipped_short_loaded shipped_short_keys E).
Qed.
Print Assumptions C91_shipped.
(** The hypotheses are met: France has an entry with emergency numbers, Antarctica has none. *)
Example C91_witness : short_collection <> [] /\ (exists m, latest (bs "FR") short_collection = Some m) /\ IsEmergencyNumber shipped_short (bs "112") (bs "FR") = Ret true /\
  (forall m, In m short_collection -> get_bytes (md_id m) <> bs "AQ") /\ IsEmergencyNumber shipped_short (bs "112") (bs "AQ") = Ret false.
Proof.
  split; [intros E; pose proof shipped_short_loaded as L; rewrite E in L; discriminate|]. split; [eexists; vm_compute; reflexivity|]. split; [vm_compute; reflexivity|]. split; [|vm_compute; reflexivity].
  assert (B : forallb (fun m => negb (beq (get_bytes (md_id m)) (bs "AQ"))) short_collection = true) by (vm_compute; reflexivity). revert B. generalize short_collection. intros l B m I E. rewrite forallb_forall in B. specialize (B m I). rewrite E, beq_refl in B. discriminate.
Qed.
