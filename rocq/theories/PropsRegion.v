(** C81: what the library says about regions and calling codes fits together. C82: numbers of calling codes that several regions share. *)
From Coq Require Import Lia Permutation.
From Verif Require Import Base BaseFacts Types Consts Validate Container Builder Regions MetadataData Shipped TableFacts SourceFacts BuildSpec PropsBuild
  NumberSpec MetaSpec ValidateSpec ValidateFacts MetaFacts QuerySpec RegionFacts.

(** A collection in which every territory has an id and a calling code, a region occurs once, and the entry of a non-geographical entity ("001")
    is the only one of its calling code. "ZZ" is not used as an id. *)
Record orderly (coll : list meta) : Prop := {
  ord_id : forall m, In m coll -> id_of m <> [] /\ id_of m <> bs "ZZ" /\ code_of m <> 0%Z;
  ord_once : forall m m', In m coll -> In m' coll -> id_of m = id_of m' -> id_of m <> bs "001" -> m = m';
  ord_nodup : NoDup coll;
  ord_alone : forall m m', In m coll -> In m' coll -> code_of m = code_of m' -> id_of m = bs "001" -> m = m'
}.
(** The container made of a collection and of the map the builder makes of it. Go's maps have each key once. *)
Definition made_of (coll : list meta) (C : container) : Prop :=
  exists cc, NoDup (map fst cc) /\ (forall k, assocz k cc = assocz k (BuildCountryCodeToRegionMap coll)) /\ NewContainer coll cc = Ret C.

Section Made.
Variable coll : list meta.
Variable C : container.
Hypothesis O : orderly coll.
Hypothesis M : made_of coll C.
Lemma made_list k l : assocz k (c_cc2region C) = Some l -> Permutation l (map id_of (filter (fun m => (code_of m =? k)%Z) coll)).
Proof.
  destruct M as (cc & D & L & E). destruct (C41_supported _ _ _ E) as (_ & _ & _ & _ & ->). rewrite L. apply (C42_regions coll k). intros m I. apply (ord_id _ O m I).
Qed.
Lemma made_none k : assocz k (c_cc2region C) = None <-> forall m, In m coll -> code_of m <> k.
Proof.
  destruct M as (cc & D & L & E). destruct (C41_supported _ _ _ E) as (_ & _ & _ & _ & ->). rewrite L. apply (C42_regions coll k). intros m I. apply (ord_id _ O m I).
Qed.
Lemma made_regions k r : In r (regions_of C k) <-> exists m, In m coll /\ id_of m = r /\ code_of m = k.
Proof.
  unfold regions_of. destruct (assocz k (c_cc2region C)) as [l|] eqn:E.
  - apply made_list in E. split.
    + intros I. apply (Permutation_in _ E) in I. apply in_map_iff in I as (m & <- & I). apply filter_In in I as (I & K). apply Z.eqb_eq in K. eauto.
    + intros (m & I & <- & <-). apply (Permutation_in _ (Permutation_sym E)). apply in_map. apply filter_In. split; [exact I|apply Z.eqb_refl].
  - pose proof (proj1 (made_none k) E) as H. split; [intros []|]. intros (m & I & _ & Q). destruct (H m I Q).
Qed.
Lemma made_in k l : In (k, l) (c_cc2region C) <-> assocz k (c_cc2region C) = Some l.
Proof. destruct M as (cc & D & L & E). destruct (C41_supported _ _ _ E) as (_ & _ & _ & _ & ->). symmetry. apply assocz_nodup. exact D. Qed.
Lemma made_supported r : In r (c_regions C) <-> r <> bs "001" /\ exists m, In m coll /\ id_of m = r.
Proof.
  pose proof made_in as MI. destruct M as (cc & D & L & E). destruct (C41_supported _ _ _ E) as (_ & R & _ & _ & Q). rewrite R, <- Q. split.
  - intros (N & k & l & I & J). split; [exact N|]. apply MI in I. destruct (proj1 (made_regions k r)) as (m & Im & Em & _); [unfold regions_of; rewrite I; exact J|]. eauto.
  - intros (N & m & I & Em). split; [exact N|]. pose proof (proj2 (made_regions (code_of m) r) (ex_intro _ m (conj I (conj Em eq_refl)))) as J. unfold regions_of in J.
    destruct (assocz (code_of m) (c_cc2region C)) as [l|] eqn:K; [|destruct J]. exists (code_of m), l. split; [apply MI; exact K|exact J].
Qed.
Lemma made_meta r m : r <> bs "001" -> assocb r (c_region C) = Some m <-> In m coll /\ id_of m = r.
Proof.
  intros N. destruct M as (cc & D & L & E). destruct (C41_metadata _ _ _ E) as (R & _). rewrite R. split.
  - intros (_ & a & b & -> & P & _). split; [apply in_or_app; right; left; reflexivity|exact P].
  - intros (I & Em). split; [exact N|]. pose proof (ord_nodup _ O) as Nd. destruct (in_split _ _ I) as (a & b & Q). exists a, b. split; [exact Q|]. split; [exact Em|].
    intros x Ix Ex. assert (x = m).
    { apply (ord_once _ O); [rewrite Q; apply in_or_app; right; right; exact Ix|exact I|congruence|congruence]. }
    subst x. rewrite Q in Nd. apply NoDup_remove_2 in Nd. apply Nd. apply in_or_app. right. exact Ix.
Qed.
Lemma made_code r : GetCountryCodeForRegion C r = match (if isValidRegionCode C r then assocb r (c_region C) else None) with Some m => code_of m | None => 0%Z end.
Proof. unfold GetCountryCodeForRegion, getCountryCodeForValidRegion, getMetadataForRegion. destruct (isValidRegionCode C r); [|reflexivity]. destruct (assocb r (c_region C)); reflexivity. Qed.
Lemma made_valid r : isValidRegionCode C r = true <-> In r (c_regions C).
Proof.
  unfold isValidRegionCode. rewrite andb_true_iff, mem_bytes_iff, negb_true_iff, is_empty_false. split; [tauto|]. intros I. split; [|exact I].
  apply made_supported in I as (_ & m & I & <-). apply (ord_id _ O m I).
Qed.
Lemma made_code_of r m : In m coll -> id_of m = r -> r <> bs "001" -> GetCountryCodeForRegion C r = code_of m.
Proof.
  intros I E N. rewrite made_code. assert (V : isValidRegionCode C r = true) by (apply made_valid, made_supported; eauto). rewrite V.
  rewrite (proj2 (made_meta r m N) (conj I E)). reflexivity.
Qed.
Lemma made_zero r : GetCountryCodeForRegion C r = 0%Z <-> ~ In r (c_regions C).
Proof.
  split.
  - intros E I. apply made_supported in I as (N & m & I & Em). rewrite (made_code_of r m I Em N) in E. apply (ord_id _ O m I). exact E.
  - intros N. rewrite made_code. destruct (isValidRegionCode C r) eqn:V; [|reflexivity]. apply made_valid in V. contradiction.
Qed.
End Made.

(** C81: the supported regions are the ids in the metadata, without the placeholder "001". *)
Theorem C81_regions : forall coll C r, orderly coll -> made_of coll C ->
  (In r (GetSupportedRegions C) <-> r <> bs "001" /\ exists m, In m coll /\ id_of m = r).
Proof. intros coll C r O M. exact (made_supported coll C O M r). Qed.
Print Assumptions C81_regions.
(** C81: a region has a calling code exactly if the calling code lists the region; an unsupported region has code 0. *)
Theorem C81_code_region : forall coll C, orderly coll -> made_of coll C ->
  (forall r k, k <> 0%Z -> (GetCountryCodeForRegion C r = k <-> r <> bs "001" /\ In r (GetRegionCodesForCountryCode C k)))
  /\ (forall r, GetCountryCodeForRegion C r = 0%Z <-> ~ In r (GetSupportedRegions C))
  /\ (forall m, In m coll -> id_of m <> bs "001" -> GetCountryCodeForRegion C (id_of m) = code_of m).
Proof.
  intros coll C O M. split; [|split].
  - intros r k Nk. unfold GetRegionCodesForCountryCode. split.
    + intros E. assert (I : In r (c_regions C)). { destruct (in_dec (list_eq_dec N.eq_dec) r (c_regions C)) as [I|I]; [exact I|]. apply (made_zero coll C O M) in I. congruence. }
      apply (made_supported coll C O M) in I as (Nr & m & I & Em). split; [exact Nr|]. apply (made_regions coll C O M). exists m. rewrite (made_code_of coll C O M r m I Em Nr) in E. auto.
    + intros (Nr & I). apply (made_regions coll C O M) in I as (m & I & Em & Ek). rewrite (made_code_of coll C O M r m I Em Nr). exact Ek.
  - exact (made_zero coll C O M).
  - intros m I N. exact (made_code_of coll C O M _ m I eq_refl N).
Qed.
Print Assumptions C81_code_region.
(** C81: calling codes. A supported code has regions and a main region, an unsupported one has none and the region "ZZ"; the global network codes are
    those with the region "001", which they have alone; no region is listed twice or under two codes. *)
Theorem C81_codes : forall coll C k, orderly coll -> made_of coll C ->
  (In k (GetSupportedCallingCodes C) <-> GetRegionCodesForCountryCode C k <> [])
  /\ (In k (GetSupportedCallingCodes C) <-> GetRegionCodeForCountryCode C k <> bs "ZZ")
  /\ (In k (GetSupportedCallingCodes C) -> exists l, GetRegionCodesForCountryCode C k = GetRegionCodeForCountryCode C k :: l)
  /\ (In k (GetSupportedGlobalNetworkCallingCodes C) <-> GetRegionCodeForCountryCode C k = bs "001")
  /\ (In (bs "001") (GetRegionCodesForCountryCode C k) -> GetRegionCodesForCountryCode C k = [bs "001"])
  /\ NoDup (GetRegionCodesForCountryCode C k)
  /\ (forall k' r, In r (GetRegionCodesForCountryCode C k) -> In r (GetRegionCodesForCountryCode C k') -> r <> bs "001" -> k = k').
Proof.
  intros coll C k O M. unfold GetSupportedCallingCodes, GetSupportedGlobalNetworkCallingCodes, GetRegionCodesForCountryCode.
  pose proof (made_regions coll C O M k) as R. pose proof (made_in coll C M k) as MI. pose proof (made_none coll C O M k) as MN. pose proof (made_list coll C O M k) as ML.
  assert (S : In k (c_codes C) <-> regions_of C k <> []).
  { assert (A : In k (c_codes C) <-> exists l, In (k, l) (c_cc2region C)) by (destruct M as (cc & D & L & E); destruct (C41_supported _ _ _ E) as (A & _ & _ & _ & ->); apply A).
    rewrite A. unfold regions_of in *. split.
    - intros (l & I). apply MI in I. rewrite I in *. intros ->. specialize (ML _ eq_refl). apply Permutation_nil in ML.
      assert (Q : Some (@nil bytes) = None) by (apply MN; intros m Im Em; assert (J : In (id_of m) (map id_of (filter (fun m => (code_of m =? k)%Z) coll))) by (apply in_map, filter_In; split; [exact Im|apply Z.eqb_eq; exact Em]); rewrite ML in J; destruct J). discriminate Q.
    - intros N. destruct (assocz k (c_cc2region C)) as [l|] eqn:E; [|congruence]. exists l. apply MI. reflexivity. }
  assert (F : forall m m', In m coll -> code_of m = k -> id_of m = bs "001" -> In m' coll -> code_of m' = k -> m' = m) by (intros m m' I E Q I' E'; symmetry; apply (ord_alone _ O); auto; congruence).
  assert (D : NoDup (regions_of C k)).
  { unfold regions_of. destruct (assocz k (c_cc2region C)) as [l|] eqn:E; [|constructor]. apply (Permutation_NoDup (Permutation_sym (ML _ eq_refl))).
    pose proof (NoDup_filter (fun m => (code_of m =? k)%Z) (ord_nodup _ O)) as Nf.
    assert (J : forall a b, In a (filter (fun m => (code_of m =? k)%Z) coll) -> In b (filter (fun m => (code_of m =? k)%Z) coll) -> id_of a = id_of b -> a = b).
    { intros a b Ia Ib Eq. apply filter_In in Ia as (Ia & Ka). apply filter_In in Ib as (Ib & Kb). apply Z.eqb_eq in Ka, Kb.
      destruct (list_eq_dec N.eq_dec (id_of a) (bs "001")) as [Q|Q]; [apply (ord_alone _ O); auto; congruence|apply (ord_once _ O); auto]. }
    clear - Nf J. induction Nf as [|x l Nx Nf IH]; [constructor|]. cbn [map]. constructor.
    - intros I. apply in_map_iff in I as (y & Ey & Iy). assert (y = x) by (apply J; [right; exact Iy|left; reflexivity|exact Ey]). congruence.
    - apply IH. intros a b Ia Ib. apply J; right; assumption. }
  assert (A1 : In (bs "001") (regions_of C k) -> regions_of C k = [bs "001"]).
  { intros I. pose proof I as I'. apply R in I' as (m & Im & Em & Ek). assert (U : forall r, In r (regions_of C k) -> r = bs "001") by (intros r Ir; apply R in Ir as (m' & Im' & Em' & Ek'); rewrite (F m m' Im Ek Em Im' Ek') in Em'; congruence).
    destruct (regions_of C k) as [|a [|b l]]; [destruct I|rewrite (U a (or_introl eq_refl)); reflexivity|]. exfalso. inversion D; subst. apply H1. rewrite (U a (or_introl eq_refl)), (U b (or_intror (or_introl eq_refl))). left. reflexivity. }
  assert (Z0 : regions_of C k <> [] -> exists l, regions_of C k = GetRegionCodeForCountryCode C k :: l) by (unfold GetRegionCodeForCountryCode; destruct (regions_of C k); [congruence|eauto]).
  split; [exact S|]. split.
  { rewrite S. split.
    - intros N. destruct (Z0 N) as (l & E). assert (I : In (GetRegionCodeForCountryCode C k) (regions_of C k)) by (rewrite E; left; reflexivity). apply R in I as (m & I & Em & _). rewrite <- Em. apply (ord_id _ O m I).
    - unfold GetRegionCodeForCountryCode. destruct (regions_of C k); [intros N; destruct (N eq_refl)|discriminate]. }
  split; [rewrite S; exact Z0|]. split.
  { assert (A : In k (c_nongeo_codes C) <-> In (k, [bs "001"]) (c_cc2region C)) by (destruct M as (cc & Dc & L & E); destruct (C41_supported _ _ _ E) as (_ & _ & A & _ & ->); apply A).
    rewrite A, MI. split.
    - intros E. unfold GetRegionCodeForCountryCode, regions_of. rewrite E. reflexivity.
    - intros E. assert (N : regions_of C k <> []) by (intros Q; unfold GetRegionCodeForCountryCode in E; rewrite Q in E; discriminate). destruct (Z0 N) as (l & El). rewrite E in El.
      assert (Q : regions_of C k = [bs "001"]) by (apply A1; rewrite El; left; reflexivity). unfold regions_of in Q. destruct (assocz k (c_cc2region C)); [congruence|discriminate]. }
  split; [exact A1|]. split; [exact D|].
  intros k' r I I' N. apply R in I as (m & Im & Em & Ek). apply (made_regions coll C O M) in I' as (m' & Im' & Em' & Ek'). assert (m = m') by (apply (ord_once _ O); auto; congruence). congruence.
Qed.
Print Assumptions C81_codes.
(** C81: the regions of the North American plan are those with calling code 1. *)
Theorem C81_nanpa : forall coll C r, orderly coll -> made_of coll C -> r <> bs "001" -> IsNANPACountry C r = true <-> GetCountryCodeForRegion C r = 1%Z.
Proof.
  intros coll C r O M N. rewrite (proj1 (C81_code_region coll C O M) r 1%Z) by discriminate. unfold IsNANPACountry, GetRegionCodesForCountryCode, regions_of. rewrite mem_bytes_iff.
  assert (A : In r (c_nanpa C) <-> exists l, assocz 1 (c_cc2region C) = Some l /\ In r l) by (destruct M as (cc & Dc & L & E); destruct (C41_supported _ _ _ E) as (_ & _ & _ & A & ->); apply A).
  rewrite A. split.
  - intros (l & E & I). rewrite E. auto.
  - intros (_ & I). destruct (assocz 1 (c_cc2region C)) as [l|]; [eauto|destruct I].
Qed.
Print Assumptions C81_nanpa.
(** The shipped metadata are orderly. *)
Definition apart (a b : meta) : bool :=
  if beq (id_of a) (bs "001") then negb (code_of a =? code_of b)%Z else if beq (id_of b) (bs "001") then negb (code_of a =? code_of b)%Z else negb (beq (id_of a) (id_of b)).
Fixpoint all_apart (l : list meta) : bool := match l with [] => true | a :: t => forallb (apart a) t && all_apart t end.
Definition entry_b (m : meta) : bool := negb (is_empty (id_of m)) && negb (beq (id_of m) (bs "ZZ")) && negb (code_of m =? 0)%Z.
Lemma apart_in l : all_apart l = true -> forall a b, In a l -> In b l -> a = b \/ apart a b = true \/ apart b a = true.
Proof.
  induction l as [|x l IH]; cbn [all_apart]; [intros _ a b []|]. rewrite andb_true_iff, forallb_forall. intros (H & T) a b [<-|Ia] [<-|Ib]; auto.
Qed.
Lemma apart_self a : apart a a = false.
Proof. unfold apart. rewrite Z.eqb_refl, beq_refl. destruct (beq (id_of a) (bs "001")); reflexivity. Qed.
Lemma orderly_b l : forallb entry_b l = true -> all_apart l = true -> orderly l.
Proof.
  intros E A. pose proof (apart_in l A) as P. split.
  - intros m I. rewrite forallb_forall in E. specialize (E m I). unfold entry_b in E. rewrite !andb_true_iff, !negb_true_iff in E. destruct E as ((E1 & E2) & E3). apply is_empty_false in E1. apply beq_neq in E2. apply Z.eqb_neq in E3. auto.
  - intros m m' I I' Q N. destruct (P m m' I I') as [?|[H|H]]; [assumption| |]; exfalso; unfold apart in H; rewrite Q in *; apply beq_neq in N; rewrite N, ?beq_refl in H; discriminate.
  - clear E P. induction l as [|x l IH]; [constructor|]. cbn [all_apart] in A. apply andb_true_iff in A as (H & T). constructor; [|auto]. intros I. rewrite forallb_forall in H. specialize (H x I). rewrite apart_self in H. discriminate.
  - intros m m' I I' Q N. destruct (P m m' I I') as [?|[H|H]]; [assumption| |]; exfalso; unfold apart in H; rewrite N, beq_refl, Q, Z.eqb_refl in H; try destruct (beq (id_of m') (bs "001")); discriminate.
Qed.
Theorem C81_shipped : orderly shipped_collection /\ made_of shipped_collection shipped.
Proof.
  split; [apply orderly_b; vm_cast_no_check (eq_refl true)|]. exists shipped_cc2region. split; [|split; [intros k; symmetry; apply C42_shipped|exact shipped_is_NewContainer]].
  assert (H : forall l, (fix go l := match l with [] => true | a :: t => negb (memz a t) && go t end) l = true -> NoDup l).
  { induction l as [|a l IH]; [constructor|]. rewrite andb_true_iff, negb_true_iff. intros (N & T). constructor; [|apply IH; exact T]. intros I. apply memz_iff in I. congruence. }
  apply H. vm_cast_no_check (eq_refl true).
Qed.
Print Assumptions C81_shipped.
Theorem C81_nanpa_shipped : forall r, IsNANPACountry shipped r = true <-> GetCountryCodeForRegion shipped r = 1%Z.
Proof.
  intros r. destruct (list_eq_dec N.eq_dec r (bs "001")) as [->|N].
  - split; intros H; vm_compute in H; discriminate.
  - exact (C81_nanpa shipped_collection shipped r (proj1 C81_shipped) (proj2 C81_shipped) N).
Qed.
Print Assumptions C81_nanpa_shipped.
Example C81_witness : GetRegionCodesForCountryCode shipped 7 = [bs "RU"; bs "KZ"] /\ GetRegionCodeForCountryCode shipped 7 = bs "RU" /\ GetCountryCodeForRegion shipped (bs "KZ") = 7%Z
  /\ GetRegionCodeForCountryCode shipped 800 = bs "001" /\ memz 800 (GetSupportedGlobalNetworkCallingCodes shipped) = true /\ GetRegionCodeForCountryCode shipped 999 = bs "ZZ"
  /\ memz 999 (GetSupportedCallingCodes shipped) = false /\ GetCountryCodeForRegion shipped (bs "001") = 0%Z /\ IsNANPACountry shipped (bs "JM") = true
  /\ length (GetSupportedRegions shipped) = 245%nat /\ length (GetSupportedCallingCodes shipped) = 215%nat /\ length (GetSupportedGlobalNetworkCallingCodes shipped) = 9%nat.
Proof. vm_compute. repeat split. Qed.

(** * C82: numbers of shared calling codes *)
Lemma made_listed coll C : orderly coll -> made_of coll C -> listed C.
Proof.
  intros O M. split.
  - intros r m E. unfold getMetadataForRegion in E. destruct (isValidRegionCode C r) eqn:V; [|discriminate]. apply (made_valid coll C O M), (made_supported coll C O M) in V as (N & _).
    apply (made_meta coll C O M r m N) in E as (I & Em). apply (made_regions coll C O M). exists m. auto.
  - intros cc m E. unfold getMetadataForNonGeographicalRegion in E. destruct (hasValidCountryCallingCode C cc); [|discriminate]. pose proof M as (tab & _ & _ & Q). destruct (C41_metadata _ _ _ Q) as (_ & H).
    apply H in E as (a & b & E & (Ei & Ec) & _). destruct (C81_codes coll C cc O M) as (_ & _ & _ & _ & A1 & _). apply A1. apply (made_regions coll C O M). exists m. split; [rewrite E; apply in_or_app; right; left; reflexivity|auto].
Qed.
(** The calling codes with ranges of fixed or mobile lines that several regions have in common: Italy and the Vatican, the United Kingdom and the Isle of
    Man, Norway and Svalbard, Australia and its territories, Morocco and Western Sahara, Finland and Aland, Guadeloupe and its neighbours. *)
Definition overlapping : list Z := [39; 44; 47; 61; 212; 358; 590]%Z.
Lemma shipped_clear : regions_clear overlapping shipped = true.
Proof. vm_cast_no_check (eq_refl true). Qed.
Lemma shipped_agrees : agrees overlapping shipped. Proof. exact (clear_agrees overlapping shipped shipped_clear). Qed.
Lemma shipped_listed : listed shipped. Proof. exact (made_listed _ _ (proj1 C81_shipped) (proj2 C81_shipped)). Qed.

(** C82: a number is valid exactly if it is valid for some region. *)
Theorem C82_valid : forall n, IsValidNumber shipped n = Ret true <-> exists r, IsValidNumberForRegion shipped n r = Ret true.
Proof. exact (valid_iff_region shipped overlapping shipped_wf shipped_agrees shipped_listed). Qed.
Print Assumptions C82_valid.
(** C82: the type reported for a number is the one it has in every region for which it is valid. *)
Theorem C82_type : forall n r m, IsValidNumberForRegion shipped n r = Ret true -> meta_of shipped (cc_of n) r = Some m ->
  exists t, GetNumberType shipped n = Ret t /\ reported_type m (GetNationalSignificantNumber n) t.
Proof. exact (type_any_region shipped overlapping shipped_wf shipped_agrees shipped_listed). Qed.
Print Assumptions C82_type.
(** C82: outside the calling codes above, a fixed-line or mobile number is valid for one region only, the one GetRegionCodeForNumber reports. *)
Theorem C82_one_region : forall n t r, GetNumberType shipped n = Ret t -> t = FIXED_LINE \/ t = MOBILE \/ t = FIXED_LINE_OR_MOBILE -> ~ In (cc_of n) overlapping ->
  (IsValidNumberForRegion shipped n r = Ret true <-> GetRegionCodeForNumber shipped n = Ret r).
Proof.
  intros n t r Et Lt N. split.
  - intros V. exact (line_one_region shipped overlapping shipped_wf shipped_agrees shipped_listed n r t V Et Lt N).
  - intros E. destruct (type_valid_spec shipped n shipped_wf) as (t' & b & Et' & Eb & Hb & _). rewrite Et in Et'. injection Et' as <-. destruct (valid_spec shipped n shipped_wf) as (q & b' & Eq & Eb' & Ev). rewrite E in Eq. injection Eq as <-.
    rewrite Eb', <- Ev, Eb. f_equal. apply Hb. destruct Lt as [->|[->| ->]]; discriminate.
Qed.
Print Assumptions C82_one_region.
(** C82: listing the regions of a calling code in another order changes neither validity nor type. *)
Theorem C82_order : forall C n, wf_container C -> reordered shipped C -> IsValidNumber C n = IsValidNumber shipped n /\ GetNumberType C n = GetNumberType shipped n.
Proof. intros C n Wc R. exact (re_same shipped C R overlapping n shipped_wf Wc shipped_agrees shipped_listed). Qed.
Print Assumptions C82_order.
(** Each of the seven codes is an exception. *)
Definition both (cc : Z) (nn : N) (r r' : bytes) (t : ptype) : Prop :=
  let n := set_nn (set_cc phone0 (Some cc)) (Some nn) in
  IsValidNumberForRegion shipped n r = Ret true /\ IsValidNumberForRegion shipped n r' = Ret true /\ r <> r' /\ GetNumberType shipped n = Ret t.
Theorem C82_one_region_refuted :
  both 39 320000000 (bs "IT") (bs "VA") MOBILE /\ both 44 7924000000 (bs "GB") (bs "IM") MOBILE /\ both 47 40000000 (bs "NO") (bs "SJ") MOBILE
  /\ both 61 891010000 (bs "AU") (bs "CC") FIXED_LINE /\ both 212 528800000 (bs "EH") (bs "MA") FIXED_LINE /\ both 358 400000 (bs "AX") (bs "FI") MOBILE /\ both 590 590280000 (bs "BL") (bs "GP") FIXED_LINE.
Proof. unfold both. repeat (split; [vm_compute; split; [reflexivity|split; [reflexivity|split; [discriminate|reflexivity]]]|]). vm_compute. split; [reflexivity|split; [reflexivity|split; [discriminate|reflexivity]]]. Qed.
Print Assumptions C82_one_region_refuted.
(** The same metadata with every list of regions reversed. *)
Definition backwards (C : container) : container :=
  {| c_cc2region := map (fun e => (fst e, rev (snd e))) (c_cc2region C); c_region := c_region C; c_nongeo := c_nongeo C; c_nanpa := c_nanpa C;
     c_regions := c_regions C; c_codes := c_codes C; c_nongeo_codes := c_nongeo_codes C |}.
Lemma backwards_look C k : assocz k (c_cc2region (backwards C)) = match assocz k (c_cc2region C) with Some l => Some (rev l) | None => None end.
Proof. unfold assocz, backwards. cbn [c_cc2region]. induction (c_cc2region C) as [|[a l] t IH]; [reflexivity|]. cbn. destruct (k =? a)%Z; [reflexivity|exact IH]. Qed.
Lemma backwards_reordered C : reordered C (backwards C).
Proof.
  split; [reflexivity|]. split; [reflexivity|]. split; [reflexivity|]. intros cc. unfold regions_of, hasValidCountryCallingCode. rewrite backwards_look. destruct (assocz cc (c_cc2region C)) as [l|]; [|split; auto]. split; [symmetry; apply Permutation_rev|reflexivity].
Qed.
Lemma backwards_wf C : wf_container C -> wf_container (backwards C).
Proof.
  intros W. split; [exact (wf_region _ W)|exact (wf_nongeo _ W)|exact (wf_supported _ W)|]. intros cc l I. cbn [backwards c_cc2region] in I. apply in_map_iff in I as ([cc' l'] & E & I). cbn [fst snd] in E. injection E as <- <-.
  destruct (wf_cc _ W _ _ I) as (A & B & D & G & H). split; [exact A|]. split; [intros Q; apply B; rewrite <- (rev_involutive l'), Q; reflexivity|]. split; [apply NoDup_rev; exact D|]. split.
  - intros J. apply in_rev in J. rewrite (G J). reflexivity.
  - intros r J. apply in_rev in J. apply H. exact J.
Qed.
(** A toll-free number of the North American plan is valid for all its regions and attributed to the first one listed; a Jamaican number is valid for
    Jamaica only. *)
Example C82_witness : let n := set_nn (set_cc phone0 (Some 1%Z)) (Some 8002530000) in let j := set_nn (set_cc phone0 (Some 1%Z)) (Some 8765230123) in
  GetNumberType shipped n = Ret TOLL_FREE /\ IsValidNumberForRegion shipped n (bs "US") = Ret true /\ IsValidNumberForRegion shipped n (bs "VI") = Ret true
  /\ GetRegionCodeForNumber shipped n = Ret (bs "US") /\ wf_container (backwards shipped) /\ reordered shipped (backwards shipped) /\ GetRegionCodeForNumber (backwards shipped) n = Ret (bs "CA")
  /\ GetNumberType shipped j = Ret FIXED_LINE_OR_MOBILE /\ GetRegionCodeForNumber shipped j = Ret (bs "JM") /\ ~ In 1%Z overlapping.
Proof.
  cbv zeta. split; [vm_compute; reflexivity|]. split; [vm_compute; reflexivity|]. split; [vm_compute; reflexivity|]. split; [vm_compute; reflexivity|]. split; [exact (backwards_wf shipped shipped_wf)|]. split; [exact (backwards_reordered shipped)|].
  split; [vm_compute; reflexivity|]. split; [vm_compute; reflexivity|]. split; [vm_compute; reflexivity|]. cbn. intuition discriminate.
Qed.
