(** Proofs for the query functions: type precedence, supported types, geographical numbers, diallability from abroad. *)
From Verif Require Import Base BaseFacts Utf8 Regex Consts Types Validate MetaSpec ValidateSpec ValidateFacts NumberSpec NumberFacts
  QuerySpec FormatFacts FormatMore.

Lemma first_type_order s m l : wf_meta m -> (forall t f, In (t, f) l -> f m = desc_for m t /\ t <> FIXED_LINE_OR_MOBILE) ->
  exists o, first_type s (Some m) l = Ret o /\
    match o with
    | Some t => exists pre post, map fst l = pre ++ t :: post /\ accepts (desc_for m t) s /\ forall u, In u pre -> ~ accepts (desc_for m u) s
    | None => forall t, In t (map fst l) -> ~ accepts (desc_for m t) s end.
Proof.
  intros W. induction l as [|[t f] l IH]; intros H; cbn [first_type].
  - exists None. split; auto.
  - destruct (H t f (or_introl eq_refl)) as (E & Nt). change (mdesc f (Some m)) with (f m). rewrite E.
    assert (D : wf_desc (desc_for m t)) by (pose proof (wf_desc_in m t W); destruct t; congruence || assumption).
    destruct (matching_desc_spec s _ D) as (b & Eb & Ib). rewrite Eb. cbn [bind]. destruct b.
    + exists (Some t). split; auto. exists [], (map fst l). split; [reflexivity|]. split; [apply Ib; auto|intros u []].
    + destruct IH as (o & Eo & Ho); [intros; apply H; right; auto|]. exists o. split; auto. destruct o as [t'|].
      * destruct Ho as (pre & post & Ho & Ha & Hp). exists (t :: pre), post. cbn [map fst app]. rewrite Ho. split; [auto|]. split; [auto|].
        intros u [<-|I]; auto. rewrite <- Ib. discriminate.
      * intros t' [<-|I]; auto. cbn [fst]. rewrite <- Ib. discriminate.
Qed.

Lemma simple_type m s t : In t (map fst type_order) -> has_type m s t -> accepts (desc_for m t) s.
Proof. intros I [_ H]. unfold type_order in I. simpl in I. repeat (destruct I as [<-|I]; [exact H|]). destruct I. Qed.

Lemma helper_reported s m : wf_meta m -> exists t, getNumberTypeHelper s (Some m) = Ret t /\ reported_type m s t.
Proof.
  intros W. unfold getNumberTypeHelper.
  destruct (matching_desc_spec s _ (wf_desc_in m UNKNOWN W)) as (g & Eg & Ig). simpl in Eg, Ig.
  change (mdesc md_general (Some m)) with (md_general m). rewrite Eg. cbn [bind]. destruct g; cbn [negb].
  2:{ exists UNKNOWN. split; auto. right. split; auto. intros t' [H _]. apply Ig in H. discriminate. }
  assert (G : accepts (md_general m) s) by (apply Ig; auto).
  destruct (first_type_order s m type_order W) as (o & Eo & Ho).
  { unfold type_order. intros t f I. simpl in I. repeat (destruct I as [I|I]; [inv I; split; [reflexivity|discriminate]|]). destruct I. }
  rewrite Eo. cbn [bind]. destruct o as [t|].
  { destruct Ho as (pre & post & Hl & A & Hp). exists t. split; auto. left. exists pre, (post ++ [FIXED_LINE_OR_MOBILE; FIXED_LINE; MOBILE]).
    change precedence with (map fst type_order ++ [FIXED_LINE_OR_MOBILE; FIXED_LINE; MOBILE]). rewrite Hl, <- app_assoc. split; [reflexivity|].
    assert (It : In t (map fst type_order)) by (rewrite Hl; apply in_or_app; right; left; auto).
    split.
    - split; auto. unfold type_order in It. simpl in It. repeat (destruct It as [<-|It]; [exact A|]). destruct It.
    - intros u Iu Hu. apply (Hp u Iu). apply simple_type; auto. rewrite Hl. apply in_or_app; auto. }
  assert (Ho' : forall u, In u (map fst type_order) -> ~ has_type m s u) by (intros u Iu Hu; eapply Ho; [exact Iu|apply simple_type; auto]).
  clear Ho. rename Ho' into Ho.
  destruct (matching_desc_spec s _ (wf_desc_in m FIXED_LINE W)) as (fx & Ef & If). simpl in Ef, If.
  destruct (matching_desc_spec s _ (wf_desc_in m MOBILE W)) as (mb & Em & Im). simpl in Em, Im.
  change (mdesc md_fixed (Some m)) with (md_fixed m). change (mdesc md_mobile (Some m)) with (md_mobile m).
  rewrite Ef, Em. cbn [bind]. unfold mbool, mget.
  assert (Same : get_bool (md_same m) = true <-> md_same m = Some true).
  { unfold get_bool. destruct (md_same m) as [[|]|]; split; congruence. }
  assert (FM : has_type m s FIXED_LINE_OR_MOBILE <-> fx = true /\ (get_bool (md_same m) = true \/ mb = true)).
  { unfold has_type. rewrite Same, If, Im. tauto. }
  assert (F : has_type m s FIXED_LINE <-> fx = true) by (unfold has_type; simpl; rewrite If; tauto).
  assert (Mo : has_type m s MOBILE <-> get_bool (md_same m) = false /\ mb = true).
  { assert (NS : get_bool (md_same m) = false <-> md_same m <> Some true) by (rewrite <- Same; destruct (get_bool (md_same m)); split; congruence).
    rewrite NS, Im. unfold has_type. tauto. }
  set (top := map fst type_order) in *.
  assert (P : precedence = top ++ [FIXED_LINE_OR_MOBILE; FIXED_LINE; MOBILE]) by reflexivity.
  assert (No : ~ has_type m s FIXED_LINE_OR_MOBILE -> ~ has_type m s FIXED_LINE -> ~ has_type m s MOBILE -> forall u, ~ has_type m s u).
  { intros H1 H2 H3 u Hu. destruct u; auto; try (eapply Ho; [|exact Hu]; subst top; simpl; tauto). destruct Hu as [_ []]. }
  clearbody top. destruct fx.
  - destruct (get_bool (md_same m)) eqn:Es; [|destruct mb].
    + exists FIXED_LINE_OR_MOBILE. split; auto. left. exists top, [FIXED_LINE; MOBILE]. split; [exact P|]. split; [apply FM; auto|auto].
    + exists FIXED_LINE_OR_MOBILE. split; auto. left. exists top, [FIXED_LINE; MOBILE]. split; [exact P|]. split; [apply FM; auto|auto].
    + exists FIXED_LINE. split; auto. left. exists (top ++ [FIXED_LINE_OR_MOBILE]), [MOBILE]. rewrite <- app_assoc. split; [exact P|]. split; [apply F; auto|].
      intros u Iu. apply in_app_or in Iu as [Iu|[<-|[]]]; auto. rewrite FM. intros [_ [?|?]]; discriminate.
  - destruct (get_bool (md_same m)) eqn:Es; [|destruct mb].
    + exists UNKNOWN. split; auto. right. split; auto. apply No; rewrite ?FM, ?F, ?Mo; intuition discriminate.
    + exists MOBILE. split; auto. left. exists (top ++ [FIXED_LINE_OR_MOBILE; FIXED_LINE]), []. rewrite <- app_assoc. split; [exact P|]. split; [apply Mo; auto|].
      intros u Iu. apply in_app_or in Iu as [Iu|[<-|[<-|[]]]]; auto; rewrite ?FM, ?F; intuition discriminate.
    + exists UNKNOWN. split; auto. right. split; auto. apply No; rewrite ?FM, ?F, ?Mo; intuition discriminate.
Qed.

Lemma prec_nodup : NoDup precedence.
Proof. unfold precedence. repeat (constructor; [simpl; intuition discriminate|]). constructor. Qed.
Lemma split_first {A} (P : A -> Prop) (l : list A) : forall p1 q1 a1 p2 q2 a2, l = p1 ++ a1 :: q1 -> l = p2 ++ a2 :: q2 ->
  P a1 -> P a2 -> (forall u, In u p1 -> ~ P u) -> (forall u, In u p2 -> ~ P u) -> a1 = a2.
Proof.
  induction l as [|x l IH]; intros p1 q1 a1 p2 q2 a2 E1 E2 H1 H2 N1 N2; [destruct p1; discriminate|].
  destruct p1 as [|y p1], p2 as [|z p2]; cbn [app] in E1, E2.
  - congruence.
  - inv E1. inv E2. exfalso. eapply N2; [left; reflexivity|auto].
  - inv E1. inv E2. exfalso. eapply N1; [left; reflexivity|auto].
  - inv E1. inv E2. eapply IH; eauto; intros u Iu; [apply N1|apply N2]; right; auto.
Qed.
Lemma reported_unique m s t u : reported_type m s t -> reported_type m s u -> t = u.
Proof.
  intros [(p & q & E & H & Hp)|[-> H]] [(p' & q' & E' & H' & Hp')|[-> H']]; auto.
  - eapply (split_first (has_type m s)); eauto.
  - destruct (H' _ H).
  - destruct (H _ H').
Qed.

Lemma type_reported C n r m : wf_container C -> GetRegionCodeForNumber C n = Ret r -> r <> [] -> meta_of C (cc_of n) r = Some m ->
  exists t, GetNumberType C n = Ret t /\ reported_type m (GetNationalSignificantNumber n) t.
Proof.
  intros W Er Nr Em. destruct (found_region_meta C n r W Er Nr) as (m' & E1 & E2 & Wm & _). rewrite Em in E2. inv E2.
  unfold GetNumberType. rewrite Er. cbn [bind]. change (get_cc n) with (cc_of n). rewrite E1. apply helper_reported; auto.
Qed.
Lemma type_no_region C n : GetRegionCodeForNumber C n = Ret [] -> GetNumberType C n = Ret UNKNOWN.
Proof. intros E. unfold GetNumberType. rewrite E. reflexivity. Qed.

(** * Diallability from abroad *)
Lemma dialled_spec C n : wf_container C -> exists b, CanBeInternationallyDialled C n = Ret b /\
  (b = false <-> exists r m, GetRegionCodeForNumber C n = Ret r /\ In r (c_regions C) /\ assocb r (c_region C) = Some m /\
     accepts (md_noint m) (GetNationalSignificantNumber n)).
Proof.
  intros W. unfold CanBeInternationallyDialled. destruct (region_total C n W) as (r & Er). rewrite Er. cbn [bind].
  destruct (getMetadataForRegion C r) as [m|] eqn:Em.
  - pose proof (region_meta_wf C r m W Em) as Wm. destruct (matching_desc_spec (GetNationalSignificantNumber n) _ (noint_wf m Wm)) as (b & Eb & Ib).
    rewrite Eb. cbn [bind]. eexists. split; [reflexivity|]. rewrite negb_false_iff, Ib. unfold getMetadataForRegion in Em.
    destruct (isValidRegionCode C r) eqn:V; [|discriminate]. apply valid_region_iff in V as [_ V]. split.
    + intros H. exists r, m. auto.
    + intros (r' & m' & Er' & _ & Em' & H). inv Er'. rewrite Em in Em'. inv Em'. auto.
  - exists true. split; auto. split; [discriminate|]. intros (r' & m & Er' & Ir & Em' & _). inv Er'. exfalso.
    unfold getMetadataForRegion in Em. destruct (wf_supported _ W _ Ir) as (Nr & _).
    rewrite (proj2 (valid_region_iff C r') (conj Nr Ir)) in Em. congruence.
Qed.

(** * Geographical numbers *)
Lemma ptype_eqb_iff a b : ptype_eqb a b = true <-> a = b.
Proof. destruct a, b; simpl; split; congruence. Qed.
Lemma geographical_spec t cc : (-2147483648 <= cc < 2147483648)%Z -> IsNumberGeographicalForType t cc = true <-> geographical cc t.
Proof.
  intros R. unfold IsNumberGeographicalForType, geographical. rewrite to_int32_id by auto.
  change geoMobileCountries with geographical_mobile. rewrite !orb_true_iff, andb_true_iff, memz_iff, !ptype_eqb_iff. tauto.
Qed.

(** * Supported types *)
Lemma has_data_iff d : descHasData (Some d) = true <-> informs d.
Proof.
  unfold descHasData, informs, get_d_example, get_bytes. rewrite !orb_true_iff, desc_has_iff, negb_true_iff, is_empty_false. unfold has_numbers.
  assert (A : match d_example d with Some b => b | None => [] end <> [] <-> exists e, d_example d = Some e /\ e <> []).
  { destruct (d_example d) as [e|]; split; [eauto|intros (e' & E & H); congruence|congruence|intros (e' & E & H); congruence]. }
  rewrite A. assert (B : is_some (d_pattern d) = true <-> d_pattern d <> None) by (destruct (d_pattern d); simpl; split; congruence). rewrite B. tauto.
Qed.
Lemma supported_spec m t : wf_meta m -> In t (getSupportedTypesForMetadata (Some m)) <->
  t <> UNKNOWN /\ exists d, desc_for m t = Some d /\ informs d.
Proof.
  intros W. unfold getSupportedTypesForMetadata. rewrite filter_In, andb_true_iff, negb_true_iff, orb_false_iff.
  assert (I : In t allPhoneNumberTypes) by (destruct t; simpl; tauto).
  assert (H : forall d, descHasData (Some d) = true <-> exists x, Some d = Some x /\ informs x).
  { intros d. rewrite has_data_iff. split; [eauto|intros (x & E & Hx); congruence]. }
  assert (D : t <> FIXED_LINE_OR_MOBILE -> getNumberDescByType (Some m) t = desc_for m t) by (destruct t; congruence || reflexivity).
  assert (NF : ptype_eqb t FIXED_LINE_OR_MOBILE = false <-> t <> FIXED_LINE_OR_MOBILE).
  { rewrite <- not_true_iff_false, ptype_eqb_iff. tauto. }
  assert (NU : ptype_eqb t UNKNOWN = false <-> t <> UNKNOWN).
  { rewrite <- not_true_iff_false, ptype_eqb_iff. tauto. }
  rewrite NF, NU. split.
  - intros (_ & (N1 & N2) & Hd). split; auto. rewrite D in Hd by auto.
    destruct (desc_for m t) as [d|]; [apply H; auto|discriminate].
  - intros (N2 & d & Ed & Hd). split; auto. assert (N1 : t <> FIXED_LINE_OR_MOBILE) by (intros ->; discriminate). split; [tauto|].
    rewrite D, Ed by auto. apply has_data_iff. auto.
Qed.
Lemma accepts_informs d s : accepts (Some d) s -> informs d.
Proof.
  intros (x & E & [H|H] & _); inv E; right; left.
  - rewrite H. discriminate.
  - intros E. rewrite E in H. destruct H as [H|[]]. lia.
Qed.
