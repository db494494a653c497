(** C79: typing an international number ends in showing what Format prints for it. *)
From Verif Require Import Base BaseFacts Regex RegexFacts NumberSpec NumberFacts PropsNumber Consts Types Shipped Validate Normalize Format MetaSpec MetaFacts FormatSpec FormatFacts FormatMore DerivFacts PropsFormat
  RuleSpec RuleFacts RuleMore PropsRule AsYouType AytfSpec AytfFacts AytfMore AytfDigits PropsAytf PropsValidate ShowFacts ShowShip ShowMore ShowRun.
Local Opaque compile re_find re_replace_all safe.

(** The rules of every entry can be told apart digit by digit, in the sense of ShowFacts. *)
Definition shows_clear (C : container) : Prop := forall m, In m (map snd (c_region C) ++ map snd (c_nongeo C)) -> meta_clear m = true.
Lemma shipped_shows_clear : shows_clear shipped.
Proof. intros m. apply (proj1 (forallb_forall _ _) shipped_clear). Qed.
Lemma empty_plus : plus_first (Some emptyMetadata) = true. Proof. vm_compute. reflexivity. Qed.
Lemma region_listed C r m : getMetadataForRegion C r = Some m -> In m (map snd (c_region C) ++ map snd (c_nongeo C)).
Proof. unfold getMetadataForRegion. destruct (isValidRegionCode C r); [|discriminate]. intros H. apply assocb_In in H. apply in_or_app. left. apply in_map_iff. eexists; split; [|exact H]. reflexivity. Qed.
Lemma nongeo_listed C cc m : getMetadataForNonGeographicalRegion C cc = Some m -> In m (map snd (c_region C) ++ map snd (c_nongeo C)).
Proof. unfold getMetadataForNonGeographicalRegion. destruct (hasValidCountryCallingCode C cc); [|discriminate]. intros H. apply assocz_In in H. apply in_or_app. right. apply in_map_iff. eexists; split; [|exact H]. reflexivity. Qed.

Theorem C79_international_any : forall C region n m f ks, aytf_ok C -> wf_container C -> rules_fine C -> prefix_free (map fst (c_cc2region C)) -> shows_clear C ->
  hasValidCountryCallingCode C (cc_of n) = true -> has_number n -> ext_of n = [] ->
  main_entry C (cc_of n) m -> first_applying (rules m INTERNATIONAL) (GetNationalSignificantNumber n) (Some f) -> (3 <= length (GetNationalSignificantNumber n) <= 17)%nat ->
  Format C n E164 = Ret (typed ks) ->
  exists s, press C (GetAsYouTypeFormatter C region) ks = Ret s /\ Format C n INTERNATIONAL = Ret (f_out s).
Proof.
  intros C region n m f ks CO W RF PF SC V H X Me Fa L T. pose proof (has_number_raw _ H) as R.
  destruct (format_rule C n INTERNATIONAL W RF R (or_intror eq_refl) V) as (m1 & body & Me1 & Pb & Ef). destruct (main_entry_ok C _ W V) as (m2 & Me2 & Mm & _).
  assert (E1 : m1 = m) by (destruct Me as (r & l & A & B), Me1 as (r1 & l1 & A1 & B1); congruence). assert (E2 : m2 = m) by (destruct Me as (r & l & A & B), Me2 as (r1 & l1 & A1 & B1); congruence). subst m1 m2.
  destruct Pb as (r & Fr & Pb). pose proof (first_applying_unique _ _ _ _ Fa Fr). subst r. destruct Pb as (x & t & Cx & Tt & ->). cbn [template] in Tt. subst t.
  destruct Fa as (pre & post & El & Ap & Np).
  assert (Lm : In m (map snd (c_region C) ++ map snd (c_nongeo C)) /\ aytf_meta_okb (Some m) = true).
  { pose proof Mm as Q. unfold main_meta, getMetadataForRegionOrCallingCode in Q. destruct CO as [CO1 CO2]. destruct (beq nonGeoEntity _); [split; [eapply nongeo_listed; exact Q|]|split; [eapply region_listed; exact Q|]]; rewrite <- Q; auto. }
  destruct Lm as [Lm Mo]. pose proof (SC m Lm) as Mc. unfold meta_clear in Mc. apply andb_prop in Mc as [Mp Mc].
  assert (Plus : forall mm, mm = Some m \/ mm = aytf_metadata C region -> plus_first mm = true).
  { intros mm [->| ->]; [exact Mp|]. unfold aytf_metadata. destruct (getMetadataForRegion C _) as [m'|] eqn:Em; [|exact empty_plus]. apply region_listed in Em. apply SC in Em. unfold meta_clear in Em. apply andb_prop in Em as [Em _]. exact Em. }
  destruct (press_total C region ks CO [] _ (good_new C region) (fun _ => new_np _ _ CO)) as (s & Es). exists s. split; [exact Es|].
  destruct (press_reset C region ks) as (k2 & M & K). specialize (K s Es). rewrite C06_e164 in T by (destruct H as [H|H]; [left; exact H|right; unfold get_raw in H; destruct (p_raw n) as [w|]; [right; f_equal; exact H|left; reflexivity]]). assert (T' : bs "+" ++ itoa (cc_of n) ++ GetNationalSignificantNumber n = typed ks) by congruence. rewrite <- T' in M. change (bs "+" ++ itoa (cc_of n) ++ GetNationalSignificantNumber n) with (43 :: itoa (cc_of n) ++ GetNationalSignificantNumber n) in M.
  pose proof (all_show C region (cc_of n) (GetNationalSignificantNumber n) m f pre post x W PF V Mm Mo Plus Mc (nsn_digits n) (proj1 L) (proj2 L) El Ap Np Cx k2 M) as S. rewrite K in S. cbn [holds] in S.
  rewrite Ef, S. unfold prefixNumberWithCountryCallingCode, shown_text. rewrite X. cbn [extension_text]. rewrite app_nil_r. reflexivity.
Qed.
Print Assumptions C79_international_any.
(** With the shipped metadata, whichever region the formatter was made for. *)
Theorem C79_international : forall region n m f ks, supported n -> has_number n -> ext_of n = [] ->
  main_entry shipped (cc_of n) m -> first_applying (rules m INTERNATIONAL) (GetNationalSignificantNumber n) (Some f) -> (3 <= length (GetNationalSignificantNumber n) <= 17)%nat ->
  Format shipped n E164 = Ret (typed ks) ->
  exists s, press shipped (GetAsYouTypeFormatter shipped region) ks = Ret s /\ Format shipped n INTERNATIONAL = Ret (f_out s).
Proof. intros region n m f ks. exact (C79_international_any shipped region n m f ks shipped_aytf_ok shipped_wf shipped_rules C07_shipped_codes_prefix_free shipped_shows_clear). Qed.
Print Assumptions C79_international.
(** The hypotheses are met: a British number typed into a formatter for the United States. *)
Definition london : phone := num 44 2070313000.
Definition keys_of (s : bytes) : list key := map Digit s.
Example C79_witness : supported london /\ has_number london /\ ext_of london = [] /\ Format shipped london E164 = Ret (typed (keys_of (bs "+442070313000"))) /\ GetNationalSignificantNumber london = bs "2070313000" /\
  (exists m f, main_entry shipped (cc_of london) m /\ first_applying (rules m INTERNATIONAL) (GetNationalSignificantNumber london) (Some f)) /\
  exists s, press shipped (GetAsYouTypeFormatter shipped (bs "US")) (keys_of (bs "+442070313000")) = Ret s /\ f_out s = bs "+44 20 7031 3000".
Proof.
  split; [vm_compute; reflexivity|]. split; [left; discriminate|]. split; [reflexivity|]. split; [vm_compute; reflexivity|]. split; [vm_compute; reflexivity|]. split.
  - destruct (C60_international london) as (m & body & Me & (r & Fa & P) & Ef); [vm_compute; reflexivity|left; discriminate|]. exists m. destruct r as [f|]; [exists f; auto|]. exfalso. subst body.
    assert (Q : Format shipped london INTERNATIONAL = Ret (bs "+44 20 7031 3000")) by (vm_compute; reflexivity). rewrite Q in Ef. injection Ef as Ef. cbv in Ef. discriminate.
  - eexists. split; vm_compute; reflexivity.
Qed.
(** Finding: where no rule applies Format puts a space after the calling code and the formatter shows just what was typed. *)
Theorem C79_no_rule_refuted : exists n ks s, supported n /\ has_number n /\ ext_of n = [] /\ (3 <= length (GetNationalSignificantNumber n) <= 17)%nat /\ IsValidNumber shipped n = Ret true /\
  Format shipped n E164 = Ret (typed ks) /\ press shipped (GetAsYouTypeFormatter shipped (bs "US")) ks = Ret s /\ f_out s = bs "+24762889" /\ Format shipped n INTERNATIONAL = Ret (bs "+247 62889").
Proof.
  exists (num 247 62889), (keys_of (bs "+24762889")). eexists. split; [vm_compute; reflexivity|]. split; [left; discriminate|]. split; [reflexivity|]. split; [replace (length (GetNationalSignificantNumber (num 247 62889))) with 5%nat by (vm_compute; reflexivity); lia|]. split; [vm_compute; reflexivity|].
  split; [vm_compute; reflexivity|]. split; [vm_compute; reflexivity|]. split; vm_compute; reflexivity.
Qed.
Print Assumptions C79_no_rule_refuted.
