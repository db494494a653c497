(** C90: typing a number with the prefix for dialling abroad ends in showing how to dial it from there. *)
From Verif Require Import Base BaseFacts Regex RegexFacts NumberSpec NumberFacts PropsNumber Consts Types Shipped Validate ValidateFacts Normalize Format MetaSpec ValidateSpec MetaFacts FormatSpec TextFacts LangFacts FormatFacts FormatMore DerivFacts PropsFormat RoundTripFacts
  RuleSpec RuleFacts RuleMore PropsRule AsYouType AytfSpec AytfFacts AytfMore AytfDigits NationalFacts PropsAytf PropsValidate ShowFacts ShowShip ShowMore ShowRun PropsShow NatSpec NatFacts PropsNat IddSpec IddRun IddShip.
Local Opaque compile re_find re_replace_all safe.

Theorem C90_abroad_any : forall C region n m mr f p ks, aytf_ok C -> wf_container C -> rules_fine C -> prefix_free (map fst (c_cc2region C)) ->
  hasValidCountryCallingCode C (cc_of n) = true -> has_number n -> ext_of n = [] ->
  main_entry C (cc_of n) m -> abroad_clear m = true -> first_applying (rules m INTERNATIONAL) (GetNationalSignificantNumber n) (Some f) -> (3 <= length (GetNationalSignificantNumber n) <= 17)%nat ->
  aytf_metadata C region = Some mr -> all_digits p = true -> p <> [] -> typed ks = p ++ itoa (cc_of n) ++ GetNationalSignificantNumber n -> abroad_of mr (firstn 3 (typed ks)) = p ->
  exists s t, press C (GetAsYouTypeFormatter C region) ks = Ret s /\ Format C n INTERNATIONAL = Ret (bs "+" ++ t) /\ f_out s = p ++ bs " " ++ t.
Proof.
  intros C region n m mr f p ks CO W RF PF V H X Me Ac Fa L Am Dp Np T Px. pose proof (has_number_raw _ H) as R.
  destruct (format_rule C n INTERNATIONAL W RF R (or_intror eq_refl) V) as (m1 & body & Me1 & (r & Fr & Pb) & Ef).
  destruct (main_entry_ok C _ W V) as (m2 & Me2 & Mm & _).
  assert (E1 : m1 = m) by (destruct Me as (r0 & l & A & B), Me1 as (r1 & l1 & A1 & B1); congruence). assert (E2 : m2 = m) by (destruct Me as (r0 & l & A & B), Me2 as (r1 & l1 & A1 & B1); congruence). subst m1 m2.
  pose proof (first_applying_unique _ _ _ _ Fa Fr). subst r. destruct Pb as (x & t & Cx & Tt & ->). cbn [template] in Tt.
  assert (Mo : aytf_meta_okb (Some m) = true). { pose proof Mm as Q. unfold main_meta, getMetadataForRegionOrCallingCode in Q. destruct CO as [CO1 CO2]. destruct (beq nonGeoEntity _); rewrite <- Q; auto. }
  destruct (press_total C region ks CO [] _ (good_new C region) (fun _ => new_np _ _ CO)) as (s & Es). exists s.
  destruct (press_reset C region ks) as (k2 & M & K). specialize (K s Es). rewrite T in *. destruct Fa as (pre & post & El & Ap & Npre).
  pose proof (all_abroad C region (cc_of n) m mr p (GetNationalSignificantNumber n) f pre post x W PF V Mm Mo Ac Dp Np (nsn_digits n) (proj1 L) (proj2 L) El Ap Npre Cx Am Px k2 M) as Q. rewrite K in Q. cbn [holds] in Q.
  eexists. split; [exact Es|]. rewrite Ef, Q. unfold prefixNumberWithCountryCallingCode, home_text. rewrite X. cbn [extension_text]. rewrite app_nil_r, Tt. split; reflexivity.
Qed.
Print Assumptions C90_abroad_any.

(** * The shipped metadata *)
Lemma main_clear C cc m : wf_container C -> hasValidCountryCallingCode C cc = true -> main_entry C cc m -> forallb abroad_clear (map snd (c_region C) ++ map snd (c_nongeo C)) = true -> abroad_clear m = true.
Proof.
  intros W V Me B. destruct (main_entry_ok C _ W V) as (m2 & Me2 & Mm & _). assert (E2 : m2 = m) by (destruct Me as (r0 & l & A & D), Me2 as (r1 & l1 & A1 & D1); congruence). subst m2.
  rewrite forallb_forall in B. apply B. unfold main_meta, getMetadataForRegionOrCallingCode in Mm. destruct (beq nonGeoEntity _); [eapply nongeo_listed|eapply region_listed]; exact Mm.
Qed.
Lemma own_idd C region mf : forallb (same_idd C) (c_region C) = true -> assocb region (c_region C) = Some mf -> exists mr, aytf_metadata C region = Some mr /\ forall w, abroad_of mr w = abroad_of mf w.
Proof.
  intros B E. apply assocb_In in E. rewrite forallb_forall in B. specialize (B _ E). unfold same_idd in B. cbn [fst snd] in B. destruct (aytf_metadata C region) as [mr|]; [|discriminate]. exists mr. split; [reflexivity|]. intros w. apply beq_eq in B. unfold abroad_of. rewrite B. reflexivity.
Qed.
(** The digits p at the beginning are what the region's expression for dialling abroad takes from the first three digits typed; the calling code and the
    number follow. The display ends in p, a space and what Format prints for use abroad, without its plus sign. *)
Theorem C90_abroad : forall region mf n m f p ks, assocb region (c_region shipped) = Some mf -> supported n -> has_number n -> ext_of n = [] ->
  main_entry shipped (cc_of n) m -> first_applying (rules m INTERNATIONAL) (GetNationalSignificantNumber n) (Some f) -> (3 <= length (GetNationalSignificantNumber n) <= 17)%nat ->
  all_digits p = true -> p <> [] -> typed ks = p ++ itoa (cc_of n) ++ GetNationalSignificantNumber n -> abroad_of mf (firstn 3 (typed ks)) = p ->
  exists s t, press shipped (GetAsYouTypeFormatter shipped region) ks = Ret s /\ Format shipped n INTERNATIONAL = Ret (bs "+" ++ t) /\ f_out s = p ++ bs " " ++ t.
Proof.
  intros region mf n m f p ks E Su Hn X Me Fa L Dp Np T Px. destruct (own_idd shipped region mf shipped_same_idd E) as (mr & Am & Eq). rewrite <- Eq in Px.
  eapply (C90_abroad_any shipped region n m mr f p ks shipped_aytf_ok shipped_wf shipped_rules C07_shipped_codes_prefix_free Su Hn X Me); eauto. eapply main_clear; eauto using shipped_wf, shipped_abroad_clear.
Qed.
Print Assumptions C90_abroad.
Lemma plain_taken C region mf cc w : forallb plain_idd (c_region C) = true -> assocb region (c_region C) = Some mf -> all_digits (get_bytes (md_iprefix mf)) = true -> (2 <= length (get_bytes (md_iprefix mf)) <= 3)%nat ->
  (0 < cc)%Z -> abroad_of mf (firstn 3 (get_bytes (md_iprefix mf) ++ itoa cc ++ w)) = get_bytes (md_iprefix mf).
Proof.
  intros B E D L Pos. apply assocb_In in E. rewrite forallb_forall in B. specialize (B _ E). unfold plain_idd in B. cbn [snd] in B. cbv zeta in B. rewrite D in B. cbn [negb orb] in B.
  destruct (get_bytes (md_iprefix mf)) as [|a [|b [|c [|d q]]]] eqn:Ei; cbn [length] in L; try lia.
  - assert (Di : all_digits (itoa cc) = true) by (rewrite itoa_pos by lia; apply dec_digits). destruct (itoa cc) as [|d u] eqn:Ed; [rewrite itoa_pos in Ed by lia; elim (dec_nonempty _ Ed)|].
    cbn [app firstn] in *. rewrite forallb_forall in B. assert (Dd : is_digit d = true) by (unfold all_digits in Di; cbn [forallb] in Di; apply andb_prop in Di; apply Di). apply is_digit_iff in Dd.
    apply beq_eq. apply (B d). assert (K : d = 48 \/ d = 49 \/ d = 50 \/ d = 51 \/ d = 52 \/ d = 53 \/ d = 54 \/ d = 55 \/ d = 56 \/ d = 57) by lia. cbn [In]. intuition.
  - cbn [app firstn] in *. apply beq_eq. exact B.
Qed.
(** In a region whose prefix for dialling abroad is two or three fixed digits, such as 00 or 011: any number typed after them. *)
Theorem C90_fixed_prefix : forall region mf n m f ks, assocb region (c_region shipped) = Some mf -> all_digits (get_bytes (md_iprefix mf)) = true -> (2 <= length (get_bytes (md_iprefix mf)) <= 3)%nat ->
  supported n -> has_number n -> ext_of n = [] ->
  main_entry shipped (cc_of n) m -> first_applying (rules m INTERNATIONAL) (GetNationalSignificantNumber n) (Some f) -> (3 <= length (GetNationalSignificantNumber n) <= 17)%nat ->
  typed ks = get_bytes (md_iprefix mf) ++ itoa (cc_of n) ++ GetNationalSignificantNumber n ->
  exists s t, press shipped (GetAsYouTypeFormatter shipped region) ks = Ret s /\ Format shipped n INTERNATIONAL = Ret (bs "+" ++ t) /\ f_out s = get_bytes (md_iprefix mf) ++ bs " " ++ t.
Proof.
  intros region mf n m f ks E D L Su Hn X Me Fa Ln T. eapply C90_abroad; eauto.
  - intros Q. rewrite Q in L. cbn in L. lia.
  - rewrite T. eapply plain_taken; eauto using shipped_plain_idd. pose proof (valid_cc_pos _ _ shipped_wf Su). lia.
Qed.
Print Assumptions C90_fixed_prefix.
(** With the prefix FormatOutOfCountryCallingNumber uses, the display ends in what that function returns. *)
Theorem C90_out_of_country : forall region mf n m f ks, In region (c_regions shipped) -> assocb region (c_region shipped) = Some mf -> mcc (Some mf) <> cc_of n -> supported n -> has_number n -> ext_of n = [] ->
  main_entry shipped (cc_of n) m -> first_applying (rules m INTERNATIONAL) (GetNationalSignificantNumber n) (Some f) -> (3 <= length (GetNationalSignificantNumber n) <= 17)%nat ->
  all_digits (exit_prefix mf) = true -> exit_prefix mf <> [] -> typed ks = exit_prefix mf ++ itoa (cc_of n) ++ GetNationalSignificantNumber n -> abroad_of mf (firstn 3 (typed ks)) = exit_prefix mf ->
  exists s, press shipped (GetAsYouTypeFormatter shipped region) ks = Ret s /\ FormatOutOfCountryCallingNumber shipped n region = Ret (f_out s).
Proof.
  intros region mf n m f ks I E Nc Su Hn X Me Fa L Dp Np T Px. destruct (C90_abroad region mf n m f (exit_prefix mf) ks E Su Hn X Me Fa L Dp Np T Px) as (s & t & Es & Ef & Eo). exists s. split; [exact Es|].
  destruct (C61_out_of_country n region mf Su Hn I E) as (o & nat & intl & O1 & _ & O2 & O3). rewrite O1, O3, Eo. replace (Z.eqb (mcc (Some mf)) (cc_of n)) with false by (symmetry; apply Z.eqb_neq; exact Nc).
  assert (Q : intl = t) by (rewrite Ef in O2; injection O2 as O2; auto). subst t. destruct (exit_prefix mf); [congruence|reflexivity].
Qed.
Print Assumptions C90_out_of_country.

(** The hypotheses are met: a British number dialled from the United States. *)
Definition us_entry : meta := home_entry (bs "US").
Example C90_witness : In (bs "US") (c_regions shipped) /\ assocb (bs "US") (c_region shipped) = Some us_entry /\ get_bytes (md_iprefix us_entry) = bs "011" /\ exit_prefix us_entry = bs "011" /\ mcc (Some us_entry) <> cc_of london /\
  supported london /\ has_number london /\ ext_of london = [] /\ length (GetNationalSignificantNumber london) = 10%nat /\
  (exists m f, main_entry shipped (cc_of london) m /\ first_applying (rules m INTERNATIONAL) (GetNationalSignificantNumber london) (Some f)) /\
  typed (keys_of (bs "011442070313000")) = bs "011" ++ itoa (cc_of london) ++ GetNationalSignificantNumber london /\ abroad_of us_entry (bs "011") = bs "011" /\
  exists s, press shipped (GetAsYouTypeFormatter shipped (bs "US")) (keys_of (bs "011442070313000")) = Ret s /\ f_out s = bs "011 44 20 7031 3000".
Proof.
  split; [apply mem_bytes_iff; vm_compute; reflexivity|]. split; [vm_compute; reflexivity|]. split; [vm_compute; reflexivity|]. split; [vm_compute; reflexivity|]. split; [vm_compute; discriminate|]. split; [vm_compute; reflexivity|]. split; [left; discriminate|]. split; [reflexivity|]. split; [vm_compute; reflexivity|].
  split; [apply C79_witness|]. split; [vm_compute; reflexivity|]. split; [vm_compute; reflexivity|]. eexists. split; vm_compute; reflexivity.
Qed.
(** Finding: an expression that takes more digits if it can eats the beginning of the calling code: from Hong Kong, with the very prefix
    FormatOutOfCountryCallingNumber gives, a number in Tokyo is laid out as one in North America. *)
Theorem C90_longer_prefix_refuted : exists n ks s, supported n /\ IsValidNumber shipped n = Ret true /\ ext_of n = [] /\ typed ks = bs "00" ++ itoa (cc_of n) ++ GetNationalSignificantNumber n /\
  FormatOutOfCountryCallingNumber shipped n (bs "HK") = Ret (bs "00 81 3-1234-5678") /\ press shipped (GetAsYouTypeFormatter shipped (bs "HK")) ks = Ret s /\ f_out s = bs "008 1 312-345-678".
Proof.
  exists (num 81 312345678), (keys_of (bs "0081312345678")). eexists. split; [vm_compute; reflexivity|]. split; [vm_compute; reflexivity|]. split; [reflexivity|]. split; [vm_compute; reflexivity|]. split; [vm_compute; reflexivity|]. split; vm_compute; reflexivity.
Qed.
Print Assumptions C90_longer_prefix_refuted.
(** Finding: a carrier's prefix of more than three digits is not always found either: the display stays as typed. *)
Theorem C90_carrier_refuted : exists n ks s mf, supported n /\ IsValidNumber shipped n = Ret true /\ ext_of n = [] /\ assocb (bs "HK") (c_region shipped) = Some mf /\ abroad_of mf (bs "0030") = bs "0030" /\
  typed ks = bs "0030" ++ itoa (cc_of n) ++ GetNationalSignificantNumber n /\ press shipped (GetAsYouTypeFormatter shipped (bs "HK")) ks = Ret s /\ f_out s = bs "0030442070313000".
Proof.
  exists london, (keys_of (bs "0030442070313000")). eexists _, _. split; [vm_compute; reflexivity|]. split; [vm_compute; reflexivity|]. split; [reflexivity|]. split; [vm_compute; reflexivity|]. split; [vm_compute; reflexivity|]. split; [vm_compute; reflexivity|]. split; vm_compute; reflexivity.
Qed.
Print Assumptions C90_carrier_refuted.
