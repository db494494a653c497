(** C96: within the North American numbering plan "1 (650) 253-0000" means the same in every member region. *)
From Verif Require Import Base BaseFacts Utf8 Utf8Facts Regex RegexSpec RegexFacts LangFacts Consts Types Normalize NormalizeSpec NormalizeFacts Validate Format Parse
  NumberSpec NumberFacts MetaSpec ValidateSpec ValidateFacts Container Shipped MetaFacts FormatSpec TextFacts FormatFacts FormatMore ParseSpec ParseFacts ParseMore ContextFacts
  RoundSpec DerivFacts MatcherTotal RoundTripFacts PropsNumber PropsValidate PropsFormat PropsRound RuleSpec RuleFacts RuleMore PropsRule DialSpec DialFacts PropsDial ReadSpec ReadFacts ReadMore PropsRead ExtSpec ExtFacts BackFacts PropsBack NationalFacts NationalMore PropsNational OutFacts PropsMobile PropsRetype.
Local Opaque compile re_find re_replace_all.

(** Ten digits, the first of them at least 2. *)
Definition north_desc : desc := {| d_pattern := Some (bs "[2-9]\d{9}"); d_len := [10%Z]; d_local := []; d_example := None |}.
Definition north_meta : meta := {| md_general := Some north_desc; md_fixed := None; md_mobile := None; md_tollfree := None; md_premium := None; md_shared := None; md_personal := None; md_voip := None; md_pager := None; md_uan := None;
  md_emergency := None; md_voicemail := None; md_shortcode := None; md_stdrate := None; md_carrier := None; md_sms := None; md_noint := None; md_id := None; md_cc := None; md_iprefix := None; md_pref_iprefix := None; md_nprefix := None;
  md_extn := None; md_np_parse := None; md_np_transform := None; md_same := None; md_nf := []; md_inf := []; md_main := None; md_leading := None; md_mnp := None |}.
(** What is asked of the metadata of a member region. *)
Definition member_ok (fuel : nat) (m : meta) : bool :=
  match body (bs "[2-9]\d{9}"), body (get_d_pattern (md_general m)), md_general m with
  | Some north, Some r, Some g =>
      Z.eqb (code_of m) 1 && forallb (fun z => (z <=? 10)%Z) (d_len g) && existsb (Z.eqb 10) (d_len g) && forallb (fun z => (z <? 10)%Z) (d_local g) &&
      idd_free fuel [49] [north] m && stays fuel m north_meta (Some north_desc) &&
      forallb (fun t => match the_desc m t with
        | Some d => if match d_len d with [] => true | l => existsb (Z.eqb 10) l end then match body (get_d_pattern (Some d)) with Some t => within fuel t r north | None => false end else true
        | None => true end) all_types
  | _, _, _ => false
  end.
Lemma shipped_members : forallb (fun r => match assocb r (c_region shipped) with Some m => member_ok 1000 m | None => false end) (regions_of shipped 1) = true.
Proof. vm_cast_no_check (eq_refl true). Qed.
Lemma shipped_plan : match main_meta shipped 1 with Some m => forallb (fun f => rule_plain f && is_empty (rule_digits f)) (md_nf m) | None => false end = true.
Proof. vm_cast_no_check (eq_refl true). Qed.

Section Plan.
Variables (C : container) (fuel : nat).
Hypothesis (W : wf_container C) (PO : parse_ok C) (RF : rules_fine C) (MK : marks_known C)
  (B : forallb (fun r => match assocb r (c_region C) with Some m => member_ok fuel m | None => false end) (regions_of C 1) = true)
  (PL : match main_meta C 1 with Some m => forallb (fun f => rule_plain f && is_empty (rule_digits f)) (md_nf m) | None => false end = true).
Definition northern (s : bytes) : Prop := exists x, body (bs "[2-9]\d{9}") = Some x /\ acc [x] s = true.
Lemma member r : In r (regions_of C 1) -> exists m, assocb r (c_region C) = Some m /\ member_ok fuel m = true.
Proof. intros I. rewrite forallb_forall in B. specialize (B r I). destruct (assocb r (c_region C)) as [m|]; [eauto|discriminate]. Qed.
(** A valid number of ten digits does not begin with 0 or 1. *)
Lemma valid_northern m s t : member_ok fuel m = true -> has_type m s t -> all_digits s = true -> length s = 10%nat -> northern s.
Proof.
  unfold member_ok, northern. intros H Ht D L. destruct (body (bs "[2-9]\d{9}")) as [north|]; [|discriminate]. destruct (body (get_d_pattern (md_general m))) as [r|] eqn:Br; [|discriminate]. destruct (md_general m) as [g|] eqn:Eg; [|discriminate].
  rewrite !andb_true_iff in H. destruct H as (_ & H). rewrite forallb_forall in H. destruct (type_desc _ _ _ Ht) as (It & (d & Ed & Ld & Fd) & _). specialize (H t It). rewrite Ed in H, Fd.
  assert (Q : match d_len d with [] => true | l => existsb (Z.eqb 10) l end = true). { destruct Ld as [->|Ld]; [reflexivity|]. destruct (d_len d); [reflexivity|]. apply existsb_exists. exists 10%Z. rewrite L in Ld. split; [exact Ld|reflexivity]. }
  rewrite Q in H. destruct (body (get_d_pattern (Some d))) as [u|] eqn:Bu; [|discriminate]. pose proof (digits_ascii _ D) as A. exists north. split; [reflexivity|].
  apply (within_ok fuel u r north s H D); [apply (body_ok _ _ _ Bu A); exact Fd|]. apply (body_ok _ _ _ Br A). pose proof (proj1 Ht) as (g' & Eg' & _ & Fg). rewrite Eg in Eg', Fg. exact Fg.
Qed.
Lemma member_part m s : member_ok fuel m = true -> wf_meta m -> northern s -> all_digits s = true -> length s = 10%nat -> exists c, national_part m s s c.
Proof.
  unfold member_ok. intros H Wm (x & Bx & Ax) D L. rewrite Bx in H. destruct (body (get_d_pattern (md_general m))) as [r|]; [|discriminate]. destruct (md_general m) as [g|]; [|discriminate]. rewrite !andb_true_iff in H. destruct H as ((_ & H) & _).
  assert (F : full_match (bs "[2-9]\d{9}") s) by (apply (body_ok _ _ _ Bx (digits_ascii _ D)); exact Ax).
  apply unstripped_part; [exact Wm|]. apply (stays_ok fuel m north_meta (Some north_desc)); auto. exists north_desc. split; [reflexivity|]. split; [right; cbn [d_len north_desc]; left; rewrite L; reflexivity|exact F].
Qed.
Lemma member_lengths m : member_ok fuel m = true -> exists g, md_general m = Some g /\ (forall z, In z (d_len g) -> (z <= 10)%Z) /\ In 10%Z (d_len g) /\ (forall z, In z (d_local g) -> (z < 10)%Z) /\ code_of m = 1%Z.
Proof.
  unfold member_ok. intros H. destruct (body (bs "[2-9]\d{9}")); [|discriminate]. destruct (body (get_d_pattern (md_general m))); [|discriminate]. destruct (md_general m) as [g|]; [|discriminate]. rewrite !andb_true_iff in H. destruct H as ((((((H1 & H2) & H3) & H4) & _) & _) & _).
  exists g. split; [reflexivity|]. rewrite forallb_forall in H2, H4. split; [intros z I; apply Z.leb_le; auto|]. split; [apply existsb_exists in H3 as (z & I & E); apply Z.eqb_eq in E; subst z; exact I|]. split; [intros z I; apply Z.ltb_lt; auto|apply Z.eqb_eq; exact H1].
Qed.
Lemma member_sized m s : member_ok fuel m = true -> length s = 10%nat -> sized m s IS_POSSIBLE /\ sized m (49 :: s) TOO_LONG.
Proof.
  intros H L. destruct (member_lengths m H) as (g & Eg & G1 & G2 & G3 & _).
  assert (Hn : has_numbers g). { intros E. rewrite E in G2. destruct G2 as [G2|[]]. discriminate. }
  assert (Lo : lengths_of m g = d_len g) by (unfold lengths_of; rewrite Eg; destruct (d_len g); reflexivity).
  assert (Nl : forall z, (10 <= z)%Z -> ~ local_only m UNKNOWN z). { intros z Hz (d & Ed & _ & I). cbn [desc_for] in Ed. rewrite Eg in Ed. injection Ed as <-. apply G3 in I. lia. }
  unfold sized. cbn [length]. rewrite L. cbn [classified]. split; [split; [|apply Nl; lia]|split; [|split; [apply Nl; lia|]]].
  - exists g. cbn [desc_for]. rewrite Lo. auto.
  - exists 10%Z, g. cbn [desc_for]. rewrite Lo. auto.
  - intros k (d & Ed & _ & I). cbn [desc_for] in Ed. rewrite Eg in Ed. injection Ed as <-. rewrite Lo in I. apply G1 in I. lia.
Qed.
(** The digit 1 and ten digits, read in a member region. *)
Lemma member_reads m mm s : member_ok fuel m = true -> wf_meta m -> member_ok fuel mm = true -> wf_meta mm -> main_entry C 1 mm -> northern s -> all_digits s = true -> length s = 10%nat ->
  exists c, reads C m (49 :: s) (Means FROM_NUMBER_WITHOUT_PLUS_SIGN 1 s c).
Proof.
  intros H Wm Hm Wmm Me Nt D L. destruct (member_part m s H Wm Nt D L) as (c & P). destruct (member_part mm s Hm Wmm Nt D L) as (c' & P'). exists c'. destruct (member_sized m s H L) as [_ Tl]. destruct (member_sized mm s Hm L) as [Ip _].
  destruct (member_lengths m H) as (_ & _ & _ & _ & _ & Cd). right. split.
  - unfold member_ok in H. destruct Nt as (x & Bx & Ax). rewrite Bx in H. destruct (body (get_d_pattern (md_general m))); [|discriminate]. destruct (md_general m); [|discriminate]. rewrite !andb_true_iff in H. destruct H as (((_ & H) & _) & _).
    apply (idd_free_ok fuel [49] [x] m s H); [unfold all_digits in *; cbn [app forallb]; rewrite D; reflexivity|]. intros l [<-|[]]. exact Ax.
  - left. exists s, mm. rewrite Cd. split; [exists s, c; rewrite Cd; split; [reflexivity|split; [exact P|right; exact Tl]]|]. split; [exact Me|]. right. split; [lia|]. exists s, c'. split; [exists s, c', IS_POSSIBLE; auto|]. rewrite L. reflexivity.
Qed.
End Plan.
Lemma shipped_nanpa_members : forallb (fun r => mem_bytes r (regions_of shipped 1) && mem_bytes r (c_regions shipped)) (c_nanpa shipped) = true.
Proof. vm_cast_no_check (eq_refl true). Qed.
(** C96: a valid ten-digit number of calling code 1, with the text for dialling it from any region of the plan. *)
Theorem C96_plan : forall n from, IsValidNumber shipped n = Ret true -> cc_of n = 1%Z -> length (GetNationalSignificantNumber n) = 10%nat -> nn_of n <> 0 \/ p_raw n = None -> all_digits (ext_of n) = true -> (length (ext_of n) <= 9)%nat ->
  IsNANPACountry shipped from = true ->
  exists text n', FormatOutOfCountryCallingNumber shipped n from = Ret text /\ Parse shipped text from = Ret (n', None) /\
    cc_of n' = 1%Z /\ GetNationalSignificantNumber n' = GetNationalSignificantNumber n /\ ext_of n' = ext_of n.
Proof.
  intros n from V Ec L10 R De Le Nf. pose proof shipped_wf as W. pose proof shipped_parse_ok as PO. unfold IsNANPACountry in Nf. apply mem_bytes_iff in Nf. pose proof shipped_nanpa_members as Bm. rewrite forallb_forall in Bm. apply Bm in Nf. clear Bm. apply andb_true_iff in Nf as [I1 I2]. apply mem_bytes_iff in I1, I2.
  destruct (member shipped 1000 shipped_members from I1) as (mf & Ef & Mf).
  assert (Gf : getMetadataForRegion shipped from = Some mf). { unfold getMetadataForRegion. replace (isValidRegionCode shipped from) with true; [exact Ef|]. symmetry. unfold isValidRegionCode. apply andb_true_iff. split; [|apply mem_bytes_iff; auto]. destruct (wf_supported _ W _ I2) as (Ne & _). destruct from; [congruence|reflexivity]. }
  assert (Wf : wf_meta mf) by (apply (wf_region _ W from mf); apply assocb_In; exact Ef).
  destruct (type_valid_spec shipped n W) as (t & b & _ & Eb & _ & H). rewrite V in Eb. injection Eb as <-. destruct (H eq_refl) as (r' & m & _ & _ & Ir & Em & Wm & Ht). clear H. rewrite Ec in Ir, Em.
  assert (HV : hasValidCountryCallingCode shipped (cc_of n) = true). { rewrite Ec. unfold hasValidCountryCallingCode. unfold regions_of in Ir. destruct (assocz 1 (c_cc2region shipped)); [reflexivity|destruct Ir]. }
  assert (Mr : forall r m, In r (regions_of shipped 1) -> meta_of shipped 1 r = Some m -> member_ok 1000 m = true).
  { intros r m0 I E. destruct (member shipped 1000 shipped_members r I) as (m1 & E1 & M1). unfold meta_of in E. destruct (beq r nonGeoEntity) eqn:Q; [|rewrite E1 in E; injection E as <-; exact M1].
    exfalso. apply beq_eq in Q. subst r. assert (X : negb (mem_bytes nonGeoEntity (regions_of shipped 1)) = true) by (vm_cast_no_check (eq_refl true)). apply negb_true_iff in X. apply mem_bytes_iff in I. congruence. }
  pose proof (nsn_digits n) as D. set (s := GetNationalSignificantNumber n) in *. pose proof (valid_northern 1000 m s t (Mr _ _ Ir Em) Ht D L10) as Nt.
  assert (HN : has_number n). { destruct R as [R|R]; [left; auto|right]. unfold get_raw. rewrite R. reflexivity. }
  destruct (format_rule shipped n NATIONAL W shipped_rules (has_number_raw _ HN) (or_introl eq_refl) HV) as (mm & o & Me & P & F). rewrite Ec in Me, F. fold s in P.
  assert (Mm : member_ok 1000 mm = true). { destruct Me as (r0 & l0 & A0 & B0). apply (Mr r0 mm); [unfold regions_of; rewrite A0; left; reflexivity|exact B0]. }
  assert (HV1 : hasValidCountryCallingCode shipped 1 = true) by (rewrite <- Ec; exact HV). destruct (main_entry_ok shipped 1 W HV1) as (m' & Me' & Em' & Wmm). pose proof (entry_unique _ _ _ _ Me Me'). subst m'.
  pose proof shipped_plan as Pl. rewrite Em' in Pl. rewrite forallb_forall in Pl. pose proof (main_meta_in _ _ _ Em') as Imm.
  (* the text *)
  assert (T : exists h body, o = h ++ body /\ neat s body /\ forallb head_char h = true /\ (length h <= 8)%nat /\ filter dig h = []).
  { destruct P as (ro & Fa & Po). destruct ro as [f|].
    - destruct Po as (x & t0 & Cx & Tt & ->). destruct Fa as (pre & post & El & Ap & _). assert (If : In f (md_nf mm)) by (cbn [rules] in El; rewrite El; apply in_or_app; right; left; reflexivity). specialize (Pl f If). apply andb_true_iff in Pl as [Rp Rd].
      destruct (rule_shape f x t0 s Rp Cx Tt Ap D) as (body & E & Nb & Hr & Lr); [lia|]. exists (rule_head f), body. split; [exact E|]. split; [exact Nb|]. split; [exact Hr|]. split; [exact Lr|]. unfold rule_digits in Rd. destruct (filter dig (rule_head f)); [reflexivity|discriminate].
    - subst o. exists [], s. split; [reflexivity|]. split; [apply neat_refl|]. split; [reflexivity|]. split; [cbn; lia|reflexivity]. }
  destruct T as (h & body & -> & Nb & Hh & Lh & Fh).
  destruct (C61_out_of_country n from mf HV HN I2 Ef) as (text & nat & intl & Fo & Fn & _ & E). destruct (member_lengths 1000 mf Mf) as (_ & _ & _ & _ & _ & Cd). change (mcc (Some mf)) with (code_of mf) in E. rewrite Cd, Ec in E. change (Z.eqb 1 1) with true in E. cbv iota in E. subst text.
  rewrite Fn in F. injection F as ->. cbn [prefixNumberWithCountryCallingCode] in *.
  (* the digits *)
  destruct (member_reads shipped 1000 mf mm s Mf Wf Mm) as (c & Rd); auto.
  assert (Dd : all_digits (49 :: s) = true) by (unfold all_digits in *; cbn [forallb]; rewrite D; reflexivity).
  destruct (reads_digits shipped from mf (49 :: s) W PO Gf Dd) as (oo & Ro & Oo); [cbn [length]; lia|]. pose proof (reads_unique _ _ _ _ _ W Rd Ro). subst oo. cbn [outcome] in Oo. destruct Oo as (n0 & K & Ec0 & En0 & _ & _ & _ & Ee0).
  destruct (parse_agree shipped (49 :: s) from W) as [(e & n1 & n2 & _ & K')|(n1 & n2 & P1 & K' & Q1 & Q2 & Q3 & Q4 & Q5 & _)]; rewrite K in K'; [discriminate|]. injection K' as <-.
  assert (E1 : cc_of n1 = 1%Z) by (rewrite <- Ec0; unfold cc_of; rewrite Q1; reflexivity). assert (E2 : GetNationalSignificantNumber n1 = s) by (rewrite <- En0; unfold GetNationalSignificantNumber, get_ilz, get_nlz, get_nn; rewrite Q2, Q4, Q5; reflexivity).
  assert (E3 : p_ext n1 = None) by congruence. set (h1 := bs "1 " ++ h).
  assert (Hh1 : forallb head_char h1 = true) by (unfold h1; rewrite forallb_app, Hh; reflexivity). assert (Fh1 : filter dig h1 = [49]) by (unfold h1; rewrite filter_app, Fh; reflexivity). assert (Lh1 : (length h1 <= 10)%nat) by (unfold h1; rewrite app_length; change (length (bs "1 ")) with 2%nat; lia).
  assert (Ns : s <> []) by (intros E; rewrite E in L10; discriminate). pose proof Nb as (_ & Lb & _). assert (L3 : (3 <= length (filter dig h1 ++ s))%nat) by (rewrite Fh1, app_length; lia).
  destruct (ext_of n) as [|e0 e] eqn:Ee.
  - eexists. exists n1. split; [exact Fo|]. split; [|split; [exact E1|]; split; [exact E2|unfold ext_of; rewrite E3; reflexivity]]. cbn [extension_text]. rewrite app_nil_r. change (Parse shipped (bs "1 " ++ h ++ body) from = Ret (n1, None)). rewrite app_assoc. fold h1.
    apply (core_parse shipped _ (49 :: s)); auto. change (49 :: s) with ([49] ++ s). rewrite <- Fh1. apply shown_core; auto. rewrite app_length. lia.
  - pose proof (shipped_marks mm Imm) as MK. apply existsb_exists in MK as ((q & k) & Iq & Eq). cbn [fst snd] in Eq. apply andb_true_iff in Eq as [Eq Lk]. apply beq_eq in Eq. apply Nat.leb_le in Lk. pose proof (labels_short q k Iq) as [Lq _].
    eexists. exists (set_ext n1 (Some (e0 :: e))). split; [exact Fo|]. split; [|destruct n1; split; [exact E1|]; split; [exact E2|reflexivity]].
    replace (extension_text mm (e0 :: e)) with (q ++ e0 :: e) by (unfold extension_text; rewrite Eq; destruct (get_bytes (md_extn mm)); reflexivity).
    match goal with |- Parse shipped ?x from = _ => replace x with ((h1 ++ body) ++ q ++ e0 :: e) by (unfold h1; rewrite <- !app_assoc; reflexivity) end.
    apply (core_parse_ext shipped _ (49 :: s)); auto; [discriminate|]. change (49 :: s) with ([49] ++ s). rewrite <- Fh1. apply (shown_core_ext shipped h1 s body from q k (e0 :: e)); auto; [cbn [length] in *; lia|rewrite !app_length; cbn [length] in *; lia].
Qed.
Print Assumptions C96_plan.
Local Transparent compile re_find re_replace_all.
(** C96: Canada's seven-digit numbers are excluded for a reason: from Antigua one of them is read with the 1 as a part of the number. *)
Theorem C96_seven_digits_refuted : exists n text n', IsValidNumber shipped n = Ret true /\ cc_of n = 1%Z /\ IsNANPACountry shipped (bs "AG") = true /\ FormatOutOfCountryCallingNumber shipped n (bs "AG") = Ret text /\ text = bs "1 310-1234" /\
  Parse shipped text (bs "AG") = Ret (n', None) /\ GetNationalSignificantNumber n = bs "3101234" /\ GetNationalSignificantNumber n' = bs "13101234".
Proof. exists (num 1 3101234). eexists. eexists. split; [vm_compute; reflexivity|]. split; [reflexivity|]. split; [vm_compute; reflexivity|]. split; [vm_compute; reflexivity|]. split; [reflexivity|]. split; [vm_compute; reflexivity|]. split; reflexivity. Qed.
Print Assumptions C96_seven_digits_refuted.
(** A number in California with an extension, dialled from Jamaica, where seven digits are taken for a local number. *)
Example C96_witness : let n := set_ext (num 1 6502530000) (Some (bs "77")) in IsValidNumber shipped n = Ret true /\ IsNANPACountry shipped (bs "JM") = true /\ length (GetNationalSignificantNumber n) = 10%nat /\
  FormatOutOfCountryCallingNumber shipped n (bs "JM") = Ret (bs "1 (650) 253-0000 ext. 77") /\ Parse shipped (bs "1 (650) 253-0000 ext. 77") (bs "JM") = Ret (n, None).
Proof. cbv zeta. split; [vm_compute; reflexivity|]. split; [vm_compute; reflexivity|]. split; [reflexivity|]. split; vm_compute; reflexivity. Qed.
