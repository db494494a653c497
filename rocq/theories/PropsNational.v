(** Property C74: NATIONAL texts parse back in the number's own region. *)
From Verif Require Import Base BaseFacts Utf8 Utf8Facts Regex RegexSpec RegexFacts LangFacts Consts Types Normalize NormalizeSpec NormalizeFacts Validate Format Parse
  NumberSpec NumberFacts MetaSpec ValidateSpec ValidateFacts Container Shipped MetaFacts FormatSpec TextFacts FormatFacts FormatMore ParseSpec ParseFacts ParseMore ContextFacts
  RoundSpec DerivFacts MatcherTotal RoundTripFacts PropsNumber PropsValidate PropsFormat PropsRound RuleSpec RuleFacts RuleMore ReadSpec ReadFacts ReadMore PropsRead ExtSpec ExtFacts BackFacts NationalFacts NationalMore.
Local Opaque compile re_find re_replace_all.

(** Argentina and Gabon, and toll-free numbers of Thailand, Japan, Bulgaria, Panama and Qatar. *)
Definition nat_exception (cc : Z) (t : ptype) : Prop := In cc [54; 241]%Z \/ (In cc [66; 81; 359; 507; 974]%Z /\ t = TOLL_FREE).
Definition nat_ok (cc : Z) (t : ptype) : bool := negb (existsb (Z.eqb cc) [54; 241]%Z || (existsb (Z.eqb cc) [66; 81; 359; 507; 974]%Z && match t with TOLL_FREE => true | _ => false end)).
Lemma nat_ok_iff cc t : ~ nat_exception cc t -> nat_ok cc t = true.
Proof.
  intros H. unfold nat_ok. apply negb_true_iff. apply not_true_is_false. intros E. apply H. apply orb_true_iff in E as [E|E]; [left|right].
  - apply existsb_exists in E as (z & I & E). apply Z.eqb_eq in E. subst z. exact I.
  - apply andb_true_iff in E as [E Et]. apply existsb_exists in E as (z & I & E). apply Z.eqb_eq in E. subst z. split; [exact I|]. destruct t; try discriminate; reflexivity.
Qed.
Definition nat_table (fuel : nat) (C : container) : bool := forallb (fun e => forallb (fun r => if beq r nonGeoEntity then true else if forallb (fun t => negb (nat_ok (fst e) t)) all_types then true else
   match main_meta C (fst e), meta_of C (fst e) r with Some mm, Some m => region_back fuel mm m (nat_ok (fst e)) && Z.eqb (code_of m) (fst e) | _, _ => false end) (snd e)) (c_cc2region C).
Lemma shipped_nat_table : nat_table 1000 shipped = true. Proof. vm_cast_no_check (eq_refl true). Qed.

Lemma national_back C fuel : wf_container C -> parse_ok C -> rules_fine C -> marks_known C -> nat_table fuel C = true -> forall n r t, IsValidNumber C n = Ret true -> GetRegionCodeForNumber C n = Ret r -> r <> nonGeoEntity ->
  GetNumberType C n = Ret t -> ~ nat_exception (cc_of n) t -> nn_of n <> 0 \/ p_raw n = None -> all_digits (ext_of n) = true -> (length (ext_of n) <= 9)%nat ->
  exists text n', Format C n NATIONAL = Ret text /\ Parse C text r = Ret (n', None) /\ cc_of n' = cc_of n /\ GetNationalSignificantNumber n' = GetNationalSignificantNumber n /\ ext_of n' = ext_of n.
Proof.
  intros W PO RF MK B n r t V Er Ng T X R De Le. destruct (type_valid_spec C n W) as (t' & b & Et & Eb & _ & H). rewrite T in Et. rewrite V in Eb. injection Et as <-. injection Eb as <-. destruct (H eq_refl) as (r' & m & Er' & Nr & Ir & Em & Wm & Ht). rewrite Er in Er'. injection Er' as <-.
  assert (HV : hasValidCountryCallingCode C (cc_of n) = true). { unfold hasValidCountryCallingCode. unfold regions_of in Ir. destruct (assocz (cc_of n) (c_cc2region C)); [reflexivity|destruct Ir]. }
  assert (Pr : printed_raw n = false). { unfold printed_raw. destruct R as [R|R]; [apply N.eqb_neq in R; change (get_nn n) with (nn_of n); rewrite R; reflexivity|unfold get_raw; rewrite R; apply andb_false_r]. }
  destruct (format_rule C n NATIONAL W RF Pr (or_introl eq_refl) HV) as (mm & o & Me & P & F). destruct (main_entry_ok C _ W HV) as (m' & Me' & Em' & _). pose proof (entry_unique _ _ _ _ Me Me'). subst m'.
  unfold nat_table in B. rewrite forallb_forall in B. unfold regions_of in Ir. destruct (assocz (cc_of n) (c_cc2region C)) as [l|] eqn:El; [|destruct Ir]. apply assocz_In in El. apply B in El. clear B. cbn [fst snd] in El. rewrite forallb_forall in El. apply El in Ir. clear El.
  assert (Nb : beq r nonGeoEntity = false) by (destruct (beq r nonGeoEntity) eqn:E; [apply beq_eq in E; congruence|reflexivity]). rewrite Nb in Ir. pose proof (nat_ok_iff _ _ X) as Ok. pose proof (type_desc _ _ _ Ht) as (It & _ & _).
  destruct (forallb (fun t => negb (nat_ok (cc_of n) t)) all_types) eqn:Fx; [rewrite forallb_forall in Fx; apply Fx in It; rewrite Ok in It; discriminate|].
  pose proof (main_meta_in _ _ _ Em') as Imm. rewrite Em', Em in Ir. apply andb_true_iff in Ir as [Rb Ec]. apply Z.eqb_eq in Ec.
  assert (Gm : getMetadataForRegion C r = Some m). { destruct (found_region_meta C n r W Er Nr) as (m1 & G1 & G2 & _). rewrite Em in G2. injection G2 as <-. unfold getMetadataForRegionOrCallingCode in G1. destruct (beq nonGeoEntity r) eqn:Q; [apply beq_eq in Q; congruence|exact G1]. }
  destruct (national_text C fuel mm m (nat_ok (cc_of n)) n r t o W PO MK Gm Wm Imm Rb Ok Ht P De Le) as (n' & P' & E1 & E2 & E3). exists (o ++ extension_text mm (ext_of n)), n'. split; [exact F|]. split; [exact P'|]. split; [congruence|]. auto.
Qed.
(** C74: the NATIONAL text of a valid number, read in the number's own region, gives back its calling code, national significant
    number and extension. *)
Theorem C74_shipped : forall n r t, IsValidNumber shipped n = Ret true -> GetRegionCodeForNumber shipped n = Ret r -> r <> nonGeoEntity -> GetNumberType shipped n = Ret t ->
  ~ nat_exception (cc_of n) t -> nn_of n <> 0 \/ p_raw n = None -> all_digits (ext_of n) = true -> (length (ext_of n) <= 9)%nat ->
  exists text n', Format shipped n NATIONAL = Ret text /\ Parse shipped text r = Ret (n', None) /\
    cc_of n' = cc_of n /\ GetNationalSignificantNumber n' = GetNationalSignificantNumber n /\ ext_of n' = ext_of n.
Proof. exact (national_back shipped 1000 shipped_wf shipped_parse_ok shipped_rules shipped_marks shipped_nat_table). Qed.
Print Assumptions C74_shipped.

(** C74: each calling code excepted has a valid number whose NATIONAL text means another number in its own region. In four of them
    a toll-free number starting with 00 or 001 reads as an international call to the toll-free code 800. *)
Definition zeros (cc : Z) (k : Z) (nn : N) : phone := {| p_cc := Some cc; p_nn := Some nn; p_ext := None; p_ilz := Some true; p_nlz := Some k; p_raw := None; p_src := None; p_carrier := None |}.
Theorem C74_refuted : forall cc, In cc [54; 241; 66; 81; 359; 507; 974]%Z -> exists n r text n', cc_of n = cc /\ IsValidNumber shipped n = Ret true /\ GetRegionCodeForNumber shipped n = Ret r /\
  Format shipped n NATIONAL = Ret text /\ Parse shipped text r = Ret (n', None) /\ (cc_of n', GetNationalSignificantNumber n') <> (cc_of n, GetNationalSignificantNumber n).
Proof.
  assert (Go : forall cc n r text n', cc_of n = cc -> IsValidNumber shipped n = Ret true -> GetRegionCodeForNumber shipped n = Ret r -> Format shipped n NATIONAL = Ret text -> Parse shipped text r = Ret (n', None) -> 
    beq (GetNationalSignificantNumber n') (GetNationalSignificantNumber n) = false -> exists n r text n', cc_of n = cc /\ IsValidNumber shipped n = Ret true /\ GetRegionCodeForNumber shipped n = Ret r /\
    Format shipped n NATIONAL = Ret text /\ Parse shipped text r = Ret (n', None) /\ (cc_of n', GetNationalSignificantNumber n') <> (cc_of n, GetNationalSignificantNumber n)).
  { intros cc n r text n' H1 H2 H3 H4 H5 H6. exists n, r, text, n'. split; [exact H1|]. split; [exact H2|]. split; [exact H3|]. split; [exact H4|]. split; [exact H5|]. intros E. injection E as _ E. rewrite E in H6. assert (beq (GetNationalSignificantNumber n) (GetNationalSignificantNumber n) = true) by (apply beq_eq; reflexivity). congruence. }
  intros cc I. cbn [In] in I. destruct I as [<-|[<-|[<-|[<-|[<-|[<-|[<-|[]]]]]]]].
  - apply (Go _ (num 54 1115234567) (bs "AR") (bs "011 1523-4567") {| p_cc := Some 54%Z; p_nn := Some 1115234567; p_ext := None; p_ilz := Some true; p_nlz := None; p_raw := None; p_src := None; p_carrier := None |}); vm_compute; reflexivity.
  - apply (Go _ (num 241 2123456) (bs "GA") (bs "02 12 34 56") {| p_cc := Some 241%Z; p_nn := Some 2123456; p_ext := None; p_ilz := Some true; p_nlz := None; p_raw := None; p_src := None; p_carrier := None |}); vm_compute; reflexivity.
  - apply (Go _ (zeros 66 2 18001234567) (bs "TH") (bs "0018001234567") (num 800 1234567)); vm_compute; reflexivity.
  - apply (Go _ (zeros 81 2 376809752333963) (bs "JP") (bs "0037-680975-2333963") (num 81 9752333963)); vm_compute; reflexivity.
  - apply (Go _ (zeros 359 2 8001234567) (bs "BG") (bs "008001234567") (num 800 1234567)); vm_compute; reflexivity.
  - apply (Go _ (zeros 507 2 800123456) (bs "PA") (bs "00800123456") (num 800 123456)); vm_compute; reflexivity.
  - apply (Go _ (zeros 974 2 800123456) (bs "QA") (bs "00800123456") (num 800 123456)); vm_compute; reflexivity.
Qed.
Print Assumptions C74_refuted.
Example C74_witness : let n := set_ext (num 44 2070313000) (Some (bs "77")) in IsValidNumber shipped n = Ret true /\ GetRegionCodeForNumber shipped n = Ret (bs "GB") /\ GetNumberType shipped n = Ret FIXED_LINE /\
  ~ nat_exception (cc_of n) FIXED_LINE /\ Format shipped n NATIONAL = Ret (bs "020 7031 3000 x77") /\ Parse shipped (bs "020 7031 3000 x77") (bs "GB") = Ret (n, None).
Proof.
  cbv zeta. split; [vm_compute; reflexivity|]. split; [vm_compute; reflexivity|]. split; [vm_compute; reflexivity|]. split; [|split; vm_compute; reflexivity].
  change (cc_of (set_ext (num 44 2070313000) (Some (bs "77")))) with 44%Z. intros [H|[_ H]]; [cbn [In] in H; lia|discriminate].
Qed.
(** Belarus, where the printed prefix is "8 0", and a number of a region that shares its calling code. *)
Example C74_witness_2 : Format shipped (num 375 152450911) NATIONAL = Ret (bs "8 0152 45-09-11") /\ Parse shipped (bs "8 0152 45-09-11") (bs "BY") = Ret (num 375 152450911, None) /\
  GetRegionCodeForNumber shipped (num 44 1481256789) = Ret (bs "GG") /\ Format shipped (num 44 1481256789) NATIONAL = Ret (bs "01481 256789") /\ Parse shipped (bs "01481 256789") (bs "GG") = Ret (num 44 1481256789, None).
Proof. split; [vm_compute; reflexivity|]. split; [vm_compute; reflexivity|]. split; [vm_compute; reflexivity|]. split; vm_compute; reflexivity. Qed.
