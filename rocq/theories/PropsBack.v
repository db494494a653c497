(** Properties C66 and C67: printed numbers and numbers with extensions parse back. *)
From Verif Require Import Base BaseFacts Utf8 Utf8Facts Regex RegexSpec RegexFacts LangFacts Consts Types Normalize NormalizeSpec NormalizeFacts Validate Format Parse
  NumberSpec NumberFacts MetaSpec ValidateSpec ValidateFacts Container Shipped MetaFacts FormatSpec TextFacts FormatFacts FormatMore ParseSpec ParseFacts ParseMore ContextFacts
  RoundSpec DerivFacts MatcherTotal RoundTripFacts PropsNumber PropsValidate PropsFormat PropsRound RuleSpec RuleFacts RuleMore ReadSpec ReadFacts ReadMore PropsRead ExtSpec ExtFacts BackFacts.
Local Opaque compile re_find re_replace_all.

(** C67: an extension after the number: the same number, with the extension. *)
Theorem C67_extension : forall C p x d label k e r, wf_container C -> p = [] /\ starts_digit (x ++ d) \/ p = [43] -> spaced (x ++ d) -> all_digits d = true -> d <> [] ->
  (3 <= length (only_digits (x ++ d)))%nat -> In (label, k) ext_labels -> all_digits e = true -> (1 <= length e <= k)%nat -> (length (p ++ (x ++ d) ++ label ++ e) <= 250)%nat ->
  (forall n, Parse C (p ++ (x ++ d) ++ label ++ e) r = Ret (n, None) <-> exists n0, Parse C (p ++ x ++ d) r = Ret (n0, None) /\ n = set_ext n0 (Some e)) /\
  (forall er, (exists n, Parse C (p ++ (x ++ d) ++ label ++ e) r = Ret (n, Some er)) <-> (exists n, Parse C (p ++ x ++ d) r = Ret (n, Some er))).
Proof.
  intros C p x d q k e r W Hp S D Ne L3 I De Le L. pose proof (ext_core C p x d q k e r Hp S D Ne L3 I De Le L) as E.
  pose proof (parse_runs C (p ++ (x ++ d) ++ q ++ e) r false true W) as R1. pose proof (parse_runs C (p ++ x ++ d) r false true W) as R2. rewrite E in R1. clear E. unfold Parse, ParseToNumber.
  destruct (parse_core C (p ++ x ++ d) r true) as [v|er|]; cbn [bind] in R1; [| |destruct R1].
  - rewrite R1, R2. split; [|intros er; split; intros (n & H); discriminate]. intros n.
    pose proof (store_with_ext (p ++ x ++ d) (p ++ (x ++ d) ++ q ++ e) e v ltac:(intros ->; cbn [length] in Le; lia)) as Es.
    rewrite Es. split; [intros H; inv H; eauto|intros (n0 & H & ->); inv H; reflexivity].
  - destruct (R1 phone0) as (n1 & E1), (R2 phone0) as (n2 & E2). rewrite E1, E2. split; [intros n; split; [intros H; discriminate|intros (n0 & H & _); discriminate]|]. intros e'. split; intros (n & H); injection H as _ <-; eauto.
Qed.
Print Assumptions C67_extension.
Theorem C67_shipped : forall p x d label k e r n, p = [] /\ starts_digit (x ++ d) \/ p = [43] -> spaced (x ++ d) -> all_digits d = true -> d <> [] ->
  (3 <= length (only_digits (x ++ d)))%nat -> In (label, k) ext_labels -> all_digits e = true -> (1 <= length e <= k)%nat -> (length (p ++ (x ++ d) ++ label ++ e) <= 250)%nat ->
  Parse shipped (p ++ x ++ d) r = Ret (n, None) -> Parse shipped (p ++ (x ++ d) ++ label ++ e) r = Ret (set_ext n (Some e), None).
Proof.
  intros p x d q k e r n Hp S D Ne L3 I De Le L H. apply (C67_extension shipped p x d q k e r shipped_wf Hp S D Ne L3 I De Le L). eauto.
Qed.
Print Assumptions C67_shipped.
Example C67_witness : Parse shipped (bs "+1 650 253 0000 ext. 4567") [] = Ret (set_ext (num 1 6502530000) (Some (bs "4567")), None) /\
  Parse shipped (bs "020 7031 3000x12") (bs "GB") = Ret (set_ext (num 44 2070313000) (Some (bs "12")), None) /\ In (bs " ext. ", 20%nat) ext_labels /\ In (bs "x", 9%nat) ext_labels.
Proof. split; [vm_compute; reflexivity|]. split; [vm_compute; reflexivity|]. split; unfold ext_labels; cbn [In]; tauto. Qed.
(** The limits are the ones listed: one digit more and the same text is a different number or none. *)
Theorem C67_too_long_refuted : exists n, Parse shipped (bs "+1 650 253 0000 x123456789") [] = Ret (set_ext (num 1 6502530000) (Some (bs "123456789")), None) /\
  Parse shipped (bs "+1 650 253 0000 x1234567890") [] = Ret (n, Some ErrNumTooLong).
Proof. eexists. split; vm_compute; reflexivity. Qed.
Print Assumptions C67_too_long_refuted.

(** C66: the INTERNATIONAL and the RFC3966 text of a number parse to what its E.164 text parses to, with the extension. *)
Theorem C66_international : forall n region, supported n -> has_number n -> (2 <= length (GetNationalSignificantNumber n) <= 17)%nat -> all_digits (ext_of n) = true -> (length (ext_of n) <= 9)%nat ->
  exists text e164, Format shipped n INTERNATIONAL = Ret text /\ Format shipped n E164 = Ret e164 /\
    forall r, Parse shipped e164 region = Ret (r, None) -> Parse shipped text region = Ret (if is_empty (ext_of n) then r else set_ext r (Some (ext_of n)), None).
Proof.
  intros n region V R L D Le. destruct (international_back shipped n region shipped_wf shipped_rules shipped_tame shipped_marks V (has_number_raw _ R) L D Le) as (text & F & H).
  exists text, (43 :: itoa (cc_of n) ++ GetNationalSignificantNumber n). split; [exact F|]. split; [rewrite format_e164; change ((nn_of n =? 0) && negb (is_empty (get_raw n))) with (printed_raw n); rewrite (has_number_raw _ R); reflexivity|]. intros r Hr. rewrite (H r Hr). unfold same_but_ext. destruct (ext_of n); reflexivity.
Qed.
Print Assumptions C66_international.
Theorem C66_rfc3966 : forall n region, supported n -> has_number n -> (2 <= length (GetNationalSignificantNumber n) <= 17)%nat -> all_digits (ext_of n) = true -> (length (ext_of n) <= 20)%nat ->
  exists text e164, Format shipped n RFC3966 = Ret text /\ Format shipped n E164 = Ret e164 /\
    forall r, Parse shipped e164 region = Ret (r, None) -> Parse shipped text region = Ret (if is_empty (ext_of n) then r else set_ext r (Some (ext_of n)), None).
Proof.
  intros n region V R L D Le. destruct (rfc_back n region V (has_number_raw _ R) L D Le) as (text & F & H).
  exists text, (43 :: itoa (cc_of n) ++ GetNationalSignificantNumber n). split; [exact F|]. split; [rewrite format_e164; change ((nn_of n =? 0) && negb (is_empty (get_raw n))) with (printed_raw n); rewrite (has_number_raw _ R); reflexivity|]. intros r Hr. rewrite (H r Hr). unfold same_but_ext. destruct (ext_of n); reflexivity.
Qed.
Print Assumptions C66_rfc3966.

Lemma valid_lengths C fuel : wf_container C -> table_ok fuel C = true -> forall n, IsValidNumber C n = Ret true ->
  hasValidCountryCallingCode C (cc_of n) = true /\ (2 <= length (GetNationalSignificantNumber n) <= 17)%nat.
Proof.
  intros W B n V. destruct (type_valid_spec C n W) as (t & b & Et & Eb & _ & H). rewrite V in Eb. injection Eb as <-. destruct (H eq_refl) as (r & m & Er & Nr & Ir & Em & Wm & Ht).
  unfold table_ok in B. rewrite forallb_forall in B. unfold regions_of in Ir. unfold hasValidCountryCallingCode. destruct (assocz (cc_of n) (c_cc2region C)) as [l|] eqn:El; [|destruct Ir]. split; [reflexivity|].
  apply assocz_In in El. apply B in El. rewrite forallb_forall in El. cbn [fst snd] in El. apply El in Ir. clear B El. rewrite Em in Ir. destruct (main_meta C (cc_of n)) as [mm|]; [|discriminate].
  apply andb_true_iff in Ir as [Lm _]. destruct Ht as ((g & Eg & Lg & Fg) & _). unfold lengths_ok in Lm. rewrite Eg in Lm. apply andb_true_iff in Lm as [L1 L2]. destruct Lg as [Lg|Lg]; [rewrite Lg in L1; discriminate|]. rewrite forallb_forall in L2. apply L2 in Lg. apply andb_true_iff in Lg as [L3 L4]. apply Z.leb_le in L3, L4. lia.
Qed.
Lemma set_ext_keeps r e : cc_of (set_ext r (Some e)) = cc_of r /\ GetNationalSignificantNumber (set_ext r (Some e)) = GetNationalSignificantNumber r /\ ext_of (set_ext r (Some e)) = e.
Proof. destruct r. split; [reflexivity|]. split; reflexivity. Qed.
(** C66: every valid number, with the two exceptions of C10: its printed forms parse back to its calling code, national
    significant number and extension, whatever the default region. *)
Theorem C66_shipped : forall n t region f k, IsValidNumber shipped n = Ret true -> GetNumberType shipped n = Ret t ->
  ~ (cc_of n = 81%Z /\ t = TOLL_FREE) -> ~ (cc_of n = 375%Z /\ t = PREMIUM_RATE) -> nn_of n <> 0 \/ p_raw n = None ->
  (f, k) = (INTERNATIONAL, 9%nat) \/ (f, k) = (RFC3966, 20%nat) -> all_digits (ext_of n) = true -> (length (ext_of n) <= k)%nat ->
  exists text r, Format shipped n f = Ret text /\ Parse shipped text region = Ret (r, None) /\
    cc_of r = cc_of n /\ GetNationalSignificantNumber r = GetNationalSignificantNumber n /\ ext_of r = ext_of n.
Proof.
  intros n t region f k V T X1 X2 R Fk D Le. destruct (C10_shipped n t region V T X1 X2 R) as (e164 & r & F & P & Ec & En & Ex & _).
  destruct (valid_lengths shipped 1000 shipped_wf shipped_table n V) as [HV L].
  assert (HN : has_number n). { destruct R as [R|R]; [left; auto|right]. unfold get_raw. rewrite R. reflexivity. }
  assert (A : exists text e', Format shipped n f = Ret text /\ Format shipped n E164 = Ret e' /\ forall r, Parse shipped e' region = Ret (r, None) -> Parse shipped text region = Ret (if is_empty (ext_of n) then r else set_ext r (Some (ext_of n)), None)).
  { destruct Fk as [Fk|Fk]; injection Fk as -> ->; [apply C66_international|apply C66_rfc3966]; auto. }
  destruct A as (text & e' & F1 & F2 & H). rewrite F in F2. injection F2 as <-. specialize (H r P). exists text, (if is_empty (ext_of n) then r else set_ext r (Some (ext_of n))).
  split; [exact F1|]. split; [exact H|]. destruct (ext_of n) as [|c e] eqn:E; cbn [is_empty].
  - split; [exact Ec|]. split; [exact En|]. unfold ext_of. rewrite Ex. reflexivity.
  - destruct (set_ext_keeps r (c :: e)) as (A1 & A2 & A3). rewrite A1, A2, A3. auto.
Qed.
Print Assumptions C66_shipped.
Example C66_witness : IsValidNumber shipped (set_ext (num 44 2070313000) (Some (bs "77"))) = Ret true /\
  Format shipped (set_ext (num 44 2070313000) (Some (bs "77"))) INTERNATIONAL = Ret (bs "+44 20 7031 3000 x77") /\
  Format shipped (set_ext (num 44 2070313000) (Some (bs "77"))) RFC3966 = Ret (bs "tel:+44-20-7031-3000;ext=77") /\
  Parse shipped (bs "+44 20 7031 3000 x77") (bs "US") = Ret (set_ext (num 44 2070313000) (Some (bs "77")), None).
Proof. split; [vm_compute; reflexivity|]. split; [vm_compute; reflexivity|]. split; vm_compute; reflexivity. Qed.
(** C66: the bound on the extension is needed: ten digits after " x" are not read back. *)
Theorem C66_long_extension_refuted : exists n text r er, IsValidNumber shipped n = Ret true /\ Format shipped n INTERNATIONAL = Ret text /\ Parse shipped text [] = Ret (r, Some er).
Proof. exists (set_ext (num 44 2070313000) (Some (bs "1234567890"))), (bs "+44 20 7031 3000 x1234567890"). eexists. eexists. split; [vm_compute; reflexivity|]. split; vm_compute; reflexivity. Qed.
Print Assumptions C66_long_extension_refuted.
