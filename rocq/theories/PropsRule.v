(** Properties C59-C61, with additions to C17 and C19: formatting rules, carrier codes, calls from abroad, meaning of the
    metadata's patterns. Vocabulary in RuleSpec.v, proofs in RuleFacts.v and RuleMore.v. *)
From Verif Require Import Base BaseFacts Utf8 Utf8Facts LangFacts Regex RegexSpec Consts Types Normalize NormalizeSpec NormalizeFacts Validate Format Parse NumberSpec NumberFacts MetaSpec
  ValidateSpec ValidateFacts MetaFacts Shipped FormatSpec TextFacts FormatFacts FormatMore PropsValidate PropsFormat RuleSpec RuleFacts RuleMore.

(** C60: INTERNATIONAL prints the number by the first rule that applies to it. *)
Theorem C60_international : forall n, supported n -> has_number n -> exists m body, main_entry shipped (cc_of n) m /\
  printed m INTERNATIONAL [] (GetNationalSignificantNumber n) body /\
  Format shipped n INTERNATIONAL = Ret (bs "+" ++ itoa (cc_of n) ++ bs " " ++ body ++ extension_text m (ext_of n)).
Proof. intros n V R. exact (format_rule shipped n INTERNATIONAL shipped_wf shipped_rules (has_number_raw _ R) (or_intror eq_refl) V). Qed.
Print Assumptions C60_international.
(** C60: NATIONAL likewise, with the rule's national prefix rule worked into its format. *)
Theorem C60_national : forall n, supported n -> has_number n -> exists m body, main_entry shipped (cc_of n) m /\
  printed m NATIONAL [] (GetNationalSignificantNumber n) body /\ Format shipped n NATIONAL = Ret (body ++ extension_text m (ext_of n)).
Proof. intros n V R. exact (format_rule shipped n NATIONAL shipped_wf shipped_rules (has_number_raw _ R) (or_introl eq_refl) V). Qed.
Print Assumptions C60_national.
(** C60: RFC3966 has the digit groups of the INTERNATIONAL form. *)
Theorem C60_rfc3966 : forall n, supported n -> has_number n -> exists m body gs, main_entry shipped (cc_of n) m /\
  printed m INTERNATIONAL [] (GetNationalSignificantNumber n) body /\ stretches is_digit body gs /\
  Format shipped n RFC3966 = Ret (bs "tel:+" ++ itoa (cc_of n) ++ bs "-" ++ join gs (bs "-") ++ (if is_empty (ext_of n) then [] else bs ";ext=" ++ ext_of n)).
Proof. intros n V R. exact (format_rfc n (has_number_raw _ R) V). Qed.
Print Assumptions C60_rfc3966.
(** C60: metadata, format, carrier code and number determine the printed text. *)
Theorem C60_determined : forall m nf carrier s o o', printed m nf carrier s o -> printed m nf carrier s o' -> o = o'.
Proof. exact printed_unique. Qed.
Print Assumptions C60_determined.
Example C60_witness : supported (num 39 236618300) /\ has_number (num 39 236618300) /\ Format shipped (num 44 2070313000) NATIONAL = Ret (bs "020 7031 3000")
  /\ Format shipped (num 54 91187654321) NATIONAL = Ret (bs "011 15-8765-4321") /\ Format shipped (num 54 91187654321) INTERNATIONAL = Ret (bs "+54 9 11 8765-4321").
Proof. split; [vm_compute; reflexivity|]. split; [left; discriminate|]. vm_compute. auto. Qed.

(** C59: the number's own preferred carrier code is used, and the given one only when it has none. *)
Theorem C59_preferred : forall C n fallback, get_carrier n <> [] ->
  FormatNationalNumberWithPreferredCarrierCode C n fallback = FormatNationalNumberWithCarrierCode C n (get_carrier n).
Proof. intros C n fb H. unfold FormatNationalNumberWithPreferredCarrierCode. destruct (get_carrier n); [congruence|reflexivity]. Qed.
Print Assumptions C59_preferred.
Theorem C59_fallback : forall C n fallback, get_carrier n = [] ->
  FormatNationalNumberWithPreferredCarrierCode C n fallback = FormatNationalNumberWithCarrierCode C n fallback.
Proof. intros C n fb H. unfold FormatNationalNumberWithPreferredCarrierCode. rewrite H. reflexivity. Qed.
Print Assumptions C59_fallback.
(** C59: without a carrier code the text is the NATIONAL form. *)
Theorem C59_no_carrier : forall C n, has_number n -> FormatNationalNumberWithCarrierCode C n [] = Format C n NATIONAL.
Proof. intros C n R. apply carrier_empty. apply has_number_raw. auto. Qed.
Print Assumptions C59_no_carrier.
(** C59: with one, the carrier rule of the rule that applies takes the place of its national prefix rule; a rule without a
    carrier rule prints the NATIONAL form. *)
Theorem C59_carrier : forall n carrier, supported n -> ~ In 36 carrier -> exists m body, main_entry shipped (cc_of n) m /\
  printed m NATIONAL carrier (GetNationalSignificantNumber n) body /\
  FormatNationalNumberWithCarrierCode shipped n carrier = Ret (body ++ extension_text m (ext_of n)).
Proof. intros n c V Nc. exact (carrier_rule shipped n c shipped_wf shipped_rules Nc V). Qed.
Print Assumptions C59_carrier.
(** C59: in particular the carrier code shows in the text whenever the rule that applies has a carrier rule. *)
Theorem C59_carrier_shown : forall n carrier m f, supported n -> carrier <> [] -> ~ In 36 carrier -> main_entry shipped (cc_of n) m ->
  first_applying (md_nf m) (GetNationalSignificantNumber n) (Some f) -> get_dccfr f <> [] ->
  exists a b, FormatNationalNumberWithCarrierCode shipped n carrier = Ret (a ++ carrier ++ b).
Proof.
  intros n c m f V Ne Nc Me Fa Nd. destruct (C59_carrier n c V Nc) as (m' & body & Me' & P & E).
  assert (Em : m' = m). { destruct Me as (r & l & A & B). destruct Me' as (r' & l' & A' & B'). rewrite A in A'. injection A' as <- <-. rewrite B in B'. injection B' as <-. reflexivity. }
  subst m'. destruct (carrier_shown m c _ body f Nc Ne Fa Nd P) as (a & b & ->). exists a, (b ++ extension_text m (ext_of n)). rewrite E, <- !app_assoc. reflexivity.
Qed.
Print Assumptions C59_carrier_shown.
Definition with_pref_carrier (c : bytes) (n : phone) : phone := set_carrier n (Some c).
Example C59_witness : supported (num 55 1123456789) /\ FormatNationalNumberWithCarrierCode shipped (num 55 1123456789) (bs "15") = Ret (bs "0 15 (11) 2345-6789")
  /\ Format shipped (num 55 1123456789) NATIONAL = Ret (bs "(11) 2345-6789")
  /\ FormatNationalNumberWithPreferredCarrierCode shipped (with_pref_carrier (bs "21") (num 55 1123456789)) (bs "15") = Ret (bs "0 21 (11) 2345-6789").
Proof. vm_compute. auto. Qed.
(** C59: a carrier code with a dollar sign is not printed as it is: it is taken for a group reference. *)
Theorem C59_dollar_refuted : exists n carrier s, supported n /\ FormatNationalNumberWithCarrierCode shipped n carrier = Ret s /\ forall a b, s <> a ++ carrier ++ b.
Proof.
  exists (num 55 1123456789), (bs "$2"), (bs "0  (11) 2345-6789"). split; [vm_compute; reflexivity|]. split; [vm_compute; reflexivity|].
  intros a b E. assert (I : In 36 (bs "0  (11) 2345-6789")) by (rewrite E; apply in_or_app; right; left; reflexivity).
  revert I. change (~ In 36 (bs "0  (11) 2345-6789")). vm_compute. intuition discriminate.
Qed.
Print Assumptions C59_dollar_refuted.

(** C61: a number dialled from a supported region. From a region with the same calling code it is the NATIONAL form, after "1 "
    within the North American Numbering Plan. From elsewhere it is the region's exit prefix and the INTERNATIONAL form without
    its plus sign; with the plus sign when no exit prefix is preferred over others. *)
Theorem C61_out_of_country : forall n from mf, supported n -> has_number n -> In from (c_regions shipped) -> assocb from (c_region shipped) = Some mf ->
  exists s nat intl, FormatOutOfCountryCallingNumber shipped n from = Ret s /\ Format shipped n NATIONAL = Ret nat /\
    Format shipped n INTERNATIONAL = Ret (bs "+" ++ intl) /\
    s = if Z.eqb (mcc (Some mf)) (cc_of n) then (if Z.eqb (cc_of n) 1 then bs "1 " ++ nat else nat)
        else match exit_prefix mf with [] => bs "+" ++ intl | p => p ++ bs " " ++ intl end.
Proof. intros n from mf V R I E. exact (abroad_spec shipped n from mf shipped_wf (has_number_raw _ R) V I E (shipped_exits _ _ E)). Qed.
Print Assumptions C61_out_of_country.
(** C61: from a region that is not supported it is the INTERNATIONAL form. *)
Theorem C61_unknown_region : forall C n from, ~ In from (c_regions C) -> FormatOutOfCountryCallingNumber C n from = Format C n INTERNATIONAL.
Proof. exact abroad_unknown. Qed.
Print Assumptions C61_unknown_region.
Lemma exit_ascii r m : assocb r (c_region shipped) = Some m -> ascii (exit_prefix m).
Proof.
  assert (H : forallb (fun rm => forallb (fun c => c <? 128) (exit_prefix (snd rm))) (c_region shipped) = true) by (vm_cast_no_check (eq_refl true)).
  intros E. rewrite forallb_forall in H. specialize (H (r, m) (assocb_In _ _ _ E)). cbn [snd] in H. rewrite forallb_forall in H. apply Forall_forall. intros c I. apply N.ltb_lt. auto.
Qed.
(** C61: dialled from another country, the digits are those of the exit prefix, the calling code, the number and the extension. *)
Theorem C61_digits : forall n from mf, supported n -> has_number n -> In from (c_regions shipped) -> assocb from (c_region shipped) = Some mf ->
  mcc (Some mf) <> cc_of n -> exists s, FormatOutOfCountryCallingNumber shipped n from = Ret s /\
    NormalizeDigitsOnly s = filter is_digit (exit_prefix mf) ++ itoa (cc_of n) ++ GetNationalSignificantNumber n ++ NormalizeDigitsOnly (ext_of n).
Proof.
  intros n from mf V R I E Nc. destruct (C61_out_of_country n from mf V R I E) as (s & nat & intl & Es & _ & Ei & Eq). exists s. split; [exact Es|].
  destruct (C08_international_digits n V R) as (s' & Es' & D). assert (Q : bs "+" ++ intl = s') by congruence. rewrite <- D, <- Q.
  replace (Z.eqb (mcc (Some mf)) (cc_of n)) with false in Eq by (symmetry; apply Z.eqb_neq; auto). pose proof (exit_ascii _ _ E) as A.
  rewrite (digits_only_plain (bs "+") intl eq_refl). destruct (exit_prefix mf) as [|p0 ps] eqn:Ep.
  - rewrite Eq. apply (digits_only_plain (bs "+") intl eq_refl).
  - rewrite Eq, digits_only_ascii_app by auto. rewrite (digits_only_plain (bs " ") intl eq_refl). reflexivity.
Qed.
Print Assumptions C61_digits.
Definition r_of (s : bytes) : option meta := assocb s (c_region shipped).
Example C61_witness : FormatOutOfCountryCallingNumber shipped us (bs "DE") = Ret (bs "00 1 650-253-0000")
  /\ FormatOutOfCountryCallingNumber shipped us (bs "BS") = Ret (bs "1 (650) 253-0000")
  /\ FormatOutOfCountryCallingNumber shipped us (bs "UZ") = Ret (bs "00 1 650-253-0000")
  /\ FormatOutOfCountryCallingNumber shipped us (bs "AU") = Ret (bs "0011 1 650-253-0000")
  /\ FormatOutOfCountryCallingNumber shipped us (bs "SG") = Ret (bs "+1 650-253-0000")
  /\ supported us /\ has_number us /\ In (bs "SG") (c_regions shipped).
Proof. repeat (split; [vm_compute; reflexivity|]). split; [left; discriminate|]. apply mem_bytes_iff. vm_compute. reflexivity. Qed.

(** C17: the metadata that decides the possible lengths of a number is that of the first region of its calling code. *)
Theorem C17_main_region : forall C n t, wf_container C -> hasValidCountryCallingCode C (cc_of n) = true -> exists m v, main_entry C (cc_of n) m /\
  IsPossibleNumberForTypeWithReason C n t = Ret v /\ classified (allowed m t) (local_only m t) (Z.of_nat (length (GetNationalSignificantNumber n))) v.
Proof.
  intros C n t W V. destruct (main_entry_ok C _ W V) as (m & Me & Em & _). destruct (possible_type_spec C n t W) as (v & E & H). rewrite V in H.
  destruct H as (m' & Em' & H). rewrite Em in Em'. injection Em' as <-. exists m, v. split; [auto|]. split; [exact E|exact H].
Qed.
Print Assumptions C17_main_region.
Example C17_main_witness : exists m, main_entry shipped 7 m /\ assocb (bs "RU") (c_region shipped) = Some m.
Proof.
  assert (H : is_some (assocb (bs "RU") (c_region shipped)) = true) by (vm_compute; reflexivity). destruct (assocb (bs "RU") (c_region shipped)) as [m|] eqn:E; [|discriminate].
  exists m. split; [|reflexivity]. exists (bs "RU"), [bs "KZ"]. split; [vm_compute; reflexivity|exact E].
Qed.

(** C19: for the shipped metadata, that a descriptor accepts a number means that the pattern as written there matches all of it;
    that a number has the leading digits of a region, that this pattern matches a beginning of it. *)
Theorem C19_pattern_meaning : forall m d s, In m (map snd (c_region shipped) ++ map snd (c_nongeo shipped)) -> In d (typed_descs m) ->
  full_match (get_d_pattern d) s <-> matches_all (get_d_pattern d) s.
Proof.
  intros m d s I Id. apply full_match_all. apply framed_b_ok. pose proof (shipped_framed m I) as H. apply andb_true_iff in H as [H _].
  rewrite forallb_forall in H. apply H. exact Id.
Qed.
Print Assumptions C19_pattern_meaning.
Theorem C19_leading_meaning : forall m s, In m (map snd (c_region shipped) ++ map snd (c_nongeo shipped)) -> get_bytes (md_leading m) <> [] ->
  starts_with (get_bytes (md_leading m)) s <-> matches_front (get_bytes (md_leading m)) s.
Proof.
  intros m s I Ne. apply starts_front. apply framed_left_b_ok. pose proof (shipped_framed m I) as H. apply andb_true_iff in H as [_ H].
  apply orb_true_iff in H as [H|H]; [|exact H]. destruct (get_bytes (md_leading m)); [congruence|discriminate].
Qed.
Print Assumptions C19_leading_meaning.
