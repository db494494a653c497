(** Property C76: comparing written numbers. *)
From Verif Require Import Base BaseFacts Utf8 Utf8Facts Regex RegexSpec RegexFacts LangFacts Consts Types Normalize NormalizeSpec NormalizeFacts Validate Format Parse
  NumberSpec NumberFacts MetaSpec ValidateSpec ValidateFacts Container Shipped MetaFacts FormatSpec TextFacts FormatFacts FormatMore ParseSpec ParseFacts ParseMore ContextFacts
  RoundSpec DerivFacts MatcherTotal RoundTripFacts PropsNumber PropsValidate PropsTotal PropsRound RuleSpec RuleFacts RuleMore ReadSpec ReadFacts ReadMore PropsRead ExtSpec ExtFacts BackFacts PropsBack NationalFacts NationalMore PropsNational MatchFacts.
Local Opaque compile re_find re_replace_all.

(** The order of the two texts does not matter. *)
Theorem C76_symmetric : forall C s t, wf_container C -> IsNumberMatch C s t = IsNumberMatch C t s.
Proof. exact text_match_sym. Qed.
Print Assumptions C76_symmetric.
Theorem C76_symmetric_shipped : forall s t, IsNumberMatch shipped s t = IsNumberMatch shipped t s.
Proof. exact (fun s t => text_match_sym shipped s t shipped_wf). Qed.
Print Assumptions C76_symmetric_shipped.

Lemma shipped_unknown : ~ In unknownRegion (c_regions shipped).
Proof. intros I. apply mem_bytes_iff in I. vm_compute in I. discriminate. Qed.

(** Two texts match exactly when each of them denotes the same number in every region, and this is one number. *)
Theorem C76_exact : forall s t, IsNumberMatch shipped s t = Ret EXACT_MATCH <->
  exists a b, (forall region, Parse shipped s region = Ret (a, None)) /\ (forall region, Parse shipped t region = Ret (b, None)) /\
    cc_of a = cc_of b /\ GetNationalSignificantNumber a = GetNationalSignificantNumber b /\ ext_of a = ext_of b.
Proof.
  intros s t. rewrite (text_exact shipped s t shipped_wf shipped_parse_ok shipped_plain shipped_unknown). split.
  - intros (a & b & A & B & E). exists a, b. split; [intros r; apply C62_shipped; exact A|]. split; [intros r; apply C62_shipped; exact B|]. apply exact_iff in E as (_ & E1 & E2 & E3 & E4).
    split; [exact E1|]. split; [|exact E4]. apply same_nsn; [eapply parse_zeros; [exact shipped_wf|exact shipped_parse_ok|exact A]|eapply parse_zeros; [exact shipped_wf|exact shipped_parse_ok|exact B]|auto].
  - intros (a & b & A & B & E1 & E2 & E3). exists a, b. split; [apply A|]. split; [apply B|]. apply exact_iff. specialize (A unknownRegion). specialize (B unknownRegion).
    split; [eapply parse_code; [exact shipped_wf|exact shipped_parse_ok|exact A]|]. split; [exact E1|]. apply same_nsn in E2 as [E4 E5]; [auto|eapply parse_zeros; [exact shipped_wf|exact shipped_parse_ok|exact A]|eapply parse_zeros; [exact shipped_wf|exact shipped_parse_ok|exact B]].
Qed.
Print Assumptions C76_exact.
(** A number matches a text exactly only if the text denotes it in every region: a text without calling code never does. *)
Theorem C76_one_exact : forall n t, IsNumberMatchWithOneNumber shipped n t = Ret EXACT_MATCH <->
  exists b, (forall region, Parse shipped t region = Ret (b, None)) /\ cc_of n = cc_of b /\ nn_of n = nn_of b /\ NumberSpec.zeros n = NumberSpec.zeros b /\ ext_of n = ext_of b.
Proof.
  intros n t. rewrite (one_exact shipped n t shipped_wf shipped_parse_ok shipped_plain shipped_unknown). split.
  - intros (b & B & E). exists b. split; [intros r; apply C62_shipped; exact B|]. apply exact_iff in E. tauto.
  - intros (b & B & E). exists b. split; [apply B|]. apply exact_iff. split; [|exact E]. rewrite (proj1 E). eapply parse_code; [exact shipped_wf|exact shipped_parse_ok|exact (B unknownRegion)].
Qed.
Print Assumptions C76_one_exact.
Example C76_exact_witness : IsNumberMatch shipped (bs "+44 20 7031 3000") (bs "tel:+44-20-7031-3000") = Ret EXACT_MATCH /\ IsNumberMatch shipped (bs "+44 20 7031 3000") (bs "020 7031 3000") = Ret NSN_MATCH /\
  IsNumberMatchWithOneNumber shipped (num 44 2070313000) (bs "020 7031 3000") = Ret NSN_MATCH /\ IsNumberMatchWithOneNumber shipped (num 44 2070313000) (bs "0044 20 7031 3000") = Ret NSN_MATCH.
Proof. vm_compute. auto. Qed.

(** Texts with their own calling codes compare like the numbers they denote. *)
Theorem C76_both : forall C s t a b, Parse C s unknownRegion = Ret (a, None) -> Parse C t unknownRegion = Ret (b, None) -> IsNumberMatch C s t = Ret (IsNumberMatchWithNumbers a b).
Proof. exact both_read. Qed.
Print Assumptions C76_both.
(** A text without calling code is read in the main region of the number it is compared with. If it denotes the number there, the
    answer is NSN_MATCH; if not, it is that of comparing the numbers; if it denotes none, NOT_A_NUMBER. *)
Theorem C76_home : forall C n t e, wf_container C -> parse_ok C -> hasValidCountryCallingCode C (cc_of n) = true -> ~ In unknownRegion (c_regions C) ->
  Parse C t unknownRegion = Ret (e, Some ErrInvalidCountryCode) -> let r := GetRegionCodeForCountryCode C (cc_of n) in
  (forall b, Parse C t r = Ret (b, None) ->
     (IsNumberMatchWithOneNumber C n t = Ret NSN_MATCH <-> cc_of n = cc_of b /\ nn_of n = nn_of b /\ NumberSpec.zeros n = NumberSpec.zeros b /\ ext_of n = ext_of b) /\
     (forall m, m = SHORT_NSN_MATCH \/ m = NO_MATCH -> IsNumberMatchWithOneNumber C n t = Ret m <-> IsNumberMatchWithNumbers n b = m)) /\
  (IsNumberMatchWithOneNumber C n t = Ret NOT_A_NUMBER <-> forall b, Parse C t r <> Ret (b, None)).
Proof.
  intros C n t e W PO V Nu P r.
  assert (Nr : GetRegionCodeForCountryCode C (cc_of n) <> unknownRegion).
  { intros E. destruct (main_entry_ok C _ W V) as (m & Me & Em & _). unfold main_meta in Em. rewrite E in Em. unfold getMetadataForRegionOrCallingCode in Em.
    change (beq nonGeoEntity unknownRegion) with false in Em. cbv iota in Em. rewrite (proj1 (no_region C _ Nu)) in Em. discriminate. }
  assert (Nz : cc_of n <> 0%Z) by (pose proof (valid_cc_pos _ _ W V); lia).
  split.
  - intros b B. rewrite (home_match C n t b e W V Nr P B). destruct (parse_code C t r b W PO B) as [Nb _]. split.
    + destruct (IsNumberMatchWithNumbers n b) eqn:E; split; intros H; try discriminate H; try reflexivity.
      * exfalso. assert (IsNumberMatchWithNumbers n b = EXACT_MATCH) by (apply exact_iff; tauto). congruence.
      * exfalso. assert (IsNumberMatchWithNumbers n b = EXACT_MATCH) by (apply exact_iff; tauto). congruence.
      * exfalso. assert (IsNumberMatchWithNumbers n b = EXACT_MATCH) by (apply exact_iff; tauto). congruence.
      * exfalso. apply nsn_match_iff in E as ([E|E] & _); congruence.
      * apply exact_iff in E. tauto.
    + intros m [->| ->]; destruct (IsNumberMatchWithNumbers n b); split; congruence.
  - split.
    + intros H b B. rewrite (home_match C n t b e W V Nr P B) in H. destruct (IsNumberMatchWithNumbers n b) eqn:E; try discriminate H. revert E. unfold IsNumberMatchWithNumbers. repeat match goal with |- context [if ?c then _ else _] => destruct c end; discriminate.
    + intros H. unfold IsNumberMatchWithOneNumber. rewrite P. cbn [bind]. change (get_cc n) with (cc_of n). cbv zeta. destruct (beq _ unknownRegion) eqn:Q; [apply beq_eq in Q; congruence|]. cbn [negb].
      destruct (parse_cases C t (GetRegionCodeForCountryCode C (cc_of n)) W) as [(b & B)|(b & eb & B)]; [exfalso; exact (H _ B)|]. rewrite B. reflexivity.
Qed.
Print Assumptions C76_home.
Example C76_home_witness : (exists e, Parse shipped (bs "020 7031 3000") unknownRegion = Ret (e, Some ErrInvalidCountryCode)) /\ IsNumberMatchWithOneNumber shipped (num 44 2070313000) (bs "7031 3000") = Ret SHORT_NSN_MATCH /\
  IsNumberMatchWithOneNumber shipped (num 44 2070313000) (bs "7031 3001") = Ret NO_MATCH /\ IsNumberMatchWithOneNumber shipped (num 44 2070313000) (bs "0044 0") = Ret NOT_A_NUMBER.
Proof. split; [eexists|]; vm_compute; auto. Qed.

(** A text that fails to parse for another reason than a missing calling code is no number, whatever it is compared with. *)
Theorem C76_not_a_number : forall C s n e, wf_container C -> Parse C s unknownRegion = Ret (n, Some e) -> e <> ErrInvalidCountryCode ->
  (forall t, IsNumberMatch C s t = Ret NOT_A_NUMBER /\ IsNumberMatch C t s = Ret NOT_A_NUMBER) /\ (forall a, IsNumberMatchWithOneNumber C a s = Ret NOT_A_NUMBER).
Proof.
  intros C s n e W P Ne. split.
  - intros t. assert (H : IsNumberMatch C s t = Ret NOT_A_NUMBER). { unfold IsNumberMatch. rewrite P. cbn [bind]. destruct e; congruence. } split; [exact H|]. rewrite text_match_sym by auto. exact H.
  - intros a. unfold IsNumberMatchWithOneNumber. rewrite P. cbn [bind]. destruct e; congruence.
Qed.
Print Assumptions C76_not_a_number.
Example C76_not_a_number_witness : exists n, Parse shipped (bs "no number") unknownRegion = Ret (n, Some ErrNotANumber).
Proof. eexists. vm_compute. reflexivity. Qed.

(** Two texts of digits without calling code: compared as national significant numbers. *)
Theorem C76_digits : forall d e, all_digits d = true -> (2 <= length d <= 17)%nat -> all_digits e = true -> (2 <= length e <= 17)%nat ->
  (IsNumberMatch shipped d e = Ret NSN_MATCH <-> d = e) /\
  (IsNumberMatch shipped d e = Ret SHORT_NSN_MATCH <-> d <> e /\ exists x y, decimal_of x (fold_left (fun acc c => acc * 10 + (c - 48)) d 0) /\ decimal_of y (fold_left (fun acc c => acc * 10 + (c - 48)) e 0) /\ (suffix_of x y \/ suffix_of y x)) /\
  (exists m, IsNumberMatch shipped d e = Ret m /\ (m = NSN_MATCH \/ m = SHORT_NSN_MATCH \/ m = NO_MATCH)).
Proof.
  intros d e D L De Le. destruct (digits_match shipped d e shipped_wf shipped_unknown D L De Le) as (a & b & -> & A1 & B1 & A2 & B2 & A3 & B3 & A4 & B4).
  assert (S1 : d = e <-> nn_of a = nn_of b /\ NumberSpec.zeros a = NumberSpec.zeros b) by (rewrite <- (same_nsn a b A4 B4), A2, B2; tauto).
  assert (Va : fold_left (fun acc c => acc * 10 + (c - 48)) d 0 = nn_of a). { rewrite <- A2, nsn_eq. change (dval (repeat 48 (zero_count a) ++ dec (nn_of a)) = nn_of a). rewrite dval_zeros, dval_dec. reflexivity. }
  assert (Vb : fold_left (fun acc c => acc * 10 + (c - 48)) e 0 = nn_of b). { rewrite <- B2, nsn_eq. change (dval (repeat 48 (zero_count b) ++ dec (nn_of b)) = nn_of b). rewrite dval_zeros, dval_dec. reflexivity. }
  rewrite Va, Vb. split; [|split].
  - rewrite S1. split.
    + intros H. injection H as H. apply nsn_match_iff in H. tauto.
    + intros H. f_equal. apply nsn_match_iff. rewrite A3, B3. tauto.
  - split.
    + intros H. injection H as H. apply short_match_iff in H as (H1 & H2 & H3 & H4). split.
      * intros E. apply H4. apply S1 in E. rewrite A3, B3. tauto.
      * exists (dec (nn_of a)), (dec (nn_of b)). split; [apply decimal_of_dec|]. split; [apply decimal_of_dec|exact H3].
    + intros (H1 & x & y & X & Y & H2). f_equal. apply short_match_iff. rewrite A3, B3. split; [tauto|]. split; [tauto|]. rewrite S1 in H1. split; [|tauto].
      rewrite (decimal_of_unique _ _ X), (decimal_of_unique _ _ Y) in H2. exact H2.
  - eexists. split; [reflexivity|]. destruct (IsNumberMatchWithNumbers a b) eqn:E; auto.
    + exfalso. revert E. unfold IsNumberMatchWithNumbers. repeat match goal with |- context [if ?c then _ else _] => destruct c end; discriminate.
    + exfalso. apply exact_iff in E as (E & _). congruence.
Qed.
Print Assumptions C76_digits.
Example C76_digits_witness : IsNumberMatch shipped (bs "02070313000") (bs "2070313000") = Ret SHORT_NSN_MATCH /\ IsNumberMatch shipped (bs "2070313000") (bs "2070313001") = Ret NO_MATCH.
Proof. vm_compute. auto. Qed.

(** * Printed numbers *)
(** The text of [n] in format [f] denotes it everywhere: valid, not of the two types that E.164 texts lose (C10), the extension
    printed in full. *)
Definition ext_fits (f : pformat) (e : bytes) : Prop := match f with
  | E164 => e = [] | INTERNATIONAL => all_digits e = true /\ (length e <= 9)%nat | RFC3966 => all_digits e = true /\ (length e <= 20)%nat | NATIONAL => False end.
Definition printable (n : phone) (f : pformat) : Prop := exists t, IsValidNumber shipped n = Ret true /\ GetNumberType shipped n = Ret t /\
  ~ (cc_of n = 81%Z /\ t = TOLL_FREE) /\ ~ (cc_of n = 375%Z /\ t = PREMIUM_RATE) /\ (nn_of n <> 0 \/ p_raw n = None) /\ ext_fits f (ext_of n).
(** Leading zeros stored the way the parser stores them: the flag is set only for one zero or more. *)
Definition usual_zeros (n : phone) : Prop := forall k, NumberSpec.zeros n = Some k -> (1 <= k <= 17)%Z.
Lemma printable_back n f region : printable n f -> exists text r, Format shipped n f = Ret text /\ Parse shipped text region = Ret (r, None) /\
  cc_of r = cc_of n /\ GetNationalSignificantNumber r = GetNationalSignificantNumber n /\ ext_of r = ext_of n.
Proof.
  intros (t & V & T & X1 & X2 & R & E). destruct f; cbn [ext_fits] in E.
  - destruct (C10_shipped n t region V T X1 X2 R) as (text & r & F & P & Ec & En & Ex & _). exists text, r. split; [exact F|]. split; [exact P|]. split; [exact Ec|]. split; [exact En|]. unfold ext_of at 1. rewrite Ex, E. reflexivity.
  - destruct E as [D Le]. exact (C66_shipped n t region INTERNATIONAL 9 V T X1 X2 R (or_introl eq_refl) D Le).
  - destruct E.
  - destruct E as [D Le]. exact (C66_shipped n t region RFC3966 20 V T X1 X2 R (or_intror eq_refl) D Le).
Qed.
Lemma back_same r n text region : Parse shipped text region = Ret (r, None) -> usual_zeros n -> GetNationalSignificantNumber r = GetNationalSignificantNumber n -> nn_of r = nn_of n /\ NumberSpec.zeros r = NumberSpec.zeros n.
Proof. intros P U E. apply same_nsn; auto. eapply parse_zeros; [exact shipped_wf|exact shipped_parse_ok|exact P]. Qed.
(** The texts of two numbers, in whatever of the three formats each, compare like the numbers. *)
Theorem C76_printed : forall n f n' f', printable n f -> printable n' f' -> usual_zeros n -> usual_zeros n' ->
  exists x x', Format shipped n f = Ret x /\ Format shipped n' f' = Ret x' /\ IsNumberMatch shipped x x' = Ret (IsNumberMatchWithNumbers n n') /\
    IsNumberMatchWithOneNumber shipped n x' = Ret (IsNumberMatchWithNumbers n n').
Proof.
  intros n f n' f' P P' U U'. destruct (printable_back n f unknownRegion P) as (x & r & F & A & A1 & A2 & A3), (printable_back n' f' unknownRegion P') as (x' & r' & F' & B & B1 & B2 & B3).
  destruct (back_same r n _ _ A U A2) as [A4 A5], (back_same r' n' _ _ B U' B2) as [B4 B5]. exists x, x'. split; [exact F|]. split; [exact F'|].
  rewrite (both_read shipped x x' r r' A B). split; [f_equal; apply same_answer; auto|]. unfold IsNumberMatchWithOneNumber. rewrite B. cbn [bind]. f_equal. apply same_answer; auto.
Qed.
Print Assumptions C76_printed.
(** So the texts of one number match exactly. *)
Theorem C76_printed_same : forall n f f', printable n f -> printable n f' -> usual_zeros n ->
  exists x x', Format shipped n f = Ret x /\ Format shipped n f' = Ret x' /\ IsNumberMatch shipped x x' = Ret EXACT_MATCH /\ IsNumberMatchWithOneNumber shipped n x = Ret EXACT_MATCH.
Proof.
  intros n f f' P P' U. destruct (printable_back n f unknownRegion P) as (x0 & r & _ & A & A1 & _). assert (Nz : cc_of n <> 0%Z). { rewrite <- A1. eapply parse_code; [exact shipped_wf|exact shipped_parse_ok|exact A]. }
  destruct (C76_printed n f n f' P P' U U) as (x & x' & F & F' & M & _). destruct (C76_printed n f' n f P' P U U) as (y' & y & F1' & F1 & _ & O). rewrite F in F1. injection F1 as <-.
  exists x, x'. split; [exact F|]. split; [exact F'|]. rewrite M, O. replace (IsNumberMatchWithNumbers n n) with EXACT_MATCH by (symmetry; apply exact_iff; auto). auto.
Qed.
Print Assumptions C76_printed_same.
Example C76_printed_witness : printable (num 44 2070313000) E164 /\ printable (set_ext (num 44 2070313000) (Some (bs "123"))) RFC3966 /\ usual_zeros (num 44 2070313000) /\
  IsNumberMatch shipped (bs "+442070313000") (bs "+44 20 7031 3000") = Ret EXACT_MATCH.
Proof.
  split; [exists FIXED_LINE|split; [exists FIXED_LINE|split; [intros k H; discriminate|vm_compute; reflexivity]]]; (split; [vm_compute; reflexivity|]; split; [vm_compute; reflexivity|]; split; [intros [E _]; discriminate E|]; split; [intros [E _]; discriminate E|]; split; [left; discriminate|]).
  - reflexivity.
  - vm_compute. split; [reflexivity|lia].
Qed.
(** A number stored with the leading-zero flag and a count of zero does not match its own text exactly. *)
Theorem C76_zero_count_refuted : exists n x, IsValidNumber shipped n = Ret true /\ Format shipped n E164 = Ret x /\ IsNumberMatchWithOneNumber shipped n x = Ret SHORT_NSN_MATCH.
Proof. exists (set_nlz (set_ilz (num 44 2070313000) (Some true)) (Some 0%Z)), (bs "+442070313000"). vm_compute. auto. Qed.
Print Assumptions C76_zero_count_refuted.

(** * NATIONAL texts *)
Lemma national_text_bare C fuel mm m ok n r t o : wf_container C -> parse_ok C -> marks_known C -> wf_meta m -> In mm (map snd (c_region C) ++ map snd (c_nongeo C)) -> region_back fuel mm m ok = true -> ok t = true ->
  has_type m (GetNationalSignificantNumber n) t -> printed mm NATIONAL [] (GetNationalSignificantNumber n) o -> all_digits (ext_of n) = true -> (length (ext_of n) <= 9)%nat -> ~ In r (c_regions C) ->
  exists e, Parse C (o ++ extension_text mm (ext_of n)) r = Ret (e, Some ErrInvalidCountryCode).
Proof.
  intros W PO MK Wm Imm H Ok Ht P De Le Nr. pose proof (nsn_digits n) as D. set (s := GetNationalSignificantNumber n) in *. destruct (region_reads C fuel mm m ok s t o H Wm Ht Ok D P) as (L & h & b & c & -> & Hh & Lh & Nb & _).
  assert (Lf : (length (filter dig h) <= length h)%nat) by (clear; induction h as [|x h IH]; cbn [filter length]; [lia|destruct (dig x); cbn [length]; lia]).
  assert (Dp : all_digits (filter dig h ++ s) = true) by (rewrite all_digits_app, D, andb_true_r; apply forallb_forall; intros x Ix; apply filter_In in Ix as [_ Ix]; apply dig_iff in Ix; apply is_digit_iff; lia).
  assert (Ns : s <> []) by (intros E; rewrite E in L; cbn [length] in L; lia). pose proof Nb as (_ & Lb & _).
  assert (B : parse_core C (filter dig h ++ s) r true = Fail ErrInvalidCountryCode) by (apply digits_bare; auto; rewrite app_length; lia).
  assert (K : parse_core C ((h ++ b) ++ extension_text mm (ext_of n)) r true = Fail ErrInvalidCountryCode).
  { destruct (ext_of n) as [|e0 e] eqn:Ee.
    - cbn [extension_text]. rewrite app_nil_r, shown_core with (s := s); auto; rewrite app_length; lia.
    - specialize (MK mm Imm). apply existsb_exists in MK as ((q & k) & Iq & Eq). cbn [fst snd] in Eq. apply andb_true_iff in Eq as [Eq Lk]. apply beq_eq in Eq. apply Nat.leb_le in Lk. pose proof (labels_short q k Iq) as [Lq _].
      replace (extension_text mm (e0 :: e)) with (q ++ e0 :: e) by (unfold extension_text; rewrite Eq; destruct (get_bytes (md_extn mm)); reflexivity).
      rewrite (shown_core_ext C h s b r q k (e0 :: e)); auto; [rewrite B; reflexivity|rewrite app_length; lia|cbn [length] in *; lia|rewrite !app_length; cbn [length] in *; lia]. }
  pose proof (parse_runs C ((h ++ b) ++ extension_text mm (ext_of n)) r false true W) as R. rewrite K in R. apply R.
Qed.
Lemma national_bare C fuel : wf_container C -> parse_ok C -> rules_fine C -> marks_known C -> nat_table fuel C = true -> forall n r t q, IsValidNumber C n = Ret true -> GetRegionCodeForNumber C n = Ret r -> r <> nonGeoEntity ->
  GetNumberType C n = Ret t -> ~ nat_exception (cc_of n) t -> nn_of n <> 0 \/ p_raw n = None -> all_digits (ext_of n) = true -> (length (ext_of n) <= 9)%nat -> ~ In q (c_regions C) ->
  exists text e, Format C n NATIONAL = Ret text /\ Parse C text q = Ret (e, Some ErrInvalidCountryCode).
Proof.
  intros W PO RF MK B n r t q V Er Ng T X R De Le Nq. destruct (type_valid_spec C n W) as (t' & b & Et & Eb & _ & H). rewrite T in Et. rewrite V in Eb. injection Et as <-. injection Eb as <-. destruct (H eq_refl) as (r' & m & Er' & Nr & Ir & Em & Wm & Ht). rewrite Er in Er'. injection Er' as <-.
  assert (HV : hasValidCountryCallingCode C (cc_of n) = true). { unfold hasValidCountryCallingCode. unfold regions_of in Ir. destruct (assocz (cc_of n) (c_cc2region C)); [reflexivity|destruct Ir]. }
  assert (Pr : printed_raw n = false). { unfold printed_raw. destruct R as [R|R]; [apply N.eqb_neq in R; change (get_nn n) with (nn_of n); rewrite R; reflexivity|unfold get_raw; rewrite R; apply andb_false_r]. }
  destruct (format_rule C n NATIONAL W RF Pr (or_introl eq_refl) HV) as (mm & o & Me & P & F). destruct (main_entry_ok C _ W HV) as (m' & Me' & Em' & _). pose proof (entry_unique _ _ _ _ Me Me'). subst m'.
  unfold nat_table in B. rewrite forallb_forall in B. unfold regions_of in Ir. destruct (assocz (cc_of n) (c_cc2region C)) as [l|] eqn:El; [|destruct Ir]. apply assocz_In in El. apply B in El. clear B. cbn [fst snd] in El. rewrite forallb_forall in El. apply El in Ir. clear El.
  assert (Nb : beq r nonGeoEntity = false) by (destruct (beq r nonGeoEntity) eqn:E; [apply beq_eq in E; congruence|reflexivity]). rewrite Nb in Ir. pose proof (nat_ok_iff _ _ X) as Ok. pose proof (type_desc _ _ _ Ht) as (It & _ & _).
  destruct (forallb (fun t => negb (nat_ok (cc_of n) t)) all_types) eqn:Fx; [rewrite forallb_forall in Fx; apply Fx in It; rewrite Ok in It; discriminate|].
  pose proof (main_meta_in _ _ _ Em') as Imm. rewrite Em', Em in Ir. apply andb_true_iff in Ir as [Rb Ec].
  destruct (national_text_bare C fuel mm m (nat_ok (cc_of n)) n q t o W PO MK Wm Imm Rb Ok Ht P De Le Nq) as (e & P'). exists (o ++ extension_text mm (ext_of n)), e. split; [exact F|exact P'].
Qed.
(** The NATIONAL text of a valid number of the main region of its calling code has no calling code of its own, and matches the
    number and its other texts as NSN_MATCH. *)
Theorem C76_national : forall n r t f, IsValidNumber shipped n = Ret true -> GetRegionCodeForNumber shipped n = Ret r -> r <> nonGeoEntity -> GetRegionCodeForCountryCode shipped (cc_of n) = r ->
  GetNumberType shipped n = Ret t -> ~ nat_exception (cc_of n) t -> all_digits (ext_of n) = true -> (length (ext_of n) <= 9)%nat -> usual_zeros n -> printable n f ->
  exists x y, Format shipped n NATIONAL = Ret x /\ Format shipped n f = Ret y /\ IsNumberMatch shipped x y = Ret NSN_MATCH /\ IsNumberMatchWithOneNumber shipped n x = Ret NSN_MATCH.
Proof.
  intros n r t f V Er Ng Mr T X De Le U Pr. pose proof Pr as (t' & _ & _ & _ & _ & R & _). destruct (C74_shipped n r t V Er Ng T X R De Le) as (x & b & F & B & B1 & B2 & B3).
  destruct (national_bare shipped 1000 shipped_wf shipped_parse_ok shipped_rules shipped_marks shipped_nat_table n r t unknownRegion V Er Ng T X R De Le shipped_unknown) as (x' & e & F' & E). rewrite F in F'. injection F' as <-.
  destruct (printable_back n f unknownRegion Pr) as (y & a & G & A & A1 & A2 & A3). destruct (back_same a n _ _ A U A2) as [A4 A5], (back_same b n _ _ B U B2) as [B4 B5].
  assert (HV : hasValidCountryCallingCode shipped (cc_of n) = true) by (rewrite <- A1; eapply parse_code; [exact shipped_wf|exact shipped_parse_ok|exact A]).
  assert (Ho : forall m, cc_of m = cc_of n -> nn_of m = nn_of n -> NumberSpec.zeros m = NumberSpec.zeros n -> ext_of m = ext_of n -> IsNumberMatchWithOneNumber shipped m x = Ret NSN_MATCH).
  { intros m M1 M2 M3 M4. rewrite <- M1 in HV. destruct (C76_home shipped m x e shipped_wf shipped_parse_ok HV shipped_unknown E) as [K _]. rewrite M1, Mr in K. apply (proj1 (K b B)). split; [congruence|]. split; [congruence|]. split; congruence. }
  exists x, y. split; [exact F|]. split; [exact G|]. split; [|apply Ho; reflexivity]. rewrite text_match_sym by exact shipped_wf. unfold IsNumberMatch. rewrite A. cbn [bind]. apply Ho; auto.
Qed.
Print Assumptions C76_national.
Example C76_national_witness : GetRegionCodeForNumber shipped (num 44 2070313000) = Ret (bs "GB") /\ GetRegionCodeForCountryCode shipped 44 = bs "GB" /\ GetNumberType shipped (num 44 2070313000) = Ret FIXED_LINE /\ ~ nat_exception 44 FIXED_LINE.
Proof. split; [vm_compute; reflexivity|]. split; [vm_compute; reflexivity|]. split; [vm_compute; reflexivity|]. intros [I|[I _]]; cbn [In] in I; lia. Qed.

(** A number of a calling code that belongs to no country matches no text without calling code, not even its own digits. *)
Theorem C76_nongeo_refuted : forall n t e, GetRegionCodeForCountryCode shipped (cc_of n) = nonGeoEntity -> Parse shipped t unknownRegion = Ret (e, Some ErrInvalidCountryCode) -> IsNumberMatchWithOneNumber shipped n t = Ret NOT_A_NUMBER.
Proof.
  intros n t e G P. unfold IsNumberMatchWithOneNumber. rewrite P. cbn [bind]. change (get_cc n) with (cc_of n). rewrite G. change (negb (beq nonGeoEntity unknownRegion)) with true. cbv zeta iota.
  destruct (parse_cases shipped t nonGeoEntity shipped_wf) as [(b & B)|(b & eb & B)]; [|rewrite B; reflexivity]. exfalso.
  assert (Nn : ~ In nonGeoEntity (c_regions shipped)) by (intros I; apply mem_bytes_iff in I; vm_compute in I; discriminate).
  apply (proj1 (C62_any_region shipped t nonGeoEntity unknownRegion phone0 b shipped_wf shipped_parse_ok shipped_plain Nn)) in B. unfold Parse in P. rewrite B in P. discriminate.
Qed.
Print Assumptions C76_nongeo_refuted.
Example C76_nongeo_witness : GetRegionCodeForCountryCode shipped 800 = nonGeoEntity /\ IsValidNumber shipped (num 800 12345678) = Ret true /\ IsNumberMatchWithOneNumber shipped (num 800 12345678) (bs "1234 5678") = Ret NOT_A_NUMBER.
Proof. vm_compute. auto. Qed.
