(** Proofs about matching written numbers. *)
From Verif Require Import Base BaseFacts Utf8 Utf8Facts Regex RegexSpec RegexFacts LangFacts Consts Types Normalize NormalizeSpec NormalizeFacts Validate Format Parse
  NumberSpec NumberFacts MetaSpec ValidateSpec ValidateFacts Container Shipped MetaFacts FormatSpec TextFacts FormatFacts FormatMore ParseSpec ParseFacts ParseMore ContextFacts
  RoundSpec DerivFacts RoundTripFacts PropsNumber PropsValidate PropsTotal RuleSpec RuleFacts RuleMore ReadSpec ReadFacts ReadMore.
Local Opaque compile re_find re_replace_all.

(** * Texts without a plus sign *)
Lemma firstn_plus s i : starts_plus (firstn i s) -> starts_plus s.
Proof.
  intros (c & t & D & P). assert (NE : c <> rune_error) by (unfold rune_error; destruct P; lia). pose proof (decode_inv _ _ _ D NE) as E.
  exists c, (t ++ skipn i s). split; [|exact P]. rewrite <- (firstn_skipn i s) at 1. rewrite E, <- app_assoc. eapply decode_any; eauto.
Qed.
Lemma ext_plus_back t nn ext : maybeStripExtension t = (nn, ext) -> starts_plus nn -> starts_plus t.
Proof.
  unfold maybeStripExtension. destruct (re_find _ _) as [m|]; [|intros H; inv H; auto]. destruct (isViablePhoneNumber _); [|intros H; inv H; auto].
  destruct (filter _ _); intros H S; inv H; auto. eapply firstn_plus; eauto.
Qed.
Lemma plain_extract C s : ~ starts_plus s -> s <> [] -> extract_core C s None = Ret (Some FROM_DEFAULT_COUNTRY, 0%Z, []).
Proof.
  intros Np Ne. unfold extract_core. destruct s as [|c0 s0]; [congruence|]. set (s := c0 :: s0) in *. cbv zeta.
  unfold maybeStripInternationalPrefixAndNormalize. unfold s at 1. fold s.
  assert (K : (idd <- must_compile (bs "NonMatch");; match parsePrefixAsIdd idd (normalize s) with Some rest => Ret (rest, FROM_NUMBER_WITH_IDD) | None => Ret (normalize s, FROM_DEFAULT_COUNTRY) end) = Ret (normalize s, FROM_DEFAULT_COUNTRY)).
  { rewrite non_match_ok. cbn [bind]. unfold parsePrefixAsIdd. rewrite (no_find digits10); [reflexivity|apply non_needs|]. intros c. apply in_digits10. apply normalize_digits. }
  destruct (re_find plusCharsPattern s) as [[[|a] b cs]|] eqn:F.
  - exfalso. apply Np. eapply plus_at_0; [exact F|reflexivity].
  - rewrite K. reflexivity.
  - rewrite K. reflexivity.
Qed.
Lemma no_region C r : ~ In r (c_regions C) -> getMetadataForRegion C r = None /\ isValidRegionCode C r = false.
Proof.
  intros Nr. assert (V : isValidRegionCode C r = false). { destruct (isValidRegionCode C r) eqn:V'; [|reflexivity]. apply valid_region_iff in V' as [_ V']. tauto. }
  split; [|exact V]. unfold getMetadataForRegion. rewrite V. reflexivity.
Qed.
Lemma empty_region C : getMetadataForRegion C [] = None. Proof. reflexivity. Qed.

(** A text that has no calling code of its own, read without a region. *)
Lemma bare_core C s r x : wf_container C -> parse_ok C -> plain_nongeo C -> ~ In r (c_regions C) ->
  parse_core C s r true = Fail ErrInvalidCountryCode -> parse_core C s [] false = Ret x -> pr_cc x = 0%Z.
Proof.
  intros W PO P Nr H H'. destruct (no_region C r Nr) as [Nm Nv]. unfold parse_core in *. destruct (is_empty s); [discriminate|]. destruct (_ <? len s)%nat; [discriminate|].
  destruct (buildNationalNumberForParsing s) as [t|e|]; cbn [bind] in *; try discriminate. destruct (isViablePhoneNumber t) eqn:V; cbn [negb] in *; [|discriminate].
  unfold checkRegionForParsing in H. rewrite Nv in H. cbn [orb andb] in H, H'.
  destruct (maybeStripExtension t) as [nn ext] eqn:Ee. rewrite empty_region in H'. rewrite Nm in H.
  destruct (negb (is_empty t) && re_match plusCharsPattern t) eqn:K; cbn [negb andb] in H.
  - exfalso. apply andb_true_iff in K as [_ K]. pose proof (viable_plus _ V K) as Sp. pose proof (ext_plus _ _ _ Ee Sp) as Sn.
    destruct (code_core C nn None) as [[[src cc] norm]|e|] eqn:Cc; cbn [bind] in H, H'; try discriminate.
    destruct (Z.eqb_spec cc 0) as [->|Nz]; cbn [negb] in *. { eapply code_plus in Sn; eauto. }
    assert (Vc : hasValidCountryCallingCode C cc = true). { destruct (code_code C nn [] src cc norm W PO) as [E|E]; [|congruence|exact E]. rewrite empty_region. exact Cc. }
    rewrite <- Nm in H. rewrite <- (empty_region C) in H'. rewrite used_meta in H, H' by auto. destruct (finish_core norm _) as [y|e|]; cbn [bind] in H, H'; discriminate.
  - assert (Np : ~ starts_plus nn).
    { intros Sn. pose proof (ext_plus_back _ _ _ Ee Sn) as St. destruct (starts_plus_find _ St) as (g & F & _). apply andb_false_iff in K as [K|K].
      - destruct t; [|discriminate]. destruct St as (c & u & D & _). discriminate.
      - unfold re_match in K. rewrite F in K. discriminate. }
    destruct nn as [|c nn0] eqn:En.
    + cbn in H'. discriminate.
    + rewrite <- En in *. unfold code_core in H'. rewrite (plain_extract C nn Np) in H' by (rewrite En; discriminate). cbn [bind] in H'. change (negb (0 =? 0)%Z) with false in H'. cbv iota in H'.
      destruct (finish_core _ None) as [y|e|]; cbn [bind] in H'; try discriminate. injection H' as <-. reflexivity.
Qed.

(** * The four calls of the parser *)
Lemma helper_cases C s r ck : wf_container C -> (exists x, parse_core C s r ck = Ret x /\ parseHelper C s r false ck phone0 = Ret (store false s x phone0, None)) \/
  (exists e n, parse_core C s r ck = Fail e /\ parseHelper C s r false ck phone0 = Ret (n, Some e)).
Proof.
  intros W. pose proof (parse_runs C s r false ck W) as R. destruct (parse_core C s r ck) as [x|e|]; [left|right|destruct R].
  - exists x. split; [reflexivity|apply R].
  - destruct (R phone0) as (n & E). exists e, n. auto.
Qed.
Lemma bare_cc C s r n b m : wf_container C -> parse_ok C -> plain_nongeo C -> ~ In r (c_regions C) ->
  Parse C s r = Ret (n, Some ErrInvalidCountryCode) -> parseHelper C s [] false false phone0 = Ret (b, m) -> m = None -> cc_of b = 0%Z.
Proof.
  intros W PO P Nr H H' ->. unfold Parse, ParseToNumber in H. destruct (helper_cases C s r true W) as [(x & _ & E)|(e & n' & Ec & E)]; rewrite E in H; [discriminate|]. injection H as -> ->.
  destruct (helper_cases C s [] false W) as [(x & Ex & E')|(e & n' & _ & E')]; rewrite E' in H'; [|discriminate]. injection H' as <-. pose proof (bare_core C s r x W PO P Nr Ec Ex) as Z.
  pose proof (store_fields false s x phone0) as (A & _). unfold cc_of. rewrite A. exact Z.
Qed.

(** * Equal national significant numbers *)
Lemma nsn_parts a b : GetNationalSignificantNumber a = GetNationalSignificantNumber b -> nn_of a = nn_of b /\ zero_count a = zero_count b.
Proof.
  intros E. rewrite !nsn_eq in E. pose proof E as E'. apply (f_equal dval) in E'. rewrite !dval_zeros, !dval_dec in E'. split; [exact E'|].
  rewrite E' in E. apply (f_equal (@length N)) in E. rewrite !app_length, !repeat_length in E. lia.
Qed.
(** Leading zeros stored the way the parser stores them. *)
Definition plain_zeros (n : phone) : Prop := forall k, zeros n = Some k -> (1 <= k <= 17)%Z.
Lemma zeros_same a b : plain_zeros a -> plain_zeros b -> zero_count a = zero_count b -> zeros a = zeros b.
Proof.
  unfold plain_zeros, zero_count. intros A B. destruct (zeros a) as [x|], (zeros b) as [y|]; try reflexivity; try specialize (A _ eq_refl); try specialize (B _ eq_refl); repeat match goal with |- context [(0 <? ?z)%Z] => replace (0 <? z)%Z with true by lia end; intros H; [f_equal|exfalso|exfalso]; lia.
Qed.
Lemma same_nsn a b : plain_zeros a -> plain_zeros b -> GetNationalSignificantNumber a = GetNationalSignificantNumber b <-> nn_of a = nn_of b /\ zeros a = zeros b.
Proof.
  intros A B. split.
  - intros E. apply nsn_parts in E as [E1 E2]. split; [exact E1|]. apply zeros_same; auto.
  - intros [E1 E2]. rewrite !nsn_eq, E1. unfold zero_count. rewrite E2. reflexivity.
Qed.
Lemma zero_fields_cases d z : (exists a b, d = 48 :: a :: b) \/ zero_fields d z = (None, z).
Proof.
  destruct d as [|c [|a b]]; [right; reflexivity| |].
  - right. unfold zero_fields. destruct c as [|q]; try reflexivity; do 6 (destruct q as [q|q|]; try reflexivity).
  - destruct (N.eq_dec c 48) as [->|H]; [left; eauto|right]. unfold zero_fields. destruct c as [|q]; try reflexivity; do 6 (destruct q as [q|q|]; try reflexivity). congruence.
Qed.
Lemma store_zeros s x : (length (pr_nsn x) <= 17)%nat -> plain_zeros (store false s x phone0).
Proof.
  intros L k. pose proof (store_fields false s x phone0) as (_ & _ & _ & Z0 & _). unfold zeros. cbn [phone0 p_nlz] in Z0.
  set (q := store false s x phone0) in *. clearbody q. destruct (zero_fields_cases (pr_nsn x) None) as [(a & b & E)|E].
  - rewrite E in *. unfold zero_fields in Z0. apply pair_equal_spec in Z0 as [-> ->]. set (d := 48 :: a :: b) in *.
    assert (K : (1 <= num_lead_zeros d <= 16)%nat). { unfold num_lead_zeros, len. subst d. cbn [count_zeros]. cbn [length] in *. lia. }
    clearbody d. intros H. injection H as <-. destruct (Nat.eqb_spec (num_lead_zeros d) 1); lia.
  - rewrite E in Z0. injection Z0 as -> _. discriminate.
Qed.
Lemma parse_zeros C s r n : wf_container C -> parse_ok C -> Parse C s r = Ret (n, None) -> plain_zeros n.
Proof.
  intros W PO H. unfold Parse, ParseToNumber in H. apply parse_found in H as (x & Hx & ->); auto. destruct (parse_core_ok _ _ _ _ W PO Hx) as [_ L _]. apply store_zeros. lia.
Qed.
Lemma parse_code C s r n : wf_container C -> parse_ok C -> Parse C s r = Ret (n, None) -> cc_of n <> 0%Z /\ hasValidCountryCallingCode C (cc_of n) = true.
Proof. intros W PO H. destruct (parse_bounds _ _ _ _ _ W PO H eq_refl) as (_ & _ & V). pose proof (valid_cc_pos _ _ W V). split; [lia|exact V]. Qed.

(** * The answers *)
Lemma parse_cases C s r : wf_container C -> (exists n, Parse C s r = Ret (n, None)) \/ (exists n e, Parse C s r = Ret (n, Some e)).
Proof. intros W. destruct (helper_cases C s r true W) as [(x & _ & E)|(e & n & _ & E)]; unfold Parse, ParseToNumber; rewrite E; eauto. Qed.
Lemma bare_cases C s : wf_container C -> (exists n, parseHelper C s [] false false phone0 = Ret (n, None)) \/ (exists n e, parseHelper C s [] false false phone0 = Ret (n, Some e)).
Proof. intros W. destruct (helper_cases C s [] false W) as [(x & _ & E)|(e & n & _ & E)]; rewrite E; eauto. Qed.

Lemma text_match_sym C s t : wf_container C -> IsNumberMatch C s t = IsNumberMatch C t s.
Proof.
  intros W. unfold IsNumberMatch. destruct (parse_cases C s unknownRegion W) as [(a & Ea)|(a & ea & Ea)], (parse_cases C t unknownRegion W) as [(b & Eb)|(b & eb & Eb)]; rewrite !Ea, !Eb; cbn [bind].
  - unfold IsNumberMatchWithOneNumber. rewrite Ea, Eb. cbn [bind]. rewrite match_sym. reflexivity.
  - unfold IsNumberMatchWithOneNumber. rewrite Eb. cbn [bind]. destruct eb; reflexivity.
  - unfold IsNumberMatchWithOneNumber. rewrite Ea. cbn [bind]. destruct ea; reflexivity.
  - destruct ea, eb; try reflexivity. destruct (bare_cases C s W) as [(x & Ex)|(x & ex & Ex)], (bare_cases C t W) as [(y & Ey)|(y & ey & Ey)]; rewrite !Ex, !Ey; cbn [bind]; rewrite ?Ex, ?Ey; cbn [bind]; try reflexivity. rewrite match_sym. reflexivity.
Qed.
Lemma one_exact C a t : wf_container C -> parse_ok C -> plain_nongeo C -> ~ In unknownRegion (c_regions C) ->
  IsNumberMatchWithOneNumber C a t = Ret EXACT_MATCH <-> exists b, Parse C t unknownRegion = Ret (b, None) /\ IsNumberMatchWithNumbers a b = EXACT_MATCH.
Proof.
  intros W PO P Nr. unfold IsNumberMatchWithOneNumber. destruct (parse_cases C t unknownRegion W) as [(b & Eb)|(b & eb & Eb)]; rewrite Eb; cbn [bind].
  - split; [intros H; injection H as H; eauto|]. intros (b' & H1 & H2). injection H1 as <-. rewrite H2. reflexivity.
  - split; [|intros (b' & H1 & _); discriminate]. intros H. exfalso. destruct eb; try discriminate H. cbv zeta in H. destruct (negb _).
    + destruct (parse_cases C t (GetRegionCodeForCountryCode C (get_cc a)) W) as [(c & Ec)|(c & ec & Ec)]; rewrite Ec in H; cbn [bind] in H; [|discriminate]. destruct (IsNumberMatchWithNumbers a c); discriminate.
    + destruct (bare_cases C t W) as [(c & Ec)|(c & ec & Ec)]; rewrite Ec in H; cbn [bind] in H; [|discriminate]. injection H as H. apply exact_iff in H as (H1 & H2 & _).
      rewrite (bare_cc C t unknownRegion b c None W PO P Nr Eb Ec eq_refl) in H2. congruence.
Qed.
Lemma text_exact C s t : wf_container C -> parse_ok C -> plain_nongeo C -> ~ In unknownRegion (c_regions C) ->
  IsNumberMatch C s t = Ret EXACT_MATCH <-> exists a b, Parse C s unknownRegion = Ret (a, None) /\ Parse C t unknownRegion = Ret (b, None) /\ IsNumberMatchWithNumbers a b = EXACT_MATCH.
Proof.
  intros W PO P Nr. unfold IsNumberMatch. destruct (parse_cases C s unknownRegion W) as [(a & Ea)|(a & ea & Ea)]; rewrite Ea; cbn [bind].
  - rewrite one_exact by auto. split; [intros (b & H1 & H2); eauto 6|]. intros (a' & b & H1 & H2). injection H1 as <-. eauto.
  - split; [|intros (a' & b & H1 & _); discriminate]. intros H. exfalso. destruct ea; try discriminate H. destruct (parse_cases C t unknownRegion W) as [(b & Eb)|(b & eb & Eb)]; rewrite Eb in H; cbn [bind] in H.
    + apply one_exact in H as (c & H & _); auto. rewrite Ea in H. discriminate.
    + destruct eb; try discriminate H. destruct (bare_cases C s W) as [(x & Ex)|(x & ex & Ex)]; rewrite Ex in H; cbn [bind] in H; [|discriminate]. destruct (bare_cases C t W) as [(y & Ey)|(y & ey & Ey)]; rewrite Ey in H; cbn [bind] in H; [|discriminate].
      injection H as H. apply exact_iff in H as (H1 & _). apply H1. exact (bare_cc C s unknownRegion a x None W PO P Nr Ea Ex eq_refl).
Qed.
Lemma both_read C s t a b : Parse C s unknownRegion = Ret (a, None) -> Parse C t unknownRegion = Ret (b, None) -> IsNumberMatch C s t = Ret (IsNumberMatchWithNumbers a b).
Proof. intros Ea Eb. unfold IsNumberMatch, IsNumberMatchWithOneNumber. rewrite Ea. cbn [bind]. rewrite Eb. reflexivity. Qed.

(** * Texts of digits *)
Lemma digits_bare C d r : ~ In r (c_regions C) -> all_digits d = true -> (2 <= length d <= 250)%nat -> parse_core C d r true = Fail ErrInvalidCountryCode.
Proof.
  intros Nr D L. destruct (no_region C r Nr) as [Nm Nv]. assert (Ne : d <> []) by (intros ->; simpl in L; lia). unfold parse_core. rewrite (proj2 (is_empty_false d) Ne).
  replace (Nat.ltb maxInputStringLength (len d)) with false by (symmetry; apply Nat.ltb_ge; unfold maxInputStringLength, len; lia).
  rewrite digits_text by auto. cbn [bind]. rewrite viable_digits2 by (auto; lia). cbn [negb]. unfold checkRegionForParsing, re_match. rewrite Nv, digits_no_plus by auto. cbn [orb andb]. rewrite andb_false_r. reflexivity.
Qed.
Lemma digits_alone C d : wf_container C -> all_digits d = true -> (2 <= length d <= 17)%nat ->
  exists b, parseHelper C d [] false false phone0 = Ret (b, None) /\ cc_of b = 0%Z /\ GetNationalSignificantNumber b = d /\ ext_of b = [] /\ plain_zeros b.
Proof.
  intros W D L. assert (Ne : d <> []) by (intros ->; simpl in L; lia).
  assert (E : exists x, parse_core C d [] false = Ret x /\ pr_cc x = 0%Z /\ pr_nsn x = d /\ pr_ext x = []).
  { unfold parse_core. rewrite (proj2 (is_empty_false d) Ne). replace (Nat.ltb maxInputStringLength (len d)) with false by (symmetry; apply Nat.ltb_ge; unfold maxInputStringLength, len; lia).
    rewrite digits_text by auto. cbn [bind]. rewrite viable_digits2 by (auto; lia). cbn [negb andb]. rewrite digits_no_ext by auto. rewrite empty_region. unfold code_core. rewrite no_default by auto. cbn [bind].
    change (negb (0 =? 0)%Z) with false. cbv iota. rewrite normalize_self by auto. cbn [app]. unfold finish_core. replace (len d <? minLengthForNSN)%nat with false by (symmetry; apply Nat.ltb_ge; unfold minLengthForNSN, len; lia). cbn [bind].
    replace (len d <? minLengthForNSN)%nat with false by (symmetry; apply Nat.ltb_ge; unfold minLengthForNSN, len; lia). replace (maxLengthForNSN <? len d)%nat with false by (symmetry; apply Nat.ltb_ge; unfold maxLengthForNSN, len; lia). cbn [bind fst snd].
    eexists. split; [reflexivity|]. split; [reflexivity|]. split; reflexivity. }
  destruct E as (x & E & E1 & E2 & E3). pose proof (parse_runs C d [] false false W) as R. rewrite E in R. exists (store false d x phone0). split; [apply R|].
  pose proof (store_fields false d x phone0) as (A & _ & A3 & _). unfold cc_of, ext_of. rewrite A, A3, E3. cbn [is_empty phone0 p_ext]. split; [exact E1|]. rewrite store_nsn by (rewrite ?E2; auto; lia). split; [exact E2|]. split; [reflexivity|]. apply store_zeros. rewrite E2. lia.
Qed.
Lemma digits_match C d e : wf_container C -> ~ In unknownRegion (c_regions C) -> all_digits d = true -> (2 <= length d <= 17)%nat -> all_digits e = true -> (2 <= length e <= 17)%nat ->
  exists a b, IsNumberMatch C d e = Ret (IsNumberMatchWithNumbers a b) /\ cc_of a = 0%Z /\ cc_of b = 0%Z /\ GetNationalSignificantNumber a = d /\ GetNationalSignificantNumber b = e /\ ext_of a = [] /\ ext_of b = [] /\ plain_zeros a /\ plain_zeros b.
Proof.
  intros W Nr D L De Le. assert (P : forall s, all_digits s = true -> (2 <= length s <= 17)%nat -> exists n, Parse C s unknownRegion = Ret (n, Some ErrInvalidCountryCode)).
  { intros s Ds Ls. pose proof (parse_runs C s unknownRegion false true W) as R. rewrite (digits_bare C s _ Nr Ds) in R by lia. apply R. }
  destruct (P d D L) as (n1 & P1), (P e De Le) as (n2 & P2). destruct (digits_alone C d W D L) as (a & A & A1 & A2 & A3 & A4), (digits_alone C e W De Le) as (b & B & B1 & B2 & B3 & B4).
  exists a, b. split; [|auto 9]. unfold IsNumberMatch. rewrite P1. cbn [bind]. rewrite P2. cbn [bind]. rewrite A. cbn [bind]. rewrite B. reflexivity.
Qed.

(** * A number and a text *)
Lemma same_answer a b a' b' : cc_of a = cc_of a' -> nn_of a = nn_of a' -> zeros a = zeros a' -> ext_of a = ext_of a' -> cc_of b = cc_of b' -> nn_of b = nn_of b' -> zeros b = zeros b' -> ext_of b = ext_of b' ->
  IsNumberMatchWithNumbers a b = IsNumberMatchWithNumbers a' b'.
Proof.
  intros A1 A2 A3 A4 B1 B2 B3 B4. destruct (IsNumberMatchWithNumbers a b) eqn:E; symmetry.
  - exfalso. revert E. unfold IsNumberMatchWithNumbers. repeat match goal with |- context [if ?c then _ else _] => destruct c end; discriminate.
  - apply no_match_iff. rewrite <- A1, <- A2, <- A4, <- B1, <- B2, <- B4. apply no_match_iff. exact E.
  - apply short_match_iff. rewrite <- A1, <- A2, <- A3, <- A4, <- B1, <- B2, <- B3, <- B4. apply short_match_iff. exact E.
  - apply nsn_match_iff. rewrite <- A1, <- A2, <- A3, <- A4, <- B1, <- B2, <- B3, <- B4. apply nsn_match_iff. exact E.
  - apply exact_iff. rewrite <- A1, <- A2, <- A3, <- A4, <- B1, <- B2, <- B3, <- B4. apply exact_iff. exact E.
Qed.
Lemma home_match C n t b e : wf_container C -> hasValidCountryCallingCode C (cc_of n) = true -> GetRegionCodeForCountryCode C (cc_of n) <> unknownRegion -> Parse C t unknownRegion = Ret (e, Some ErrInvalidCountryCode) ->
  Parse C t (GetRegionCodeForCountryCode C (cc_of n)) = Ret (b, None) -> IsNumberMatchWithOneNumber C n t = Ret (match IsNumberMatchWithNumbers n b with EXACT_MATCH => NSN_MATCH | m => m end).
Proof.
  intros W V Nu P B. unfold IsNumberMatchWithOneNumber. rewrite P. cbn [bind]. change (get_cc n) with (cc_of n). cbv zeta. destruct (beq _ unknownRegion) eqn:Q; [apply beq_eq in Q; congruence|]. cbn [negb]. rewrite B. reflexivity.
Qed.
