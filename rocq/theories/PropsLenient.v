(** What the leniency levels of the text search require. *)
From Verif Require Import Base BaseFacts UnicodeTables Utf8 Utf8Facts Regex RegexSpec RegexFacts LangFacts Consts Types Normalize NormalizeSpec NormalizeFacts Validate Format Parse
  NumberSpec NumberFacts MetaSpec ValidateSpec ValidateFacts Container Shipped MetaFacts FormatSpec TextFacts FormatFacts FormatMore ParseSpec ParseFacts ParseMore ContextFacts
  RoundSpec DerivFacts Matcher MatcherSpec MatcherFacts MatcherRun MatcherTotal RoundTripFacts PropsFormat RuleSpec RuleFacts RuleMore ReadSpec ReadFacts BackFacts
  FindSpec FindFacts FindMore FindPrint FindShip PropsTotal PropsMatcher LenientSpec LenientFacts LenientMore LenientShip.
Local Opaque compile re_find re_replace_all re_find_all re_match.

Lemma valid_code C n : wf_container C -> IsValidNumber C n = Ret true -> hasValidCountryCallingCode C (cc_of n) = true.
Proof.
  intros W V. destruct (type_valid_spec C n W) as (t & b & _ & Eb & _ & HB). rewrite V in Eb. injection Eb as <-. destruct (HB eq_refl) as (r & m & _ & _ & Ir & _). exact (regions_valid _ _ _ Ir).
Qed.

(** * C77: VALID accepts a number in a text exactly when the number is valid, the letters x in the text are in their places, and a
    number written without calling code has the national prefix its region writes. *)
Theorem C77_valid : forall C A n text, wf_container C -> rules_fine C ->
  (Verify C A VALID n text = Ret true <-> IsValidNumber C n = Ret true /\ x_rule C n text /\ prefix_rule C n).
Proof.
  intros C A n text W RF. unfold Verify. cbn [Z.eqb VALID POSSIBLE]. destruct (IsValidNumber C n) as [[|]| |] eqn:V; cbn [bind negb]; try (split; [discriminate|intros (K & _); discriminate]).
  destruct (xchars_spec C n text W) as (x & Ex & Hx). destruct (prefix_spec C n W RF (valid_code _ _ W V)) as (p & Ep & Hp). rewrite Ex. cbn [bind]. destruct x; cbn [negb].
  - rewrite Ep. split; [intros K; injection K as ->; split; [reflexivity|]; split; [apply Hx|apply Hp]; reflexivity|]. intros (_ & _ & K). apply Hp in K. rewrite K. reflexivity.
  - split; [discriminate|]. intros (_ & K & _). apply Hx in K. discriminate.
Qed.
Print Assumptions C77_valid.
Example C77_valid_witness : (let read s := match ParseAndKeepRawInput shipped s (bs "GB") with Ret (n, None) => Verify shipped shipped_alt VALID n s | _ => Panic end in
    map read [bs "020 7031 3000"; bs "20 7031 3000"; bs "+4420 7031 3000"; bs "020 7031 3000 x7"; bs "020 7031 3000 xx7"; bs "0 xx 20 7031 3000"; bs "0x20 7031 3000"]) =
  [Ret true; Ret false; Ret true; Ret true; Ret false; Ret true; Ret false].
Proof. vm_compute. reflexivity. Qed.

(** The two stricter levels. *)
Lemma strict_levels n text checker (P : list bytes -> Prop) (ck : forall gs, gs <> [] -> Forall (fun g => g <> []) gs -> hasValidCountryCallingCode shipped (cc_of n) = true -> exists b, checker n (plain_text text) gs = Ret b /\ (b = true <-> P gs)) :
  has_number n ->
  (v <- IsValidNumber shipped n ;; if negb v then Ret false else x <- containsOnlyValidXChars shipped n text ;; if negb x then Ret false else
   if containsMoreThanOneSlashInNationalNumber n text then Ret false else p <- isNationalPrefixPresentIfRequired shipped n ;; if negb p then Ret false else checkNumberGroupingIsValid shipped shipped_alt n text checker) = Ret true <->
  Verify shipped shipped_alt VALID n text = Ret true /\ slash_rule n text /\ exists gs, groups_of shipped shipped_alt n gs /\ P gs.
Proof.
  intros HN. rewrite C77_valid by (apply shipped_wf || apply shipped_rules). destruct (IsValidNumber shipped n) as [[|]| |] eqn:V; cbn [bind negb]; try (split; [discriminate|intros ((K & _) & _); discriminate]).
  pose proof (valid_code _ _ shipped_wf V) as Vc. destruct (xchars_spec shipped n text shipped_wf) as (x & Ex & Hx). destruct (prefix_spec shipped n shipped_wf shipped_rules Vc) as (p & Ep & Hp). rewrite Ex. cbn [bind].
  destruct x; cbn [negb]; [|split; [discriminate|intros ((_ & K & _) & _); apply Hx in K; discriminate]].
  pose proof (slash_spec n text) as Hs. destruct (containsMoreThanOneSlashInNationalNumber n text) eqn:Es; [split; [discriminate|intros (_ & K & _); apply Hs in K; discriminate]|].
  rewrite Ep. cbn [bind]. destruct p; cbn [negb]; [|split; [discriminate|intros ((_ & _ & K) & _); apply Hp in K; discriminate]].
  destruct (grouping_spec shipped_alt checker n text P (fun gs A B => ck gs A B Vc) shipped_alt_ok shipped_alt_keeps Vc (has_number_raw _ HN)) as (b & Eb & Hb). rewrite Eb.
  split; [intros K; injection K as ->; split; [split; [reflexivity|split; [apply Hx|apply Hp]; reflexivity]|]; split; [apply Hs; reflexivity|apply Hb; reflexivity]|]. intros (_ & _ & K). apply Hb in K. rewrite K. reflexivity.
Qed.

(** STRICT_GROUPING asks in addition for at most one slash after the calling code and for groups that are not broken up, where a number
    is grouped as the INTERNATIONAL format or one of the alternate formats of its calling code does. *)
Theorem C77_strict : forall n text, has_number n -> (2 <= length (plain_text text))%nat ->
  (Verify shipped shipped_alt STRICT_GROUPING n text = Ret true <->
   Verify shipped shipped_alt VALID n text = Ret true /\ slash_rule n text /\ exists gs, groups_of shipped shipped_alt n gs /\ strict_grouping shipped n (plain_text text) gs).
Proof.
  intros n text HN L. apply (strict_levels n text (allNumberGroupsRemainGrouped shipped) (strict_grouping shipped n (plain_text text))); [|exact HN].
  intros gs Ng _ Vc. apply strict_spec; [exact (valid_cc_pos _ _ shipped_wf Vc)|exact L|exact Ng].
Qed.
Print Assumptions C77_strict.
Example C77_strict_witness : (let read s := match ParseAndKeepRawInput shipped s (bs "US") with Ret (n, None) => Verify shipped shipped_alt STRICT_GROUPING n s | _ => Panic end in
    map read [bs "650-253-0000"; bs "6502530000"; bs "(650) 2530000"; bs "65 02 53 00 00"; bs "650 25 30000"; bs "650/253/0000"; bs "1/650/2530000"; bs "+4 4 20 7031 3000"]) =
  [Ret true; Ret true; Ret true; Ret false; Ret false; Ret false; Ret true; Ret true].
Proof. vm_compute. reflexivity. Qed.

(** EXACT_GROUPING asks instead for exactly these groups. *)
Theorem C77_exact : forall n text, has_number n ->
  (Verify shipped shipped_alt EXACT_GROUPING n text = Ret true <->
   Verify shipped shipped_alt VALID n text = Ret true /\ slash_rule n text /\ exists gs, groups_of shipped shipped_alt n gs /\ exact_grouping n (plain_text text) gs).
Proof.
  intros n text HN. apply (strict_levels n text allNumberGroupsAreExactlyPresent (exact_grouping n (plain_text text))); [|exact HN].
  intros [|g gs] Ng Fn _; [congruence|]. inv Fn. apply exact_spec; [assumption|apply nsn_nonempty].
Qed.
Print Assumptions C77_exact.
Example C77_exact_witness : (let read s := match ParseAndKeepRawInput shipped s (bs "US") with Ret (n, None) => Verify shipped shipped_alt EXACT_GROUPING n s | _ => Panic end in
    map read [bs "650-253-0000"; bs "6502530000"; bs "(650) 2530000"; bs "65 02 53 00 00"; bs "1650 253 0000"; bs "650 253 0000 x7"; bs "+1 6502530000"]) =
  [Ret true; Ret true; Ret false; Ret false; Ret true; Ret true; Ret true].
Proof. vm_compute. reflexivity. Qed.

(** What the search returns obeys these rules. *)
Theorem C77_search : forall text region l t yield ms m, FindNumbersWithLeniency shipped shipped_alt text region l t yield = Ret (ms, m) ->
  forall o, In o ms -> exists p n, o = Some p /\ ParseAndKeepRawInput shipped (pm_raw p) region = Ret (n, None) /\
    ((1 <= l)%Z -> IsValidNumber shipped n = Ret true /\ x_rule shipped n (pm_raw p) /\ prefix_rule shipped n) /\
    (nn_of n <> 0 -> (2 <= l)%Z -> slash_rule n (pm_raw p) /\ exists gs, groups_of shipped shipped_alt n gs /\
       (l = STRICT_GROUPING -> strict_grouping shipped n (plain_text (pm_raw p)) gs) /\ (l = EXACT_GROUPING -> exact_grouping n (plain_text (pm_raw p)) gs)).
Proof.
  intros text region l t yield ms m F o I. destruct (C31_verified _ _ _ _ _ _ _ _ _ shipped_wf shipped_parse_ok shipped_alt_ok F o I) as (p & n & Eo & P & _ & Vf & _ & _ & L). exists p, n. split; [exact Eo|]. split; [exact P|].
  destruct (came shipped (pm_raw p) region n shipped_wf shipped_parse_ok P) as (_ & _ & Two & _). pose proof (kept_len (pm_raw p)) as Kl. rewrite plain_spec in Kl. unfold len in Kl.
  assert (L2 : (2 <= length (plain_text (pm_raw p)))%nat) by lia.
  assert (Cs : (l = POSSIBLE \/ l = VALID \/ l = STRICT_GROUPING \/ l = EXACT_GROUPING)%Z) by (unfold POSSIBLE, VALID, STRICT_GROUPING, EXACT_GROUPING; lia).
  assert (Val : forall k, (k = STRICT_GROUPING \/ k = EXACT_GROUPING) -> Verify shipped shipped_alt k n (pm_raw p) = Ret true -> Verify shipped shipped_alt VALID n (pm_raw p) = Ret true).
  { intros k Hk. unfold Verify. destruct Hk as [-> | ->]; cbn [Z.eqb Pos.eqb VALID POSSIBLE STRICT_GROUPING EXACT_GROUPING]; destruct (IsValidNumber shipped n) as [[|]| |]; cbn [bind negb]; try discriminate;
      destruct (containsOnlyValidXChars shipped n (pm_raw p)) as [[|]| |]; cbn [bind negb]; try discriminate; destruct (containsMoreThanOneSlashInNationalNumber n (pm_raw p)); try discriminate; destruct (isNationalPrefixPresentIfRequired shipped n) as [[|]| |]; cbn [bind negb]; try discriminate; reflexivity. }
  split.
  - intros L1. apply (C77_valid shipped shipped_alt n (pm_raw p) shipped_wf shipped_rules). destruct Cs as [->|[->|[->| ->]]]; [unfold POSSIBLE in L1; lia|exact Vf|apply (Val STRICT_GROUPING); auto|apply (Val EXACT_GROUPING); auto].
  - intros Nn L1. assert (HN : has_number n) by (left; exact Nn). destruct Cs as [->|[->|[->| ->]]]; [unfold POSSIBLE in L1; lia|unfold VALID in L1; lia| |].
    + apply (C77_strict n (pm_raw p) HN L2) in Vf as (_ & S1 & gs & S2 & S3). split; [exact S1|]. exists gs. split; [exact S2|]. split; [intros _; exact S3|discriminate].
    + apply (C77_exact n (pm_raw p) HN) in Vf as (_ & S1 & gs & S2 & S3). split; [exact S1|]. exists gs. split; [exact S2|]. split; [discriminate|intros _; exact S3].
Qed.
Print Assumptions C77_search.
Example C77_search_witness : positions (FindNumbersWithLeniency shipped shipped_alt (bs "a 65 02 53 00 00, b 650 2530000, c 650 253 0000") (bs "US") VALID 10 all_of) = [Some (2, 16); Some (20, 31); Some (35, 47)]%nat /\
  positions (FindNumbersWithLeniency shipped shipped_alt (bs "a 65 02 53 00 00, b 650 2530000, c 650 253 0000") (bs "US") STRICT_GROUPING 10 all_of) = [Some (20, 31); Some (35, 47)]%nat /\
  positions (FindNumbersWithLeniency shipped shipped_alt (bs "a 65 02 53 00 00, b 650 2530000, c 650 253 0000") (bs "US") EXACT_GROUPING 10 all_of) = [Some (35, 47)]%nat.
Proof. vm_compute. split; [reflexivity|split; reflexivity]. Qed.
