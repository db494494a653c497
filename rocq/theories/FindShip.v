(** Printed numbers stand for themselves, at every leniency. *)
From Verif Require Import Base BaseFacts UnicodeTables Utf8 Utf8Facts Regex RegexSpec RegexFacts LangFacts Consts Types Normalize NormalizeSpec NormalizeFacts Validate Format Parse
  NumberSpec NumberFacts MetaSpec ValidateSpec ValidateFacts Container Shipped MetaFacts FormatSpec TextFacts FormatFacts FormatMore ParseSpec ParseFacts ParseMore ContextFacts
  RoundSpec DerivFacts Matcher MatcherSpec MatcherFacts MatcherRun MatcherTotal RoundTripFacts PropsNumber PropsValidate PropsFormat PropsRound RuleSpec RuleFacts RuleMore ReadSpec ReadFacts ReadMore PropsRead ExtSpec ExtFacts BackFacts
  PropsBack FindSpec FindFacts FindMore FindPrint.
Local Opaque compile re_find re_replace_all re_find_all re_match.

Lemma wch_x C n s : forallb wch s = true -> containsOnlyValidXChars C n s = Ret true.
Proof.
  induction s as [|c s IH]; [reflexivity|]. cbn [forallb]. intros H. apply andb_true_iff in H as [H1 H2]. cbn [containsOnlyValidXChars]. destruct s as [|c2 s]; [reflexivity|].
  assert (E : is_x c = false). { unfold is_x. unfold wch, gap3 in H1. rewrite !orb_true_iff, is_digit_iff, !N.eqb_eq in H1. apply orb_false_iff. rewrite !N.eqb_neq. lia. }
  rewrite E. apply IH. exact H2.
Qed.
Lemma wch_slash n s : forallb wch s = true -> containsMoreThanOneSlashInNationalNumber n s = false.
Proof.
  intros H. unfold containsMoreThanOneSlashInNationalNumber. destruct (index_byte s 47) as [i|] eqn:E; [|reflexivity]. apply index_byte_some in E as (a & b & -> & _). rewrite forallb_app in H. cbn [forallb] in H. rewrite !andb_true_iff in H. destruct H as (_ & H & _). discriminate.
Qed.
Lemma verify_all C A l r w gs : (0 <= l <= 3)%Z -> IsValidNumber C r = Ret true -> IsPossibleNumber C r = Ret true -> get_src r = FROM_NUMBER_WITH_PLUS_SIGN -> forallb wch w = true ->
  ((2 <= l)%Z -> getNationalNumberGroups C r = Ret gs /\ allNumberGroupsRemainGrouped C r w gs = Ret true /\ allNumberGroupsAreExactlyPresent r w gs = Ret true) -> Verify C A l r w = Ret true.
Proof.
  intros L V P S W G. unfold Verify. cbv zeta. rewrite V, P. cbn [bind negb]. rewrite (wch_x C r w W), (wch_slash r w W). cbn [bind negb]. unfold isNationalPrefixPresentIfRequired. rewrite S. cbn [bind negb].
  assert (Cs : (l = 0 \/ l = 1 \/ l = 2 \/ l = 3)%Z) by lia. destruct Cs as [->|[->|[->| ->]]]; [reflexivity|reflexivity| |].
  - destruct G as (G1 & G2 & G3); [lia|]. unfold POSSIBLE, VALID, STRICT_GROUPING, EXACT_GROUPING. cbn [Z.eqb Pos.eqb]. unfold checkNumberGroupingIsValid. rewrite wch_norm by auto. cbv zeta. rewrite G1. cbn [bind]. rewrite G2. reflexivity.
  - destruct G as (G1 & G2 & G3); [lia|]. unfold POSSIBLE, VALID, STRICT_GROUPING, EXACT_GROUPING. cbn [Z.eqb Pos.eqb]. unfold checkNumberGroupingIsValid. rewrite wch_norm by auto. cbv zeta. rewrite G1. cbn [bind]. rewrite G3. reflexivity.
Qed.
(** The groups of a number, from its RFC3966 text. *)
Lemma split_none s c : ~ In c s -> split_byte s c = [s].
Proof. induction s as [|x s IH]; intros H; [reflexivity|]. cbn [split_byte]. destruct (N.eqb_spec x c) as [->|Nx]; [exfalso; apply H; left; auto|]. rewrite IH; [reflexivity|]. intros I. apply H. right. auto. Qed.
Lemma split_cut s c t : ~ In c s -> split_byte (s ++ c :: t) c = s :: split_byte t c.
Proof.
  induction s as [|x s IH]; intros H; cbn [app split_byte]; [rewrite N.eqb_refl; reflexivity|]. destruct (N.eqb_spec x c) as [->|Nx]; [exfalso; apply H; left; auto|]. rewrite IH; [reflexivity|]. intros I. apply H. right. auto.
Qed.
Lemma split_join gs : gs <> [] -> Forall (fun g => all_digits g = true) gs -> split_byte (join gs (bs "-")) 45 = gs.
Proof.
  assert (Nd : forall g, all_digits g = true -> ~ In 45 g) by (intros g D I; pose proof (all_digits_In _ _ D I); lia).
  induction gs as [|g gs IH]; [congruence|]. intros _ F. inv F. destruct gs as [|g' gs]; [cbn [join]; apply split_none; auto|].
  change (join (g :: g' :: gs) (bs "-")) with (g ++ 45 :: join (g' :: gs) (bs "-")). rewrite split_cut by auto. rewrite IH; [reflexivity|discriminate|auto].
Qed.
Lemma index_byte_skip c a b : ~ In c a -> index_byte (a ++ c :: b) c = Some (length a).
Proof. induction a as [|x a IH]; intros H; cbn [app index_byte length]; [rewrite N.eqb_refl; reflexivity|]. destruct (N.eqb_spec x c) as [->|Nx]; [exfalso; apply H; left; auto|]. rewrite IH; [reflexivity|]. intros I. apply H. right. auto. Qed.
Lemma index_byte_no c a : ~ In c a -> index_byte a c = None.
Proof. induction a as [|x a IH]; intros H; [reflexivity|]. cbn [index_byte]. destruct (N.eqb_spec x c) as [->|Nx]; [exfalso; apply H; left; auto|]. rewrite IH; [reflexivity|]. intros I. apply H. right. auto. Qed.
Lemma entry_once C cc m m' : main_entry C cc m -> main_entry C cc m' -> m = m'.
Proof. intros (r & l & A & B) (r' & l' & A' & B'). rewrite A in A'. injection A' as <- <-. rewrite B in B'. injection B' as <-. reflexivity. Qed.
Lemma join_no gs c : Forall (fun g => all_digits g = true) gs -> c <> 45 -> is_digit c = false -> ~ In c (join gs (bs "-")).
Proof.
  intros F N0 Hd. induction F as [|g gs D F IH]; [intros []|]. assert (Ng : ~ In c g). { intros I. apply (all_digits_In _ _ D) in I. apply is_digit_iff in I. congruence. }
  destruct gs as [|g' gs]; [cbn [join]; exact Ng|]. change (join (g :: g' :: gs) (bs "-")) with (g ++ 45 :: join (g' :: gs) (bs "-")). intros I. apply in_app_or in I as [I|[I|I]]; auto.
Qed.
Lemma rfc_cut n m body d l : hasValidCountryCallingCode shipped (cc_of n) = true -> printed_raw n = false -> ext_of n = [] -> main_entry shipped (cc_of n) m -> printed m INTERNATIONAL [] (GetNationalSignificantNumber n) body ->
  body = d ++ glue l -> parted l -> d <> [] -> all_digits d = true -> getNationalNumberGroups shipped n = Ret (d :: map snd l).
Proof.
  intros V R X Me Pr Eb P Nd Dd. destruct (format_rfc n R V) as (m' & body' & gs & Me' & Pr' & St & F). rewrite <- (entry_once _ _ _ _ Me Me') in Pr'. rewrite <- (printed_unique _ _ _ _ _ _ Pr Pr'), Eb in St. apply stretches_groups in St; auto. subst gs.
  pose proof (valid_cc_pos _ _ shipped_wf V) as Pos. destruct (itoa_len _ Pos) as [Da _]. unfold getNationalNumberGroups. rewrite F, X. cbn [is_empty bind]. rewrite app_nil_r. set (a := itoa (cc_of n)) in *. clearbody a. clear F.
  assert (Fg : Forall (fun g : list N => all_digits g = true) (d :: map snd l)). { constructor; [auto|]. apply Forall_map. eapply Forall_impl; [|exact P]. intros x (_ & _ & H). exact H. }
  assert (Na : forall c, is_digit c = false -> ~ In c a) by (intros c Hc I; apply (all_digits_In _ _ Da) in I; apply is_digit_iff in I; congruence).
  set (J := join (d :: map snd l) (bs "-")). assert (E0 : bs "tel:+" ++ a ++ bs "-" ++ J = (bs "tel:+" ++ a) ++ 45 :: J) by (rewrite <- app_assoc; reflexivity).
  rewrite E0. rewrite (index_byte_no 59), (index_byte_skip 45).
  - change (bs "tel:+" ++ a) with (116 :: 101 :: 108 :: 58 :: 43 :: a). unfold slice. set (T := 116 :: 101 :: 108 :: 58 :: 43 :: a).
    replace (T ++ 45 :: J) with ((T ++ [45]) ++ J) by (rewrite <- app_assoc; reflexivity). replace (S (length T)) with (length (T ++ [45])) by (rewrite app_length; cbn [length]; lia).
    pose proof (slice_from_app (T ++ [45]) J) as Sf. unfold slice_from, slice in Sf. unfold bytes in *. rewrite Sf. cbn [bind]. unfold J. rewrite split_join; [reflexivity|discriminate|exact Fg].
  - intros I. apply in_app_or in I as [I|I]; [vm_compute in I; intuition discriminate|]. revert I. apply Na. reflexivity.
  - intros I. apply in_app_or in I as [I|[I|I]]; [|discriminate|revert I; apply join_no; [exact Fg|discriminate|reflexivity]]. apply in_app_or in I as [I|I]; [vm_compute in I; intuition discriminate|]. revert I. apply Na. reflexivity.
Qed.
Lemma same_valid C r n : cc_of r = cc_of n -> GetNationalSignificantNumber r = GetNationalSignificantNumber n -> IsValidNumber C r = IsValidNumber C n.
Proof. intros Ec En. change (get_cc r = get_cc n) in Ec. unfold IsValidNumber, GetRegionCodeForNumber, IsValidNumberForRegion. rewrite Ec, En. reflexivity. Qed.
Definition only_number (n : phone) : phone := set_carrier (set_raw (set_src n None) None) None.
(** A text that is read like +digits: what keeping the input stores. *)
Lemma kept_of C w e164 region r : wf_container C -> prefix_free (map fst (c_cc2region C)) -> (exists cc s, hasValidCountryCallingCode C cc = true /\ all_digits s = true /\ (3 <= length (itoa cc ++ s) <= 249)%nat /\ e164 = 43 :: itoa cc ++ s) ->
  parse_core C w region true = parse_core C e164 region true -> Parse C e164 region = Ret (r, None) ->
  exists rk, ParseAndKeepRawInput C w region = Ret (rk, None) /\ only_number rk = r /\ get_src rk = FROM_NUMBER_WITH_PLUS_SIGN /\ p_raw rk = Some w.
Proof.
  intros W PF (cc & s & V & D & L & ->) E H. unfold Parse, ParseToNumber in H. apply parse_found in H as (x & Hx & ->); auto. rewrite Hx in E.
  pose proof (valid_cc_pos _ _ W V) as Pos. destruct (itoa_len _ Pos) as [Da _].
  assert (Sx : pr_src x = Some FROM_NUMBER_WITH_PLUS_SIGN).
  { destruct (plus_core C (itoa cc ++ s) cc s region W) as (m & _ & Ec); [rewrite all_digits_app, Da, D; reflexivity|exact L|apply extract_own; auto|]. rewrite Ec in Hx. destruct (finish_core s m) as [y| |]; cbn [bind] in Hx; try discriminate. injection Hx as <-. reflexivity. }
  pose proof (parse_runs C w region true true W) as R. rewrite E in R. exists (store true w x phone0). split; [apply R|].
  pose proof (store_fields true w x phone0) as (A1 & A2 & A3 & A4 & A5 & A6 & A7). pose proof (store_fields false (43 :: itoa cc ++ s) x phone0) as (B1 & B2 & B3 & B4 & B5 & B6 & B7).
  cbn [andb phone0 p_ext p_nlz p_raw p_src p_carrier] in *. rewrite Sx in A6.
  split; [|split; [unfold get_src; rewrite A6; reflexivity|exact A5]].
  assert (Zz : (p_ilz (store true w x phone0), p_nlz (store true w x phone0)) = (p_ilz (store false (43 :: itoa cc ++ s) x phone0), p_nlz (store false (43 :: itoa cc ++ s) x phone0))) by congruence. apply pair_equal_spec in Zz as [Z1 Z2]. clear A4 B4.
  set (q := store true w x phone0) in *. set (n := store false (43 :: itoa cc ++ s) x phone0) in *. clearbody q n.
  destruct q as [r1 r2 r3 r4 r5 r6 r7 r8], n as [n1 n2 n3 n4 n5 n6 n7 n8]. unfold only_number, set_carrier, set_raw, set_src. cbn [p_cc p_nn p_ext p_raw p_src p_carrier p_ilz p_nlz] in *. subst. reflexivity.
Qed.
Lemma wch_digits d : all_digits d = true -> forallb wch d = true.
Proof. unfold all_digits. rewrite !forallb_forall. intros H c I. unfold wch. rewrite (H c I). reflexivity. Qed.
Lemma wch_tight o : tight o -> forallb wch o = true.
Proof. induction 1 as [c D|c o D T IH|c g o D G T IH]; cbn [forallb]; unfold wch at 1; rewrite D; cbn [orb andb]; [reflexivity|exact IH|]. rewrite IH. unfold wch. rewrite G. rewrite orb_true_r. reflexivity. Qed.
Lemma only_fields r n : only_number r = n -> cc_of r = cc_of n /\ GetNationalSignificantNumber r = GetNationalSignificantNumber n /\ ext_of r = ext_of n /\ nn_of r = nn_of n.
Proof. intros <-. destruct r. repeat split; reflexivity. Qed.
Lemma nsn_value a b : GetNationalSignificantNumber a = GetNationalSignificantNumber b -> nn_of a = nn_of b.
Proof. intros E. rewrite !nsn_eq in E. apply (f_equal dval) in E. rewrite !dval_zeros, !dval_dec in E. exact E. Qed.
Theorem printed_stands n ty region l A f : (0 <= l <= 3)%Z -> IsValidNumber shipped n = Ret true -> GetNumberType shipped n = Ret ty -> ~ (cc_of n = 81%Z /\ ty = TOLL_FREE) -> ~ (cc_of n = 375%Z /\ ty = PREMIUM_RATE) ->
  nn_of n <> 0 \/ p_raw n = None /\ (l <= 1)%Z -> ext_of n = [] -> f = E164 \/ f = INTERNATIONAL ->
  exists text r, Format shipped n f = Ret text /\ written text /\ (exists t, text = 43 :: t) /\ stands shipped A region l text r /\ cc_of r = cc_of n /\ GetNationalSignificantNumber r = GetNationalSignificantNumber n /\ p_ext r = None.
Proof.
  intros Ll V T X1 X2 R X Hf. assert (R' : nn_of n <> 0 \/ p_raw n = None) by tauto. destruct (C10_shipped n ty region V T X1 X2 R') as (e164 & r & F & P & Ec & En & Ex & _).
  destruct (valid_lengths shipped 1000 shipped_wf shipped_table n V) as [HV Ls]. pose proof (valid_cc_pos _ _ shipped_wf HV) as Pos. destruct (itoa_len _ Pos) as [Da La]. pose proof (nsn_digits n) as Ds.
  assert (PR : printed_raw n = false). { unfold printed_raw. change (get_nn n) with (nn_of n). destruct R' as [R'|R']; [replace (nn_of n =? 0) with false by (symmetry; apply N.eqb_neq; auto); reflexivity|]. unfold get_raw. rewrite R'. apply andb_false_r. }
  assert (E1 : e164 = 43 :: itoa (cc_of n) ++ GetNationalSignificantNumber n). { rewrite format_e164 in F. change ((nn_of n =? 0) && negb (is_empty (get_raw n))) with (printed_raw n) in F. rewrite PR in F. injection F as <-. reflexivity. }
  destruct (format_rule shipped n INTERNATIONAL shipped_wf shipped_rules PR (or_intror eq_refl) HV) as (m & body & Me & Pr & Fi). rewrite X in Fi. cbn [extension_text] in Fi. rewrite app_nil_r in Fi.
  change (prefixNumberWithCountryCallingCode (cc_of n) INTERNATIONAL body) with (43 :: itoa (cc_of n) ++ 32 :: body) in Fi.
  assert (Im : In m (map snd (c_region shipped) ++ map snd (c_nongeo shipped))). { destruct (main_entry_ok shipped _ shipped_wf HV) as (m' & Me' & Em' & _). rewrite (entry_once _ _ _ _ Me Me'). eapply main_meta_in; eauto. }
  pose proof (printed_neat m _ _ (shipped_tame m Im) Pr) as (Wv & Lb & Lo). pose proof (printed_tight m _ _ (shipped_tame m Im) (shipped_alternate m Im) Ds (nsn_nonempty n) Pr) as Tb. specialize (Lo (nsn_nonempty n)).
  destruct (tight_groups body Tb) as (d & gl & Eb & Nd & Dd & Pg).
  assert (Cs : d ++ concat (map snd gl) = GetNationalSignificantNumber n).
  { assert (Fb : filter is_digit body = GetNationalSignificantNumber n). { rewrite (woven_filter _ _ _ _ Wv); [apply digits_filter; auto|]. intros c Hc. unfold gap_char in Hc. rewrite !orb_true_iff, !N.eqb_eq in Hc. destruct Hc as [[[[->| ->]| ->]| ->]| ->]; reflexivity. }
    rewrite <- Fb, Eb, filter_app, digits_filter by auto. destruct (glue_digits gl Pg) as (-> & _). reflexivity. }
  assert (Ed : filter is_digit (itoa (cc_of n) ++ 32 :: body) = itoa (cc_of n) ++ GetNationalSignificantNumber n).
  { rewrite filter_app, digits_filter by auto. cbn [filter]. change (is_digit 32) with false. cbv iota. rewrite Eb, filter_app, digits_filter by auto. destruct (glue_digits gl Pg) as (-> & _). f_equal. exact Cs. }
  assert (Na : itoa (cc_of n) <> []) by (intros K; rewrite K in La; cbn [length] in La; lia).
  assert (Tw : tight (itoa (cc_of n) ++ 32 :: body)) by (apply tight_gap; [apply tight_digits; auto|reflexivity|exact Tb]).
  assert (Te : tight (itoa (cc_of n) ++ GetNationalSignificantNumber n)) by (apply tight_digits; [rewrite all_digits_app, Da, Ds; reflexivity|intros K; apply app_eq_nil in K as [K _]; auto]).
  assert (Kp : exists cc s, hasValidCountryCallingCode shipped cc = true /\ all_digits s = true /\ (3 <= length (itoa cc ++ s) <= 249)%nat /\ e164 = 43 :: itoa cc ++ s).
  { exists (cc_of n), (GetNationalSignificantNumber n). split; [exact HV|]. split; [exact Ds|]. split; [rewrite app_length; lia|exact E1]. }
  assert (Main : forall t, tight t -> (length (filter is_digit t) <= 20)%nat -> parse_core shipped (43 :: t) region true = parse_core shipped e164 region true -> Format shipped n f = Ret (43 :: t) ->
    (forall rk, get_src rk = FROM_NUMBER_WITH_PLUS_SIGN -> cc_of rk = cc_of n -> GetNationalSignificantNumber rk = GetNationalSignificantNumber n -> ext_of rk = [] -> allNumberGroupsRemainGrouped shipped rk (43 :: t) (d :: map snd gl) = Ret true /\ allNumberGroupsAreExactlyPresent rk (43 :: t) (d :: map snd gl) = Ret true) ->
    exists text r, Format shipped n f = Ret text /\ written text /\ (exists t, text = 43 :: t) /\ stands shipped A region l text r /\ cc_of r = cc_of n /\ GetNationalSignificantNumber r = GetNationalSignificantNumber n /\ p_ext r = None).
  { intros t Tt Lt Ep Ft Gt. destruct (kept_of shipped (43 :: t) e164 region r shipped_wf C07_shipped_codes_prefix_free Kp Ep P) as (rk & Hk & Ok & Sk & Rk). destruct (only_fields rk r Ok) as (K1 & K2 & K3 & K4).
    assert (Kc : cc_of rk = cc_of n) by congruence. assert (Kn : GetNationalSignificantNumber rk = GetNationalSignificantNumber n) by congruence. assert (Kx : ext_of rk = []) by (rewrite K3; unfold ext_of; rewrite Ex; reflexivity).
    assert (Vk : IsValidNumber shipped rk = Ret true) by (rewrite (same_valid shipped rk n Kc Kn); exact V).
    exists (43 :: t), r. split; [exact Ft|]. split; [apply tight_written; auto|]. split; [eauto|]. split; [|auto]. exists rk. split; [exact Hk|]. split; [|symmetry; exact Ok].
    apply verify_all with (gs := d :: map snd gl); auto; [apply C20_shipped; auto|cbn [forallb]; apply wch_tight; auto|]. intros L2. split; [|apply Gt; auto].
    apply (rfc_cut rk m body d gl); auto; [rewrite Kc; auto| |rewrite Kc; auto|rewrite Kn; auto]. unfold printed_raw. change (get_nn rk) with (nn_of rk). replace (nn_of rk =? 0) with false; [reflexivity|]. symmetry. apply N.eqb_neq. rewrite (nsn_value rk n Kn). destruct R as [R|[_ R]]; [exact R|lia]. }
  destruct Hf as [-> | ->].
  - apply (Main (itoa (cc_of n) ++ GetNationalSignificantNumber n) Te); [rewrite digits_filter, app_length by (rewrite all_digits_app, Da, Ds; reflexivity); lia|rewrite E1; reflexivity|rewrite F, E1; reflexivity|].
    intros rk Sk Kc Kn Kx. rewrite <- Kn. split.
    + rewrite Kn, <- Cs. change (d ++ concat (map snd gl)) with (concat (d :: map snd gl)). apply strict_plain; auto; [change (get_cc rk) with (cc_of rk); rewrite Kc; reflexivity|cbn [concat]; congruence|discriminate].
    + apply exact_plain; auto. rewrite Kn. exact Ds.
  - apply (Main (itoa (cc_of n) ++ 32 :: body) Tw); [rewrite Ed, app_length; lia| |exact Fi|].
    + rewrite E1. apply plain_core; auto; try apply nsn_nonempty; [rewrite app_length; lia|cbn [length]; rewrite app_length; cbn [length]; lia].
    + intros rk Sk Kc Kn Kx. rewrite Eb. split; [apply strict_spaced; auto; change (get_cc rk) with (cc_of rk); rewrite Kc; reflexivity|apply exact_spaced; auto].
Qed.
