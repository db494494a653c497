(** Property C10: a number's own E.164 text parses back to the number. *)
From Verif Require Import Base BaseFacts Utf8 Utf8Facts Regex RegexSpec RegexFacts LangFacts Consts Types Normalize Validate Format Parse
  NumberSpec NumberFacts MetaSpec ValidateSpec ValidateFacts Container Shipped MetaFacts FormatSpec TextFacts FormatFacts FormatMore ParseSpec ParseFacts ParseMore ContextFacts RoundSpec DerivFacts MatcherTotal RoundTripFacts PropsNumber PropsValidate.

(** C10: with any well-formed metadata whose calling codes are prefix-free, for every number of a supported calling code whose
    national significant number has 2 to 17 digits and is not shortened by the national-prefix step, and whatever the default
    region. *)
Theorem C10_round_trip : forall C n region, wf_container C -> prefix_free (map fst (c_cc2region C)) ->
  hasValidCountryCallingCode C (cc_of n) = true -> nn_of n <> 0 \/ p_raw n = None ->
  (2 <= length (GetNationalSignificantNumber n) <= 17)%nat ->
  (forall m, main_meta C (cc_of n) = Some m -> unstripped m (GetNationalSignificantNumber n)) ->
  exists text r, Format C n E164 = Ret text /\ Parse C text region = Ret (r, None) /\
    cc_of r = cc_of n /\ GetNationalSignificantNumber r = GetNationalSignificantNumber n /\ p_ext r = None /\ p_raw r = None.
Proof.
  intros C n region W P V R L U. pose proof (valid_cc_pos _ _ W V) as Pos. pose proof (nsn_digits n) as D. set (s := GetNationalSignificantNumber n) in *.
  exists (43 :: itoa (cc_of n) ++ s).
  assert (F : Format C n E164 = Ret (43 :: itoa (cc_of n) ++ s)).
  { rewrite format_e164. replace ((nn_of n =? 0) && negb (is_empty (get_raw n))) with false; [reflexivity|]. symmetry. apply andb_false_iff. destruct R as [R|R]; [left; apply N.eqb_neq; auto|right]. unfold get_raw. rewrite R. reflexivity. }
  rewrite F. assert (DI : all_digits (itoa (cc_of n)) = true) by (rewrite itoa_pos by lia; apply dec_digits).
  assert (LI : (1 <= length (itoa (cc_of n)) <= 3)%nat).
  { rewrite itoa_pos by lia. pose proof (dec_nonempty (Z.to_N (cc_of n))) as Ne. split; [destruct (dec _); [congruence|simpl; lia]|]. apply dec_length_le; [lia|]. change (10 ^ N.of_nat 3) with 1000. lia. }
  destruct (plus_core C (itoa (cc_of n) ++ s) (cc_of n) s region W) as (m & Hm & E).
  { rewrite all_digits_app, DI. exact D. }
  { rewrite app_length. lia. }
  { apply extract_own; auto. }
  assert (Wm : opt_wf m). { destruct Hm as [->| ->]; [apply opt_wf_any; auto|exact I]. }
  destruct (finish_keeps s m Wm) as (car & Ef); [intros x ->; apply U; destruct Hm as [Hm|Hm]; congruence|auto|]. rewrite Ef in E. cbn [bind fst snd] in E.
  pose proof (parse_runs C (43 :: itoa (cc_of n) ++ s) region false true W) as X. rewrite E in X. unfold Parse, ParseToNumber. eexists. split; [reflexivity|]. split; [apply X|].
  rewrite store_cc, store_nsn by (cbn [pr_nsn]; auto). cbn [pr_cc pr_nsn]. rewrite int32_small by lia. split; [reflexivity|]. split; [reflexivity|].
  pose proof (store_fields false (43 :: itoa (cc_of n) ++ s) {| pr_cc := to_int32 (cc_of n); pr_nsn := s; pr_ext := []; pr_src := Some FROM_NUMBER_WITH_PLUS_SIGN; pr_carrier := car |} phone0) as (_ & _ & F3 & _ & F5 & _). rewrite int32_small in F3, F5 by lia. split; [exact F3|exact F5].
Qed.
Print Assumptions C10_round_trip.

(** C10: a number that Parse returned, without extension, comes back identical in every field. *)
Theorem C10_parsed_number : forall C s region0 n region, wf_container C -> parse_ok C -> prefix_free (map fst (c_cc2region C)) ->
  Parse C s region0 = Ret (n, None) -> p_ext n = None ->
  (forall m, main_meta C (cc_of n) = Some m -> unstripped m (GetNationalSignificantNumber n)) ->
  exists text, Format C n E164 = Ret text /\ Parse C text region = Ret (n, None).
Proof.
  intros C s region0 n region W PO P H X U. pose proof (parse_bounds _ _ _ _ _ W PO H eq_refl) as (L & D & V).
  unfold Parse, ParseToNumber in H. pose proof (parse_found _ _ _ _ _ _ W H) as (x & Hx & En).
  pose proof (store_fields false s x phone0) as (A1 & A2 & A3 & A4 & A5 & A6 & A7). rewrite <- En in *. cbn [andb phone0 p_ext p_nlz p_raw p_src p_carrier] in *.
  destruct (C10_round_trip C n region W P V) as (text & r & F & E & Ec & Ens & Ex & Er); auto.
  exists text. split; [exact F|]. unfold Parse, ParseToNumber in *. rewrite E. f_equal. f_equal.
  pose proof (parse_found _ _ _ _ _ _ W E) as (y & Hy & Eny). pose proof (store_fields false text y phone0) as (B1 & B2 & B3 & B4 & B5 & B6 & B7). rewrite <- Eny in *. cbn [andb phone0 p_ext p_nlz p_raw p_src p_carrier] in *.
  assert (Nx : pr_nsn y = pr_nsn x).
  { destruct (parse_core_ok _ _ _ _ W PO Hx) as [Dx Lx _]. destruct (parse_core_ok _ _ _ _ W PO Hy) as [Dy Ly _]. rewrite <- (store_nsn false text y phone0 Dy Ly eq_refl), <- (store_nsn false s x phone0 Dx Lx eq_refl), <- En, <- Eny. exact Ens. }
  assert (Cx : pr_cc y = pr_cc x). { unfold cc_of in Ec. rewrite A1, B1 in Ec. exact Ec. }
  rewrite Nx in *. rewrite Cx in *. assert (ZZ : (p_ilz r, p_nlz r) = (p_ilz n, p_nlz n)) by congruence. apply pair_equal_spec in ZZ as [Z1 Z2]. clear - A1 A2 A3 A5 A6 A7 B1 B2 B5 B6 B7 Z1 Z2 Ex X.
  destruct r as [r1 r2 r3 r4 r5 r6 r7 r8], n as [n1 n2 n3 n4 n5 n6 n7 n8]. cbn [p_cc p_nn p_ext p_raw p_src p_carrier p_ilz p_nlz] in *. subst. reflexivity.
Qed.
Print Assumptions C10_parsed_number.

(** * The shipped metadata *)
Definition all_types : list ptype := [FIXED_LINE; MOBILE; FIXED_LINE_OR_MOBILE; TOLL_FREE; PREMIUM_RATE; SHARED_COST; VOIP; PERSONAL_NUMBER; PAGER; UAN; VOICEMAIL].
Definition the_desc (m : meta) (t : ptype) : option desc :=
  match t with
  | FIXED_LINE_OR_MOBILE => match md_same m with Some true => md_fixed m | _ => md_mobile m end
  | _ => getNumberDescByType (Some m) t
  end.
Definition no_lengths (d : option desc) : bool := match d with Some x => match d_len x with [z] => Z.eqb z (-1) | _ => false end | None => true end.
(** Japanese toll-free and Belarusian premium-rate numbers. *)
Definition excepted (cc : Z) (t : ptype) : bool := (Z.eqb cc 81 && match t with TOLL_FREE => true | _ => false end) || (Z.eqb cc 375 && match t with PREMIUM_RATE => true | _ => false end).
Definition lengths_ok (m : meta) : bool := match md_general m with Some d => negb (match d_len d with [] => true | _ => false end) && forallb (fun z => (2 <=? z)%Z && (z <=? 17)%Z) (d_len d) | None => false end.
Definition table_ok (fuel : nat) (C : container) : bool :=
  forallb (fun e => forallb (fun r => match main_meta C (fst e), meta_of C (fst e) r with
    | Some mm, Some m => lengths_ok m && forallb (fun t => excepted (fst e) t || no_lengths (the_desc m t) || stays fuel mm m (the_desc m t)) all_types
    | _, _ => false end) (snd e)) (c_cc2region C).
Lemma shipped_table : table_ok 1000 shipped = true. Proof. vm_cast_no_check (eq_refl true). Qed.
Lemma type_desc m s t : has_type m s t -> In t all_types /\ accepts (the_desc m t) s /\ no_lengths (the_desc m t) = false.
Proof.
  intros (_ & H). assert (A : In t all_types /\ accepts (the_desc m t) s).
  { destruct t; cbn [the_desc]; try (split; [unfold all_types; cbn [In]; tauto|]); auto; try (destruct H; fail).
    - destruct H; auto.
    - destruct H as [H1 H2]. destruct (md_same m) as [[]|] eqn:E; [auto|destruct H2 as [H2|H2]; [congruence|auto]..]. }
  destruct A as [A1 A2]. split; auto. split; auto. destruct A2 as (x & E & L & _). rewrite E. unfold no_lengths. destruct (d_len x) as [|z [|? ?]]; auto. destruct L as [L|[L|[]]]; [discriminate|]. apply Z.eqb_neq. lia.
Qed.
Lemma table_round C fuel : wf_container C -> prefix_free (map fst (c_cc2region C)) -> table_ok fuel C = true -> forall n t region, IsValidNumber C n = Ret true -> GetNumberType C n = Ret t ->
  ~ (cc_of n = 81%Z /\ t = TOLL_FREE) -> ~ (cc_of n = 375%Z /\ t = PREMIUM_RATE) -> nn_of n <> 0 \/ p_raw n = None ->
  exists text r, Format C n E164 = Ret text /\ Parse C text region = Ret (r, None) /\
    cc_of r = cc_of n /\ GetNationalSignificantNumber r = GetNationalSignificantNumber n /\ p_ext r = None /\ p_raw r = None.
Proof.
  intros W PF B n t region V T X1 X2 R. destruct (type_valid_spec C n W) as (t' & b & Et & Eb & _ & H). rewrite T in Et. rewrite V in Eb. injection Et as <-. injection Eb as <-. destruct (H eq_refl) as (r & m & Er & Nr & Ir & Em & Wm & Ht).
  assert (HV : hasValidCountryCallingCode C (cc_of n) = true). { unfold hasValidCountryCallingCode. unfold regions_of in Ir. destruct (assocz (cc_of n) (c_cc2region C)); [reflexivity|destruct Ir]. }
  unfold table_ok in B. rewrite forallb_forall in B. unfold regions_of in Ir. destruct (assocz (cc_of n) (c_cc2region C)) as [l|] eqn:El; [|destruct Ir]. apply assocz_In in El. apply B in El. rewrite forallb_forall in El. cbn [fst snd] in El. apply El in Ir. clear B El. rewrite Em in Ir.
  destruct (main_meta C (cc_of n)) as [mm|] eqn:Emm; [|discriminate]. apply andb_true_iff in Ir as [Lm Ir]. rewrite forallb_forall in Ir. pose proof (type_desc _ _ _ Ht) as (It & Ac & Nl). apply Ir in It. rewrite Nl, orb_false_r in It.
  assert (Ex : excepted (cc_of n) t = false).
  { unfold excepted. apply orb_false_iff. split; apply andb_false_iff; [destruct (Z.eqb_spec (cc_of n) 81); [right; destruct t; auto; tauto|auto]|destruct (Z.eqb_spec (cc_of n) 375); [right; destruct t; auto; tauto|auto]]. }
  rewrite Ex in It. cbn [orb] in It. destruct Ht as ((g & Eg & Lg & Fg) & _).
  apply (C10_round_trip C n region W PF HV R).
  - unfold lengths_ok in Lm. rewrite Eg in Lm. apply andb_true_iff in Lm as [L1 L2]. destruct Lg as [Lg|Lg]; [rewrite Lg in L1; discriminate|]. rewrite forallb_forall in L2. apply L2 in Lg. apply andb_true_iff in Lg as [L3 L4]. apply Z.leb_le in L3, L4. lia.
  - intros x Ex'. rewrite Emm in Ex'. injection Ex' as <-. apply (stays_ok _ _ _ _ _ It); auto. apply nsn_digits.
Qed.
(** C10: every valid number of the shipped metadata, with two exceptions. *)
Theorem C10_shipped : forall n t region, IsValidNumber shipped n = Ret true -> GetNumberType shipped n = Ret t ->
  ~ (cc_of n = 81%Z /\ t = TOLL_FREE) -> ~ (cc_of n = 375%Z /\ t = PREMIUM_RATE) -> nn_of n <> 0 \/ p_raw n = None ->
  exists text r, Format shipped n E164 = Ret text /\ Parse shipped text region = Ret (r, None) /\
    cc_of r = cc_of n /\ GetNationalSignificantNumber r = GetNationalSignificantNumber n /\ p_ext r = None /\ p_raw r = None.
Proof. exact (table_round shipped 1000 shipped_wf C07_shipped_codes_prefix_free shipped_table). Qed.
Print Assumptions C10_shipped.

(** C10: the two exceptions are real: valid numbers that come back changed. *)
Theorem C10_refuted : exists n r text, IsValidNumber shipped n = Ret true /\ Format shipped n E164 = Ret text /\ Parse shipped text [] = Ret (r, None) /\
  GetNationalSignificantNumber n = bs "8102119745" /\ GetNationalSignificantNumber r = bs "102119745".
Proof. exists (num 375 8102119745), (num 375 102119745), (bs "+3758102119745"). vm_compute. repeat split. Qed.
Print Assumptions C10_refuted.
Theorem C10_refuted_toll_free : exists n r text, IsValidNumber shipped n = Ret true /\ Format shipped n E164 = Ret text /\ Parse shipped text [] = Ret (r, None) /\
  GetNationalSignificantNumber n = bs "00376809752333963" /\ GetNationalSignificantNumber r = bs "9752333963".
Proof.
  exists {| p_cc := Some 81%Z; p_nn := Some 376809752333963; p_ext := None; p_ilz := Some true; p_nlz := Some 2%Z; p_raw := None; p_src := None; p_carrier := None |},
    (num 81 9752333963), (bs "+8100376809752333963"). vm_compute. repeat split.
Qed.
Print Assumptions C10_refuted_toll_free.
Example C10_witness : IsValidNumber shipped (num 54 91123456789) = Ret true /\ Format shipped (num 54 91123456789) E164 = Ret (bs "+5491123456789") /\
  Parse shipped (bs "+5491123456789") (bs "US") = Ret (num 54 91123456789, None) /\
  IsValidNumber shipped (num 54 1115234567) = Ret true /\ GetNumberType shipped (num 54 1115234567) = Ret FIXED_LINE /\ Parse shipped (bs "+541115234567") [] = Ret (num 54 1115234567, None).
Proof. vm_compute. repeat split. Qed.
