(** C87: where a number is said to be from: its time zones, its description for a user of another region, and Argentine mobile numbers. *)
From Coq Require Import Lia.
From Verif Require Import Base BaseFacts Utf8 Utf8Facts Regex RegexSpec RegexFacts LangFacts Consts Types Normalize Validate Format Parse Container MetadataData Shipped NumberSpec NumberFacts PropsNumber MetaSpec MetaFacts ValidateSpec ValidateFacts
  FormatSpec TextFacts FormatFacts FormatMore ParseSpec ParseFacts ParseMore RoundSpec DerivFacts RoundTripFacts PropsValidate RuleSpec RuleFacts RuleMore ReadSpec ReadFacts ReadMore PropsRound PropsRead NationalFacts NationalMore
  QuerySpec QueryFacts Serialize MetaBuild PrefixMapper PrefixData TableSpec TableFacts PrefixFacts SourceFacts ShippedTz PropsTable PropsFormat.
Local Open Scope N_scope.
Local Opaque compile re_find re_replace_all.

(** * Time zones *)
Definition zones_of (m : list (Z * list bytes)) (ds : bytes) (zs : list bytes) : Prop :=
  (exists k, longest_key m (fun _ => True) ds k /\ In (k, zs) m) \/ ((forall k, In k (map fst m) -> ~ starts (itoa k) ds) /\ zs = [bs "Etc/Unknown"]).
Lemma tz_lookup t m ds p : represents (look t) m -> (forall k, In k (map fst m) -> digits k <= t_max t)%Z -> (t_max t <= 18)%Z -> digit_string ds -> p = [] \/ p = bs "+" ->
  exists zs, lookupTimeZones (Ret t) (p ++ ds) = Ret zs /\ zones_of m ds zs.
Proof.
  intros R K T Sd Hp. unfold lookupTimeZones. cbv zeta. pose proof (digit_string_all _ Sd) as D. destruct Sd as (_ & H).
  assert (Tr : trim_plus (p ++ ds) = ds). { destruct Hp as [->| ->]; [|change (trim_plus (bs "+" ++ ds)) with (trim_plus ds)]; apply trim_plus_digits; exact D. } rewrite Tr.
  destruct (tz_loop_spec (look t) m ds (Z.to_nat (Z.min (Z.of_nat (len ds)) (t_max t))) R D H) as [(k & v & L & F & E)|(Nn & E)]; unfold len; try lia.
  - intros k Kk Sk. specialize (K k Kk). apply (prefix_key ds k D H) in Sk as (j & J & _ & Ej). unfold digits in K. rewrite Ej, firstn_length in *. lia.
  - exists v. split; [exact E|]. left. exists k. split; [exact L|]. apply R. exact F.
  - exists [bs "Etc/Unknown"]. split; [exact E|]. right. split; [exact Nn|reflexivity].
Qed.
Lemma code_string n : (0 < cc_of n)%Z -> digit_string (itoa (cc_of n)).
Proof.
  intros H. rewrite itoa_pos by exact H. destruct (dec_head (Z.to_N (cc_of n)) ltac:(lia)) as (d & t & E & B). split.
  - intros c I. apply (all_digits_In _ _ (dec_digits (Z.to_N (cc_of n)))) in I. exact I.
  - rewrite E. cbn. lia.
Qed.
(** A number of unknown type is in no known zone; the zones of a number that is not tied to a place are those of its calling code; those of any other
    number are the zones of the longest prefix of its digits that has any. *)
Theorem C87_zones : forall C t m n ty, represents (look t) m -> (forall k, In k (map fst m) -> digits k <= t_max t)%Z -> (t_max t <= 18)%Z -> nn_of n <> 0 -> (0 < cc_of n < 1000)%Z -> GetNumberType C n = Ret ty ->
  exists zs, GetTimeZonesForNumber C (Ret t) n = Ret zs /\
    (ty = UNKNOWN -> zs = [bs "Etc/Unknown"]) /\
    (ty <> UNKNOWN -> ~ geographical (cc_of n) ty -> zones_of m (itoa (cc_of n)) zs) /\
    (ty <> UNKNOWN -> geographical (cc_of n) ty -> zones_of m (itoa (cc_of n) ++ GetNationalSignificantNumber n) zs).
Proof.
  intros C t m n ty R K T N0 Cc Ty. unfold GetTimeZonesForNumber. rewrite Ty. cbn [bind]. change (get_cc n) with (cc_of n).
  assert (Dec : ty = UNKNOWN \/ ty <> UNKNOWN) by (destruct ty; (left; reflexivity) || (right; discriminate)). destruct Dec as [->|Nu].
  { exists [bs "Etc/Unknown"]. split; [reflexivity|]. split; [reflexivity|]. split; congruence. }
  assert (Q : forall (X Y : M (list bytes)), match ty with UNKNOWN => X | _ => Y end = Y) by (intros X Y; destruct ty; congruence). rewrite Q.
  pose proof (geographical_spec ty (cc_of n) ltac:(lia)) as G. destruct (IsNumberGeographicalForType ty (cc_of n)); cbn [negb].
  - destruct (tz_lookup t m (e164_digits n) (bs "+") R K T (e164_digit_string n ltac:(lia)) (or_intror eq_refl)) as (zs & E & Z1). exists zs. split; [unfold GetTimeZonesForGeographicalNumber; rewrite C06_e164 by auto; exact E|].
    split; [congruence|]. split; [intros _ Ng; elim Ng; apply G; reflexivity|]. intros _ _. exact Z1.
  - destruct (tz_lookup t m (itoa (cc_of n)) [] R K T (code_string n ltac:(lia)) (or_introl eq_refl)) as (zs & E & Z1). exists zs. split; [exact E|].
    split; [congruence|]. split; [intros _ _; exact Z1|]. intros _ Ge. apply G in Ge. discriminate.
Qed.
Print Assumptions C87_zones.
(** With the shipped table every number with a supported calling code and digits has a zone, and it is among those of the calling code, if this has any. *)
Lemma tz_filled : forallb (fun e => match snd e with [] => false | _ => true end) (t_map shipped_tz) = true. Proof. vm_cast_no_check (eq_refl true). Qed.
Theorem C87_zones_shipped : forall n, supported n -> nn_of n <> 0 ->
  exists zs, GetTimeZonesForNumber shipped (Ret shipped_tz) n = Ret zs /\ zs <> [] /\
    forall t zc, GetNumberType shipped n = Ret t -> t <> UNKNOWN -> look shipped_tz (cc_of n) = Some zc -> forall z, In z zs -> In z zc.
Proof.
  intros n Su N0. destruct (type_valid_spec shipped n shipped_wf) as (t & b & Et & _).
  assert (Rg : (0 < cc_of n < 1000)%Z). { unfold supported in Su. apply hasValid_In in Su as (l & I & _). apply (wf_cc shipped shipped_wf _ _ I). }
  destruct tz_lengths as (TL & TM).
  assert (K : forall k, In k (map fst (t_map shipped_tz)) -> (digits k <= t_max shipped_tz)%Z). { intros k I. apply in_map_iff in I as (e & <- & I). rewrite forallb_forall in TL. specialize (TL e I). rewrite TM. lia. }
  assert (T18 : (t_max shipped_tz <= 18)%Z) by (rewrite TM; lia).
  destruct (C87_zones shipped shipped_tz (t_map shipped_tz) n t tz_represents K T18 N0 Rg Et) as (zs & E & Z1 & Z2 & Z3). exists zs. split; [exact E|].
  assert (Fill : forall ds, zones_of (t_map shipped_tz) ds zs -> zs <> []).
  { intros ds [(k & _ & I)|(_ & ->)]; [|discriminate]. pose proof tz_filled as B. rewrite forallb_forall in B. specialize (B _ I). cbn [snd] in B. intros ->. discriminate. }
  assert (Dec : t = UNKNOWN \/ t <> UNKNOWN) by (destruct t; (left; reflexivity) || (right; discriminate)).
  pose proof (geographical_spec t (cc_of n) ltac:(lia)) as G. split.
  - destruct Dec as [Du|Nu]; [rewrite (Z1 Du); discriminate|]. destruct (IsNumberGeographicalForType t (cc_of n)); [apply (Fill _ (Z3 Nu (proj1 G eq_refl)))|apply (Fill _ (Z2 Nu ltac:(intros Q; apply G in Q; discriminate)))].
  - intros t' zc Et' Nu Lc. rewrite Et in Et'. injection Et' as <-. destruct (IsNumberGeographicalForType t (cc_of n)) eqn:Gb.
    + apply (C52_zones_of_country shipped n zs zc Su N0 Lc). unfold GetTimeZonesForNumber in E. rewrite Et in E. cbn [bind] in E. change (get_cc n) with (cc_of n) in E. rewrite Gb in E. destruct t; try exact E. congruence.
    + specialize (Z2 Nu ltac:(intros Q; apply G in Q; discriminate)). intros z Iz. apply tz_represents in Lc. destruct Z2 as [(k & (Kk & _ & Sk & Mx) & I)|(Nn & _)].
      * assert (Ek : k = cc_of n).
        { assert (Kc : In (cc_of n) (map fst (t_map shipped_tz))) by (apply in_map_iff; exists (cc_of n, zc); split; [reflexivity|exact Lc]). specialize (Mx (cc_of n) Kc Logic.I (ex_intro _ [] (eq_sym (app_nil_r _)))). destruct Sk as (r & Sk). pose proof (f_equal (@length N) Sk) as Hl. rewrite app_length in Hl. destruct r as [|c r]; [|cbn [length] in Hl; lia].
          rewrite app_nil_r in Sk. assert (Pk : (0 < k)%Z). { destruct (dec_head (Z.to_N (cc_of n)) ltac:(lia)) as (d & t0 & Ed & B). rewrite (itoa_pos (cc_of n)) in Sk by lia. rewrite Ed in Sk. destruct k as [|p|p]; [|lia|]; cbn [itoa] in Sk; injection Sk as Sk _; lia. }
          assert (Qd : dval (itoa (cc_of n)) = dval (itoa k)) by (rewrite Sk; reflexivity). rewrite !itoa_pos, !dval_dec in Qd by lia. lia. }
        subst k. apply tz_represents in I, Lc. rewrite I in Lc. injection Lc as <-. exact Iz.
      * elim (Nn (cc_of n)). { apply in_map_iff. exists (cc_of n, zc). split; [reflexivity|exact Lc]. } exists []. symmetry. apply app_nil_r.
Qed.
Print Assumptions C87_zones_shipped.
Definition toll_free_au : phone := num 61 1800123456.
Example C87_zones_witness : supported sydney /\ nn_of sydney <> 0 /\ GetTimeZonesForNumber shipped (Ret shipped_tz) sydney = Ret [bs "Australia/Sydney"] /\
  GetNumberType shipped toll_free_au = Ret TOLL_FREE /\ (exists zs, GetTimeZonesForNumber shipped (Ret shipped_tz) toll_free_au = Ret zs /\ length zs = 8%nat) /\
  GetNumberType shipped (num 61 1) = Ret UNKNOWN /\ GetTimeZonesForNumber shipped (Ret shipped_tz) (num 61 1) = Ret [bs "Etc/Unknown"].
Proof. split; [vm_compute; reflexivity|]. split; [discriminate|]. split; [vm_compute; reflexivity|]. split; [vm_compute; reflexivity|]. split; [eexists; split; vm_compute; reflexivity|]. split; vm_compute; reflexivity. Qed.

(** * Descriptions *)
Lemma known_case {X} ty (a b : X) : ty <> UNKNOWN -> match ty with UNKNOWN => a | _ => b end = b.
Proof. destruct ty; congruence. Qed.
(** A user of the number's own region is told the area; to a user of another region the name of the number's region is given. Numbers that are not tied to
    a place are described in the same way to everybody. *)
Theorem C87_user_region : forall C dc fs disp n lang user r t, GetNumberType C n = Ret t -> t <> UNKNOWN -> (0 <= cc_of n < 1000)%Z -> GetRegionCodeForNumber C n = Ret r -> r <> [] -> r <> bs "ZZ" -> r <> bs "001" ->
  (geographical (cc_of n) t -> user <> r -> geo_GetDescriptionForNumberForUserRegion C dc fs disp n lang user = Ret (disp r lang)) /\
  (~ geographical (cc_of n) t \/ user = r -> geo_GetDescriptionForNumberForUserRegion C dc fs disp n lang user = geo_GetDescriptionForNumber C dc fs disp n lang).
Proof.
  intros C dc fs disp n lang user r t Et Nu Rg Er R1 R2 R3. unfold geo_GetDescriptionForNumberForUserRegion, geo_GetDescriptionForNumber. rewrite Et. cbn [bind]. rewrite !(known_case t) by exact Nu. change (get_cc n) with (cc_of n).
  pose proof (geographical_spec t (cc_of n) ltac:(lia)) as G. destruct (IsNumberGeographicalForType t (cc_of n)); cbn [negb].
  - unfold geo_GetDescriptionForValidNumberForUserRegion. rewrite Er. cbn [bind]. split.
    + intros _ Ne. apply beq_neq in Ne. rewrite Ne. unfold regionDisplayName. apply beq_neq in R2, R3. apply is_empty_false in R1. change nonGeoEntity with (bs "001"). rewrite R1, R2, R3. reflexivity.
    + intros [Ng| ->]; [elim Ng; apply G; reflexivity|]. rewrite beq_refl. reflexivity.
  - split; [intros Ge; apply G in Ge; discriminate|reflexivity].
Qed.
Print Assumptions C87_user_region.
(** The area: also for countries with a mobile token, if the number does not start with it. *)
Theorem C87_area : forall C dc fs disp n lang s t m ty, fs lang = FileData s -> LoadPrefixMap dc s = Ret t -> represents (look t) m -> (forall k v, In (k, v) m -> v <> []) -> nn_of n <> 0 -> (0 < cc_of n < 1000)%Z ->
  GetNumberType C n = Ret ty -> ty <> UNKNOWN -> geographical (cc_of n) ty -> (cc_of n = 54%Z -> hd 0 (GetNationalSignificantNumber n) <> 57) ->
  (exists k v, longest_key m (fun k => digits k <= 9)%Z (e164_digits n) k /\ In (k, v) m /\ geo_GetDescriptionForNumber C dc fs disp n lang = Ret v)
  \/ ((forall k, In k (map fst m) -> (digits k <= 9)%Z -> ~ starts (itoa k) (e164_digits n)) /\ geo_GetDescriptionForNumber C dc fs disp n lang = countryNameForNumber C disp n lang).
Proof.
  intros C dc fs disp n lang s t m ty F L R Nv N0 Cc T Tu G Mt. unfold geo_GetDescriptionForNumber. rewrite T. cbn [bind]. rewrite !(known_case ty) by exact Tu. change (get_cc n) with (cc_of n). apply geographical_spec in G; [|lia]. rewrite G. cbn [negb].
  assert (Tk : negb (is_empty (GetCountryMobileToken (cc_of n))) && has_prefix (GetNationalSignificantNumber n) (GetCountryMobileToken (cc_of n)) = false).
  { unfold GetCountryMobileToken, mobileTokenMappings. cbn [assocz assoc]. destruct (Z.eqb_spec (cc_of n) 54) as [E|E]; [|reflexivity]. specialize (Mt E). destruct (GetNationalSignificantNumber n) as [|c u]; [reflexivity|]. cbn [hd] in Mt. cbn. destruct (N.eqb_spec 57 c); [congruence|]. reflexivity. }
  unfold geo_GetDescriptionForValidNumber. cbv zeta. change (get_cc n) with (cc_of n). rewrite Tk. cbn [bind]. rewrite C06_e164 by auto. cbn [bind]. fold (e164_digits n).
  rewrite (value_of_eq dc fs lang 10 _ (FileData s) (Some t) F) by (simpl; rewrite L; reflexivity).
  destruct (C38_value_for m t (e164_digits n) R (e164_digit_string n ltac:(lia))) as [(k & v & Lk & I & E)|(Nn & E)]; rewrite E; cbn [bind fst].
  - left. exists k, v. split; [exact Lk|]. split; [exact I|]. specialize (Nv k v I). destruct v; [congruence|reflexivity].
  - right. split; [exact Nn|reflexivity].
Qed.
Print Assumptions C87_area.

(** * Argentine mobile numbers *)
Definition plain_home (fuel : nat) (m : meta) : bool :=
  lengths_clear m && match body (get_d_pattern (md_general m)) with Some r => idd_free fuel [] [r] m | None => false end &&
  forallb (fun t => let d := the_desc m t in if no_lengths d then true else stays fuel m m d) all_types.
(** The digits of a number of the region, as they stand, are read as this number. *)
Lemma plain_parse C fuel r m s t : wf_container C -> parse_ok C -> getMetadataForRegion C r = Some m -> wf_meta m -> plain_home fuel m = true -> has_type m s t -> all_digits s = true ->
  exists p, Parse C s r = Ret (p, None) /\ cc_of p = code_of m /\ GetNationalSignificantNumber p = s /\ p_raw p = None.
Proof.
  intros W PO Em Wm H Ht D. unfold plain_home in H. rewrite !andb_true_iff in H. destruct H as ((H1 & H2) & H3). destruct (lengths_clear_ok m s t Wm H1 Ht) as [L Sz].
  destruct (type_desc _ _ _ Ht) as (It & Ac & Nl). pose proof (proj1 Ht) as (g & Eg & Lg & Fg). rewrite forallb_forall in H3. specialize (H3 t It). cbv zeta in H3. rewrite Nl in H3.
  destruct (unstripped_part m s Wm (stays_ok _ _ _ _ _ H3 D Ac Fg)) as (c & P). destruct (body (get_d_pattern (md_general m))) as [q|] eqn:B; [|discriminate].
  assert (Aq : acc [q] s = true) by (apply (body_ok _ _ _ B (digits_ascii _ D)); exact Fg).
  pose proof (idd_free_ok fuel [] [q] m s H2 D ltac:(intros l [<-|[]]; exact Aq)) as Nd.
  pose proof (reads_back C m [] s c Nd (or_introl (conj eq_refl Fg)) P L Sz) as Rd. cbn [app] in Rd.
  destruct (back_parse C r m [] s c W PO Em D ltac:(cbn [app]; lia) Rd) as (p & Ep & Ec & En & _). exists p. split; [exact Ep|]. split; [exact Ec|]. split; [exact En|].
  cbn [app] in Ep. destruct (parse_agree C s r W) as [(e & n1 & n2 & P1 & _)|(n1 & n2 & P1 & _ & _ & _ & _ & _ & _ & _ & Q & _)]; rewrite Ep in P1; [discriminate|]. injection P1 as <-. exact Q.
Qed.
Lemma ar_plain : match getMetadataForRegion shipped (bs "AR") with Some m => plain_home 1000 m && (code_of m =? 54)%Z | None => false end = true. Proof. vm_cast_no_check (eq_refl true). Qed.
Lemma ar_only : regions_of shipped 54 = [bs "AR"]. Proof. vm_compute. reflexivity. Qed.
Lemma token_home C fuel r dc fs disp n n' lang m t : wf_container C -> parse_ok C -> regions_of C 54 = [r] -> getMetadataForRegion C r = Some m -> wf_meta m -> plain_home fuel m = true -> code_of m = 54%Z ->
  cc_of n = 54%Z -> cc_of n' = 54%Z -> GetNationalSignificantNumber n = 57 :: GetNationalSignificantNumber n' -> hd 0 (GetNationalSignificantNumber n') <> 57 -> has_number n' -> has_type m (GetNationalSignificantNumber n') t ->
  geo_GetDescriptionForValidNumber C dc fs disp n lang = geo_GetDescriptionForValidNumber C dc fs disp n' lang.
Proof.
  intros W PO Rg Em Wm Pl Cm Cn Cn' Es Hd Hn Ht. destruct (plain_parse C fuel r m _ t W PO Em Wm Pl Ht (nsn_digits n')) as (p & Ep & Ec & En & Er).
  assert (Rn : GetRegionCodeForCountryCode C 54 = r) by (unfold GetRegionCodeForCountryCode; rewrite Rg; reflexivity).
  assert (Rl : GetRegionCodesForCountryCode C 54 = [r]) by exact Rg.
  unfold geo_GetDescriptionForValidNumber, countryNameForNumber. cbv zeta. change (get_cc n) with (cc_of n). change (get_cc n') with (cc_of n'). rewrite Cn, Cn', Rn, Rl, Es. change (GetCountryMobileToken 54) with [57]. cbn [is_empty negb andb has_prefix len length skipn].
  rewrite N.eqb_refl, has_prefix_nil. cbn [andb]. rewrite Ep. cbn [bind].
  assert (Tk : has_prefix (GetNationalSignificantNumber n') [57] = false). { destruct (GetNationalSignificantNumber n') as [|c u]; [reflexivity|]. cbn [hd] in Hd. cbn [has_prefix]. destruct (N.eqb_spec 57 c); [congruence|]. reflexivity. }
  rewrite Tk. cbn [bind]. rewrite (C06_e164 C p) by auto. rewrite (C06_e164 C n'). { rewrite Ec, En, Cm, Cn'. reflexivity. }
  destruct Hn as [Hn|Hn]; [auto|]. right. unfold get_raw in Hn. destruct (p_raw n') as [b|]; [right; cbn [get_bytes] in Hn; f_equal; exact Hn|left; reflexivity].
Qed.
(** An Argentine mobile number, written with the 9 after the calling code, is described like the number without the 9. *)
Theorem C87_argentina : forall dc fs disp n n' lang t t', cc_of n = 54%Z -> cc_of n' = 54%Z -> GetNationalSignificantNumber n = bs "9" ++ GetNationalSignificantNumber n' -> hd 0 (GetNationalSignificantNumber n') <> 57 ->
  has_number n' -> IsValidNumber shipped n' = Ret true -> GetNumberType shipped n = Ret t -> geographical 54 t -> GetNumberType shipped n' = Ret t' -> geographical 54 t' ->
  geo_GetDescriptionForNumber shipped dc fs disp n lang = geo_GetDescriptionForNumber shipped dc fs disp n' lang.
Proof.
  intros dc fs disp n n' lang t t' Cn Cn' Es Hd Hn V Et Ge Et' Ge'. unfold geo_GetDescriptionForNumber. rewrite Et, Et'. cbn [bind]. change (get_cc n) with (cc_of n). change (get_cc n') with (cc_of n'). rewrite Cn, Cn'.
  assert (Nu : forall y, geographical 54 y -> y <> UNKNOWN) by (intros y [->|[->|[-> _]]]; discriminate). rewrite !(known_case t) by auto. rewrite !(known_case t') by auto. apply geographical_spec in Ge, Ge'; try lia. rewrite Ge, Ge'. cbn [negb].
  destruct (type_valid_spec shipped n' shipped_wf) as (t0 & b & Et0 & Eb & _ & H). rewrite V in Eb. injection Eb as <-. destruct (H eq_refl) as (r & m & Er & Nr & Ir & Em & Wm & Ht). rewrite Cn', ar_only in Ir. destruct Ir as [<-|[]].
  pose proof ar_plain as Pl. assert (Em' : getMetadataForRegion shipped (bs "AR") = Some m). { rewrite Cn' in Em. unfold meta_of, getMetadataForRegionOrCallingCode in Em. exact Em. }
  rewrite Em' in Pl. apply andb_prop in Pl as [Pl Cm]. apply Z.eqb_eq in Cm. exact (token_home shipped 1000 (bs "AR") dc fs disp n n' lang m t0 shipped_wf shipped_parse_ok ar_only Em' Wm Pl Cm Cn Cn' Es Hd Hn Ht).
Qed.
Print Assumptions C87_argentina.
Definition ba_mobile : phone := num 54 91123456789.
Definition ba_fixed : phone := num 54 1123456789.
Definition ar_areas (s : bytes) : file := match renderPrefixMap [(5411%Z, bs "Buenos Aires"); (54%Z, bs "x")] with Ret b => FileData b | _ => NoFile end.
Example C87_witness : cc_of ba_mobile = 54%Z /\ cc_of ba_fixed = 54%Z /\ GetNationalSignificantNumber ba_mobile = bs "9" ++ GetNationalSignificantNumber ba_fixed /\ hd 0 (GetNationalSignificantNumber ba_fixed) <> 57 /\ has_number ba_fixed /\
  IsValidNumber shipped ba_fixed = Ret true /\ (exists t, GetNumberType shipped ba_mobile = Ret t /\ geographical 54 t) /\ (exists t, GetNumberType shipped ba_fixed = Ret t /\ geographical 54 t) /\
  geo_GetDescriptionForNumber shipped digits ar_areas name_of ba_mobile (bs "en") = Ret (bs "Buenos Aires") /\
  geo_GetDescriptionForNumberForUserRegion shipped digits ar_areas name_of ba_mobile (bs "en") (bs "UY") = Ret (bs "AR") /\
  geo_GetDescriptionForNumberForUserRegion shipped digits ar_areas name_of ba_mobile (bs "en") (bs "AR") = Ret (bs "Buenos Aires").
Proof.
  split; [reflexivity|]. split; [reflexivity|]. split; [vm_compute; reflexivity|]. split; [vm_compute; discriminate|]. split; [left; discriminate|]. split; [vm_compute; reflexivity|].
  split; [eexists; split; [vm_compute; reflexivity|cbn; unfold geographical; cbn [In geographical_mobile]; tauto]|]. split; [eexists; split; [vm_compute; reflexivity|cbn; unfold geographical; cbn [In geographical_mobile]; tauto]|].
  split; [vm_compute; reflexivity|]. split; vm_compute; reflexivity.
Qed.
(** Finding: of a number that two regions of a calling code accept, the description without a user region names no country, but for a user of a third region
    one of the two is named. *)
Theorem C87_country_refuted : exists n, IsValidNumber shipped n = Ret true /\ GetNumberType shipped n = Ret FIXED_LINE /\ IsValidNumberForRegion shipped n (bs "AU") = Ret true /\ IsValidNumberForRegion shipped n (bs "CC") = Ret true /\
  geo_GetDescriptionForNumber shipped digits (fun _ => NoFile) name_of n (bs "en") = Ret [] /\
  geo_GetDescriptionForNumberForUserRegion shipped digits (fun _ => NoFile) name_of n (bs "en") (bs "US") = Ret (bs "AU").
Proof. exists (num 61 891010000). split; [vm_compute; reflexivity|]. split; [vm_compute; reflexivity|]. split; [vm_compute; reflexivity|]. split; [vm_compute; reflexivity|]. split; vm_compute; reflexivity. Qed.
Print Assumptions C87_country_refuted.
