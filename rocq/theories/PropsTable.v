(** Properties C38-C40, C49, C50, C52: prefix tables, how they are written and read, and the lookups in them. *)
From Coq Require Import Permutation Lia.
From Verif Require Import Base BaseFacts Utf8 Types Consts Normalize Validate Format Parse Container MetadataData Shipped NumberSpec NumberFacts PropsNumber MetaSpec MetaFacts ValidateSpec ValidateFacts
  Serialize MetaBuild PrefixMapper PrefixData TableSpec TableFacts PrefixFacts SourceFacts ShippedTz.
Local Open Scope N_scope.

(** * C39: arrays *)
Theorem C39_round_trip : forall dc m strings b, go_map m -> (forall k vs, In (k, vs) m -> (length vs <= 255)%nat) -> strings_in strings m -> within_limits strings (length m) ->
  renderMap m = Ret b -> exists t, LoadIntArrayMap dc b = Ret t /\ represents (look t) m.
Proof. intros dc m strings b G L S W E. destruct (array_round_trip dc m strings b G L S W E) as (t & T & R & _). eauto. Qed.
Print Assumptions C39_round_trip.

(** The builder succeeds for all keys from 0 to 2^42 - 1, and does not depend on the order in which Go visits the map. *)
Theorem C39_renders : forall m, (forall k vs, In (k, vs) m -> 0 <= k < 2 ^ 42)%Z -> exists b, renderMap m = Ret b.
Proof. exact render_fits. Qed.
Print Assumptions C39_renders.
Theorem C39_order : forall m m', NoDup (map fst m) -> Permutation m m' -> renderMap m = renderMap m'.
Proof. exact render_perm. Qed.
Print Assumptions C39_order.
(** The limits are those of the format: nothing beyond them is the content of any file. *)
Theorem C39_limits : forall dc s t, octets s -> LoadIntArrayMap dc s = Ret t -> (forall k vs, look t k = Some vs -> (length vs <= 255)%nat) /\
  exists strings, N.of_nat (length strings) <= 65536 /\ forall k vs v, look t k = Some vs -> In v vs -> In v strings.
Proof. exact array_limits. Qed.
Print Assumptions C39_limits.
(** The builder does not check them: a list of 256 strings is written, and read back as an empty list. *)
Theorem C39_unchecked_refuted : exists m b t, go_map m /\ strings_in [bs "a"] m /\ within_limits [bs "a"] (length m) /\ renderMap m = Ret b /\ LoadIntArrayMap digits b = Ret t /\ ~ represents (look t) m.
Proof.
  exists [(1%Z, repeat (bs "a") 256)]. destruct (renderMap [(1%Z, repeat (bs "a") 256)]) as [b| |] eqn:E; try (vm_compute in E; discriminate).
  destruct (LoadIntArrayMap digits b) as [t| |] eqn:F; try (vm_compute in E; apply ret_inj in E; subst b; vm_compute in F; discriminate).
  exists b, t. assert (In1 : forall v, In v (repeat (bs "a") 256) -> v = bs "a") by (intros v; apply repeat_spec).
  split; [|split; [|split; [|split; [reflexivity|split; [exact F|]]]]].
  - split; [constructor; [intros []|constructor]|]. intros k v [H|[]]. injection H as <- _. lia.
  - intros k vs v [H|[]] V. injection H as _ <-. apply In1 in V. subst v. left. reflexivity.
  - split; try (vm_compute; congruence); try (simpl; lia). intros v [<-|[]] [H|[]]. discriminate.
  - intros R. specialize (R 1%Z (repeat (bs "a") 256)). assert (H : look t 1 = Some (repeat (bs "a") 256)) by (apply R; left; reflexivity).
    vm_compute in E. apply ret_inj in E. subst b. vm_compute in F. apply ret_inj in F. subst t. vm_compute in H. discriminate.
Qed.
Print Assumptions C39_unchecked_refuted.
(** Any bytes: reading fails with an error or yields a table, it never panics. *)
Theorem C39_total : forall dc s, LoadIntArrayMap dc s <> Panic.
Proof. exact array_total. Qed.
Print Assumptions C39_total.
(** The embedded country code file decodes to the map the other theorems use. *)
Theorem C39_shipped_regions : exists t, LoadIntArrayMap digits shipped_region_blob = Ret t /\ represents (look t) shipped_cc2region.
Proof.
  destruct (LoadIntArrayMap digits shipped_region_blob) as [t| |] eqn:E; try (vm_compute in E; discriminate). exists t. split; [reflexivity|].
  assert (Q : t = mkTable (rev shipped_cc2region) 3%Z). { apply ret_inj. rewrite <- E. vm_cast_no_check (eq_refl (Ret (mkTable (rev shipped_cc2region) 3%Z))). }
  subst t. intros k v. rewrite <- (app_nil_r (rev shipped_cc2region)). apply look_rev.
  assert (Nd : (fix nd l := match l with [] => true | x :: r => negb (memz x r) && nd r end) (map fst shipped_cc2region) = true) by (vm_cast_no_check (eq_refl true)).
  revert Nd. generalize (map fst shipped_cc2region). induction l as [|x r IH]; [constructor|]. intros H. apply andb_true_iff in H as [H1 H2]. constructor; [|auto]. intros I. apply memz_iff in I. rewrite I in H1. discriminate.
Qed.
Print Assumptions C39_shipped_regions.
Definition two_codes : list (Z * list bytes) := [(44%Z, [bs "GB"; bs "GG"; bs "IM"; bs "JE"]); (7%Z, [bs "RU"; bs "KZ"])].
Example C39_witness : go_map two_codes /\ (forall k vs, In (k, vs) two_codes -> (length vs <= 255)%nat) /\ strings_in (concat (map snd two_codes)) two_codes /\ within_limits (concat (map snd two_codes)) (length two_codes)
  /\ exists b t, renderMap two_codes = Ret b /\ LoadIntArrayMap digits b = Ret t /\ look t 7 = Some [bs "RU"; bs "KZ"].
Proof.
  split; [|split; [|split; [|split]]].
  - split; [repeat constructor; simpl; intuition discriminate|]. intros k v [H|[H|[]]]; injection H as <- _; lia.
  - intros k vs [H|[H|[]]]; injection H as _ <-; simpl; lia.
  - intros k vs v H V. apply in_concat. exists vs. split; [|exact V]. apply in_map_iff. exists (k, vs). auto.
  - split; try (vm_compute; congruence). intros v V I. vm_compute in V. repeat (destruct V as [<-|V]; [vm_compute in I; intuition discriminate|]). destruct V.
  - do 2 eexists. repeat split; vm_compute; reflexivity.
Qed.

(** * C40: single values *)
Theorem C40_round_trip : forall dc m strings b, go_map m -> (forall k v, In (k, v) m -> In v strings) -> within_limits strings (length m) ->
  renderPrefixMap m = Ret b -> exists t, LoadPrefixMap dc b = Ret t /\ represents (look t) m
    /\ (forall k v, In (k, v) m -> (dc k <= t_max t)%Z) /\ (forall z, (0 <= z)%Z -> (forall k v, In (k, v) m -> (dc k <= z)%Z) -> (t_max t <= z)%Z).
Proof.
  intros dc m strings b G S W E. destruct (prefix_round_trip dc m b G (or_intror (ex_intro _ strings (conj S W))) E) as (t & T & R & X). exists t.
  split; [exact T|]. split; [exact R|]. destruct G as (D & _). split.
  - intros k v I. rewrite X. apply max_dc_ge. apply in_map_iff. exists (k, v). split; [reflexivity|]. apply by_key_in; auto.
  - intros z Z0 H. rewrite X. destruct (max_dc_attained dc (map fst (by_key m)) 0) as [A|(k & I & A)]; rewrite A; [exact Z0|].
    apply in_map_iff in I as ([k' v] & <- & I). apply (proj1 (by_key_in m k' v D)) in I. eapply H. exact I.
Qed.
Print Assumptions C40_round_trip.
(** The builder refuses more than 65535 different strings and accepts everything else, with keys from 0 to 2^42 - 1. *)
Theorem C40_renders : forall m, (forall k v, In (k, v) m -> 0 <= k < 2 ^ 42)%Z ->
  ((exists l, N.of_nat (length l) <= 65535 /\ forall k v, In (k, v) m -> In v l) -> exists b, renderPrefixMap m = Ret b) /\
  (forall l, NoDup l -> 65535 < N.of_nat (length l) -> (forall v, In v l -> exists k, In (k, v) m) -> renderPrefixMap m = Fail ErrOther).
Proof.
  intros m K. destruct (distinct_spec (map snd m)) as (D & I). split.
  - intros (l & L & H). apply render_prefix_fits; [exact K|]. assert (J : incl (distinct (map snd m)) l). { intros v V. apply I in V. apply in_map_iff in V as ([k v'] & <- & V). eapply H. exact V. }
    pose proof (NoDup_incl_length D J). lia.
  - intros l Dl L H. unfold renderPrefixMap. cbv zeta. assert (J : incl l (distinct (map snd m))). { intros v V. apply I. destruct (H v V) as (k & Kv). apply in_map_iff. exists (k, v). auto. }
    pose proof (NoDup_incl_length Dl J). destruct (N.ltb_spec 65535 (N.of_nat (length (distinct (map snd m))))); [reflexivity|lia].
Qed.
Print Assumptions C40_renders.
Theorem C40_order : forall m m', NoDup (map fst m) -> Permutation m m' -> renderPrefixMap m = renderPrefixMap m'.
Proof. exact render_prefix_perm. Qed.
Print Assumptions C40_order.
Theorem C40_total : forall dc s, LoadPrefixMap dc s <> Panic.
Proof. exact prefix_total. Qed.
Print Assumptions C40_total.
(** The digit counter of the code, evaluated in binary64, is right at the powers of ten and just below them up to 10^14; from there on it counts one
    digit too many just below a power of ten, which only makes MaxLength larger. *)
Example C40_digit_count : map (fun j => (go_digit_count (10 ^ j), go_digit_count (10 ^ (j + 1) - 1))) [0; 1; 2; 3; 4; 5; 6; 7; 8; 9; 10; 11; 12; 13]%Z
    = map (fun j => (j + 1, j + 1))%Z [0; 1; 2; 3; 4; 5; 6; 7; 8; 9; 10; 11; 12; 13]%Z /\ go_digit_count 999999999999999 = 16%Z.
Proof. split; vm_compute; reflexivity. Qed.
Definition two_prefixes : list (Z * bytes) := [(86137%Z, bs "China Mobile"); (86130%Z, bs "China Unicom"); (1%Z, bs "China Mobile")].
Example C40_witness : go_map two_prefixes /\ within_limits (map snd two_prefixes) (length two_prefixes)
  /\ exists b t, renderPrefixMap two_prefixes = Ret b /\ LoadPrefixMap digits b = Ret t /\ look t 86130 = Some (bs "China Unicom") /\ t_max t = 5%Z.
Proof.
  split; [|split].
  - split; [repeat constructor; simpl; intuition discriminate|]. intros k v [H|[H|[H|[]]]]; injection H as <- _; lia.
  - split; try (vm_compute; congruence). intros v V I. vm_compute in V. repeat (destruct V as [<-|V]; [vm_compute in I; intuition discriminate|]). destruct V.
  - do 2 eexists. repeat split; vm_compute; reflexivity.
Qed.

(** * C49: a table says what its source files say *)
Theorem C49_prefix_files : forall dc files m b strings, readMappingsForDir files = Ret m -> renderPrefixMap m = Ret b -> buildPrefix files = Ret b /\
  ((forall k v, In (k, v) m -> In v strings) -> (forall v, In v strings -> ~ In 10 v) -> N.of_nat (length strings) <= 65536 -> N.of_nat (length (concat strings) + length strings) <= 2 ^ 32 -> N.of_nat (length m) < 2 ^ 32 ->
   exists t, LoadPrefixMap dc b = Ret t /\
     forall k v, look t k = Some v <-> exists f line, In f files /\ In line (lines f) /\ says line k v /\ blank v = false).
Proof.
  intros dc files m b strings E B. split; [unfold buildPrefix; rewrite E; exact B|]. intros S L S1 S2 S3. destruct (read_dir_spec files m E) as (G & _ & I).
  destruct (prefix_round_trip dc m b G (or_intror (ex_intro _ strings (conj S (Build_within_limits _ _ S3 S1 S2 L)))) B) as (t & T & R & _). exists t. split; [exact T|]. intros k v. rewrite (R k v). apply I.
Qed.
Print Assumptions C49_prefix_files.
(** Two lines with the same prefix, even if they agree, are an error: nothing is silently overwritten. *)
Theorem C49_no_conflict : forall files m k v v', readMappingsForDir files = Ret m ->
  (exists f line, In f files /\ In line (lines f) /\ says line k v /\ blank v = false) -> (exists f line, In f files /\ In line (lines f) /\ says line k v' /\ blank v' = false) -> v = v'.
Proof.
  intros files m k v v' E H H'. destruct (read_dir_spec files m E) as ((D & _) & _ & I). apply I in H, H'. apply (assocz_nodup m k v D) in H. apply (assocz_nodup m k v' D) in H'. congruence.
Qed.
Print Assumptions C49_no_conflict.
(** In the timezone file the last line about a prefix counts. *)
Theorem C49_timezone_file : forall dc body m b strings, foldM read_zones [] (lines body) = Ret m -> renderMap m = Ret b -> buildTimezone body = Ret b /\
  (strings_in strings m -> within_limits strings (length m) -> (forall k zs, In (k, zs) m -> (length zs <= 255)%nat) ->
   exists t, LoadIntArrayMap dc b = Ret t /\ forall k zs, look t k = Some zs <-> exists v, last_says (lines body) k v /\ zs = split_byte v 38).
Proof.
  intros dc body m b strings E B. split; [unfold buildTimezone; unfold lines in E; rewrite E; exact B|]. intros S W L. destruct (read_zone_lines _ _ E) as (D & I).
  assert (G : go_map m). { split; [exact D|]. intros k zs H. apply I in H as (v & (l1 & x & l2 & _ & (p & _ & _ & _ & A) & _) & _). eapply atoi_range. exact A. }
  destruct (array_round_trip dc m strings b G L S W B) as (t & T & R & _). exists t. split; [exact T|]. intros k zs. rewrite (R k zs). apply I.
Qed.
Print Assumptions C49_timezone_file.
Definition tz_text : bytes := Eval vm_compute in bs "# comment
1|America/New_York&America/Chicago
1201|America/New_York

1|America/Denver".
Example C49_witness : exists b t, buildTimezone tz_text = Ret b /\ LoadIntArrayMap digits b = Ret t /\ look t 1 = Some [bs "America/Denver"] /\ look t 1201 = Some [bs "America/New_York"]
  /\ exists c u, buildPrefix [bs "8210|KT
8211|SK"; bs "# none
8216| LG "] = Ret c /\ LoadPrefixMap digits c = Ret u /\ look u 8216 = Some (bs " LG ") /\ buildPrefix [bs "1|a"; bs "1|a"] = Fail ErrOther.
Proof. do 2 eexists. do 4 (split; [vm_compute; reflexivity|]). do 2 eexists. repeat split; vm_compute; reflexivity. Qed.

(** * C38: longest match *)
Definition digit_string (ds : bytes) : Prop := (forall c, In c ds -> 48 <= c <= 57) /\ hd 0 ds <> 48.
Lemma digit_string_all ds : digit_string ds -> all_digits ds = true.
Proof. intros (D & _). apply forallb_forall. intros c C. apply is_digit_iff. auto. Qed.
Theorem C38_value_for : forall m t ds, represents (look t) m -> digit_string ds ->
  (exists k v, longest_key m (fun k => digits k <= 9)%Z ds k /\ In (k, v) m /\ value_for (Some t) 10 (bs "+" ++ ds) = Ret (v, k))
  \/ ((forall k, In k (map fst m) -> (digits k <= 9)%Z -> ~ starts (itoa k) ds) /\ value_for (Some t) 10 (bs "+" ++ ds) = Ret ([], 0%Z)).
Proof.
  intros m t ds R S. pose proof (digit_string_all ds S) as D. destruct S as (_ & H). unfold value_for. change (bs "+" ++ ds) with (43 :: ds).
  replace (Nat.min 10 (len (43 :: ds))) with (Datatypes.S (Nat.min 9 (length ds))) by (unfold len; simpl; lia).
  destruct (prefix_loop_spec (look t) m ds 9 (Nat.min 9 (length ds)) R D H) as [(k & v & L & F & E)|(Nn & E)]; try lia.
  - intros k K Sk Lk. apply (prefix_key ds k D H) in Sk as (j & J & _ & Ej). rewrite Ej, firstn_length in *. lia.
  - left. exists k, v. split; [|split; [apply R; exact F|exact E]]. destruct L as (L1 & L2 & L3 & L4). unfold digits. split; [exact L1|]. split; [lia|]. split; [exact L3|]. intros k' K' O'. apply L4; [exact K'|lia].
  - right. split; [|exact E]. intros k K Lk Sk. specialize (Nn k K Sk). unfold digits in Lk. lia.
Qed.
Print Assumptions C38_value_for.
(** Prefixes of ten digits are never found. *)
Theorem C38_long_prefix_refuted : exists m t ds, represents (look t) m /\ digit_string ds /\ (exists k, longest_key m (fun _ => True) ds k) /\ value_for (Some t) 10 (bs "+" ++ ds) = Ret ([], 0%Z).
Proof.
  exists [(1234567890%Z, bs "x")], (mkTable [(1234567890%Z, bs "x")] 10%Z), (bs "12345678901"). split; [|split; [|split]].
  - intros k v. unfold look, assocz. cbn [t_map assoc]. destruct (Z.eqb_spec k 1234567890) as [->|Ne]; split; intros H.
    + injection H as <-. left. reflexivity.
    + destruct H as [H|[]]. injection H as <-. reflexivity.
    + discriminate.
    + destruct H as [H|[]]. congruence.
  - split; [|discriminate]. intros c C. vm_compute in C. repeat (destruct C as [<-|C]; [lia|]). destruct C.
  - exists 1234567890%Z. split; [left; reflexivity|]. split; [exact I|]. split; [exists (bs "1"); reflexivity|]. intros k' [<-|[]] _ _. apply Nat.le_refl.
  - vm_compute. reflexivity.
Qed.
Print Assumptions C38_long_prefix_refuted.

(** What the number is looked up by. *)
Definition e164_digits (n : phone) : bytes := itoa (cc_of n) ++ GetNationalSignificantNumber n.
Lemma e164_digit_string n : (0 < cc_of n)%Z -> digit_string (e164_digits n).
Proof.
  intros H. unfold e164_digits. rewrite itoa_pos by exact H. destruct (dec_head (Z.to_N (cc_of n)) ltac:(lia)) as (d & t & E & B). split.
  - intros c C. apply in_app_iff in C as [C|C]; [eapply all_digits_In; [apply dec_digits|exact C]|]. rewrite nsn_eq in C. apply in_app_iff in C as [C|C]; [apply repeat_spec in C; lia|]. eapply all_digits_In; [apply dec_digits|exact C].
  - rewrite E. simpl. lia.
Qed.
Lemma value_of_eq dc fs lang ml e f t : fs lang = f -> load_language dc f = Ret t -> value_of dc fs lang ml e = bind (value_for t ml e) (fun r => Ret (fst r)).
Proof. intros <- E. unfold value_of, ValueForNumber, lazyLoadPrefixes. cbn [assocb assoc]. rewrite E. reflexivity. Qed.
Theorem C38_carrier : forall C dc fs lang n s t m, fs lang = FileData s -> LoadPrefixMap dc s = Ret t -> represents (look t) m -> nn_of n <> 0 -> (0 < cc_of n)%Z ->
  (exists k v, longest_key m (fun k => digits k <= 9)%Z (e164_digits n) k /\ In (k, v) m /\ carrier_GetNameForValidNumber C dc fs n lang = Ret v)
  \/ ((forall k, In k (map fst m) -> (digits k <= 9)%Z -> ~ starts (itoa k) (e164_digits n)) /\ carrier_GetNameForValidNumber C dc fs n lang = Ret []).
Proof.
  intros C dc fs lang n s t m F L R N0 Cc. unfold carrier_GetNameForValidNumber. rewrite C06_e164 by auto. cbn [bind]. fold (e164_digits n).
  rewrite (value_of_eq dc fs lang 10 _ (FileData s) (Some t) F) by (simpl; rewrite L; reflexivity).
  destruct (C38_value_for m t (e164_digits n) R (e164_digit_string n Cc)) as [(k & v & Lk & I & E)|(Nn & E)]; rewrite E; cbn [bind fst]; [left; exists k, v; auto|right; auto].
Qed.
Print Assumptions C38_carrier.
Theorem C38_no_language : forall C dc fs lang n, fs lang = NoFile -> carrier_GetNameForValidNumber C dc fs n lang = Ret [].
Proof.
  intros C dc fs lang n F. unfold carrier_GetNameForValidNumber. rewrite format_e164. cbn [bind]. rewrite (value_of_eq dc fs lang 10 _ NoFile None F eq_refl). reflexivity.
Qed.
Print Assumptions C38_no_language.

(** Time zones. *)
Theorem C38_timezone : forall C t m n, represents (look t) m -> (forall k, In k (map fst m) -> digits k <= t_max t)%Z -> (t_max t <= 18)%Z -> nn_of n <> 0 -> (0 < cc_of n)%Z ->
  (exists k zs, longest_key m (fun _ => True) (e164_digits n) k /\ In (k, zs) m /\ GetTimeZonesForGeographicalNumber C (Ret t) n = Ret zs)
  \/ ((forall k, In k (map fst m) -> ~ starts (itoa k) (e164_digits n)) /\ GetTimeZonesForGeographicalNumber C (Ret t) n = Ret [bs "Etc/Unknown"]).
Proof.
  intros C t m n R K T N0 Cc. unfold GetTimeZonesForGeographicalNumber. rewrite C06_e164 by auto. cbn [bind]. fold (e164_digits n). unfold lookupTimeZones. cbv zeta.
  pose proof (e164_digit_string n Cc) as S. pose proof (digit_string_all _ S) as D. destruct S as (_ & H). set (ds := e164_digits n) in *. clearbody ds.
  assert (Tr : trim_plus (bs "+" ++ ds) = ds) by (change (trim_plus (bs "+" ++ ds)) with (trim_plus ds); apply trim_plus_digits; exact D). rewrite Tr.
  destruct (tz_loop_spec (look t) m ds (Z.to_nat (Z.min (Z.of_nat (len ds)) (t_max t))) R D H) as [(k & v & L & F & E)|(Nn & E)]; unfold len; try lia.
  - intros k Kk Sk. specialize (K k Kk). apply (prefix_key ds k D H) in Sk as (j & J & _ & Ej). unfold digits in K. rewrite Ej, firstn_length in *. lia.
  - left. exists k, v. split; [exact L|]. split; [apply R; exact F|exact E].
  - right. split; [exact Nn|exact E].
Qed.
Print Assumptions C38_timezone.
Lemma nodup_tz : NoDup (map fst (rev (t_map shipped_tz))).
Proof.
  assert (S : forall l a, (fix up (a : Z) l := match l with [] => true | x :: r => (a <? x)%Z && up x r end) a l = true -> (forall x, In x l -> a < x)%Z /\ NoDup l).
  { induction l as [|x r IH]; intros a H; [split; [intros x []|constructor]|]. apply andb_true_iff in H as [H1 H2]. destruct (IH x H2) as (F & Nd). split; [intros y [<-|Y]; [lia|specialize (F y Y); lia]|]. constructor; [|exact Nd]. intros I. specialize (F x I). lia. }
  apply (S (map fst (rev (t_map shipped_tz))) (-1)%Z). vm_cast_no_check (eq_refl true).
Qed.
Lemma tz_represents : represents (look shipped_tz) (t_map shipped_tz).
Proof. intros k v. unfold look. apply assocz_nodup. rewrite <- (rev_involutive (t_map shipped_tz)), map_rev. apply NoDup_rev. exact nodup_tz. Qed.
Lemma tz_lengths : forallb (fun e => (digits (fst e) <=? 9)%Z) (t_map shipped_tz) = true /\ t_max shipped_tz = 9%Z.
Proof. split; [vm_cast_no_check (eq_refl true)|vm_compute; reflexivity]. Qed.
(** The shipped file, with any digit counter that is right below 10^9. *)
Theorem C38_timezone_shipped : forall C dc n, (forall k, (0 <= k < 1000000000)%Z -> dc k = digits k) -> nn_of n <> 0 -> (0 < cc_of n)%Z ->
  (exists k zs, longest_key (t_map shipped_tz) (fun _ => True) (e164_digits n) k /\ In (k, zs) (t_map shipped_tz) /\ GetTimeZonesForGeographicalNumber C (LoadIntArrayMap dc shipped_tz_blob) n = Ret zs)
  \/ ((forall k, In k (map fst (t_map shipped_tz)) -> ~ starts (itoa k) (e164_digits n)) /\ GetTimeZonesForGeographicalNumber C (LoadIntArrayMap dc shipped_tz_blob) n = Ret [bs "Etc/Unknown"]).
Proof.
  intros C dc n Dc N0 Cc. rewrite (shipped_tz_loads dc Dc). destruct tz_lengths as (TL & TM). apply C38_timezone; auto; [exact tz_represents| |rewrite TM; lia].
  intros k K. apply in_map_iff in K as (e & <- & I). rewrite forallb_forall in TL. specialize (TL e I). rewrite TM. lia.
Qed.
Print Assumptions C38_timezone_shipped.
Definition sydney : phone := {| p_cc := Some 61%Z; p_nn := Some 255501234; p_ext := None; p_ilz := None; p_nlz := None; p_raw := None; p_src := None; p_carrier := None |}.
Definition seoul : phone := {| p_cc := Some 82%Z; p_nn := Some 1012345678; p_ext := None; p_ilz := None; p_nlz := None; p_raw := None; p_src := None; p_carrier := None |}.
Example C38_witness : GetTimeZonesForGeographicalNumber shipped (Ret shipped_tz) sydney = Ret [bs "Australia/Sydney"]
  /\ (exists t, LoadPrefixMap digits carrier_ko_blob = Ret t /\ t_max t = 7%Z)
  /\ carrier_GetNameForValidNumber shipped digits (fun _ => FileData carrier_ko_blob) (set_nn seoul (Some 1123456789)) (bs "ko") <> Ret [].
Proof. split; [vm_compute; reflexivity|]. split; [eexists; split; vm_compute; reflexivity|]. vm_compute. discriminate. Qed.

(** * C50: when a carrier name is given at all *)
Theorem C50_name : forall C dc fs n lang name, carrier_GetNameForNumber C dc fs n lang = Ret name -> name <> [] ->
  exists t, GetNumberType C n = Ret t /\ (t = MOBILE \/ t = FIXED_LINE_OR_MOBILE \/ t = PAGER) /\ carrier_GetNameForValidNumber C dc fs n lang = Ret name.
Proof.
  intros C dc fs n lang name E Ne. unfold carrier_GetNameForNumber in E. apply bind_ret in E as (t & T & E). exists t. split; [exact T|]. destruct t; cbn [isMobile] in E; try (apply ret_inj in E; congruence); auto.
Qed.
Print Assumptions C50_name.
Theorem C50_safe_name : forall C dc fs n lang name, carrier_GetSafeDisplayName C dc fs n lang = Ret name -> name <> [] ->
  exists r, GetRegionCodeForNumber C n = Ret r /\ IsMobileNumberPortableRegion C r = false /\ carrier_GetNameForNumber C dc fs n lang = Ret name.
Proof.
  intros C dc fs n lang name E Ne. unfold carrier_GetSafeDisplayName in E. apply bind_ret in E as (r & R & E). exists r. split; [exact R|]. destruct (IsMobileNumberPortableRegion C r); [apply ret_inj in E; congruence|auto].
Qed.
Print Assumptions C50_safe_name.
(** Conversely: exactly the mobile types are looked up, and outside portable regions the safe name is the name. *)
Theorem C50_lookup : forall C dc fs n lang t, GetNumberType C n = Ret t ->
  ((t = MOBILE \/ t = FIXED_LINE_OR_MOBILE \/ t = PAGER) -> carrier_GetNameForNumber C dc fs n lang = carrier_GetNameForValidNumber C dc fs n lang) /\
  (~ (t = MOBILE \/ t = FIXED_LINE_OR_MOBILE \/ t = PAGER) -> carrier_GetNameForNumber C dc fs n lang = Ret []).
Proof.
  intros C dc fs n lang t T. unfold carrier_GetNameForNumber. rewrite T. cbn [bind]. split; intros H.
  - destruct H as [-> | [-> | ->]]; reflexivity.
  - destruct t; cbn [isMobile]; try reflexivity; exfalso; apply H; auto.
Qed.
Print Assumptions C50_lookup.
Theorem C50_portable : forall C dc fs n lang r, GetRegionCodeForNumber C n = Ret r -> r <> [] ->
  (In r (c_regions C) /\ (exists m, assocb r (c_region C) = Some m /\ md_mnp m = Some true) -> carrier_GetSafeDisplayName C dc fs n lang = Ret []) /\
  (~ (In r (c_regions C) /\ exists m, assocb r (c_region C) = Some m /\ md_mnp m = Some true) ->
     carrier_GetSafeDisplayName C dc fs n lang = carrier_GetNameForNumber C dc fs n lang).
Proof.
  intros C dc fs n lang r R Ne. unfold carrier_GetSafeDisplayName. rewrite R. cbn [bind].
  assert (B : IsMobileNumberPortableRegion C r = true <-> r <> [] /\ In r (c_regions C) /\ exists m, assocb r (c_region C) = Some m /\ md_mnp m = Some true).
  { unfold IsMobileNumberPortableRegion, getMetadataForRegion, mbool, isValidRegionCode. rewrite <- mem_bytes_iff.
    destruct r as [|c r]; cbn [is_empty negb andb].
    - split; [discriminate|intros (X & _); congruence].
    - destruct (mem_bytes (c :: r) (c_regions C)); [|split; [discriminate|intros (_ & X & _); discriminate X]].
      destruct (assocb (c :: r) (c_region C)) as [m|] eqn:A; cbn [mget get_bool].
      + split; [|intros (_ & _ & m' & X & Y)].
        * destruct (md_mnp m) as [[|]|] eqn:Y; cbn [get_bool]; intros X; try discriminate X. split; [discriminate|]. split; [reflexivity|]. exists m. auto.
        * assert (m' = m) by congruence. subst m'. rewrite Y. reflexivity.
      + split; [discriminate|]. intros (_ & _ & m' & X & _). discriminate X. }
  destruct (IsMobileNumberPortableRegion C r); split; intros H; auto.
  - exfalso. apply H. apply B. reflexivity.
  - exfalso. destruct H as (I & H). assert (X : false = true) by (apply B; auto). discriminate X.
Qed.
Print Assumptions C50_portable.
(** South Korea has no number portability flag... the name is shown; in the United Kingdom it is not. *)
Definition uk_mobile : phone := {| p_cc := Some 44%Z; p_nn := Some 7400123456; p_ext := None; p_ilz := None; p_nlz := None; p_raw := None; p_src := None; p_carrier := None |}.
Definition any_carrier (s : bytes) : file := match renderPrefixMap [(44%Z, bs "X"); (82%Z, bs "Y"); (380%Z, bs "Z"); (244%Z, bs "W")] with Ret b => FileData b | _ => NoFile end.
Definition angola_mobile : phone := {| p_cc := Some 244%Z; p_nn := Some 923123456; p_ext := None; p_ilz := None; p_nlz := None; p_raw := None; p_src := None; p_carrier := None |}.
Example C50_witness : carrier_GetNameForNumber shipped digits any_carrier uk_mobile (bs "en") = Ret (bs "X") /\ carrier_GetSafeDisplayName shipped digits any_carrier uk_mobile (bs "en") = Ret []
  /\ carrier_GetSafeDisplayName shipped digits any_carrier angola_mobile (bs "en") = Ret (bs "W").
Proof. split; [|split]; vm_compute; reflexivity. Qed.

(** * C51: names of countries in descriptions *)
(** The name of a country is given exactly if one and only one region of the calling code accepts the number; the order of the regions is irrelevant. *)
Definition accepts (C : container) (n : phone) (r : bytes) : Prop := IsValidNumberForRegion C n r = Ret true.
Lemma where_valid_some C n l w : wf_container C -> w <> bs "ZZ" -> (forall x, In x l -> x <> bs "ZZ") ->
  where_valid C n w l = Ret (Some w) /\ (forall x, In x l -> ~ accepts C n x) \/ where_valid C n w l = Ret None /\ exists x, In x l /\ accepts C n x.
Proof.
  intros W Nw. induction l as [|r l IH]; intros Z0; cbn [where_valid]; [left; split; [reflexivity|intros x []]|].
  pose proof (valid_for_region_spec C n r W) as (v & V & _). rewrite V. cbn [bind]. destruct v.
  - right. destruct (beq_spec w (bs "ZZ")); [congruence|]. split; [reflexivity|]. exists r. split; [left; auto|exact V].
  - destruct IH as [(E & H)|(E & x & X & A)]; [intros; apply Z0; right; auto|left|right]; (split; [exact E|]).
    + intros x [<-|X]; [unfold accepts; congruence|auto].
    + exists x. split; [right; auto|exact A].
Qed.
Lemma where_valid_none C n l : wf_container C -> NoDup l -> (forall x, In x l -> x <> bs "ZZ") ->
  (where_valid C n (bs "ZZ") l = Ret (Some (bs "ZZ")) /\ (forall x, In x l -> ~ accepts C n x))
  \/ (exists r, where_valid C n (bs "ZZ") l = Ret (Some r) /\ In r l /\ accepts C n r /\ forall x, In x l -> accepts C n x -> x = r)
  \/ (where_valid C n (bs "ZZ") l = Ret None /\ exists x y, In x l /\ In y l /\ x <> y /\ accepts C n x /\ accepts C n y).
Proof.
  intros W. induction l as [|r l IH]; intros D Z0; cbn [where_valid]; [left; split; [reflexivity|intros x []]|]. inversion_clear D as [|? ? D1 D2].
  pose proof (valid_for_region_spec C n r W) as (v & V & _). rewrite V. cbn [bind]. destruct v.
  - change (beq (bs "ZZ") (bs "ZZ")) with true. cbv iota. right. destruct (where_valid_some C n l r W) as [(E & H)|(E & x & X & A)]; [apply Z0; left; auto|intros; apply Z0; right; auto|left|right].
    + exists r. split; [exact E|]. split; [left; auto|]. split; [exact V|]. intros x [<-|X] A; [reflexivity|]. destruct (H x X A).
    + split; [exact E|]. exists r, x. split; [left; auto|]. split; [right; auto|]. split; [intros ->; contradiction|]. split; [exact V|exact A].
  - destruct IH as [(E & H)|[(r' & E & I & A & U)|(E & x & y & X & Y & Ne & A & B)]]; [exact D2|intros; apply Z0; right; auto|left|right; left|right; right].
    + split; [exact E|]. intros x [<-|X]; [unfold accepts; congruence|auto].
    + exists r'. split; [exact E|]. split; [right; auto|]. split; [exact A|]. intros x [<-|X] Ax; [unfold accepts in Ax; congruence|auto].
    + split; [exact E|]. exists x, y. split; [right; auto|]. split; [right; auto|]. auto.
Qed.
Theorem C51_country_name : forall C disp n lang l, wf_container C -> GetRegionCodesForCountryCode C (cc_of n) = l -> NoDup l -> length l <> 1%nat ->
  (forall x, In x l -> x <> bs "ZZ" /\ x <> bs "001" /\ x <> []) ->
  (forall r, In r l -> accepts C n r -> (forall x, In x l -> accepts C n x -> x = r) -> countryNameForNumber C disp n lang = Ret (disp r lang))
  /\ ((forall x, In x l -> ~ accepts C n x) \/ (exists x y, In x l /\ In y l /\ x <> y /\ accepts C n x /\ accepts C n y) -> countryNameForNumber C disp n lang = Ret []).
Proof.
  intros C disp n lang l W E D L1 Z0.
  assert (Q : countryNameForNumber C disp n lang = w <- where_valid C n (bs "ZZ") l ;; match w with None => Ret [] | Some r => Ret (regionDisplayName disp r lang) end).
  { unfold countryNameForNumber. change (get_cc n) with (cc_of n). rewrite E. destruct l as [|a [|b l]]; [reflexivity|simpl in L1; lia|reflexivity]. }
  rewrite Q. clear Q E. destruct (where_valid_none C n l W D) as [(E & H)|[(r & E & I & A & U)|(E & x & y & X & Y & Ne & A & B)]]; [intros x X; apply Z0; exact X| | |]; rewrite E; cbn [bind]; split.
  - intros r R A. destruct (H r R A).
  - reflexivity.
  - intros r' R' A' U'. rewrite (U r' R' A') in *. destruct (Z0 r I) as (Z1 & Z2 & Z3). unfold regionDisplayName. apply beq_neq in Z1, Z2. apply is_empty_false in Z3. change nonGeoEntity with (bs "001"). rewrite Z1, Z2, Z3. reflexivity.
  - intros [Nn|(x & y & X & Y & Ne & Ax & Ay)]; [destruct (Nn r I A)|]. exfalso. apply Ne. rewrite (U x X Ax), (U y Y Ay). reflexivity.
  - intros r R Ar U. exfalso. apply Ne. rewrite (U x X A), (U y Y B). reflexivity.
  - reflexivity.
Qed.
Print Assumptions C51_country_name.
(** Numbers of unknown type have no description; for a number of the user's own region with a known area the area is given. *)
Theorem C51_unknown : forall C dc fs disp n lang user, GetNumberType C n = Ret UNKNOWN ->
  geo_GetDescriptionForNumber C dc fs disp n lang = Ret [] /\ geo_GetDescriptionForNumberForUserRegion C dc fs disp n lang user = Ret [].
Proof. intros C dc fs disp n lang user E. unfold geo_GetDescriptionForNumber, geo_GetDescriptionForNumberForUserRegion. rewrite E. split; reflexivity. Qed.
Print Assumptions C51_unknown.
(** A geographical number of a country without mobile token: the longest known prefix decides, and only without one the country is named. *)
Theorem C51_area : forall C dc fs disp n lang s t m ty, fs lang = FileData s -> LoadPrefixMap dc s = Ret t -> represents (look t) m -> (forall k v, In (k, v) m -> v <> []) -> nn_of n <> 0 -> (0 < cc_of n)%Z ->
  GetNumberType C n = Ret ty -> ty <> UNKNOWN -> IsNumberGeographicalForType ty (cc_of n) = true -> GetCountryMobileToken (cc_of n) = [] ->
  (exists k v, longest_key m (fun k => digits k <= 9)%Z (e164_digits n) k /\ In (k, v) m /\ geo_GetDescriptionForNumber C dc fs disp n lang = Ret v)
  \/ ((forall k, In k (map fst m) -> (digits k <= 9)%Z -> ~ starts (itoa k) (e164_digits n)) /\ geo_GetDescriptionForNumber C dc fs disp n lang = countryNameForNumber C disp n lang).
Proof.
  intros C dc fs disp n lang s t m ty F L R Nv N0 Cc T Tu G Mt. unfold geo_GetDescriptionForNumber. rewrite T. cbn [bind]. change (get_cc n) with (cc_of n). rewrite G.
  assert (Q : forall (X Y : M bytes), match ty with UNKNOWN => X | _ => Y end = Y) by (intros X Y; destruct ty; congruence). rewrite Q. cbn [negb].
  unfold geo_GetDescriptionForValidNumber. cbv zeta. change (get_cc n) with (cc_of n). rewrite Mt. cbn [is_empty negb andb bind]. rewrite C06_e164 by auto. cbn [bind]. fold (e164_digits n).
  rewrite (value_of_eq dc fs lang 10 _ (FileData s) (Some t) F) by (simpl; rewrite L; reflexivity).
  destruct (C38_value_for m t (e164_digits n) R (e164_digit_string n Cc)) as [(k & v & Lk & I & E)|(Nn & E)]; rewrite E; cbn [bind fst].
  - left. exists k, v. split; [exact Lk|]. split; [exact I|]. specialize (Nv k v I). destruct v; [congruence|reflexivity].
  - right. split; [exact Nn|reflexivity].
Qed.
Print Assumptions C51_area.
Definition name_of (r lang : bytes) : bytes := r.
Definition us_number : phone := {| p_cc := Some 1%Z; p_nn := Some 6502530000; p_ext := None; p_ilz := None; p_nlz := None; p_raw := None; p_src := None; p_carrier := None |}.
Definition us_areas (s : bytes) : file := match renderPrefixMap [(1%Z, bs "NANPA"); (1650%Z, bs "California"); (1650253%Z, bs "Mountain View, CA"); (1212%Z, bs "New York, NY")] with Ret b => FileData b | _ => NoFile end.
Example C51_witness : countryNameForNumber shipped name_of us_number (bs "en") = Ret (bs "US") /\ length (GetRegionCodesForCountryCode shipped 1) = 25%nat
  /\ geo_GetDescriptionForNumber shipped digits us_areas name_of us_number (bs "en") = Ret (bs "Mountain View, CA")
  /\ geo_GetDescriptionForNumber shipped digits (fun _ => NoFile) name_of us_number (bs "en") = Ret (bs "US").
Proof. split; [|split; [|split]]; vm_compute; reflexivity. Qed.

(** * C52: time zones of the shipped table *)
(** Of a number whose calling code has time zones at all, the zones found through its digits are among those of the country. *)
Definition code_zones (tz : table (list bytes)) (codes : list Z) : list (Z * list bytes) := filter (fun e => memz (fst e) codes) (t_map tz).
Definition zones_within (cz : list (Z * list bytes)) (e : Z * list bytes) : bool :=
  forallb (fun j => match assocz (Z.of_N (dval (firstn j (itoa (fst e))))) cz with
                    | Some zs => (len (itoa (fst e)) <? j)%nat || forallb (fun z => mem_bytes z zs) (snd e)
                    | None => true
                    end) [1; 2; 3]%nat.
Definition all_within (tz : table (list bytes)) (codes : list Z) : bool := let cz := code_zones tz codes in forallb (zones_within cz) (t_map tz).
Lemma shipped_zones_within : all_within shipped_tz (map fst shipped_cc2region) = true.
Proof. vm_cast_no_check (eq_refl true). Qed.
Lemma assocz_filter {V} (p : Z -> bool) k (l : list (Z * V)) : p k = true -> assocz k (filter (fun e => p (fst e)) l) = assocz k l.
Proof.
  intros P. unfold assocz. induction l as [|[k' v] l IH]; simpl; [reflexivity|]. destruct (Z.eqb_spec k k') as [->|Ne].
  - rewrite P. simpl. rewrite Z.eqb_refl. reflexivity.
  - destruct (p k'); simpl; [destruct (Z.eqb_spec k k'); [congruence|exact IH]|exact IH].
Qed.
Lemma zones_of_country C tz codes n zs zc : all_within tz codes = true -> represents (look tz) (t_map tz) -> (t_max tz <= 18)%Z -> forallb (fun e => (digits (fst e) <=? t_max tz)%Z) (t_map tz) = true ->
  In (cc_of n) codes -> (0 < cc_of n < 1000)%Z -> nn_of n <> 0 -> look tz (cc_of n) = Some zc -> GetTimeZonesForGeographicalNumber C (Ret tz) n = Ret zs -> forall z, In z zs -> In z zc.
Proof.
  intros ZW Rp TM TL Ci Rg N0 Lc E z Z1. pose proof Lc as Ic. unfold look in Ic. apply assocz_In in Ic.
  assert (Kc : In (cc_of n) (map fst (t_map tz))) by (apply in_map_iff; exists (cc_of n, zc); split; [reflexivity|exact Ic]).
  destruct (C38_timezone C tz (t_map tz) n Rp) as [(k & zs' & (K1 & _ & K3 & K4) & I & E')|(Nn & _)]; [|exact TM|exact N0|lia| |].
  { intros k K. apply in_map_iff in K as (e & <- & I). rewrite forallb_forall in TL. specialize (TL e I). lia. }
  2: { exfalso. apply (Nn (cc_of n) Kc). exists (GetNationalSignificantNumber n). reflexivity. }
  rewrite E in E'. apply ret_inj in E'. subst zs'. unfold all_within in ZW. cbv zeta in ZW. rewrite forallb_forall in ZW. specialize (ZW _ I). unfold zones_within in ZW. rewrite forallb_forall in ZW.
  assert (Lk : (length (itoa (cc_of n)) <= length (itoa k))%nat). { apply K4; [exact Kc|auto|exists (GetNationalSignificantNumber n); reflexivity]. }
  assert (Pf : firstn (length (itoa (cc_of n))) (itoa k) = itoa (cc_of n)).
  { destruct K3 as (r & K3). unfold e164_digits in K3. apply (f_equal (firstn (length (itoa (cc_of n))))) in K3. rewrite firstn_app, firstn_all, Nat.sub_diag, firstn_O, app_nil_r in K3. rewrite firstn_app in K3.
    replace (length (itoa (cc_of n)) - length (itoa k))%nat with 0%nat in K3 by lia. rewrite firstn_O, app_nil_r in K3. auto. }
  assert (J : In (length (itoa (cc_of n))) [1; 2; 3]%nat).
  { rewrite itoa_pos by lia. pose proof (dec_length_le (Z.to_N (cc_of n)) 3 ltac:(lia) ltac:(change (10 ^ N.of_nat 3) with 1000; lia)). destruct (dec (Z.to_N (cc_of n))) as [|a [|b [|c [|d l]]]] eqn:Q; [apply dec_nonempty in Q; destruct Q|left; reflexivity|right; left; reflexivity|right; right; left; reflexivity|simpl in H; lia]. }
  specialize (ZW _ J). cbn [fst snd] in ZW. rewrite Pf in ZW. rewrite (itoa_pos (cc_of n)) in ZW by lia. rewrite dval_dec, Z2N.id in ZW by lia.
  unfold code_zones in ZW. rewrite (assocz_filter (fun x => memz x codes)) in ZW by (apply memz_iff; exact Ci). unfold look in Lc. rewrite Lc in ZW.
  apply orb_true_iff in ZW as [ZW|ZW]. { apply Nat.ltb_lt in ZW. rewrite itoa_pos in Lk by lia. unfold len in ZW. lia. }
  rewrite forallb_forall in ZW. apply mem_bytes_iff. apply ZW. exact Z1.
Qed.
Theorem C52_zones_of_country : forall C n zs zc, hasValidCountryCallingCode shipped (cc_of n) = true -> nn_of n <> 0 -> look shipped_tz (cc_of n) = Some zc ->
  GetTimeZonesForGeographicalNumber C (Ret shipped_tz) n = Ret zs -> forall z, In z zs -> In z zc.
Proof.
  intros C n zs zc V N0 Lc E.
  assert (Ci : In (cc_of n) (map fst shipped_cc2region)).
  { unfold hasValidCountryCallingCode in V. change (c_cc2region shipped) with shipped_cc2region in V. destruct (assocz (cc_of n) shipped_cc2region) eqn:A; [|discriminate]. apply assocz_In in A. apply in_map_iff. eexists. split; [|exact A]. reflexivity. }
  assert (Rg : (0 < cc_of n < 1000)%Z). { apply in_map_iff in Ci as ([c l] & Ec & I). simpl in Ec. subst c. apply (wf_cc shipped shipped_wf _ _ I). }
  destruct tz_lengths as (TL & TM).
  refine (zones_of_country C shipped_tz (map fst shipped_cc2region) n zs zc shipped_zones_within tz_represents _ _ Ci Rg N0 Lc E); [rewrite TM; lia|].
  rewrite TM. exact TL.
Qed.
Print Assumptions C52_zones_of_country.
(** Every geographical calling code has zones, so only the non-geographical ones give "Etc/Unknown". *)
Theorem C52_codes_known : forall cc l, In (cc, l) shipped_cc2region -> l <> [bs "001"] -> exists zs, lookupTimeZones (Ret shipped_tz) (itoa cc) = Ret zs /\ zs <> [] /\ zs <> [bs "Etc/Unknown"].
Proof.
  assert (Chk : forallb (fun e => match snd e with [r] => beq r (bs "001") | _ => false end || match lookupTimeZones (Ret shipped_tz) (itoa (fst e)) with Ret [] => false | Ret zs => negb (match zs with [z] => beq z (bs "Etc/Unknown") | _ => false end) | _ => false end) shipped_cc2region = true) by (vm_cast_no_check (eq_refl true)).
  intros cc l I Ne. rewrite forallb_forall in Chk. specialize (Chk _ I). cbn [fst snd] in Chk. apply orb_true_iff in Chk as [H|H].
  - exfalso. apply Ne. destruct l as [|r [|r' l]]; try discriminate. apply beq_eq in H. congruence.
  - destruct (lookupTimeZones (Ret shipped_tz) (itoa cc)) as [[|z zs]| |]; try discriminate. exists (z :: zs). split; [reflexivity|]. split; [discriminate|]. intros Q. injection Q as -> ->. discriminate.
Qed.
Print Assumptions C52_codes_known.
Example C52_witness : hasValidCountryCallingCode shipped (cc_of sydney) = true /\ (exists zc, look shipped_tz (cc_of sydney) = Some zc /\ length zc = 8%nat) /\ GetTimeZonesForNumber shipped (Ret shipped_tz) sydney = Ret [bs "Australia/Sydney"].
Proof. split; [vm_compute; reflexivity|]. split; [eexists; split; vm_compute; reflexivity|vm_compute; reflexivity]. Qed.
