(** C95: a number shown in the format it was typed in still means the same. *)
From Verif Require Import Base BaseFacts Utf8 Utf8Facts Regex RegexSpec RegexFacts LangFacts Consts Types Normalize NormalizeSpec NormalizeFacts Validate Format Parse
  NumberSpec NumberFacts MetaSpec ValidateSpec ValidateFacts Container Shipped MetaFacts FormatSpec TextFacts FormatFacts FormatMore ParseSpec ParseFacts ParseMore ContextFacts
  RoundSpec DerivFacts MatcherTotal RoundTripFacts PropsNumber PropsValidate PropsFormat PropsRound RuleSpec RuleFacts RuleMore PropsRule DialSpec DialFacts PropsDial ReadSpec ReadFacts ReadMore PropsRead ExtSpec ExtFacts BackFacts PropsBack NationalFacts NationalMore PropsNational PropsTotal PropsParse PropsMobile.
Local Opaque compile re_find re_replace_all.

(** Digits and gaps, a digit at the end. *)
Definition plainly (t : bytes) : Prop := forallb head_char t = true /\ (length t <= 250)%nat /\ exists a c, t = a ++ [c] /\ is_digit c = true.
Lemma plainly_core C t r : plainly t -> (3 <= length (filter dig t))%nat -> parse_core C t r true = parse_core C (filter dig t) r true.
Proof.
  intros (Hh & L & a & c & -> & Dc) L3. rewrite forallb_app in Hh. apply andb_prop in Hh as [Ha _].
  assert (Dg : dig c = true) by (apply is_digit_iff in Dc; apply dig_iff; lia).
  assert (F : filter dig (a ++ [c]) = filter dig a ++ [c]) by (rewrite filter_app; cbn [filter]; rewrite Dg; reflexivity). rewrite F in *.
  apply (shown_core C a [c] [c] r); auto; [unfold all_digits; cbn [forallb]; rewrite Dc; reflexivity|discriminate|apply neat_refl].
Qed.
Lemma gap_head c : gap_char c = true -> head_char c = true. Proof. unfold head_char. intros ->. apply orb_true_r. Qed.
Lemma woven_head s o : all_digits s = true -> woven gap_char s o -> forallb head_char o = true.
Proof.
  intros D W. induction W as [|c w o W IH|c w o G W IH]; [reflexivity| |].
  - unfold all_digits in D. cbn [forallb] in *. apply andb_prop in D as [D1 D2]. rewrite IH by exact D2. unfold head_char. rewrite D1. reflexivity.
  - cbn [forallb]. rewrite (gap_head _ G), (IH D). reflexivity.
Qed.
Lemma last_digit s : all_digits s = true -> s <> [] -> is_digit (last s 0) = true.
Proof. intros D N0. unfold all_digits in D. rewrite forallb_forall in D. apply D. rewrite (app_removelast_last 0 N0) at 2. apply in_or_app. right. left. reflexivity. Qed.
Lemma shown_plainly h s b : forallb head_char h = true -> all_digits s = true -> s <> [] -> (length s <= 17)%nat -> (length h <= 40)%nat -> neat s b -> plainly (h ++ b).
Proof.
  intros Hh D N0 Ls Lh (W & Lb & La). split; [rewrite forallb_app, Hh; exact (woven_head _ _ D W)|]. split; [rewrite app_length; lia|].
  destruct (La N0) as (o' & ->). exists (h ++ o'), (last s 0). split; [apply app_assoc|exact (last_digit _ D N0)].
Qed.
Lemma head_digits w : all_digits w = true -> forallb head_char w = true.
Proof. intros Hw. apply forallb_forall. intros c I. unfold all_digits in Hw. rewrite forallb_forall in Hw. unfold head_char. rewrite (Hw c I). reflexivity. Qed.

(** The rules of all calling codes but 54 put only digits and gaps into the text. *)
Definition plain_rules (C : container) (cc : Z) : bool := match main_meta C cc with Some m => forallb (fun f => rule_plain f && rule_tame f) (md_nf m) | None => true end.
Lemma shipped_plain_rules : forallb (fun e => Z.eqb (fst e) 54 || plain_rules shipped (fst e)) (c_cc2region shipped) = true.
Proof. vm_cast_no_check (eq_refl true). Qed.
Lemma cc_plain C n : forallb (fun e => Z.eqb (fst e) 54 || plain_rules C (fst e)) (c_cc2region C) = true -> hasValidCountryCallingCode C (cc_of n) = true -> cc_of n <> 54%Z -> plain_rules C (cc_of n) = true.
Proof.
  intros B V N5. unfold hasValidCountryCallingCode in V. destruct (assocz (cc_of n) (c_cc2region C)) as [l|] eqn:E; [|discriminate]. apply assocz_In in E. rewrite forallb_forall in B. specialize (B _ E). cbn [fst] in B.
  apply orb_prop in B as [B|B]; [apply Z.eqb_eq in B; congruence|exact B].
Qed.
Section Texts.
Variables (C : container) (n : phone).
Hypothesis (W : wf_container C) (RF : rules_fine C) (RT : rules_tame C) (V : hasValidCountryCallingCode C (cc_of n) = true) (R : printed_raw n = false) (X : ext_of n = []) (PR : plain_rules C (cc_of n) = true)
  (L : (2 <= length (GetNationalSignificantNumber n) <= 17)%nat).
Let s := GetNationalSignificantNumber n.
Lemma s_some : s <> []. Proof. intros E. unfold s in E. rewrite E in L. cbn [length] in L. lia. Qed.
Lemma main_plain m f : main_entry C (cc_of n) m -> In f (md_nf m) -> rule_plain f = true /\ rule_tame f = true.
Proof.
  intros Me I. destruct (main_entry_ok C _ W V) as (m' & Me' & Em' & _). pose proof (entry_unique _ _ _ _ Me Me'). subst m'. pose proof PR as Q. unfold plain_rules in Q. rewrite Em' in Q. rewrite forallb_forall in Q. specialize (Q f I). apply andb_prop in Q. exact Q.
Qed.
Lemma national_plainly t h : Format C n NATIONAL = Ret t -> forallb head_char h = true -> (length h <= 30)%nat -> plainly (h ++ t).
Proof.
  intros F Hh Lh. destruct (format_rule C n NATIONAL W RF R (or_introl eq_refl) V) as (m & o & Me & (ro & Fa & Po) & F'). rewrite F in F'. injection F' as ->. rewrite X. cbn [extension_text prefixNumberWithCountryCallingCode]. rewrite app_nil_r.
  destruct ro as [f|].
  - destruct Po as (x & t & Cx & Tt & ->). destruct Fa as (pre & post & El & Ap & _). destruct (main_plain m f Me) as [Rp _]; [cbn [rules] in El; rewrite El; apply in_or_app; right; left; reflexivity|].
    destruct (rule_shape f x t s Rp Cx Tt Ap (nsn_digits n) (proj2 L)) as (body & E & Nb & Hr & Lr). fold s. rewrite E. rewrite app_assoc. apply (shown_plainly (h ++ rule_head f) s body); auto; [rewrite forallb_app, Hh, Hr; reflexivity|apply nsn_digits|apply s_some|unfold s; lia|rewrite app_length; lia].
  - subst o. apply (shown_plainly h s s); auto; [apply nsn_digits|apply s_some|unfold s; lia|lia|apply neat_refl].
Qed.
Lemma international_plainly c t h : Format C n INTERNATIONAL = Ret (c :: t) -> forallb head_char h = true -> (length h <= 30)%nat -> plainly (h ++ t).
Proof.
  intros F Hh Lh. destruct (format_rule C n INTERNATIONAL W RF R (or_intror eq_refl) V) as (m & body & Me & P & F'). rewrite F in F'. rewrite X in F'. cbn [extension_text] in F'. rewrite app_nil_r in F'.
  change (prefixNumberWithCountryCallingCode (cc_of n) INTERNATIONAL body) with (43 :: itoa (cc_of n) ++ 32 :: body) in F'. injection F' as _ ->.
  destruct (main_entry_ok C _ W V) as (m' & Me' & Em' & _). pose proof (entry_unique _ _ _ _ Me Me'). subst m'. apply main_meta_in in Em'. pose proof (printed_neat m _ _ (RT m Em') P) as Nb.
  pose proof (valid_cc_pos _ _ W V) as Pos. destruct (itoa_len _ Pos) as [Da La].
  replace (h ++ itoa (cc_of n) ++ 32 :: body) with ((h ++ itoa (cc_of n) ++ [32]) ++ body) by (rewrite <- !app_assoc; reflexivity).
  apply (shown_plainly _ s body); auto; [rewrite !forallb_app, Hh, (head_digits _ Da); reflexivity|apply nsn_digits|apply s_some|unfold s; lia|rewrite !app_length; cbn [length]; lia].
Qed.
Lemma typed_plainly t : typed_national C n t -> plainly t.
Proof.
  intros [(f & m & x & PU & Cx & ->)|(_ & F)]; [|exact (national_plainly t [] F eq_refl ltac:(cbn; lia))].
  change (get_ext n) with (ext_of n). rewrite X. cbn [extension_text]. rewrite app_nil_r. destruct PU as (r & rest & np & u & v & A & Nr & Am & _ & _ & _ & (pre & post & El & Ap & _) & _).
  assert (Me : main_entry C (cc_of n) m).
  { exists r, rest. split; [exact A|]. unfold meta_of. change nonGeoEntity with (bs "001"). destruct (beq r (bs "001")) eqn:E; [apply beq_eq in E; congruence|]. exact Am. }
  destruct (main_plain m f Me) as [_ Rt]; [rewrite El; apply in_or_app; right; left; reflexivity|].
  unfold rule_tame in Rt. rewrite Cx in Rt. apply (shown_plainly [] s _ eq_refl (nsn_digits n) s_some (proj2 L) ltac:(cbn; lia)). apply replace_all_neat. exact Rt.
Qed.
End Texts.

(** Where the calling code of a successful reading came from is always recorded. *)
Lemma finished_src m s src cc src' cc' nsn c : finished m s src cc (Means src' cc' nsn c) -> src' = src.
Proof. intros [(_ & H)|(_ & nsn' & c' & _ & H)]; [discriminate|]. destruct (_ <? _)%nat; [discriminate|]. destruct (_ <? _)%nat; [discriminate|]. congruence. Qed.
Lemma abroad_src C rest src src' cc nsn c : abroad C rest src (Means src' cc nsn c) -> src' = src.
Proof. intros [(_ & H)|(_ & cc' & t & mm & _ & _ & H)]; [discriminate|]. exact (finished_src _ _ _ _ _ _ _ _ H). Qed.
Lemma reads_src C m d src cc nsn c : reads C m d (Means src cc nsn c) -> src <> UNSPECIFIED.
Proof.
  intros [(rest & _ & [H|(_ & H)])|(_ & [(core & mm & _ & _ & H)|(_ & H)])]; [apply abroad_src in H|discriminate H|apply finished_src in H|apply finished_src in H]; subst src; discriminate.
Qed.
Lemma reads_plus_src C dm d src cc nsn c : reads_plus C dm d (Means src cc nsn c) -> src <> UNSPECIFIED.
Proof.
  intros [H|(_ & [(m & rest & _ & _ & [H|(_ & H)])|[(m & core & mm & _ & _ & _ & _ & H)|(_ & H)]])]; try discriminate H; [apply abroad_src in H|apply abroad_src in H|apply finished_src in H]; subst src; discriminate.
Qed.
Lemma only_all s : all_digits (only_digits s) = true.
Proof. apply forallb_forall. intros c I. apply filter_In in I as [_ I]. apply dig_iff in I. apply is_digit_iff. lia. Qed.
Lemma spaced_dialled s : spaced s -> filter diallable s = only_digits s.
Proof.
  intros S. unfold only_digits. rewrite <- (filter_runes diallable s).
  - apply filter_ext_in. intros c I. destruct (S c I) as [H|H]; [rewrite (digit_diallable c) by (apply is_digit_iff; lia); symmetry; apply (proj2 (dig_iff c)); lia|].
    assert (B : forallb (fun c => negb (diallable c) && negb ((48 <=? c) && (c <=? 57))) separators = true) by reflexivity. rewrite forallb_forall in B. apply B in H. apply andb_prop in H as [H1 H2]. apply negb_true_iff in H1, H2. congruence.
  - intros c H. unfold diallable in H. apply existsb_exists in H as (b & I & E). apply N.eqb_eq in E. subst b.
    assert (B : forallb (fun c => c <? 128) (bs "0123456789+*#") = true) by reflexivity. rewrite forallb_forall in B. apply N.ltb_lt. exact (B c I).
Qed.
Lemma exits_short r m : assocb r (c_region shipped) = Some m -> (length (exit_prefix m) <= 20)%nat.
Proof.
  assert (B : forallb (fun rm => (length (exit_prefix (snd rm)) <=? 20)%nat) (c_region shipped) = true) by (vm_cast_no_check (eq_refl true)).
  intros E. rewrite forallb_forall in B. specialize (B _ (assocb_In _ _ _ E)). cbn [snd] in B. apply Nat.leb_le in B. exact B.
Qed.
Lemma plainly_dialled t : plainly t -> filter diallable t = filter dig t. Proof. intros (H & _). exact (head_dialled t H). Qed.
Lemma filter_all_digits t : all_digits (filter dig t) = true.
Proof. apply forallb_forall. intros c I. apply filter_In in I as [_ I]. apply dig_iff in I. apply is_digit_iff. lia. Qed.
Lemma plainly_some t : plainly t -> t <> []. Proof. intros (_ & _ & a & c & -> & _) E. destruct a; discriminate. Qed.

(** The text for the way the number was typed is a plain text or the INTERNATIONAL one. *)
Lemma typed_kinds n r m t : hasValidCountryCallingCode shipped (cc_of n) = true -> nn_of n <> 0 -> ext_of n = [] -> cc_of n <> 54%Z -> (2 <= length (GetNationalSignificantNumber n) <= 17)%nat ->
  getMetadataForRegion shipped r = Some m -> all_digits (exit_prefix m) = true -> as_typed shipped n r t -> plainly t \/ Format shipped n INTERNATIONAL = Ret t.
Proof.
  intros V Nn X N5 L Gm De A. assert (HN : has_number n) by (left; exact Nn). pose proof (has_number_raw _ HN) as R. pose proof (cc_plain shipped n shipped_plain_rules V N5) as PR.
  assert (Tn : typed_national shipped n t -> plainly t) by (apply typed_plainly; auto using shipped_wf, shipped_rules).
  unfold as_typed in A. destruct (get_src n); [left; auto|right; exact A| |left|left; auto].
  - assert (I : In r (c_regions shipped) /\ assocb r (c_region shipped) = Some m).
    { unfold getMetadataForRegion in Gm. destruct (isValidRegionCode shipped r) eqn:Q; [|discriminate]. unfold isValidRegionCode in Q. apply andb_true_iff in Q as [_ Q]. apply mem_bytes_iff in Q. auto. }
    destruct I as [I Em]. destruct (C61_out_of_country n r m V HN I Em) as (s & nat & intl & Es & En & Ei & Eq). rewrite A in Es. injection Es as <-.
    destruct (Z.eqb _ _).
    + left. destruct (Z.eqb _ _); subst t; [exact (national_plainly shipped n shipped_wf shipped_rules V R X PR L nat (bs "1 ") En eq_refl ltac:(cbn; lia))|exact (national_plainly shipped n shipped_wf shipped_rules V R X PR L nat [] En eq_refl ltac:(cbn; lia))].
    + pose proof (exits_short _ _ Em) as Le. clear Gm Em. destruct (exit_prefix m) as [|c p] in Eq, Le, De; [right; rewrite Eq; exact Ei|]. left. subst t. rewrite app_assoc. apply (international_plainly shipped n shipped_wf shipped_rules shipped_tame V R X L 43 intl ((c :: p) ++ bs " ")); [exact Ei|rewrite forallb_app, (head_digits _ De); reflexivity|rewrite app_length; cbn [length bs] in *; cbn; lia].
  - destruct A as (c & A). apply (international_plainly shipped n shipped_wf shipped_rules shipped_tame V R X L c t [] A eq_refl). cbn. lia.
Qed.

Theorem C95_retype : forall p x d r m n, p = [] /\ starts_digit (x ++ d) \/ p = [43] -> spaced (x ++ d) -> all_digits d = true -> d <> [] -> (3 <= length (only_digits (x ++ d)))%nat -> (length (p ++ x ++ d) <= 249)%nat ->
  getMetadataForRegion shipped r = Some m -> all_digits (exit_prefix m) = true -> ParseAndKeepRawInput shipped (p ++ x ++ d) r = Ret (n, None) -> nn_of n <> 0 -> cc_of n <> 54%Z ->
  exists text n', FormatInOriginalFormat shipped n r = Ret text /\ Parse shipped text r = Ret (n', None) /\ cc_of n' = cc_of n /\ GetNationalSignificantNumber n' = GetNationalSignificantNumber n /\ ext_of n' = [].
Proof.
  intros p x d r m n Hp Sp D Nd L3 L Gm De P Nn N5. pose proof shipped_wf as W. pose proof shipped_parse_ok as PO. set (raw := p ++ x ++ d) in *. set (q := p ++ only_digits (x ++ d)).
  assert (Eq : parse_core shipped raw r true = parse_core shipped q r true) by (apply spaced_core; auto; lia).
  destruct (parse_agree shipped raw r W) as [(e & k & k' & _ & H)|(k & k' & Pk & Pk' & A1 & A2 & A3 & A4 & A5 & A6 & _)]; [congruence|]. assert (k' = n) by congruence. subst k'. clear Pk'.
  assert (Lq : (length (only_digits (x ++ d)) <= length (x ++ d))%nat).
  { rewrite <- (spaced_dialled _ Sp). clear. induction (x ++ d) as [|c l IH]; cbn [filter length]; [lia|destruct (diallable c); cbn [length]; lia]. }
  assert (Lx : (length (x ++ d) <= 249)%nat) by (unfold raw in L; rewrite app_length in L; lia).
  (* what was recorded *)
  assert (S : p_ext n = None /\ get_src n <> UNSPECIFIED).
  { apply parse_found in P as (y & Py & ->); [|exact W]. rewrite Eq in Py. pose proof (parse_runs shipped q r true true W) as R. rewrite Py in R. specialize (R phone0).
    pose proof (store_fields true raw y phone0) as (_ & _ & B3 & _ & _ & B6 & _). pose proof (store_fields true q y phone0) as (_ & _ & C3 & _ & _ & C6 & _). cbn [andb] in *. unfold get_src. rewrite B3, B6, <- C3, <- C6. clear B3 B6 C3 C6.
    destruct Hp as [(-> & _)| ->].
    - destruct (C64_digits shipped r m (only_digits (x ++ d)) W PO Gm (only_all _)) as (o & Rd & O); [lia|]. destruct o as [src cc nsn c|e]; cbn [outcome] in O; [|destruct O as (n0 & O); unfold ParseAndKeepRawInput, ParseAndKeepRawInputToNumber, q in *; cbn [app] in R; congruence].
      destruct O as (n0 & O & _ & _ & O1 & _ & _ & O2). apply reads_src in Rd. unfold ParseAndKeepRawInput, ParseAndKeepRawInputToNumber, q in *. cbn [app] in *. rewrite O in R. injection R as <-. rewrite O1, O2. auto.
    - destruct (C64_plus shipped r (only_digits (x ++ d)) W PO) as (o & Rd & O); [|apply only_all|lia|].
      { intros ->. unfold getMetadataForRegion in Gm. destruct (isValidRegionCode shipped nonGeoEntity) eqn:Q; [|discriminate]. unfold isValidRegionCode in Q. apply andb_true_iff in Q as [_ Q]. apply mem_bytes_iff in Q. destruct (wf_supported _ W _ Q) as (_ & Q2 & _). apply Q2. reflexivity. }
      destruct o as [src cc nsn c|e]; cbn [outcome] in O; [|destruct O as (n0 & O); unfold ParseAndKeepRawInput, ParseAndKeepRawInputToNumber, q in *; cbn [app] in R; congruence].
      destruct O as (n0 & O & _ & _ & O1 & _ & _ & O2). apply reads_plus_src in Rd. unfold ParseAndKeepRawInput, ParseAndKeepRawInputToNumber, q in *. cbn [app] in *. rewrite O in R. injection R as <-. rewrite O1, O2. auto. }
  destruct S as [Xn Sn]. assert (X : ext_of n = []) by (unfold ext_of; rewrite Xn; reflexivity).
  assert (Sk : cc_of k = cc_of n /\ GetNationalSignificantNumber k = GetNationalSignificantNumber n /\ ext_of k = []).
  { split; [unfold cc_of; rewrite A1; reflexivity|]. split; [unfold GetNationalSignificantNumber, get_ilz, get_nlz, get_nn; rewrite A2, A4, A5; reflexivity|unfold ext_of; rewrite A3, Xn; reflexivity]. }
  destruct Sk as (Kc & Kn & Ke). pose proof (parse_bounds shipped raw r k None W PO Pk eq_refl) as (Lk & _ & Vk). rewrite Kn in Lk. rewrite Kc in Vk.
  (* reading anything that has the same core *)
  assert (Same : forall t, parse_core shipped t r true = parse_core shipped q r true -> Parse shipped t r = Ret (k, None)).
  { intros t Et. unfold Parse, ParseToNumber in *. apply parse_found in Pk as (y & Py & Ek); [|exact W]. rewrite Eq, <- Et in Py. pose proof (parse_runs shipped t r false true W) as R. rewrite Py in R. rewrite (R phone0), Ek. reflexivity. }
  assert (Done : forall t, Parse shipped t r = Ret (k, None) -> FormatInOriginalFormat shipped n r = Ret t -> exists text n', FormatInOriginalFormat shipped n r = Ret text /\ Parse shipped text r = Ret (n', None) /\ cc_of n' = cc_of n /\ GetNationalSignificantNumber n' = GetNationalSignificantNumber n /\ ext_of n' = []).
  { intros t Pt Ft. exists t, k. auto. }
  destruct (original_total shipped n r W) as (s & Fs). assert (Er : get_raw n = raw) by (unfold get_raw; rewrite A6; reflexivity).
  assert (Fr : filter diallable raw = q).
  { unfold raw, q. rewrite filter_app, (spaced_dialled _ Sp). f_equal. destruct Hp as [(-> & _)| ->]; reflexivity. }
  apply (Done s); [|exact Fs]. destruct (C71_original n r s Fs) as [(_ & _ & E)|[(_ & U & _)|(_ & _ & t & At & E1 & E2)]]; [rewrite E, Er; exact Pk|congruence|].
  rewrite Er in *. assert (Rne : raw <> []) by (intros E0; apply Nd; unfold raw in E0; apply app_eq_nil in E0 as [_ E0]; apply app_eq_nil in E0; tauto).
  assert (Kd : plainly t \/ Format shipped n INTERNATIONAL = Ret t) by (apply (typed_kinds n r m t); auto).
  destruct (list_eq_dec N.eq_dec (filter diallable t) (filter diallable raw)) as [Q|Q].
  2:{ assert (t <> []). { destruct Kd as [Kd|Kd]; [exact (plainly_some t Kd)|]. intros ->. destruct (international_dialled shipped n W shipped_rules shipped_tame Vk (has_number_raw _ (or_introl Nn)) X) as (text & F & Dd). rewrite Kd in F. injection F as <-. discriminate Dd. }
      rewrite (E2 Rne H Q). exact Pk. }
  rewrite (E1 (or_intror (or_intror Q))). rewrite Fr in Q. destruct Kd as [Kd|Kd].
  - rewrite (plainly_dialled _ Kd) in Q. apply Same. rewrite <- Q. apply plainly_core; [exact Kd|]. rewrite Q. unfold q. rewrite app_length. lia.
  - destruct (international_dialled shipped n W shipped_rules shipped_tame Vk (has_number_raw _ (or_introl Nn)) X) as (text & F & Dd). rewrite Kd in F. injection F as <-.
    destruct (C66_international n r Vk (or_introl Nn) Lk) as (text & e164 & F1 & F2 & H); [rewrite X; reflexivity|rewrite X; cbn; lia|]. rewrite Kd in F1. injection F1 as <-. rewrite X in H. cbn [is_empty] in H. apply H. apply Same.
    rewrite format_e164 in F2. change ((nn_of n =? 0) && negb (is_empty (get_raw n))) with (printed_raw n) in F2. rewrite (has_number_raw _ (or_introl Nn)) in F2. injection F2 as <-. rewrite <- Q, Dd. reflexivity.
Qed.
Print Assumptions C95_retype.
Local Transparent compile re_find re_replace_all.
(** The premises hold of a number typed with dots after a plus sign, with an exit prefix, and in national form. *)
Definition retyped (raw r : bytes) : option (bool * bool * Z * bytes) :=
  match getMetadataForRegion shipped r, ParseAndKeepRawInput shipped raw r with
  | Some m, Ret (n, None) => match FormatInOriginalFormat shipped n r with Ret s => Some (all_digits (exit_prefix m), nn_of n =? 0, cc_of n, s) | _ => None end
  | _, _ => None
  end.
Example C95_witness : retyped (bs "+" ++ bs "1650.253." ++ bs "0000") (bs "GB") = Some (true, false, 1%Z, bs "+1 650-253-0000") /\ spaced (bs "1650.253." ++ bs "0000") /\ only_digits (bs "1650.253." ++ bs "0000") = bs "16502530000".
Proof.
  split; [vm_compute; reflexivity|]. split; [|vm_compute; reflexivity]. intros c I. vm_compute in I.
  repeat (destruct I as [<-|I]; [first [left; split; discriminate|right; repeat (first [left; reflexivity|right])]|]). destruct I.
Qed.
Example C95_witness_exit : retyped (bs "0011442087654321") (bs "AU") = Some (true, false, 44%Z, bs "0011 44 20 8765 4321").
Proof. vm_compute. reflexivity. Qed.
Example C95_witness_national : retyped (bs "030-123 456") (bs "DE") = Some (true, false, 49%Z, bs "030 123456").
Proof. vm_compute. reflexivity. Qed.
