(** The text matcher does not panic and always comes to an end. *)
From Verif Require Import Base BaseFacts Utf8 Utf8Facts Regex RegexSpec RegexFacts LangFacts Consts Types Normalize Validate Format Parse Matcher MetaSpec NumberSpec NumberFacts ValidateSpec ValidateFacts FormatFacts FormatMore ParseSpec ParseFacts ParseMore PropsTotal SourceFacts MatcherSpec AytfFacts MatcherFacts MatcherRun.
Local Opaque re_find re_find_all re_match.
Local Open Scope nat_scope.

(** * A text that parses has at least two characters *)
Fixpoint minrunes (r : regex) : nat :=
  match r with
  | REmpty | RBegin | REnd | RStar _ _ => 0
  | RClass _ => 1
  | RCat a b => minrunes a + minrunes b
  | RAlt a b => Nat.min (minrunes a) (minrunes b)
  | RGroup _ a => minrunes a
  end.
Lemma minrunes_ok r w : lang r w -> minrunes r <= length w.
Proof. induction 1; cbn [minrunes length]; rewrite ?app_length; lia. Qed.
Lemma viable_two : 2 <=? minrunes (re_ast validPhoneNumberPattern) = true.
Proof. vm_cast_no_check (eq_refl true). Qed.
Lemma viable_runes t : isViablePhoneNumber t = true -> 2 <= length (runes t).
Proof.
  unfold isViablePhoneNumber. destruct (_ <? _); [discriminate|]. intros H. apply re_match_iff in H as (i & e & w & cs & B & D).
  assert (i = 0). { rewrite vp_shape in D. inversion D as [| |a b p s0 cs0 p1 s1 cs1 p2 s2 cs2 D1 D2| | | | | | |]; subst. inversion D1; subst. auto. }
  subst i. cbn [skipn] in D. apply derives_lang in D as (v & E & L). apply minrunes_ok in L. apply eats_runes in E. rewrite E, app_length. pose proof viable_two as V. apply Nat.leb_le in V. lia.
Qed.
Lemma one_boundary s c i : decode_rune s = Some (c, []) -> boundary s i -> i <= length s -> i = 0 \/ i = length s.
Proof.
  intros D B L. inversion B as [|s0 c0 t i0 D0 B0]; subst; [auto|]. rewrite D in D0. injection D0 as <- <-. cbn [len length] in *. inversion B0; subst; [|discriminate]. unfold len. simpl. lia.
Qed.
Definition cut_at (x : re) (s : bytes) : bytes := match re_find x s with Some m => firstn (m_start m) s | None => s end.
Lemma one_piece s c : decode_rune s = Some (c, []) -> extractPossibleNumber s = [] \/ extractPossibleNumber s = s.
Proof.
  intros D. change (extractPossibleNumber s) with (match re_find validStartCharPattern s with Some m => cut_at secondNumberStartPattern (cut_at unwantedEndCharPattern (skipn (m_start m) s)) | None => [] end).
  assert (F : forall x, cut_at x s = [] \/ cut_at x s = s).
  { intros x. unfold cut_at. destruct (re_find x s) as [m|] eqn:F; [|auto]. pose proof (re_find_boundary _ _ _ F) as B. apply re_find_sound in F as (L1 & L2 & _). destruct (one_boundary _ _ _ D B) as [-> | ->]; [lia|left; reflexivity|right; apply firstn_all]. }
  assert (F0 : forall x, cut_at x [] = []). { intros x. unfold cut_at. destruct (re_find x []); [apply firstn_nil|reflexivity]. }
  destruct (re_find validStartCharPattern s) as [m|] eqn:V; [|auto]. pose proof (re_find_boundary _ _ _ V) as B. apply re_find_sound in V as (L1 & L2 & _).
  destruct (one_boundary _ _ _ D B) as [-> | ->]; [lia| |].
  - cbn [skipn]. destruct (F unwantedEndCharPattern) as [-> | ->]; [left; apply F0|apply F].
  - rewrite skipn_all, !F0. auto.
Qed.
Lemma long_prefix s p : length s < length p -> index_of s p = None.
Proof. intros L. destruct (index_of s p) as [i|] eqn:E; [|auto]. apply index_of_some in E as (t & _ & E). unfold len in *. lia. Qed.
Lemma parse_two C s r x : parse_core C s r true = Ret x -> 2 <= length (runes s).
Proof.
  intros P. unfold parse_core in P. destruct (is_empty s) eqn:Es; [discriminate|]. destruct (_ <? len s) eqn:Ls; [discriminate|]. rewrite build_eq in P.
  destruct (text_of s) as [t| |] eqn:T; cbn [bind] in P; try discriminate. destruct (isViablePhoneNumber t) eqn:V; cbn [negb] in P; [|discriminate]. clear P.
  apply viable_runes in V. destruct (decode_rune s) as [[c u]|] eqn:D; [|apply decode_rune_none in D; subst; discriminate].
  destruct u as [|u0 u]. 2:{ rewrite (runes_step _ _ _ D). destruct (decode_rune (u0 :: u)) as [[c2 u2]|] eqn:D2; [rewrite (runes_step _ _ _ D2); simpl; lia|apply decode_rune_none in D2; discriminate]. }
  exfalso. pose proof (decode_rune_spec _ _ _ D) as (w & Ew & Lw & _). rewrite app_nil_r in Ew. subst w.
  assert (E : t = [] \/ t = s).
  { unfold text_of in T. rewrite long_prefix in T by (vm_compute (length rfc3966PhoneContext); lia). apply (f_equal (fun m => match m with Ret a => a | _ => t end)) in T. cbn in T. rewrite <- T. unfold cut_isub.
    destruct (one_piece _ _ D) as [-> | ->]; [rewrite long_prefix by (vm_compute; lia); auto|]. rewrite long_prefix by (vm_compute (length rfc3966IsdnSubaddress); lia). auto. }
  destruct E as [-> | ->]; [cbn in V; lia|]. rewrite (runes_step _ _ _ D) in V. cbn in V. lia.
Qed.
Lemma encode_len l : length l <= length (encode_runes l).
Proof.
  unfold encode_runes. induction l as [|c l IH]; [cbn; lia|]. cbn [flat_map length]. rewrite app_length. assert (1 <= length (encode_rune c)). { unfold encode_rune. destruct (_ <? _)%N; [cbn; lia|]. destruct (_ <? _)%N; [cbn; lia|]. destruct (_ || _); [cbn; lia|]. destruct (_ <? _)%N; cbn; lia. } change u with encode_rune in *. lia.
Qed.
Lemma kept_len s : length (runes s) <= len (normalizeDigits s true).
Proof.
  unfold normalizeDigits, len. eapply Nat.le_trans; [|apply encode_len]. induction (runes s) as [|c l IH]; [cbn; lia|]. cbn [flat_map length]. rewrite app_length. destruct (char_digit c); cbn; lia.
Qed.

(** * Numbers that come out of parsing the candidate *)
Definition came_from (C : container) (s : bytes) (n : phone) : Prop :=
  get_raw n = s /\ s <> [] /\ 2 <= length (runes s) /\ hasValidCountryCallingCode C (get_cc n) = true.
Lemma came C s r n : wf_container C -> parse_ok C -> ParseAndKeepRawInputToNumber C s r phone0 = Ret (n, None) -> came_from C s n.
Proof.
  intros W PO H. apply parse_found in H as (x & P & ->); [|auto]. pose proof (parse_two _ _ _ _ P) as T. pose proof (store_fields true s x phone0) as (E1 & E2 & E3 & E4 & E5 & E6 & E7).
  split; [unfold get_raw; rewrite E5; reflexivity|]. split; [intros ->; cbn in T; lia|]. split; [exact T|].
  change (get_cc (store true s x phone0)) with (cc_of (store true s x phone0)). rewrite store_cc. eapply fo_code, parse_core_ok; eauto.
Qed.
Lemma itoa_short cc : (0 < cc < 1000)%Z -> 1 <= len (itoa cc) <= 3.
Proof.
  intros L. rewrite itoa_pos by lia. unfold len. split; [pose proof (dec_nonempty (Z.to_N cc)); destruct (dec (Z.to_N cc)); [congruence|simpl; lia]|].
  apply dec_length_le; [lia|]. change (10 ^ N.of_nat 3)%N with 1000%N. lia.
Qed.

(** * The formatted groups *)
Definition groups_of_rfc (rfc : bytes) : M (list bytes) :=
  let e := match index_byte rfc 59 with Some i => i | None => len rfc end in
  let b := match index_byte rfc 45 with Some i => S i | None => 0 end in
  s <- slice rfc b e ;; Ret (split_byte s 45).
Lemma split_order {T} (a b a' b' : list T) x y : a ++ x :: b = a' ++ y :: b' -> x <> y -> length a < length a' \/ exists c, a = a' ++ y :: c /\ In x b'.
Proof.
  revert a'. induction a as [|u a IH]; intros [|v a'] E N; simpl in *.
  - injection E as -> _. congruence.
  - left. lia.
  - right. injection E as -> <-. exists a. split; auto. apply in_or_app. right. left. auto.
  - injection E as -> E. destruct (IH _ E N) as [L|(c & -> & I)]; [left; lia|right; eauto].
Qed.
Lemma cut_total rfc : (forall a b, rfc = a ++ 59%N :: b -> In 45%N b -> In 45%N a) -> total (groups_of_rfc rfc).
Proof.
  intros NA. unfold groups_of_rfc. cbv zeta. apply total_bind; [|intros; apply total_ret].
  assert (L : (match index_byte rfc 45 with Some i => S i | None => 0 end) <= (match index_byte rfc 59 with Some i => i | None => len rfc end) <= len rfc).
  { destruct (index_byte rfc 45) as [i|] eqn:Ei, (index_byte rfc 59) as [e|] eqn:Ee; unfold len.
    - apply index_byte_some in Ei as (a & b & E & L & Na), Ee as (a' & b' & E' & L' & Na'). subst i e. split; [|rewrite E', app_length; simpl; lia].
      pose proof E as E2. rewrite E' in E2. symmetry in E2. destruct (split_order _ _ _ _ _ _ E2) as [K|(c & -> & K)]; [discriminate|lia|]. exfalso. apply Na. apply in_or_app. left. eapply NA; eauto.
    - apply index_byte_some in Ei as (a & b & -> & <- & _). rewrite app_length. simpl. lia.
    - apply index_byte_some in Ee as (a & b & -> & <- & _). rewrite app_length. simpl. lia.
    - lia. }
  unfold slice. rewrite (proj2 (Nat.leb_le _ _) (proj1 L)), (proj2 (Nat.leb_le _ _) (proj2 L)). apply total_ret.
Qed.
Lemma nng_total C s n : wf_container C -> came_from C s n -> not_after 59 45 s -> total (getNationalNumberGroups C n).
Proof.
  intros W (R & Ns & _ & V) NA. change (getNationalNumberGroups C n) with (rfc <- Format C n RFC3966 ;; groups_of_rfc rfc).
  destruct (printed_raw n) eqn:P.
  - unfold Format. fold (printed_raw n). rewrite P. cbn [bind]. rewrite R. apply cut_total. intros a b E I. elim (NA _ _ E I).
  - destruct (format_supported C n RFC3966 W P ltac:(discriminate) V) as (m & t & _ & _ & _ & ->). cbn [bind]. apply cut_total. intros a b E _. unfold prefixNumberWithCountryCallingCode in E.
    set (rest := t ++ _) in *. clearbody rest. assert (E0 : (rfc3966Prefix ++ [plusSign] ++ itoa (cc_of n)) ++ 45%N :: rest = a ++ 59%N :: b) by (rewrite <- E, <- !app_assoc; reflexivity).
    destruct (split_order _ _ _ _ _ _ E0) as [K|(c & K & _)]; [discriminate| |].
    + apply (f_equal (firstn (length a))) in E0. rewrite (firstn_app (length a) a), Nat.sub_diag, firstn_all, app_nil_r in E0. rewrite <- E0, firstn_app, firstn_all2 by lia. apply in_or_app. right.
      destruct (length a - length (rfc3966Prefix ++ [plusSign] ++ itoa (cc_of n))) eqn:Q; [lia|]. left. reflexivity.
    + exfalso. pose proof (valid_cc_pos _ _ W V) as Vp. change (get_cc n) with (cc_of n) in Vp. assert (I : In 59%N (rfc3966Prefix ++ [plusSign] ++ itoa (cc_of n))) by (rewrite K; apply in_or_app; right; left; auto).
      apply in_app_or in I as [I|I]; [vm_compute in I; intuition discriminate|]. apply in_app_or in I as [I|I]; [vm_compute in I; intuition discriminate|].
      assert (D : all_digits (itoa (cc_of n)) = true) by (apply itoa_digits; lia). pose proof (all_digits_In _ _ D I). lia.
Qed.
Lemma slice_from_total s i : i <= len s -> slice_from s i = Ret (skipn i s).
Proof. intros L. unfold slice_from, slice. rewrite (proj2 (Nat.leb_le _ _) L), Nat.leb_refl. cbn [andb]. f_equal. apply firstn_all2. rewrite skipn_length. unfold len. lia. Qed.
Lemma in_order_total C n nc groups : forall first from, from <= len nc -> exists r, groups_in_order C n nc groups first from = Ret r /\ forall k, r = inr k -> k <= len nc.
Proof.
  induction groups as [|g groups IH]; intros first from L; cbn [groups_in_order]; [eexists; split; [reflexivity|intros k E; injection E as <-; auto]|].
  rewrite slice_from_total by auto. cbn [bind]. destruct (index_of (skipn from nc) g) as [idx|] eqn:E; [|eexists; split; [reflexivity|discriminate]].
  apply index_of_some in E as (t & _ & E). unfold len in *. rewrite skipn_length in E. destruct (_ && _); [|apply IH; lia]. rewrite slice_from_total by (unfold len; lia). cbn [bind].
  destruct (_ && _); [|apply IH; lia]. rewrite slice_from_total by (unfold len; lia). cbn [bind]. eexists; split; [reflexivity|discriminate].
Qed.
Lemma remain_total C n nc groups : 2 <= len nc -> (0 < get_cc n < 1000)%Z -> total (allNumberGroupsRemainGrouped C n nc groups).
Proof.
  intros L Cc. unfold allNumberGroupsRemainGrouped. cbv zeta. match goal with |- total (_ <- groups_in_order C n nc groups true ?f ;; _) => assert (F : f <= len nc) end.
  { pose proof (itoa_short _ Cc). assert (Q : (match index_of nc (itoa (get_cc n)) with Some i => i + len (itoa (get_cc n)) | None => len (itoa (get_cc n)) - 1 end) <= len nc).
    { destruct (index_of nc _) as [i|] eqn:E; [apply index_of_some in E as (t & _ & E); auto|lia]. }
    destruct (get_src n); auto; lia. }
  destruct (in_order_total C n nc groups true _ F) as ([b|k] & -> & K); cbn [bind]; [apply total_ret|]. rewrite slice_from_total by auto. apply total_ret.
Qed.
Lemma split_digits_nonempty s : splitNonDigits s <> [].
Proof. unfold splitNonDigits. destruct (drop_trailing_empty _); discriminate. Qed.
Lemma from_end_total fmt : forall cand, fmt <> [] -> total (groups_from_end cand fmt).
Proof.
  induction fmt as [|f [|f' fmt] IH]; intros [|c cand] N; try congruence; cbn [groups_from_end]; try apply total_ret. destruct (beq c f); [apply IH; discriminate|apply total_ret].
Qed.
Lemma exact_total n nc groups : groups <> [] -> total (allNumberGroupsAreExactlyPresent n nc groups).
Proof.
  intros N. unfold allNumberGroupsAreExactlyPresent. cbv zeta. pose proof (split_digits_nonempty nc) as S. destruct (splitNonDigits nc) as [|c [|c' l]]; [congruence|apply total_ret|].
  assert (U : (if is_empty (get_ext n) then rev (c :: c' :: l) else tl (rev (c :: c' :: l))) <> []).
  { intros K. apply (f_equal (@length bytes)) in K. revert K. destruct (is_empty _); [rewrite rev_length; simpl; lia|]. pose proof (rev_length (c :: c' :: l)). destruct (rev (c :: c' :: l)); simpl in *; lia. }
  destruct (if is_empty (get_ext n) then _ else _) as [|u us]; [congruence|]. destruct (contains u _); [apply total_ret|]. apply from_end_total. intros K. apply N. rewrite <- (rev_involutive groups), K. reflexivity.
Qed.
Lemma alternates_total checker n nc nsn l : (forall g, g <> [] -> total (checker n nc g)) -> Forall wf_format l -> total (try_alternates checker n nc nsn l).
Proof.
  intros Hc. induction 1 as [|f l (W1 & W2 & W3) F IH]; cbn [try_alternates]; [apply total_ret|]. apply total_bind.
  { destruct (nf_leading f) as [|p ps]; [apply total_ret|]. inversion W3; subst. destruct (compiles_ret _ H1) as (x & ->). cbn [bind]. destruct (re_find x nsn); apply total_ret. }
  intros [|] _; [exact IH|]. unfold getNationalNumberGroupsWithPattern. apply total_bind.
  { apply total_bind; [|intros; apply total_ret]. apply using_pattern_total. auto. }
  intros g Eg. apply total_bind; [apply Hc|intros [|] _; [apply total_ret|exact IH]]. destruct (formatNsnUsingPattern _ _ _); cbn [bind] in Eg; try discriminate. injection Eg as <-. apply split_nonempty.
Qed.
Lemma grouping_total C A s n checker : wf_container C -> alt_ok A -> came_from C s n -> not_after 59 45 s -> (forall g, g <> [] -> total (checker n (normalizeDigits s true) g)) ->
  total (checkNumberGroupingIsValid C A n s checker).
Proof.
  intros W AO F NA Hc. unfold checkNumberGroupingIsValid. cbv zeta. apply total_bind; [eapply nng_total; eauto|]. intros g Eg.
  assert (g <> []). { unfold getNationalNumberGroups in Eg. destruct (Format C n RFC3966); cbn [bind] in Eg; try discriminate. destruct (slice _ _ _); cbn [bind] in Eg; try discriminate. injection Eg as <-. apply split_nonempty. }
  apply total_bind; [auto|]. intros [|] _; [apply total_ret|]. unfold getAlternateFormats. destruct (assocz (get_cc n) A) as [m|] eqn:E; [|apply total_ret].
  apply alternates_total; auto. eapply AO. eapply assocz_In. exact E.
Qed.
Lemma xchars_step C n c c2 r : containsOnlyValidXChars C n (c :: c2 :: r) =
  if is_x c then if is_x c2 then v <- IsNumberMatchWithOneNumber C n (c2 :: r) ;; match v with NSN_MATCH => containsOnlyValidXChars C n r | _ => Ret false end
                 else if beq (NormalizeDigitsOnly (c :: c2 :: r)) (get_ext n) then containsOnlyValidXChars C n (c2 :: r) else Ret false
  else containsOnlyValidXChars C n (c2 :: r).
Proof. reflexivity. Qed.
Lemma xchars_total C n s : wf_container C -> total (containsOnlyValidXChars C n s).
Proof.
  intros W. remember (length s) as k eqn:Ek. assert (L : length s <= k) by lia. clear Ek. revert s L. induction k as [|k IH]; intros [|c [|c2 r]] L; try apply total_ret; [simpl in L; lia|]. rewrite xchars_step.
  destruct (is_x c); [|apply IH; simpl in *; lia]. destruct (is_x c2).
  - apply total_bind; [apply one_number_total; auto|]. intros v _. destruct v; try apply total_ret. apply IH. simpl in *. lia.
  - destruct (beq _ _); [apply IH; simpl in *; lia|apply total_ret].
Qed.
Lemma prefix_required_total C n : wf_container C -> total (isNationalPrefixPresentIfRequired C n).
Proof.
  intros W. unfold isNationalPrefixPresentIfRequired. destruct (get_src n); try apply total_ret. destruct (getMetadataForRegion C _) as [m|] eqn:E; [|apply total_ret].
  pose proof (opt_wf_region C (GetRegionCodeForCountryCode C (get_cc n)) W) as Wm. rewrite E in Wm. cbn in Wm. destruct (wf_formats _ Wm) as [F _]. destruct (choose_total _ (GetNationalSignificantNumber n) F) as (r & -> & _). cbn [bind].
  destruct r as [f|]; [|apply total_ret]. destruct (is_empty _); [apply total_ret|]. destruct (get_npopt f); [apply total_ret|]. destruct (formattingRuleHasFirstGroupOnly _); [apply total_ret|].
  destruct (national_total (NormalizeDigitsOnly (get_raw n)) m Wm) as ([[a b] c] & ->). cbn [bind]. apply total_ret.
Qed.
Lemma possible_total C n : wf_container C -> total (IsPossibleNumber C n).
Proof.
  intros W. unfold IsPossibleNumber. rewrite possible_spec by auto. apply total_bind; [|intros; apply total_ret]. destruct (possible_type_spec C n UNKNOWN W) as (v & E & _). rewrite E. apply total_ret.
Qed.
Lemma verify_total C A l s n : wf_container C -> alt_ok A -> came_from C s n -> not_after 59 45 s -> total (Verify C A l n s).
Proof.
  intros W AO F NA. unfold Verify.
  assert (G : forall checker, (forall g, g <> [] -> total (checker n (normalizeDigits s true) g)) ->
    total (v <- IsValidNumber C n ;; if negb v then Ret false else x <- containsOnlyValidXChars C n s ;; if negb x then Ret false else if containsMoreThanOneSlashInNationalNumber n s then Ret false else
           p <- isNationalPrefixPresentIfRequired C n ;; if negb p then Ret false else checkNumberGroupingIsValid C A n s checker)).
  { intros checker Hc. apply total_bind; [apply valid_total'; auto|]. intros v _. apply total_if; [apply total_ret|]. apply total_bind; [apply xchars_total; auto|]. intros x _. apply total_if; [apply total_ret|]. apply total_if; [apply total_ret|].
    apply total_bind; [apply prefix_required_total; auto|]. intros p _. apply total_if; [apply total_ret|]. eapply grouping_total; eauto. }
  destruct F as (R & Ns & T & V) eqn:EF.
  apply total_if; [apply possible_total; auto|]. apply total_if.
  { apply total_bind; [apply valid_total'; auto|]. intros v _. apply total_if; [apply total_ret|]. apply total_bind; [apply xchars_total; auto|]. intros x _. apply total_if; [apply total_ret|]. apply prefix_required_total; auto. }
  apply total_if. { apply G. intros g _. apply remain_total; [eapply Nat.le_trans; [exact T|apply kept_len]|eapply valid_cc_pos; eauto]. }
  apply total_if; [|apply total_ret]. apply G. intros g Ng. apply exact_total. auto.
Qed.

(** * The search *)
Lemma pv_total C A cfg s i : wf_container C -> parse_ok C -> alt_ok A -> occurs (mc_text cfg) s i -> not_after 59 45 s -> total (parseAndVerify C A cfg s i).
Proof.
  intros W PO AO O NA. unfold parseAndVerify. apply total_if; [apply total_ret|]. pose proof (occurs_bound _ _ _ O) as B. apply total_bind.
  { apply total_if; [|apply total_ret]. unfold bad_neighbours. apply total_bind.
    - apply total_if; [|apply total_ret]. unfold slice_to, slice. cbn [Nat.leb andb]. rewrite (proj2 (Nat.leb_le _ _)) by (unfold len; lia). apply total_ret.
    - intros b _. apply total_if; [apply total_ret|]. cbv zeta. apply total_if; [|apply total_ret]. rewrite slice_from_total by (unfold len; lia). apply total_ret. }
  intros b _. apply total_if; [apply total_ret|]. apply total_bind; [apply helper_total; auto|]. intros [n [e|]] P; [apply total_ret|].
  apply total_bind; [|intros ok _; apply total_if; apply total_ret]. apply verify_total; auto. eapply came; eauto.
Qed.
Lemma piece_ok cfg s off i j x : occurs (mc_text cfg) s off -> not_after 59 45 s -> i <= j -> j <= length s ->
  occurs (mc_text cfg) (trimAfterFirstMatch x (sub s i j)) (off + i) /\ not_after 59 45 (trimAfterFirstMatch x (sub s i j)).
Proof.
  intros O NA L1 L2. assert (P : occurs s (trimAfterFirstMatch x (sub s i j)) i). { replace i with (i + 0) at 2 by lia. eapply occurs_trans; [|apply trim_occurs]. apply sub_occurs; lia. }
  split; [eapply occurs_trans; eauto|eapply not_after_occurs; eauto].
Qed.
Lemma inner_loop_total C A cfg s off gs : wf_container C -> parse_ok C -> alt_ok A -> occurs (mc_text cfg) s off -> not_after 59 45 s ->
  (forall g, In g gs -> m_start g <= length s /\ exists i j, group g 1 = Some (i, j) /\ i <= j /\ j <= length s) ->
  forall first w, total (inner_loop C A cfg s off gs first w).
Proof.
  intros W PO AO O NA. induction gs as [|g gs IH]; intros G first w; cbn [inner_loop]; [apply total_ret|]. apply total_if; [apply total_ret|].
  destruct (G g (or_introl eq_refl)) as (Ls & i & j & Eg & Lij & Lj). apply total_bind.
  { apply total_if; [|apply total_ret]. apply total_bind; [|intros; apply total_ret]. destruct (piece_ok cfg s off 0 (m_start g) unwantedEndCharPattern O NA) as [P1 P2]; [lia|lia|]. rewrite Nat.add_0_r in P1. apply pv_total; auto. }
  intros [[p|] w1] _; [apply total_ret|]. rewrite Eg. cbn [or_panic bind]. apply total_bind.
  { destruct (piece_ok cfg s off i j unwantedEndCharPattern O NA) as [P1 P2]; auto. apply pv_total; auto. }
  intros [p|] _; [apply total_ret|]. apply IH. intros; apply G. right. auto.
Qed.
Lemma inner_total C A cfg s off pats : wf_container C -> parse_ok C -> alt_ok A -> occurs (mc_text cfg) s off -> not_after 59 45 s -> incl pats innerMatches ->
  forall w, total (extractInnerMatch C A cfg s off pats w).
Proof.
  intros W PO AO O NA. induction pats as [|x pats IH]; intros I w; cbn [extractInnerMatch]; [apply total_ret|]. apply total_bind.
  { apply inner_loop_total; auto. intros g Hg. eapply inner_find_all; [|exact Hg]. apply I. left. auto. }
  intros [[p|] w1] _; [apply total_ret|]. apply IH. intros y Hy. apply I. right. auto.
Qed.
Lemma extract_total C A cfg s off w : wf_container C -> parse_ok C -> alt_ok A -> occurs (mc_text cfg) s off -> not_after 59 45 s -> total (extractMatch C A cfg s off w).
Proof.
  intros W PO AO O NA. pose proof (occurs_bound _ _ _ O) as B. unfold extractMatch. apply total_if; [apply total_ret|]. apply total_bind.
  { unfold is_timestamp. apply total_if; [|apply total_ret]. rewrite slice_from_total by (unfold len; lia). cbn [bind]. destruct (re_find _ _); apply total_ret. }
  intros b _. apply total_if; [apply total_ret|]. apply total_bind; [apply pv_total; auto|]. intros [p|] _; [apply total_ret|]. apply inner_total; auto. apply incl_refl.
Qed.
Lemma find_total C A cfg : wf_container C -> parse_ok C -> alt_ok A -> forall fuel index w, index <= length (mc_text cfg) -> length (mc_text cfg) - index < fuel -> total (find fuel C A cfg index w).
Proof.
  intros W PO AO. induction fuel as [|fuel IH]; intros index w L F; [lia|]. cbn [find]. apply total_if; [|apply total_ret]. rewrite slice_from_total by (unfold len; lia). cbn [bind].
  destruct (re_find phoneNumberMatcherPattern (skipn index (mc_text cfg))) as [loc|] eqn:E; [|apply total_ret]. apply candidate_ok in E as (Lb & c0 & c1 & Ec & NA). rewrite skipn_length in Lb. rewrite sub_skipn in Ec.
  unfold slice. rewrite (proj2 (Nat.leb_le _ _)) by lia. rewrite (proj2 (Nat.leb_le (index + m_end loc) _)) by (unfold len; lia). cbn [bind andb]. fold (sub (mc_text cfg) (index + m_start loc) (index + m_end loc)). rewrite Ec.
  assert (O : occurs (mc_text cfg) (c0 :: c1) (index + m_start loc)).
  { rewrite <- Ec. replace (index + m_start loc) with (index + m_start loc + 0) at 2 by lia. eapply occurs_trans; [|apply trim_occurs]. apply sub_occurs; lia. }
  apply total_bind; [apply extract_total; auto|]. intros [[p|] w1] _; [apply total_ret|]. pose proof (occurs_bound _ _ _ O) as OB. unfold len in *. simpl length in *. apply IH; lia.
Qed.
