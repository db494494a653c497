(** Finding all the numbers of a text: the checks a written number passes, and the run of the iterator. *)
From Verif Require Import Base BaseFacts UnicodeTables Utf8 Utf8Facts Regex RegexSpec RegexFacts LangFacts Consts Types Normalize Validate Format Parse Matcher MetaSpec ParseSpec ParseMore
  MatcherSpec MatcherFacts MatcherRun MatcherIter DerivFacts ExtFacts FindSpec FindFacts.
Local Opaque re_find re_find_all re_match.

(** Every word contains c. *)
Fixpoint must (c : N) (r : regex) : bool :=
  match r with
  | RClass {| cneg := false; citems := [CR lo hi]; cfold := false |} => (lo =? c) && (hi =? c)
  | RCat a b => must c a || must c b
  | RAlt a b => must c a && must c b
  | RGroup _ a => must c a
  | _ => false
  end.
Lemma must_ok c r w : lang r w -> must c r = true -> In c w.
Proof.
  induction 1; intros M; cbn [must] in M; try discriminate.
  - destruct k as [ng [|[lo hi|u|u] [|j l]] fo]; try (destruct ng; try discriminate; destruct fo; discriminate); destruct ng; try discriminate; destruct fo; try discriminate.
    apply andb_true_iff in M as [M1 M2]. apply N.eqb_eq in M1, M2. subst. unfold cls_match, items_match in H. cbn [cfold cneg citems existsb citem_match] in H. rewrite orb_false_r, in_rng_iff in H. left. lia.
  - apply orb_true_iff in M as [M|M]; apply in_or_app; auto.
  - apply andb_true_iff in M as [M1 M2]. auto.
  - apply andb_true_iff in M as [M1 M2]. auto.
  - auto.
Qed.
Lemma boundary_runes s i : boundary s i -> forall c, In c (runes (skipn i s)) -> In c (runes s).
Proof.
  induction 1 as [|s c t i D B IH]; [auto|]. intros x I. pose proof (decode_rune_spec _ _ _ D) as (v & E & _). rewrite (runes_step _ _ _ D). right. apply IH.
  replace (len s - len t + i)%nat with (length v + i)%nat in I by (unfold len; rewrite E, app_length; lia). rewrite E, skipn_app in I. rewrite skipn_all2 in I by lia. cbn [app] in I.
  replace (length v + i - length v)%nat with i in I by lia. exact I.
Qed.
Lemma must_match c x s : must c (re_ast x) = true -> ascii s -> ~ In c s -> re_match x s = false.
Proof.
  intros M A N0. destruct (re_match x s) eqn:E; auto. exfalso. apply re_match_iff in E as (i & e & w & cs & B & D). apply derives_lang in D as (v & Ev & L).
  apply N0. rewrite <- (runes_ascii s A). apply (boundary_runes _ _ B). rewrite (eats_runes _ _ _ Ev). apply in_or_app. left. exact (must_ok _ _ _ L M).
Qed.

(** The characters of a written number. *)
Definition wchar (c : N) : Prop := 48 <= c <= 57 \/ c = 32 \/ c = 45 \/ c = 46 \/ c = 43.
Lemma tail_chars l : Forall (fun x => gap (fst x) /\ digit_group (snd x)) l -> Forall wchar (tail_of l).
Proof.
  unfold tail_of. induction 1 as [|[g d] l [[G _] [D _]] F IH]; [constructor|]. cbn [map concat fst snd] in *. apply Forall_app. split; [apply Forall_app; split|exact IH].
  - eapply Forall_impl; [|exact G]. unfold wchar. intros c H. cbv beta in H. tauto.
  - eapply Forall_impl; [|exact D]. unfold wchar. intros c H. cbv beta in H. tauto.
Qed.
Lemma written_chars w : written w -> Forall wchar w /\ exists c t, w = c :: t /\ (48 <= c <= 57 \/ c = 43).
Proof.
  intros (p & d & l & P & [D Ld] & Gl & _ & ->). fold (tail_of l). split.
  - apply Forall_app. split; [destruct P as [-> | ->]; repeat constructor; unfold wchar; tauto|]. apply Forall_app. split; [|apply tail_chars; auto]. eapply Forall_impl; [|exact D]. unfold wchar. intros c H. cbv beta in H. tauto.
  - destruct P as [-> | ->]; cbn [app]; [|eauto 6]. destruct d as [|c d]; [cbn [length] in Ld; lia|]. inv D. cbn [app]. eauto 6.
Qed.
Lemma wchar_ascii w : Forall wchar w -> ascii w.
Proof. intros F. eapply Forall_impl; [|exact F]. unfold wchar. intros c H. cbv beta in H. lia. Qed.
Lemma wchar_no c w : Forall wchar w -> ~ wchar c -> ~ In c w.
Proof. intros F N0 I. rewrite Forall_forall in F. auto. Qed.
Lemma written_dates w : written w -> re_match slashSeparatedDates w = false.
Proof. intros H. destruct (written_chars w H) as [F _]. apply (must_match 47); [vm_compute; reflexivity|apply wchar_ascii; auto|apply wchar_no; auto; unfold wchar; lia]. Qed.
Lemma written_pages w : written w -> re_match pubPages w = false.
Proof. intros H. destruct (written_chars w H) as [F _]. apply (must_match 40); [vm_compute; reflexivity|apply wchar_ascii; auto|apply wchar_no; auto; unfold wchar; lia]. Qed.
Lemma written_trim w : written w -> trimAfterFirstMatch secondNumberStartPattern w = w.
Proof.
  intros H. destruct (written_chars w H) as [F _]. unfold trimAfterFirstMatch. destruct (re_find secondNumberStartPattern w) as [m|] eqn:E; auto. exfalso.
  assert (R : re_match secondNumberStartPattern w = true). { Local Transparent re_match. unfold re_match. rewrite E. reflexivity. Local Opaque re_match. }
  apply re_match_iff in R as (i & e & v & cs & B & D). apply derives_lang in D as (x & Ex & L). destruct (second_first _ L) as (c & t & -> & Hc).
  assert (I : In c w). { rewrite <- (runes_ascii w (wchar_ascii w F)). apply (boundary_runes _ _ B). rewrite (eats_runes _ _ _ Ex). apply in_or_app. left. left. auto. }
  rewrite Forall_forall in F. apply F in I. unfold wchar in I. lia.
Qed.
(** The brackets of a text without brackets match. *)
Lemma star_all g k s : forall p cs t, Forall (fun c => c < 128 /\ cls_match k c = true) s -> derives (RStar g (RClass k)) p (s ++ t) cs (p + length s) t cs.
Proof.
  induction s as [|c s IH]; intros p cs t F; [cbn [app length]; rewrite Nat.add_0_r; constructor|]. inv F. match goal with H : _ /\ _ |- _ => destruct H as [Hc Hm] end.
  eapply D_star_more; [cbn [app]; eapply D_class; [apply decode_ascii; auto|auto]| |].
  - unfold len. cbn [app length]. lia.
  - cbn [app]. replace (p + (len (c :: s ++ t) - len (s ++ t)))%nat with (p + 1)%nat by (unfold len; cbn [length]; lia). replace (p + length (c :: s))%nat with (p + 1 + length s)%nat by (cbn [length]; lia). apply IH; auto.
Qed.
Definition np_cls : cls := Eval vm_compute in match re_ast matchingBrackets with RCat _ (RCat _ (RCat _ (RCat (RCat (RClass k) _) _))) => k | _ => any_not_nl end.
Lemma brackets_shape : exists a b c, re_ast matchingBrackets =
  RCat RBegin (RCat (RAlt a REmpty) (RCat (RAlt b REmpty) (RCat (RCat (RClass np_cls) (RStar true (RClass np_cls))) (RCat (RAlt c REmpty) (RCat (RStar true (RClass np_cls)) REnd))))).
Proof. do 3 eexists. vm_compute. reflexivity. Qed.
Lemma wchar_np c : wchar c -> c < 128 /\ cls_match np_cls c = true.
Proof.
  intros H. assert (A : forallb (fun c => (c <? 128) && cls_match np_cls c) [48; 49; 50; 51; 52; 53; 54; 55; 56; 57; 32; 45; 46; 43] = true) by (vm_compute; reflexivity).
  rewrite forallb_forall in A. specialize (A c ltac:(unfold wchar in H; cbn [In]; lia)). apply andb_true_iff in A as [A1 A2]. apply N.ltb_lt in A1. auto.
Qed.
Lemma written_brackets w : written w -> re_match matchingBrackets w = true.
Proof.
  intros H. destruct (written_chars w H) as [F (c & t & -> & _)]. assert (F' : Forall (fun c => c < 128 /\ cls_match np_cls c = true) (c :: t)). { eapply Forall_impl; [|exact F]. apply wchar_np. }
  apply re_match_iff. destruct brackets_shape as (x & y & z & E). rewrite E. exists 0%nat, (1 + length t)%nat, [], []. split; [constructor|]. cbn [skipn]. inv F'. match goal with H : _ /\ _ |- _ => destruct H as [Hc Hm] end.
  eapply D_cat; [constructor|]. eapply D_cat; [apply D_alt_r; constructor|]. eapply D_cat; [apply D_alt_r; constructor|]. eapply D_cat.
  - eapply D_cat; [eapply D_class; [apply decode_ascii; auto|auto]|]. replace (0 + (len (c :: t) - len t))%nat with 1%nat by (unfold len; cbn [length]; lia). rewrite <- (app_nil_r t) at 1. apply star_all. auto.
  - eapply D_cat; [apply D_alt_r; constructor|]. eapply D_cat; [apply D_star_done|constructor].
Qed.
Lemma plus_leads t : is_some (re_find leadClassPattern (43 :: t)) = true.
Proof.
  change (re_match leadClassPattern (43 :: t) = true). apply re_match_iff. exists 0%nat, 1%nat, t, []. split; [constructor|]. cbn [skipn].
  assert (Sh : exists k, re_ast leadClassPattern = RCat RBegin (RClass k) /\ cls_match k 43 = true) by (eexists; split; vm_compute; reflexivity). destruct Sh as (k & -> & K).
  eapply D_cat; [constructor|]. replace 1%nat with (0 + (len (43%N :: t) - len t))%nat at 1 by (unfold len; cbn [length]; lia). eapply D_class; [apply decode_ascii; lia|exact K].
Qed.
(** A time of day cannot follow. *)
Lemma suffix_words w : lang (re_ast timeStampsSuffix) w -> exists c t, w = 58 :: c :: t /\ 48 <= c <= 57.
Proof.
  intros L. unfold timeStampsSuffix in L. cbn [re_ast] in L. inversion L as [| |a b v u L1 L2 E1 E2| | | | | | |]; subst. inversion L1 as [|k c K| | | | | | | |]; subst.
  inversion L2 as [| |a b v u' L3 L4 E1 E2| | | | | | |]; subst. inversion L3 as [|k c' K'| | | | | | | |]; subst. exists c', u'. unfold cls_match, items_match in K, K'. cbn [cfold cneg citems existsb citem_match] in K, K'.
  rewrite orb_false_r, in_rng_iff in K, K'. assert (c = 58) by lia. subst. split; [reflexivity|lia].
Qed.
Lemma after_time u t : after u t -> forall m, re_find timeStampsSuffix (u ++ t) = Some m -> m_start m <> 0%nat.
Proof.
  intros [(l & Sl & -> & Ql) B] m E Z. apply re_find_sound in E as (L1 & L2 & D & _). rewrite Z in D. cbn [skipn] in D. apply derives_lang in D as (w & Ew & Lw). destruct (suffix_words w Lw) as (c & w' & -> & Hc).
  assert (Nd : is_Nd c = true) by (apply digit_nd; auto). apply eats_prefix in Ew; auto. destruct Ew as [(x & y & -> & <-)|(z & Nz & Ez & Ew)].
  - apply Forall_app in Ql as [Ql _]. inversion Ql as [|? ? _ Q2]; subst. inversion Q2 as [|? ? Q3 _]; subst. unfold opens in Q3. rewrite Nd in Q3. discriminate.
  - assert (Z1 : forall z0 z', z = z0 :: z' -> z0 = 43 \/ exists b, In b (encode_runes l) /\ In b breaking).
    { intros z0 z' ->. destruct B as [->|[(t' & ->)|(b & Ib & Kb)]]; [inversion Ew; subst; discriminate| |right; eauto]. left. inversion Ew as [|s0 c0 t0 w0 u0 D0 E0]; subst. rewrite decode_ascii in D0 by lia. inv D0. reflexivity. }
    destruct z as [|z0 z]; [congruence|]. specialize (Z1 z0 z eq_refl). destruct l as [|l0 [|l1 l]].
    + cbn [app] in Ez. injection Ez as <- _. destruct Z1 as [Z1|(b & [] & _)]. discriminate.
    + cbn [app] in Ez. injection Ez as <- <- _. destruct Z1 as [-> |(b & Ib & Kb)]; [lia|]. destruct (rest_avoids 0 b Kb) as [Lb _]. apply encode_in in Ib; auto. destruct Ib as [<-|[]].
      assert (X : existsb (N.eqb 58) breaking = true) by (apply existsb_exists; exists 58; split; [auto|apply N.eqb_refl]). vm_compute in X. discriminate.
    + cbn [app] in Ez. injection Ez as <- <- _. inversion Ql as [|? ? _ Q2]; subst. inversion Q2 as [|? ? Q3 _]; subst. unfold opens in Q3. rewrite Nd in Q3. discriminate.
Qed.

(** * One round *)
Lemma slice_from_app a b : slice_from (a ++ b) (length a) = Ret b.
Proof.
  unfold slice_from, slice. unfold len. rewrite app_length. replace (_ && _) with true by (symmetry; apply andb_true_iff; split; apply Nat.leb_le; lia).
  f_equal. rewrite skipn_app, skipn_all, Nat.sub_diag. cbn [app skipn]. apply firstn_all2. lia.
Qed.
Lemma slice_to_app a b : slice_to (a ++ b) (length a) = Ret a.
Proof.
  unfold slice_to, slice. unfold len. rewrite app_length. replace (_ && _) with true by (symmetry; apply andb_true_iff; split; apply Nat.leb_le; lia).
  f_equal. cbn [skipn]. rewrite Nat.sub_0_r, firstn_app, firstn_all, Nat.sub_diag. cbn [firstn]. apply app_nil_r.
Qed.
Lemma slice_mid a w b : slice (a ++ w ++ b) (length a) (length a + length w) = Ret w.
Proof.
  unfold slice. unfold len. rewrite !app_length. replace (_ && _) with true by (symmetry; apply andb_true_iff; split; apply Nat.leb_le; lia).
  f_equal. rewrite skipn_app, skipn_all, Nat.sub_diag. cbn [app skipn]. replace (length a + length w - length a)%nat with (length w) by lia. rewrite firstn_app, firstn_all, Nat.sub_diag. cbn [firstn]. apply app_nil_r.
Qed.
Lemma fine_no l c : (1 <= l)%Z -> fine l c -> isInvalidPunctuationSymbol c || isLatinLetter c = false.
Proof. intros L F. destruct (F L) as [F1 F2]. rewrite latin_word, F1, orb_false_r. exact F2. Qed.
Lemma good_neighbours l pre w v : (1 <= l)%Z -> pre = [] \/ (exists t, w = 43 :: t) \/ fine l (decode_last_rune pre) -> (forall c t, decode_rune v = Some (c, t) -> fine l c) ->
  bad_neighbours (pre ++ w ++ v) w (length pre) = Ret false.
Proof.
  intros L P V. unfold bad_neighbours. cbv zeta.
  assert (B1 : (if (0 <? length pre)%nat && negb (is_some (re_find leadClassPattern w)) then t <- slice_to (pre ++ w ++ v) (length pre) ;; Ret (isInvalidPunctuationSymbol (decode_last_rune t) || isLatinLetter (decode_last_rune t)) else Ret false) = Ret false).
  { destruct P as [-> |[(t & ->)|P]]; [reflexivity|rewrite plus_leads; cbn [negb]; rewrite andb_false_r; reflexivity|]. destruct (_ && _); [|reflexivity]. rewrite slice_to_app. cbn [bind]. cbv zeta. rewrite (fine_no l) by auto. reflexivity. }
  rewrite B1. cbn [bind]. cbv zeta. destruct (length pre + len w <? len (pre ++ w ++ v))%nat eqn:Q; [|reflexivity].
  rewrite app_assoc. replace (length pre + len w)%nat with (length (pre ++ w)) by (unfold len; rewrite app_length; lia). rewrite slice_from_app. cbn [bind]. destruct (decode_rune v) as [[c t]|] eqn:D; [rewrite (fine_no l); eauto|].
  exfalso. apply decode_rune_none in D. subst v. apply Nat.ltb_lt in Q. unfold len in Q. rewrite !app_length in Q. cbn [length] in Q. lia.
Qed.
Lemma fine_next l u t : (forall c s, decode_rune u = Some (c, s) -> fine l c) -> after u t -> forall c s, decode_rune (u ++ t) = Some (c, s) -> fine l c.
Proof.
  intros F [(r & Sr & -> & Qr) B] c s D. destruct r as [|x r].
  - cbn [encode_runes flat_map app] in D. destruct B as [->|[(t' & ->)|(b & [] & _)]]; [discriminate|]. rewrite decode_ascii in D by lia. inv D. intros _. vm_compute. auto.
  - change (encode_runes (x :: r)) with (encode_rune x ++ encode_runes r) in *. inv Sr. rewrite <- app_assoc, decode_encode in D by auto. inv D. eapply F. apply decode_encode. auto.
Qed.
Local Opaque phoneNumberMatcherPattern.
Lemma round_hit C A region l pre u0 w u t n wk f : quiet u0 -> written w -> pre ++ u0 = [] \/ (exists t, w = 43 :: t) \/ fine l (decode_last_rune (pre ++ u0)) -> (forall c s, decode_rune u = Some (c, s) -> fine l c) -> after u t ->
  stands C A region l w n -> (0 < w_tries wk)%Z ->
  find (S f) C A {| mc_text := (pre ++ u0) ++ w ++ u ++ t; mc_region := region; mc_len := l |} (length pre) wk =
    Ret (Some {| pm_start := (length pre + length u0)%nat; pm_raw := w; pm_number := n |}, called wk).
Proof.
  intros Q0 Hw P F A0 (r & Pr & V & ->) Tr. cbn [find]. apply Z.ltb_lt in Tr. rewrite Tr. cbn [mc_text].
  rewrite <- app_assoc at 1. rewrite slice_from_app. cbn [bind]. destruct (find_written u0 w u t Q0 Hw A0) as (m & -> & Ms & Me). rewrite Ms, Me. rewrite Nat.add_assoc.
  rewrite <- app_length. rewrite slice_mid. cbn [bind]. rewrite (written_trim w Hw). unfold extractMatch. rewrite (written_dates w Hw).
  assert (TS : is_timestamp ((pre ++ u0) ++ w ++ u ++ t) w (length (pre ++ u0)) = Ret false).
  { unfold is_timestamp. destruct (re_match timeStamps w); [|reflexivity]. rewrite (app_assoc (pre ++ u0)). replace (length (pre ++ u0) + len w)%nat with (length ((pre ++ u0) ++ w)) by (unfold len; rewrite app_length; lia).
    rewrite slice_from_app. cbn [bind]. destruct (re_find timeStampsSuffix (u ++ t)) as [m'|] eqn:E; [|reflexivity]. pose proof (after_time u t A0 m' E) as N0. f_equal. apply Nat.eqb_neq. exact N0. }
  cbn [mc_text]. rewrite TS. cbn [bind]. unfold parseAndVerify. rewrite (written_brackets w Hw), (written_pages w Hw). cbn [negb orb mc_len mc_text mc_region].
  assert (BN : (if (VALID <=? l)%Z then bad_neighbours ((pre ++ u0) ++ w ++ u ++ t) w (length (pre ++ u0)) else Ret false) = Ret false).
  { destruct (VALID <=? l)%Z eqn:Lv; [|reflexivity]. apply Z.leb_le in Lv. apply (good_neighbours l); auto. apply fine_next; auto. }
  rewrite BN. cbn [bind]. unfold ParseAndKeepRawInput in Pr. rewrite Pr. cbn [bind]. rewrite V. cbn [bind]. reflexivity.
Qed.
Lemma round_miss C A region l pre u0 wk f : quiet u0 -> find (S f) C A {| mc_text := pre ++ u0; mc_region := region; mc_len := l |} (length pre) wk = Ret (None, wk).
Proof. intros Q. cbn [find]. destruct (0 <? w_tries wk)%Z; [|reflexivity]. cbn [mc_text]. rewrite slice_from_app. cbn [bind]. rewrite (find_quiet u0 Q). reflexivity. Qed.
Local Opaque find.

(** * All rounds *)
Lemma laid_after l pre u ps : laid l pre ps -> quiet u -> apart u ps -> after u (concat (map (fun x => fst x ++ snd x) ps)).
Proof.
  intros Ld Q Ap. split; [exact Q|]. destruct ps as [|[w v] ps]; [left; reflexivity|]. right. cbn [apart] in Ap. destruct Ap as [(t & ->)|H]; [left|right; exact H]. cbn [map concat fst snd app]. eauto.
Qed.
Lemma range_all C A region l : forall ps ns pre u0 fuel wk got, quiet u0 -> laid l (pre ++ u0) ps -> Forall2 (fun x n => stands C A region l (fst x) n) ps ns -> (length ps < fuel)%nat -> (0 < w_tries wk)%Z ->
  exists m, range_loop fuel C A (fun _ => true) {| mx_cfg := {| mc_text := pre ++ laid_text u0 ps; mc_region := region; mc_len := l |}; mx_work := wk; mx_state := NotReady; mx_last := None; mx_index := length pre |} got =
    Ret (got ++ hits (length pre + length u0) ps ns, m) /\ rejected m [] = Z.of_nat (w_calls wk + length ps).
Proof.
  induction ps as [|[w u] ps IH]; intros ns pre u0 fuel wk got Q Ld F2 Lf Tr.
  - inv F2. destruct fuel as [|fuel]; [cbn [length] in Lf; lia|]. unfold laid_text. cbn [map concat]. rewrite app_nil_r. cbn [range_loop]. unfold hasNext. cbn [mx_state mx_cfg mx_index mx_work mc_text].
    rewrite (round_miss C A region l pre u0) by auto. cbn [bind mx_state negb hits]. rewrite app_nil_r. eexists. split; [reflexivity|]. unfold rejected. cbn [mx_work w_calls length]. lia.
  - inversion F2 as [|x n ps' ns' St F2']; subst. cbn [fst] in St. inversion Ld as [|pre' w' u' rest Hw Hp Hu Hf Ha Ld']; subst. destruct fuel as [|fuel]; [cbn [length] in Lf; lia|].
    assert (Et : pre ++ laid_text u0 ((w, u) :: ps) = (pre ++ u0) ++ w ++ u ++ concat (map (fun x => fst x ++ snd x) ps)) by (unfold laid_text; cbn [map concat fst snd]; rewrite <- !app_assoc; reflexivity).
    assert (Af : after u (concat (map (fun x => fst x ++ snd x) ps))) by (eapply laid_after; eauto).
    cbn [range_loop]. unfold next, hasNext. cbn [mx_state mx_cfg mx_index mx_work mc_text]. rewrite Et. rewrite (round_hit C A region l pre u0 w u _ n) by auto. cbn [bind mx_state mx_cfg mx_index mx_work mx_last negb].
    destruct (IH ns' ((pre ++ u0) ++ w) u fuel (called wk) (got ++ [Some {| pm_start := length pre + length u0; pm_raw := w; pm_number := n |}]) Hu) as (m & E & R); auto.
    + rewrite <- app_assoc. exact Ld'.
    + cbn [length] in Lf. lia.
    + exists m. cbn [pm_end pm_start pm_raw]. unfold pm_end. cbn [pm_start pm_raw].
      replace ((pre ++ u0) ++ w ++ u ++ concat (map (fun x => fst x ++ snd x) ps)) with (((pre ++ u0) ++ w) ++ laid_text u ps) by (unfold laid_text; rewrite <- !app_assoc; reflexivity).
      replace (length pre + length u0 + len w)%nat with (length ((pre ++ u0) ++ w)) by (unfold len; rewrite !app_length; lia). rewrite E. split.
      * f_equal. f_equal. cbn [hits]. rewrite <- app_assoc. cbn [app]. do 3 f_equal. rewrite !app_length. reflexivity.
      * rewrite R. cbn [called w_calls length]. lia.
Qed.
Lemma laid_long l pre ps : laid l pre ps -> (length ps <= length (concat (map (fun x : bytes * bytes => fst x ++ snd x) ps)))%nat.
Proof.
  induction 1 as [|pre w u rest Hw _ _ _ _ _ IH]; [cbn [length]; lia|]. cbn [map concat fst snd length]. rewrite !app_length. destruct (written_chars w Hw) as [_ (c & t & -> & _)]. cbn [length]. lia.
Qed.
Theorem all_found C A region l t u0 ps ns : (0 < t)%Z -> quiet u0 -> laid l u0 ps -> Forall2 (fun x n => stands C A region l (fst x) n) ps ns ->
  exists m, FindNumbersWithLeniency C A (laid_text u0 ps) region l t (fun _ => true) = Ret (hits (length u0) ps ns, m) /\ rejected m (flat_map (fun o => match o with Some p => [p] | None => [] end) (hits (length u0) ps ns)) = 0%Z.
Proof.
  intros T Q Ld F2. unfold FindNumbersWithLeniency, newPhoneNumberMatcher. replace (t <? 0)%Z with false by (symmetry; apply Z.ltb_ge; lia).
  destruct (range_all C A region l ps ns [] u0 (S (S (len (laid_text u0 ps)))) {| w_tries := t; w_calls := 0 |} [] Q Ld F2) as (m & E & R); [pose proof (laid_long _ _ _ Ld) as Lp; unfold len, laid_text; rewrite app_length; unfold bytes in *; lia|exact T|].
  exists m. split; [exact E|]. unfold rejected in *. cbn [length w_calls] in R. assert (L : forall pos, length (flat_map (fun o : option pmatch => match o with Some p => [p] | None => [] end) (hits pos ps ns)) = length ps).
  { clear - F2. revert ns F2. induction ps as [|[w u] ps IH]; intros ns F2 pos; inversion F2; subst; [reflexivity|]. cbn [hits flat_map app length]. rewrite IH; auto. }
  rewrite L. lia.
Qed.
