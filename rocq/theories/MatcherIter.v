(** The iterator: order, work, independence of the consumer and of the try limit. *)
From Verif Require Import Base BaseFacts Utf8 Utf8Facts Regex RegexSpec RegexFacts LangFacts Consts Types Normalize Validate Format Parse Matcher MetaSpec FormatMore ParseSpec ParseMore MatcherSpec AytfFacts MatcherFacts MatcherRun MatcherTotal.
From Coq Require Import Sorting.Sorted.
Local Opaque re_find re_find_all re_match find.
Local Open Scope nat_scope.

Definition tries (m : matcher) := w_tries (mx_work m).
Definition ncalls (m : matcher) := w_calls (mx_work m).

Section run.
Variables (C : container) (A : alt_map).
Hypotheses (W : wf_container C) (PO : parse_ok C) (AO : alt_ok A).

Definition good_in (m : matcher) (p : pmatch) := text_good C A (mx_cfg m) p.
Lemma good_end m p : good_in m p -> pm_start p < pm_end p /\ pm_end p <= length (mc_text (mx_cfg m)).
Proof.
  intros (O & N & _). apply occurs_bound in O. unfold pm_end, len. destruct (pm_raw p); [congruence|]. simpl in *. lia.
Qed.

(** One step of the iteration, from a matcher that has not looked for the next match yet. *)
Lemma step_from m : mx_state m = NotReady -> mx_index m <= length (mc_text (mx_cfg m)) -> (-2 <= tries m)%Z ->
  exists m' b, hasNext C A m = Ret (m', b) /\ mx_cfg m' = mx_cfg m /\ (-2 <= tries m' <= tries m)%Z /\
  if b then exists p, mx_state m' = Ready /\ mx_last m' = Some p /\ good_in m p /\ mx_index m <= pm_start p /\ mx_index m' = pm_end p /\ ncalls m <= ncalls m' /\ (Z.of_nat (ncalls m') - Z.of_nat (ncalls m) <= tries m - tries m' + 2)%Z
  else mx_state m' = Done /\ ncalls m <= ncalls m' /\ (Z.of_nat (ncalls m') - Z.of_nat (ncalls m) <= tries m - tries m')%Z.
Proof.
  intros St L T. unfold hasNext. rewrite St.
  destruct (find_total C A (mx_cfg m) W PO AO (S (S (len (mc_text (mx_cfg m)) - mx_index m))) (mx_index m) (mx_work m) L ltac:(unfold len; lia)) as ([o w] & E).
  pose proof (find_holds C A (mx_cfg m) (S (S (len (mc_text (mx_cfg m)) - mx_index m))) (mx_index m) (mx_work m) L) as H. rewrite E in *. cbn [holds fst snd bind] in *. destruct H as (H1 & H2 & H3).
  unfold tries, ncalls in *. destruct o as [p|].
  - eexists _, true. split; [reflexivity|]. cbn [mx_cfg mx_work mx_state mx_last mx_index]. split; [reflexivity|]. split; [wk|]. exists p. destruct (H1 p eq_refl) as [G1 G2]. split; [reflexivity|]. split; [reflexivity|]. split; [exact G1|]. split; [exact G2|]. split; [reflexivity|]. wk.
  - eexists _, false. split; [reflexivity|]. cbn [mx_cfg mx_work mx_state mx_last mx_index]. split; [reflexivity|]. split; [wk|]. split; [reflexivity|]. wk.
Qed.
Lemma ready_has m : mx_state m = Ready -> hasNext C A m = Ret (m, true).
Proof. intros S. unfold hasNext. rewrite S. cbn [bind]. rewrite S. reflexivity. Qed.
Lemma ready_next m : mx_state m = Ready -> next C A m = Ret ({| mx_cfg := mx_cfg m; mx_work := mx_work m; mx_state := NotReady; mx_last := None; mx_index := mx_index m |}, mx_last m).
Proof. intros S. unfold next. rewrite ready_has by auto. reflexivity. Qed.

Lemma sorted_snoc (l : list pmatch) p : StronglySorted before l -> Forall (fun q => before q p) l -> StronglySorted before (l ++ [p]).
Proof.
  induction 1 as [|q l S IH F]; intros G; cbn [app]; [constructor; constructor|]. inversion G; subst. constructor; [auto|]. apply Forall_app. split; auto.
Qed.

(** The whole loop. *)
Lemma loop_ok yield fuel : forall m ms, mx_state m = NotReady -> mx_index m <= length (mc_text (mx_cfg m)) -> (-2 <= tries m)%Z -> length (mc_text (mx_cfg m)) - mx_index m < fuel ->
  Forall (good_in m) ms -> StronglySorted before ms -> Forall (fun q => pm_end q <= mx_index m) ms ->
  exists ms' m', range_loop fuel C A yield m (map Some ms) = Ret (map Some ms', m') /\ (exists more, ms' = ms ++ more) /\ Forall (good_in m) ms' /\ StronglySorted before ms' /\ (-2 <= tries m')%Z /\
    (Z.of_nat (ncalls m') - Z.of_nat (ncalls m) <= tries m - tries m' + 2 * (Z.of_nat (length ms') - Z.of_nat (length ms)))%Z /\ length ms' + mx_index m <= length ms + length (mc_text (mx_cfg m)).
Proof.
  induction fuel as [|fuel IH]; intros m ms S L T F G O B; [lia|]. cbn [range_loop].
  destruct (step_from m S L T) as (m1 & b & E & Ec & T1 & H). rewrite E. cbn [bind]. destruct b; cbn [negb].
  - destruct H as (p & S1 & P1 & Gp & Lp & I1 & N1 & K1). rewrite ready_next by auto. cbn [bind]. rewrite P1. change [Some p] with (map Some [p]). rewrite <- map_app. pose proof (good_end _ _ Gp) as [B1 B2].
    assert (G' : Forall (good_in m) (ms ++ [p])) by (apply Forall_app; split; auto).
    assert (O' : StronglySorted before (ms ++ [p])). { apply sorted_snoc; auto. eapply Forall_impl; [|exact B]. intros q Hq. unfold before. unfold pm_end, len in *. lia. }
    destruct (yield _).
    + set (m2 := {| mx_cfg := mx_cfg m1; mx_work := mx_work m1; mx_state := NotReady; mx_last := None; mx_index := mx_index m1 |}).
      assert (Ec2 : mx_cfg m2 = mx_cfg m) by (exact Ec). assert (I2 : mx_index m2 = pm_end p) by (exact I1). assert (T2 : tries m2 = tries m1) by reflexivity. assert (N2 : ncalls m2 = ncalls m1) by reflexivity. assert (S2 : mx_state m2 = NotReady) by reflexivity. clearbody m2.
      destruct (IH m2 (ms ++ [p])) as (ms' & m' & R & (more & ->) & G2 & O2 & T3 & K & Ln); auto.
      * rewrite Ec2, I2. auto.
      * rewrite T2. lia.
      * rewrite Ec2, I2. lia.
      * unfold good_in in *. rewrite Ec2. auto.
      * rewrite I2. apply Forall_app. split; [eapply Forall_impl; [|exact B]; cbv beta; intros; lia|constructor; auto].
      * exists ((ms ++ [p]) ++ more), m'. split; [exact R|]. split; [exists ([p] ++ more); rewrite app_assoc; auto|]. unfold good_in in *. rewrite Ec2 in *. split; [auto|]. split; [auto|]. split; [lia|]. rewrite !app_length in *. cbn [length] in *. rewrite I2 in *. split; lia.
    + exists (ms ++ [p]), {| mx_cfg := mx_cfg m1; mx_work := mx_work m1; mx_state := NotReady; mx_last := None; mx_index := mx_index m1 |}. split; [reflexivity|]. split; [eauto|]. split; [auto|]. split; [auto|]. unfold tries, ncalls in *. cbn [mx_work]. split; [lia|]. rewrite app_length. cbn [length]. lia.
  - destruct H as (S1 & N1 & K1). exists ms, m1. split; [reflexivity|]. split; [exists []; rewrite app_nil_r; auto|]. split; [auto|]. split; [auto|]. split; [lia|]. lia.
Qed.
Lemma run_ok text region l t yield : exists ms m, FindNumbersWithLeniency C A text region l t yield = Ret (map Some ms, m) /\ Forall (good_match C A text region l) ms /\ StronglySorted before ms /\
  (rejected m ms <= Z.max t 0 + 2 + Z.of_nat (length ms))%Z /\ length ms <= length text.
Proof.
  unfold FindNumbersWithLeniency. set (m0 := newPhoneNumberMatcher text region l t).
  assert (T0 : tries m0 = Z.max t 0). { unfold m0, newPhoneNumberMatcher, tries. cbn [mx_work w_tries]. destruct (t <? 0)%Z eqn:E; [apply Z.ltb_lt in E|apply Z.ltb_ge in E]; lia. }
  destruct (loop_ok yield (S (S (len text))) m0 []) as (ms & m & R & _ & G & O & T & K & Ln); try lia; try (cbn; unfold len; lia); try constructor.
  exists ms, m. split; [exact R|]. split; [exact G|]. split; [exact O|]. unfold rejected, ncalls, tries in *. cbn [m0 newPhoneNumberMatcher mx_work w_calls w_tries mx_index mx_cfg mc_text length] in *. split; lia.
Qed.

(** The consumer decides when to stop, nothing else. *)
Lemma loop_yield yield fuel : forall m got l m', range_loop fuel C A (fun _ => true) m got = Ret (l, m') ->
  exists more m2 k, l = got ++ more /\ range_loop fuel C A yield m got = Ret (got ++ firstn k more, m2) /\ k <= length more /\ (k < length more -> 0 < k /\ yield (got ++ firstn k more) = false) /\
    forall j, 0 < j < k -> yield (got ++ firstn j more) = true.
Proof.
  induction fuel as [|fuel IH]; intros m got l m' R; [discriminate|]. cbn [range_loop] in *. destruct (hasNext C A m) as [[m1 b]| |]; cbn [bind] in *; try discriminate.
  destruct b; cbn [negb] in *.
  - destruct (next C A m1) as [[m2 p]| |]; cbn [bind] in *; try discriminate. destruct (IH _ _ _ _ R) as (more & m3 & k & -> & R' & Lk & K & J). exists (p :: more). destruct (yield (got ++ [p])) eqn:Y.
    + exists m3, (S k). rewrite <- app_assoc in *. cbn [app firstn length] in *. split; [reflexivity|]. split; [exact R'|]. split; [lia|]. split.
      * intros L. split; [lia|]. apply K. lia.
      * intros [|[|j]] Lj; [lia|exact Y|]. specialize (J (S j)). rewrite <- app_assoc in J. cbn [app] in J. apply J. lia.
    + exists m2, 1. rewrite <- app_assoc. cbn [app firstn length]. split; [reflexivity|]. split; [reflexivity|]. split; [lia|]. split; [intros; split; [lia|exact Y]|]. intros; lia.
  - injection R as <- <-. exists [], m1, 0. cbn [firstn length]. rewrite app_nil_r. split; [reflexivity|]. split; [reflexivity|]. split; [lia|]. split; lia.
Qed.

(** * A larger try limit only adds matches at the end *)
Definition more_tries (k : Z) (w : work) : work := {| w_tries := w_tries w + k; w_calls := w_calls w |}.
Definition agrees (k : Z) (r r' : M (option pmatch * work)) : Prop :=
  forall o w, r = Ret (o, w) -> r' = Ret (o, more_tries k w) \/ (o = None /\ (w_tries w <= 0)%Z).
Lemma more_called k w : called (more_tries k w) = more_tries k (called w). Proof. reflexivity. Qed.
Lemma more_dec k w : dec_tries (more_tries k w) = more_tries k (dec_tries w). Proof. unfold dec_tries, more_tries. cbn [w_tries w_calls]. f_equal. lia. Qed.
Lemma inner_loop_more cfg s off gs k : (0 <= k)%Z -> forall first w, agrees k (inner_loop C A cfg s off gs first w) (inner_loop C A cfg s off gs first (more_tries k w)).
Proof.
  intros K. induction gs as [|g gs IH]; intros first w o w' E; cbn [inner_loop] in *; [injection E as <- <-; auto|].
  destruct (w_tries w <=? 0)%Z eqn:T; [injection E as <- <-; apply Z.leb_le in T; auto|]. apply Z.leb_gt in T. replace (w_tries (more_tries k w) <=? 0)%Z with false by (symmetry; apply Z.leb_gt; unfold more_tries; cbn; lia).
  assert (Q : forall w1, (ij <- or_panic (group g 1) ;; let '(i, j) := ij in p <- parseAndVerify C A cfg (trimAfterFirstMatch unwantedEndCharPattern (sub s i j)) (off + i) ;;
     match p with Some p => Ret (Some p, called w1) | None => inner_loop C A cfg s off gs false (dec_tries (called w1)) end) = Ret (o, w') ->
     (ij <- or_panic (group g 1) ;; let '(i, j) := ij in p <- parseAndVerify C A cfg (trimAfterFirstMatch unwantedEndCharPattern (sub s i j)) (off + i) ;;
     match p with Some p => Ret (Some p, called (more_tries k w1)) | None => inner_loop C A cfg s off gs false (dec_tries (called (more_tries k w1))) end) = Ret (o, more_tries k w') \/ (o = None /\ (w_tries w' <= 0)%Z)).
  { intros w1 E1. destruct (or_panic (group g 1)) as [[i j]| |]; cbn [bind] in *; try discriminate. destruct (parseAndVerify _ _ _ _ (off + i)) as [[p|]| |]; cbn [bind] in *; try discriminate.
    - injection E1 as <- <-. left. rewrite more_called. reflexivity.
    - rewrite more_called, more_dec. apply IH. exact E1. }
  destruct first; cbn [bind] in *; [|apply Q; auto]. destruct (parseAndVerify _ _ _ _ off) as [[p|]| |]; cbn [bind] in *; try discriminate.
  - injection E as <- <-. left. rewrite more_called. reflexivity.
  - rewrite more_called, more_dec. apply Q. exact E.
Qed.
Lemma inner_spent cfg s off pats w : (w_tries w <= 0)%Z -> extractInnerMatch C A cfg s off pats w = Ret (None, w).
Proof.
  intros T. induction pats as [|x pats IH]; cbn [extractInnerMatch]; [reflexivity|]. assert (E : forall gs, inner_loop C A cfg s off gs true w = Ret (None, w)).
  { intros [|g gs]; cbn [inner_loop]; [reflexivity|]. rewrite (proj2 (Z.leb_le _ _) T). reflexivity. }
  rewrite E. cbn [bind]. exact IH.
Qed.
Lemma inner_more cfg s off pats k : (0 <= k)%Z -> forall w, agrees k (extractInnerMatch C A cfg s off pats w) (extractInnerMatch C A cfg s off pats (more_tries k w)).
Proof.
  intros K. induction pats as [|x pats IH]; intros w o w' E; cbn [extractInnerMatch] in *; [injection E as <- <-; auto|].
  pose proof (inner_loop_more cfg s off (re_find_all x s) k K true w) as H. destruct (inner_loop C A cfg s off (re_find_all x s) true w) as [[[p|] w1]| |]; cbn [bind] in *; try discriminate.
  - injection E as <- <-. destruct (H _ _ eq_refl) as [-> |[? _]]; [|discriminate]. auto.
  - destruct (H _ _ eq_refl) as [-> |[_ T]]; [cbn [bind]; apply IH; auto|]. rewrite inner_spent in E by auto. injection E as <- <-. auto.
Qed.
Lemma extract_more cfg s off k : (0 <= k)%Z -> forall w, agrees k (extractMatch C A cfg s off w) (extractMatch C A cfg s off (more_tries k w)).
Proof.
  intros K w o w' E. unfold extractMatch in *. destruct (re_match _ _); [injection E as <- <-; auto|]. destruct (is_timestamp _ _ _) as [[|]| |]; cbn [bind] in *; try discriminate; [injection E as <- <-; auto|].
  destruct (parseAndVerify _ _ _ _ _) as [[p|]| |]; cbn [bind] in *; try discriminate; [injection E as <- <-; auto|]. rewrite more_called. apply (inner_more _ _ _ _ k K); auto.
Qed.
Local Transparent find.
Lemma find_more cfg k : (0 <= k)%Z -> forall fuel index w, agrees k (find fuel C A cfg index w) (find fuel C A cfg index (more_tries k w)).
Proof.
  intros K. induction fuel as [|fuel IH]; intros index w o w' E; cbn [find] in *; [discriminate|]. destruct (0 <? w_tries w)%Z eqn:T.
  2:{ apply Z.ltb_ge in T. injection E as <- <-. auto. }
  apply Z.ltb_lt in T. replace (0 <? w_tries (more_tries k w))%Z with true by (symmetry; apply Z.ltb_lt; unfold more_tries; cbn; lia).
  destruct (slice_from _ _) as [rest| |]; cbn [bind] in *; try discriminate. destruct (re_find _ _) as [loc|]; [|injection E as <- <-; auto].
  destruct (slice _ _ _) as [cand| |]; cbn [bind] in *; try discriminate.
  pose proof (extract_more cfg (trimAfterFirstMatch secondNumberStartPattern cand) (index + m_start loc) k K w) as H. destruct (extractMatch _ _ _ _ _ w) as [[[p|] w1]| |]; cbn [bind] in *; try discriminate.
  - injection E as <- <-. destruct (H _ _ eq_refl) as [-> |[? _]]; [|discriminate]. auto.
  - destruct (H _ _ eq_refl) as [-> |[_ T1]]; [cbn [bind]; rewrite more_dec; apply IH; auto|]. destruct fuel as [|fuel]; cbn [find] in E; [discriminate|]. replace (0 <? w_tries (dec_tries w1))%Z with false in E by (symmetry; apply Z.ltb_ge; cbn; lia).
    injection E as <- <-. right. split; [auto|]. cbn. lia.
Qed.
Local Opaque find.
Definition with_more (k : Z) (m : matcher) : matcher := {| mx_cfg := mx_cfg m; mx_work := more_tries k (mx_work m); mx_state := mx_state m; mx_last := mx_last m; mx_index := mx_index m |}.
Lemma range_grows yield fuel : forall m got l m', range_loop fuel C A yield m got = Ret (l, m') -> exists more, l = got ++ more.
Proof.
  induction fuel as [|fuel IH]; intros m got l m' R; [discriminate|]. cbn [range_loop] in R. destruct (hasNext C A m) as [[m1 b]| |]; cbn [bind] in *; try discriminate.
  destruct b; cbn [negb] in *; [|injection R as <- <-; exists []; rewrite app_nil_r; auto]. destruct (next C A m1) as [[m2 p]| |]; cbn [bind] in *; try discriminate. destruct (yield _); [|injection R as <- <-; eauto].
  apply IH in R as (more & ->). rewrite <- app_assoc. eauto.
Qed.
Lemma range_more k fuel : (0 <= k)%Z -> forall m got l m' l2 m2, mx_state m = NotReady ->
  range_loop fuel C A (fun _ => true) m got = Ret (l, m') -> range_loop fuel C A (fun _ => true) (with_more k m) got = Ret (l2, m2) -> exists more, l2 = l ++ more.
Proof.
  intros K. induction fuel as [|fuel IH]; intros m got l m' l2 m2 S R R2; [discriminate|]. pose proof (range_grows _ _ _ _ _ _ R2) as (more & Eg). cbn [range_loop] in R, R2. unfold hasNext in R, R2. cbn [with_more mx_state] in R2. rewrite S in R, R2. cbn [with_more mx_cfg mx_index mx_work] in R2.
  pose proof (find_more (mx_cfg m) k K (Datatypes.S (Datatypes.S (len (mc_text (mx_cfg m)) - mx_index m))) (mx_index m) (mx_work m)) as H.
  destruct (find (Datatypes.S _) C A (mx_cfg m) (mx_index m) (mx_work m)) as [[[p|] w]| |]; cbn [bind mx_state negb] in R; try discriminate.
  - destruct (H _ _ eq_refl) as [E|[? _]]; [|discriminate]. rewrite E in R2. cbn [bind mx_state negb] in R2. rewrite ready_next in R, R2 by reflexivity. cbn [bind mx_cfg mx_work mx_index mx_last] in R, R2.
    refine (IH _ _ _ _ _ _ _ R _); [reflexivity|]. exact R2.
  - injection R as <- <-. eauto.
Qed.
End run.
