(** Properties C29 to C32 and C53, and the matcher part of C46: finding phone numbers in text. *)
From Verif Require Import Base BaseFacts Utf8 Regex Consts Types Normalize Validate Format Parse Shipped AltData Matcher NumberSpec MetaSpec MetaFacts ValidateSpec ValidateFacts FormatMore ParseSpec ParseFacts ParseMore
  MatcherSpec MatcherFacts MatcherRun MatcherTotal MatcherIter.
From Coq Require Import Sorting.Sorted.

(** The alternate formats that ship with the library. *)
Definition shipped_alt : alt_map := alt_map_of alt_collection.
Lemma shipped_alt_checked : forallb (fun x => forallb wf_format_b (md_nf (snd x))) shipped_alt = true.
Proof. vm_cast_no_check (eq_refl true). Qed.
Lemma shipped_alt_ok : alt_ok shipped_alt.
Proof. intros cc m I. pose proof shipped_alt_checked as F. rewrite forallb_forall in F. eapply forallb_Forall; [apply wf_format_b_ok|apply (F _ I)]. Qed.

(** Witness texts. *)
Definition all_of (_ : list (option pmatch)) : bool := true.
Definition first_only (_ : list (option pmatch)) : bool := false.
Definition note : bytes := bs "call 650-253-0000 or (415) 666-7777 x12 today".
Definition positions (r : M (list (option pmatch) * matcher)) : list (option (nat * nat)) :=
  match r with Ret (ms, _) => map (option_map (fun p => (pm_start p, pm_end p))) ms | _ => [None] end.

(** * C29: whatever the text, the region, the leniency, the limit and the consumer, the search ends without a panic, and hands over only real matches:
    each occurs in the text where it says it does, is not empty, and ends before the next one starts. *)
Theorem C29_matches : forall C A text region l t yield, wf_container C -> parse_ok C -> alt_ok A ->
  exists ms m, FindNumbersWithLeniency C A text region l t yield = Ret (map Some ms, m) /\
    Forall (fun p => sub text (pm_start p) (pm_end p) = pm_raw p /\ (pm_start p < pm_end p <= length text)%nat) ms /\
    StronglySorted (fun p q => (pm_end p <= pm_start q)%nat) ms /\ (length ms <= length text)%nat.
Proof.
  intros C A text region l t yield W PO AO. destruct (run_ok C A W PO AO text region l t yield) as (ms & m & E & G & O & _ & L). exists ms, m. split; [exact E|]. split; [|auto].
  eapply Forall_impl; [|exact G]. intros p (Oc & N & _). pose proof (occurs_bound _ _ _ Oc) as B. pose proof (occurs_sub _ _ _ Oc) as S. unfold pm_end, len. split; [exact S|]. destruct (pm_raw p); [congruence|]. simpl in *. lia.
Qed.
Print Assumptions C29_matches.
Theorem C29_shipped : forall text region l t yield,
  exists ms m, FindNumbersWithLeniency shipped shipped_alt text region l t yield = Ret (map Some ms, m) /\
    Forall (fun p => sub text (pm_start p) (pm_end p) = pm_raw p /\ (pm_start p < pm_end p <= length text)%nat) ms /\
    StronglySorted (fun p q => (pm_end p <= pm_start q)%nat) ms /\ (length ms <= length text)%nat.
Proof. intros. apply C29_matches; [apply shipped_wf|apply shipped_parse_ok|apply shipped_alt_ok]. Qed.
Print Assumptions C29_shipped.
(** The consumer only decides where to stop: with all = what an insatiable consumer receives, any other receives the first k elements of all for some k; it
    stopped there because it said so or because there was nothing left, and it had asked to go on after each earlier element. *)
Theorem C29_consumer : forall C A text region l t yield, wf_container C -> parse_ok C -> alt_ok A ->
  exists all m m' k, FindNumbersWithLeniency C A text region l t (fun _ => true) = Ret (all, m) /\ FindNumbersWithLeniency C A text region l t yield = Ret (firstn k all, m') /\
    (k <= length all)%nat /\ (k < length all -> yield (firstn k all) = false)%nat /\ (forall j, 0 < j < k -> yield (firstn j all) = true)%nat.
Proof.
  intros C A text region l t yield W PO AO. destruct (run_ok C A W PO AO text region l t (fun _ => true)) as (ms & m & E & _). exists (map Some ms), m.
  destruct (loop_yield C A yield _ _ _ _ _ E) as (more & m2 & k & Em & R & Lk & K & J). cbn [app] in *. subst more. exists m2, k. split; [exact E|]. split; [exact R|]. split; [exact Lk|]. split; [intros H; apply K; exact H|exact J].
Qed.
Print Assumptions C29_consumer.
Example C29_witness : positions (FindNumbers shipped shipped_alt note (bs "US") all_of) = [Some (5, 17); Some (21, 39)]%nat /\
  positions (FindNumbers shipped shipped_alt note (bs "US") first_only) = [Some (5, 17)]%nat.
Proof. vm_compute. split; reflexivity. Qed.

(** * C30: the try limit. *)
(** In a run that hands over ms, the substrings that were examined and rejected number at most the limit, plus two, plus one for each match. *)
Theorem C30_bound : forall C A text region l t yield ms m, wf_container C -> parse_ok C -> alt_ok A ->
  FindNumbersWithLeniency C A text region l t yield = Ret (map Some ms, m) -> (rejected m ms <= Z.max t 0 + 2 + Z.of_nat (length ms))%Z.
Proof.
  intros C A text region l t yield ms m W PO AO E. destruct (run_ok C A W PO AO text region l t yield) as (ms' & m' & E' & _ & _ & B & _). rewrite E' in E. injection E as E <-.
  assert (ms' = ms) as <-. { clear -E. revert ms E. induction ms' as [|x l IH]; intros [|y k] E; try discriminate; auto. injection E as -> E. f_equal. auto. }
  exact B.
Qed.
Print Assumptions C30_bound.
(** The limit alone is not a bound: with a limit of 1, three substrings of this text are examined and rejected. *)
Theorem C30_limit_refuted : exists text m, FindNumbersWithLeniency shipped shipped_alt text (bs "US") VALID 1 all_of = Ret ([], m) /\ rejected m [] = 3%Z.
Proof. eexists (bs "12 34"), _. split; [vm_compute; reflexivity|reflexivity]. Qed.
Print Assumptions C30_limit_refuted.
(** No match is handed over when the limit is zero or negative, and nothing is examined. *)
Theorem C30_nothing : forall C A text region l t yield, (t <= 0)%Z -> exists m, FindNumbersWithLeniency C A text region l t yield = Ret ([], m) /\ w_calls (mx_work m) = 0%nat.
Proof.
  intros C A text region l t yield L. unfold FindNumbersWithLeniency. cbn [range_loop]. unfold hasNext, newPhoneNumberMatcher. cbn [mx_state mx_cfg mx_work mx_index mc_text find w_tries].
  assert (E : (0 <? (if t <? 0 then 0 else t))%Z = false) by (destruct (t <? 0)%Z eqn:T; [reflexivity|apply Z.ltb_ge; lia]). rewrite E. cbn [bind mx_state negb]. eexists. split; reflexivity.
Qed.
Print Assumptions C30_nothing.
(** A smaller limit can only cut the sequence of matches short. *)
Theorem C30_prefix : forall C A text region l t t', wf_container C -> parse_ok C -> alt_ok A -> (t <= t')%Z ->
  exists ms m more m', FindNumbersWithLeniency C A text region l t (fun _ => true) = Ret (ms, m) /\ FindNumbersWithLeniency C A text region l t' (fun _ => true) = Ret (ms ++ more, m').
Proof.
  intros C A text region l t t' W PO AO L. destruct (run_ok C A W PO AO text region l t (fun _ => true)) as (ms & m & E & _). destruct (run_ok C A W PO AO text region l t' (fun _ => true)) as (ms' & m' & E' & _).
  exists (map Some ms), m. pose proof E' as E2. unfold FindNumbersWithLeniency in E, E'.
  replace (newPhoneNumberMatcher text region l t') with (with_more ((if t' <? 0 then 0 else t') - (if t <? 0 then 0 else t))%Z (newPhoneNumberMatcher text region l t)) in E'.
  2:{ unfold with_more, newPhoneNumberMatcher, more_tries. cbn [mx_cfg mx_work mx_state mx_last mx_index w_tries w_calls]. f_equal. f_equal. lia. }
  assert (K : (0 <= (if t' <? 0 then 0 else t') - (if t <? 0 then 0 else t))%Z) by (destruct (t' <? 0)%Z eqn:T', (t <? 0)%Z eqn:T; rewrite ?Z.ltb_lt, ?Z.ltb_ge in *; lia).
  destruct (range_more C A _ _ K (newPhoneNumberMatcher text region l t) _ _ _ _ _ eq_refl E E') as (more & Em). exists more, m'. split; [exact E|]. rewrite <- Em. exact E2.
Qed.
Print Assumptions C30_prefix.
Example C30_witness : positions (FindNumbersWithLeniency shipped shipped_alt (bs "12 34 call 650-253-0000") (bs "US") VALID 1 all_of) = [] /\
  positions (FindNumbersWithLeniency shipped shipped_alt (bs "12 34 call 650-253-0000") (bs "US") VALID 10 all_of) = [Some (11, 23)]%nat.
Proof. vm_compute. split; reflexivity. Qed.

(** * C31: every match has been checked at the requested leniency: its text parses, with the region given, to the number it carries (without the three fields that only describe how it was
    written), and that number is possible, or valid when the leniency is VALID or stricter. *)
Theorem C31_verified : forall C A text region l t yield ms m, wf_container C -> parse_ok C -> alt_ok A -> FindNumbersWithLeniency C A text region l t yield = Ret (ms, m) ->
  forall o, In o ms -> exists p n, o = Some p /\ ParseAndKeepRawInput C (pm_raw p) region = Ret (n, None) /\ pm_number p = set_carrier (set_raw (set_src n None) None) None /\ Verify C A l n (pm_raw p) = Ret true /\
    (l = POSSIBLE -> IsPossibleNumber C (pm_number p) = Ret true) /\ (l <> POSSIBLE -> IsValidNumber C (pm_number p) = Ret true) /\ (0 <= l <= 3)%Z.
Proof.
  intros C A text region l t yield ms m W PO AO E o I. destruct (run_ok C A W PO AO text region l t yield) as (ms' & m' & E' & G & _). rewrite E' in E. injection E as <- _.
  apply in_map_iff in I as (p & <- & I). rewrite Forall_forall in G. destruct (G p I) as (_ & _ & (n & P & V & N) & _). exists p, n. split; [reflexivity|]. split; [exact P|]. split; [exact N|]. split; [exact V|]. rewrite N.
  unfold Verify in V. destruct (Z.eqb_spec l POSSIBLE) as [L|L]; [unfold POSSIBLE in *; split; [intros _; exact V|]; split; [congruence|lia]|]. split; [congruence|].
  change (IsValidNumber C (set_carrier (set_raw (set_src n None) None) None)) with (IsValidNumber C n).
  assert (K : forall (f : M bool), (v <- IsValidNumber C n ;; if negb v then Ret false else f) = Ret true -> IsValidNumber C n = Ret true). { intros f H. destruct (IsValidNumber C n) as [[|]| |]; cbn [bind negb] in H; try discriminate. reflexivity. }
  unfold VALID, STRICT_GROUPING, EXACT_GROUPING in *.
  destruct (Z.eqb_spec l 1) as [->|L1]; [split; [intros _; eapply K; exact V|lia]|]. destruct (Z.eqb_spec l 2) as [->|L2]; [split; [intros _; eapply K; exact V|lia]|]. destruct (Z.eqb_spec l 3) as [->|L3]; [split; [intros _; eapply K; exact V|lia]|]. discriminate.
Qed.
Print Assumptions C31_verified.
(** And at VALID or stricter no match sits inside a word or an amount. *)
Theorem C31_neighbours : forall C A text region l t yield ms m, wf_container C -> parse_ok C -> alt_ok A -> FindNumbersWithLeniency C A text region l t yield = Ret (ms, m) -> (1 <= l)%Z ->
  forall p, In (Some p) ms -> neighbours_ok text (pm_raw p) (pm_start p).
Proof.
  intros C A text region l t yield ms m W PO AO E L p I. destruct (run_ok C A W PO AO text region l t yield) as (ms' & m' & E' & G & _). rewrite E' in E. injection E as <- _.
  apply in_map_iff in I as (q & Q & I). injection Q as ->. rewrite Forall_forall in G. destruct (G p I) as (_ & _ & _ & N). auto.
Qed.
Print Assumptions C31_neighbours.
Example C31_witness : match FindNumbersWithLeniency shipped shipped_alt (bs "+1 650-253-0000") (bs "ZZ") VALID 5 all_of with
  | Ret ([Some p], _) => (get_cc (pm_number p), get_nn (pm_number p), p_raw (pm_number p)) = (1%Z, 6502530000, None) | _ => False end /\
  positions (FindNumbersWithLeniency shipped shipped_alt (bs "$6502530000") (bs "US") VALID 5 all_of) = [] /\ positions (FindNumbersWithLeniency shipped shipped_alt (bs "$6502530000") (bs "US") POSSIBLE 5 all_of) = [Some (1, 11)]%nat.
Proof. vm_compute. repeat split; reflexivity. Qed.

(** * C32: asking again does not change anything. *)
Theorem C32_idempotent : forall C A m m' b, hasNext C A m = Ret (m', b) -> hasNext C A m' = Ret (m', b) /\ next C A m' = next C A m.
Proof.
  intros C A m m' b E. assert (H : hasNext C A m' = Ret (m', b)).
  { unfold hasNext in E. destruct (mx_state m) eqn:S; cbn [bind] in E.
    - destruct (find _ _ _ _ _ _) as [[[p|] w]| |]; cbn [bind mx_state] in E; try discriminate; injection E as <- <-; reflexivity.
    - injection E as <- <-. unfold hasNext. rewrite S. cbn [bind]. rewrite S. reflexivity.
    - injection E as <- <-. unfold hasNext. rewrite S. cbn [bind]. rewrite S. reflexivity. }
  split; [exact H|]. unfold next. rewrite H, E. reflexivity.
Qed.
Print Assumptions C32_idempotent.
(** In any history of calls, the sequence of matches returned by next is the one obtained by leaving out every call of hasNext. *)
Theorem C32_history : forall C A h m ms m', calls C A h m = Ret (ms, m') -> exists m'', calls C A (filter is_next h) m = Ret (ms, m'').
Proof.
  intros C A h. assert (G : forall h m0 m ms m', next C A m0 = next C A m -> calls C A h m = Ret (ms, m') -> exists m'', calls C A (filter is_next h) m0 = Ret (ms, m'')).
  { clear h. induction h as [|[|] h IH]; intros m0 m ms m' Q E; cbn [filter is_next calls] in *.
    - injection E as <- _. eauto.
    - destruct (hasNext C A m) as [[m1 b]| |] eqn:H; cbn [bind fst] in E; try discriminate. apply C32_idempotent in H as [_ H]. eapply IH; [|exact E]. congruence.
    - rewrite Q. destruct (next C A m) as [[m1 p]| |]; cbn [bind fst snd] in *; try discriminate. destruct (calls C A h m1) as [[l m2]| |] eqn:R; cbn [bind fst snd] in E; try discriminate. injection E as <- <-.
      destruct (IH m1 m1 l m2 eq_refl R) as (m3 & ->). cbn [bind fst snd]. eauto. }
  intros m ms m' E. eapply G; eauto.
Qed.
Print Assumptions C32_history.
(** Once next has returned nil it returns nil for ever. *)
Theorem C32_end : forall C A m m', next C A m = Ret (m', None) -> mx_last m <> None \/ mx_state m <> Ready -> next C A m' = Ret (m', None).
Proof.
  intros C A m m' E H. assert (D : mx_state m' = Done).
  { unfold next, hasNext in E. destruct (mx_state m) eqn:S; cbn [bind] in E.
    - destruct (find _ _ _ _ _ _) as [[[p|] w]| |]; cbn [bind mx_state negb mx_last] in E; try discriminate. injection E as <-. reflexivity.
    - rewrite S in E. cbn [negb] in E. injection E as <- L. destruct H; congruence.
    - rewrite S in E. cbn [negb] in E. injection E as <-. exact S. }
  unfold next, hasNext. rewrite D. cbn [bind]. rewrite D. reflexivity.
Qed.
Print Assumptions C32_end.
Example C32_witness : match calls shipped shipped_alt [CallHasNext; CallNext; CallHasNext; CallHasNext; CallNext; CallNext; CallHasNext; CallNext] (newPhoneNumberMatcher note (bs "US") VALID 20) with
  | Ret (ms, _) => map (option_map (fun p => (pm_start p, pm_end p))) ms = [Some (5, 17); Some (21, 39); None; None]%nat | _ => False end.
Proof. vm_compute. reflexivity. Qed.

(** * C46, continued: searching never panics, and always ends, on the shipped metadata. *)
Theorem C46_matcher : forall text region l t yield, total (FindNumbersWithLeniency shipped shipped_alt text region l t yield) /\ total (FindNumbers shipped shipped_alt text region yield).
Proof.
  intros. split; [destruct (C29_shipped text region l t yield) as (ms & m & E & _)|destruct (C29_shipped text region VALID max_int yield) as (ms & m & E & _)]; eexists; exact E.
Qed.
Print Assumptions C46_matcher.
(** A number obtained by parsing a candidate that the search looks at can be verified at every leniency. *)
Theorem C46_verify : forall s region n l, ParseAndKeepRawInput shipped s region = Ret (n, None) -> (forall a b, s = a ++ 59 :: b -> ~ In 45 b) -> total (Verify shipped shipped_alt l n s).
Proof. intros. eapply verify_total; eauto using shipped_wf, shipped_alt_ok. eapply came; eauto using shipped_wf, shipped_parse_ok. Qed.
Print Assumptions C46_verify.
(** Verify is exported, and for other arguments it can panic: for a valid number and a text in which its calling code does not occur, and for a valid
    number with value zero whose raw input has a semicolon before a hyphen. *)
Theorem C46_verify_refuted : (exists n, IsValidNumber shipped n = Ret true /\ Verify shipped shipped_alt STRICT_GROUPING n [] = Panic) /\
  (exists n s, IsValidNumber shipped n = Ret true /\ get_raw n = s /\ Verify shipped shipped_alt EXACT_GROUPING n s = Panic).
Proof.
  split.
  - exists (set_src (set_nn (set_cc phone0 (Some 44%Z)) (Some 2070313000)) (Some FROM_NUMBER_WITH_PLUS_SIGN)). vm_compute. split; reflexivity.
  - exists (set_raw (set_nlz (set_ilz (set_nn (set_cc phone0 (Some 800%Z)) (Some 0)) (Some true)) (Some 7%Z)) (Some (bs ";-"))), (bs ";-"). vm_compute. repeat split; reflexivity.
Qed.
Print Assumptions C46_verify_refuted.

(** * C53: the levels of leniency. What passes a grouping check passes VALID, and what passes VALID is possible. *)
Theorem C53_nested : forall C A n s, (Verify C A STRICT_GROUPING n s = Ret true \/ Verify C A EXACT_GROUPING n s = Ret true -> Verify C A VALID n s = Ret true) /\
  (wf_container C -> lengths_nested C -> Verify C A VALID n s = Ret true -> Verify C A POSSIBLE n s = Ret true).
Proof.
  intros C A n s. split.
  - intros H. unfold Verify, POSSIBLE, VALID, STRICT_GROUPING, EXACT_GROUPING in *. cbn [Z.eqb Pos.eqb] in *.
    destruct (IsValidNumber C n) as [[|]| |]; cbn [bind negb] in *; try (destruct H; discriminate). destruct (containsOnlyValidXChars C n s) as [[|]| |]; cbn [bind negb] in *; try (destruct H; discriminate).
    destruct (containsMoreThanOneSlashInNationalNumber n s); [destruct H; discriminate|]. destruct (isNationalPrefixPresentIfRequired C n) as [[|]| |]; cbn [bind negb] in *; try (destruct H; discriminate). reflexivity.
  - intros W L V. unfold Verify, POSSIBLE, VALID in *. cbn [Z.eqb Pos.eqb] in *. apply valid_possible; auto. destruct (IsValidNumber C n) as [[|]| |]; cbn [bind negb] in *; try discriminate. reflexivity.
Qed.
Print Assumptions C53_nested.
(** The two grouping levels are not ordered, although the stricter is documented to be a subset: this text is found at EXACT_GROUPING and not at STRICT_GROUPING. *)
Theorem C53_exact_in_strict_refuted : exists text, positions (FindNumbersWithLeniency shipped shipped_alt text (bs "US") EXACT_GROUPING 100 all_of) = [Some (0, 12)]%nat /\
  positions (FindNumbersWithLeniency shipped shipped_alt text (bs "US") STRICT_GROUPING 100 all_of) = [].
Proof. exists (bs "+80000000000"). vm_compute. split; reflexivity. Qed.
Print Assumptions C53_exact_in_strict_refuted.
Example C53_witness : exists n, ParseAndKeepRawInput shipped (bs "650-253-0000") (bs "US") = Ret (n, None) /\ Verify shipped shipped_alt EXACT_GROUPING n (bs "650-253-0000") = Ret true /\
  Verify shipped shipped_alt STRICT_GROUPING n (bs "650-253-0000") = Ret true.
Proof. eexists. split; [vm_compute; reflexivity|]. vm_compute. split; reflexivity. Qed.
