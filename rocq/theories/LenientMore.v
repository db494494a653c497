(** Splitting any text at what is not a digit, and the exact grouping. *)
From Verif Require Import Base BaseFacts UnicodeTables Utf8 Utf8Facts Regex RegexSpec RegexFacts LangFacts Consts Types Normalize NormalizeSpec NormalizeFacts Validate Format Parse
  NumberSpec NumberFacts MetaSpec ValidateSpec ValidateFacts Container Shipped MetaFacts FormatSpec TextFacts FormatFacts FormatMore ParseSpec ParseFacts ParseMore ContextFacts
  RoundSpec DerivFacts Matcher MatcherSpec MatcherFacts MatcherRun MatcherTotal RoundTripFacts RuleSpec RuleFacts RuleMore ReadSpec ReadFacts
  FindSpec FindFacts FindMore FindPrint FindShip PropsTotal LenientSpec LenientFacts.
Local Notation run := TextFacts.run.
Local Notation gap := TextFacts.gap.

Lemma nd_cls c : cls_match nondigit_cls c = nd c.
Proof. apply nondigit_neg. Qed.
(** A rune is one byte below 128 or several bytes from 128 on. *)
Lemma decode_kinds s c t : decode_rune s = Some (c, t) -> exists v, s = v ++ t /\ v <> [] /\ ((v = [c] /\ c < 128) \/ (Forall (fun b => 128 <= b) v /\ 128 <= c)).
Proof.
  intros D. destruct (decode_bytes _ _ _ D) as (v & E & H). exists v. split; [exact E|]. pose proof (decode_rune_lt _ _ _ D) as L. split; [intros ->; rewrite E in L; cbn [app] in L; lia|].
  destruct H as [H|H]; [auto|]. right. split; [exact H|]. destruct (N.lt_ge_cases c 128) as [K|K]; [|exact K]. exfalso. apply decode_low in D; auto. rewrite E in D. destruct v as [|x v]; [cbn [app] in D; apply (f_equal (@length N)) in D; cbn [length] in D; lia|].
  cbn [app] in D. injection D as -> _. inv H. lia.
Qed.
Lemma nd_high c : 128 <= c -> nd c = true.
Proof. intros L. unfold nd. apply negb_true_iff. destruct (is_digit c) eqn:E; [|reflexivity]. apply is_digit_iff in E. lia. Qed.
Lemma run_high v t : Forall (fun b => 128 <= b) v -> run nd (v ++ t) = (length v + run nd t)%nat.
Proof. induction 1 as [|b v H F IH]; [reflexivity|]. cbn [app run length]. rewrite nd_high by auto. rewrite IH. reflexivity. Qed.
Lemma decode_run s c t : decode_rune s = Some (c, t) -> if nd c then run nd s = (len s - len t + run nd t)%nat /\ (run nd s <> 0)%nat else run nd s = 0%nat /\ s = c :: t.
Proof.
  intros D. destruct (decode_kinds _ _ _ D) as (v & -> & Nv & [[-> L]|[F L]]).
  - cbn [app run]. destruct (nd c); [|auto]. unfold len. cbn [length]. lia.
  - rewrite nd_high by auto. rewrite run_high by auto. unfold len. rewrite app_length. destruct v; [congruence|cbn [length]; lia].
Qed.
Lemma star_nd (kk : cont) : (forall p s cs, kk p s cs <> None) -> forall f p s cs, (length s < f)%nat ->
  star_loop true (rmatch (RClass nondigit_cls)) kk f p s cs = kk (p + run nd s)%nat (skipn (run nd s) s) cs.
Proof.
  intros K. induction f as [|f IH]; intros p s cs L; [lia|]. rewrite star_loop_S. cbn [rmatch]. destruct (decode_rune s) as [[c t]|] eqn:D.
  - rewrite nd_cls. pose proof (decode_run _ _ _ D) as R. pose proof (decode_rune_lt _ _ _ D) as Lt. destruct (nd c) eqn:E.
    + rewrite (proj2 (Nat.ltb_lt (len t) (len s)) Lt), IH by lia. destruct R as [R R0]. destruct (decode_kinds _ _ _ D) as (v & Es & _). assert (Lv : (len s - len t)%nat = length v) by (rewrite Es; unfold len; rewrite app_length; lia).
      rewrite R. replace (p + (len s - len t) + run nd t)%nat with (p + (len s - len t + run nd t))%nat by lia. rewrite Lv, Es.
      replace (skipn (length v + run nd t) (v ++ t)) with (skipn (run nd t) t). 2:{ rewrite skipn_app, (skipn_all2 v) by lia. cbn [app]. f_equal. lia. }
      destruct (kk _ _ _) eqn:Ek; [reflexivity|]. exfalso. eapply K; eauto.
    + destruct R as [-> _]. rewrite Nat.add_0_r. reflexivity.
  - apply decode_rune_none in D. subst s. cbn [run skipn]. rewrite Nat.add_0_r. reflexivity.
Qed.
Lemma plus_nd kk p s cs : (forall p s cs, kk p s cs <> None) -> rmatch (plus_re nondigit_cls) kk p s cs =
  if (run nd s =? 0)%nat then None else kk (p + run nd s)%nat (skipn (run nd s) s) cs.
Proof.
  intros K. unfold plus_re. cbn [rmatch]. destruct (decode_rune s) as [[c t]|] eqn:D.
  - rewrite nd_cls. pose proof (decode_run _ _ _ D) as R. destruct (nd c).
    + destruct R as [R R0]. rewrite (proj2 (Nat.eqb_neq _ _) R0). change (rmatch (RStar true (RClass nondigit_cls)) kk (p + (len s - len t)) t cs = kk (p + run nd s)%nat (skipn (run nd s) s) cs).
      rewrite rmatch_star, star_nd by (auto; unfold len; lia). destruct (decode_kinds _ _ _ D) as (v & Es & _). assert (Lv : (len s - len t)%nat = length v) by (rewrite Es; unfold len; rewrite app_length; lia).
      rewrite R, Lv, Es. f_equal; [lia|]. rewrite skipn_app, (skipn_all2 v) by lia. cbn [app]. f_equal. lia.
    + destruct R as [-> _]. reflexivity.
  - apply decode_rune_none in D. subst s. reflexivity.
Qed.
Lemma nd_rmatch p s : rmatch (re_ast nonDigitsPattern) final p s [] = None /\ run nd s = 0%nat \/
  exists cs, rmatch (re_ast nonDigitsPattern) final p s [] = Some ((p + run nd s)%nat, cs) /\ run nd s <> 0%nat.
Proof.
  assert (G : forall kk : cont, (forall p s cs, exists q, kk p s cs = Some (p, q)) -> rmatch (plus_re nondigit_cls) kk p s [] = None /\ run nd s = 0%nat \/
    exists cs, rmatch (plus_re nondigit_cls) kk p s [] = Some ((p + run nd s)%nat, cs) /\ run nd s <> 0%nat).
  { intros kk K. rewrite plus_nd by (intros p0 s0 c0; destruct (K p0 s0 c0) as (q & ->); discriminate).
    destruct (run nd s =? 0)%nat eqn:Z; [apply Nat.eqb_eq in Z; auto|]. apply Nat.eqb_neq in Z. right.
    destruct (K (p + run nd s)%nat (skipn (run nd s) s) []) as (q & ->). eauto. }
  destruct nondigit_plus as [-> | ->]; [|cbn [rmatch]]; apply G; intros; unfold final; eauto.
Qed.
Lemma search_nd : forall f p s, (length s <= f)%nat ->
  (search f (re_ast nonDigitsPattern) p s = None /\ forallb (fun c => negb (nd c)) s = true) \/
  (exists m, search f (re_ast nonDigitsPattern) p s = Some m /\ m_start m = (p + gap nd s)%nat /\
     m_end m = (m_start m + run nd (skipn (gap nd s) s))%nat /\ run nd (skipn (gap nd s) s) <> 0%nat).
Proof.
  induction f as [|f IH]; intros p s L; cbn [search].
  - destruct s; [|cbn [length] in L; lia]. destruct (nd_rmatch p []) as [[-> _]|(cs & _ & N0)]; [auto|]. cbn [run] in N0. congruence.
  - destruct (nd_rmatch p s) as [[-> R]|(cs & -> & R)].
    + destruct (decode_rune s) as [[c t]|] eqn:D; [|apply decode_rune_none in D; subst s; auto]. pose proof (decode_run _ _ _ D) as Q. destruct (nd c) eqn:E; [destruct Q; congruence|]. destruct Q as [_ ->].
      replace (len (c :: t) - len t)%nat with 1%nat by (unfold len; cbn [length]; lia).
      destruct (IH (p + 1)%nat t ltac:(cbn [length] in L; lia)) as [[E1 E2]|(m & E1 & E2 & E3 & E4)].
      * left. split; auto. cbn [forallb]. rewrite E, E2. reflexivity.
      * right. exists m. unfold gap in *. cbn [run]. rewrite E. cbn [negb skipn]. split; auto. split; [lia|]. auto.
    + right. eexists. split; [reflexivity|]. cbn [m_start m_end]. destruct s as [|c t]; [cbn [run] in R; congruence|]. unfold gap. cbn [run] in *.
      destruct (nd c) eqn:E; [|congruence]. cbn [negb skipn run]. rewrite E. split; [lia|]. auto.
Qed.
Lemma find_nd s p : (p <= length s)%nat ->
  (find_from nonDigitsPattern s p = None /\ forallb (fun c => negb (nd c)) (skipn p s) = true) \/
  (exists m, find_from nonDigitsPattern s p = Some m /\ (p <= m_start m < m_end m)%nat /\ (m_end m <= length s)%nat /\
     forallb (fun c => negb (nd c)) (sub s p (m_start m)) = true /\ forallb nd (sub s (m_start m) (m_end m)) = true /\
     (skipn (m_end m) s = [] \/ exists y t, skipn (m_end m) s = y :: t /\ nd y = false)).
Proof.
  intros L. unfold find_from.
  destruct (search_nd (len s - p) p (skipn p s) ltac:(rewrite skipn_length; unfold len; lia)) as [[E1 E2]|(m & E1 & E2 & E3 & E4)]; [auto|].
  right. exists m. split; auto. set (P := nd) in *. set (g := gap P (skipn p s)) in *. rewrite skipn_add in *.
  pose proof (run_le (fun c => negb (P c)) (skipn p s)) as Lg. fold (gap P (skipn p s)) in Lg. fold g in Lg. rewrite skipn_length in Lg.
  pose proof (run_le P (skipn (p + g) s)) as Lr. rewrite skipn_length in Lr. split; [lia|]. split; [lia|].
  destruct (run_split (fun c => negb (P c)) (skipn p s)) as (_ & G1 & _). fold (gap P (skipn p s)) in G1. fold g in G1.
  destruct (run_split P (skipn (p + g) s)) as (_ & G2 & G3). rewrite skipn_add in G3.
  unfold sub. rewrite E2, E3, E2. replace (p + g - p)%nat with g by lia. split; [auto|].
  replace (p + g + run P (skipn (p + g) s) - (p + g))%nat with (run P (skipn (p + g) s)) by lia. split; auto.
Qed.
Lemma all_nd s : forall f p pe, (p <= length s)%nat -> (length s - p < f)%nat ->
  all_matches f nonDigitsPattern s p pe = [] /\ forallb (fun c => negb (nd c)) (skipn p s) = true \/
  exists m rest f', all_matches f nonDigitsPattern s p pe = m :: rest /\ rest = all_matches f' nonDigitsPattern s (m_end m) (Some (m_end m)) /\ (length s - m_end m < f')%nat /\
    (p <= m_start m < m_end m)%nat /\ (m_end m <= length s)%nat /\
    forallb (fun c => negb (nd c)) (sub s p (m_start m)) = true /\ forallb nd (sub s (m_start m) (m_end m)) = true /\
    (skipn (m_end m) s = [] \/ exists y t, skipn (m_end m) s = y :: t /\ nd y = false).
Proof.
  intros f p pe L F. destruct f as [|f]; [lia|]. cbn [all_matches].
  replace (len s <? p)%nat with false by (symmetry; apply Nat.ltb_ge; unfold len; lia).
  destruct (find_nd s p L) as [[-> E]|(m & -> & L1 & L2 & NP & R & T)]; [auto|]. right.
  replace (m_end m =? p)%nat with false by (symmetry; apply Nat.eqb_neq; lia). cbn [andb negb app]. exists m, (all_matches f nonDigitsPattern s (m_end m) (Some (m_end m))), f.
  split; auto. split; auto. split; [lia|]. auto.
Qed.
Lemma split_nd s : fields nd s (re_split nonDigitsPattern s).
Proof.
  destruct s as [|c t]. { apply F_last. reflexivity. }
  set (s := c :: t) in *. change (re_split nonDigitsPattern s) with (split_go s (re_find_all nonDigitsPattern s) 0%nat 0%nat).
  assert (L0 : (0 < length s)%nat) by (cbn [length s]; lia). clearbody s.
  assert (G : forall n f p pe le, (length s - p <= n)%nat -> (p <= length s)%nat -> (length s - p < f)%nat -> (le < length s)%nat ->
    fields nd (skipn p s) (split_go s (all_matches f nonDigitsPattern s p pe) p le)).
  { induction n as [|n IH]; intros f p pe le Ln L F Le; destruct (all_nd s f p pe L F) as [[-> E]|(m & rest & f' & -> & Er & F' & L1 & L2 & NP & R & T)].
    1,3: cbn [split_go]; replace (le =? len s)%nat with false by (symmetry; apply Nat.eqb_neq; unfold len; lia); apply F_last; auto.
    1: lia.
    cbn [split_go]. replace (m_end m =? 0)%nat with false by (symmetry; apply Nat.eqb_neq; lia). cbn [app].
    replace (skipn p s) with (sub s p (m_start m) ++ sub s (m_start m) (m_end m) ++ skipn (m_end m) s).
    2:{ rewrite <- (sub_to_end s p), <- (sub_to_end s (m_end m)), <- sub_split, <- sub_split by lia. auto. }
    apply F_more; auto.
    - intros Em. apply (f_equal (@length N)) in Em. rewrite sub_length in Em by lia. cbn [length] in Em. lia.
    - subst rest. apply IH; lia. }
  apply (G (length s) (S (S (len s))) 0%nat None 0%nat); unfold len; lia.
Qed.

(** * The stretches of digits of a text *)
Definition digit_first (s : bytes) : bool := match s with c :: _ => is_digit c | [] => false end.
Definition with_start (s : bytes) (runs : list bytes) : list bytes := match runs with [] => [] | _ => if digit_first s then runs else [] :: runs end.
Lemma nd_digits a : forallb (fun c => negb (nd c)) a = forallb is_digit a.
Proof. induction a as [|c a IH]; [reflexivity|]. cbn [forallb]. rewrite IH. unfold nd. rewrite negb_involutive. reflexivity. Qed.
Lemma fields_runs s l : fields nd s l -> exists runs, stretches is_digit s runs /\ Forall (fun r => r <> []) runs /\ drop_trailing_empty l = with_start s runs.
Proof.
  induction 1 as [s H|a b c l Ha Hb Nb T H (runs & IH1 & IH2 & IH3)].
  - rewrite nd_digits in H. destruct s as [|x s].
    + exists []. split; [constructor; reflexivity|]. split; [constructor|reflexivity].
    + exists [x :: s]. split; [apply digits_stretch; [exact H|discriminate]|]. split; [constructor; [discriminate|constructor]|]. cbn [drop_trailing_empty is_empty with_start digit_first]. cbn [forallb] in H. apply andb_true_iff in H as [-> _]. reflexivity.
  - rewrite nd_digits in Ha. assert (Ec : with_start c runs = runs).
    { unfold with_start. destruct runs; [reflexivity|]. destruct T as [->|(x & t & -> & Hx)]; [exfalso|cbn [digit_first]; unfold nd in Hx; apply negb_false_iff in Hx; rewrite Hx; reflexivity].
      apply stretches_concat in IH1 as [K _]. cbn [concat filter] in K. apply app_eq_nil in K as [K _]. inv IH2. congruence. }
    rewrite Ec in IH3. assert (Sb : stretches is_digit (b ++ c) runs) by (apply stretches_cons; [exact Hb|exact IH1]). destruct b as [|y b]; [congruence|]. cbn [forallb] in Hb. apply andb_true_iff in Hb as [Hy Hb]. unfold nd in Hy. apply negb_true_iff in Hy.
    destruct a as [|x a].
    + exists runs. split; [exact Sb|]. split; [exact IH2|]. cbn [app drop_trailing_empty is_empty]. rewrite IH3. unfold with_start, digit_first. rewrite Hy. destruct runs; reflexivity.
    + exists ((x :: a) :: runs). split; [|split; [constructor; [discriminate|exact IH2]|]].
      * change ((x :: a) ++ (y :: b) ++ c) with ([] ++ (x :: a) ++ (y :: b) ++ c). apply S_some; [reflexivity|exact Ha|discriminate|right; exists y, (b ++ c); auto|exact Sb].
      * cbn [app drop_trailing_empty is_empty]. rewrite IH3. cbn [with_start digit_first]. cbn [forallb] in Ha. apply andb_true_iff in Ha as [-> _]. destruct runs; reflexivity.
Qed.
Lemma stretches_head s r l : stretches is_digit s (r :: l) -> exists a c, s = a ++ r ++ c /\ forallb (fun c => negb (is_digit c)) a = true /\ forallb is_digit r = true /\ r <> [] /\ (c = [] \/ exists x t, c = x :: t /\ is_digit x = false) /\ stretches is_digit c l.
Proof. intros H. inv H. exists a, c. auto 7. Qed.
Lemma stretches_once s l : stretches is_digit s l -> forall l', stretches is_digit s l' -> l = l'.
Proof.
  induction 1 as [s H|a b c l Ha Hb Nb T H IH]; intros l' H'.
  - destruct l' as [|r l']; [reflexivity|]. exfalso. apply stretches_head in H' as (a & c & -> & _ & Hr & Nr & _). rewrite !forallb_app, !andb_true_iff in H. destruct r as [|x r]; [congruence|]. cbn [forallb] in *. destruct (is_digit x); cbn [negb andb] in *; [|discriminate]. destruct H as (_ & K & _). discriminate.
  - destruct l' as [|r l'].
    + exfalso. inv H'. match goal with K : forallb _ (a ++ b ++ c) = true |- _ => rewrite !forallb_app, !andb_true_iff in K; destruct K as (_ & K & _) end. destruct b as [|x b]; [congruence|]. cbn [forallb] in *. destruct (is_digit x); cbn [negb andb] in *; discriminate.
    + apply stretches_head in H' as (a' & c' & E & Ha' & Hr & Nr & T' & H').
      assert (K : a = a' /\ b ++ c = r ++ c').
      { apply (run_unique (fun c => negb (is_digit c)) a (b ++ c) a' (r ++ c')); auto.
        - right. destruct b as [|x b]; [congruence|]. exists x, (b ++ c). split; [reflexivity|]. cbn [forallb] in Hb. apply andb_true_iff in Hb as [-> _]. reflexivity.
        - right. destruct r as [|x r]; [congruence|]. exists x, (r ++ c'). split; [reflexivity|]. cbn [forallb] in Hr. apply andb_true_iff in Hr as [-> _]. reflexivity. }
      destruct K as [<- K]. destruct (run_unique is_digit b c r c' Hb Hr T T' K) as [<- <-]. f_equal. apply IH. exact H'.
Qed.
Lemma split_runs s : exists runs, stretches is_digit s runs /\ Forall (fun r => r <> []) runs /\ splitNonDigits s = match runs with [] => [[]] | _ => if digit_first s then runs else [] :: runs end.
Proof.
  destruct (fields_runs _ _ (split_nd s)) as (runs & H1 & H2 & H3). exists runs. split; [exact H1|]. split; [exact H2|]. unfold splitNonDigits. rewrite H3. unfold with_start. destruct runs as [|r runs]; [reflexivity|]. destruct (digit_first s); reflexivity.
Qed.

(** * Exact grouping *)
Lemma from_end_spec g rs : forall cand, exists b, groups_from_end cand (rs ++ [g]) = Ret b /\ (b = true <-> exists a post, cand = rs ++ (a ++ g) :: post).
Proof.
  induction rs as [|f rs IH]; intros cand.
  - cbn [app groups_from_end]. destruct cand as [|c cand]; [exists false; split; [reflexivity|]; split; [discriminate|intros (a & post & K); discriminate]|].
    exists (has_suffix c g). split; [reflexivity|]. rewrite has_suffix_iff. split; [intros (a & ->); exists a, cand; reflexivity|]. intros (a & post & K). injection K as -> _. exists a. reflexivity.
  - destruct cand as [|c cand].
    + exists false. split; [|split; [discriminate|intros (a & post & K); discriminate]]. cbn [app]. destruct (rs ++ [g]) eqn:Q; [destruct rs; discriminate|]. reflexivity.
    + assert (St : groups_from_end (c :: cand) ((f :: rs) ++ [g]) = if beq c f then groups_from_end cand (rs ++ [g]) else Ret false). { cbn [app]. destruct (rs ++ [g]) eqn:Q; [destruct rs; discriminate|]. reflexivity. }
      rewrite St. destruct (beq_spec c f) as [->|Nf].
      * destruct (IH cand) as (b & Eb & Hb). exists b. split; [exact Eb|]. rewrite Hb. split; intros (a & post & K); exists a, post; [rewrite K; reflexivity|cbn [app] in K; injection K as K; exact K].
      * exists false. split; [reflexivity|]. split; [discriminate|]. intros (a & post & K). cbn [app] in K. injection K as K _. congruence.
Qed.
Lemma tail_rev {T} (l : list T) : tl (rev l) = rev (removelast l).
Proof.
  destruct l as [|x l] using rev_ind; [reflexivity|]. rewrite removelast_last, rev_app_distr. reflexivity.
Qed.
Lemma last_cases {T} (l : list T) : l = [] \/ exists pre r, l = pre ++ [r].
Proof. destruct l as [|x l] using rev_ind; [left; reflexivity|right; eauto]. Qed.
Lemma rev_last {T} (l : list T) x : rev (l ++ [x]) = x :: rev l.
Proof. rewrite rev_app_distr. reflexivity. Qed.
Lemma from_end_used g rest used tl0 : g <> [] -> (tl0 = [] \/ tl0 = [[]]) -> (exists a post, rev used ++ tl0 = rev rest ++ (a ++ g) :: post) <-> exists (pre : list bytes) (a : bytes), used = pre ++ (a ++ g) :: rest.
Proof.
  intros Ng Ht. split.
  - intros (a & post & E). assert (K : exists post', rev used = rev rest ++ (a ++ g) :: post').
    { destruct Ht as [->| ->]; [rewrite app_nil_r in E; eauto|]. destruct post as [|p post] using rev_ind.
      - change (rev rest ++ [a ++ g]) with (rev rest ++ [a ++ g]) in E. apply app_inj_tail in E as [_ E]. symmetry in E. apply app_eq_nil in E as [_ E]. congruence.
      - clear IHpost. replace (rev rest ++ (a ++ g) :: post ++ [p]) with ((rev rest ++ (a ++ g) :: post) ++ [p]) in E by (rewrite <- app_assoc; reflexivity). apply app_inj_tail in E as [E _]. eauto. }
    destruct K as (post' & K). apply (f_equal (@rev _)) in K. rewrite rev_involutive, rev_app_distr, rev_involutive in K. cbn [rev] in K. rewrite <- app_assoc in K. exists (rev post'), a. exact K.
  - intros (pre & a & ->). exists a, (rev pre ++ tl0). rewrite rev_app_distr. cbn [rev]. rewrite <- !app_assoc. reflexivity.
Qed.
Lemma exact_spec n nc g rest : g <> [] -> GetNationalSignificantNumber n <> [] -> exists b, allNumberGroupsAreExactlyPresent n nc (g :: rest) = Ret b /\ (b = true <-> exact_grouping n nc (g :: rest)).
Proof.
  intros Ng Nn. destruct (split_runs nc) as (runs & Sr & Fr & Es). unfold allNumberGroupsAreExactlyPresent. change (get_ext n) with (ext_of n). set (cg := splitNonDigits nc) in *.
  set (used := if is_empty (ext_of n) then runs else removelast runs).
  assert (Sp : exact_grouping n nc (g :: rest) <-> (runs = [] \/ (exists a b, nc = a ++ b /\ a <> [] /\ runs = [a])) \/
    (exists pre r a b, used = pre ++ [r] /\ r = a ++ GetNationalSignificantNumber n ++ b) \/ (exists pre a, used = pre ++ (a ++ g) :: rest)).
  { unfold exact_grouping. split.
    - intros (runs' & S' & H). rewrite <- (stretches_once _ _ Sr _ S') in H. cbv zeta in H. destruct H as [H|[H|(pre & a & g' & rest' & H1 & H2)]]; [left; exact H|right; left; exact H|]. right. right. injection H2 as <- <-. exists pre, a. exact H1.
    - intros H. exists runs. split; [exact Sr|]. cbv zeta. destruct H as [H|[H|(pre & a & H)]]; [left; exact H|right; left; exact H|]. right. right. exists pre, a, g, rest. auto. }
  assert (Many : forall tl0, (tl0 = [] \/ tl0 = [[]]) -> rev used ++ tl0 <> [] -> ~ (runs = [] \/ (exists a b, nc = a ++ b /\ a <> [] /\ runs = [a])) ->
    exists b, match rev used ++ tl0 with [] => Panic | c :: _ => if contains c (GetNationalSignificantNumber n) then Ret true else groups_from_end (rev used ++ tl0) (rev (g :: rest)) end = Ret b /\ (b = true <-> exact_grouping n nc (g :: rest))).
  { intros tl0 Ht Nu No. destruct (from_end_spec g (rev rest) (rev used ++ tl0)) as (b & Eb & Hb). change (rev (g :: rest)) with (rev rest ++ [g]). unfold bytes in *. rewrite Eb.
    rewrite (from_end_used g rest used tl0 Ng Ht) in Hb. destruct (rev used ++ tl0) as [|c up] eqn:Eu; [congruence|].
    assert (Hc : contains c (GetNationalSignificantNumber n) = true <-> exists pre r a b, used = pre ++ [r] /\ r = a ++ GetNationalSignificantNumber n ++ b).
    { rewrite contains_iff. destruct (last_cases used) as [Lu|(pre & r & Lu)]; rewrite Lu in Eu |- *.
      - cbn [rev app] in Eu. destruct Ht as [->| ->]; [discriminate|]. injection Eu as <- _. split; [intros (a & b' & K); symmetry in K; apply app_eq_nil in K as [_ K]; apply app_eq_nil in K as [K _]; congruence|]. intros (pre & r & a & b' & K & _). destruct pre; discriminate.
      - rewrite rev_last in Eu. cbn [app] in Eu. injection Eu as <- _. split; [intros (a & b' & K); exists pre, r, a, b'; auto|]. intros (pre' & r' & a & b' & K & K2). apply app_inj_tail in K as [_ <-]. eauto. }
    destruct (contains c (GetNationalSignificantNumber n)) eqn:Q.
    - exists true. split; [reflexivity|]. split; [|reflexivity]. intros _. apply Sp. right. left. apply Hc. reflexivity.
    - exists b. split; [reflexivity|]. rewrite Hb, Sp. split; [intros K; right; right; exact K|]. intros [K|[K|K]]; [tauto| |exact K]. apply Hc in K. discriminate. }
  destruct runs as [|r runs].
  { rewrite Es. exists true. split; [reflexivity|]. split; [|reflexivity]. intros _. apply Sp. left. left. reflexivity. }
  apply stretches_head in Sr as Sh. destruct Sh as (a & c & Enc & Ha & Hr & Nr & _).
  destruct (digit_first nc) eqn:Df.
  - assert (Ea : a = []). { destruct a as [|x a]; [reflexivity|]. rewrite Enc in Df. cbn [app digit_first] in Df. cbn [forallb] in Ha. rewrite Df in Ha. discriminate. } subst a. cbn [app] in Enc.
    destruct runs as [|r2 runs].
    + rewrite Es. exists true. split; [reflexivity|]. split; [|reflexivity]. intros _. apply Sp. left. right. exists r, c. auto.
    + assert (Up : (if is_empty (ext_of n) then rev cg else tl (rev cg)) = rev used ++ []). { rewrite app_nil_r, Es. unfold used. destruct (is_empty (ext_of n)); [reflexivity|apply tail_rev]. }
      rewrite Up. rewrite Es. apply Many; [left; reflexivity| |intros [K|(x & y & _ & _ & K)]; discriminate].
      rewrite app_nil_r. unfold used. destruct (is_empty (ext_of n)); [cbn [rev]; intros K; apply app_eq_nil in K as [_ K]; discriminate|]. cbn [removelast rev]. intros K. apply app_eq_nil in K as [_ K]. discriminate.
  - assert (Up : (if is_empty (ext_of n) then rev cg else tl (rev cg)) = rev used ++ [[]]).
    { rewrite Es. unfold used. destruct (is_empty (ext_of n)); [reflexivity|]. rewrite tail_rev. cbn [removelast rev]. reflexivity. }
    rewrite Up, Es. apply Many; [right; reflexivity|intros K; apply app_eq_nil in K as [_ K]; discriminate|]. intros [K|(x & y & E1 & Nx & K)]; [discriminate|]. injection K as -> ->.
    rewrite E1 in Df. destruct x as [|x0 x]; [congruence|]. cbn [app digit_first forallb] in *. rewrite Df in Hr. discriminate.
Qed.
