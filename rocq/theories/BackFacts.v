(** Parsing what Format printed. *)
From Verif Require Import Base BaseFacts Utf8 Utf8Facts Regex RegexSpec RegexFacts LangFacts Consts Types Normalize NormalizeSpec NormalizeFacts Validate Format Parse
  NumberSpec NumberFacts MetaSpec ValidateSpec ValidateFacts Container Shipped MetaFacts FormatSpec TextFacts FormatFacts FormatMore ParseSpec ParseFacts ParseMore ContextFacts
  RoundSpec DerivFacts MatcherTotal RoundTripFacts PropsValidate RuleSpec RuleFacts RuleMore ReadSpec ReadFacts ReadMore ExtSpec ExtFacts.
Local Opaque compile re_find re_replace_all.

(** * Rules that end in a non-empty group and add little *)
Definition gap_char (c : N) : bool := (c =? 32) || (c =? 45) || (c =? 46) || (c =? 40) || (c =? 41).
Fixpoint tame (fuel n : nat) (tmpl : bytes) (k last : nat) : bool :=
  match fuel with
  | O => false
  | S f =>
      match tmpl with
      | [] => (k =? last)%nat
      | 36 :: t =>
          match t with
          | 36 :: _ => false
          | _ => match extract_ref t with
                 | Some (Some j, rest) => (j =? k)%nat && (j <? last)%nat && tame f n rest (S k) last
                 | _ => false
                 end
          end
      | c :: t => gap_char c && negb (is_empty t) && match n with S n' => tame f n' t k last | O => false end
      end
  end.
Fixpoint tail_pos (r : regex) : bool := match r with RGroup _ a => (0 <? minrunes a)%nat | RCat _ b => tail_pos b | _ => false end.
Definition re_tame (x : re) (tmpl : bytes) : bool := match groups_from 1 (re_ast x) with Some k => tame (S (len tmpl)) 8 tmpl 1 k && tail_pos (re_ast x) | None => false end.
Definition rule_tame (f : nfmt) : bool := match compile (get_pattern f) with Some x => re_tame x (get_format f) | None => false end.

Definition neat (w o : bytes) : Prop := woven gap_char w o /\ (length o <= 9 * length w)%nat /\ (w <> [] -> exists o', o = o' ++ [last w 0]).
Lemma neat_nil : neat [] []. Proof. split; [constructor|]. split; [cbn; lia|congruence]. Qed.
Lemma last_app2 (a c : bytes) : c <> [] -> last (a ++ c) 0 = last c 0.
Proof. intros N. destruct (exists_last N) as (c0 & z & ->). rewrite app_assoc, !last_last. reflexivity. Qed.
Lemma neat_refl w : neat w w.
Proof. split; [apply woven_refl|]. split; [lia|]. intros N. exists (removelast w). apply app_removelast_last. exact N. Qed.
Lemma neat_app a b c d : neat a b -> neat c d -> neat (a ++ c) (b ++ d).
Proof.
  intros (A1 & A2 & A3) (B1 & B2 & B3). split; [apply woven_app; auto|]. split; [rewrite !app_length; lia|]. intros N. destruct c as [|z c].
  - destruct d; [|cbn [length] in B2; lia]. rewrite !app_nil_r in *. auto.
  - destruct B3 as (o' & ->); [discriminate|]. rewrite last_app2 by discriminate. exists (b ++ o'). apply app_assoc.
Qed.
Lemma expand_tame T m offs : m_caps m = number 1 offs -> offs <> [] -> piece T (last offs (0%nat, 0%nat)) <> [] -> forall f n tmpl k, (1 <= k)%nat -> tame f n tmpl k (S (length offs)) = true ->
  woven gap_char (concat (map (piece T) (skipn (k - 1) offs))) (expand f tmpl T m) /\
  (length (expand f tmpl T m) <= n + length (concat (map (piece T) (skipn (k - 1) offs))))%nat /\
  (tmpl = [] -> k = S (length offs)) /\ (tmpl <> [] -> exists o', expand f tmpl T m = o' ++ [last (piece T (last offs (0%nat, 0%nat))) 0]).
Proof.
  intros Hm No Np. induction f as [|f IH]; intros n tmpl k Lk H; [discriminate|]. cbn [tame] in H. destruct tmpl as [|c t].
  - apply Nat.eqb_eq in H. rewrite skipn_all2 by lia. split; [constructor|]. split; [cbn; lia|]. split; [auto|congruence].
  - destruct (N.eq_dec c 36) as [->|Nc].
    + assert (Hd : (match t with 36 :: _ => False | _ => True end) /\ match extract_ref t with
        | Some (Some j, rest) => (j =? k)%nat && (j <? S (length offs))%nat && tame f n rest (S k) (S (length offs)) | _ => false end = true).
      { destruct t as [|d t']; [auto|]. destruct (N.eq_dec d 36) as [->|Nd]; [discriminate|]. rewrite case36 in H by auto. rewrite case36 by auto. auto. }
      destruct Hd as [N36 He]. destruct (extract_ref t) as [[[j|] rest]|] eqn:Ex; try discriminate.
      rewrite !andb_true_iff in He. destruct He as ((E1 & E2) & E3). apply Nat.eqb_eq in E1. apply Nat.ltb_lt in E2. subst j.
      assert (Eg : group_str T m k = piece T (nth (k - 1) offs (0%nat, 0%nat))).
      { unfold group_str, group. destruct k; [lia|]. rewrite Hm, assoc_number by lia.
        destruct (nth_error offs (S k - 1)) as [[i j]|] eqn:En.
        - rewrite (nth_error_nth _ _ _ En). reflexivity.
        - apply nth_error_None in En. lia. }
      assert (Es : skipn (k - 1) offs = nth (k - 1) offs (0%nat, 0%nat) :: skipn (S k - 1) offs).
      { assert (Lx : (k - 1 < length offs)%nat) by lia. replace (S k - 1)%nat with (S (k - 1)) by lia. revert Lx. generalize (k - 1)%nat. clear.
        induction offs as [|o l IH]; intros n Lx; simpl in Lx; [lia|]. destruct n; simpl; auto. apply IH. lia. }
      assert (EE : expand (S f) (36 :: t) T m = piece T (nth (k - 1) offs (0%nat, 0%nat)) ++ expand f rest T m).
      { cbn [expand]. destruct t as [|d t']; [rewrite Ex, Eg; reflexivity|]. rewrite case36; [rewrite Ex, Eg; reflexivity|]. intros ->. contradiction. }
      destruct (IH n rest (S k) ltac:(lia) E3) as (I1 & I2 & I3 & I4). rewrite Es, EE. cbn [map concat]. split; [apply woven_app; [apply woven_refl|exact I1]|]. split; [rewrite !app_length; lia|]. split; [discriminate|]. intros _.
      destruct rest as [|z rest].
      * specialize (I3 eq_refl). rewrite expand_nil, app_nil_r. exists (removelast (piece T (last offs (0%nat, 0%nat)))).
        replace (nth (k - 1) offs (0%nat, 0%nat)) with (last offs (0%nat, 0%nat)); [apply app_removelast_last; exact Np|].
        destruct (exists_last No) as (l & o & El). rewrite El, last_last, app_nth2 by (rewrite El, app_length in I3; cbn [length] in I3; lia). rewrite El, app_length in I3. cbn [length] in I3. replace (k - 1 - length l)%nat with 0%nat by lia. reflexivity.
      * destruct I4 as (o' & ->); [discriminate|]. eexists. rewrite app_assoc. reflexivity.
    + rewrite case36 in H by auto. assert (EE : expand (S f) (c :: t) T m = c :: expand f t T m) by (cbn [expand]; rewrite case36 by auto; reflexivity).
      rewrite !andb_true_iff in H. destruct H as ((H1 & H2) & H3). destruct n as [|n]; [discriminate|]. destruct (IH n t k Lk H3) as (I1 & I2 & I3 & I4). rewrite EE.
      split; [apply W_put; auto|]. split; [cbn [length]; lia|]. split; [discriminate|]. intros _. destruct I4 as (o' & ->); [intros ->; discriminate|]. exists (c :: o'). reflexivity.
Qed.
Lemma derives_tail T r p s cs p' s' cs' : derives r p s cs p' s' cs' -> forall k k', groups_from k r = Some k' -> tail_pos r = true ->
  exists offs, cs' = number k offs ++ cs /\ k' = (k + length offs)%nat /\ concat (map (piece T) offs) = sub T p p' /\ offs <> [] /\ (fst (last offs (0%nat, 0%nat)) < snd (last offs (0%nat, 0%nat)))%nat /\ snd (last offs (0%nat, 0%nat)) = p'.
Proof.
  induction 1; intros j j' G H'; cbn [groups_from tail_pos] in *; try discriminate.
  - destruct (groups_from j a) as [k1|] eqn:E; [|discriminate]. destruct (derives_groups T _ _ _ _ _ _ _ H _ _ E) as (o1 & -> & -> & C1).
    destruct (IHderives2 _ _ G H') as (o2 & -> & -> & C2 & No & Lo & Po). exists (o1 ++ o2). rewrite number_app, app_length, map_app, concat_app, C1, C2, <- app_assoc.
    split; auto. split; [lia|]. apply derives_len in H. apply derives_len in H0. rewrite <- sub_split by lia. split; [reflexivity|]. split; [intros X; apply app_eq_nil in X; tauto|].
    destruct (exists_last No) as (l & o & ->). rewrite app_assoc, !last_last in *. auto.
  - destruct ((n =? j)%nat && no_group a) eqn:E; [|discriminate]. apply andb_true_iff in E as [E1 E2]. apply Nat.eqb_eq in E1. subst. inv G.
    rewrite (derives_no_group _ _ _ _ _ _ _ H E2) in *. exists [(p, p')]. cbn [number app length map concat piece fst snd last]. rewrite app_nil_r. split; [reflexivity|]. split; [lia|]. split; [reflexivity|]. split; [discriminate|].
    pose proof (derives_len _ _ _ _ _ _ _ H) as [Ln _]. apply derives_min in H. apply Nat.ltb_lt in H'. unfold len in Ln. split; [lia|reflexivity].
Qed.
Lemma match_neat x s tmpl m : re_tame x tmpl = true -> derives (re_ast x) (m_start m) (skipn (m_start m) s) [] (m_end m) (skipn (m_end m) s) (m_caps m) -> (m_end m <= length s)%nat ->
  neat (sub s (m_start m) (m_end m)) (expand_template tmpl s m).
Proof.
  unfold re_tame. destruct (groups_from 1 (re_ast x)) as [k|] eqn:G; [|discriminate]. intros H D Le. apply andb_true_iff in H as [H1 H2].
  destruct (derives_tail s _ _ _ _ _ _ _ D _ _ G H2) as (offs & Ec & -> & Cs & No & Lo & Po). rewrite app_nil_r in Ec. set (lo := last offs (0%nat, 0%nat)) in *.
  assert (Lp : length (piece s lo) = (snd lo - fst lo)%nat). { unfold piece, sub. rewrite firstn_length, skipn_length. lia. }
  assert (Np : piece s lo <> []) by (intros E; rewrite E in Lp; cbn [length] in Lp; lia).
  assert (Lc : concat (map (piece s) offs) = concat (map (piece s) (removelast offs)) ++ piece s lo).
  { rewrite (app_removelast_last (0%nat, 0%nat) No) at 1. rewrite map_app, concat_app. cbn [map concat]. rewrite app_nil_r. reflexivity. }
  destruct (expand_tame s m offs Ec No Np _ _ _ 1%nat (le_n 1) H1) as (W & L & N1 & N2). cbn [skipn Nat.sub] in W, L. rewrite Cs in *. unfold expand_template, len.
  assert (Lw : (1 <= length (sub s (m_start m) (m_end m)))%nat). { rewrite Lc, app_length. lia. }
  split; [exact W|]. split; [unfold len in L; lia|]. intros _. rewrite Lc, last_app2 by exact Np. apply N2. intros ->. specialize (N1 eq_refl). destruct offs; [congruence|cbn [length] in N1; lia].
Qed.
Lemma replace_neat x s tmpl : re_tame x tmpl = true -> forall f le sp, (le <= sp)%nat -> (le <= length s)%nat -> neat (skipn le s) (replace_loop f x s (expand_template tmpl s) le sp).
Proof.
  intros R. induction f as [|f IH]; intros le sp L1 L2; cbn [replace_loop]; [apply neat_refl|].
  destruct (len s <? sp)%nat eqn:E; [apply neat_refl|]. apply Nat.ltb_ge in E. unfold len in E.
  destruct (find_from x s sp) as [m|] eqn:Ef; [|apply neat_refl].
  apply find_from_sound in Ef as (A1 & A2 & A3 & D & _); [|lia].
  rewrite <- (sub_to_end s le), (sub_split s le (m_start m) (length s)), (sub_split s (m_start m) (m_end m) (length s)) by lia.
  apply neat_app; [apply neat_refl|]. apply neat_app.
  - destruct (_ || _) eqn:Eb; [apply (match_neat x); auto|]. apply orb_false_iff in Eb as [Eb _]. apply Nat.ltb_ge in Eb.
    replace (m_end m) with (m_start m) by lia. rewrite sub_nil. apply neat_nil.
  - rewrite sub_to_end. apply IH; auto. destruct (_ <? _)%nat eqn:E1; [apply Nat.ltb_lt in E1; lia|]. destruct (m_end m <? sp + 1)%nat eqn:E2; [apply Nat.ltb_lt in E2; lia|lia].
Qed.
Lemma replace_all_neat x s tmpl : re_tame x tmpl = true -> neat s (re_replace_all x s tmpl).
Proof.
  Local Transparent re_replace_all.
  intros H. unfold re_replace_all, re_replace_func. change s with (skipn 0 s) at 1. apply replace_neat; auto; lia.
  Local Opaque re_replace_all.
Qed.

(** * The printed texts *)
Definition rules_tame (C : container) : Prop := forall m, In m (map snd (c_region C) ++ map snd (c_nongeo C)) -> forallb rule_tame (rules m INTERNATIONAL) = true.
Lemma shipped_tame : rules_tame shipped.
Proof.
  assert (B : forallb (fun m => forallb rule_tame (rules m INTERNATIONAL)) (map snd (c_region shipped) ++ map snd (c_nongeo shipped)) = true) by (vm_cast_no_check (eq_refl true)).
  rewrite forallb_forall in B. exact B.
Qed.
Lemma printed_neat m s o : forallb rule_tame (rules m INTERNATIONAL) = true -> printed m INTERNATIONAL [] s o -> neat s o.
Proof.
  intros K (r & H & E). destruct r as [f|]; [|subst o; apply neat_refl]. destruct E as (x & t & Ex & T & ->). cbn [template] in T. subst t.
  rewrite forallb_forall in K. destruct H as (pre & post & El & _). assert (Kf : rule_tame f = true) by (apply K; rewrite El; apply in_or_app; right; left; auto).
  unfold rule_tame in Kf. rewrite Ex in Kf. apply replace_all_neat. exact Kf.
Qed.
Lemma gap_sep c : gap_char c = true -> In c separators /\ c < 128 /\ dig c = false.
Proof. unfold gap_char. rewrite !orb_true_iff, !N.eqb_eq. intros [[[[->| ->]| ->]| ->]| ->]; (split; [vm_compute; tauto|]; split; reflexivity). Qed.
Lemma dig_filter w : all_digits w = true -> filter dig w = w.
Proof. intros D. apply filter_all. rewrite forallb_forall. intros c I. apply dig_iff, (all_digits_In w); auto. Qed.
(** A calling code, a gap and a printed number, as the parser sees it. *)
Lemma text_shape a g s o : all_digits a = true -> all_digits s = true -> s <> [] -> gap_char g = true -> woven gap_char s o -> (exists o', o = o' ++ [last s 0]) ->
  exists x d, a ++ g :: o = x ++ d /\ spaced (x ++ d) /\ all_digits d = true /\ d <> [] /\ only_digits (x ++ d) = a ++ s.
Proof.
  intros Da Ds Ns Hg W (o' & Eo). exists (a ++ g :: o'), [last s 0]. assert (E : (a ++ g :: o') ++ [last s 0] = a ++ g :: o) by (rewrite <- app_assoc, Eo; reflexivity). split; [symmetry; exact E|]. rewrite E. clear o' Eo E.
  assert (A : forall c, In c (a ++ g :: o) -> 48 <= c <= 57 \/ gap_char c = true).
  { intros c I. apply in_app_or in I as [I|[<-|I]]; [left; apply (all_digits_In a); auto|auto|]. destruct (woven_in _ _ _ _ W Ds I) as [H|H]; [left; apply is_digit_iff; auto|auto]. }
  assert (As : ascii (a ++ g :: o)) by (apply Forall_forall; intros c I; destruct (A c I) as [H|H]; [lia|apply gap_sep in H; tauto]).
  assert (R : runes (a ++ g :: o) = a ++ g :: o) by (apply runes_ascii; auto).
  split; [intros c I; rewrite R in I; destruct (A c I) as [H|H]; [left; lia|right; apply gap_sep in H; tauto]|].
  destruct (last_digit s Ds Ns) as (s0 & dl & -> & Hd). rewrite last_last. split; [cbn [all_digits forallb]; rewrite andb_true_r; apply is_digit_iff; exact Hd|]. split; [discriminate|].
  unfold only_digits. rewrite R. change (fun c => (48 <=? c) && (c <=? 57)) with dig. rewrite filter_app, dig_filter by auto. f_equal. cbn [filter]. destruct (gap_sep _ Hg) as (_ & _ & ->). rewrite (woven_filter _ _ _ _ W), dig_filter; auto. intros c Hc. apply gap_sep in Hc. tauto.
Qed.
Lemma plain_core C a g s o region : all_digits a = true -> all_digits s = true -> s <> [] -> gap_char g = true -> woven gap_char s o -> (exists o', o = o' ++ [last s 0]) ->
  (3 <= length (a ++ s))%nat -> (length (43%N :: a ++ g :: o) <= 250)%nat -> parse_core C (43 :: a ++ g :: o) region true = parse_core C (43 :: a ++ s) region true.
Proof.
  intros Da Ds Ns Hg W Lo L3 L. destruct (text_shape a g s o Da Ds Ns Hg W Lo) as (x & d & E & S & D & Nd & Od). rewrite E in *.
  change (43 :: x ++ d) with ([43] ++ x ++ d) in *. rewrite spaced_core; auto; [rewrite Od; reflexivity|rewrite Od; exact L3].
Qed.
Lemma labelled_core C a g s o region q k e : all_digits a = true -> all_digits s = true -> s <> [] -> gap_char g = true -> woven gap_char s o -> (exists o', o = o' ++ [last s 0]) ->
  (3 <= length (a ++ s))%nat -> In (q, k) ext_labels -> all_digits e = true -> (1 <= length e <= k)%nat -> (length (43%N :: (a ++ g :: o) ++ q ++ e) <= 250)%nat ->
  parse_core C (43 :: (a ++ g :: o) ++ q ++ e) region true = (y <- parse_core C (43 :: a ++ s) region true ;; Ret (with_ext e y)).
Proof.
  intros Da Ds Ns Hg W Lo L3 I De Le L. assert (P : parse_core C (43 :: a ++ g :: o) region true = parse_core C (43 :: a ++ s) region true).
  { apply plain_core; auto. cbn [length] in *. rewrite !app_length in *. cbn [length] in *. rewrite ?app_length in *. lia. }
  rewrite <- P. clear P. destruct (text_shape a g s o Da Ds Ns Hg W Lo) as (x & d & E & S & D & Nd & Od). rewrite E in *.
  change (43 :: x ++ d) with ([43] ++ x ++ d) in *. change (43 :: (x ++ d) ++ q ++ e) with ([43] ++ (x ++ d) ++ q ++ e) in *. eapply ext_core; eauto. rewrite Od. exact L3.
Qed.
Lemma labelled_text a g s o q k e : all_digits a = true -> all_digits s = true -> s <> [] -> gap_char g = true -> woven gap_char s o -> (exists o', o = o' ++ [last s 0]) ->
  In (q, k) ext_labels -> all_digits e = true -> (1 <= length e)%nat ->
  let t := 43 :: (a ++ g :: o) ++ q ++ e in extractPossibleNumber t = t /\ ~ In 112 t /\ ~ In 98 t /\ clean t.
Proof.
  intros Da Ds Ns Hg W Lo I De Le. destruct (text_shape a g s o Da Ds Ns Hg W Lo) as (x & d & E & S & D & Nd & Od). rewrite E. apply (ext_possible [43] x d q k e); auto.
Qed.
Lemma plain_text a g s o : all_digits a = true -> all_digits s = true -> s <> [] -> gap_char g = true -> woven gap_char s o -> (exists o', o = o' ++ [last s 0]) ->
  let t := 43 :: a ++ g :: o in extractPossibleNumber t = t /\ ~ In 112 t /\ ~ In 98 t /\ clean t.
Proof.
  intros Da Ds Ns Hg W Lo. destruct (text_shape a g s o Da Ds Ns Hg W Lo) as (x & d & E & S & D & Nd & Od). rewrite E. cbv zeta. change (43 :: x ++ d) with ([43] ++ x ++ d).
  assert (Cl : clean ([43] ++ x ++ d)) by (apply start_clean; auto).
  assert (Sx : forall c, In c (runes ([43] ++ x)) -> In c (runes ([43] ++ x ++ d))) by (intros c Ic; rewrite app_assoc, runes_app_ascii by (apply digits_ascii; auto); apply in_or_app; auto).
  split.
  - rewrite app_assoc in Cl |- *. apply possible_clean; auto; intros Ic; apply Sx in Ic; revert Ic; apply spaced_no; auto; try discriminate; apply not_letter; cbn; tauto.
  - split; [|split; [|exact Cl]]; apply spaced_no_byte; auto; try discriminate; try reflexivity; apply not_letter; cbn; tauto.
Qed.
(** Digit groups joined by hyphens. *)
Lemma join_shape gs : Forall (fun g => g <> [] /\ all_digits g = true) gs -> gs <> [] -> woven gap_char (concat gs) (join gs (bs "-")) /\ (length (join gs (bs "-")) <= 2 * length (concat gs))%nat /\ exists o', join gs (bs "-") = o' ++ [last (concat gs) 0].
Proof.
  induction gs as [|g gs IH]; intros F N; [congruence|]. inv F. destruct H1 as [Ng Dg]. destruct gs as [|g' gs].
  - cbn [concat join]. rewrite app_nil_r. split; [apply woven_refl|]. split; [lia|]. exists (removelast g). apply app_removelast_last. exact Ng.
  - destruct IH as (I1 & I2 & o' & I3); [auto|discriminate|]. change (join (g :: g' :: gs) (bs "-")) with (g ++ 45 :: join (g' :: gs) (bs "-")). change (concat (g :: g' :: gs)) with (g ++ concat (g' :: gs)).
    set (J := join (g' :: gs) (bs "-")) in *. set (K := concat (g' :: gs)) in *. assert (Nk : K <> []). { unfold K. cbn [concat]. inv H2. intros E. apply app_eq_nil in E as [E _]. tauto. }
    split; [apply woven_app; [apply woven_refl|apply W_put; auto]|]. split; [rewrite !app_length; cbn [length]; destruct g; [congruence|cbn [length]; lia]|]. rewrite last_app2 by exact Nk. exists (g ++ 45 :: o'). rewrite I3, <- app_assoc. reflexivity.
Qed.

(** * Stored numbers *)
Lemma store_with_ext s s' e v : e <> [] -> store false s' (with_ext e v) phone0 = set_ext (store false s v phone0) (Some e).
Proof.
  intros Ne. pose proof (store_fields false s' (with_ext e v) phone0) as (A1 & A2 & A3 & A4 & A5 & A6 & A7). pose proof (store_fields false s v phone0) as (B1 & B2 & B3 & B4 & B5 & B6 & B7).
  cbn [with_ext pr_cc pr_nsn pr_ext pr_src pr_carrier andb phone0 p_ext p_nlz p_raw p_src p_carrier] in *. replace (is_empty e) with false in A3 by (destruct e; [congruence|reflexivity]).
  assert (Zz : (p_ilz (store false s' (with_ext e v) phone0), p_nlz (store false s' (with_ext e v) phone0)) = (p_ilz (store false s v phone0), p_nlz (store false s v phone0))) by congruence. apply pair_equal_spec in Zz as [Z1 Z2]. clear A4 B4.
  set (r := store false s' (with_ext e v) phone0) in *. set (n := store false s v phone0) in *. clearbody r n.
  destruct r as [r1 r2 r3 r4 r5 r6 r7 r8], n as [n1 n2 n3 n4 n5 n6 n7 n8]. unfold set_ext. cbn [p_cc p_nn p_ext p_raw p_src p_carrier p_ilz p_nlz] in *. subst. reflexivity.
Qed.
Lemma core_parse C s s' r : wf_container C -> parse_core C s r true = parse_core C s' r true -> forall n, Parse C s' r = Ret (n, None) -> Parse C s r = Ret (n, None).
Proof.
  intros W E n H. unfold Parse, ParseToNumber in *. apply parse_found in H as (x & Hx & ->); auto. rewrite <- E in Hx. pose proof (parse_runs C s r false true W) as R. rewrite Hx in R. apply R.
Qed.
Lemma core_parse_ext C s s' r e : wf_container C -> e <> [] -> parse_core C s r true = (y <- parse_core C s' r true ;; Ret (with_ext e y)) -> forall n, Parse C s' r = Ret (n, None) -> Parse C s r = Ret (set_ext n (Some e), None).
Proof.
  intros W Ne E n H. unfold Parse, ParseToNumber in *. apply parse_found in H as (x & Hx & ->); auto. rewrite Hx in E. cbn [bind] in E. pose proof (parse_runs C s r false true W) as R. rewrite E in R. rewrite (R phone0). rewrite (store_with_ext s' s e x Ne). reflexivity.
Qed.
Definition marks_known (C : container) : Prop := forall m, In m (map snd (c_region C) ++ map snd (c_nongeo C)) -> existsb (fun q => beq (fst q) (match get_bytes (md_extn m) with [] => bs " ext. " | p => p end) && (9 <=? snd q)%nat) ext_labels = true.
Lemma shipped_marks : marks_known shipped.
Proof.
  assert (B : forallb (fun m => existsb (fun q => beq (fst q) (match get_bytes (md_extn m) with [] => bs " ext. " | p => p end) && (9 <=? snd q)%nat) ext_labels) (map snd (c_region shipped) ++ map snd (c_nongeo shipped)) = true) by (vm_cast_no_check (eq_refl true)).
  rewrite forallb_forall in B. exact B.
Qed.
Lemma itoa_len cc : (0 < cc < 1000)%Z -> all_digits (itoa cc) = true /\ (1 <= length (itoa cc) <= 3)%nat.
Proof.
  intros Pos. split; [rewrite itoa_pos by lia; apply dec_digits|]. rewrite itoa_pos by lia. pose proof (dec_nonempty (Z.to_N cc)) as Ne. split; [destruct (dec _); [congruence|simpl; lia]|]. apply dec_length_le; [lia|]. change (10 ^ N.of_nat 3) with 1000. lia.
Qed.
Lemma labels_short q k : In (q, k) ext_labels -> (length q <= 12)%nat /\ (k <= 20)%nat.
Proof.
  assert (B : forallb (fun x => (length (fst x) <=? 12)%nat && (snd x <=? 20)%nat) ext_labels = true) by reflexivity. rewrite forallb_forall in B. intros I. apply B in I. cbn [fst snd] in I. apply andb_true_iff in I as [I1 I2]. apply Nat.leb_le in I1, I2. auto.
Qed.
Definition same_but_ext (e : bytes) (r : phone) : phone := match e with [] => r | _ => set_ext r (Some e) end.
Theorem international_back C n region : wf_container C -> rules_fine C -> rules_tame C -> marks_known C -> hasValidCountryCallingCode C (cc_of n) = true -> printed_raw n = false ->
  (2 <= length (GetNationalSignificantNumber n) <= 17)%nat -> all_digits (ext_of n) = true -> (length (ext_of n) <= 9)%nat ->
  exists text, Format C n INTERNATIONAL = Ret text /\ forall r, Parse C (43 :: itoa (cc_of n) ++ GetNationalSignificantNumber n) region = Ret (r, None) -> Parse C text region = Ret (same_but_ext (ext_of n) r, None).
Proof.
  intros W RF RT MK V R Ls De Le. destruct (format_rule C n INTERNATIONAL W RF R (or_intror eq_refl) V) as (m & body & Me & P & F). pose proof (valid_cc_pos _ _ W V) as Pos. destruct (itoa_len _ Pos) as [Da La].
  destruct (main_entry_ok C _ W V) as (m' & Me' & Em' & _). assert (m' = m). { destruct Me as (r0 & l & A & B). destruct Me' as (r' & l' & A' & B'). rewrite A in A'. injection A' as <- <-. rewrite B in B'. injection B' as <-. reflexivity. }
  subst m'. apply main_meta_in in Em'. pose proof (printed_neat m _ _ (RT m Em') P) as (Wv & Lb & Lo). pose proof (nsn_digits n) as Ds. set (s := GetNationalSignificantNumber n) in *. set (a := itoa (cc_of n)) in *.
  assert (Ns : s <> []) by (intros E; rewrite E in Ls; cbn [length] in Ls; lia). specialize (Lo Ns). eexists. split; [exact F|].
  change (prefixNumberWithCountryCallingCode (cc_of n) INTERNATIONAL (body ++ extension_text m (ext_of n))) with (43 :: a ++ 32 :: body ++ extension_text m (ext_of n)).
  specialize (MK m Em'). apply existsb_exists in MK as ((q & k) & Iq & Eq). cbn [fst snd] in Eq. apply andb_true_iff in Eq as [Eq Lk]. apply beq_eq in Eq. apply Nat.leb_le in Lk. pose proof (labels_short q k Iq) as [Lq _].
  intros r Hr. destruct (ext_of n) as [|e0 e] eqn:Ee.
  - cbn [extension_text]. rewrite app_nil_r. cbn [same_but_ext]. revert Hr. apply core_parse; auto. apply plain_core; auto; [rewrite app_length; lia|cbn [length]; rewrite app_length; cbn [length]; lia].
  - cbn [same_but_ext]. replace (extension_text m (e0 :: e)) with (q ++ e0 :: e) by (unfold extension_text; rewrite Eq; destruct (get_bytes (md_extn m)); reflexivity).
    replace (43 :: a ++ 32 :: body ++ q ++ e0 :: e) with (43 :: (a ++ 32 :: body) ++ q ++ e0 :: e) by (rewrite <- app_assoc; reflexivity). revert Hr. apply core_parse_ext; [auto|discriminate|].
    apply (labelled_core C a 32 s body region q k (e0 :: e)); auto; [rewrite app_length; lia|cbn [length] in *; lia|cbn [length] in *; rewrite !app_length; cbn [length]; lia].
Qed.
Theorem rfc_back n region : hasValidCountryCallingCode shipped (cc_of n) = true -> printed_raw n = false ->
  (2 <= length (GetNationalSignificantNumber n) <= 17)%nat -> all_digits (ext_of n) = true -> (length (ext_of n) <= 20)%nat ->
  exists text, Format shipped n RFC3966 = Ret text /\ forall r, Parse shipped (43 :: itoa (cc_of n) ++ GetNationalSignificantNumber n) region = Ret (r, None) -> Parse shipped text region = Ret (same_but_ext (ext_of n) r, None).
Proof.
  intros V R Ls De Le. destruct (rfc_format n V R) as (gs & (Cg & Fg) & F). pose proof (valid_cc_pos _ _ shipped_wf V) as Pos. destruct (itoa_len _ Pos) as [Da La]. eexists. split; [exact F|]. clear F.
  pose proof (nsn_digits n) as Ds. set (s := GetNationalSignificantNumber n) in *. set (a := itoa (cc_of n)) in *. assert (Ns : s <> []) by (intros E; rewrite E in Ls; cbn [length] in Ls; lia).
  destruct (join_shape gs Fg) as (Wv & Lb & Lo); [intros ->; cbn in Cg; congruence|]. rewrite Cg in *. set (o := join gs (bs "-")) in *. clearbody o a. clear gs Cg Fg.
  assert (Ib : In (bs ";ext=", 20%nat) ext_labels) by (left; reflexivity). intros r Hr. destruct (ext_of n) as [|e0 e] eqn:Ee.
  - cbn [is_empty same_but_ext]. rewrite app_nil_r. change (bs "tel:+" ++ a ++ bs "-" ++ o) with (bs "tel:" ++ 43 :: a ++ 45 :: o). revert Hr. apply core_parse; [exact shipped_wf|].
    destruct (plain_text a 45 s o) as (T1 & T2 & T3 & T4); auto. assert (Lt : (length (43%N :: a ++ 45%N :: o) <= 246)%nat) by (cbn [length]; rewrite app_length; cbn [length]; lia).
    rewrite tel_core; auto. apply plain_core; auto; try lia; rewrite app_length; lia.
  - cbn [is_empty same_but_ext]. set (ee := e0 :: e) in *. replace (bs "tel:+" ++ a ++ bs "-" ++ o ++ bs ";ext=" ++ ee) with (bs "tel:" ++ 43 :: (a ++ 45 :: o) ++ bs ";ext=" ++ ee).
    2:{ rewrite <- app_assoc. reflexivity. }
    revert Hr. apply core_parse_ext; [exact shipped_wf|discriminate|]. assert (Le1 : (1 <= length ee)%nat) by (unfold ee; cbn [length]; lia). clearbody ee.
    destruct (labelled_text a 45 s o (bs ";ext=") 20 ee) as (T1 & T2 & T3 & T4); auto.
    assert (Lt : (length (43%N :: (a ++ 45%N :: o) ++ bs ";ext=" ++ ee) <= 246)%nat) by (cbn [length]; rewrite !app_length; cbn [length]; change (length (bs ";ext=")) with 5%nat; lia).
    rewrite tel_core; auto. apply (labelled_core shipped a 45 s o region (bs ";ext=") 20 ee); auto; try lia; rewrite app_length; lia.
Qed.
