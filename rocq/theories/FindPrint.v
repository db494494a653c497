(** Printed numbers are written the way the text search expects. *)
From Verif Require Import Base BaseFacts UnicodeTables Utf8 Utf8Facts Regex RegexSpec RegexFacts LangFacts Consts Types Normalize NormalizeSpec NormalizeFacts Validate Format Parse
  NumberSpec NumberFacts MetaSpec ValidateSpec ValidateFacts Container Shipped MetaFacts FormatSpec TextFacts FormatFacts FormatMore ParseSpec ParseFacts ParseMore ContextFacts
  RoundSpec DerivFacts Matcher MatcherSpec MatcherFacts MatcherRun MatcherTotal RoundTripFacts PropsNumber PropsValidate PropsFormat PropsRound RuleSpec RuleFacts RuleMore ReadSpec ReadFacts ReadMore PropsRead ExtSpec ExtFacts BackFacts
  PropsBack FindSpec FindFacts FindMore.
Local Opaque compile re_find re_replace_all re_find_all re_match.

(** Digits with single separators between them. *)
Definition gap3 (c : N) : bool := (c =? 32) || (c =? 45) || (c =? 46).
Inductive tight : bytes -> Prop :=
  | T_one c : is_digit c = true -> tight [c]
  | T_dig c o : is_digit c = true -> tight o -> tight (c :: o)
  | T_gap c g o : is_digit c = true -> gap3 g = true -> tight o -> tight (c :: g :: o).
Lemma tight_digits d : all_digits d = true -> d <> [] -> tight d.
Proof.
  induction d as [|c d IH]; [congruence|]. intros D _. unfold all_digits in *. cbn [forallb] in D. apply andb_true_iff in D as [D1 D2]. destruct d as [|c' d]; [apply T_one; auto|apply T_dig; auto]. apply IH; [auto|discriminate].
Qed.
Lemma tight_app a b : tight a -> tight b -> tight (a ++ b).
Proof. induction 1; intros Tb; cbn [app]; [apply T_dig|apply T_dig|apply T_gap]; auto. Qed.
Lemma tight_gap a g b : tight a -> gap3 g = true -> tight b -> tight (a ++ g :: b).
Proof. induction 1; intros Hg Tb; cbn [app]; [apply T_gap|apply T_dig|apply T_gap]; auto. Qed.
Definition tight0 (o : bytes) : Prop := o = [] \/ tight o.
Lemma tight0_app a b : tight0 a -> tight0 b -> tight0 (a ++ b).
Proof. intros [->|A] [->|B]; [left; auto|right; auto|rewrite app_nil_r; right; auto|right; apply tight_app; auto]. Qed.
Lemma tight0_digits d : all_digits d = true -> tight0 d.
Proof. intros D. destruct d as [|c d]; [left; auto|right; apply tight_digits; auto; discriminate]. Qed.
(** The groups of such a text. *)
Definition glue (l : list (N * bytes)) : bytes := concat (map (fun x => fst x :: snd x) l).
Lemma tight_groups o : tight o -> exists d l, o = d ++ glue l /\ d <> [] /\ all_digits d = true /\ Forall (fun x => gap3 (fst x) = true /\ snd x <> [] /\ all_digits (snd x) = true) l.
Proof.
  induction 1 as [c D|c o D T (d & l & -> & N0 & Dd & F)|c g o D G T (d & l & -> & N0 & Dd & F)].
  - exists [c], []. split; [reflexivity|]. split; [discriminate|]. split; [unfold all_digits; cbn [forallb]; rewrite D; reflexivity|constructor].
  - exists (c :: d), l. split; [reflexivity|]. split; [discriminate|]. split; [unfold all_digits in *; cbn [forallb]; rewrite D, Dd; reflexivity|exact F].
  - exists [c], ((g, d) :: l). split; [reflexivity|]. split; [discriminate|]. split; [unfold all_digits; cbn [forallb]; rewrite D; reflexivity|]. constructor; [cbn [fst snd]; auto|exact F].
Qed.
Lemma glue_digits l : Forall (fun x => gap3 (fst x) = true /\ snd x <> [] /\ all_digits (snd x) = true) l -> filter is_digit (glue l) = concat (map snd l) /\ (length l <= length (concat (map snd l)))%nat /\
  Forall (fun x => (length (snd x) <= length (concat (map snd l)))%nat) l.
Proof.
  induction 1 as [|[g d] l (G & N0 & D) F (I1 & I2 & I3)]; [repeat split; auto; constructor|]. cbn [fst snd] in *. unfold glue in *. cbn [map concat fst snd app filter]. split; [|split].
  - assert (Gd : is_digit g = false). { unfold gap3 in G. rewrite !orb_true_iff, !N.eqb_eq in G. destruct (is_digit g) eqn:E; auto. apply is_digit_iff in E. lia. }
    rewrite Gd, filter_app, I1. f_equal. clear - D. induction d as [|c d IH]; [reflexivity|]. unfold all_digits in *. cbn [forallb] in D. apply andb_true_iff in D as [D1 D2]. cbn [filter]. rewrite D1, IH; auto.
  - cbn [length]. rewrite app_length. destruct d; [congruence|cbn [length]; lia].
  - constructor; [cbn [snd]; rewrite app_length; lia|]. eapply Forall_impl; [|exact I3]. intros x Hx. cbv beta in Hx. rewrite app_length. lia.
Qed.
Lemma digits_filter d : all_digits d = true -> filter is_digit d = d.
Proof. induction d as [|c d IH]; [reflexivity|]. unfold all_digits in *. cbn [forallb filter]. intros D. apply andb_true_iff in D as [D1 D2]. rewrite D1, IH; auto. Qed.
Lemma digits_group d : all_digits d = true -> d <> [] -> (length d <= 20)%nat -> digit_group d.
Proof.
  intros D N0 L. split; [|destruct d; [congruence|cbn [length] in *; lia]]. apply Forall_forall. intros c I. unfold all_digits in D. rewrite forallb_forall in D. apply is_digit_iff. auto.
Qed.
Lemma tight_written o : tight o -> (length (filter is_digit o) <= 20)%nat -> written (43 :: o).
Proof.
  intros T L. destruct (tight_groups o T) as (d & l & -> & N0 & D & F). destruct (glue_digits l F) as (G1 & G2 & G3). rewrite filter_app, G1, digits_filter, app_length in L by auto.
  exists [43], d, (map (fun x => ([fst x], snd x)) l). split; [auto|]. split; [apply digits_group; auto; lia|]. split; [|split].
  - apply Forall_map. rewrite Forall_forall in F, G3 |- *. intros [g e] I. pose proof (F _ I) as (H1 & H2 & H3). pose proof (G3 _ I) as H4. cbn [fst snd] in *. split.
    + split; [|cbn [length]; lia]. unfold gap3 in H1. rewrite !orb_true_iff, !N.eqb_eq in H1. constructor; [tauto|constructor].
    + apply digits_group; auto. lia.
  - rewrite map_length. unfold bytes in *. lia.
  - cbn [app]. f_equal. f_equal. unfold glue. rewrite map_map. cbn [fst snd app]. reflexivity.
Qed.

(** * What the formatting rules produce *)
(** A template that alternates between the groups of the pattern, in order, and single separators. *)
Fixpoint alternates (fuel : nat) (tmpl : bytes) (k last : nat) : bool :=
  match fuel with
  | O => false
  | S f =>
      match tmpl with
      | 36 :: t =>
          match t with
          | 36 :: _ => false
          | _ => match extract_ref t with
                 | Some (Some j, rest) => (j =? k)%nat && (j <? last)%nat &&
                     match rest with
                     | [] => (S k =? last)%nat
                     | g :: rest' => gap3 g && match f with O => false | S f' => alternates f' rest' (S k) last end
                     end
                 | _ => false
                 end
          end
      | _ => false
      end
  end.
(** Every group takes something. *)
Fixpoint all_pos (r : regex) : bool := match r with RGroup _ a => (0 <? minrunes a)%nat | RCat a b => all_pos a && all_pos b | _ => false end.
Definition re_alternates (x : re) (tmpl : bytes) : bool := match groups_from 1 (re_ast x) with Some k => alternates (S (len tmpl)) tmpl 1 k && all_pos (re_ast x) | None => false end.
Definition rule_alternates (f : nfmt) : bool := match compile (get_pattern f) with Some x => re_alternates x (get_format f) | None => false end.
Definition rules_alternate (C : container) : Prop := forall m, In m (map snd (c_region C) ++ map snd (c_nongeo C)) -> forallb rule_alternates (rules m INTERNATIONAL) = true.
Lemma shipped_alternate : rules_alternate shipped.
Proof.
  assert (B : forallb (fun m => forallb rule_alternates (rules m INTERNATIONAL)) (map snd (c_region shipped) ++ map snd (c_nongeo shipped)) = true) by (vm_cast_no_check (eq_refl true)).
  rewrite forallb_forall in B. exact B.
Qed.

(** Such a template writes the groups of the match, in order, with one separator between each two. *)
Lemma skip_nth {A} (d : A) l k : (k < length l)%nat -> skipn k l = nth k l d :: skipn (S k) l.
Proof. revert k. induction l as [|x l IH]; intros k L; cbn [length] in L; [lia|]. destruct k; [reflexivity|]. cbn [skipn nth]. rewrite IH by lia. reflexivity. Qed.
Lemma expand_alternates T m offs : m_caps m = number 1 offs -> forall f tmpl k, (1 <= k)%nat -> alternates f tmpl k (S (length offs)) = true ->
  exists l, expand f tmpl T m = piece T (nth (k - 1) offs (0%nat, 0%nat)) ++ glue l /\ map snd l = map (piece T) (skipn k offs) /\ Forall (fun x => gap3 (fst x) = true) l /\ (k <= length offs)%nat.
Proof.
  intros Hm. assert (G : forall n f, (f <= n)%nat -> forall tmpl k, (1 <= k)%nat -> alternates f tmpl k (S (length offs)) = true ->
    exists l, expand f tmpl T m = piece T (nth (k - 1) offs (0%nat, 0%nat)) ++ glue l /\ map snd l = map (piece T) (skipn k offs) /\ Forall (fun x => gap3 (fst x) = true) l /\ (k <= length offs)%nat).
  2:{ intros f. apply (G f f). lia. }
  induction n as [|n IH]; intros f Lf tmpl k Lk H; (destruct f as [|f]; [discriminate|]); [lia|]. cbn [alternates] in H. destruct tmpl as [|c t]; [discriminate|].
  destruct (N.eq_dec c 36) as [->|Nc]; [|rewrite case36 in H by auto; discriminate].
  assert (Hd : (match t with 36 :: _ => False | _ => True end) /\ match extract_ref t with
    | Some (Some j, rest) => (j =? k)%nat && (j <? S (length offs))%nat && match rest with [] => (S k =? S (length offs))%nat | g :: rest' => gap3 g && match f with O => false | S f' => alternates f' rest' (S k) (S (length offs)) end end | _ => false end = true).
  { destruct t as [|d t']; [auto|]. destruct (N.eq_dec d 36) as [->|Nd]; [discriminate|]. rewrite case36 in H by auto. rewrite case36 by auto. auto. }
  destruct Hd as [N36 He]. destruct (extract_ref t) as [[[j|] rest]|] eqn:Ex; try discriminate.
  rewrite !andb_true_iff in He. destruct He as ((E1 & E2) & E3). apply Nat.eqb_eq in E1. apply Nat.ltb_lt in E2. subst j.
  assert (Eg : group_str T m k = piece T (nth (k - 1) offs (0%nat, 0%nat))).
  { unfold group_str, group. destruct k; [lia|]. rewrite Hm, assoc_number by lia.
    destruct (nth_error offs (S k - 1)) as [[i j]|] eqn:En.
    - rewrite (nth_error_nth _ _ _ En). reflexivity.
    - apply nth_error_None in En. lia. }
  assert (EE : expand (S f) (36 :: t) T m = piece T (nth (k - 1) offs (0%nat, 0%nat)) ++ expand f rest T m).
  { cbn [expand]. destruct t as [|d t']; [rewrite Ex, Eg; reflexivity|]. rewrite case36; [rewrite Ex, Eg; reflexivity|]. intros ->. contradiction. }
  rewrite EE. destruct rest as [|g rest].
  - apply Nat.eqb_eq in E3. exists []. rewrite expand_nil, skipn_all2 by lia. split; [reflexivity|]. split; [reflexivity|]. split; [constructor|lia].
  - apply andb_true_iff in E3 as [E3 E4]. destruct f as [|f]; [discriminate|]. destruct (IH f ltac:(lia) rest (S k) ltac:(lia) E4) as (l & I1 & I2 & I3 & I4).
    assert (Ng : g <> 36). { intros ->. discriminate. }
    assert (EG : expand (S f) (g :: rest) T m = g :: expand f rest T m) by (cbn [expand]; rewrite case36 by auto; reflexivity).
    rewrite EG, I1. replace (S k - 1)%nat with k by lia. exists ((g, piece T (nth k offs (0%nat, 0%nat))) :: l). split; [unfold glue; cbn [map concat fst snd app]; reflexivity|].
    split; [rewrite (skip_nth (0%nat, 0%nat) offs k) by lia; cbn [map snd]; rewrite I2; reflexivity|]. split; [constructor; auto|lia].
Qed.
Lemma derives_all T r p s cs p' s' cs' : derives r p s cs p' s' cs' -> forall k k', groups_from k r = Some k' -> all_pos r = true -> (p' <= length T)%nat ->
  exists offs, cs' = number k offs ++ cs /\ k' = (k + length offs)%nat /\ concat (map (piece T) offs) = sub T p p' /\ offs <> [] /\ Forall (fun o => piece T o <> []) offs.
Proof.
  induction 1; intros j j' G H' LT; cbn [groups_from all_pos] in *; try discriminate.
  - destruct (groups_from j a) as [k1|] eqn:E; [|discriminate]. apply andb_true_iff in H' as [Ha Hb]. pose proof (derives_len _ _ _ _ _ _ _ H) as L1. pose proof (derives_len _ _ _ _ _ _ _ H0) as L2.
    destruct (IHderives1 _ _ E Ha) as (o1 & -> & -> & C1 & N1 & F1); [lia|]. destruct (IHderives2 _ _ G Hb LT) as (o2 & -> & -> & C2 & N2 & F2). exists (o1 ++ o2).
    rewrite number_app, app_length, map_app, concat_app, C1, C2, <- app_assoc. split; auto. split; [lia|]. rewrite <- sub_split by lia. split; [reflexivity|]. split; [intros X; apply app_eq_nil in X; tauto|]. apply Forall_app. auto.
  - destruct ((n =? j)%nat && no_group a) eqn:E; [|discriminate]. apply andb_true_iff in E as [E1 E2]. apply Nat.eqb_eq in E1. subst. inv G.
    rewrite (derives_no_group _ _ _ _ _ _ _ H E2) in *. exists [(p, p')]. cbn [number app length map concat piece fst snd last]. rewrite app_nil_r. split; [reflexivity|]. split; [lia|]. split; [reflexivity|]. split; [discriminate|].
    pose proof (derives_len _ _ _ _ _ _ _ H) as [Ln _]. apply derives_min in H. apply Nat.ltb_lt in H'. unfold len in Ln. constructor; [|constructor]. intros X. apply (f_equal (@length N)) in X. unfold piece, sub in X. cbn [fst snd] in X. rewrite firstn_length, skipn_length in X. cbn [length] in X. lia.
Qed.
Lemma glue_tight d l : d <> [] -> all_digits d = true -> Forall (fun x => gap3 (fst x) = true) l -> Forall (fun g => g <> [] /\ all_digits g = true) (map snd l) -> tight (d ++ glue l).
Proof.
  intros N0 D G F. revert d N0 D. induction l as [|[g e] l IH]; intros d N0 D; [unfold glue; cbn [map concat]; rewrite app_nil_r; apply tight_digits; auto|].
  inv G. cbn [map snd] in F. inv F. destruct H3 as [Ne De]. cbn [fst] in *. change (glue ((g, e) :: l)) with (g :: e ++ glue l). apply tight_gap; [apply tight_digits; auto|auto|]. apply IH; auto.
Qed.
Lemma sub_all_digits s i j : all_digits s = true -> all_digits (sub s i j) = true.
Proof.
  unfold all_digits. rewrite !forallb_forall. intros D c I. apply D. unfold sub in I.
  assert (J : In c (skipn i s)) by (rewrite <- (firstn_skipn (j - i) (skipn i s)); apply in_or_app; auto). rewrite <- (firstn_skipn i s). apply in_or_app. auto.
Qed.
Lemma match_tight x s tmpl m : re_alternates x tmpl = true -> all_digits s = true -> derives (re_ast x) (m_start m) (skipn (m_start m) s) [] (m_end m) (skipn (m_end m) s) (m_caps m) -> (m_end m <= length s)%nat ->
  tight (expand_template tmpl s m).
Proof.
  unfold re_alternates. destruct (groups_from 1 (re_ast x)) as [k|] eqn:G; [|discriminate]. intros H Ds D Le. apply andb_true_iff in H as [H1 H2].
  destruct (derives_all s _ _ _ _ _ _ _ D _ _ G H2 Le) as (offs & Ec & -> & Cs & No & Np). rewrite app_nil_r in Ec.
  destruct (expand_alternates s m offs Ec _ _ 1%nat (le_n 1) H1) as (l & E & El & Gl & Ll). unfold expand_template. rewrite E.
  assert (F : Forall (fun g => g <> [] /\ all_digits g = true) (map (piece s) offs)).
  { apply Forall_map. eapply Forall_impl; [|exact Np]. intros o Ho. split; [exact Ho|]. unfold piece. apply sub_all_digits. exact Ds. }
  destruct offs as [|o offs]; [congruence|]. cbn [Nat.sub nth skipn map] in *. inv F. apply glue_tight; [tauto|tauto|exact Gl|]. unfold bytes in *. rewrite El. auto.
Qed.
Lemma replace_tight x s tmpl : re_alternates x tmpl = true -> all_digits s = true -> forall f le sp, (le <= sp)%nat -> (le <= length s)%nat -> tight0 (replace_loop f x s (expand_template tmpl s) le sp).
Proof.
  intros R Ds. assert (Dk : forall i, tight0 (skipn i s)) by (intros i; apply tight0_digits; rewrite <- sub_to_end; apply sub_all_digits; auto).
  induction f as [|f IH]; intros le sp L1 L2; cbn [replace_loop]; [apply Dk|].
  destruct (len s <? sp)%nat eqn:E; [apply Dk|]. apply Nat.ltb_ge in E. unfold len in E.
  destruct (find_from x s sp) as [m|] eqn:Ef; [|apply Dk].
  apply find_from_sound in Ef as (A1 & A2 & A3 & D & _); [|lia].
  apply tight0_app; [apply tight0_digits, sub_all_digits; auto|]. apply tight0_app.
  - destruct (_ || _) eqn:Eb; [right; apply (match_tight x); auto|left; reflexivity].
  - apply IH; auto. destruct (_ <? _)%nat eqn:E1; [apply Nat.ltb_lt in E1; lia|]. destruct (m_end m <? sp + 1)%nat eqn:E2; [apply Nat.ltb_lt in E2; lia|lia].
Qed.
Lemma replace_all_tight x s tmpl : re_alternates x tmpl = true -> all_digits s = true -> tight0 (re_replace_all x s tmpl).
Proof.
  Local Transparent re_replace_all.
  intros H D. unfold re_replace_all, re_replace_func. apply replace_tight; auto; lia.
  Local Opaque re_replace_all.
Qed.
Lemma printed_tight m s o : forallb rule_tame (rules m INTERNATIONAL) = true -> forallb rule_alternates (rules m INTERNATIONAL) = true -> all_digits s = true -> s <> [] -> printed m INTERNATIONAL [] s o -> tight o.
Proof.
  intros Kt K D N0 P. pose proof (printed_neat m s o Kt P) as (_ & _ & Lo). destruct P as (r & H & E). destruct r as [f|]; [|subst o; apply tight_digits; auto]. destruct E as (x & t & Ex & T & ->). cbn [template] in T. subst t.
  rewrite forallb_forall in K. destruct H as (pre & post & El & _). assert (Kf : rule_alternates f = true) by (apply K; rewrite El; apply in_or_app; right; left; auto).
  unfold rule_alternates in Kf. rewrite Ex in Kf. destruct (replace_all_tight x s _ Kf D) as [Z|Z]; [|exact Z]. destruct (Lo N0) as (o' & Eo). rewrite Z in Eo. destruct o'; discriminate.
Qed.
(** The groups are the runs of digits. *)
Lemma run_unique P (a b c d : bytes) : forallb P a = true -> forallb P c = true -> (b = [] \/ exists y t, b = y :: t /\ P y = false) -> (d = [] \/ exists y t, d = y :: t /\ P y = false) -> a ++ b = c ++ d -> a = c /\ b = d.
Proof.
  revert c. induction a as [|x a IH]; intros [|y c] Ha Hc Hb Hd E; cbn [app forallb] in *.
  - auto.
  - exfalso. apply andb_true_iff in Hc as [Hc _]. destruct Hb as [->|(z & t & -> & Hz)]; [discriminate|]. injection E as -> _. congruence.
  - exfalso. apply andb_true_iff in Ha as [Ha _]. destruct Hd as [->|(z & t & -> & Hz)]; [discriminate|]. injection E as -> _. congruence.
  - apply andb_true_iff in Ha as [_ Ha]. apply andb_true_iff in Hc as [_ Hc]. injection E as -> E. destruct (IH c Ha Hc Hb Hd E) as [-> ->]. auto.
Qed.
Lemma stretches_skip P g s gs : P g = false -> stretches P (g :: s) gs -> stretches P s gs.
Proof.
  intros G H. remember (g :: s) as t eqn:Et. destruct H as [t H|a b c l Ha Hb Nb T H]; subst; [constructor; cbn [forallb] in H; apply andb_true_iff in H; tauto|].
  destruct a as [|y a]; cbn [app] in Et.
  - destruct b as [|y b]; [congruence|]. cbn [app forallb] in *. injection Et as -> _. apply andb_true_iff in Hb as [Hb _]. congruence.
  - injection Et as -> <-. cbn [forallb] in Ha. apply andb_true_iff in Ha as [_ Ha]. constructor; auto.
Qed.
Lemma digits_first d : d <> [] -> all_digits d = true -> exists y t, d = y :: t /\ is_digit y = true.
Proof. destruct d as [|y t]; [congruence|]. unfold all_digits. cbn [forallb]. intros _ D. apply andb_true_iff in D as [D _]. eauto. Qed.
Lemma gap3_digit g : gap3 g = true -> is_digit g = false.
Proof. unfold gap3. rewrite !orb_true_iff, !N.eqb_eq. intros [[->| ->]| ->]; reflexivity. Qed.
Definition parted (l : list (N * bytes)) : Prop := Forall (fun x => gap3 (fst x) = true /\ snd x <> [] /\ all_digits (snd x) = true) l.
Lemma glue_stop l : parted l -> glue l = [] \/ exists y t, glue l = y :: t /\ is_digit y = false.
Proof. intros [|[g e] l' (G & _) _]; [left; reflexivity|right]. exists g, (e ++ glue l'). split; [reflexivity|]. apply gap3_digit. exact G. Qed.
Lemma stretches_groups l : parted l -> forall d gs, d <> [] -> all_digits d = true -> stretches is_digit (d ++ glue l) gs -> gs = d :: map snd l.
Proof.
  induction 1 as [|[g e] l (G & Ne & De) F IH]; intros d gs Nd Dd H.
  - change (glue []) with (@nil N) in H. rewrite app_nil_r in H. destruct H as [s H|a b c gs Ha Hb Nb T H].
    + destruct (digits_first s Nd Dd) as (y & t & -> & Hy). cbn [forallb] in H. rewrite Hy in H. discriminate.
    + destruct a as [|y a].
      * cbn [app] in *. assert (E : b = b ++ c /\ c = []). { apply (run_unique is_digit b c (b ++ c) []); auto. rewrite app_nil_r. reflexivity. }
        destruct E as [_ ->]. rewrite app_nil_r. cbn [map]. remember [] as z eqn:Ez. destruct H as [|a' b' c' l' Ha' Hb' Nb' T' H']; [reflexivity|]. apply app_eq_nil in Ez as [_ Ez]. apply app_eq_nil in Ez as [Ez _]. congruence.
      * exfalso. cbn [app forallb] in *. apply andb_true_iff in Ha as [Ha _]. unfold all_digits in Dd. cbn [forallb] in Dd. apply andb_true_iff in Dd as [Dd _]. rewrite Dd in Ha. discriminate.
  - cbn [fst snd] in *. change (glue ((g, e) :: l)) with (g :: e ++ glue l) in H. remember (d ++ g :: e ++ glue l) as t eqn:Et. destruct H as [s H|a b c gs Ha Hb Nb T H].
    + exfalso. destruct (digits_first d Nd Dd) as (y & t & -> & Hy). rewrite Et in H. cbn [app forallb] in H. rewrite Hy in H. discriminate.
    + destruct a as [|y a].
      * cbn [app] in Et. destruct (run_unique is_digit b c d (g :: e ++ glue l) Hb Dd T) as [-> ->]; [right; exists g, (e ++ glue l); split; [reflexivity|apply gap3_digit; auto]|exact Et|].
        cbn [map snd]. f_equal. apply IH; auto. apply (stretches_skip is_digit g); [apply gap3_digit; auto|exact H].
      * exfalso. cbn [app forallb] in *. destruct (digits_first d Nd Dd) as (z & t & -> & Hz). cbn [app] in Et. injection Et as -> _. rewrite Hz in Ha. discriminate.
Qed.
(** The same for the fields between what are not digits. *)
Definition nd (c : N) : bool := negb (is_digit c).
Lemma fields_groups l : parted l -> forall d gs, d <> [] -> all_digits d = true -> fields nd (d ++ glue l) gs -> gs = d :: map snd l.
Proof.
  assert (Dn : forall d, all_digits d = true -> forallb (fun c => negb (nd c)) d = true).
  { intros d D. unfold all_digits in D. rewrite forallb_forall in *. intros c I. unfold nd. rewrite (D c I). reflexivity. }
  induction 1 as [|[g e] l (G & Ne & De) F IH]; intros d gs Nd Dd H.
  - change (glue []) with (@nil N) in H. rewrite app_nil_r in H. destruct H as [s H|a b c gs Ha Hb Nb T H]; [reflexivity|exfalso].
    destruct b as [|y b]; [congruence|]. unfold all_digits in Dd. rewrite !forallb_app in Dd. cbn [forallb] in *. apply andb_true_iff in Dd as [_ Dd]. apply andb_true_iff in Dd as [Dd _]. apply andb_true_iff in Dd as [Dd _]. unfold nd in Hb. rewrite Dd in Hb. discriminate.
  - cbn [fst snd] in *. pose proof (gap3_digit _ G) as Gd. change (glue ((g, e) :: l)) with (g :: e ++ glue l) in H. remember (d ++ g :: e ++ glue l) as t eqn:Et. destruct H as [s H|a b c gs Ha Hb Nb T H].
    + exfalso. rewrite Et, forallb_app in H. cbn [forallb] in H. unfold nd in H. rewrite Gd in H. cbn [negb andb] in H. rewrite andb_false_r in H. discriminate.
    + destruct b as [|y b]; [congruence|]. cbn [forallb] in Hb. apply andb_true_iff in Hb as [Hy Hb]. destruct (run_unique (fun c => negb (nd c)) a ((y :: b) ++ c) d (g :: e ++ glue l) Ha (Dn d Dd)) as [-> E2].
      * right. exists y, (b ++ c). split; [reflexivity|]. rewrite Hy. reflexivity.
      * right. exists g, (e ++ glue l). split; [reflexivity|]. unfold nd. rewrite Gd. reflexivity.
      * exact Et.
      * cbn [app] in E2. injection E2 as -> E2. destruct (run_unique nd b c [] (e ++ glue l) Hb eq_refl T) as [-> ->]; [|exact E2|].
        { right. destruct (digits_first e Ne De) as (z & t & -> & Hz). exists z, (t ++ glue l). split; [reflexivity|]. unfold nd. rewrite Hz. reflexivity. }
        cbn [map snd]. f_equal. apply IH; auto.
Qed.
Lemma fields_plus d l gs : parted l -> d <> [] -> all_digits d = true -> fields nd (43 :: d ++ glue l) gs -> gs = [] :: d :: map snd l.
Proof.
  intros P Nd Dd H. remember (43 :: d ++ glue l) as t eqn:Et. destruct H as [s H|a b c gs Ha Hb Nb T H].
  - exfalso. subst s. discriminate.
  - destruct a as [|y a]; [|cbn [app] in Et; injection Et as -> _; discriminate]. cbn [app] in Et. destruct b as [|y b]; [congruence|]. cbn [app] in Et. injection Et as -> E2.
    cbn [forallb] in Hb. apply andb_true_iff in Hb as [_ Hb]. destruct (run_unique nd b c [] (d ++ glue l) Hb eq_refl T) as [-> ->]; [|exact E2|].
    { right. destruct (digits_first d Nd Dd) as (z & t & -> & Hz). exists z, (t ++ glue l). split; [reflexivity|]. unfold nd. rewrite Hz. reflexivity. }
    f_equal. apply fields_groups; auto.
Qed.
(** Texts of this kind are not changed by the normalisation the checks apply. *)
Definition wch (c : N) : bool := is_digit c || gap3 c || (c =? 43).
Lemma wch_lt c : wch c = true -> c < 128.
Proof. unfold wch, gap3. rewrite !orb_true_iff, is_digit_iff, !N.eqb_eq. lia. Qed.
Lemma digit_36 : forallb (fun c => match char_digit c with Some d => d =? c | None => true end) (filter wch (map N.of_nat (seq 0 128))) = true.
Proof. vm_compute. reflexivity. Qed.
Lemma wch_norm s : forallb wch s = true -> normalizeDigits s true = s.
Proof.
  intros H. rewrite forallb_forall in H. assert (A : ascii s) by (apply Forall_forall; intros c I; apply wch_lt; auto). unfold normalizeDigits. rewrite runes_ascii by auto.
  replace (flat_map _ s) with s; [apply encode_ascii; auto|]. clear A. induction s as [|c s IH]; [reflexivity|]. cbn [flat_map]. rewrite <- IH by (intros; apply H; right; auto).
  assert (E : (match char_digit c with Some d => d =? c | None => true end) = true).
  { pose proof digit_36 as K. rewrite forallb_forall in K. apply K. apply filter_In. assert (W : wch c = true) by (apply H; left; auto). split; [|exact W]. apply wch_lt in W. replace c with (N.of_nat (N.to_nat c)) by lia. apply in_map, in_seq. lia. }
  destruct (char_digit c) as [d|]; [apply N.eqb_eq in E; subst d|]; reflexivity.
Qed.

(** * The grouping checks *)
Lemma index_here p t : index_of (p ++ t) p = Some 0%nat.
Proof. destruct (p ++ t) eqn:E; cbn [index_of]; rewrite <- E, has_prefix_app; reflexivity. Qed.
Lemma index_skip c p t : p <> [] -> all_digits p = true -> is_digit c = false -> index_of (c :: p ++ t) p = Some 1%nat.
Proof.
  intros Np Dp Hc. cbn [index_of]. rewrite index_here. replace (has_prefix (c :: p ++ t) p) with false; [reflexivity|]. destruct (digits_first p Np Dp) as (y & q & -> & Hy). cbn [app has_prefix].
  replace (y =? c) with false; [reflexivity|]. symmetry. apply N.eqb_neq. intros ->. congruence.
Qed.
Lemma order_glue C n l : parted l -> forall u, groups_in_order C n (u ++ glue l) (map snd l) false (length u) = Ret (inr (length (u ++ glue l))).
Proof.
  induction 1 as [|[g e] l (G & Ne & De) F IH]; intros u; [cbn [map groups_in_order]; change (glue []) with (@nil N); rewrite app_nil_r; reflexivity|].
  cbn [fst snd map groups_in_order] in *. rewrite slice_from_app. cbn [bind]. change (glue ((g, e) :: l)) with (g :: e ++ glue l). rewrite index_skip by (auto; apply gap3_digit; auto). cbn [andb].
  replace (u ++ g :: e ++ glue l) with ((u ++ g :: e) ++ glue l) by (rewrite <- app_assoc; reflexivity). replace (length u + 1 + len e)%nat with (length (u ++ g :: e)) by (rewrite app_length; unfold len; cbn [length]; lia). apply IH.
Qed.
Lemma order_plain C n gs : forall u, groups_in_order C n (u ++ concat gs) gs false (length u) = Ret (inr (length (u ++ concat gs))).
Proof.
  induction gs as [|g gs IH]; intros u; [cbn [concat groups_in_order]; rewrite app_nil_r; reflexivity|]. cbn [concat groups_in_order]. rewrite slice_from_app. cbn [bind]. rewrite index_here. cbn [andb].
  rewrite app_assoc. replace (length u + 0 + len g)%nat with (length (u ++ g)) by (rewrite app_length; unfold len; lia). apply IH.
Qed.
Lemma gap3_Nd g : gap3 g = true -> is_Nd g = false /\ g < 128.
Proof. unfold gap3. rewrite !orb_true_iff, !N.eqb_eq. intros [[->| ->]| ->]; (split; [vm_compute; reflexivity|lia]). Qed.
Lemma contains_nil s : contains s [] = true.
Proof. unfold contains. destruct s; reflexivity. Qed.
Lemma first_groups C n u d l g : parted l -> d <> [] -> all_digits d = true -> gap3 g = true ->
  groups_in_order C n (u ++ g :: d ++ glue l) (d :: map snd l) true (length u) = Ret (inr (length (u ++ g :: d ++ glue l))).
Proof.
  intros P Nd Dd G. cbn [groups_in_order]. rewrite slice_from_app. cbn [bind]. rewrite index_skip by (auto; apply gap3_digit; auto).
  replace (u ++ g :: d ++ glue l) with ((u ++ g :: d) ++ glue l) by (rewrite <- app_assoc; reflexivity). replace (length u + 1 + len d)%nat with (length (u ++ g :: d)) by (rewrite app_length; unfold len; cbn [length]; lia).
  destruct (true && _) eqn:E; [|apply order_glue; auto]. rewrite slice_from_app. cbn [bind]. replace (is_Nd _) with false; [rewrite andb_false_r; apply order_glue; auto|].
  destruct P as [|[h e] l (H & _) _]; [reflexivity|]. cbn [fst] in H. destruct (gap3_Nd _ H) as [H1 H2]. change (glue ((h, e) :: l)) with (h :: e ++ glue l). rewrite decode_ascii by lia. symmetry. exact H1.
Qed.
Lemma first_plain C n u gs : GetNationalSignificantNumber n = concat gs -> gs <> [] ->
  groups_in_order C n (u ++ concat gs) gs true (length u) = Ret (inl true) \/ groups_in_order C n (u ++ concat gs) gs true (length u) = Ret (inr (length (u ++ concat gs))).
Proof.
  intros E Ng. destruct gs as [|g gs]; [congruence|]. cbn [concat groups_in_order] in *. rewrite slice_from_app. cbn [bind]. rewrite index_here. rewrite app_assoc.
  replace (length u + 0 + len g)%nat with (length (u ++ g)) by (rewrite app_length; unfold len; lia). destruct (true && _) eqn:E1; [|right; apply order_plain]. rewrite slice_from_app. cbn [bind].
  destruct (_ && is_Nd _); [|right; apply order_plain]. left. replace (length (u ++ g) - len g)%nat with (length u) by (rewrite app_length; unfold len; lia). rewrite <- app_assoc, slice_from_app. cbn [bind]. rewrite E, <- (app_nil_r (g ++ concat gs)) at 1. rewrite has_prefix_app. reflexivity.
Qed.
Lemma strict_spaced C n a d l : get_src n = FROM_NUMBER_WITH_PLUS_SIGN -> itoa (get_cc n) = a -> a <> [] -> all_digits a = true -> get_ext n = [] -> parted l -> d <> [] -> all_digits d = true ->
  allNumberGroupsRemainGrouped C n (43 :: a ++ 32 :: d ++ glue l) (d :: map snd l) = Ret true.
Proof.
  intros S A Na Da X P Nd Dd. unfold allNumberGroupsRemainGrouped. rewrite S. cbv zeta. rewrite A, (index_skip 43 a) by auto. change (1 + len a)%nat with (length (43 :: a)).
  change (43 :: a ++ 32 :: d ++ glue l) with ((43 :: a) ++ 32 :: d ++ glue l). rewrite first_groups by auto. cbn [bind].
  rewrite <- (app_nil_r ((43 :: a) ++ 32 :: d ++ glue l)) at 1. rewrite slice_from_app. cbn [bind]. rewrite X, contains_nil. reflexivity.
Qed.
Lemma strict_plain C n a gs : get_src n = FROM_NUMBER_WITH_PLUS_SIGN -> itoa (get_cc n) = a -> a <> [] -> all_digits a = true -> get_ext n = [] -> GetNationalSignificantNumber n = concat gs -> gs <> [] ->
  allNumberGroupsRemainGrouped C n (43 :: a ++ concat gs) gs = Ret true.
Proof.
  intros S A Na Da X E Ng. unfold allNumberGroupsRemainGrouped. rewrite S. cbv zeta. rewrite A, (index_skip 43 a) by auto. change (1 + len a)%nat with (length (43 :: a)).
  change (43 :: a ++ concat gs) with ((43 :: a) ++ concat gs). destruct (first_plain C n (43 :: a) gs E Ng) as [-> | ->]; cbn [bind]; [reflexivity|].
  rewrite <- (app_nil_r ((43 :: a) ++ concat gs)) at 1. rewrite slice_from_app. cbn [bind]. rewrite X, contains_nil. reflexivity.
Qed.
Lemma from_end x t : x <> [] -> groups_from_end (x ++ t) x = Ret true.
Proof.
  induction x as [|f x IH]; [congruence|]. intros _. destruct x as [|f2 x].
  - cbn [app groups_from_end]. replace (has_suffix f f) with true; [reflexivity|]. symmetry. apply has_suffix_iff. exists []. reflexivity.
  - change (groups_from_end ((f :: f2 :: x) ++ t) (f :: f2 :: x)) with (if beq f f then groups_from_end ((f2 :: x) ++ t) (f2 :: x) else Ret false). rewrite beq_refl. apply IH. discriminate.
Qed.
Lemma drop_none l : Forall (fun g : bytes => g <> []) l -> drop_trailing_empty l = l.
Proof. induction 1 as [|g l N0 F IH]; [reflexivity|]. cbn [drop_trailing_empty]. rewrite IH. destruct l; [|reflexivity]. destruct g; [congruence|reflexivity]. Qed.
Lemma split_written d l : parted l -> d <> [] -> all_digits d = true -> splitNonDigits (43 :: d ++ glue l) = [] :: d :: map snd l.
Proof.
  intros P Nd Dd. assert (Wc : Forall (fun c => c < 128) (43 :: d ++ glue l)).
  { constructor; [lia|]. apply Forall_app. split; [apply digits_ascii; auto|]. induction P as [|[g e] l (G & Ne & De) F IH]; [constructor|]. change (glue ((g, e) :: l)) with (g :: e ++ glue l). constructor; [apply gap3_Nd in G; tauto|]. apply Forall_app. split; [apply digits_ascii; auto|auto]. }
  pose proof (re_split_plus _ _ (43 :: d ++ glue l) nondigit_plus Wc) as Fd. assert (Fn : fields nd (43 :: d ++ glue l) (re_split nonDigitsPattern (43 :: d ++ glue l))).
  { assert (G : forall s gs, fields (cls_match nondigit_cls) s gs -> fields nd s gs).
    { assert (Q : forall c, cls_match nondigit_cls c = nd c) by (intros; apply nondigit_neg).
      assert (Q1 : forall s, forallb (cls_match nondigit_cls) s = forallb nd s) by (induction s as [|c s IH]; [reflexivity|]; cbn [forallb]; rewrite IH, Q; reflexivity).
      assert (Q2 : forall s, forallb (fun c => negb (cls_match nondigit_cls c)) s = forallb (fun c => negb (nd c)) s) by (induction s as [|c s IH]; [reflexivity|]; cbn [forallb]; rewrite IH, Q; reflexivity).
      induction 1 as [s H|a b c gs Ha Hb Nb T H IH]; [constructor; rewrite <- Q2; auto|]. constructor; auto; [rewrite <- Q2; auto|rewrite <- Q1; auto|]. destruct T as [T|(x & t & T1 & T2)]; [auto|right; exists x, t; rewrite <- Q; auto]. }
    apply G. exact Fd. }
  apply fields_plus in Fn; auto. unfold splitNonDigits. unfold bytes in *. rewrite Fn. assert (E : drop_trailing_empty (d :: map snd l) = d :: map snd l).
  { apply drop_none. constructor; [auto|]. apply Forall_map. eapply Forall_impl; [|exact P]. intros x (_ & H & _). exact H. }
  cbn [drop_trailing_empty] in E |- *. unfold bytes in *. rewrite E. reflexivity.
Qed.
Lemma exact_spaced n a d l : get_ext n = [] -> a <> [] -> all_digits a = true -> parted l -> d <> [] -> all_digits d = true ->
  allNumberGroupsAreExactlyPresent n (43 :: a ++ 32 :: d ++ glue l) (d :: map snd l) = Ret true.
Proof.
  intros X Na Da P Nd Dd. unfold allNumberGroupsAreExactlyPresent. change (32 :: d ++ glue l) with (glue ((32, d) :: l)). rewrite split_written by (auto; constructor; auto). rewrite X. cbn [is_empty map snd].
  set (gs := d :: map snd l). assert (Ng : rev gs <> []) by (unfold gs; cbn [rev]; intros E; apply app_eq_nil in E as [_ E]; discriminate).
  assert (Er0 : rev ([] :: a :: d :: map snd l) = rev gs ++ [a] ++ [[]]) by (rewrite app_assoc; reflexivity). clearbody gs. unfold bytes in *. rewrite Er0. clear Er0. pose proof (from_end (rev gs) ([a] ++ [[]]) Ng) as Fe. unfold bytes in *. destruct (rev gs ++ [a] ++ [[]]) as [|c r] eqn:Er; [destruct (rev gs); discriminate|].
  rewrite Fe. destruct (contains _ _); reflexivity.
Qed.
Lemma exact_plain n a gs : get_ext n = [] -> a <> [] -> all_digits a = true -> all_digits (GetNationalSignificantNumber n) = true ->
  allNumberGroupsAreExactlyPresent n (43 :: a ++ GetNationalSignificantNumber n) gs = Ret true.
Proof.
  intros X Na Da Ds. unfold allNumberGroupsAreExactlyPresent. set (s := GetNationalSignificantNumber n) in *. pose proof (split_written (a ++ s) [] (Forall_nil _)) as E. change (glue []) with (@nil N) in E. rewrite app_nil_r in E.
  rewrite E; [|intros K; apply app_eq_nil in K as [K _]; auto|rewrite all_digits_app, Da, Ds; reflexivity]. rewrite X. cbn [is_empty map rev app]. replace (contains (a ++ s) s) with true; [reflexivity|]. symmetry. apply contains_iff. exists a, []. rewrite app_nil_r. reflexivity.
Qed.
