(** Parsing a number's NATIONAL text in its own region. *)
From Verif Require Import Base BaseFacts Utf8 Utf8Facts Regex RegexSpec RegexFacts LangFacts Consts Types Normalize NormalizeSpec NormalizeFacts Validate Format Parse
  NumberSpec NumberFacts MetaSpec ValidateSpec ValidateFacts Container Shipped MetaFacts FormatSpec TextFacts FormatFacts FormatMore ParseSpec ParseFacts ParseMore ContextFacts
  RoundSpec DerivFacts MatcherTotal RoundTripFacts PropsValidate RuleSpec RuleFacts RuleMore ReadSpec ReadFacts ReadMore ExtSpec ExtFacts BackFacts DialFacts PropsRound.
Local Opaque compile re_find re_replace_all.

(** * Expressions that do not tell one digit from another *)
Fixpoint blind (r : regex) : bool :=
  match r with
  | RClass k => forallb (cls_match k) digits10 || forallb (fun c => negb (cls_match k c)) digits10
  | RCat a b | RAlt a b => blind a && blind b
  | RStar _ a | RGroup _ a => blind a
  | _ => true
  end.
Definition alike (s t : bytes) : Prop := all_digits s = true /\ all_digits t = true /\ length s = length t.
Lemma blind_class k c c' : blind (RClass k) = true -> is_digit c = true -> is_digit c' = true -> cls_match k c = cls_match k c'.
Proof.
  cbn [blind]. intros H D D'. apply digit_in10 in D, D'. apply orb_true_iff in H as [H|H]; rewrite forallb_forall in H.
  - rewrite (H _ D), (H _ D'). reflexivity.
  - apply H in D, D'. apply negb_true_iff in D, D'. congruence.
Qed.
Lemma blind_rmatch r : blind r = true -> forall (k k' : cont), (forall p s t cs, alike s t -> k p s cs = k' p t cs) -> forall p s t cs, alike s t -> rmatch r k p s cs = rmatch r k' p t cs.
Proof.
  induction r as [|c|a IHa b IHb|a IHa b IHb|g a IHa|n a IHa| |]; intros B k k' K p s t cs A.
  - apply K; auto.
  - cbn [rmatch]. destruct A as (A1 & A2 & A3). destruct s as [|x s], t as [|y t]; cbn [length] in A3; try lia; [reflexivity|].
    unfold all_digits in A1, A2. cbn [forallb] in A1, A2. apply andb_true_iff in A1 as [X1 A1]. apply andb_true_iff in A2 as [Y1 A2]. pose proof (blind_class _ _ _ B X1 Y1) as E. apply is_digit_iff in X1, Y1.
    rewrite !decode_ascii by lia. rewrite E. destruct (cls_match c y); [|reflexivity]. replace (len (x :: s) - len s)%nat with 1%nat by (unfold len; cbn [length]; lia). replace (len (y :: t) - len t)%nat with 1%nat by (unfold len; cbn [length]; lia).
    apply K. split; [exact A1|]. split; [exact A2|]. lia.
  - cbn [blind] in B. apply andb_true_iff in B as [B1 B2]. cbn [rmatch]. apply IHa; auto.
  - cbn [blind] in B. apply andb_true_iff in B as [B1 B2]. cbn [rmatch]. rewrite (IHa B1 k k' K p s t cs A). rewrite (IHb B2 k k' K p s t cs A). reflexivity.
  - cbn [blind] in B. rewrite !rmatch_star. replace (len t) with (len s) by (destruct A as (_ & _ & A); exact A). generalize (S (len s)). intros f. revert p s t cs A. induction f as [|f IH]; intros p s t cs A; [reflexivity|]. rewrite !star_loop_S.
    assert (L : len s = len t) by (destruct A as (_ & _ & A'); exact A').
    assert (M : rmatch a (fun p' s' cs' => if (len s' <? len s)%nat then star_loop g (rmatch a) k f p' s' cs' else None) p s cs =
                rmatch a (fun p' s' cs' => if (len s' <? len t)%nat then star_loop g (rmatch a) k' f p' s' cs' else None) p t cs).
    { apply IHa; auto. intros p' s' t' cs' A'. replace (len t') with (len s') by (destruct A' as (_ & _ & X); exact X). rewrite L. destruct (len s' <? len t)%nat; auto. }
    rewrite M, (K p s t cs A). reflexivity.
  - cbn [blind] in B. cbn [rmatch]. apply IHa; auto.
  - cbn [rmatch]. rewrite (K p s t cs A). reflexivity.
  - cbn [rmatch]. rewrite (K p s t cs A). destruct A as (_ & _ & A). destruct s, t; cbn [length] in A; try lia; reflexivity.
Qed.
Lemma blind_search r : blind r = true -> forall f p s t, alike s t -> search f r p s = search f r p t.
Proof.
  intros B. induction f as [|f IH]; intros p s t A; cbn [search]; rewrite (blind_rmatch r B final final (fun _ _ _ _ _ => eq_refl) p s t [] A); [reflexivity|]. destruct (rmatch r final p t []) as [[e cs]|]; [reflexivity|].
  destruct A as (A1 & A2 & A3). destruct s as [|x s], t as [|y t]; cbn [length] in A3; try lia; [reflexivity|].
  unfold all_digits in A1, A2. cbn [forallb] in A1, A2. apply andb_true_iff in A1 as [X1 A1]. apply andb_true_iff in A2 as [Y1 A2]. apply is_digit_iff in X1, Y1. rewrite !decode_ascii by lia.
  replace (len (x :: s) - len s)%nat with 1%nat by (unfold len; cbn [length]; lia). replace (len (y :: t) - len t)%nat with 1%nat by (unfold len; cbn [length]; lia). apply IH. split; [exact A1|]. split; [exact A2|]. lia.
Qed.
Lemma blind_find x s t : blind (re_ast x) = true -> alike s t -> re_find x s = re_find x t.
Proof.
  Local Transparent re_find. intros B A. unfold re_find, find_from. rewrite !skipn_O. replace (len t) with (len s) by (destruct A as (_ & _ & A'); exact A'). apply blind_search; auto. Local Opaque re_find.
Qed.
Lemma zeros_digits n : all_digits (repeat 48 n) = true. Proof. induction n; [reflexivity|]. cbn [repeat]. unfold all_digits in *. cbn [forallb]. rewrite IHn. reflexivity. Qed.

(** * A rule that prints the whole number in one piece *)
Definition find_end (x : re) (s : bytes) : option (nat * nat) := match re_find x s with Some m => Some (m_start m, m_end m) | None => None end.
Lemma alike_split a b t : alike (a ++ b) t -> exists u v, t = u ++ v /\ alike a u /\ alike b v.
Proof.
  intros (D1 & D2 & L). rewrite app_length in L. exists (firstn (length a) t), (skipn (length a) t). rewrite firstn_skipn. split; [reflexivity|]. rewrite all_digits_app in D1. apply andb_true_iff in D1 as [Da Db].
  rewrite <- (firstn_skipn (length a) t), all_digits_app in D2. apply andb_true_iff in D2 as [E1 E2]. split; (split; [assumption|]; split; [assumption|]); [rewrite firstn_length|rewrite skipn_length]; lia.
Qed.
Lemma blind_lang r s : lang r s -> forall t, blind r = true -> alike s t -> lang r t.
Proof.
  induction 1; intros t B A; cbn [blind] in B; rewrite ?andb_true_iff in B.
  - destruct A as (_ & _ & L). destruct t; [constructor|discriminate].
  - destruct A as (D1 & D2 & L). destruct t as [|c' [|? ?]]; try discriminate. constructor. unfold all_digits in *. cbn [forallb] in *. rewrite andb_true_r in *. rewrite <- (blind_class k c c'); auto.
  - apply alike_split in A as (u & v' & -> & A1 & A2). constructor; [apply IHlang1|apply IHlang2]; tauto.
  - apply L_alt_l. apply IHlang; tauto.
  - apply L_alt_r. apply IHlang; tauto.
  - destruct A as (_ & _ & L). destruct t; [constructor|discriminate].
  - apply alike_split in A as (u & v' & -> & A1 & A2). apply L_star_more; [apply IHlang1|apply IHlang2]; auto.
  - constructor. auto.
  - destruct A as (_ & _ & L). destruct t; [constructor|discriminate].
  - destruct A as (_ & _ & L). destruct t; [constructor|discriminate].
Qed.
Definition whole_at (x : re) (n : nat) : bool := negb (acc [re_ast x] (repeat 48 n)) || match find_end x (repeat 48 n) with Some (O, e) => (e =? n)%nat | _ => true end.
Definition whole (x : re) : bool := blind (re_ast x) && (0 <? minrunes (re_ast x))%nat && forallb (whole_at x) (seq 0 18).
Lemma whole_find x s : whole x = true -> all_digits s = true -> (length s <= 17)%nat -> lang (re_ast x) s -> (exists m, re_find x s = Some m /\ m_start m = 0%nat) -> exists m, re_find x s = Some m /\ m_start m = 0%nat /\ m_end m = length s.
Proof.
  intros H D L La (m & F & Z). unfold whole in H. rewrite !andb_true_iff in H. destruct H as ((B & _) & A). exists m. split; [exact F|]. split; [exact Z|].
  rewrite (blind_find x s (repeat 48 (length s)) B) in F by (split; [exact D|]; split; [apply zeros_digits|symmetry; apply repeat_length]).
  rewrite forallb_forall in A. assert (I : In (length s) (seq 0 18)) by (apply in_seq; lia). apply A in I. unfold whole_at, find_end in I. assert (Lz : acc [re_ast x] (repeat 48 (length s)) = true) by (apply acc_one; apply (blind_lang _ s La _ B); split; [exact D|]; split; [apply zeros_digits|symmetry; apply repeat_length]).
  rewrite Lz in I. cbn [negb orb] in I. rewrite F, Z in I. apply Nat.eqb_eq. exact I.
Qed.
Lemma replace_whole x s repl m : (0 < minrunes (re_ast x))%nat -> re_find x s = Some m -> m_start m = 0%nat -> m_end m = length s -> re_replace_func x s repl = repl m.
Proof.
  Local Transparent re_find. intros P F Z E. unfold re_replace_func. cbn [replace_loop]. change (Nat.ltb (len s) 0) with false. cbv iota. change (find_from x s 0) with (re_find x s). rewrite F, Z. unfold sub. cbn [Nat.sub firstn skipn app Nat.eqb]. rewrite orb_true_r.
  rewrite E. rewrite <- (app_nil_r (repl m)) at 2. f_equal. rewrite skipn_all.
  match goal with |- context [find_from x s ?b] => set (pos := b) end. assert (Q : (0 < pos)%nat /\ (length s <= pos)%nat).
  { unfold pos. destruct (Nat.ltb_spec (length s) (0 + rune_width_at s 0)); [lia|]. destruct (Nat.ltb_spec (length s) (0 + 1)); lia. }
  clearbody pos. destruct Q as [_ Q]. destruct (Nat.ltb_spec (len s) pos) as [H|H]; [reflexivity|]. destruct (find_from x s pos) as [m'|] eqn:F'; [exfalso|reflexivity].
  unfold len in H. apply find_from_sound in F' as (A1 & A2 & A3 & D & _); [|lia]. apply derives_min in D. rewrite !skipn_length in D. lia.
  Local Opaque re_find.
Qed.
Fixpoint cut36 (t : bytes) : bytes * bytes := match t with [] => ([], []) | c :: u => if c =? 36 then ([], t) else let '(a, b) := cut36 u in (c :: a, b) end.
Lemma cut36_ok t : let '(a, b) := cut36 t in t = a ++ b /\ ~ In 36 a.
Proof.
  induction t as [|c t IH]; cbn [cut36]; [split; [reflexivity|intros []]|]. destruct (N.eqb_spec c 36) as [->|N]; [split; [reflexivity|intros []]|]. destruct (cut36 t) as [a b]. destruct IH as [-> H]. split; [reflexivity|]. intros [E|I]; auto.
Qed.
Definition nat_template (f : nfmt) : option bytes :=
  if is_empty (get_npfr f) then Some (get_format f) else
  match token (get_format f), split_one (get_npfr f) with Some (a, d, b), Some (u, v) => Some (a ++ u ++ 36 :: d :: v ++ b) | _, _ => None end.
Lemma nat_template_ok f t t' : template f NATIONAL [] t -> nat_template f = Some t' -> t = t'.
Proof.
  cbn [template is_empty negb andb]. unfold nat_template. destruct (is_empty (get_npfr f)); [congruence|]. intros Cb H. destruct (token (get_format f)) as [[[a d] b]|] eqn:T; [|discriminate]. destruct (split_one (get_npfr f)) as [[u v]|] eqn:Sp; [|discriminate]. injection H as <-.
  apply (combined_unique _ _ _ _ Cb). apply token_ok in T as (T1 & T2 & T3). apply split_one_ok in Sp as (S1 & S2 & S3 & S4). exists a, d, b, u, v. auto 9.
Qed.
Definition head_char (c : N) : bool := is_digit c || gap_char c.
Definition rule_head (f : nfmt) : bytes := match nat_template f with Some t => fst (cut36 t) | None => [] end.
Definition rule_digits (f : nfmt) : bytes := filter dig (rule_head f).
Definition rule_plain (f : nfmt) : bool :=
  match compile (get_pattern f), nat_template f with
  | Some x, Some t => whole x && re_tame x (snd (cut36 t)) && forallb head_char (fst (cut36 t)) && (length (fst (cut36 t)) <=? 8)%nat
  | _, _ => false
  end.
Lemma rule_shape f x t s : rule_plain f = true -> compile (get_pattern f) = Some x -> template f NATIONAL [] t -> applies f s -> all_digits s = true -> (length s <= 17)%nat ->
  exists body, re_replace_all x s t = rule_head f ++ body /\ neat s body /\ forallb head_char (rule_head f) = true /\ (length (rule_head f) <= 8)%nat.
Proof.
  unfold rule_plain, rule_head. intros R Cx T A D L. rewrite Cx in R. destruct (nat_template f) as [t'|] eqn:Nt; [|discriminate]. pose proof (nat_template_ok _ _ _ T Nt). subst t'. rewrite !andb_true_iff in R. destruct R as (((R1 & R2) & R3) & R4). apply Nat.leb_le in R4.
  pose proof (cut36_ok t) as Ct. destruct (cut36 t) as [hd tl]. cbn [fst snd] in *. destruct Ct as [-> N36]. destruct (applies_front _ _ _ Cx A) as (m0 & F0 & Z0). assert (La : lang (re_ast x) s).
  { destruct A as ((x' & cs & Cx' & (_ & Dv)) & _). rewrite Cx in Cx'. injection Cx' as <-. rewrite skipn_O, skipn_all in Dv. apply derives_lang in Dv as (w & Ew & Lw). apply eats_ascii in Ew; [|apply digits_ascii; exact D]. rewrite app_nil_r in Ew. subst w. exact Lw. }
  destruct (whole_find x s R1 D L La) as (m & F & Z & E); [eauto|].
  exists (expand_template tl s m). split.
  - Local Transparent re_replace_all. unfold re_replace_all. Local Opaque re_replace_all. unfold whole in R1. rewrite !andb_true_iff in R1. destruct R1 as ((_ & P) & _). apply Nat.ltb_lt in P. rewrite (replace_whole x s _ m P F Z E).
    unfold expand_template. replace (S (len (hd ++ tl))) with (length hd + S (len tl))%nat by (unfold len; rewrite app_length; lia). apply expand_copy. exact N36.
  - split; [|auto]. apply re_find_sound in F as (_ & L2 & Dv & _). pose proof (match_neat x s tl m R2 Dv L2) as Nn. rewrite Z, E in Nn. unfold sub in Nn. rewrite skipn_O, Nat.sub_0_r, firstn_all in Nn. exact Nn.
Qed.

(** * Dropping what stands before the first digit *)
Definition all_gaps (j : bytes) : Prop := forall c, In c j -> gap_char c = true.
Lemma gap_start : forallb (fun c => negb (cls_match start_cls c)) [32; 45; 46; 40; 41] = true. Proof. vm_compute. reflexivity. Qed.
Lemma gap_not_start c : gap_char c = true -> cls_match start_cls c = false.
Proof.
  intros H. pose proof gap_start as B. rewrite forallb_forall in B. specialize (B c). apply negb_true_iff, B. unfold gap_char in H. rewrite !orb_true_iff, !N.eqb_eq in H. cbn [In]. intuition auto.
Qed.
Lemma boundary_gaps j t : all_gaps j -> boundary (j ++ t) (length j).
Proof. induction j as [|c j IH]; intros A; [constructor|]. cbn [app length]. apply boundary_cons; [apply gap_sep, A; left; auto|apply IH; intros x I; apply A; right; auto]. Qed.
Lemma gaps_find j t : all_gaps j -> clean t -> exists m, re_find validStartCharPattern (j ++ t) = Some m /\ m_start m = length j.
Proof.
  intros A (c & u & D & P).
  assert (Dv : derives (re_ast validStartCharPattern) (length j) (skipn (length j) (j ++ t)) [] (length j + (len t - len u)) u []).
  { rewrite skipn_app, skipn_all, Nat.sub_diag. cbn [app skipn]. change (re_ast validStartCharPattern) with (RClass start_cls). econstructor; [exact D|]. rewrite start_ok. destruct P as [-> | [-> | P]]; [reflexivity|reflexivity|rewrite P; apply orb_true_r]. }
  destruct (find_le _ _ _ _ _ _ (boundary_gaps j t A) Dv) as (m & F & L). exists m. split; [exact F|].
  apply re_find_sound in F as (_ & _ & D' & _). change (re_ast validStartCharPattern) with (RClass start_cls) in D'. revert D'. generalize (m_end m) (skipn (m_end m) (j ++ t)) (m_caps m). intros e w cs D'.
  destruct (Nat.eq_dec (m_start m) (length j)) as [|N]; auto. exfalso. assert (Lt : (m_start m < length j)%nat) by lia. clear N L. revert D' Lt. generalize (m_start m). intros i D' Lt.
  rewrite skipn_app in D'. replace (i - length j)%nat with 0%nat in D' by lia. cbn [skipn] in D'. destruct (skipn i j) as [|z j'] eqn:Sk.
  - pose proof (skipn_length i j) as X. rewrite Sk in X. cbn [length] in X. lia.
  - assert (Gz : gap_char z = true). { apply A. rewrite <- (firstn_skipn i j), Sk. apply in_or_app. right. left. auto. }
    inversion D' as [|k p0 s0 c0 t1 cs0 Dr M| | | | | | | |]; subst. cbn [app] in Dr. rewrite decode_ascii in Dr by (apply gap_sep; auto). injection Dr as <- <-. rewrite gap_not_start in M by auto. discriminate.
Qed.
Lemma gaps_possible j t : all_gaps j -> clean t -> extractPossibleNumber t = t -> extractPossibleNumber (j ++ t) = t.
Proof.
  intros A Cl E. unfold extractPossibleNumber in *. destruct (ContextFacts.find_start _ Cl) as (m & F & Z). rewrite F, Z in E. rewrite skipn_O in E.
  destruct (gaps_find _ _ A Cl) as (m' & -> & ->). rewrite skipn_app, skipn_all, Nat.sub_diag. exact E.
Qed.
Lemma gaps_core C j t r : all_gaps j -> extractPossibleNumber t = t -> ~ In 112 t -> ~ In 98 t -> clean t -> (length (j ++ t) <= 250)%nat -> parse_core C (j ++ t) r true = parse_core C t r true.
Proof.
  intros A E N1 N2 Cl L. assert (B1 : buildNationalNumberForParsing (j ++ t) = Ret t).
  { apply text_kept; [apply gaps_possible; auto| |auto]. intros I. apply in_app_or in I as [I|I]; [|auto]. apply A in I. vm_compute in I. discriminate. }
  assert (B2 : buildNationalNumberForParsing t = Ret t) by (apply text_kept; auto). destruct Cl as (c & u & Dc & _). assert (Nt : t <> []) by (intros ->; discriminate).
  unfold parse_core. rewrite B1, B2. replace (is_empty (j ++ t)) with false by (symmetry; apply is_empty_false; intros X; apply app_eq_nil in X as [_ X]; congruence). replace (is_empty t) with false by (symmetry; apply is_empty_false; auto).
  rewrite app_length in L. replace (Nat.ltb maxInputStringLength (len (j ++ t))) with false by (symmetry; apply Nat.ltb_ge; unfold len, maxInputStringLength; rewrite app_length; lia).
  replace (Nat.ltb maxInputStringLength (len t)) with false by (symmetry; apply Nat.ltb_ge; unfold len, maxInputStringLength; lia). reflexivity.
Qed.

(** * The printed text, as the parser sees it *)
Fixpoint drop_gaps (o : bytes) : bytes * bytes := match o with [] => ([], []) | c :: t => if dig c then ([], o) else let '(a, b) := drop_gaps t in (c :: a, b) end.
Lemma drop_gaps_ok o : let '(a, b) := drop_gaps o in o = a ++ b /\ (forall c, In c a -> dig c = false) /\ match b with [] => True | c :: _ => dig c = true end.
Proof.
  induction o as [|c o IH]; cbn [drop_gaps]; [split; [reflexivity|split; [intros c []|exact I]]|]. destruct (dig c) eqn:E; [split; [reflexivity|split; [intros x []|exact E]]|]. destruct (drop_gaps o) as [a b]. destruct IH as (-> & H & X). split; [reflexivity|]. split; [|exact X]. intros x [<-|I]; auto.
Qed.
Lemma shown_shape h s o : forallb head_char h = true -> all_digits s = true -> s <> [] -> neat s o ->
  exists j x d, h ++ o = j ++ x ++ d /\ all_gaps j /\ spaced (x ++ d) /\ all_digits d = true /\ d <> [] /\ starts_digit (x ++ d) /\ only_digits (x ++ d) = filter dig h ++ s.
Proof.
  intros Hh Ds Ns (W & _ & Lo). destruct (Lo Ns) as (o' & Eo). destruct (last_digit s Ds Ns) as (s0 & dl & Es & Hd). assert (El : last s 0 = dl) by (rewrite Es; apply last_last). rewrite El in Eo.
  assert (A : forall c, In c (h ++ o) -> 48 <= c <= 57 \/ gap_char c = true).
  { intros c I. apply in_app_or in I as [I|I].
    - rewrite forallb_forall in Hh. apply Hh in I. unfold head_char in I. apply orb_true_iff in I as [I|I]; [left; apply is_digit_iff; auto|auto].
    - destruct (woven_in _ _ _ _ W Ds I) as [H|H]; [left; apply is_digit_iff; auto|auto]. }
  assert (Fd : filter dig (h ++ o) = filter dig h ++ s). { rewrite filter_app. f_equal. rewrite (woven_filter _ _ _ _ W), dig_filter; auto. intros c Hc. apply gap_sep in Hc. tauto. }
  pose proof (drop_gaps_ok (h ++ o)) as Dg. destruct (drop_gaps (h ++ o)) as [j b]. destruct Dg as (E & Hj & Hb). assert (Aj : all_gaps j).
  { intros c I. destruct (A c) as [H|H]; [rewrite E; apply in_or_app; auto| |auto]. apply Hj in I. apply dig_iff in H. congruence. }
  assert (Fj : filter dig j = []). { clear -Hj. induction j as [|c j IH]; [reflexivity|]. cbn [filter]. rewrite (Hj c) by (left; auto). apply IH. intros x I. apply Hj. right. auto. }
  assert (Nb : b <> []). { intros ->. rewrite app_nil_r in E. rewrite E, Fj in Fd. symmetry in Fd. apply app_eq_nil in Fd as [_ Fd]. congruence. }
  destruct (exists_last Nb) as (x & z & Eb). assert (z = dl). { rewrite Eb, Eo in E. rewrite !app_assoc in E. apply app_inj_tail in E as [_ E]. auto. } subst z.
  exists j, x, [dl]. rewrite <- Eb. split; [exact E|]. split; [exact Aj|]. assert (Ab : ascii b). { apply Forall_forall. intros c I. destruct (A c) as [H|H]; [rewrite E; apply in_or_app; auto|lia|apply gap_sep in H; tauto]. }
  split; [intros c I; rewrite runes_ascii in I by auto; destruct (A c) as [H|H]; [rewrite E; apply in_or_app; auto|left; lia|right; apply gap_sep in H; tauto]|].
  split; [cbn [all_digits forallb]; rewrite andb_true_r; apply is_digit_iff; exact Hd|]. split; [discriminate|]. split; [destruct b as [|c b']; [congruence|]; exists c, b'; split; [reflexivity|apply dig_iff; auto]|].
  unfold only_digits. rewrite runes_ascii by auto. change (fun c => (48 <=? c) && (c <=? 57)) with dig. rewrite <- Fd, E, filter_app, Fj. reflexivity.
Qed.
Lemma shown_core C h s o r : forallb head_char h = true -> all_digits s = true -> s <> [] -> neat s o -> (3 <= length (filter dig h ++ s))%nat -> (length (h ++ o) <= 250)%nat ->
  parse_core C (h ++ o) r true = parse_core C (filter dig h ++ s) r true.
Proof.
  intros Hh Ds Ns Nn L3 L. destruct (shown_shape h s o Hh Ds Ns Nn) as (j & x & d & E & Aj & Sp & D & Nd & St & Od). rewrite E in *. rewrite <- Od in *.
  pose proof (start_clean [] (x ++ d) (or_introl (conj eq_refl St))) as Cl. cbn [app] in Cl.
  assert (Sx : forall c, In c (runes x) -> In c (runes (x ++ d))) by (intros c Ic; rewrite runes_app_ascii by (apply digits_ascii; auto); apply in_or_app; auto).
  assert (Nl : forall c, In c [47; 92; 98; 112; 43] -> c <> 43 -> ~ In c (x ++ d) /\ ~ In c (runes (x ++ d))).
  { intros c Ic N. assert (c < 128) by (cbn [In] in Ic; lia). split; [apply (spaced_no_byte [] (x ++ d) c)|apply (spaced_no [] (x ++ d) c)]; auto; apply not_letter; auto. }
  rewrite gaps_core; auto.
  - apply (spaced_core C [] x d r); auto. rewrite app_length in L. cbn [app]. lia.
  - apply possible_clean; auto; intros Ic; apply Sx in Ic; revert Ic; apply Nl; cbn; try tauto; discriminate.
  - apply Nl; [cbn; tauto|discriminate].
  - apply Nl; [cbn; tauto|discriminate].
Qed.
Lemma shown_core_ext C h s o r q k e : forallb head_char h = true -> all_digits s = true -> s <> [] -> neat s o -> (3 <= length (filter dig h ++ s))%nat -> In (q, k) ext_labels -> all_digits e = true -> (1 <= length e <= k)%nat ->
  (length ((h ++ o) ++ q ++ e) <= 250)%nat -> parse_core C ((h ++ o) ++ q ++ e) r true = (y <- parse_core C (filter dig h ++ s) r true ;; Ret (with_ext e y)).
Proof.
  intros Hh Ds Ns Nn L3 Iq De Le L. rewrite <- (shown_core C h s o r) by (auto; rewrite app_length in L; lia).
  destruct (shown_shape h s o Hh Ds Ns Nn) as (j & x & d & E & Aj & Sp & D & Nd & St & Od). rewrite E in *. rewrite <- Od in *.
  pose proof (start_clean [] (x ++ d) (or_introl (conj eq_refl St))) as Cl. cbn [app] in Cl.
  assert (Sx : forall c, In c (runes x) -> In c (runes (x ++ d))) by (intros c Ic; rewrite runes_app_ascii by (apply digits_ascii; auto); apply in_or_app; auto).
  assert (Nl : forall c, In c [47; 92; 98; 112; 43] -> c <> 43 -> ~ In c (x ++ d) /\ ~ In c (runes (x ++ d))).
  { intros c Ic N. assert (c < 128) by (cbn [In] in Ic; lia). split; [apply (spaced_no_byte [] (x ++ d) c)|apply (spaced_no [] (x ++ d) c)]; auto; apply not_letter; auto. }
  rewrite (gaps_core C j (x ++ d)); auto.
  - destruct (ext_possible [] x d q k e (or_introl (conj eq_refl St)) Sp D Iq De) as (T1 & T2 & T3 & T4); [lia|]. cbn [app] in *. rewrite <- app_assoc. rewrite <- !app_assoc in L. rewrite gaps_core; auto; [|rewrite <- !app_assoc in *; exact L].
    apply (ext_core C [] x d q k e r); auto. cbn [app]. rewrite !app_length in *. lia.
  - apply possible_clean; auto; intros Ic; apply Sx in Ic; revert Ic; apply Nl; cbn; try tauto; discriminate.
  - apply Nl; [cbn; tauto|discriminate].
  - apply Nl; [cbn; tauto|discriminate].
  - rewrite !app_length in *. lia.
Qed.
