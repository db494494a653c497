(** Proofs about the digits of an extension. *)
From Verif Require Import Base BaseFacts Utf8 Utf8Facts UnicodeSpec Regex RegexSpec RegexFacts LangFacts Consts Types Normalize NormalizeSpec NormalizeFacts Validate Format Parse
  NumberSpec NumberFacts MetaSpec ValidateSpec ValidateFacts Container Shipped MetaFacts FormatSpec TextFacts FormatFacts FormatMore ParseSpec ParseFacts ParseMore ContextFacts
  RoundSpec DerivFacts MatcherTotal MatcherFacts RoundTripFacts PropsValidate RuleSpec RuleFacts RuleMore ReadSpec ReadFacts ReadMore ExtFacts DialFacts AlphaSpec AlphaFacts ViableSpec ViableFacts ExtensionSpec.
Local Opaque compile re_find re_replace_all.
Local Open Scope N_scope.

(** * The pattern: no digits, then digits (captured), then no digits, for digits of any script *)
Definition nodec (r : regex) : bool := forallb (fun c => avoids c r) (map fst decimal_values).
Fixpoint sole_group (r : regex) : bool :=
  match r with
  | RAlt a b => sole_group a && sole_group b
  | RCat (RGroup n a) b => nodec b
  | RCat a b => nodec a && sole_group b
  | RGroup n a => true
  | _ => false
  end.
Lemma ext_sole : sole_group ext_body = true. Proof. vm_cast_no_check (eq_refl true). Qed.
Lemma decimal_in c : decimal c = true -> In c (map fst decimal_values).
Proof.
  unfold decimal, digit_for. destruct (assoc N.eqb c decimal_values) as [v|] eqn:E; [|discriminate]. intros _. apply (assoc_In N.eqb N.eqb_eq) in E. apply in_map_iff. exists (c, v). auto.
Qed.
Lemma nodec_ok r w : nodec r = true -> lang r w -> filter decimal w = [].
Proof.
  intros H L. unfold nodec in H. rewrite forallb_forall in H. assert (A : forall c, In c w -> decimal c = false).
  { intros c I. apply not_true_is_false. intros D. exact (avoids_ok c r w L (H c (decimal_in c D)) I). }
  clear L. induction w as [|c w IH]; [reflexivity|]. cbn [filter]. rewrite (A c) by (left; auto). apply IH. intros x I. apply A. right. exact I.
Qed.
Definition caught (s s' : bytes) (p : nat) (cs cs' : caps) : Prop := exists n q1 q2 s1 s2 u v w,
  cs' = (n, (q1, q2)) :: cs /\ (1 <= n <= 6)%nat /\ eats s u s1 /\ eats s1 v s2 /\ eats s2 w s' /\ (q1 + length s1 = p + length s)%nat /\ (q2 + length s2 = p + length s)%nat /\
  filter decimal u = [] /\ forallb decimal v = true /\ v <> [] /\ filter decimal w = [].
Lemma all_nd v : forallb (cls_match k_nd) v = true -> forallb decimal v = true.
Proof. rewrite !forallb_forall. intros H c I. rewrite <- k_nd_ok. auto. Qed.
Lemma soles r : forall p s cs p' s' cs', derives r p s cs p' s' cs' -> one_group r = true -> sole_group r = true -> caught s s' p cs cs'.
Proof.
  induction r as [|k|a IHa b IHb|a IHa b IHb|g a IHa|n a IHa| |]; intros p s cs p' s' cs' D H J; cbn [one_group sole_group] in H, J; try discriminate.
  - assert (Dec : (exists n x, a = RGroup n x) \/ (nodig a && no_group a && one_group b = true /\ nodec a && sole_group b = true)) by (destruct a; eauto).
    inversion D as [| |a0 b0 p0 s0 cs0 p1 s1 cs1 p2 s2 cs2 D1 D2| | | | | | |]; subst. destruct Dec as [(n & x & ->)|(Dec & Jec)].
    + rewrite !andb_true_iff in H. destruct H as ((((((H1 & H2) & H3) & H4) & H5) & H6) & H7). apply Nat.ltb_lt in H3. apply Nat.leb_le in H6, H7.
      destruct (group_captured _ _ _ _ _ _ _ _ D1 H1 H2 H3 (conj H6 H7)) as (v & -> & Ev & Lv & Nv & Nn). pose proof (derives_no_group _ _ _ _ _ _ _ D2 H5) as ->. apply derives_lang in D2 as (w & Ew & Lw).
      exists n, p, p1, s, s1, [], v, w. split; [reflexivity|]. split; [auto|]. split; [constructor|]. split; [exact Ev|]. split; [exact Ew|]. split; [reflexivity|]. split; [exact Lv|]. split; [reflexivity|]. split; [apply all_nd; exact Nv|]. split; [exact Nn|]. eapply nodec_ok; eauto.
    + rewrite !andb_true_iff in Dec. rewrite andb_true_iff in Jec. destruct Dec as ((H1 & H2) & H3), Jec as [J1 J2]. pose proof (derives_len _ _ _ _ _ _ _ D1) as [L1 _]. unfold len in L1. pose proof (derives_no_group _ _ _ _ _ _ _ D1 H2) as ->. apply derives_lang in D1 as (u0 & Eu & Lu).
      destruct (IHb _ _ _ _ _ _ D2 H3 J2) as (n & q1 & q2 & t1 & t2 & u & v & w & -> & R & A1 & A2 & A3 & A4 & A5 & A6 & A7 & A8 & A9).
      exists n, q1, q2, t1, t2, (u0 ++ u), v, w. split; [reflexivity|]. split; [exact R|]. split; [eapply eats_app; eauto|]. split; [exact A2|]. split; [exact A3|]. split; [lia|]. split; [lia|]. split; [|auto].
      rewrite filter_app, A6, (nodec_ok a u0) by auto. reflexivity.
  - apply andb_true_iff in H as [H1 H2]. apply andb_true_iff in J as [J1 J2]. inversion D; subst; eauto.
  - rewrite !andb_true_iff in H. destruct H as ((((H1 & H2) & H3) & H4) & H5). apply Nat.ltb_lt in H3. apply Nat.leb_le in H4, H5.
    destruct (group_captured _ _ _ _ _ _ _ _ D H1 H2 H3 (conj H4 H5)) as (v & -> & Ev & Lv & Nv & Nn).
    exists n, p, p', s, s', [], v, []. split; [reflexivity|]. split; [auto|]. split; [constructor|]. split; [exact Ev|]. split; [constructor|]. split; [reflexivity|]. split; [exact Lv|]. split; [reflexivity|]. split; [apply all_nd; exact Nv|]. split; [exact Nn|reflexivity].
Qed.
Lemma filter_all {A} (f : A -> bool) l : forallb f l = true -> filter f l = l.
Proof. induction l as [|x l IH]; [reflexivity|]. cbn [forallb filter]. rewrite andb_true_iff. intros [-> H]. rewrite IH by auto. reflexivity. Qed.
(** Decimal digits are never the replacement character, so that they are their own encoding. *)
Lemma no_error : decimal 65533 = false. Proof. vm_compute. reflexivity. Qed.
Lemma eats_exact s v t : eats s v t -> forallb decimal v = true -> s = encode_runes v ++ t.
Proof.
  induction 1 as [s|s c t v u D E IH]; intros F; [reflexivity|]. cbn [forallb] in F. apply andb_true_iff in F as [F1 F2]. unfold encode_runes. cbn [flat_map]. rewrite <- app_assoc. fold (encode_runes v). rewrite <- IH by exact F2.
  apply decode_inv; [exact D|]. intros ->. change (decimal 65533 = true) in F1. rewrite no_error in F1. discriminate.
Qed.
Lemma skip_plus {A} (l : list A) a : forall b, skipn a (skipn b l) = skipn (b + a) l.
Proof. induction l as [|x l IH]; intros [|b]; rewrite ?skipn_nil; try reflexivity. cbn [skipn Nat.add]. apply IH. Qed.
Lemma strip_digits s m : re_find extnPattern s = Some m ->
  filter (fun g => negb (is_empty g)) (map (fun i => group_str s m (S i)) (seq 0 (re_ngroups extnPattern))) = [encode_runes (filter decimal (runes (skipn (m_start m) s)))].
Proof.
  intros F. pose proof (re_find_sound _ _ _ F) as (L1 & L2 & D & _). rewrite ext_shape in D. inversion D as [| |a0 b0 p0 s0 cs0 p1 s1 cs1 p2 s2 cs2 D1 D2| | | | | | |]. subst.
  destruct (soles _ _ _ _ _ _ _ D1 ext_one ext_sole) as (n & q1 & q2 & t1 & t2 & u & v & w & E & R & E1 & E2 & E3 & A4 & A5 & Du & Dv & Nv & Dw).
  inversion D2. subst. match goal with H : [] = skipn _ _ |- _ => rename H into Hend end.
  assert (Run : runes (skipn (m_start m) s) = u ++ v ++ w). { rewrite (eats_runes _ _ _ E1), (eats_runes _ _ _ E2), (eats_runes _ _ _ E3). rewrite runes_nil, app_nil_r. reflexivity. }
  rewrite Run, !filter_app, Du, Dw, app_nil_r, (filter_all _ v Dv). cbn [app]. pose proof (eats_exact _ _ _ E2 Dv) as X.
  assert (T1 : t1 = skipn q1 s).
  { destruct (eats_suffix _ _ _ E1) as (y & Y). assert (q1 = m_start m + length y)%nat by (apply (f_equal (@length N)) in Y; rewrite app_length in Y; lia). subst q1. rewrite <- skip_plus. rewrite Y, skipn_app, skipn_all, Nat.sub_diag. reflexivity. }
  assert (Nm : is_empty (encode_runes v) = false). { destruct (encode_runes v) eqn:Q; [exfalso|reflexivity]. pose proof (eats_len _ _ _ E2 Nv) as Y. rewrite X in Y. cbn [app] in Y. unfold len in Y. lia. }
  assert (G : forall i, group_str s m (S i) = if Nat.eqb (S i) n then encode_runes v else []).
  { intros i. unfold group_str, group. match goal with H : _ :: _ = m_caps m |- _ => rewrite <- H | H : m_caps m = _ :: _ |- _ => rewrite H end. cbn [assoc]. destruct (Nat.eqb_spec (S i) n); [|reflexivity].
    unfold sub. rewrite <- T1, X. replace (q2 - q1)%nat with (length (encode_runes v)) by (apply (f_equal (@length N)) in X; rewrite app_length in X; lia). rewrite firstn_app, firstn_all, Nat.sub_diag, app_nil_r. reflexivity. }
  rewrite ext_groups. cbn [seq map]. rewrite !G. clear G. destruct n as [|[|[|[|[|[|[|n]]]]]]]; try lia; cbn [Nat.eqb filter is_empty negb]; rewrite Nm; reflexivity.
Qed.

(** * The whole text is read *)
Lemma end_ok z : decimal z = true \/ ascii_letter z = true \/ z = 35 -> cls_match end_cls z = false.
Proof.
  intros H. assert (B : forallb (fun c => negb (cls_match end_cls c)) (map fst decimal_values ++ abc ++ [35]) = true) by (vm_cast_no_check (eq_refl true)). rewrite forallb_forall in B. apply negb_true_iff. apply B.
  rewrite !in_app_iff. destruct H as [H|[H|H]]; [left; apply decimal_in; exact H|right; left; apply abc_iff; exact H|right; right; left; auto].
Qed.
Lemma possible_tidy s : tidy s -> extractPossibleNumber s = s.
Proof.
  intros (Cl & (u0 & z & R & Hz) & N1 & N2 & _). unfold extractPossibleNumber. destruct (find_start _ Cl) as (m & -> & ->). rewrite skipn_O.
  assert (U : re_find unwantedEndCharPattern s = None).
  { destruct (re_find unwantedEndCharPattern s) as [m2|] eqn:F; [exfalso|reflexivity]. pose proof (re_find_boundary _ _ _ F) as B. apply re_find_sound in F as (_ & _ & D & _).
    change (re_ast unwantedEndCharPattern) with (RCat (RCat (RClass end_cls) (RStar true (RClass end_cls))) REnd) in D. inv D.
    match goal with H : derives REnd _ _ _ _ _ _ |- _ => inv H end. match goal with H : derives (RCat _ _) _ _ _ _ ?q _, E : [] = _ |- _ => try rewrite <- E in H end.
    match goal with H : derives (RCat _ _) _ _ _ _ _ _ |- _ => apply derives_lang in H as (w & E & L) end.
    apply boundary_runes in B as (u & B). apply eats_runes in E. rewrite E in B. rewrite R in B. rewrite runes_nil, app_nil_r in B.
    assert (W2 : w <> [] /\ forall c, In c w -> cls_match end_cls c = true).
    { rewrite lang_cat in L. destruct L as (a & b & -> & A & Lb). rewrite lang_cls in A. destruct A as (c & -> & A). split; [discriminate|].
      assert (S : forallb (cls_match end_cls) b = true).
      { apply (star_all true (RClass end_cls) (cls_match end_cls)) in Lb; auto; [intros v V; rewrite lang_cls in V; destruct V as (y & -> & V); cbn [forallb]; rewrite V; reflexivity|intros y Y; constructor; auto]. }
      intros y [<-|Y]; auto. eapply forallb_forall in S; eauto. }
    destruct W2 as [W1 W2]. destruct w as [|y w] using rev_ind; [congruence|]. rewrite app_assoc in B. apply app_inj_tail in B as [_ <-].
    specialize (W2 z). rewrite end_ok in W2 by auto. discriminate W2. apply in_or_app. right. left. reflexivity. }
  rewrite U. destruct (re_find secondNumberStartPattern s) as [m3|] eqn:F; [exfalso|reflexivity].
  apply match_reads in F as (u & w & v & E & L & _). change (re_ast secondNumberStartPattern) with (RCat (RClass {| cneg := false; citems := map (fun x => CR x x) [92; 47] ++ []; cfold := false |})
    (RCat (RStar true (RClass (k_one 32))) (RClass (k_one 120)))) in L.
  rewrite lang_cat in L. destruct L as (a & b & -> & A & _). rewrite lang_cls in A. destruct A as (c & -> & A). unfold cls_match in A. cbn [cneg cfold citems] in A. rewrite items_singles in A.
  cbn [existsb items_match] in A. unfold items_match in A. cbn [existsb] in A. rewrite !orb_false_r in A. apply orb_true_iff in A. rewrite !N.eqb_eq in A.
  assert (I : In c (runes s)). { rewrite E. apply in_or_app. right. left. reflexivity. }
  destruct A; subst; auto.
Qed.
Lemma text_tidy s : tidy s -> buildNationalNumberForParsing s = Ret s.
Proof.
  intros T. pose proof (possible_tidy s T) as P. destruct T as (_ & _ & _ & _ & N1 & N2). rewrite build_eq. unfold text_of. destruct (index_of s rfc3966PhoneContext) as [i|] eqn:I.
  - exfalso. apply index_of_some in I as (u & I & _). exact (N1 _ _ I).
  - rewrite P. unfold cut_isub. destruct (index_of s rfc3966IsdnSubaddress) as [i|] eqn:J; [|reflexivity]. exfalso. apply index_of_some in J as (u & J & _). exact (N2 _ _ J).
Qed.

(** * Parsing with an extension *)
Lemma strip_spec s m : main_part s m -> maybeStripExtension s = (m, if beq m s then [] else extension_digits s m).
Proof.
  intros M. apply main_part_iff in M. unfold maybeStripExtension in *. destruct (re_find extnPattern s) as [g|] eqn:F; [|cbn [fst] in M; subst m; rewrite beq_refl; reflexivity].
  destruct (isViablePhoneNumber _); [|cbn [fst] in M; subst m; rewrite beq_refl; reflexivity]. rewrite (strip_digits s g F) in *. cbn [fst] in M. subst m.
  destruct (found_extension s g F) as [[L X] _]. assert (Ls : length (firstn (m_start g) s) = m_start g) by (rewrite firstn_length; lia). unfold extension_digits. rewrite Ls.
  destruct (beq (firstn (m_start g) s) s) eqn:B; [exfalso|reflexivity]. apply beq_eq in B. apply ext_body_lang in X. rewrite <- B in X at 1. rewrite <- Ls in X at 1. rewrite skipn_all in X. rewrite runes_nil in X.
  pose proof (minrunes_ok _ _ X) as Y. vm_compute in Y. lia.
Qed.
Lemma part_viable s m : main_part s m -> number_text (runes s) -> isViablePhoneNumber m = true.
Proof. intros [(i & _ & _ & _ & T)|(-> & _)] V; apply viable_iff; auto. Qed.
Lemma part_front s m : main_part s m -> exists e, s = m ++ e.
Proof. intros [(i & _ & _ & -> & _)|(-> & _)]; [exists (skipn i s); symmetry; apply firstn_skipn|exists []; rewrite app_nil_r; reflexivity]. Qed.
Lemma plus_front m e : starts_plus m -> starts_plus (m ++ e).
Proof.
  intros (c & t & D & P). exists c, (t ++ e). split; [|exact P]. pose proof (decode_inv _ _ _ D) as E. rewrite E by (destruct P; subst; discriminate). rewrite <- app_assoc. apply decode_encode. destruct P; subst; split; lia.
Qed.
Lemma region_same C s m r : main_part s m -> number_text (runes s) -> checkRegionForParsing C s r = checkRegionForParsing C m r.
Proof.
  intros M V. pose proof (part_viable s m M V) as Vm. apply viable_iff in V. unfold checkRegionForParsing. f_equal.
  assert (X : forall w, isViablePhoneNumber w = true -> negb (is_empty w) && re_match plusCharsPattern w = true <-> starts_plus w).
  { intros w Vw. rewrite andb_true_iff. split; [intros [_ H]; apply viable_plus; auto|]. intros P. split; [destruct w; [discriminate Vw|reflexivity]|]. destruct (starts_plus_find _ P) as (g & F & _). unfold re_match. rewrite F. reflexivity. }
  apply eq_true_iff_eq. rewrite (X s V), (X m Vm). split.
  - intros P. eapply ext_plus; [apply strip_spec; exact M|exact P].
  - intros P. destruct (part_front s m M) as (e & ->). apply plus_front. exact P.
Qed.
Theorem split_core C s m r : tidy s -> tidy m -> number_text (runes s) -> (length s <= 250)%nat -> main_part s m -> main_part m m -> m <> s ->
  parse_core C s r true = (y <- parse_core C m r true ;; Ret (with_ext (extension_digits s m) y)).
Proof.
  intros T1 T2 V L M Mm Ne. pose proof (part_viable s m M V) as V2. pose proof (region_same C s m r M V) as Cr. pose proof V as V1. apply viable_iff in V1.
  pose proof (strip_spec _ _ M) as S1. pose proof (strip_spec _ _ Mm) as S2. rewrite beq_refl in S2. rewrite (proj2 (beq_neq m s)) in S1 by exact Ne.
  assert (Lm : (length m <= 250)%nat) by (destruct (part_front s m M) as (e & E); apply (f_equal (@length N)) in E; rewrite app_length in E; unfold bytes in *; lia).
  unfold parse_core. rewrite (text_tidy s T1), (text_tidy m T2). replace (is_empty s) with false by (destruct s; [discriminate V1|reflexivity]). replace (is_empty m) with false by (destruct m; [discriminate V2|reflexivity]).
  replace (Nat.ltb maxInputStringLength (len s)) with false by (symmetry; apply Nat.ltb_ge; exact L). replace (Nat.ltb maxInputStringLength (len m)) with false by (symmetry; apply Nat.ltb_ge; exact Lm).
  cbn [bind]. rewrite V1, V2. cbn [negb]. rewrite Cr. destruct (true && negb (checkRegionForParsing C m r)); [reflexivity|]. rewrite S1, S2.
  destruct (code_core C m (getMetadataForRegion C r)) as [[[src cc] norm]| |]; cbn [bind]; try reflexivity.
  destruct (negb (cc =? 0)%Z); (match goal with |- bind (finish_core ?a ?b) _ = _ => destruct (finish_core a b) as [[? ?]| |]; cbn [bind]; reflexivity end).
Qed.
Theorem core_ext C s m r x : tidy s -> main_part s m -> parse_core C s r true = Ret x -> pr_ext x = if beq m s then [] else extension_digits s m.
Proof.
  intros T M H. unfold parse_core in H. destruct (is_empty s); [discriminate|]. destruct (_ <? len s)%nat; [discriminate|]. rewrite (text_tidy s T) in H. cbn [bind] in H. destruct (negb (isViablePhoneNumber s)); [discriminate|].
  destruct (true && _); [discriminate|]. rewrite (strip_spec _ _ M) in H. destruct (code_core C m (getMetadataForRegion C r)) as [[[src cc] norm]| |]; cbn [bind] in H; try discriminate.
  destruct (negb (cc =? 0)%Z); (match type of H with bind (finish_core ?a ?b) _ = _ => destruct (finish_core a b) as [[? ?]| |]; cbn [bind] in H; try discriminate end); injection H as <-; reflexivity.
Qed.
