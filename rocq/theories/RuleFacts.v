(** Proofs about the choice of formatting rules and their effect. *)
From Verif Require Import Base BaseFacts Utf8 Utf8Facts Regex RegexSpec RegexFacts Consts Types Normalize Validate Format
  NumberSpec NumberFacts MetaSpec ValidateSpec ValidateFacts Container Shipped MetaFacts FormatSpec TextFacts LangFacts FormatFacts FormatMore DerivFacts RoundTripFacts RuleSpec.
Local Opaque compile re_find re_replace_all.

(** * Anchoring *)
(** The anchored text is read as the pattern between ^ and $. *)
Definition framed (p : bytes) : Prop := exists x y, compile p = Some x /\ compile (anchored p) = Some y /\ re_ast y = RCat RBegin (RCat (re_ast x) REnd).
Definition framed_left (p : bytes) : Prop := exists x y, compile p = Some x /\ compile (anchored_left p) = Some y /\ re_ast y = RCat RBegin (re_ast x).
Definition framed_b (p : bytes) : bool := match compile p, compile (anchored p) with
  | Some x, Some y => regex_eqb (re_ast y) (RCat RBegin (RCat (re_ast x) REnd)) | _, _ => false end.
Definition framed_left_b (p : bytes) : bool := match compile p, compile (anchored_left p) with
  | Some x, Some y => regex_eqb (re_ast y) (RCat RBegin (re_ast x)) | _, _ => false end.
Lemma framed_b_ok p : framed_b p = true -> framed p.
Proof.
  unfold framed_b, framed. destruct (compile p) as [x|]; [|discriminate]. destruct (compile (anchored p)) as [y|]; [|discriminate].
  intros H. exists x, y. split; [auto|]. split; [auto|]. apply regex_eqb_ok. auto.
Qed.
Lemma framed_left_b_ok p : framed_left_b p = true -> framed_left p.
Proof.
  unfold framed_left_b, framed_left. destruct (compile p) as [x|]; [|discriminate]. destruct (compile (anchored_left p)) as [y|]; [|discriminate].
  intros H. exists x, y. split; [auto|]. split; [auto|]. apply regex_eqb_ok. auto.
Qed.
Lemma framed_derives y r s i e w cs : re_ast y = RCat RBegin (RCat r REnd) -> derives (re_ast y) i (skipn i s) [] e w cs ->
  i = 0%nat /\ e = length s /\ w = [] /\ derives r 0 s [] (length s) [] cs.
Proof.
  intros E D. rewrite E in D. inversion D as [| |? ? p0 s0 cs0 p1 s1 cs1 p2 s2 cs2 D1 D2| | | | | | |]; subst. inversion D1; subst. rewrite skipn_O in D2.
  inversion D2 as [| |? ? q0 u0 c0 q1 u1 c1 q2 u2 c2 E1 E2| | | | | | |]; subst. inversion E2; subst.
  pose proof (derives_len _ _ _ _ _ _ _ E1) as [L _]. unfold len in L. simpl in L.
  assert (e = length s) by lia. subst e. auto.
Qed.
Lemma framed_match p y s : framed p -> compile (anchored p) = Some y -> re_match y s = true <-> matches_all p s.
Proof.
  intros (x & y' & Cx & Cy & E) C. rewrite Cy in C. inv C. rewrite re_match_iff. split.
  - intros (i & e & w & cs & _ & D). apply (framed_derives _ _ _ _ _ _ _ E) in D as (_ & _ & _ & D). exists x, cs. split; [auto|].
    split; [split; [lia|reflexivity]|]. rewrite skipn_all. exact D.
  - intros (x' & cs & Cx' & _ & D). rewrite Cx in Cx'. inv Cx'. rewrite skipn_all in D. exists 0%nat, (length s), [], cs. split; [constructor|].
    rewrite E. econstructor; [constructor|]. econstructor; [exact D|constructor].
Qed.
Lemma framed_left_match p y s : framed_left p -> compile (anchored_left p) = Some y -> re_match y s = true <-> matches_front p s.
Proof.
  intros (x & y' & Cx & Cy & E) C. rewrite Cy in C. inv C. rewrite re_match_iff. split.
  - intros (i & e & w & cs & _ & D). rewrite E in D. inversion D as [| |? ? p0 s0 cs0 p1 s1 cs1 p2 s2 cs2 D1 D2| | | | | | |]; subst. inversion D1; subst.
    rewrite skipn_O in D2. exists x, e, cs. split; [auto|]. pose proof (derives_consumes _ _ _ _ _ _ _ D2) as (u & new & E1 & E2 & _). simpl in E2. subst e.
    assert (W : skipn (length u) s = w) by (rewrite E1, skipn_app, skipn_all, Nat.sub_diag; reflexivity).
    unfold matches_at. unfold len in *. rewrite W. split; [split; [lia|apply (f_equal (@length N)) in E1; rewrite app_length in E1; unfold bytes in *; lia]|exact D2].
  - intros (x' & j & cs & Cx' & _ & D). rewrite Cx in Cx'. inv Cx'. exists 0%nat, j, (skipn j s), cs. split; [constructor|].
    rewrite E. econstructor; [constructor|exact D].
Qed.
Lemma framed_find p y s m : framed p -> compile (anchored p) = Some y -> re_find y s = Some m -> m_start m = 0%nat /\ m_end m = length s.
Proof.
  intros (x & y' & Cx & Cy & E) C F. rewrite Cy in C. inv C. apply re_find_sound in F as (_ & _ & D & _).
  apply (framed_derives _ _ _ _ _ _ _ E) in D as (A & B & _). auto.
Qed.
(** The leftmost match starts at 0 exactly when some match does. *)
Lemma find_front p y s : compile p = Some y -> (exists m, re_find y s = Some m /\ m_start m = 0%nat) <-> matches_front p s.
Proof.
  intros C. split.
  - intros (m & F & Z). pose proof F as F'. apply re_find_sound in F' as (L1 & L2 & D & _). rewrite Z in *. exists y, (m_end m), (m_caps m).
    split; [auto|]. split; [split; [lia|exact L2]|exact D].
  - intros (y' & j & cs & C' & L & D). rewrite C in C'. inv C'. destruct (re_find y' s) as [m|] eqn:F.
    + exists m. split; [auto|]. destruct (m_start m) as [|k] eqn:Z; [auto|]. exfalso.
      Local Transparent re_find. unfold re_find, find_from in F. cbn [skipn] in F. rewrite Nat.sub_0_r in F.
      eapply search_leftmost with (i := 0%nat); [|exact F|constructor| |exact D]; [unfold len; lia|lia].
    + exfalso. unfold re_find, find_from in F. cbn [skipn] in F. rewrite Nat.sub_0_r in F.
      eapply search_none with (i := 0%nat); [|exact F|constructor|exact D]. unfold len; lia.
Qed.
Local Opaque re_find.

(** * Choice *)
Definition rule_framed (f : nfmt) : Prop := framed (get_pattern f) /\ Forall compiles (nf_leading f).
Lemma last_compiles (l : list bytes) : l <> [] -> Forall compiles l -> compiles (last l []).
Proof. intros N F. rewrite Forall_forall in F. apply F. apply last_In; auto. Qed.
Lemma choose_spec l s : Forall rule_framed l -> exists r, chooseFormattingPatternForNumber l s = Ret r /\ first_applying l s r.
Proof.
  induction 1 as [|f l (Fr & Ld) F (r & E & I)]; [exists None; split; [reflexivity|intros g []]|]. cbn [chooseFormattingPatternForNumber].
  pose proof Fr as (x & y & Cx & Cy & _). unfold must_compile. rewrite Cy. cbn [or_panic bind].
  assert (Keep : forall b : bool, (b = true <-> applies f s) -> exists r, (if b then Ret (Some f) else chooseFormattingPatternForNumber l s) = Ret r /\ first_applying (f :: l) s r).
  { intros [] Hb.
    - exists (Some f). split; [auto|]. exists [], l. split; [auto|]. split; [apply Hb; auto|intros g []].
    - assert (Na : ~ applies f s) by (rewrite <- Hb; discriminate). rewrite E. exists r. split; [auto|]. destruct r as [g|].
      + destruct I as (pre & post & -> & Ha & Hp). exists (f :: pre), post. split; [auto|]. split; [auto|]. intros g' [<-|Ig]; auto.
      + intros g [<-|Ig]; auto. }
  pose proof (framed_match _ _ s Fr Cy) as Fm.
  destruct (nf_leading f) as [|a ld] eqn:El.
  - apply Keep. unfold applies. rewrite El, <- Fm, andb_true_iff. split; [tauto|]. intros [Hm _]. split; [auto|].
    unfold re_find_string. unfold re_match in Hm. destruct (re_find y s) as [m|] eqn:Fd; [|discriminate].
    destruct (framed_find _ _ _ _ Fr Cy Fd) as [Z1 Z2]. rewrite Z1, Z2. unfold sub. rewrite Nat.sub_0_r. cbn [skipn]. rewrite firstn_all. apply Nat.eqb_refl.
  - assert (Nl : a :: ld <> []) by discriminate. rewrite <- El in *. destruct (last_compiles _ Nl Ld) as (z & Cz). rewrite Cz. cbn [or_panic bind].
    pose proof (find_front _ _ s Cz) as Ff.
    assert (Ha : applies f s <-> (exists m, re_find z s = Some m /\ m_start m = 0%nat) /\ re_match y s = true).
    { unfold applies. rewrite Ff, Fm. tauto. }
    destruct (re_find z s) as [m|] eqn:Fz.
    + apply Keep. rewrite Ha, andb_true_iff, Nat.eqb_eq. split; [intros [? ?]; eauto|intros [(m' & Em & Z) ?]; inv Em; auto].
    + apply (Keep false). rewrite Ha. split; [discriminate|intros [(m' & Em & _) _]; discriminate].
Qed.

(** * Templates *)
(** The text cut at its first "$d", where "$" must not occur before. *)
Fixpoint token (s : bytes) : option (bytes * N * bytes) :=
  match s with
  | c :: t => if c =? 36 then match t with d :: b => if is_digit d then Some ([], d, b) else None | [] => None end
              else match token t with Some (a, d, b) => Some (c :: a, d, b) | None => None end
  | [] => None
  end.
Lemma token_ok s : forall a d b, token s = Some (a, d, b) -> s = a ++ 36 :: d :: b /\ is_digit d = true /\ ~ In 36 a.
Proof.
  induction s as [|c t IH]; intros a d b H; [discriminate|]. cbn [token] in H. destruct (N.eqb_spec c 36) as [->|Nc].
  - destruct t as [|d0 b0]; [discriminate|]. destruct (is_digit d0) eqn:E; inv H. split; [reflexivity|]. split; [auto|intros []].
  - destruct (token t) as [[[a' d'] b']|] eqn:T; [|discriminate]. inv H. destruct (IH _ _ _ eq_refl) as (Hs & Hd & Hn).
    split; [rewrite Hs; reflexivity|]. split; [auto|]. intros [E|I]; [congruence|auto].
Qed.

Lemma expand_copy f u : forall t s m, ~ In 36 u -> expand (length u + f) (u ++ t) s m = u ++ expand f t s m.
Proof.
  induction u as [|c u IH]; intros t s m H; [reflexivity|]. cbn [length app Nat.add]. rewrite expand_S.
  assert (E : c =? 36 = false) by (apply N.eqb_neq; intros ->; apply H; left; auto). rewrite E. f_equal. apply IH. intros I. apply H. right. auto.
Qed.
Lemma expand_nil f s m : expand f [] s m = [].
Proof. destruct f; reflexivity. Qed.
Lemma name_ascii c : c < 128 -> is_name_rune c = true -> word_char c = true.
Proof.
  intros L H. assert (E : forallb (fun n => negb (is_name_rune (N.of_nat n)) || word_char (N.of_nat n)) (seq 0 128) = true) by (vm_compute; reflexivity).
  rewrite forallb_forall in E. specialize (E (N.to_nat c)). rewrite N2Nat.id, H in E. apply E. apply in_seq. lia.
Qed.
Lemma one_name : is_name_rune 49 = true. Proof. vm_compute. reflexivity. Qed.
Lemma name_len_S f s : name_len (S f) s = match decode_rune s with Some (c, t) => if is_name_rune c then ((len s - len t) + name_len f t)%nat else 0%nat | None => 0%nat end.
Proof. reflexivity. Qed.
Lemma ref_one_then v : match v with c :: _ => word_char c = false | [] => True end -> extract_ref (49 :: v) = Some (Some 1%nat, v).
Proof.
  intros H. assert (L : name_len (len (49 :: v)) (49 :: v) = 1%nat).
  { change (len (49 :: v)) with (S (length v)) at 1. rewrite name_len_S. rewrite (decode_ascii 49 v) by lia. rewrite one_name.
    replace (len (49%N :: v) - len v)%nat with 1%nat by (unfold len; cbn [length]; lia).
    assert (E : name_len (length v) v = 0%nat); [|rewrite E; reflexivity]. destruct v as [|c v]; [reflexivity|]. cbn [length]. rewrite name_len_S.
    assert (Lc : c < 128). { unfold word_char in H. apply orb_false_iff in H as [_ H]. apply N.leb_gt in H. lia. }
    rewrite (decode_ascii c v) by auto. destruct (is_name_rune c) eqn:E; [|reflexivity]. apply name_ascii in E; auto. congruence. }
  unfold extract_ref. rewrite L. reflexivity.
Qed.
(** Expanding "u$1v" copies u and v around the first group. *)
Lemma expand_rule u v s m : ~ In 36 u -> ~ In 36 v -> match v with c :: _ => word_char c = false | [] => True end ->
  expand_template (u ++ 36 :: 49 :: v) s m = u ++ group_str s m 1 ++ v.
Proof.
  intros Hu Hv Hw. unfold expand_template. assert (E : S (len (u ++ 36 :: 49 :: v)) = (length u + (S (S (S (length v)))))%nat) by (unfold len; rewrite app_length; cbn [length]; lia).
  rewrite E, expand_copy by auto. f_equal. rewrite expand_S. change (36 =? 36) with true. cbv iota. rewrite ref_one_then by auto. f_equal.
  replace (S (S (length v))) with (length v + 2)%nat by lia. rewrite <- (app_nil_r v) at 2. rewrite expand_copy by auto. rewrite expand_nil. apply app_nil_r.
Qed.

(** Boolean forms, checked on the shipped rules. *)
Definition token_found (format : bytes) : bool := match token format, re_find firstGroupPattern format with
  | Some (a, d, b), Some m => Nat.eqb (m_start m) (length a) && Nat.eqb (m_end m) (length a + 2) && beq (group_str format m 1) [36; d]
  | _, _ => false end.
Definition split_one (rule : bytes) : option (bytes * bytes) := match token rule with
  | Some (u, 49, v) => if negb (existsb (N.eqb 36) u) && negb (existsb (N.eqb 36) v) && match v with c :: _ => negb (word_char c) | [] => true end then Some (u, v) else None
  | _ => None end.
Lemma not_in_36 u : existsb (N.eqb 36) u = false -> ~ In 36 u.
Proof. intros H I. rewrite <- not_true_iff_false in H. apply H. apply existsb_exists. exists 36. split; auto. Qed.
Lemma split_one_ok rule u v : split_one rule = Some (u, v) -> rule = u ++ 36 :: 49 :: v /\ ~ In 36 u /\ ~ In 36 v /\ match v with c :: _ => word_char c = false | [] => True end.
Proof.
  unfold split_one. destruct (token rule) as [[[u' d] v']|] eqn:T; [|discriminate]. destruct (token_ok _ _ _ _ T) as (E & _ & _). intros H.
  destruct (N.eq_dec d 49) as [->|N].
  - destruct (negb (existsb (N.eqb 36) u') && negb (existsb (N.eqb 36) v') && match v' with c :: _ => negb (word_char c) | [] => true end) eqn:B; [|discriminate]. inv H.
    rewrite !andb_true_iff, !negb_true_iff in B. destruct B as ((B1 & B2) & B3). split; [auto|]. split; [apply not_in_36; auto|]. split; [apply not_in_36; auto|].
    destruct v; [auto|]. apply negb_true_iff. auto.
  - exfalso. destruct d as [|q]; try discriminate. do 6 (destruct q as [q|q|]; try discriminate). congruence.
Qed.
Lemma combine_ok format u v : token_found format = true -> ~ In 36 u -> ~ In 36 v -> match v with c :: _ => word_char c = false | [] => True end ->
  combined format (u ++ 36 :: 49 :: v) (replace_first_group format (u ++ 36 :: 49 :: v)).
Proof.
  unfold token_found. destruct (token format) as [[[a d] b]|] eqn:T; [|discriminate]. destruct (re_find firstGroupPattern format) as [m|] eqn:F; [|discriminate].
  rewrite !andb_true_iff, !Nat.eqb_eq. intros ((E1 & E2) & E3) Hu Hv Hw. apply beq_eq in E3. destruct (token_ok _ _ _ _ T) as (Ef & Hd & Hn).
  exists a, d, b, u, v. split; [auto|]. split; [auto|]. split; [auto|]. split; [reflexivity|]. split; [auto|]. split; [auto|]. split; [auto|].
  unfold replace_first_group. rewrite F, expand_rule, E1, E2, E3 by auto. rewrite Ef at 1 2. rewrite firstn_app, firstn_all, Nat.sub_diag. cbn [firstn]. rewrite app_nil_r.
  rewrite skipn_app. rewrite skipn_all2 by lia. replace (length a + 2 - length a)%nat with 2%nat by lia. cbn [skipn app]. rewrite <- !app_assoc. reflexivity.
Qed.
Definition carrier_split (rule : bytes) : bool := match re_find ccPattern rule with
  | Some m => beq rule (firstn (m_start m) rule ++ bs "$CC" ++ skipn (m_end m) rule) && negb (existsb (N.eqb 36) (firstn (m_start m) rule))
              && is_some (split_one (skipn (m_end m) rule))
  | None => false end.
Definition rule_fine (f : nfmt) : bool :=
  framed_b (get_pattern f) && forallb compiles_b (nf_leading f)
  && (is_empty (get_npfr f) || token_found (get_format f) && is_some (split_one (get_npfr f)))
  && (is_empty (get_dccfr f) || token_found (get_format f) && carrier_split (get_dccfr f)).
Lemma rule_fine_framed f : rule_fine f = true -> rule_framed f.
Proof.
  unfold rule_fine. rewrite !andb_true_iff. intros (((H1 & H2) & _) & _). split; [apply framed_b_ok; auto|]. eapply forallb_Forall; [apply compiles_b_ok|auto].
Qed.
Lemma template_ok f nf carrier s : rule_fine f = true -> ~ In 36 carrier -> nf <> RFC3966 -> exists x t, compile (get_pattern f) = Some x /\ template f nf carrier t /\
  formatNsnUsingPatternWithCarrier s f nf carrier = Ret (re_replace_all x s t).
Proof.
  intros R Nc Nr. pose proof (rule_fine_framed _ R) as ((x & y & Cx & _) & _). exists x. unfold rule_fine in R. rewrite !andb_true_iff in R. destruct R as ((_ & R1) & R2).
  unfold formatNsnUsingPatternWithCarrier, must_compile. rewrite Cx. cbn [or_panic bind].
  assert (NR : pformat_eqb nf RFC3966 = false) by (destruct nf; auto; congruence). rewrite NR.
  destruct nf; cbn [pformat_eqb andb template]; try (eexists; split; [auto|]; split; reflexivity).
  destruct (negb (is_empty carrier) && negb (is_empty (get_dccfr f))) eqn:B.
  - apply andb_true_iff in B as [B1 B2]. rewrite negb_true_iff in B2. rewrite B2 in R2. cbn [orb] in R2. apply andb_true_iff in R2 as [R2 R3].
    unfold carrier_split in R3. unfold replace_first_cc. destruct (re_find ccPattern (get_dccfr f)) as [m|]; [|discriminate].
    rewrite !andb_true_iff, negb_true_iff in R3. destruct R3 as ((Q1 & Q2) & Q3). apply beq_eq in Q1. apply not_in_36 in Q2.
    destruct (split_one (skipn (m_end m) (get_dccfr f))) as [[u v]|] eqn:Sp; [|discriminate]. destruct (split_one_ok _ _ _ Sp) as (Er & Hu & Hv & Hw).
    set (w := firstn (m_start m) (get_dccfr f)) in *. eexists. split; [auto|]. split; [|reflexivity].
    exists (w ++ carrier ++ skipn (m_end m) (get_dccfr f)). split; [exists w, (skipn (m_end m) (get_dccfr f)); auto|].
    rewrite Er. replace (w ++ carrier ++ u ++ 36 :: 49 :: v) with ((w ++ carrier ++ u) ++ 36 :: 49 :: v) by (rewrite <- !app_assoc; reflexivity).
    apply combine_ok; auto. intros I. apply in_app_or in I as [I|I]; [auto|]. apply in_app_or in I as [I|I]; auto.
  - destruct (is_empty (get_npfr f)) eqn:En; cbn [negb].
    + eexists. split; [auto|]. split; reflexivity.
    + cbn [orb] in R1. apply andb_true_iff in R1 as [R1 R3]. destruct (split_one (get_npfr f)) as [[u v]|] eqn:Sp; [|discriminate].
      destruct (split_one_ok _ _ _ Sp) as (Er & Hu & Hv & Hw). eexists. split; [auto|]. split; [|reflexivity]. rewrite Er. apply combine_ok; auto.
Qed.

(** * Rules of a container *)
Definition meta_fine (m : meta) : bool := forallb rule_fine (md_nf m) && forallb rule_fine (md_inf m).
Definition rules_fine (C : container) : Prop := forall m, In m (map snd (c_region C) ++ map snd (c_nongeo C)) -> meta_fine m = true.
Lemma shipped_rules : rules_fine shipped.
Proof.
  assert (H : forallb meta_fine (map snd (c_region shipped) ++ map snd (c_nongeo shipped)) = true) by (vm_cast_no_check (eq_refl true)).
  rewrite forallb_forall in H. exact H.
Qed.
Lemma available_rules m nf : available_formats (Some m) nf = rules m nf.
Proof. unfold available_formats, rules, mget. destruct (md_inf m) eqn:E, nf; reflexivity. Qed.
Lemma rules_in m nf f : In f (rules m nf) -> In f (md_nf m) \/ In f (md_inf m).
Proof. rewrite <- available_rules. apply available_In. Qed.
Lemma format_printed m nf carrier s : meta_fine m = true -> ~ In 36 carrier -> nf <> RFC3966 ->
  exists o, formatNsnWithCarrier s (Some m) nf carrier = Ret o /\ printed m nf carrier s o.
Proof.
  intros Fm Nc Nr. unfold formatNsnWithCarrier. rewrite available_rules. unfold meta_fine in Fm. apply andb_true_iff in Fm as [F1 F2].
  rewrite forallb_forall in F1, F2. assert (Fi : forall f, In f (rules m nf) -> rule_fine f = true).
  { intros f I. apply rules_in in I as [I|I]; auto. }
  destruct (choose_spec (rules m nf) s) as (r & E & H).
  { apply Forall_forall. intros f I. apply rule_fine_framed. auto. }
  rewrite E. cbn [bind]. destruct r as [f|].
  - assert (I : In f (rules m nf)) by (destruct H as (pre & post & -> & _); apply in_or_app; right; left; auto).
    destruct (template_ok f nf carrier s (Fi _ I) Nc Nr) as (x & t & Cx & Ht & Eq). eexists. split; [exact Eq|]. exists (Some f). split; [exact H|]. eauto.
  - eexists. split; [reflexivity|]. exists None. auto.
Qed.
