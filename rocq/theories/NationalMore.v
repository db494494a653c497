(** Reading back the digits of a NATIONAL text: checks of the metadata that make it the number it was printed from. *)
From Verif Require Import Base BaseFacts Utf8 Utf8Facts Regex RegexSpec RegexFacts LangFacts Consts Types Normalize NormalizeSpec NormalizeFacts Validate Format Parse
  NumberSpec NumberFacts MetaSpec ValidateSpec ValidateFacts Container Shipped MetaFacts FormatSpec TextFacts FormatFacts FormatMore ParseSpec ParseFacts ParseMore ContextFacts
  RoundSpec DerivFacts MatcherTotal ShortFacts RoundTripFacts PropsValidate RuleSpec RuleFacts RuleMore ReadSpec ReadFacts ReadMore ExtSpec ExtFacts BackFacts DialFacts PropsRound NationalFacts.
Local Opaque compile re_find re_replace_all.

(** * No beginning of p ++ s in k and not all of it in q, for every s in all of ls *)
Fixpoint no_prefix (p : bytes) (A : rset) : bool := match p with [] => true | c :: t => negb (nuls A) && no_prefix t (step c A) end.
Definition chk_clear (n : nat) (x : vec) : bool :=
  match skipn (S n) x with [q; k] => negb (nuls k) && negb (nuls q && forallb nuls (firstn n (skipn 1 x))) | _ => false end.
Definition clear_start (p : bytes) (ls : list regex) (q k : regex) : vec := run p [RAlt q k] :: map (fun r => [r]) ls ++ [run p [q]; run p [k]].
(** With allow, p itself may be in k. *)
Definition clear (fuel : nat) (p : bytes) (ls : list regex) (q k : regex) (allow : bool) : bool :=
  let n := length ls in let x := clear_start p ls q k in
  no_prefix p [k] && (if allow then forallb (fun c => safe fuel (S n) (chk_clear n) (vstep c x)) digits10 else safe fuel (S n) (chk_clear n) x).
Lemma no_prefix_ok p : forall A a b, no_prefix p A = true -> p = a ++ b -> b <> [] -> acc A a = false.
Proof.
  induction p as [|c p IH]; intros A a b H E Nb; [destruct a; [destruct b; [congruence|discriminate]|discriminate]|]. cbn [no_prefix] in H. apply andb_true_iff in H as [H1 H2]. destruct a as [|c' a]; [apply negb_true_iff in H1; exact H1|].
  cbn [app] in E. injection E as <- E. exact (IH _ a b H2 E Nb).
Qed.
Lemma clear_run p ls q k w : vrun w (clear_start p ls q k) = run (p ++ w) [RAlt q k] :: map (fun r => run w [r]) ls ++ [run (p ++ w) [q]; run (p ++ w) [k]].
Proof. unfold vrun, clear_start. cbn [map]. rewrite map_app, map_map. cbn [map]. rewrite !run_app. reflexivity. Qed.
Lemma clear_chk n ls p q k w : n = length ls -> chk_clear n (vrun w (clear_start p ls q k)) = negb (acc [k] (p ++ w)) && negb (acc [q] (p ++ w) && forallb (fun r => acc [r] w) ls).
Proof.
  intros ->. rewrite clear_run. unfold chk_clear. cbn [skipn]. assert (L : length (map (fun r => run w [r]) ls) = length ls) by apply map_length.
  rewrite skipn_app, <- L, skipn_all, Nat.sub_diag. cbn [skipn app]. rewrite firstn_app, firstn_all, Nat.sub_diag. cbn [firstn]. rewrite app_nil_r. unfold acc. f_equal. f_equal. f_equal. induction ls as [|r ls IH]; [reflexivity|]. cbn [map forallb]. rewrite IH; [reflexivity|]. apply map_length.
Qed.
Lemma clear_alive ls p q k w v : (forall l, In l ls -> acc [l] (w ++ v) = true) -> acc [q] (p ++ w) = true \/ acc [k] (p ++ w) = true -> dead (S (length ls)) (vrun w (clear_start p ls q k)) = false.
Proof.
  intros A Q. apply dead_false. rewrite clear_run. cbn [firstn]. constructor.
  - assert (B : acc [RAlt q k] (p ++ w) = true). { apply acc_one. destruct Q as [Q|Q]; apply acc_one in Q; [apply L_alt_l|apply L_alt_r]; exact Q. } intros E. unfold acc in B. rewrite E in B. discriminate.
  - rewrite <- (map_length (fun r => run w [r]) ls), firstn_app, firstn_all, Nat.sub_diag. cbn [firstn]. rewrite app_nil_r. apply Forall_forall. intros x I. apply in_map_iff in I as (r & <- & I). exact (live _ _ _ (A r I)).
Qed.
Lemma clear_ok fuel p ls q k allow s : clear fuel p ls q k allow = true -> all_digits s = true -> (forall l, In l ls -> acc [l] s = true) ->
  (forall a b, p ++ s = a ++ b -> acc [k] a = true -> allow = true /\ a = p) /\ (acc [q] (p ++ s) = true -> allow = true /\ s = []).
Proof.
  unfold clear. intros H D A. apply andb_true_iff in H as [H1 H2].
  assert (St : forall w v, s = w ++ v -> allow = false \/ w <> [] -> dead (S (length ls)) (vrun w (clear_start p ls q k)) = true \/ chk_clear (length ls) (vrun w (clear_start p ls q k)) = true).
  { intros w v E Nw. assert (Dw : all_digits w = true) by (rewrite E, all_digits_app in D; apply andb_true_iff in D; tauto). destruct allow.
    - destruct w as [|c w]; [destruct Nw; congruence|]. unfold all_digits in Dw. cbn [forallb] in Dw. apply andb_true_iff in Dw as [Dc Dw]. rewrite forallb_forall in H2. specialize (H2 c (digit_in10 _ Dc)).
      assert (V : vrun (c :: w) (clear_start p ls q k) = vrun w (vstep c (clear_start p ls q k))) by (unfold vrun, vstep; rewrite map_map; reflexivity). rewrite V. exact (safe_run _ _ _ _ H2 w Dw).
    - exact (safe_run _ _ _ _ H2 w Dw). }
  split.
  - intros a b E K. assert (C : (exists w, a = p ++ w /\ s = w ++ b) \/ (exists u, p = a ++ u /\ u <> [])).
    { clear -E. revert p E. induction a as [|c a IH]; intros p E; [destruct p as [|c p]; [left; exists []; auto|right; exists (c :: p); split; [reflexivity|discriminate]]|].
      destruct p as [|c' p]; [left; exists (c :: a); auto|]. cbn [app] in E. injection E as -> E. destruct (IH _ E) as [(w & -> & H)|(u & -> & H)]; [left; exists w; auto|right; exists u; auto]. }
    destruct C as [(w & -> & Es)|(u & Ep & Nu)]; [|rewrite (no_prefix_ok _ _ _ _ H1 Ep Nu) in K; discriminate].
    destruct allow; [destruct w as [|c w]; [rewrite app_nil_r; auto|]|]; exfalso; (destruct (St _ _ Es) as [X|X]; [first [left; reflexivity|right; discriminate]|rewrite (clear_alive ls p q k _ b) in X; [discriminate|rewrite <- Es; exact A|auto]|]);
      rewrite clear_chk in X by reflexivity; rewrite K in X; discriminate.
  - intros Q. assert (B : allow = false \/ s <> [] -> False).
    { intros Nw. destruct (St s [] (eq_sym (app_nil_r s)) Nw) as [X|X]; [rewrite (clear_alive ls p q k s []) in X; [discriminate|rewrite app_nil_r; exact A|auto]|]. rewrite clear_chk in X by reflexivity. rewrite Q in X.
      assert (F : forallb (fun r => acc [r] s) ls = true) by (apply forallb_forall; exact A). rewrite F in X. rewrite andb_false_r in X. discriminate. }
    destruct allow; [|exfalso; auto]. destruct s; auto. exfalso. apply B. right. discriminate.
Qed.

(** * The text does not start with an international prefix *)
Definition ast (p : bytes) : option regex := match compile p with Some x => Some (re_ast x) | None => None end.
Definition nonzero : regex := RClass {| cneg := false; citems := [CR 49 57]; cfold := false |}.
Definition idd_free (fuel : nat) (p : bytes) (ls : list regex) (m : meta) : bool :=
  match ast (get_bytes (md_iprefix m)) with Some q => clear fuel p ls q (RCat (kill_end q) nonzero) false | None => false end.
Lemma nonzero_digits : forallb (fun c => (c =? 48) || cls_match {| cneg := false; citems := [CR 49 57]; cfold := false |} c) digits10 = true. Proof. vm_compute. reflexivity. Qed.
Lemma idd_free_ok fuel p ls m s : idd_free fuel p ls m = true -> all_digits (p ++ s) = true -> (forall l, In l ls -> acc [l] s = true) -> forall rest, ~ dials_abroad m (p ++ s) rest.
Proof.
  unfold idd_free, ast. intros H D A rest (x & g & Cx & F & Z & Er & H0). rewrite Cx in H. assert (Ds : all_digits s = true) by (rewrite all_digits_app in D; apply andb_true_iff in D; tauto).
  destruct (clear_ok _ _ _ _ _ _ _ H Ds A) as [C1 C2]. pose proof (digits_ascii _ D) as As. apply re_find_sound in F as (L1 & L2 & Dv & _). rewrite Z, skipn_O in Dv. rewrite <- Er in Dv.
  destruct rest as [|c rest].
  - apply derives_lang in Dv as (w & E & L). apply eats_ascii in E; auto. rewrite app_nil_r in E. subst w. apply acc_one in L. apply C2 in L as [L _]. discriminate.
  - apply derives_goes_on in Dv; [|discriminate]. apply derives_lang in Dv as (w & E & L). apply eats_ascii in E; auto. destruct (C1 (w ++ [c]) rest) as [X _]; [rewrite <- app_assoc; exact E| |discriminate].
    apply acc_one. constructor; [exact L|]. constructor. pose proof nonzero_digits as B. rewrite forallb_forall in B. specialize (B c). rewrite E, all_digits_app in D. apply andb_true_iff in D as [_ D]. unfold all_digits in D. cbn [forallb] in D. apply andb_true_iff in D as [D _].
    specialize (B (digit_in10 _ D)). apply orb_true_iff in B as [B|B]; [apply N.eqb_eq in B; subst c; exfalso; apply H0; reflexivity|exact B].
Qed.

(** * The national-prefix expression matches exactly p at the start *)
Lemma kill_derives_gen r0 p s cs p' s' cs' : derives r0 p s cs p' s' cs' -> forall r, r0 = kill_end r -> derives r p s cs p' s' cs'.
Proof.
  induction 1; intros r0 E; destruct r0; cbn [kill_end] in E; try discriminate; try (injection E; intros; subst); try (econstructor; eauto; fail).
  match goal with H : cls_match _ _ = true |- _ => vm_compute in H; discriminate end.
Qed.
Lemma kill_derives r p s cs p' s' cs' : derives (kill_end r) p s cs p' s' cs' -> derives r p s cs p' s' cs'.
Proof. intros D. exact (kill_derives_gen _ _ _ _ _ _ _ D r eq_refl). Qed.
Definition by_prefix (p : bytes) (m : meta) : bool := beq (get_bytes (md_np_parse m)) (bs "0|80?") && beq p (bs "80") && is_empty (get_bytes (md_np_transform m)).
Definition only_prefix (fuel : nat) (p : bytes) (ls : list regex) (m : meta) : bool :=
  by_prefix p m ||
  match compile (anchored_left (get_bytes (md_np_parse m))) with
  | Some x => match re_ast x with
    | RCat RBegin q => clear fuel p ls q (kill_end q) true && acc [kill_end q] p && anchorless (kill_end q) &&
        (is_empty (get_bytes (md_np_transform m)) || ((0 <? re_ngroups x)%nat && negb (acc [via_group (re_ngroups x) q] p)))
    | _ => false end
  | None => false end.
Lemma eats_front a b : ascii a -> eats (a ++ b) a b.
Proof. intros A. induction a as [|c a IH]; [constructor|]. inv A. cbn [app]. econstructor; [apply decode_ascii; auto|auto]. Qed.
Lemma by_compiles : exists x, compile (anchored_left (bs "0|80?")) = Some x. Proof. eexists. vm_compute. reflexivity. Qed.
Lemma by_end x s : compile (anchored_left (bs "0|80?")) = Some x -> exists g, re_find x (56 :: 48 :: s) = Some g /\ m_end g = 2%nat.
Proof.
  Local Transparent compile re_find. intros H. vm_compute in H. injection H as <-. eexists. split; [vm_compute; reflexivity|]. cbn [m_end]. change ((0 + (S (S (length s)) - S (length s)) + (S (length s) - length s))%nat = 2%nat). lia. Local Opaque compile re_find.
Qed.
Lemma only_prefix_ok fuel p ls m s : only_prefix fuel p ls m = true -> get_bytes (md_np_parse m) <> [] -> all_digits (p ++ s) = true -> s <> [] -> (forall l, In l ls -> acc [l] s = true) -> full_match (general m) s ->
  wf_meta m -> exists c, national_part m (p ++ s) s c.
Proof.
  intros H Np D Ns A Fs Wm. assert (Ds : all_digits s = true) by (rewrite all_digits_app in D; apply andb_true_iff in D; tauto). assert (Dp : all_digits p = true) by (rewrite all_digits_app in D; apply andb_true_iff in D; tauto).
  pose proof (digits_ascii _ D) as As. pose proof (digits_ascii _ Dp) as Ap.
  assert (Go : exists x g, compile (anchored_left (get_bytes (md_np_parse m))) = Some x /\ re_find x (p ++ s) = Some g /\ left_over m x (p ++ s) g = s).
  { unfold only_prefix in H. apply orb_true_iff in H as [H|H].
    - unfold by_prefix in H. rewrite !andb_true_iff in H. destruct H as ((H1 & H2) & H3). apply beq_eq in H1, H2. assert (Cx : exists x, compile (anchored_left (bs "0|80?")) = Some x) by exact by_compiles.
      destruct Cx as (x & Cx). rewrite H1. rewrite H2. destruct (by_end x s Cx) as (g & F & E). exists x, g. split; [exact Cx|]. split; [exact F|]. unfold left_over. rewrite H3. cbn [orb]. rewrite E. reflexivity.
    - destruct (compile (anchored_left (get_bytes (md_np_parse m)))) as [x|] eqn:Cx; [|discriminate]. destruct (re_ast x) as [| |a q| | | | |] eqn:X; try discriminate. destruct a; try discriminate. rewrite !andb_true_iff in H. destruct H as (((H1 & H2) & H3) & H4).
      destruct (clear_ok _ _ _ _ _ _ _ H1 Ds A) as [C1 C2]. apply acc_one in H2. destruct (lang_derives _ _ H2 H3 (p ++ s) s 0%nat [] (eats_front _ _ Ap)) as (e & cs & Dv). apply kill_derives in Dv.
      assert (Dx : derives (re_ast x) 0 (p ++ s) [] e s cs) by (rewrite X; econstructor; [constructor|exact Dv]). destruct (proj2 (find_at_zero x (p ++ s))) as (g & F & Z); [eauto|].
      pose proof F as F'. apply re_find_sound in F' as (L1 & L2 & Dg & _). rewrite Z, skipn_O, X in Dg. inversion Dg as [| |? ? p0 s0 cs0 p1 s1 cs1 p2 s2 cs2 D1 D2| | | | | | |]; subst. inversion D1; subst. clear D1 Dg.
      set (v := skipn (m_end g) (p ++ s)) in *. assert (Ev : v = s).
      { destruct v as [|c v'] eqn:Ev; [exfalso|].
        - apply derives_lang in D2 as (w & E & L). apply eats_ascii in E; auto. rewrite app_nil_r in E. subst w. apply acc_one in L. apply C2 in L as [_ L]. auto.
        - apply derives_goes_on in D2; [|discriminate]. apply derives_lang in D2 as (w & E & L). apply eats_ascii in E; auto. apply acc_one in L. destruct (C1 _ _ E L) as [_ ->]. apply app_inv_head in E. auto. }
      exists x, g. split; [reflexivity|]. split; [exact F|]. unfold left_over. destruct (is_empty (get_bytes (md_np_transform m))); cbn [orb] in *; [exact Ev|]. apply andb_true_iff in H4 as [H4 H5]. apply Nat.ltb_lt in H4. apply negb_true_iff in H5.
      destruct (re_ngroups x) as [|n] eqn:Ng; [lia|]. cbn [group]. destruct (is_some (assoc Nat.eqb (S n) (m_caps g))) eqn:G; cbn [negb]; [exfalso|exact Ev]. apply assoc_has in G.
      destruct (derives_via _ _ _ _ _ _ _ (S n) D2 G) as (w & E & L); [intros (? & [])|]. apply eats_ascii in E; auto. rewrite Ev in E. apply app_inv_tail in E. subst w. apply acc_one in L. rewrite L in H5. discriminate. }
  destruct Go as (x & g & Cx & F & Lo). exists (carrier_part m x (p ++ s) g). right. split; [exact Np|]. exists x. split; [exact Cx|]. destruct (p ++ s) as [|c t] eqn:E; [destruct p; [cbn [app] in E; congruence|discriminate]|]. rewrite F. right. rewrite Lo. auto.
Qed.
Lemma unstripped_part m s : wf_meta m -> unstripped m s -> exists c, national_part m s s c.
Proof. intros W U. destruct (strip_keeps m s W U) as (c & b & E). destruct (strip_spec m s W) as (core & c' & b' & E' & P). rewrite E in E'. injection E' as <- <- <-. eauto. Qed.

(** * The digits printed mean the number *)
Definition apart_codes (p a : bytes) : bool := negb (has_prefix p a) && negb (has_prefix a p).
Lemma apart_codes_ok p a s t : apart_codes p a = true -> p ++ s = a ++ t -> False.
Proof.
  unfold apart_codes. intros H E. apply andb_true_iff in H as [H1 H2]. apply negb_true_iff in H1, H2. revert p H1 H2 E. induction a as [|c a IH]; intros p H1 H2 E; [rewrite has_prefix_nil in H1; discriminate|].
  destruct p as [|c' p]; [cbn [app] in *; rewrite has_prefix_nil in H2; discriminate|]. cbn [app] in E. injection E as -> E. cbn [has_prefix] in H1, H2. rewrite N.eqb_refl in H1, H2. cbn [andb] in H1, H2. exact (IH p H1 H2 E).
Qed.
Definition lengths_clear (m : meta) : bool := match md_general m with
  | Some g => forallb (fun z => (3 <=? z)%Z && (z <=? 17)%Z && negb (existsb (Z.eqb z) (d_local g))) (d_len g) | None => false end.
Lemma lengths_clear_ok m s t : wf_meta m -> lengths_clear m = true -> has_type m s t -> (3 <= length s <= 17)%nat /\ sized m s IS_POSSIBLE.
Proof.
  intros W L H. destruct (accepts_allowed m s t W H) as [_ A]. unfold lengths_clear in L. cbn [allowed desc_for] in A. destruct A as (g & Eg & Hg & Ig). unfold lengths_of in Ig. rewrite Eg in L, Ig.
  assert (I : In (Z.of_nat (length s)) (d_len g)) by (destruct (d_len g); auto). rewrite forallb_forall in L. pose proof (L _ I) as B. rewrite !andb_true_iff in B. destruct B as ((B1 & B2) & B3). apply Z.leb_le in B1, B2. split; [lia|].
  unfold sized. cbn [classified]. split; [exists g; split; [exact Eg|]; split; [exact Hg|unfold lengths_of; rewrite Eg; destruct (d_len g); auto]|]. intros (g' & Eg' & _ & Il). cbn [desc_for] in Eg'. rewrite Eg in Eg'. injection Eg' as <-.
  apply negb_true_iff in B3. assert (X : existsb (Z.eqb (Z.of_nat (length s))) (d_local g) = true) by (apply existsb_exists; eexists; split; [exact Il|apply Z.eqb_refl]). congruence.
Qed.
Lemma reads_back C m p s c : (forall rest, ~ dials_abroad m (p ++ s) rest) -> (p = [] /\ full_match (general m) s) \/ apart_codes p (itoa (code_of m)) = true -> national_part m (p ++ s) s c -> (3 <= length s <= 17)%nat -> sized m s IS_POSSIBLE ->
  reads C m (p ++ s) (Means FROM_DEFAULT_COUNTRY (code_of m) s c).
Proof.
  intros Nd Nc P L Sz. right. split; [exact Nd|]. right. split.
  - intros core (t & c' & E & _ & H). destruct Nc as [(-> & Fm)|Nc]; [|exact (apart_codes_ok _ _ _ _ Nc E)]. cbn [app] in *. destruct H as [(H & _)|H]; [auto|]. unfold sized in *. pose proof (classified_fun _ _ _ _ _ H Sz). discriminate.
  - right. split; [rewrite app_length; lia|]. exists s, c. split; [exists s, c, IS_POSSIBLE; auto|]. destruct (Nat.ltb_spec (length s) 2); [lia|]. destruct (Nat.ltb_spec 17 (length s)); [lia|]. reflexivity.
Qed.
Lemma back_parse C r m p s c : wf_container C -> parse_ok C -> getMetadataForRegion C r = Some m -> all_digits (p ++ s) = true -> (2 <= length (p ++ s) <= 250)%nat -> reads C m (p ++ s) (Means FROM_DEFAULT_COUNTRY (code_of m) s c) ->
  exists n, Parse C (p ++ s) r = Ret (n, None) /\ cc_of n = code_of m /\ GetNationalSignificantNumber n = s /\ p_ext n = None.
Proof.
  intros W PO Em D L R. destruct (reads_digits C r m _ W PO Em D L) as (o & Ro & Oo). pose proof (reads_unique _ _ _ _ _ W R Ro). subst o. cbn [outcome] in Oo. destruct Oo as (n' & K & Ec & En & _ & _ & _ & Ee).
  destruct (parse_agree C (p ++ s) r W) as [(e & n1 & n2 & _ & K')|(n1 & n2 & P & K' & Q1 & Q2 & Q3 & Q4 & Q5 & _)]; rewrite K in K'; [discriminate|]. injection K' as <-. exists n1. split; [exact P|].
  split; [rewrite <- Ec; unfold cc_of; rewrite Q1; reflexivity|]. split; [rewrite <- En; unfold GetNationalSignificantNumber, get_ilz, get_nlz, get_nn; rewrite Q2, Q4, Q5; reflexivity|]. congruence.
Qed.

(** * The language of a rule *)
Definition dig_star : regex := RStar true (RClass {| cneg := false; citems := [CR 48 57]; cfold := false |}).
Definition rule_lang (f : nfmt) : option (regex * regex) :=
  match ast (get_pattern f), (match nf_leading f with [] => Some REmpty | l => ast (last l []) end) with Some a, Some b => Some (a, RCat b dig_star) | _, _ => None end.
Lemma dig_star_ok s : all_digits s = true -> lang dig_star s.
Proof.
  intros D. apply star_lang. apply forallb_forall. intros c I. unfold all_digits in D. rewrite forallb_forall in D. specialize (D c I).
  assert (B : forallb (cls_match {| cneg := false; citems := [CR 48 57]; cfold := false |}) digits10 = true) by (vm_compute; reflexivity). rewrite forallb_forall in B. apply B. apply digit_in10. exact D.
Qed.
Lemma rule_lang_ok f a b s : rule_lang f = Some (a, b) -> applies f s -> all_digits s = true -> acc [a] s = true /\ acc [b] s = true.
Proof.
  unfold rule_lang, ast. intros R ((x & cs & Cx & M) & Ld) D. rewrite Cx in R. pose proof (digits_ascii _ D) as As. rewrite !acc_one.
  assert (Z : forall r i cs, matches_at r s 0 i cs -> exists w v, s = w ++ v /\ v = skipn i s /\ lang r w).
  { intros r i cs0 (_ & Dv). rewrite skipn_O in Dv. apply derives_lang in Dv as (w & E & L). apply eats_ascii in E; auto. exists w, (skipn i s). auto. }
  destruct (Z _ _ _ M) as (w & v & E & Ev & L). rewrite skipn_all in Ev. subst v. rewrite app_nil_r in E. subst w.
  assert (Dg : forall w v, s = w ++ v -> all_digits v = true) by (intros w v E; rewrite E, all_digits_app in D; apply andb_true_iff in D; tauto).
  destruct Ld as [Ld|(y & j & cs' & Cy & My)].
  - rewrite Ld in R. injection R as <- <-. split; [exact L|]. change s with ([] ++ s). constructor; [constructor|apply dig_star_ok; auto].
  - destruct (nf_leading f) as [|l0 ll]; [injection R as <- <-; split; [exact L|]; change s with ([] ++ s); constructor; [constructor|apply dig_star_ok; auto]|].
    rewrite Cy in R. injection R as <- <-. split; [exact L|]. destruct (Z _ _ _ My) as (w & v & E & _ & Lw). rewrite E. constructor; [exact Lw|apply dig_star_ok; eauto].
Qed.
Lemma derives_pos r p s cs p' s' cs' : derives r p s cs p' s' cs' -> (p' + len s' = p + len s)%nat.
Proof. induction 1; try lia. apply decode_rune_lt in H. unfold len in *. lia. Qed.
Lemma lang_applies f a b s : rule_lang f = Some (a, b) -> anchorless a = true -> anchorless b = true -> acc [a] s = true -> acc [b] s = true -> all_digits s = true -> applies f s.
Proof.
  unfold rule_lang, ast. intros R Na Nb A B D. pose proof (digits_ascii _ D) as As. apply acc_one in A, B. destruct (compile (get_pattern f)) as [x|] eqn:Cx; [|discriminate].
  assert (Z : forall r w v, anchorless r = true -> lang r w -> s = w ++ v -> exists cs, matches_at r s 0 (length w) cs).
  { intros r w v Nr L E. assert (Aw : ascii w) by (rewrite E in As; apply ascii_app in As; tauto). destruct (lang_derives r w L Nr (w ++ v) v 0%nat [] (eats_front w v Aw)) as (p' & cs & Dv). pose proof (derives_pos _ _ _ _ _ _ _ Dv) as Ps. unfold len in Ps. rewrite app_length in Ps.
    assert (p' = length w) by lia. subst p'. exists cs. unfold matches_at. rewrite skipn_O, E. split; [unfold len; rewrite app_length; lia|]. rewrite skipn_app, skipn_all, Nat.sub_diag. exact Dv. }
  split.
  - exists x. assert (a = re_ast x) by (destruct (match nf_leading f with [] => _ | _ => _ end); [injection R as <- _; reflexivity|discriminate]). subst a. destruct (Z (re_ast x) s [] Na A (eq_sym (app_nil_r s))) as (cs & M). eauto.
  - destruct (nf_leading f) as [|l0 ll]; [left; reflexivity|right]. destruct (compile (last (l0 :: ll) [])) as [y|] eqn:Cy; [|discriminate]. injection R as _ <-. cbn [anchorless] in Nb. apply andb_true_iff in Nb as [Nb _].
    inversion B as [| |? ? w v B1 B2| | | | | | |]; subst. destruct (Z (re_ast y) w v Nb B1 eq_refl) as (cs & M). exists y, (length w), cs. auto.
Qed.
(** Every number in t and r is in the language of some rule. *)
Fixpoint some_pair (l : list rset) : bool := match l with a :: b :: t => (nuls a && nuls b) || some_pair t | _ => false end.
Definition chk_covered (x : vec) : bool := match x with t :: r :: l => negb (nuls t && nuls r) || some_pair l | _ => false end.
Definition pair_of (f : nfmt) : list rset := match rule_lang f with Some (a, b) => if anchorless a && anchorless b then [[a]; [b]] else [] | None => [] end.
Definition covered (fuel : nat) (t r : regex) (l : list nfmt) : bool := safe fuel 2 chk_covered ([t] :: [r] :: flat_map pair_of l).
Lemma covered_ok fuel t r l s : covered fuel t r l = true -> all_digits s = true -> acc [t] s = true -> acc [r] s = true -> exists f, In f l /\ applies f s.
Proof.
  unfold covered. intros H D T R. destruct (safe_run _ _ _ _ H s D) as [X|X].
  - rewrite dead_false in X; [discriminate|]. unfold vrun. cbn [map firstn]. repeat constructor; intros E; [unfold acc in T; rewrite E in T|unfold acc in R; rewrite E in R]; discriminate.
  - unfold vrun in X. cbn [map chk_covered] in X. change (nuls (run s [t])) with (acc [t] s) in X. change (nuls (run s [r])) with (acc [r] s) in X. rewrite T, R in X. cbn [andb negb orb] in X. clear H T R.
    induction l as [|f l IH]; [discriminate|]. cbn [flat_map] in X. rewrite map_app in X. unfold pair_of at 1 in X. destruct (rule_lang f) as [[a b]|] eqn:Rl; [|destruct IH as (g & I & Ag); [exact X|]; exists g; split; [right; exact I|exact Ag]].
    destruct (anchorless a && anchorless b) eqn:An; [|destruct IH as (g & I & Ag); [exact X|]; exists g; split; [right; exact I|exact Ag]]. cbn [map app some_pair] in X. apply orb_true_iff in X as [X|X]; [|destruct IH as (g & I & Ag); [exact X|]; exists g; split; [right; exact I|exact Ag]].
    apply andb_true_iff in X as [X1 X2]. apply andb_true_iff in An as [A1 A2]. exists f. split; [left; reflexivity|]. exact (lang_applies f a b s Rl A1 A2 X1 X2 D).
Qed.

(** * The check for one region: what does not depend on the type of the number is looked at first *)
Definition rule_idd (fuel : nat) (r : regex) (m : meta) (f : nfmt) : bool := match rule_lang f with Some (_, b) => idd_free fuel (rule_digits f) [b; r] m | None => false end.
Definition rule_prefix (fuel : nat) (r : regex) (m : meta) (f : nfmt) : bool := match rule_lang f with Some (_, b) => only_prefix fuel (rule_digits f) [b; r] m | None => false end.
Definition rule_once (m : meta) (f : nfmt) : bool := rule_plain f && (is_empty (rule_digits f) || (apart_codes (rule_digits f) (itoa (code_of m)) && negb (is_empty (get_bytes (md_np_parse m))))).
Definition rule_back (fuel : nat) (st : bool) (t r : regex) (m : meta) (x : nfmt * bool * bool) : bool :=
  let '(f, i, q) := x in
  match rule_lang f with
  | Some (a, b) => (if i then true else idd_free fuel (rule_digits f) [t; r; a; b] m) && (if is_empty (rule_digits f) then st else if q then true else only_prefix fuel (rule_digits f) [t; r; a; b] m)
  | None => false
  end.
Definition type_back (fuel : nat) (i0 : bool) (fs : list (nfmt * bool * bool)) (mm m : meta) (r : regex) (d : option desc) : bool :=
  match body (get_d_pattern d) with
  | Some t => let st := stays fuel m m d in forallb (rule_back fuel st t r m) fs && (if st && (if i0 then true else idd_free fuel [] [t; r] m) then true else covered fuel t r (md_nf mm))
  | _ => false
  end.
Definition region_back (fuel : nat) (mm m : meta) (ok : ptype -> bool) : bool :=
  lengths_clear m && forallb (rule_once m) (md_nf mm) &&
  match body (get_d_pattern (md_general m)) with
  | Some r => let i0 := idd_free fuel [] [r] m in
      let fs := map (fun f => (f, (if is_empty (rule_digits f) then i0 else rule_idd fuel r m f), (if is_empty (rule_digits f) then false else rule_prefix fuel r m f))) (md_nf mm) in
      forallb (fun t => negb (ok t) || (let d := the_desc m t in if no_lengths d then true else type_back fuel i0 fs mm m r d)) all_types
  | None => false
  end.
Lemma region_reads C fuel mm m ok s t o : region_back fuel mm m ok = true -> wf_meta m -> has_type m s t -> ok t = true -> all_digits s = true -> printed mm NATIONAL [] s o ->
  (3 <= length s <= 17)%nat /\ exists h b c, o = h ++ b /\ forallb head_char h = true /\ (length h <= 8)%nat /\ neat s b /\ reads C m (filter dig h ++ s) (Means FROM_DEFAULT_COUNTRY (code_of m) s c).
Proof.
  intros H W Ht Ok D (ro & Fa & Po). unfold region_back in H. rewrite !andb_true_iff in H. destruct H as ((H1 & H2) & H3). destruct (lengths_clear_ok m s t W H1 Ht) as [L Sz]. split; [exact L|].
  destruct (type_desc _ _ _ Ht) as (It & Ac & Nl). pose proof (proj1 Ht) as (g & Eg & Lg & Fg). assert (Fm : full_match (general m) s) by exact Fg.
  destruct (body (get_d_pattern (md_general m))) as [r|] eqn:Br; [|discriminate]. rewrite forallb_forall in H3. specialize (H3 t It). rewrite Ok, Nl in H3. cbn [negb orb] in H3. unfold type_back in H3.
  pose proof (digits_ascii _ D) as As. pose proof Ac as (dx & Ed & Ld & Fd). destruct (body (get_d_pattern (the_desc m t))) as [tt|] eqn:Bt; [|discriminate].
  assert (At : acc [tt] s = true) by (apply (body_ok _ _ _ Bt As); exact Fd). assert (Ar : acc [r] s = true) by (apply (body_ok _ _ _ Br As); exact Fg).
  apply andb_true_iff in H3 as [H3 H4].
  assert (St : stays fuel m m (the_desc m t) = true -> exists c, national_part m s s c).
  { intros S0. apply unstripped_part; auto. apply (stays_ok _ _ _ _ _ S0 D Ac). exact Fm. }
  destruct ro as [f|].
  - destruct Fa as (pre & post & El & Ap & _). assert (If : In f (md_nf mm)) by (cbn [rules] in El; rewrite El; apply in_or_app; right; left; reflexivity). rewrite forallb_forall in H2. pose proof (H2 f If) as Ro. unfold rule_once in Ro. apply andb_true_iff in Ro as [Rp Ro].
    destruct Po as (x & tm & Cx & Tm & ->). destruct (rule_shape f x tm s Rp Cx Tm Ap D ltac:(lia)) as (b & -> & Nb & Hh & Lh). rewrite forallb_forall in H3.
    set (fr := (f, (if is_empty (rule_digits f) then idd_free fuel [] [r] m else rule_idd fuel r m f), (if is_empty (rule_digits f) then false else rule_prefix fuel r m f))) in *.
    assert (Ifr : In fr (map (fun f => (f, (if is_empty (rule_digits f) then idd_free fuel [] [r] m else rule_idd fuel r m f), (if is_empty (rule_digits f) then false else rule_prefix fuel r m f))) (md_nf mm))) by (apply in_map_iff; exists f; split; [reflexivity|exact If]).
    specialize (H3 _ Ifr). unfold fr, rule_back in H3. clear Ifr fr. destruct (rule_lang f) as [[la lb]|] eqn:Rl; [|discriminate]. apply andb_true_iff in H3 as [H5 H6]. destruct (rule_lang_ok f la lb s Rl Ap D) as [Aa Ab].
    assert (A4 : forall l, In l [tt; r; la; lb] -> acc [l] s = true) by (intros l [<-|[<-|[<-|[<-|[]]]]]; assumption). assert (A2 : forall l, In l [lb; r] -> acc [l] s = true) by (intros l [<-|[<-|[]]]; assumption). assert (A1 : forall l, In l [r] -> acc [l] s = true) by (intros l [<-|[]]; assumption).
    exists (rule_head f), b. change (filter dig (rule_head f)) with (rule_digits f). set (p := rule_digits f) in *.
    assert (Dp : all_digits p = true) by (unfold p, rule_digits; apply forallb_forall; intros c Ic; apply filter_In in Ic as [_ Ic]; apply dig_iff in Ic; apply is_digit_iff; lia).
    assert (Dps : all_digits (p ++ s) = true) by (rewrite all_digits_app, Dp, D; reflexivity).
    assert (Nd : forall rest, ~ dials_abroad m (p ++ s) rest).
    { destruct p as [|c0 p0] eqn:Ep; cbn [is_empty] in H5.
      - destruct (idd_free fuel [] [r] m) eqn:I0; [exact (idd_free_ok _ _ _ _ _ I0 Dps A1)|exact (idd_free_ok _ _ _ _ _ H5 Dps A4)].
      - destruct (rule_idd fuel r m f) eqn:I0; [|exact (idd_free_ok _ _ _ _ _ H5 Dps A4)]. unfold rule_idd in I0. rewrite Rl in I0. fold p in I0. rewrite Ep in I0. exact (idd_free_ok _ _ _ _ _ I0 Dps A2). }
    assert (Np : exists c, national_part m (p ++ s) s c).
    { destruct p as [|c0 p0] eqn:Ep; cbn [is_empty] in H6; [exact (St H6)|]. cbn [is_empty orb] in Ro. apply andb_true_iff in Ro as [_ Ro]. assert (Nn : get_bytes (md_np_parse m) <> []) by (destruct (get_bytes (md_np_parse m)); [discriminate|discriminate]).
      assert (Ns : s <> []) by (intros E; rewrite E in L; cbn [length] in L; lia).
      destruct (rule_prefix fuel r m f) eqn:I0; [|exact (only_prefix_ok _ _ _ _ _ H6 Nn Dps Ns A4 Fm W)]. unfold rule_prefix in I0. rewrite Rl in I0. fold p in I0. rewrite Ep in I0. exact (only_prefix_ok _ _ _ _ _ I0 Nn Dps Ns A2 Fm W). }
    destruct Np as (c & Np). exists c. split; [reflexivity|]. split; [exact Hh|]. split; [exact Lh|]. split; [exact Nb|]. apply reads_back; auto.
    destruct p as [|c0 p0]; [left; auto|right]. cbn [is_empty orb] in Ro. apply andb_true_iff in Ro as [Ro _]. exact Ro.
  - subst o. cbn [rules] in Fa. destruct (stays fuel m m (the_desc m t) && (if idd_free fuel [] [r] m then true else idd_free fuel [] [tt; r] m)) eqn:Q.
    + apply andb_true_iff in Q as [Q1 Q2]. destruct (St Q1) as (c & Np). exists [], s, c. split; [reflexivity|]. split; [reflexivity|]. split; [cbn [length]; lia|]. split; [apply neat_refl|]. cbn [filter]. apply reads_back; auto.
      destruct (idd_free fuel [] [r] m) eqn:I0; [apply (idd_free_ok _ [] _ _ s I0 D); intros l [<-|[]]; assumption|apply (idd_free_ok _ [] _ _ s Q2 D); intros l [<-|[<-|[]]]; assumption].
    + exfalso. destruct (covered_ok _ _ _ _ _ H4 D At Ar) as (f & If & Ap). exact (Fa f If Ap).
Qed.

(** * The whole text, with an extension *)
Theorem national_text C fuel mm m ok n r t o : wf_container C -> parse_ok C -> marks_known C -> getMetadataForRegion C r = Some m -> wf_meta m -> In mm (map snd (c_region C) ++ map snd (c_nongeo C)) -> region_back fuel mm m ok = true -> ok t = true ->
  has_type m (GetNationalSignificantNumber n) t -> printed mm NATIONAL [] (GetNationalSignificantNumber n) o -> all_digits (ext_of n) = true -> (length (ext_of n) <= 9)%nat ->
  exists n', Parse C (o ++ extension_text mm (ext_of n)) r = Ret (n', None) /\ cc_of n' = code_of m /\ GetNationalSignificantNumber n' = GetNationalSignificantNumber n /\ ext_of n' = ext_of n.
Proof.
  intros W PO MK Em Wm Imm H Ok Ht P De Le. pose proof (nsn_digits n) as D. set (s := GetNationalSignificantNumber n) in *. destruct (region_reads C fuel mm m ok s t o H Wm Ht Ok D P) as (L & h & b & c & -> & Hh & Lh & Nb & R).
  assert (Lf : (length (filter dig h) <= length h)%nat) by (clear; induction h as [|x h IH]; cbn [filter length]; [lia|destruct (dig x); cbn [length]; lia]).
  assert (Dp : all_digits (filter dig h ++ s) = true) by (rewrite all_digits_app, D, andb_true_r; apply forallb_forall; intros x Ix; apply filter_In in Ix as [_ Ix]; apply dig_iff in Ix; apply is_digit_iff; lia).
  destruct (back_parse C r m (filter dig h) s c W PO Em Dp) as (n0 & P0 & E1 & E2 & E3); [rewrite app_length; lia|exact R|].
  assert (Ns : s <> []) by (intros E; rewrite E in L; cbn [length] in L; lia). pose proof Nb as (_ & Lb & _).
  destruct (ext_of n) as [|e0 e] eqn:Ee.
  - cbn [extension_text]. rewrite app_nil_r. exists n0. split; [|split; [exact E1|]; split; [exact E2|unfold ext_of; rewrite E3; reflexivity]].
    apply (core_parse C _ (filter dig h ++ s)); auto. apply shown_core; auto; rewrite app_length; lia.
  - specialize (MK mm Imm). apply existsb_exists in MK as ((q & k) & Iq & Eq). cbn [fst snd] in Eq. apply andb_true_iff in Eq as [Eq Lk]. apply beq_eq in Eq. apply Nat.leb_le in Lk. pose proof (labels_short q k Iq) as [Lq _].
    replace (extension_text mm (e0 :: e)) with (q ++ e0 :: e) by (unfold extension_text; rewrite Eq; destruct (get_bytes (md_extn mm)); reflexivity).
    exists (set_ext n0 (Some (e0 :: e))). split; [|destruct n0; split; [exact E1|]; split; [exact E2|reflexivity]].
    apply (core_parse_ext C _ (filter dig h ++ s)); auto; [discriminate|]. apply (shown_core_ext C h s b r q k (e0 :: e)); auto; [rewrite app_length; lia|cbn [length] in *; lia|rewrite !app_length; cbn [length] in *; lia].
Qed.
