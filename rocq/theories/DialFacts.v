(** Proofs about dialling from a mobile phone, keeping letters and formatting by given rules. *)
From Verif Require Import Base BaseFacts Utf8 Utf8Facts Regex RegexSpec RegexFacts Consts Types Normalize NormalizeSpec NormalizeFacts Validate Format Parse
  NumberSpec NumberFacts MetaSpec ValidateSpec ValidateFacts Container Shipped MetaFacts FormatSpec TextFacts LangFacts FormatFacts FormatMore DerivFacts RoundTripFacts
  RuleSpec RuleFacts RuleMore ParseFacts ReadSpec ReadFacts ReadMore ExtSpec ExtFacts DialSpec.
Local Opaque compile re_find re_replace_all.

(** * Dialling from a mobile phone *)
Lemma line_iff t : ptype_eqb t FIXED_LINE || ptype_eqb t MOBILE || ptype_eqb t FIXED_LINE_OR_MOBILE = true <-> line t.
Proof. unfold line. destruct t; cbn; split; intros H; auto; try discriminate; destruct H as [H|[H|H]]; discriminate. Qed.
Lemma needs_iff r t : beq r r_BR && (ptype_eqb t FIXED_LINE || ptype_eqb t MOBILE || ptype_eqb t FIXED_LINE_OR_MOBILE) = true <-> needs_carrier r t.
Proof. unfold needs_carrier. rewrite andb_true_iff, beq_eq, line_iff. reflexivity. Qed.
Lemma dialled_iff r t : beq r nonGeoEntity || ((beq r r_MX || beq r r_CL || beq r r_UZ) && (ptype_eqb t FIXED_LINE || ptype_eqb t MOBILE || ptype_eqb t FIXED_LINE_OR_MOBILE)) = true <-> dialled_internationally r t.
Proof. unfold dialled_internationally. rewrite orb_true_iff, andb_true_iff, !orb_true_iff, !beq_eq, <- !orb_true_iff, line_iff. change nonGeoEntity with (bs "001"). change r_MX with (bs "MX"). change r_CL with (bs "CL"). change r_UZ with (bs "UZ"). tauto. Qed.
Lemma same_region_spec C n r rest t s : assocz (cc_of n) (c_cc2region C) = Some (r :: rest) -> (cc_of n = 1%Z -> getMetadataForRegion C r = getMetadataForRegionOrCallingCode C 1 r) ->
  mobile_same_region C n r t = Ret s -> home_text C n r t s.
Proof.
  intros A Us H. unfold mobile_same_region in H. cbv zeta in H. assert (Er : GetRegionCodeForCountryCode C (cc_of n) = r).
  { unfold GetRegionCodeForCountryCode, regions_of. rewrite A. reflexivity. }
  assert (V : hasValidCountryCallingCode C (cc_of n) = true) by (unfold hasValidCountryCallingCode; rewrite A; reflexivity).
  unfold home_text. destruct (beq r r_BR && _) eqn:B.
  { apply needs_iff in B. split; [intros _|tauto]. unfold FormatNationalNumberWithPreferredCarrierCode in H. destruct (is_empty (get_carrier n)); cbn [negb] in H; [inv H; reflexivity|exact H]. }
  assert (Nb : ~ needs_carrier r t) by (rewrite <- needs_iff, B; discriminate). split; [tauto|].
  assert (Ptest : cc_of n = 1%Z -> IsPossibleNumberForTypeWithReason C n UNKNOWN = testNumberLength (GetNationalSignificantNumber n) (getMetadataForRegion C r) UNKNOWN).
  { intros E1. unfold IsPossibleNumberForTypeWithReason. change (get_cc n) with (cc_of n). rewrite V. cbn [negb]. rewrite Er, E1, (Us E1). reflexivity. }
  destruct (Z.eqb_spec (get_cc n) nanpaCountryCode) as [E1|E1].
  { split; [intros _ _|split; [intros _ X; change nanpaCountryCode with 1%Z in E1; contradiction..]]. rewrite (Ptest E1). destruct (CanBeInternationallyDialled C n) as [[]| |]; cbn [bind] in H; try discriminate.
    - destruct (testNumberLength _ _ _) as [v| |]; cbn [bind] in H; try discriminate. destruct (vresult_eqb v TOO_SHORT) eqn:Ev; cbn [negb] in H.
      + split; [|auto]. intros _ X. exfalso. apply X. destruct v; try discriminate. reflexivity.
      + split; [auto|]. intros [X|X]; [discriminate|]. injection X as ->. discriminate.
    - split; [discriminate|auto]. }
  split; [intros _ X; change nanpaCountryCode with 1%Z in E1; contradiction|]. destruct (beq r nonGeoEntity || _) eqn:D.
  { apply dialled_iff in D. split; [intros _ _ _|tauto]. destruct (CanBeInternationallyDialled C n) as [[]| |]; cbn [bind] in H; try discriminate; split; auto; discriminate. }
  assert (Nd : ~ dialled_internationally r t) by (rewrite <- dialled_iff, D; discriminate). split; [tauto|auto].
Qed.
Lemma mobile_home C n pretty r rest : wf_container C -> nanpa_ok C -> assocz (cc_of n) (c_cc2region C) = Some (r :: rest) -> (cc_of n = 1%Z -> r <> bs "001") ->
  exists t s, GetNumberType C (without_extension n) = Ret t /\ home_text C (without_extension n) r t s /\
    FormatNumberForMobileDialing C n r pretty = Ret (if pretty then s else filter diallable s).
Proof.
  intros W NO A Us. assert (Er : GetRegionCodeForCountryCode C (cc_of n) = r) by (unfold GetRegionCodeForCountryCode, regions_of; rewrite A; reflexivity).
  assert (V : hasValidCountryCallingCode C (cc_of n) = true) by (unfold hasValidCountryCallingCode; rewrite A; reflexivity).
  destruct (type_total C (without_extension n) W) as (t & Et). pose proof (mobile_same_total C (without_extension n) t W NO V) as (s & Es).
  change (GetRegionCodeForCountryCode C (get_cc (without_extension n))) with (GetRegionCodeForCountryCode C (cc_of n)) in Es. rewrite Er in Es.
  exists t, s. split; [exact Et|]. split.
  - apply (same_region_spec C (without_extension n) r rest t s A); [|exact Es]. intros E1. unfold getMetadataForRegionOrCallingCode. destruct (beq nonGeoEntity r) eqn:B; [|reflexivity]. apply beq_eq in B. exfalso. apply (Us E1). symmetry. exact B.
  - unfold FormatNumberForMobileDialing. change (get_cc n) with (cc_of n). rewrite V, Er. cbn [negb]. cbv zeta. fold (without_extension n). rewrite Et. cbn [bind]. rewrite (proj2 (beq_eq r r) eq_refl), Es. cbn [bind]. rewrite NormalizeDiallableCharsOnly_spec. reflexivity.
Qed.
Lemma mobile_abroad C n pretty from r rest : wf_container C -> assocz (cc_of n) (c_cc2region C) = Some (r :: rest) -> from <> r ->
  exists t d, GetNumberType C (without_extension n) = Ret t /\ CanBeInternationallyDialled C (without_extension n) = Ret d /\
    (t <> UNKNOWN -> d = true -> FormatNumberForMobileDialing C n from pretty = Format C (without_extension n) (if pretty then INTERNATIONAL else E164)) /\
    (t = UNKNOWN \/ d = false -> FormatNumberForMobileDialing C n from pretty = Ret []).
Proof.
  intros W A Nf. assert (Er : GetRegionCodeForCountryCode C (cc_of n) = r) by (unfold GetRegionCodeForCountryCode, regions_of; rewrite A; reflexivity).
  assert (V : hasValidCountryCallingCode C (cc_of n) = true) by (unfold hasValidCountryCallingCode; rewrite A; reflexivity).
  destruct (type_total C (without_extension n) W) as (t & Et). destruct (dialled_total C (without_extension n) W) as (d & Ed). exists t, d. split; [exact Et|]. split; [exact Ed|].
  unfold FormatNumberForMobileDialing. change (get_cc n) with (cc_of n). rewrite V, Er. cbn [negb]. cbv zeta. fold (without_extension n). rewrite Et. cbn [bind].
  destruct (beq from r) eqn:B; [apply beq_eq in B; congruence|]. rewrite Ed. split.
  - intros Nu ->. replace (ptype_eqb t UNKNOWN) with false by (destruct t; auto; congruence). cbn [negb bind]. destruct pretty; reflexivity.
  - intros X. assert (E0 : Ret (if pretty then [] else NormalizeDiallableCharsOnly []) = Ret ([] : bytes)) by (destruct pretty; reflexivity). destruct X as [->| ->]; [exact E0|]. destruct (negb _); cbn [bind]; exact E0.
Qed.
(** * Keeping letters *)
Definition alpha_re : re := Eval vm_compute in force (compile (bs "(\d+)(.*)")).
Lemma alpha_compile : compile (bs "(\d+)(.*)") = Some alpha_re. Proof. vm_compute. reflexivity. Qed.
Definition dig_cls : cls := {| cneg := false; citems := d_items; cfold := false |}.
Lemma alpha_shape : re_ast alpha_re = RCat (RGroup 1 (plus_re dig_cls)) (RGroup 2 (RStar true (RClass any_not_nl))). Proof. vm_compute. reflexivity. Qed.
Lemma star_some a (kk : cont) p s cs : (forall p s cs, kk p s cs <> None) -> rmatch (RStar true a) kk p s cs <> None.
Proof.
  intros K. rewrite rmatch_star, star_loop_S.
  match goal with |- match ?x with _ => _ end <> None => destruct x; [discriminate|apply K] end.
Qed.
Lemma run_all P s : forallb P s = true -> TextFacts.run P s = length s.
Proof. induction s as [|c t IH]; intros H; [reflexivity|]. cbn [forallb] in H. apply andb_true_iff in H as [H1 H2]. cbn [TextFacts.run length]. rewrite H1, IH; auto. Qed.
Lemma any_ok s : ~ In 10 s -> forallb (cls_match any_not_nl) s = true.
Proof.
  intros H. apply forallb_forall. intros c I. unfold cls_match, any_not_nl, items_match, citem_match. cbn [cneg cfold citems existsb]. rewrite orb_false_r. apply negb_true_iff. apply not_true_iff_false.
  intros E. apply andb_true_iff in E as [E1 E2]. apply N.leb_le in E1, E2. assert (c = 10) by lia. subst c. auto.
Qed.
Lemma dig_ok c : cls_match dig_cls c = is_digit c.
Proof. unfold cls_match, dig_cls, items_match, citem_match, d_items. cbn [cneg cfold citems existsb]. rewrite orb_false_r. reflexivity. Qed.
Lemma run_ext P Q s : (forall c, P c = Q c) -> TextFacts.run P s = TextFacts.run Q s.
Proof. intros H. induction s as [|c t IH]; [reflexivity|]. cbn [TextFacts.run]. rewrite H, IH. reflexivity. Qed.
Lemma alpha_rmatch p s : ascii s -> ~ In 10 s -> rmatch (re_ast alpha_re) final p s [] =
  if (TextFacts.run is_digit s =? 0)%nat then None else Some ((p + length s)%nat, [(2, ((p + TextFacts.run is_digit s), (p + length s))); (1, (p, p + TextFacts.run is_digit s))]%nat).
Proof.
  intros A Nl. rewrite alpha_shape.
  change (rmatch (plus_re dig_cls) (fun p' s' cs' => rmatch (RStar true (RClass any_not_nl)) (fun p'' s'' cs'' => final p'' s'' ((2, (p', p''))%nat :: cs'')) p' s' ((1, (p, p'))%nat :: cs')) p s [] =
    if (TextFacts.run is_digit s =? 0)%nat then None else Some ((p + length s)%nat, [(2, ((p + TextFacts.run is_digit s), (p + length s))); (1, (p, p + TextFacts.run is_digit s))]%nat)).
  rewrite plus_rmatch; [|intros; apply star_some; unfold final; discriminate|auto]. rewrite (run_ext _ _ s dig_ok). set (r := TextFacts.run is_digit s).
  destruct (r =? 0)%nat; [reflexivity|]. pose proof (run_le is_digit s) as L. fold r in L.
  change (rmatch (RStar true (RClass any_not_nl)) (fun p' s' cs' => final p' s' ((2, ((p + r), p'))%nat :: cs')) (p + r) (skipn r s) [(1, (p, (p + r)))%nat] = Some ((p + length s)%nat, [(2, ((p + r), (p + length s))); (1, (p, p + r))]%nat)).
  rewrite rmatch_star, star_class; [|unfold final; discriminate|apply ascii_skipn; auto|unfold len; lia].
  rewrite (run_all (cls_match any_not_nl)), skipn_length by (apply any_ok; intros I; apply skipn_In in I; auto). unfold final. replace (p + r + (length s - r))%nat with (p + length s)%nat by lia. reflexivity.
Qed.
Lemma alpha_search : forall f p s, ascii s -> ~ In 10 s -> (length s <= f)%nat ->
  (search f (re_ast alpha_re) p s = None /\ filter is_digit s = []) \/
  (exists a d b, s = a ++ d ++ b /\ filter is_digit a = [] /\ d <> [] /\ all_digits d = true /\ match b with c :: _ => is_digit c = false | [] => True end /\
     search f (re_ast alpha_re) p s = Some {| m_start := p + length a; m_end := p + length s; m_caps := [(2, ((p + length a + length d), (p + length s))); (1, (p + length a, p + length a + length d))] |}%nat).
Proof.
  induction f as [|f IH]; intros p s A Nl L; cbn [search]; rewrite alpha_rmatch by auto.
  - destruct s; [|simpl in L; lia]. left. split; reflexivity.
  - destruct (TextFacts.run is_digit s =? 0)%nat eqn:Z.
    + destruct s as [|c t]; [left; split; reflexivity|]. apply ascii_tl in A as [A1 A2]. rewrite decode_ascii by auto. apply Nat.eqb_eq in Z. cbn [TextFacts.run] in Z. destruct (is_digit c) eqn:D; [discriminate|].
      replace (len (c :: t) - len t)%nat with 1%nat by (unfold len; simpl length; lia).
      destruct (IH (p + 1)%nat t A2 ltac:(intros I; apply Nl; right; auto) ltac:(simpl in L; lia)) as [[E1 E2]|(a & d & b & E & Fa & Nd & Dd & Hb & E1)].
      * left. split; [auto|]. cbn [filter]. rewrite D. auto.
      * right. exists (c :: a), d, b. split; [rewrite E; reflexivity|]. split; [cbn [filter]; rewrite D; auto|]. split; [auto|]. split; [auto|]. split; [auto|]. rewrite E1.
        cbn [length]. replace (p + S (length a))%nat with (p + 1 + length a)%nat by lia. replace (p + S (length t))%nat with (p + 1 + length t)%nat by lia. reflexivity.
    + right. apply Nat.eqb_neq in Z. destruct (run_split is_digit s) as (E & D & T). exists [], (firstn (TextFacts.run is_digit s) s), (skipn (TextFacts.run is_digit s) s).
      pose proof (run_le is_digit s) as Lr. assert (Ld : length (firstn (TextFacts.run is_digit s) s) = TextFacts.run is_digit s) by (rewrite firstn_length; lia).
      split; [exact E|]. split; [reflexivity|]. split; [intros X; rewrite X in Ld; simpl in Ld; lia|]. split; [exact D|]. split; [destruct T as [->|(x & t & -> & Hx)]; auto|].
      rewrite Ld. cbn [length]. rewrite Nat.add_0_r. reflexivity.
Qed.
Lemma sub_mid (a d b : bytes) : sub (a ++ d ++ b) (length a) (length a + length d) = d.
Proof. unfold sub. rewrite skipn_app, skipn_all, Nat.sub_diag. cbn [skipn app]. replace (length a + length d - length a)%nat with (length d) by lia. rewrite firstn_app, firstn_all, Nat.sub_diag. apply app_nil_r. Qed.
Lemma sub_end (a b : bytes) : sub (a ++ b) (length a) (length (a ++ b)) = b.
Proof. unfold sub. rewrite skipn_app, skipn_all, Nat.sub_diag. cbn [skipn app]. rewrite app_length. replace (length a + length b - length a)%nat with (length b) by lia. apply firstn_all. Qed.
Lemma alpha_replace s repl : ascii s -> ~ In 10 s ->
  (filter is_digit s = [] /\ re_replace_func alpha_re s repl = s) \/
  (exists a d b m, s = a ++ d ++ b /\ filter is_digit a = [] /\ d <> [] /\ all_digits d = true /\ match b with c :: _ => is_digit c = false | [] => True end /\
     group_str s m 1 = d /\ group_str s m 2 = b /\ re_replace_func alpha_re s repl = a ++ repl m).
Proof.
  intros A Nl. unfold re_replace_func.
  assert (L1 : forall f le sp, replace_loop (S f) alpha_re s repl le sp =
    if (len s <? sp)%nat then skipn le s else
      match find_from alpha_re s sp with
      | None => skipn le s
      | Some m =>
          sub s le (m_start m) ++ (if (le <? m_end m)%nat || (m_start m =? 0)%nat then repl m else []) ++
          replace_loop f alpha_re s repl (m_end m) (if (m_end m <? sp + rune_width_at s sp)%nat then (sp + rune_width_at s sp)%nat
                      else if (m_end m <? sp + 1)%nat then (sp + 1)%nat else m_end m)
      end) by reflexivity.
  rewrite L1. change (Nat.ltb (len s) 0) with false. cbv iota.
  assert (Ff : find_from alpha_re s 0 = search (len s - 0) (re_ast alpha_re) 0 s) by (unfold find_from; rewrite skipn_O; reflexivity). rewrite Ff.
  destruct (alpha_search (len s - 0) 0 s A Nl ltac:(unfold len; lia)) as [[-> E2]|(a & d & b & E & Fa & Nd & Dd & Hb & E1)]; [left; split; auto|].
  right. rewrite E1. eexists a, d, b, _. split; [exact E|]. split; [exact Fa|]. split; [exact Nd|]. split; [exact Dd|]. split; [exact Hb|]. cbn [m_start m_end]. cbn [Nat.add] in *.
  assert (G1 : forall m, m_caps m = [(2, (length a + length d, length s)); (1, (length a, length a + length d))]%nat -> group_str s m 1 = d /\ group_str s m 2 = b).
  { intros m Em. unfold group_str, group. rewrite Em. cbn [assoc Nat.eqb]. rewrite E. split; [apply sub_mid|]. rewrite app_assoc, <- app_length. apply sub_end. }
  set (m := {| m_start := length a; m_end := length s; m_caps := [(2, (length a + length d, length s)); (1, (length a, length a + length d))]%nat |}).
  destruct (G1 m eq_refl) as [H1 H2]. split; [exact H1|]. split; [exact H2|].
  assert (Ls : (0 < length s)%nat) by (rewrite E, !app_length; destruct d; [congruence|]; cbn [length]; lia).
  assert (Lt : (0 <? length s)%nat = true) by (apply Nat.ltb_lt; lia). change (len s) with (length s). rewrite Lt. cbn [orb].
  assert (W : (rune_width_at s 0 <= length s)%nat). { unfold rune_width_at. rewrite skipn_O. destruct (decode_rune s) as [[? ?]|]; unfold len; lia. }
  replace (length s <? rune_width_at s 0)%nat with false by (symmetry; apply Nat.ltb_ge; lia). replace (length s <? 1)%nat with false by (symmetry; apply Nat.ltb_ge; lia).
  replace (sub s 0 (length a)) with a. 2:{ unfold sub. rewrite skipn_O, Nat.sub_0_r, E, firstn_app, firstn_all, Nat.sub_diag. cbn [firstn]. rewrite app_nil_r. reflexivity. }
  f_equal. replace (replace_loop (S (length s)) alpha_re s repl (length s) (length s)) with ([] : bytes); [apply app_nil_r|].
  symmetry. rewrite L1. change (len s) with (length s). rewrite Nat.ltb_irrefl. unfold find_from. change (len s) with (length s). rewrite Nat.sub_diag, skipn_all. cbn [search]. rewrite alpha_rmatch by (constructor || intros []). cbn [TextFacts.run Nat.eqb]. reflexivity.
Qed.
(** What is kept *)
Lemma kept_map c : kept_rune c = match allPlusNumberGroupingSymbols (to_upper c) with Some d => [d] | None => [] end.
Proof.
  unfold kept_rune, allPlusNumberGroupingSymbols, to_upper. destruct (in_rng 97 122 c) eqn:L.
  - apply in_rng_iff in L. assert (E1 : is_digit c = false) by (apply not_true_iff_false; rewrite is_digit_iff; lia). assert (E2 : in_rng 65 90 c = false) by (apply in_rng_false; lia).
    rewrite E1, E2. replace (c =? 43) with false by lia. replace (c =? 42) with false by lia. cbn [orb].
    replace (in_rng 65 90 (c - 32)) with true by (symmetry; apply in_rng_iff; lia). rewrite !orb_true_r. reflexivity.
  - destruct (N.eqb_spec c 305) as [->|N1]; [reflexivity|]. destruct (N.eqb_spec c 383) as [->|N2]; [reflexivity|]. rewrite L.
    assert (Q : is_digit c || in_rng 65 90 c || (c =? 43) || (c =? 42) = is_digit c || (c =? 43) || (c =? 42) || in_rng 65 90 c) by (destruct (is_digit c), (in_rng 65 90 c), (c =? 43), (c =? 42); reflexivity). rewrite Q. clear Q.
    destruct (is_digit c || (c =? 43) || (c =? 42) || in_rng 65 90 c); [reflexivity|].
    assert (Q2 : (c =? 45) || in_rng 8208 8213 c || (c =? 8722) || (c =? 65293) = (c =? 45) || (c =? 65293) || in_rng 8208 8213 c || (c =? 8722)) by (destruct (c =? 45), (c =? 65293), (in_rng 8208 8213 c), (c =? 8722); reflexivity). rewrite Q2. clear Q2.
    destruct ((c =? 45) || (c =? 65293) || in_rng 8208 8213 c || (c =? 8722)); [reflexivity|]. destruct ((c =? 47) || (c =? 65295)); [reflexivity|].
    assert (Q3 : (c =? 32) || (c =? 8288) || (c =? 12288) = (c =? 32) || (c =? 12288) || (c =? 8288)) by (destruct (c =? 32), (c =? 8288), (c =? 12288); reflexivity). rewrite Q3. clear Q3.
    destruct ((c =? 32) || (c =? 12288) || (c =? 8288)); [reflexivity|]. destruct ((c =? 46) || (c =? 65294)); reflexivity.
Qed.
Lemma kept_plain c d : In d (kept_rune c) -> is_digit d = true \/ 65 <= d <= 90 \/ In d (bs "+*-/ .").
Proof.
  change (bs "+*-/ .") with [43; 42; 45; 47; 32; 46]. unfold kept_rune. change (bs "I") with [73]. change (bs "S") with [83]. change (bs "-") with [45]. change (bs "/") with [47]. change (bs " ") with [32]. change (bs ".") with [46].
  destruct (is_digit c || in_rng 65 90 c || (c =? 43) || (c =? 42)) eqn:E.
  - intros [<-|[]]. rewrite !orb_true_iff, in_rng_iff, !N.eqb_eq in E. destruct E as [[[E|E]|E]|E]; [auto|auto|right; right|right; right]; subst; cbn; auto.
  - destruct (in_rng 97 122 c) eqn:L; [apply in_rng_iff in L; intros [<-|[]]; right; left; lia|].
    repeat match goal with |- In d (if ?b then _ else _) -> _ => destruct b; [intros [<-|[]]; cbn; intuition lia|] end. intros [].
Qed.
Lemma kept_chars raw d : In d (kept_text raw) -> is_digit d = true \/ 65 <= d <= 90 \/ In d (bs "+*-/ .").
Proof. intros I. apply in_flat_map in I as (c & _ & I). eapply kept_plain; eauto. Qed.
Lemma kept_small raw d : In d (kept_text raw) -> d < 128 /\ d <> 10 /\ d <> 35.
Proof. intros I. apply kept_chars in I as [I|[I|I]]; [apply is_digit_iff in I; lia|lia|]. change (bs "+*-/ .") with [43; 42; 45; 47; 32; 46] in I. cbn in I. intuition lia. Qed.
Lemma helper_kept raw : normalizeHelper raw allPlusNumberGroupingSymbols true = kept_text raw.
Proof.
  unfold normalizeHelper. replace (flat_map _ (runes raw)) with (kept_text raw).
  - apply encode_ascii. apply Forall_forall. intros d I. apply kept_small in I. lia.
  - unfold kept_text. apply flat_map_ext. intros c. apply kept_map.
Qed.
Definition trimmed (raw nsn : bytes) : bytes :=
  if (3 <? len nsn)%nat then match index_of raw (firstn 3 nsn) with Some i => skipn i raw | None => raw end else raw.
Lemma trimmed_kept raw nsn : kept raw nsn (trimmed (kept_text raw) nsn).
Proof.
  unfold kept, trimmed. change (len nsn) with (length nsn). destruct (Nat.leb_spec (length nsn) 3) as [L|L].
  - replace (3 <? length nsn)%nat with false by (symmetry; apply Nat.ltb_ge; lia). reflexivity.
  - replace (3 <? length nsn)%nat with true by (symmetry; apply Nat.ltb_lt; lia). set (d := firstn 3 nsn). set (s := kept_text raw). clearbody d s. unfold from_first.
    destruct (index_of s d) as [i|] eqn:E.
    + left. exists (firstn i s). destruct (index_of_some _ _ _ E) as (t & H1 & H2). unfold len in H2. split; [symmetry; apply firstn_skipn|]. split.
      * exists t. rewrite <- (firstn_skipn i s) in H1 at 1. apply app_inv_head in H1. exact H1.
      * intros a' b' Es. rewrite firstn_length. destruct (Nat.le_gt_cases i (length a')) as [Q|Q]; [lia|]. exfalso. pose proof (index_of_first _ _ _ E _ Q) as F. rewrite Es, skipn_app, skipn_all, Nat.sub_diag in F. cbn [skipn app] in F.
        rewrite (proj2 (has_prefix_iff (d ++ b') d)) in F by eauto. discriminate.
    + right. split; [reflexivity|]. intros a b Es. pose proof (index_of_none _ _ E (length a)) as F. rewrite Es, skipn_app, skipn_all, Nat.sub_diag in F. cbn [skipn app] in F.
      rewrite (proj2 (has_prefix_iff (d ++ b) d)) in F by eauto. discriminate.
Qed.
Lemma trimmed_in raw nsn d : In d (trimmed raw nsn) -> In d raw.
Proof. unfold trimmed. destruct (_ <? _)%nat; [|auto]. destruct (index_of _ _); [apply skipn_In|auto]. Qed.
Lemma trimmed_ascii raw nsn : ascii (trimmed (kept_text raw) nsn).
Proof. apply Forall_forall. intros d I. apply trimmed_in, kept_small in I. lia. Qed.
Lemma trimmed_line raw nsn : ~ In 10 (trimmed (kept_text raw) nsn).
Proof. intros I. apply trimmed_in, kept_small in I. lia. Qed.
(** The national prefix rule around it *)
Lemma keep_alpha_fine f : rule_fine f = true -> rule_fine (keep_alpha_format f) = true.
Proof.
  unfold rule_fine. rewrite !andb_true_iff. intros (((H1 & H2) & H3) & H4). cbn [keep_alpha_format nf_leading]. unfold get_pattern, get_npfr, get_format, get_dccfr in *. cbn [keep_alpha_format nf_pattern nf_format nf_npfr nf_dccfr get_bytes].
  assert (T : token_found (bs "$1$2") = true) by (vm_compute; reflexivity).
  rewrite T. cbn [andb]. split; [split; [split; [vm_compute; reflexivity|auto]|]|].
  - destruct (is_empty _); [reflexivity|]. cbn [orb] in *. apply andb_true_iff in H3 as [_ H3]. exact H3.
  - destruct (is_empty (get_bytes (nf_dccfr f))); [reflexivity|]. cbn [orb] in *. apply andb_true_iff in H4 as [_ H4]. exact H4.
Qed.
Local Opaque compile re_find.
Lemma ref_two : extract_ref [50] = Some (Some 2%nat, []). Proof. vm_compute. reflexivity. Qed.
Lemma expand_both u v s m : ~ In 36 u -> ~ In 36 v -> match v with c :: _ => word_char c = false | [] => True end ->
  expand_template (u ++ 36 :: 49 :: v ++ [36; 50]) s m = u ++ group_str s m 1 ++ v ++ group_str s m 2.
Proof.
  intros Hu Hv Hw. unfold expand_template. assert (E : S (len (u ++ 36 :: 49 :: v ++ [36; 50])) = (length u + (S (S (S (length v + 2)))))%nat) by (unfold len; rewrite app_length; cbn [length]; rewrite app_length; cbn [length]; lia).
  rewrite E, expand_copy by auto. f_equal. rewrite expand_S. change (36 =? 36) with true. cbv iota. rewrite ref_one_then by (destruct v; [reflexivity|exact Hw]). f_equal.
  replace (S (S (length v + 2))) with (length v + 4)%nat by lia. rewrite expand_copy by auto. f_equal. rewrite expand_S. change (36 =? 36) with true. cbv iota. rewrite ref_two. rewrite expand_nil. apply app_nil_r.
Qed.
Lemma alpha_wrapped f k : rule_fine f = true -> ascii k -> ~ In 10 k -> exists t, formatNsnUsingPattern k (keep_alpha_format f) NATIONAL = Ret t /\ wrapped (get_npfr f) k t.
Proof.
  intros R A Nl. destruct (template_ok (keep_alpha_format f) NATIONAL [] k (keep_alpha_fine f R)) as (x & t & Cx & T & E); [intros []|discriminate|].
  unfold get_pattern in Cx. cbn [keep_alpha_format nf_pattern get_bytes] in Cx. rewrite alpha_compile in Cx. injection Cx as <-. exists (re_replace_all alpha_re k t). split; [exact E|]. clear E.
  cbn [template is_empty negb andb] in T. change (get_format (keep_alpha_format f)) with [36; 49; 36; 50] in T. change (get_npfr (keep_alpha_format f)) with (get_npfr f) in T.
  Local Transparent re_replace_all. unfold re_replace_all. unfold wrapped.
  destruct (alpha_replace k (fun m => expand_template t k m) A Nl) as [[Nd ->]|(a & d & b & m & Ek & Fa & Nd & Dd & Hb & G1 & G2 & ->)]; [left; auto|].
  destruct (is_empty (get_npfr f)) eqn:Ne.
  - left. split; [left; destruct (get_npfr f); [reflexivity|discriminate]|]. subst t. change [36; 49; 36; 50] with ([] ++ 36 :: 49 :: [] ++ [36; 50]). rewrite expand_both by (auto; intros []). rewrite G1, G2. cbn [app]. symmetry. exact Ek.
  - right. destruct T as (a' & d' & b' & u & v & Ef & Dd' & Na & Er & Nu & Nv & Hv & ->).
    assert (Q : a' = [] /\ d' :: b' = [49; 36; 50]). { apply first_dollar; [exact Na|intros []|]. symmetry. exact Ef. }
    destruct Q as [-> Q]. injection Q as -> ->. exists u, v, a, d, b. split; [exact Er|]. split; [exact Nu|]. split; [exact Nv|]. split; [exact Ek|]. split; [exact Fa|]. split; [exact Nd|]. split; [exact Dd|]. split; [exact Hb|].
    cbn [app]. rewrite expand_both by auto. rewrite G1, G2. rewrite <- ?app_assoc. reflexivity.
Qed.
Local Opaque re_replace_all.
(** What is taken for an extension *)
Fixpoint can_be_empty (r : regex) : bool := match r with
  | REmpty | RStar _ _ | RBegin | REnd => true
  | RClass _ => false
  | RCat a b => can_be_empty a && can_be_empty b
  | RAlt a b => can_be_empty a || can_be_empty b
  | RGroup _ a => can_be_empty a
  end.
Fixpoint last_classes (r : regex) : list cls := match r with
  | REmpty | RBegin | REnd => []
  | RClass k => [k]
  | RCat a b => last_classes b ++ (if can_be_empty b then last_classes a else [])
  | RAlt a b => last_classes a ++ last_classes b
  | RStar _ a | RGroup _ a => last_classes a
  end.
Lemma can_be_empty_ok r w : lang r w -> w = [] -> can_be_empty r = true.
Proof.
  induction 1; intros E; cbn [can_be_empty]; auto; try discriminate.
  - apply app_eq_nil in E as [-> ->]. rewrite IHlang1, IHlang2; auto.
  - rewrite IHlang; auto.
  - rewrite IHlang, orb_true_r; auto.
Qed.
Lemma last_classes_ok r w : lang r w -> forall v c, w = v ++ [c] -> exists k, In k (last_classes r) /\ cls_match k c = true.
Proof.
  assert (Q : forall (a b v : list N) c, a ++ b = v ++ [c] -> (b = [] /\ a = v ++ [c]) \/ exists b', b = b' ++ [c]).
  { intros a b v c E. destruct b as [|x b'] using rev_ind; [rewrite app_nil_r in E; auto|]. right. rewrite app_assoc in E. apply app_inj_tail in E as [_ ->]. eauto. }
  induction 1; intros x c0 E; cbn [last_classes].
  - destruct x; discriminate.
  - destruct x as [|y [|? ?]]; [|discriminate|discriminate]. injection E as ->. exists k. split; [left|]; auto.
  - apply Q in E as [[-> E]|(w' & E)].
    + destruct (IHlang1 _ _ E) as (k & I & M). rewrite (can_be_empty_ok _ _ H0 eq_refl). exists k. split; [apply in_or_app; auto|auto].
    + destruct (IHlang2 _ _ E) as (k & I & M). exists k. split; [apply in_or_app; auto|auto].
  - destruct (IHlang _ _ E) as (k & I & M). exists k. split; [apply in_or_app; auto|auto].
  - destruct (IHlang _ _ E) as (k & I & M). exists k. split; [apply in_or_app; auto|auto].
  - destruct x; discriminate.
  - apply Q in E as [[-> E]|(w' & E)]; [eapply IHlang1; eauto|eapply IHlang2; eauto].
  - eauto.
  - destruct x; discriminate.
  - destruct x; discriminate.
Qed.
Lemma ext_lasts : forallb (fun k => forallb (fun n => let c := N.of_nat n in negb (cls_match k c) || is_digit c || (c =? 35)) (seq 0 128)) (last_classes (re_ast extnPattern)) = true.
Proof. vm_compute. reflexivity. Qed.
Lemma ext_anchored : ends_anchored (re_ast extnPattern) = true. Proof. vm_compute. reflexivity. Qed.
Lemma strip_kept raw nsn : let k := trimmed (kept_text raw) nsn in exists tail, k = fst (maybeStripExtension k) ++ tail /\ (tail = [] \/ exists a d, tail = a ++ [d] /\ is_digit d = true).
Proof.
  intros k. unfold maybeStripExtension. destruct (re_find extnPattern k) as [m|] eqn:F; [|exists []; cbn [fst]; rewrite app_nil_r; auto].
  destruct (isViablePhoneNumber _); [|exists []; cbn [fst]; rewrite app_nil_r; auto].
  match goal with |- context [match ?l with [] => _ | _ => _ end] => destruct l as [|e l'] end; [exists []; cbn [fst]; rewrite app_nil_r; auto|]. cbn [fst].
  exists (skipn (m_start m) k). split; [symmetry; apply firstn_skipn|]. assert (A : ascii (skipn (m_start m) k)) by (apply ascii_skipn, trimmed_ascii).
  assert (Nh : ~ In 35 (skipn (m_start m) k)) by (intros I; apply skipn_In, trimmed_in, kept_small in I; lia).
  apply re_find_sound in F as (_ & _ & D & _). pose proof (ends_derives _ _ _ _ _ _ _ D ext_anchored) as E0. apply derives_lang in D as (w & E & L). rewrite E0 in E. apply eats_ascii in E; [|exact A]. rewrite app_nil_r in E.
  rewrite <- E in L. clear E E0. destruct (skipn (m_start m) k) as [|x tl] using rev_ind; [auto|]. clear IHtl. right. exists tl, x. split; [reflexivity|].
  destruct (last_classes_ok _ _ L tl x eq_refl) as (c & Ic & M). pose proof ext_lasts as H. rewrite forallb_forall in H. specialize (H c Ic). rewrite forallb_forall in H.
  assert (Lx : x < 128) by (unfold ascii in A; rewrite Forall_forall in A; apply A; apply in_or_app; right; left; reflexivity).
  specialize (H (N.to_nat x)). cbv zeta in H. rewrite N2Nat.id, M in H. cbn [negb orb] in H. assert (Is : In (N.to_nat x) (seq 0 128)) by (apply in_seq; lia). apply H in Is. apply orb_true_iff in Is as [Is|Is]; [exact Is|]. apply N.eqb_eq in Is. subst x. exfalso. apply Nh. apply in_or_app. right. left. reflexivity.
Qed.
(** ** The whole function *)
Lemma strip_cut raw nsn : cut_extension (trimmed (kept_text raw) nsn) (fst (maybeStripExtension (trimmed (kept_text raw) nsn))).
Proof.
  split; [exact (strip_kept raw nsn)|]. intros b d q l e E Hd Sp L I De Le. rewrite E. apply is_digit_iff in Hd.
  rewrite (strip_found b d q l e Hd I De Le); [reflexivity|]. apply (spaced_viable [] (b ++ [d])); auto.
Qed.
Lemma region_valid C from mf : wf_container C -> In from (c_regions C) -> assocb from (c_region C) = Some mf -> getMetadataForRegion C from = Some mf.
Proof.
  intros W I E. unfold getMetadataForRegion. replace (isValidRegionCode C from) with true; [exact E|].
  symmetry. unfold isValidRegionCode. apply andb_true_iff. split; [|apply mem_bytes_iff; auto]. destruct (wf_supported _ W _ I) as (Ne & _). destruct from; [congruence|reflexivity].
Qed.
Lemma alpha_known C n from mf : wf_container C -> rules_fine C -> hasValidCountryCallingCode C (cc_of n) = true -> get_raw n <> [] ->
  In from (c_regions C) -> assocb from (c_region C) = Some mf -> exits_ok C from mf = true ->
  exists k s, kept (get_raw n) (GetNationalSignificantNumber n) k /\ FormatOutOfCountryKeepingAlphaChars C n from = Ret s /\
    (mcc (Some mf) = cc_of n -> cc_of n = 1%Z -> s = bs "1 " ++ k) /\
    (mcc (Some mf) = cc_of n -> cc_of n <> 1%Z -> exists r, first_applying (md_nf mf) (GetNationalSignificantNumber n) r /\ match r with None => s = k | Some f => wrapped (get_npfr f) k s end) /\
    (mcc (Some mf) <> cc_of n -> exists m body, main_entry C (cc_of n) m /\ cut_extension k body /\
       s = match exit_prefix_alpha mf with [] => bs "+" | p => p ++ bs " " end ++ itoa (cc_of n) ++ bs " " ++ body ++ extension_text m (ext_of n)).
Proof.
  intros W F V Nr I E X. apply andb_true_iff in X as [X1 X2]. apply eqb_prop in X1. apply eqb_prop in X2.
  set (nsn := GetNationalSignificantNumber n). exists (trimmed (kept_text (get_raw n)) nsn). pose proof (region_valid _ _ _ W I E) as Em.
  unfold FormatOutOfCountryKeepingAlphaChars. replace (is_empty (get_raw n)) with false by (destruct (get_raw n); [congruence|reflexivity]). change (get_cc n) with (cc_of n). rewrite V. cbn [negb]. fold nsn. rewrite helper_kept.
  cbv zeta. change (if (3 <? len nsn)%nat then match index_of (kept_text (get_raw n)) (firstn 3 nsn) with Some i => skipn i (kept_text (get_raw n)) | None => kept_text (get_raw n) end else kept_text (get_raw n)) with (trimmed (kept_text (get_raw n)) nsn). pose proof (trimmed_kept (get_raw n) nsn) as K. pose proof (strip_cut (get_raw n) nsn) as Cut.
  pose proof (trimmed_ascii (get_raw n) nsn) as A. pose proof (trimmed_line (get_raw n) nsn) as Nl. cbv zeta. set (k := trimmed (kept_text (get_raw n)) nsn) in *. clearbody k.
  unfold getCountryCodeForValidRegion. rewrite Em, X2. cbn [is_some]. unfold nanpaCountryCode.
  destruct (main_entry_ok C _ W V) as (m & Me & Mm & Wm). unfold main_meta in Mm. rewrite Mm.
  assert (Away : (let s := fst (maybeStripExtension k) ++ formattedExtension n (Some m) INTERNATIONAL in
     if negb (is_empty (let ip := mbytes md_iprefix (Some mf) in if re_match uniqueInternationalPrefix ip then ip else mbytes md_pref_iprefix (Some mf)))
     then (let ip := mbytes md_iprefix (Some mf) in if re_match uniqueInternationalPrefix ip then ip else mbytes md_pref_iprefix (Some mf)) ++ bs " " ++ itoa (cc_of n) ++ bs " " ++ s
     else prefixNumberWithCountryCallingCode (cc_of n) INTERNATIONAL s) = match exit_prefix_alpha mf with [] => bs "+" | p => p ++ bs " " end ++ itoa (cc_of n) ++ bs " " ++ fst (maybeStripExtension k) ++ extension_text m (ext_of n)).
  { cbv zeta. rewrite (ext_text n m INTERNATIONAL) by discriminate. unfold mbytes, mget. rewrite X1.
    unfold exit_prefix_alpha. cbv zeta. rewrite (andb_comm (all_digits _)). cbn [prefixNumberWithCountryCallingCode].
    destruct (negb (is_empty (get_bytes (md_iprefix mf))) && all_digits (get_bytes (md_iprefix mf))).
    - destruct (get_bytes (md_iprefix mf)) as [|c l]; cbn [is_empty negb]; [reflexivity|rewrite <- !app_assoc; reflexivity].
    - destruct (get_bytes (md_pref_iprefix mf)) as [|c l]; cbn [is_empty negb]; [reflexivity|rewrite <- !app_assoc; reflexivity]. }
  cbv zeta in Away. destruct (Z.eqb_spec (cc_of n) 1) as [E1|E1]; cbn [negb andb].
  - destruct (Z.eqb_spec (mcc (Some mf)) 1) as [E2|E2].
    + eexists. split; [exact K|]. split; [reflexivity|]. split; [intros _ _; rewrite E1; assert (Q : itoa 1 = bs "1") by (vm_compute; reflexivity); rewrite Q; reflexivity|]. split; [intros _ Q; contradiction|intros Q; congruence].
    + match type of Away with _ = ?rhs => exists rhs end. split; [exact K|]. split; [exact (f_equal (@Ret bytes) Away)|]. split; [intros Q; congruence|]. split; [intros _ Q; contradiction|]. intros Q. exists m, (fst (maybeStripExtension k)). split; [exact Me|]. split; [exact Cut|]. reflexivity.
  - destruct (Z.eqb_spec (cc_of n) (mcc (Some mf))) as [E2|E2].
    + unfold mget. assert (Fm : meta_fine mf = true) by (apply F; apply in_or_app; left; apply in_map_iff; exists (from, mf); split; [reflexivity|apply assocb_In; auto]).
      unfold meta_fine in Fm. apply andb_true_iff in Fm as [F1 _]. rewrite forallb_forall in F1.
      destruct (choose_spec (md_nf mf) nsn) as (r & Er & Hr); [apply Forall_forall; intros f If; apply rule_fine_framed; auto|]. rewrite Er. cbn [bind].
      destruct r as [f|].
      * assert (If : In f (md_nf mf)) by (destruct Hr as (pre & post & -> & _); apply in_or_app; right; left; auto).
        destruct (alpha_wrapped f k (F1 _ If) A Nl) as (t & Et & Ht). rewrite Et. exists t. split; [exact K|]. split; [reflexivity|]. split; [intros _ Q; contradiction|]. split; [intros _ _; exists (Some f); auto|intros Q; congruence].
      * exists k. split; [exact K|]. split; [reflexivity|]. split; [intros _ Q; contradiction|]. split; [intros _ _; exists None; auto|intros Q; congruence].
    + match type of Away with _ = ?rhs => exists rhs end. split; [exact K|]. split; [exact (f_equal (@Ret bytes) Away)|]. split; [intros Q; congruence|]. split; [intros Q; congruence|]. intros Q. exists m, (fst (maybeStripExtension k)). split; [exact Me|]. split; [exact Cut|]. reflexivity.
Qed.
Lemma alpha_elsewhere C n from : wf_container C -> hasValidCountryCallingCode C (cc_of n) = true -> get_raw n <> [] -> ~ In from (c_regions C) -> IsNANPACountry C from = false ->
  exists k m body, kept (get_raw n) (GetNationalSignificantNumber n) k /\ main_entry C (cc_of n) m /\ cut_extension k body /\
    FormatOutOfCountryKeepingAlphaChars C n from = Ret (bs "+" ++ itoa (cc_of n) ++ bs " " ++ body ++ extension_text m (ext_of n)).
Proof.
  intros W V Nr Ni Nn. set (nsn := GetNationalSignificantNumber n). exists (trimmed (kept_text (get_raw n)) nsn).
  unfold FormatOutOfCountryKeepingAlphaChars. replace (is_empty (get_raw n)) with false by (destruct (get_raw n); [congruence|reflexivity]). change (get_cc n) with (cc_of n). rewrite V. cbn [negb]. fold nsn. rewrite helper_kept.
  cbv zeta. change (if (3 <? len nsn)%nat then match index_of (kept_text (get_raw n)) (firstn 3 nsn) with Some i => skipn i (kept_text (get_raw n)) | None => kept_text (get_raw n) end else kept_text (get_raw n)) with (trimmed (kept_text (get_raw n)) nsn). pose proof (trimmed_kept (get_raw n) nsn) as K. pose proof (strip_cut (get_raw n) nsn) as Cut. cbv zeta. set (k := trimmed (kept_text (get_raw n)) nsn) in *. clearbody k.
  rewrite Nn, andb_false_r. assert (Em : getMetadataForRegion C from = None).
  { unfold getMetadataForRegion. replace (isValidRegionCode C from) with false; [reflexivity|]. symmetry. apply not_true_iff_false. unfold isValidRegionCode. rewrite andb_true_iff. intros [_ Q]. apply mem_bytes_iff in Q. auto. }
  rewrite Em. cbn [is_some]. rewrite andb_false_r. cbn [andb is_empty negb].
  destruct (main_entry_ok C _ W V) as (m & Me & Mm & Wm). unfold main_meta in Mm. rewrite Mm. exists m, (fst (maybeStripExtension k)). split; [exact K|]. split; [exact Me|]. split; [exact Cut|].
  rewrite (ext_text n m INTERNATIONAL) by discriminate. reflexivity.
Qed.
(** * Formatting by given rules *)
Definition one (a : N) : regex := RClass {| cneg := false; citems := [CR a a]; cfold := false |}.
Definition three (a b c : N) : regex := RCat (one a) (RCat (one b) (one c)).
Lemma np_shape : re_ast npPattern = three 36 78 80. Proof. vm_compute. reflexivity. Qed.
Lemma fg_shape : re_ast fgPattern = three 36 70 71. Proof. vm_compute. reflexivity. Qed.
Lemma one_match a c : cls_match {| cneg := false; citems := [CR a a]; cfold := false |} c = (c =? a).
Proof.
  unfold cls_match, items_match, citem_match. cbn [cneg cfold citems existsb]. rewrite orb_false_r. destruct (N.eqb_spec c a) as [->|Ne].
  - apply in_rng_iff. lia.
  - apply in_rng_false. lia.
Qed.
Lemma one_step a k p s cs : a < 128 -> rmatch (one a) k p s cs = match s with c :: t => if c =? a then k (p + 1)%nat t cs else None | [] => None end.
Proof.
  intros La. unfold one. cbn [rmatch]. destruct s as [|c t]; [reflexivity|]. destruct (N.lt_ge_cases c 128) as [L|L].
  - rewrite decode_ascii by auto. rewrite one_match. destruct (c =? a); [|reflexivity]. f_equal. unfold len. cbn [length]. lia.
  - replace (c =? a) with false by (symmetry; apply N.eqb_neq; lia). destruct (decode_rune (c :: t)) as [[x u]|] eqn:D; [|reflexivity].
    apply decode_rune_spec in D as (w & E & _ & _ & [[Lx ->]|[Lx _]]); [cbn [app] in E; injection E as -> _; lia|]. rewrite one_match. replace (x =? a) with false by (symmetry; apply N.eqb_neq; lia). reflexivity.
Qed.
Lemma three_match a b c p s : a < 128 -> b < 128 -> c < 128 -> rmatch (three a b c) final p s [] = if has_prefix s [a; b; c] then Some ((p + 3)%nat, []) else None.
Proof.
  intros La Lb Lc. unfold three. change (rmatch (RCat (one a) (RCat (one b) (one c))) final p s []) with (rmatch (one a) (fun p' s' cs' => rmatch (one b) (fun p'' s'' cs'' => rmatch (one c) final p'' s'' cs'') p' s' cs') p s []).
  rewrite one_step by auto. destruct s as [|x s]; [reflexivity|]. cbn [has_prefix]. rewrite (N.eqb_sym a x). destruct (x =? a); [|reflexivity]. rewrite one_step by auto. destruct s as [|y s]; [reflexivity|]. cbn [has_prefix]. rewrite (N.eqb_sym b y). destruct (y =? b); [|reflexivity].
  rewrite one_step by auto. destruct s as [|z s]; [reflexivity|]. cbn [has_prefix]. rewrite (N.eqb_sym c z). destruct (z =? c); [|reflexivity]. cbn [andb has_prefix]. unfold final. replace (p + 1 + 1 + 1)%nat with (p + 3)%nat by lia. destruct s; reflexivity.
Qed.
Section Literal.
  Variables (x : re) (b c : N).
  Let key : bytes := [36; b; c].
  Hypothesis (Hx : re_ast x = three 36 b c) (Hb : b < 128) (Hc : c < 128).
  Definition first_at (t : bytes) (i : nat) : Prop := has_prefix (skipn i t) key = true /\ forall j, (j < i)%nat -> has_prefix (skipn j t) key = false.
  Lemma high_skip w u : (exists d w', w = d :: w' /\ 128 <= d /\ Forall (fun x => 128 <= x) w') -> forall j, (j < length w)%nat -> has_prefix (skipn j (w ++ u)) key = false.
  Proof.
    intros (d & w' & -> & Hd & Hw) j L. assert (A : Forall (fun x => 128 <= x) (d :: w')) by (constructor; auto). clear Hd Hw. revert j L. induction A as [|y l Hy A IH]; intros j L; [cbn [length] in L; lia|].
    destruct j as [|j]; cbn [skipn app]; [unfold key; cbn [has_prefix]; replace (36 =? y) with false by (symmetry; apply N.eqb_neq; lia); reflexivity|]. apply IH. cbn [length] in L. lia.
  Qed.
  Lemma literal_search : forall f p t, (length t <= f)%nat ->
    (search f (re_ast x) p t = None /\ forall j, has_prefix (skipn j t) key = false) \/
    (exists i, search f (re_ast x) p t = Some {| m_start := p + i; m_end := p + i + 3; m_caps := [] |}%nat /\ first_at t i /\ (match decode_rune t with Some (_, u) => length t - length u | None => 0 end <= i + 3)%nat).
  Proof.
    induction f as [|f IH]; intros p t L; cbn [search]; rewrite Hx, three_match by (auto; lia); fold key.
    - destruct t; [|cbn [length] in L; lia]. left. split; [reflexivity|]. intros j. rewrite skipn_nil. reflexivity.
    - destruct (has_prefix t key) eqn:Hp.
      + right. exists 0%nat. rewrite Nat.add_0_r. split; [reflexivity|]. split; [split; [exact Hp|intros; lia]|]. unfold key in Hp. destruct t as [|d t]; [discriminate|]. cbn [has_prefix] in Hp. apply andb_true_iff in Hp as [Hp _]. apply N.eqb_eq in Hp. subst d. rewrite decode_ascii by lia. cbn [length]. lia.
      + destruct (decode_rune t) as [[d u]|] eqn:D.
        * pose proof (decode_rune_lt _ _ _ D) as Lt. apply decode_rune_spec in D as (w & E & Lw & _ & D). unfold len.
          assert (Sk : forall j, (j < length w)%nat -> has_prefix (skipn j t) key = false).
          { intros j Lj. destruct D as [[_ ->]|[_ D]]; [cbn [length] in Lj; replace j with 0%nat by lia; exact Hp|]. rewrite E. apply high_skip; auto. }
          assert (Sk2 : forall j, skipn (length w + j) t = skipn j u).
          { intros j. rewrite E, skipn_app, skipn_all2 by lia. replace (length w + j - length w)%nat with j by lia. reflexivity. }
          assert (Ll : (length t - length u = length w)%nat) by (rewrite E, app_length; lia). rewrite Ll. rewrite <- Hx.
          destruct (IH (p + length w)%nat u ltac:(lia)) as [[-> N0]|(i & -> & [F1 F2] & _)].
          -- left. split; [reflexivity|]. intros j. destruct (Nat.lt_ge_cases j (length w)) as [Q|Q]; [apply Sk; auto|]. replace j with (length w + (j - length w))%nat by lia. rewrite Sk2. apply N0.
          -- right. exists (length w + i)%nat. split; [rewrite Nat.add_assoc; reflexivity|]. split; [|lia]. split; [rewrite Sk2; exact F1|]. intros j Lj. destruct (Nat.lt_ge_cases j (length w)) as [Q|Q]; [apply Sk; auto|]. replace j with (length w + (j - length w))%nat by lia. rewrite Sk2. apply F2. lia.
        * left. split; [reflexivity|]. apply decode_rune_none in D. subst t. intros j. rewrite skipn_nil. reflexivity.
  Qed.
  Lemma no_prefix t : has_prefix t key = false -> forall u, t <> key ++ u.
  Proof. intros H u ->. rewrite (proj2 (has_prefix_iff _ _)) in H by eauto. discriminate. Qed.
  Lemma replaced_before v a rest t : (forall j, (j < length a)%nat -> has_prefix (skipn j (a ++ rest)) key = false) -> replaced key v rest t -> replaced key v (a ++ rest) (a ++ t).
  Proof.
    induction a as [|d a IH]; intros H R; [exact R|]. cbn [app]. apply rep_skip.
    - apply no_prefix. apply (H 0%nat). cbn [length]. lia.
    - apply IH; [|exact R]. intros j L. apply (H (S j)). cbn [length]. lia.
  Qed.
  Lemma replaced_none v t : (forall j, has_prefix (skipn j t) key = false) -> replaced key v t t.
  Proof. intros H. induction t as [|d t IH]; [constructor|]. apply rep_skip; [apply no_prefix, (H 0%nat)|]. apply IH. intros j. apply (H (S j)). Qed.
  Lemma literal_loop v s : forall f le, (le <= length s)%nat -> (length s - le < f)%nat -> replaced key v (skipn le s) (replace_loop f x s (fun _ => v) le le).
  Proof.
    induction f as [|f IH]; intros le L Lf; [lia|].
    assert (L1 : replace_loop (S f) x s (fun _ => v) le le =
      if (len s <? le)%nat then skipn le s else
      match find_from x s le with
      | None => skipn le s
      | Some m => sub s le (m_start m) ++ (if (le <? m_end m)%nat || (m_start m =? 0)%nat then v else []) ++
          replace_loop f x s (fun _ => v) (m_end m) (if (m_end m <? le + rune_width_at s le)%nat then (le + rune_width_at s le)%nat else if (m_end m <? le + 1)%nat then (le + 1)%nat else m_end m)
      end) by reflexivity.
    rewrite L1. clear L1. unfold len. replace (length s <? le)%nat with false by (symmetry; apply Nat.ltb_ge; lia). unfold find_from. unfold len.
    destruct (literal_search (length s - le) le (skipn le s) ltac:(rewrite skipn_length; lia)) as [[-> N0]|(i & -> & [F1 F2] & Wd)]; [apply replaced_none; auto|]. cbn [m_start m_end].
    apply has_prefix_iff in F1 as (u & F1). assert (Lu : (length s - le - i = 3 + length u)%nat) by (pose proof (f_equal (@length N) F1) as Q; rewrite !skipn_length, app_length in Q; unfold key in Q; cbn [length] in Q; lia).
    replace (le <? le + i + 3)%nat with true by (symmetry; apply Nat.ltb_lt; lia). cbn [orb].
    assert (Wd' : (rune_width_at s le <= i + 3)%nat). { unfold rune_width_at, len. destruct (decode_rune (skipn le s)) as [[? ?]|]; lia. }
    replace (le + i + 3 <? le + rune_width_at s le)%nat with false by (symmetry; apply Nat.ltb_ge; lia). replace (le + i + 3 <? le + 1)%nat with false by (symmetry; apply Nat.ltb_ge; lia).
    assert (E : skipn le s = sub s le (le + i) ++ key ++ skipn (le + i + 3) s).
    { unfold sub. replace (le + i - le)%nat with i by lia. rewrite <- (firstn_skipn i (skipn le s)) at 1. f_equal. rewrite F1. f_equal. rewrite skipn_add in F1. replace (le + i + 3)%nat with (le + i + length key)%nat by reflexivity. rewrite <- skipn_add, F1, skipn_app, skipn_all, Nat.sub_diag. reflexivity. }
    rewrite E at 1. apply replaced_before.
    - intros j Lj. rewrite <- E. apply F2. unfold sub in Lj. rewrite firstn_length, skipn_length in Lj. lia.
    - apply rep_here. apply IH; lia.
  Qed.
  Lemma literal_replaced v s : replaced key v s (re_replace_func x s (fun _ => v)).
  Proof. unfold re_replace_func. apply (literal_loop v s (S (S (len s))) 0); unfold len; lia. Qed.
End Literal.
Lemma replaced_unique b c v s t : replaced [36; b; c] v s t -> forall t', replaced [36; b; c] v s t' -> t = t'.
Proof.
  induction 1 as [|s t R IH|d s t Ns R IH]; intros t' R'.
  - inversion R'; subst; auto.
  - inversion R' as [|s' u R1 E1 E2|d s' u N1 R1 E1 E2]; subst; [f_equal; apply IH; auto|]. exfalso. apply (N1 s). reflexivity.
  - inversion R' as [|s' u R1 E1 E2|d' s' u N1 R1 E1 E2]; subst; [exfalso; eapply Ns; reflexivity|f_equal; apply IH; auto].
Qed.
Lemma expand_plain np s m : ~ In 36 np -> expand_template np s m = np.
Proof. intros H. unfold expand_template. replace (S (len np)) with (length np + 1)%nat by (unfold len; lia). rewrite <- (app_nil_r np) at 2. rewrite expand_copy by auto. rewrite expand_nil, app_nil_r. reflexivity. Qed.
Lemma np_replaced np s : ~ In 36 np -> replaced (bs "$NP") np s (re_replace_all npPattern s np).
Proof.
  intros H. Local Transparent re_replace_all. unfold re_replace_all. Local Opaque re_replace_all.
  assert (E : re_replace_func npPattern s (fun m => expand_template np s m) = re_replace_func npPattern s (fun _ => np)).
  { unfold re_replace_func. generalize (S (S (len s))) at 1 2. intros f. generalize 0%nat at 2 4. generalize 0%nat. induction f as [|f IH]; intros a b; [reflexivity|]. cbn [replace_loop].
    destruct (_ <? _)%nat; [reflexivity|]. destruct (find_from npPattern s b) as [m|]; [|reflexivity]. rewrite IH, expand_plain by auto. reflexivity. }
  rewrite E. apply (literal_replaced npPattern 78 80 np_shape); lia.
Qed.
Lemma fg_replaced s : replaced (bs "$FG") (bs "$1") s (re_replace_literal fgPattern s (bs "$1")).
Proof. apply (literal_replaced fgPattern 70 71 fg_shape); lia. Qed.
(** ** FormatByPattern *)
Lemma entry_one C cc m m' : main_entry C cc m -> main_entry C cc m' -> m = m'.
Proof. intros (r & l & A & B) (r' & l' & A' & B'). rewrite A in A'. injection A' as <- _. congruence. Qed.
Lemma using_same f s nf : get_npfr f = [] -> formatNsnUsingPattern s f nf = formatNsnUsingPattern s (set_npfr f None) nf.
Proof. intros E. unfold formatNsnUsingPattern, formatNsnUsingPatternWithCarrier. change (get_npfr (set_npfr f None)) with ([] : bytes). rewrite E. reflexivity. Qed.
Lemma filled_ok m f o : get_npfr f <> [] -> get_bytes (md_nprefix m) <> [] -> ~ In 36 (get_bytes (md_nprefix m)) ->
  (o = Some (re_replace_literal fgPattern (re_replace_all npPattern (get_npfr f) (get_bytes (md_nprefix m))) (bs "$1"))) <-> filled_rule (get_bytes (md_nprefix m)) (get_npfr f) o.
Proof.
  intros Nf Nn Nd. unfold filled_rule. destruct (get_npfr f) as [|c0 l0] eqn:Ef; [congruence|]. rewrite <- Ef. destruct (get_bytes (md_nprefix m)) as [|c1 l1] eqn:En; [congruence|]. rewrite <- En in *. split.
  - intros ->. eexists _, _. split; [apply np_replaced; auto|]. split; [apply fg_replaced|reflexivity].
  - intros (t & u & R1 & R2 & ->). rewrite (replaced_unique 78 80 _ _ _ R1 _ (np_replaced _ _ Nd)) in R2. rewrite (replaced_unique 70 71 _ _ _ R2 _ (fg_replaced _)). reflexivity.
Qed.
Lemma group_shape : re_ast firstGroupPattern = RGroup 1 (RCat (one 36) (RClass dig_cls)). Proof. vm_compute. reflexivity. Qed.
Lemma group_step p s : rmatch (RGroup 1 (RCat (one 36) (RClass dig_cls))) final p s [] =
  match s with c :: t => if c =? 36 then rmatch (RClass dig_cls) (fun p' s' cs' => final p' s' ((1%nat, (p, p')) :: cs')) (p + 1)%nat t [] else None | [] => None end.
Proof.
  change (rmatch (RGroup 1 (RCat (one 36) (RClass dig_cls))) final p s []) with
    (rmatch (one 36) (fun p1 s1 cs1 => rmatch (RClass dig_cls) (fun p' s' cs' => final p' s' ((1%nat, (p, p')) :: cs')) p1 s1 cs1) p s []).
  apply one_step. lia.
Qed.
Lemma token_here d b p : is_digit d = true -> rmatch (RGroup 1 (RCat (one 36) (RClass dig_cls))) final p (36 :: d :: b) [] = Some ((p + 2)%nat, [(1%nat, (p, (p + 2)%nat))]).
Proof.
  intros Hd. rewrite group_step. change (36 =? 36) with true. cbv iota. cbn [rmatch]. pose proof Hd as L. apply is_digit_iff in L. rewrite decode_ascii by lia.
  rewrite dig_ok, Hd.
  replace (len (d :: b) - len b)%nat with 1%nat by (unfold len; cbn [length]; lia). unfold final. replace (p + 1 + 1)%nat with (p + 2)%nat by lia. reflexivity.
Qed.
Lemma token_search d b : is_digit d = true -> forall f a p, ~ In 36 a -> (length a <= f)%nat ->
  search f (re_ast firstGroupPattern) p (a ++ 36 :: d :: b) = Some {| m_start := p + length a; m_end := p + length a + 2; m_caps := [(1, (p + length a, p + length a + 2))] |}%nat.
Proof.
  intros Hd. rewrite group_shape. induction f as [|f IH]; intros a p Na L.
  - destruct a; [|cbn [length] in L; lia]. cbn [search app]. rewrite token_here by auto. cbn [length]. rewrite !Nat.add_0_r. reflexivity.
  - cbn [search]. destruct a as [|c a].
    + cbn [app]. rewrite token_here by auto. cbn [length]. rewrite !Nat.add_0_r. reflexivity.
    + rewrite group_step. cbn [app]. replace (c =? 36) with false by (symmetry; apply N.eqb_neq; intros ->; apply Na; left; auto).
      destruct (decode_rune (c :: a ++ 36 :: d :: b)) as [[x u]|] eqn:D; [|apply decode_rune_none in D; discriminate].
      apply decode_rune_spec in D as (w & E & Lw & _ & D). assert (Q : exists a', c :: a = w ++ a' /\ u = a' ++ 36 :: d :: b).
      { destruct D as [[_ ->]|[_ (y & w' & Ew & Hy & Hw)]]; [cbn [app] in E; injection E as -> <-; exists a; auto|].
        assert (Hi : ~ In 36 w) by (subst w; intros [->|I]; [lia|rewrite Forall_forall in Hw; specialize (Hw _ I); lia]).
        change (c :: a ++ 36 :: d :: b) with ((c :: a) ++ 36 :: d :: b) in E. clear - E Hi. revert E. generalize (c :: a) as l. induction w as [|z w IHw]; intros l E; [exists l; auto|].
        destruct l as [|z' l]; cbn [app] in E; injection E as <- E; [exfalso; apply Hi; left; auto|]. destruct (IHw ltac:(intros I; apply Hi; right; auto) l E) as (a' & -> & ->). exists a'. auto. }
      destruct Q as (a' & Ea & ->). assert (La : length (c :: a) = (length w + length a')%nat) by (rewrite Ea, app_length; reflexivity).
      rewrite IH; [|intros I; apply Na; rewrite Ea; apply in_or_app; auto|cbn [length] in La, L; lia].
      assert (Lx : (len (c :: a ++ 36%N :: d :: b) - len (a' ++ 36%N :: d :: b))%nat = length w) by (rewrite E; unfold len; rewrite !app_length; lia).
      rewrite Lx, La, !Nat.add_assoc. reflexivity.
Qed.
Lemma token_split d b : is_digit d = true -> forall a, ~ In 36 a -> token (a ++ 36 :: d :: b) = Some (a, d, b).
Proof.
  intros Hd. induction a as [|c a IH]; intros Na; cbn [app token].
  - change (36 =? 36) with true. cbv iota. rewrite Hd. reflexivity.
  - replace (c =? 36) with false by (symmetry; apply N.eqb_neq; intros ->; apply Na; left; auto). rewrite IH; [reflexivity|]. intros I; apply Na; right; auto.
Qed.
Lemma token_exists a d b : is_digit d = true -> ~ In 36 a -> token_found (a ++ 36 :: d :: b) = true.
Proof.
  intros Hd Na. unfold token_found. rewrite token_split by auto. Local Transparent re_find. unfold re_find, find_from. Local Opaque re_find. cbn [skipn]. rewrite token_search; auto; [|unfold len; rewrite app_length; lia].
  cbn [m_start m_end]. rewrite Nat.add_0_l, !Nat.eqb_refl. cbn [andb]. apply beq_eq. unfold group_str. cbn [m_caps]. change (group _ 1) with (Some (length a, (length a + 2)%nat)). cbv iota. change (length a + 2)%nat with (length a + length [36%N; d])%nat.
  exact (sub_mid a [36; d] b).
Qed.
Lemma plain_template f nf s x : compile (get_pattern f) = Some x -> nf <> RFC3966 -> (get_npfr f <> [] -> exists t, combined (get_format f) (get_npfr f) t) ->
  exists t, template f nf [] t /\ formatNsnUsingPattern s f nf = Ret (re_replace_all x s t).
Proof.
  intros Cx Nr H. unfold formatNsnUsingPattern, formatNsnUsingPatternWithCarrier, must_compile. rewrite Cx. cbn [or_panic bind].
  replace (pformat_eqb nf RFC3966) with false by (destruct nf; auto; congruence).
  destruct nf; cbn [pformat_eqb andb template is_empty negb]; try (eexists; split; reflexivity).
  destruct (is_empty (get_npfr f)) eqn:En; cbn [negb]; [eexists; split; reflexivity|].
  destruct H as (t & a & d & b & u & v & E1 & Hd & Na & E2 & Nu & Nv & Wv & _); [intros Q; rewrite Q in En; discriminate|].
  eexists. split; [|reflexivity]. rewrite E2. apply combine_ok; auto. rewrite E1. apply token_exists; auto.
Qed.
Lemma by_pattern_spec C n nf l m : wf_container C -> hasValidCountryCallingCode C (cc_of n) = true -> nf <> RFC3966 -> main_entry C (cc_of n) m -> ~ In 36 (get_bytes (md_nprefix m)) ->
  (forall f, In f l -> usable (get_bytes (md_nprefix m)) f) ->
  exists r body, first_applying l (GetNationalSignificantNumber n) r /\
    match r with
    | None => body = GetNationalSignificantNumber n
    | Some f => exists o x t, filled_rule (get_bytes (md_nprefix m)) (get_npfr f) o /\ compile (get_pattern f) = Some x /\ template (set_npfr f o) nf [] t /\ body = re_replace_all x (GetNationalSignificantNumber n) t
    end /\ FormatByPattern C n nf l = Ret (with_code (cc_of n) nf (body ++ extension_text m (ext_of n))).
Proof.
  intros W V Nr Me Nd Us. set (s := GetNationalSignificantNumber n). destruct (main_entry_ok C _ W V) as (m' & Me' & Mm & _). rewrite <- (entry_one C _ m m' Me Me') in Mm. clear m' Me'.
  unfold FormatByPattern. change (get_cc n) with (cc_of n). rewrite V. cbn [negb]. cbv zeta. fold (main_meta C (cc_of n)). rewrite Mm. fold s.
  assert (Fr : Forall rule_framed l).
  { apply Forall_forall. intros f If. destruct (Us _ If) as (U1 & U2 & _). split; [exact U1|]. apply Forall_forall. intros p Ip. specialize (U2 _ Ip). unfold compiles. destruct (compile p); [eauto|congruence]. }
  assert (Pc : forall t, prefixNumberWithCountryCallingCode (cc_of n) nf t = with_code (cc_of n) nf t) by (intros t; destruct nf; reflexivity).
  destruct (choose_spec l s Fr) as (r & Er & Hr). rewrite Er. cbn [bind]. exists r. rewrite (ext_text n m nf Nr). destruct r as [f|].
  - assert (If : In f l) by (destruct Hr as (pre & post & -> & _); apply in_or_app; right; left; auto). destruct (Us _ If) as ((x & y & Cx & _) & _ & U3).
    assert (Q : exists o, filled_rule (get_bytes (md_nprefix m)) (get_npfr f) o /\
      formatNsnUsingPattern s (if negb (is_empty (get_npfr f)) then if negb (is_empty (mbytes md_nprefix (Some m))) then set_npfr f (Some (re_replace_literal fgPattern (re_replace_all npPattern (get_npfr f) (mbytes md_nprefix (Some m))) (bs "$1"))) else set_npfr f None else f) nf = formatNsnUsingPattern s (set_npfr f o) nf).
    { unfold mbytes, mget. destruct (get_npfr f) as [|c0 l0] eqn:Ef; cbn [is_empty negb].
      - exists None. split; [reflexivity|]. apply using_same. exact Ef.
      - destruct (get_bytes (md_nprefix m)) as [|c1 l1] eqn:En; cbn [is_empty negb].
        + exists None. split; reflexivity.
        + rewrite <- Ef, <- En in *. eexists. split; [apply filled_ok; [rewrite Ef; discriminate|rewrite En; discriminate|exact Nd|reflexivity]|reflexivity]. }
    destruct Q as (o & Fo & Eo). rewrite Eo. destruct (plain_template (set_npfr f o) nf s x Cx Nr) as (t & T & E).
    { intros Ne. destruct o as [u|]; [exact (U3 u Fo)|exfalso; apply Ne; reflexivity]. }
    rewrite E. cbn [bind]. exists (re_replace_all x s t). split; [exact Hr|]. split; [exists o, x, t; auto|rewrite Pc; reflexivity].
  - cbn [bind]. exists s. split; [exact Hr|]. split; [reflexivity|rewrite Pc; reflexivity].
Qed.
(** * The format the number was typed in *)
Lemma has_pattern_spec C n b : wf_container C -> rules_fine C -> ~ In (bs "ZZ") (c_regions C) -> hasFormattingPatternForNumber C n = Ret b -> (b = true <-> has_rule C n).
Proof.
  intros W F Zz. unfold hasFormattingPatternForNumber. change (get_cc n) with (cc_of n). fold (main_meta C (cc_of n)). unfold has_rule. change (get_cc n) with (cc_of n).
  destruct (hasValidCountryCallingCode C (cc_of n)) eqn:V.
  - destruct (main_entry_ok C _ W V) as (m & Me & Mm & _). rewrite Mm. intros H. assert (Fm : meta_fine m = true) by (apply F; eapply main_meta_in; eauto).
    unfold meta_fine in Fm. apply andb_true_iff in Fm as [F1 _]. rewrite forallb_forall in F1. destruct (choose_spec (md_nf m) (GetNationalSignificantNumber n)) as (r & Er & Hr); [apply Forall_forall; intros f If; apply rule_fine_framed; auto|].
    rewrite Er in H. cbn [bind] in H. injection H as <-. destruct r as [f|]; cbn [is_some]; split; intros H; auto; try discriminate.
    + destruct Hr as (pre & post & E & A & _). exists m, f. split; [exact Me|]. split; [rewrite E; apply in_or_app; right; left; auto|exact A].
    + destruct H as (m' & f & Me' & I & A). rewrite <- (entry_one C _ m m' Me Me') in I. elim (Hr f I A).
  - assert (N0 : forall m, ~ main_entry C (cc_of n) m) by (intros m (r & rest & E & _); unfold hasValidCountryCallingCode in V; rewrite E in V; discriminate).
    destruct (main_meta C (cc_of n)) as [m|] eqn:Mm; [|intros H; injection H as <-; split; [discriminate|intros (m & f & Me & _); elim (N0 m Me)]].
    exfalso. unfold main_meta, GetRegionCodeForCountryCode, regions_of in Mm. unfold hasValidCountryCallingCode in V. destruct (assocz (cc_of n) (c_cc2region C)); [discriminate|].
    unfold getMetadataForRegionOrCallingCode in Mm. change (beq nonGeoEntity unknownRegion) with false in Mm. cbv iota in Mm. unfold getMetadataForRegion, isValidRegionCode in Mm. change (is_empty unknownRegion) with false in Mm. cbn [negb andb] in Mm.
    destruct (mem_bytes unknownRegion (c_regions C)) eqn:Q; [|discriminate]. apply mem_bytes_iff in Q. auto.
Qed.
Lemma contains_spec C n np r b : rawInputContainsNationalPrefix C (get_raw n) np r = Ret b -> (b = true <-> typed_with C n np r).
Proof.
  unfold rawInputContainsNationalPrefix, typed_with. destruct (has_prefix (NormalizeDigitsOnly (get_raw n)) np) eqn:Hp.
  - apply has_prefix_iff in Hp as (rest & E). rewrite E. unfold len. rewrite skipn_app, skipn_all, Nat.sub_diag. cbn [skipn app].
    destruct (Parse C rest r) as [[k [e|]]| |] eqn:P; cbn [bind]; intros H; try discriminate.
    + injection H as <-. split; [discriminate|]. intros (rest' & k' & E' & P' & _). apply app_inv_head in E'. subst rest'. rewrite P in P'. discriminate.
    + split; [intros ->; eauto|]. intros (rest' & k' & E' & P' & V). apply app_inv_head in E'. subst rest'. rewrite P in P'. injection P' as <-. rewrite H in V. injection V as <-. reflexivity.
  - intros H. injection H as <-. split; [discriminate|]. intros (rest & k & E & _). rewrite E, (proj2 (has_prefix_iff _ _)) in Hp by eauto. discriminate.
Qed.
Lemma index_before rule i : index_of rule (bs "$1") = Some i -> exists u v, firstn i rule = u /\ rule = u ++ bs "$1" ++ v /\ (forall a b, u ++ bs "$" <> a ++ bs "$1" ++ b).
Proof.
  intros E. destruct (index_of_some _ _ _ E) as (v & E1 & L). exists (firstn i rule), v. split; [reflexivity|]. split; [exact E1|]. intros a b Q. change (len (bs "$1")) with 2%nat in L. unfold len in L.
  assert (Lu : length (firstn i rule) = i) by (rewrite firstn_length; lia).
  assert (La : (length a < i)%nat). { apply (f_equal (@length N)) in Q. rewrite !app_length, Lu in Q. change (length (bs "$")) with 1%nat in Q. change (length (bs "$1")) with 2%nat in Q. lia. }
  pose proof (index_of_first _ _ _ E _ La) as F. rewrite E1 in F. change (bs "$1") with (bs "$" ++ [49]) in F at 1. rewrite <- app_assoc, app_assoc, Q, <- app_assoc, skipn_app, skipn_all, Nat.sub_diag in F. cbn [skipn app] in F.
  rewrite <- app_assoc in F. rewrite (proj2 (has_prefix_iff _ _)) in F by eauto. discriminate.
Qed.
Lemma index_found rule u v : rule = u ++ bs "$1" ++ v -> (forall a b, u ++ bs "$" <> a ++ bs "$1" ++ b) -> index_of rule (bs "$1") = Some (length u).
Proof.
  intros E N0. destruct (index_of rule (bs "$1")) as [i|] eqn:Q.
  - destruct (index_of_some _ _ _ Q) as (v' & E1 & L). unfold len in L. change (length (bs "$1")) with 2%nat in L. assert (Lu : length (firstn i rule) = i) by (rewrite firstn_length; lia).
    destruct (Nat.lt_trichotomy i (length u)) as [H|[H|H]].
    + exfalso. apply (N0 (firstn i rule) (firstn (length u + 1 - (i + 2)) v')). transitivity (firstn (length u + 1) rule).
      * rewrite E. change (bs "$1") with (bs "$" ++ [49]). rewrite <- app_assoc, app_assoc, firstn_app. replace (length u + 1)%nat with (length (u ++ bs "$")) by (rewrite app_length; reflexivity). rewrite firstn_all, Nat.sub_diag. cbn [firstn]. rewrite app_nil_r. reflexivity.
      * rewrite E1 at 1. rewrite firstn_app, firstn_all2 by lia. f_equal. rewrite Lu, firstn_app. rewrite firstn_all2 by (change (length (bs "$1")) with 2%nat; lia). f_equal. f_equal. change (length (bs "$1")) with 2%nat. lia.
    + congruence.
    + exfalso. pose proof (index_of_first _ _ _ Q _ H) as F. rewrite E, skipn_app, skipn_all, Nat.sub_diag in F. cbn [skipn app] in F. rewrite (proj2 (has_prefix_iff _ _)) in F by eauto. discriminate.
  - exfalso. pose proof (index_of_none _ _ Q (length u)) as F. rewrite E, skipn_app, skipn_all, Nat.sub_diag in F. cbn [skipn app] in F. rewrite (proj2 (has_prefix_iff _ _)) in F by eauto. discriminate.
Qed.
Lemma typed_national_spec C n s : wf_container C -> rules_fine C -> ~ In (bs "ZZ") (c_regions C) -> original_national C n = Ret s -> typed_national C n s.
Proof.
  intros W F Zz H. unfold original_national in H. change (get_cc n) with (cc_of n) in H.
  destruct (Format C n NATIONAL) as [nat| |] eqn:En; cbn [bind] in H; try discriminate.
  assert (Plain : (forall f m, ~ prefix_unwanted C n f m) -> s = nat -> typed_national C n s) by (intros Np ->; right; split; [exact Np|exact En]).
  destruct (assocz (cc_of n) (c_cc2region C)) as [l|] eqn:A.
  2:{ apply Plain; [intros f m (r & rest & np & u & v & Q & _); change (get_cc n) with (cc_of n) in Q; congruence|].
      unfold GetRegionCodeForCountryCode, regions_of in H. rewrite A in H. unfold GetNddPrefixForRegion in H.
      replace (getMetadataForRegion C unknownRegion) with (@None meta) in H; [cbn [is_empty] in H; congruence|].
      unfold getMetadataForRegion, isValidRegionCode. destruct (mem_bytes unknownRegion (c_regions C)) eqn:Q; [apply mem_bytes_iff in Q; contradiction|]. rewrite andb_false_r. reflexivity. }
  assert (V : hasValidCountryCallingCode C (cc_of n) = true) by (unfold hasValidCountryCallingCode; rewrite A; reflexivity).
  pose proof A as A'. apply assocz_In in A'. destruct (wf_cc _ W _ _ A') as (_ & Ne & _ & Only & _). destruct l as [|r rest]; [congruence|].
  assert (Er : GetRegionCodeForCountryCode C (cc_of n) = r) by (unfold GetRegionCodeForCountryCode, regions_of; rewrite A; reflexivity). rewrite Er in H.
  destruct (nongeo_valid_cc C (cc_of n) (r :: rest) r W A' (or_introl eq_refl)) as (m & E1 & E2 & Wm & E3 & _); [unfold regions_of; rewrite A; reflexivity|].
  assert (Only1 : forall f m' r' rest' np u v, assocz (cc_of n) (c_cc2region C) = Some (r' :: rest') /\ r' <> bs "001" /\ assocb r' (c_region C) = Some m' /\
    np = filter (fun c => negb (c =? 126)) (get_bytes (md_nprefix m')) /\ np <> [] /\ ~ typed_with C n np r' /\ first_applying (md_nf m') (GetNationalSignificantNumber n) (Some f) /\ get_npfr f = u ++ bs "$1" ++ v /\ (forall a b, u ++ bs "$" <> a ++ bs "$1" ++ b) /\ NormalizeDigitsOnly u <> [] -> r' = r /\ r <> bs "001" /\ m' = m).
  { intros f m' r' rest' np u v (Q1 & Q2 & Q3 & _). rewrite A in Q1. injection Q1 as <- _. split; [reflexivity|]. split; [exact Q2|]. unfold meta_of in E2. replace (beq r nonGeoEntity) with false in E2; [congruence|]. symmetry. apply not_true_iff_false. rewrite beq_eq. exact Q2. }
  destruct (beq_spec r (bs "001")) as [->|Ng].
  { apply Plain; [intros f m' (r' & rest' & np & u & v & Q); destruct (Only1 _ _ _ _ _ _ _ Q) as (_ & Q2 & _); congruence|].
    unfold GetNddPrefixForRegion in H. replace (getMetadataForRegion C (bs "001")) with (@None meta) in H; [cbn [is_empty] in H; congruence|].
    unfold getMetadataForRegion. destruct (isValidRegionCode C (bs "001")) eqn:Q; [|reflexivity]. exfalso. unfold isValidRegionCode in Q. apply andb_true_iff in Q as [_ Q]. apply mem_bytes_iff in Q. destruct (wf_supported _ W _ Q) as (_ & Q2 & _). apply Q2. reflexivity. }
  destruct (E3 Ng) as (Gm & _). unfold meta_of in E2. replace (beq r nonGeoEntity) with false in E2 by (symmetry; apply not_true_iff_false; rewrite beq_eq; exact Ng).
  unfold GetNddPrefixForRegion in H. rewrite Gm in H. change (remove_byte (get_bytes (md_nprefix m)) 126) with (filter (fun c => negb (c =? 126)) (get_bytes (md_nprefix m))) in H. set (np := filter (fun c => negb (c =? 126)) (get_bytes (md_nprefix m))) in *.
  assert (Un : forall f m', prefix_unwanted C n f m' -> m' = m /\ np <> [] /\ ~ typed_with C n np r /\ first_applying (md_nf m) (GetNationalSignificantNumber n) (Some f) /\
     exists u v, get_npfr f = u ++ bs "$1" ++ v /\ (forall a b, u ++ bs "$" <> a ++ bs "$1" ++ b) /\ NormalizeDigitsOnly u <> []).
  { intros f m' (r' & rest' & np' & u & v & Q). destruct (Only1 _ _ _ _ _ _ _ Q) as (-> & _ & ->). destruct Q as (_ & _ & _ & -> & Q1 & Q2 & Q3 & Q4). fold np in Q1, Q2. repeat split; auto. exists u, v. exact Q4. }
  destruct (is_empty np) eqn:Np. { apply Plain; [|congruence]. intros f m' Q. destruct (Un _ _ Q) as (_ & Q1 & _). destruct np; [congruence|discriminate]. }
  destruct (rawInputContainsNationalPrefix C (get_raw n) np r) as [b| |] eqn:Rb; cbn [bind] in H; try discriminate. apply contains_spec in Rb.
  destruct b. { apply Plain; [|congruence]. intros f m' Q. destruct (Un _ _ Q) as (_ & _ & Q1 & _). apply Q1, Rb. reflexivity. }
  assert (Nt : ~ typed_with C n np r) by (intros Q; apply Rb in Q; discriminate). clear Rb. unfold mget in H.
  assert (Fm : meta_fine m = true) by (apply F; apply in_or_app; left; apply in_map_iff; exists (r, m); split; [reflexivity|apply assocb_In; exact E2]).
  unfold meta_fine in Fm. apply andb_true_iff in Fm as [F1 _]. rewrite forallb_forall in F1. destruct (choose_spec (md_nf m) (GetNationalSignificantNumber n)) as (o & Eo & Ho); [apply Forall_forall; intros f If; apply rule_fine_framed; auto|].
  rewrite Eo in H. cbn [bind] in H. destruct o as [f|].
  2:{ apply Plain; [|congruence]. intros f m' Q. destruct (Un _ _ Q) as (_ & _ & _ & Q1 & _). discriminate (first_applying_unique _ _ _ _ Ho Q1). }
  assert (Same : forall f' m', prefix_unwanted C n f' m' -> f' = f /\ exists u v, get_npfr f = u ++ bs "$1" ++ v /\ (forall a b, u ++ bs "$" <> a ++ bs "$1" ++ b) /\ NormalizeDigitsOnly u <> []).
  { intros f' m' Q. destruct (Un _ _ Q) as (_ & _ & _ & Q1 & Q2). pose proof (first_applying_unique _ _ _ _ Ho Q1) as Q3. injection Q3 as <-. auto. }
  destruct (index_of (get_npfr f) (bs "$1")) as [i|] eqn:Ix.
  2:{ apply Plain; [|congruence]. intros f' m' Q. destruct (Same _ _ Q) as (-> & u & v & Q1 & Q2 & _). rewrite (index_found _ _ _ Q1 Q2) in Ix. discriminate. }
  destruct (index_before _ _ Ix) as (u & v & Eu & E4 & E5).
  assert (Lu : i = length u). { rewrite (index_found _ _ _ E4 E5) in Ix. injection Ix as ->. reflexivity. }
  assert (Same2 : forall f' m', prefix_unwanted C n f' m' -> NormalizeDigitsOnly u <> []).
  { intros f' m' Q. destruct (Same _ _ Q) as (-> & u' & v' & Q1 & Q2 & Q3). pose proof (index_found _ _ _ Q1 Q2) as Q4. rewrite (index_found _ _ _ E4 E5) in Q4. injection Q4 as Q4. assert (u = u'); [|subst; auto]. rewrite E4 in Q1. clear - Q1 Q4. apply (f_equal (firstn (length u))) in Q1. rewrite Q4 in Q1 at 2. rewrite !firstn_app, !firstn_all, !Nat.sub_diag in Q1. cbn [firstn] in Q1. rewrite !app_nil_r in Q1. exact Q1. }
  assert (H' : (if is_empty (NormalizeDigitsOnly u) then Ret nat else FormatByPattern C n NATIONAL [set_npfr f None]) = Ret s).
  { destruct i as [|i]; [destruct u; [|discriminate]; exact H|rewrite Eu in H; exact H]. }
  destruct (is_empty (NormalizeDigitsOnly u)) eqn:Nu. { apply Plain; [|congruence]. intros f' m' Q. apply (Same2 _ _ Q). destruct (NormalizeDigitsOnly u); [reflexivity|discriminate]. }
  assert (If : In f (md_nf m)) by (destruct Ho as (pre & post & -> & _); apply in_or_app; right; left; auto).
  assert (Fn : rule_fine (set_npfr f None) = true).
  { pose proof (F1 _ If) as Q. unfold rule_fine in *. rewrite !andb_true_iff in *. destruct Q as (((Q1 & Q2) & Q3) & Q4). change (get_pattern (set_npfr f None)) with (get_pattern f). change (nf_leading (set_npfr f None)) with (nf_leading f). change (get_format (set_npfr f None)) with (get_format f). change (get_dccfr (set_npfr f None)) with (get_dccfr f). auto. }
  assert (Me : main_entry C (cc_of n) m) by (exists r, rest; split; [exact A|]; unfold meta_of; replace (beq r nonGeoEntity) with false by (symmetry; apply not_true_iff_false; rewrite beq_eq; exact Ng); exact E2).
  left. unfold FormatByPattern in H'. change (get_cc n) with (cc_of n) in H'. rewrite V in H'. cbn [negb] in H'. cbv zeta in H'. rewrite Er, E1 in H'.
  destruct (choose_spec [set_npfr f None] (GetNationalSignificantNumber n)) as (o & Eo' & Ho'); [repeat constructor; apply rule_fine_framed; exact Fn|]. rewrite Eo' in H'. cbn [bind] in H'.
  assert (Ap : applies (set_npfr f None) (GetNationalSignificantNumber n)) by (destruct Ho as (pre & post & _ & Q & _); exact Q).
  destruct o as [g|]; [|exfalso; apply (Ho' (set_npfr f None)); [left; reflexivity|exact Ap]].
  assert (g = set_npfr f None) by (destruct Ho' as ([|? [|? ?]] & post & Q & _); cbn [app] in Q; congruence). subst g. change (get_npfr (set_npfr f None)) with ([] : bytes) in H'. cbn [is_empty negb] in H'.
  destruct (template_ok (set_npfr f None) NATIONAL [] (GetNationalSignificantNumber n) Fn) as (x & t & Cx & T & Et); [intros []|discriminate|]. unfold formatNsnUsingPattern in H'. rewrite Et in H'. cbn [bind prefixNumberWithCountryCallingCode] in H'.
  rewrite (ext_text n m NATIONAL) in H' by discriminate. cbn [template is_empty negb andb] in T. change (get_npfr (set_npfr f None)) with ([] : bytes) in T. cbn [is_empty] in T. subst t. exists f, m, x. split; [|split; [exact Cx|injection H' as <-; reflexivity]].
  exists r, rest, np, u, v. split; [exact A|]. split; [exact Ng|]. split; [exact E2|]. split; [reflexivity|]. split; [destruct np; [discriminate|congruence]|]. split; [exact Nt|]. split; [exact Ho|]. split; [exact E4|]. split; [exact E5|]. destruct (NormalizeDigitsOnly u); [discriminate|congruence].
Qed.
Lemma slice_one c (t : bytes) : slice_from (c :: t) 1 = Ret t.
Proof. unfold slice_from, slice. cbn [length Nat.leb andb skipn Nat.sub]. rewrite Nat.leb_refl. change (len (c :: t)) with (S (length t)). cbn [andb Nat.sub]. rewrite Nat.sub_0_r, firstn_all. reflexivity. Qed.
Lemma original_full C n from s : wf_container C -> rules_fine C -> ~ In (bs "ZZ") (c_regions C) -> FormatInOriginalFormat C n from = Ret s ->
  (get_raw n <> [] /\ ~ has_rule C n /\ s = get_raw n) \/
  ((get_raw n = [] \/ has_rule C n) /\ get_src n = UNSPECIFIED /\ Format C n NATIONAL = Ret s) \/
  ((get_raw n = [] \/ has_rule C n) /\ get_src n <> UNSPECIFIED /\ exists t, as_typed C n from t /\
     (get_raw n = [] \/ t = [] \/ filter diallable t = filter diallable (get_raw n) -> s = t) /\
     (get_raw n <> [] -> t <> [] -> filter diallable t <> filter diallable (get_raw n) -> s = get_raw n)).
Proof.
  intros W F Zz H. unfold FormatInOriginalFormat in H.
  assert (Hh : exists b, (if is_empty (get_raw n) then Ret true else hasFormattingPatternForNumber C n) = Ret b /\ (b = true -> get_raw n = [] \/ has_rule C n) /\ (b = false -> get_raw n <> [] /\ ~ has_rule C n)).
  { destruct (is_empty (get_raw n)) eqn:E.
    - exists true. split; [reflexivity|]. split; [intros _; left; destruct (get_raw n); [reflexivity|discriminate]|discriminate].
    - destruct (hasFormattingPatternForNumber C n) as [b| |] eqn:Hb; try discriminate. exists b. split; [reflexivity|]. apply (has_pattern_spec C n b W F Zz) in Hb. split; [intros ->; right; apply Hb; reflexivity|]. intros ->. split; [intros Q; rewrite Q in E; discriminate|]. intros Q. apply Hb in Q. discriminate. }
  destruct Hh as (b & Eb & B1 & B2). rewrite Eb in H. cbn [bind] in H. destruct b; cbn [negb] in H.
  2:{ left. destruct (B2 eq_refl). injection H as <-. auto. }
  right. specialize (B1 eq_refl). clear B2 Eb.
  assert (G : forall t, as_typed C n from t -> (if negb (is_empty t) && negb (is_empty (get_raw n)) && negb (beq (NormalizeDiallableCharsOnly t) (NormalizeDiallableCharsOnly (get_raw n))) then Ret (get_raw n) else Ret t) = Ret s ->
    exists t, as_typed C n from t /\ (get_raw n = [] \/ t = [] \/ filter diallable t = filter diallable (get_raw n) -> s = t) /\ (get_raw n <> [] -> t <> [] -> filter diallable t <> filter diallable (get_raw n) -> s = get_raw n)).
  { intros t At Q. exists t. split; [exact At|]. rewrite !NormalizeDiallableCharsOnly_spec in Q. destruct (beq_spec (filter diallable t) (filter diallable (get_raw n))) as [Eq|Nq].
    - cbn [negb] in Q. rewrite andb_false_r in Q. injection Q as ->. split; [auto|]. intros _ _ X. contradiction.
    - destruct t as [|c t']; cbn [is_empty negb andb] in Q; [injection Q as <-; split; [auto|intros _ X; congruence]|]. destruct (get_raw n) as [|c0 l0]; cbn [is_empty negb andb] in Q; injection Q as <-.
      + split; [auto|congruence].
      + split; [|auto]. intros [X|[X|X]]; try discriminate. contradiction. }
  unfold as_typed in *. destruct (get_src n) eqn:Sr.
  - left. auto.
  - right. split; [exact B1|]. split; [discriminate|]. destruct (Format C n INTERNATIONAL) as [t| |]; cbn [bind] in H; try discriminate. apply (G t); [reflexivity|exact H].
  - right. split; [exact B1|]. split; [discriminate|]. destruct (FormatOutOfCountryCallingNumber C n from) as [t| |]; cbn [bind] in H; try discriminate. apply (G t); [reflexivity|exact H].
  - right. split; [exact B1|]. split; [discriminate|]. destruct (Format C n INTERNATIONAL) as [t| |]; cbn [bind] in H; try discriminate. destruct t as [|c t]; [discriminate|]. apply (G t); [exists c; reflexivity|]. rewrite slice_one in H. exact H.
  - right. split; [exact B1|]. split; [discriminate|]. destruct (original_national C n) as [t| |] eqn:Ot; cbn [bind] in H; try discriminate. apply (G t); [apply typed_national_spec; auto|exact H].
Qed.
