(** Proofs about separators in the text of a number. *)
From Verif Require Import Base BaseFacts Utf8 Utf8Facts Regex RegexSpec RegexFacts LangFacts Consts Types Normalize NormalizeSpec NormalizeFacts Validate Format Parse
  NumberSpec NumberFacts MetaSpec ValidateSpec ValidateFacts Container Shipped MetaFacts FormatSpec TextFacts FormatFacts FormatMore ParseSpec ParseFacts ParseMore ContextFacts
  RoundSpec DerivFacts RoundTripFacts PropsValidate RuleSpec RuleFacts RuleMore ReadSpec ReadFacts.
Local Opaque compile re_find re_replace_all.

Definition letters27 : list N := digits10 ++ separators.
Lemma seps_ext : alive (43 :: letters27) (re_ast extnPattern) = false. Proof. vm_compute. reflexivity. Qed.
Lemma seps_plus : alive letters27 (re_ast plusCharsPattern) = false. Proof. vm_compute. reflexivity. Qed.
Lemma seps_alpha : alive letters27 (re_ast validAlphaPhonePattern) = false. Proof. vm_compute. reflexivity. Qed.
Lemma seps_nodigit : forallb (fun c => match digit_for c with None => true | _ => false end) separators = true. Proof. vm_compute. reflexivity. Qed.
Lemma spaced_in s c : spaced s -> In c (runes s) -> In c letters27.
Proof. intros S I. apply in_or_app. destruct (S _ I) as [H|H]; [left; apply digit_in10; apply is_digit_iff; lia|auto]. Qed.

(** * Such a text is viable *)
Definition vp_punct : cls := Eval vm_compute in match vp_b with RCat (RCat (RCat (RStar _ (RClass k)) _) _) _ => k | _ => any_not_nl end.
Definition vp_piece : regex := RCat (RStar true (RClass vp_punct)) (RClass k_nd).
Definition vp_tail : cls := Eval vm_compute in match vp_b with RCat _ (RCat (RStar _ (RClass k)) _) => k | _ => any_not_nl end.
Definition vp_ext : regex := Eval vm_compute in match vp_b with RCat _ (RCat _ (RAlt e _)) => e | _ => REmpty end.
Lemma vp_b_shape : vp_b = RCat (RCat vp_piece (RCat vp_piece (RCat vp_piece (RStar true vp_piece)))) (RCat (RStar true (RClass vp_tail)) (RAlt vp_ext REmpty)).
Proof. vm_compute. reflexivity. Qed.
Lemma punct_seps : forallb (cls_match vp_punct) separators && forallb (cls_match vp_tail) letters27 = true. Proof. vm_compute. reflexivity. Qed.
Lemma star_lang g k w : forallb (cls_match k) w = true -> lang (RStar g (RClass k)) w.
Proof. induction w as [|c w IH]; cbn [forallb]; intros H; [constructor|]. apply andb_true_iff in H as [H1 H2]. change (c :: w) with ([c] ++ w). constructor; [constructor; auto|auto]. Qed.
Definition dig (c : N) : bool := (48 <=? c) && (c <=? 57).
Lemma dig_iff c : dig c = true <-> 48 <= c <= 57. Proof. unfold dig. rewrite andb_true_iff, !N.leb_le. lia. Qed.
Lemma to_digit w n : (forall c, In c w -> In c letters27) -> length (filter dig w) = S n ->
  exists u c v, w = u ++ c :: v /\ (forall x, In x u -> In x separators) /\ dig c = true /\ length (filter dig v) = n.
Proof.
  induction w as [|c w IH]; intros A L; [discriminate|]. cbn [filter] in L. destruct (dig c) eqn:E.
  - exists [], c, w. split; [reflexivity|]. split; [intros x []|]. cbn [length] in L. auto.
  - destruct IH as (u & x & v & -> & U & D & Lv); auto. { intros z I. apply A. right. auto. }
    exists (c :: u), x, v. split; [reflexivity|]. split; [|auto]. intros z [<-|I]; [|auto]. specialize (A c (or_introl eq_refl)). apply in_app_or in A as [A|A]; [|exact A].
    exfalso. revert A E. clear. cbn. intros A E. decompose [or] A; subst; try discriminate; auto.
Qed.
Lemma piece_lang u c : (forall x, In x u -> In x separators) -> dig c = true -> lang vp_piece (u ++ [c]).
Proof.
  intros U D. pose proof punct_seps as P. apply andb_true_iff in P as [P _]. rewrite forallb_forall in P. constructor; [apply star_lang; apply forallb_forall; auto|]. constructor.
  pose proof nd_digits as Y. rewrite forallb_forall in Y. apply Y, digit_in10, is_digit_iff, dig_iff. exact D.
Qed.
Lemma pieces_lang w : (forall c, In c w -> In c letters27) -> (3 <= length (filter dig w))%nat -> lang vp_b w.
Proof.
  intros A L. rewrite vp_b_shape. destruct (length (filter dig w)) as [|[|[|n]]] eqn:E; try lia.
  destruct (to_digit w _ A E) as (u1 & c1 & v1 & -> & U1 & D1 & E1).
  assert (A1 : forall c, In c v1 -> In c letters27) by (intros c I; apply A; apply in_or_app; right; right; auto).
  destruct (to_digit v1 _ A1 E1) as (u2 & c2 & v2 & -> & U2 & D2 & E2).
  assert (A2 : forall c, In c v2 -> In c letters27) by (intros c I; apply A1; apply in_or_app; right; right; auto).
  destruct (to_digit v2 _ A2 E2) as (u3 & c3 & v3 & -> & U3 & D3 & E3).
  replace (u1 ++ c1 :: u2 ++ c2 :: u3 ++ c3 :: v3) with (((u1 ++ [c1]) ++ (u2 ++ [c2]) ++ (u3 ++ [c3]) ++ []) ++ (v3 ++ [])) by (rewrite <- !app_assoc; cbn [app]; rewrite app_nil_r; reflexivity).
  constructor.
  - constructor; [apply piece_lang; auto|]. constructor; [apply piece_lang; auto|]. constructor; [apply piece_lang; auto|constructor].
  - constructor; [|apply L_alt_r; constructor]. pose proof punct_seps as P. apply andb_true_iff in P as [_ P]. apply star_lang. rewrite forallb_forall in *. intros c I. apply P, A2. apply in_or_app. right. right. auto.
Qed.
Lemma runes_short s : (length (runes s) <= length s)%nat.
Proof. induction s as [|s c t E IH] using runes_ind; [rewrite runes_nil; lia|]. rewrite (runes_step _ _ _ E). pose proof (decode_rune_lt _ _ _ E). cbn [length]. lia. Qed.
Lemma spaced_viable p s : p = [] \/ p = [43] -> spaced s -> (3 <= length (filter dig (runes s)))%nat -> isViablePhoneNumber (p ++ s) = true.
Proof.
  intros Hp S L. unfold isViablePhoneNumber. assert (R : runes (p ++ s) = p ++ runes s).
  { destruct Hp as [-> | ->]; [reflexivity|]. apply runes_ascii_app. repeat constructor. }
  assert (Ls : (2 <= length s)%nat).
  { assert (H : forall l, (length (filter dig l) <= length l)%nat) by (induction l as [|c l IH]; cbn [filter length]; [lia|destruct (dig c); cbn [length]; lia]). specialize (H (runes s)). pose proof (runes_short s). lia. }
  replace (Nat.ltb (len (p ++ s)) minLengthForNSN) with false by (symmetry; apply Nat.ltb_ge; unfold len, minLengthForNSN; rewrite app_length; lia).
  rewrite (anchored_match _ _ _ vp_shape); [|vm_compute; reflexivity]. rewrite R. rewrite <- (app_nil_r (p ++ runes s)). constructor; [|constructor]. constructor. apply L_alt_r. constructor.
  - apply star_lang. destruct Hp as [-> | ->]; vm_compute; reflexivity.
  - apply pieces_lang; auto. intros c. apply spaced_in. auto.
Qed.

(** * What is left of it *)
Lemma seps_alpha2 : alive (43 :: letters27) (re_ast validAlphaPhonePattern) = false. Proof. vm_compute. reflexivity. Qed.
Lemma plus_nodigit : digit_for 43 = None. Proof. vm_compute. reflexivity. Qed.
Lemma pre_runes p s : p = [] \/ p = [43] -> runes (p ++ s) = p ++ runes s.
Proof. intros [-> | ->]; [reflexivity|]. apply runes_ascii_app. repeat constructor. Qed.
Lemma pre_in p s c : p = [] \/ p = [43] -> spaced s -> In c (runes (p ++ s)) -> In c (43 :: letters27).
Proof. intros Hp S I. rewrite pre_runes in I by auto. apply in_app_or in I as [I|I]; [|right; eapply spaced_in; eauto]. destruct Hp as [-> | ->]; [destruct I|destruct I as [<-|[]]]. left. auto. Qed.
Lemma spaced_normal p s : p = [] \/ p = [43] -> spaced s -> normalize (p ++ s) = only_digits s.
Proof.
  intros Hp S. unfold normalize, re_match. rewrite (no_find (43 :: letters27)); [|apply seps_alpha2|intros c; apply pre_in; auto]. cbn [is_some]. rewrite NormalizeDigitsOnly_spec, pre_runes by auto.
  replace (digits_of (p ++ runes s)) with (digits_of (runes s)). 2:{ destruct Hp as [-> | ->]; [reflexivity|]. unfold digits_of. cbn [app flat_map]. rewrite plus_nodigit. reflexivity. }
  unfold only_digits. unfold spaced in S. induction (runes s) as [|c w IH]; [reflexivity|]. unfold digits_of. cbn [flat_map filter]. fold (digits_of w). rewrite IH by (intros x I; apply S; right; auto).
  change ((48 <=? c) && (c <=? 57)) with (dig c). destruct (dig c) eqn:D.
  - apply dig_iff in D. rewrite digit_for_self by auto. reflexivity.
  - destruct (S c (or_introl eq_refl)) as [H|H]; [apply dig_iff in H; congruence|]. pose proof seps_nodigit as Y. rewrite forallb_forall in Y. specialize (Y c H). destruct (digit_for c); [discriminate|reflexivity].
Qed.
Lemma spaced_normal0 s : spaced s -> normalize s = only_digits s. Proof. intros S. apply (spaced_normal []); auto. Qed.
Lemma only_digits_ok s : all_digits (only_digits s) = true.
Proof. unfold only_digits, all_digits. apply forallb_forall. intros c I. apply filter_In in I as [_ I]. apply is_digit_iff, dig_iff. exact I. Qed.
Lemma digits_spaced d : all_digits d = true -> spaced d.
Proof. intros D c I. rewrite digit_runes in I by auto. left. apply (all_digits_In d); auto. Qed.
Lemma only_digits_self d : all_digits d = true -> only_digits d = d.
Proof.
  intros D. unfold only_digits. rewrite digit_runes by auto. unfold all_digits in D. induction d as [|c d IH]; [reflexivity|]. cbn [forallb filter] in *. apply andb_true_iff in D as [D1 D2]. apply is_digit_iff, dig_iff in D1. unfold dig in D1. rewrite D1, IH by auto. reflexivity.
Qed.
Lemma spaced_plus s : spaced s -> exists g, re_find plusCharsPattern (43 :: s) = Some g /\ m_start g = 0%nat /\ m_end g = 1%nat.
Proof.
  intros S. destruct (starts_plus_find (43 :: s)) as (g & F & Z). { exists 43, s. split; [apply decode_ascii; reflexivity|auto]. }
  exists g. split; [exact F|]. split; [exact Z|]. apply re_find_sound in F as (L1 & L2 & Dv & _). rewrite Z in Dv. cbn [skipn] in Dv. apply derives_lang in Dv as (w & E & L).
  change (re_ast plusCharsPattern) with (RCat (RClass plus_cls) (RStar true (RClass plus_cls))) in L. apply lang_cat in L as (u & v & -> & Lu & Lv). apply lang_cls in Lu as (c & -> & _). cbn [app] in E.
  inversion E as [|? ? ? ? ? E1 E2]. subst. rewrite decode_ascii in E1 by reflexivity. inv E1. destruct v as [|x v].
  - assert (Hs : t = skipn (m_end g) (43 :: t)) by (inversion E2; congruence). apply (f_equal (@length N)) in Hs. rewrite skipn_length in Hs. cbn [length] in *. lia.
  - exfalso. apply star_class_lang in Lv. inversion Lv as [|? ? Hx _]. subst. apply eats_runes in E2. match type of E2 with runes ?z = _ => assert (I : In x (runes z)) by (rewrite E2; left; auto) end.
    apply plus_cls_iff in Hx. destruct (S x I) as [H|H]; [lia|]. cbn in H. lia.
Qed.
Lemma spaced_intl p s idd : p = [] \/ p = [43] -> spaced s -> s <> [] -> only_digits s <> [] -> maybeStripInternationalPrefixAndNormalize (p ++ s) idd = maybeStripInternationalPrefixAndNormalize (p ++ only_digits s) idd.
Proof.
  intros Hp S N1 N2. pose proof (digits_spaced _ (only_digits_ok s)) as Sd. pose proof (only_digits_self _ (only_digits_ok s)) as Id. unfold maybeStripInternationalPrefixAndNormalize. destruct Hp as [-> | ->]; cbn [app].
  - rewrite (no_find letters27 plusCharsPattern s); [|apply seps_plus|intros c; apply spaced_in; auto]. rewrite (no_find letters27 plusCharsPattern (only_digits s)); [|apply seps_plus|intros c; apply spaced_in; auto].
    rewrite (spaced_normal0 s), (spaced_normal0 (only_digits s)), Id by auto.
    destruct s; [congruence|]. destruct (only_digits _); [congruence|]. reflexivity.
  - destruct (spaced_plus s S) as ([a b cs] & -> & Ha & Hb). destruct (spaced_plus _ Sd) as ([a' b' cs'] & -> & Ha' & Hb'). cbn [m_start m_end] in *. subst. cbn [skipn].
    rewrite (spaced_normal0 s), (spaced_normal0 (only_digits s)), Id by auto. reflexivity.
Qed.
Lemma spaced_extract C p s dm : p = [] \/ p = [43] -> spaced s -> s <> [] -> only_digits s <> [] -> extract_core C (p ++ s) dm = extract_core C (p ++ only_digits s) dm.
Proof.
  intros Hp S N1 N2. unfold extract_core. cbv zeta. rewrite (spaced_intl p s _ Hp S N1 N2).
  destruct (p ++ s) eqn:E1; [apply app_eq_nil in E1 as [_ E1]; congruence|]. destruct (p ++ only_digits s) eqn:E2; [apply app_eq_nil in E2 as [_ E2]; congruence|]. reflexivity.
Qed.
Lemma spaced_code C p s dm : p = [] \/ p = [43] -> spaced s -> s <> [] -> only_digits s <> [] -> code_core C (p ++ s) dm = code_core C (p ++ only_digits s) dm.
Proof.
  intros Hp S N1 N2. pose proof (digits_spaced _ (only_digits_ok s)) as Sd. unfold code_core. rewrite spaced_extract by auto. destruct (extract_core C (p ++ only_digits s) dm) as [x|[]|]; auto.
  destruct Hp as [-> | ->]; cbn [app].
  - rewrite (no_find letters27 plusCharsPattern s); [|apply seps_plus|intros c; apply spaced_in; auto]. rewrite (no_find letters27 plusCharsPattern (only_digits s)); [|apply seps_plus|intros c; apply spaced_in; auto]. reflexivity.
  - destruct (spaced_plus s S) as (g & -> & _ & ->). destruct (spaced_plus _ Sd) as (g' & -> & _ & ->). cbn [skipn]. change s with ([] ++ s) at 1. rewrite (spaced_extract C [] s dm) by auto. reflexivity.
Qed.
Lemma spaced_region C p s r : p = [] \/ p = [43] -> spaced s -> s <> [] -> only_digits s <> [] -> checkRegionForParsing C (p ++ s) r = checkRegionForParsing C (p ++ only_digits s) r.
Proof.
  intros Hp S N1 N2. pose proof (digits_spaced _ (only_digits_ok s)) as Sd. unfold checkRegionForParsing, re_match. f_equal. f_equal.
  - destruct p; [|reflexivity]. cbn [app]. destruct s; [congruence|]. destruct (only_digits _); [congruence|reflexivity].
  - destruct Hp as [-> | ->]; cbn [app].
    + rewrite (no_find letters27 plusCharsPattern s); [|apply seps_plus|intros c; apply spaced_in; auto]. rewrite (no_find letters27 plusCharsPattern (only_digits s)); [|apply seps_plus|intros c; apply spaced_in; auto]. reflexivity.
    + destruct (spaced_plus s S) as (g & -> & _ & _). destruct (spaced_plus _ Sd) as (g' & -> & _ & _). reflexivity.
Qed.
Lemma spaced_ext p s : p = [] \/ p = [43] -> spaced s -> maybeStripExtension (p ++ s) = (p ++ s, []).
Proof. intros Hp S. unfold maybeStripExtension. rewrite (no_find (43 :: letters27)); [reflexivity|apply seps_ext|]. intros c. apply pre_in; auto. Qed.
Lemma byte_rune (s : bytes) c : c < 128 -> In c s -> In c (runes s).
Proof.
  intros Hc. induction s as [|s x t E IH] using runes_ind; [intros []|]. intros I. rewrite (runes_step _ _ _ E). destruct (decode_rune_spec _ _ _ E) as (w & -> & _ & _ & [(_ & ->)|(_ & b & w' & -> & Hb & Fw)]).
  - destruct I as [->|I]; [left; auto|right; auto].
  - apply in_app_or in I as [I|I]; [|right; auto]. exfalso. destruct I as [->|I]; [lia|]. rewrite Forall_forall in Fw. specialize (Fw _ I). cbn in Fw. lia.
Qed.
Definition starts_digit (s : bytes) : Prop := exists c t, s = c :: t /\ 48 <= c <= 57.
Theorem spaced_core C p x d r : p = [] /\ starts_digit (x ++ d) \/ p = [43] -> spaced (x ++ d) -> all_digits d = true -> d <> [] -> (3 <= length (only_digits (x ++ d)))%nat ->
  (length (p ++ x ++ d) <= 250)%nat -> parse_core C (p ++ x ++ d) r true = parse_core C (p ++ only_digits (x ++ d)) r true.
Proof.
  intros Hp S D Ne L3 L. set (s := x ++ d) in *. assert (Hp' : p = [] \/ p = [43]) by tauto. pose proof (only_digits_ok s) as Do. pose proof (digits_spaced _ Do) as Sd.
  assert (Lo : (length (only_digits s) <= length s)%nat).
  { pose proof (runes_short s). assert (H0 : forall l : list N, (length (filter dig l) <= length l)%nat) by (induction l as [|c l IH]; cbn [filter length]; [lia|destruct (dig c); cbn [length]; lia]). exact (Nat.le_trans _ _ _ (H0 (runes s)) H). }
  assert (N1 : s <> []) by (intros E; rewrite E in L3; cbn in L3; lia). assert (N2 : only_digits s <> []) by (intros E; rewrite E in L3; cbn [length] in L3; lia).
  assert (Cl : forall q, p = [] /\ starts_digit q \/ p = [43] -> clean (p ++ q)).
  { intros q [(-> & c & t & -> & Hc)| ->]; cbn [app]; [exists c, t; split; [apply decode_ascii; lia|]; right; right; unfold decimal; rewrite digit_for_self by auto; reflexivity|exists 43, q; split; [apply decode_ascii; reflexivity|auto]]. }
  assert (Sx : forall c, In c (runes x) -> In c letters27).
  { intros c I. apply (spaced_in s); auto. unfold s. rewrite runes_app_ascii by (apply digits_ascii; auto). apply in_or_app. auto. }
  assert (B1 : buildNationalNumberForParsing (p ++ s) = Ret (p ++ s)).
  { unfold s. rewrite app_assoc. apply text_clean; auto.
    - rewrite <- app_assoc. apply Cl. exact Hp.
    - rewrite pre_runes by auto. intros I. apply in_app_or in I as [I|I]; [destruct Hp' as [-> | ->]; [destruct I|destruct I as [I|[]]; discriminate]|]. apply Sx in I. cbn in I. lia.
    - rewrite pre_runes by auto. intros I. apply in_app_or in I as [I|I]; [destruct Hp' as [-> | ->]; [destruct I|destruct I as [I|[]]; discriminate]|]. apply Sx in I. cbn in I. lia.
    - intros I. apply in_app_or in I as [I|I]; [destruct Hp' as [-> | ->]; [destruct I|destruct I as [I|[]]; discriminate]|]. apply byte_rune in I; [|reflexivity]. apply Sx in I. cbn in I. lia. }
  assert (B2 : buildNationalNumberForParsing (p ++ only_digits s) = Ret (p ++ only_digits s)).
  { apply text_clean; auto.
    - apply Cl. destruct Hp as [[-> _]| ->]; [left; split; [reflexivity|]|right; reflexivity]. destruct (only_digits s) as [|c t]; [congruence|]. exists c, t. split; [reflexivity|]. apply (all_digits_In (c :: t)); [auto|left; auto].
    - destruct Hp' as [-> | ->]; [intros []|change (runes [43]) with [43]; intros [E|[]]; discriminate].
    - destruct Hp' as [-> | ->]; [intros []|change (runes [43]) with [43]; intros [E|[]]; discriminate].
    - destruct Hp' as [-> | ->]; [intros []|intros [E|[]]; discriminate]. }
  assert (V1 : isViablePhoneNumber (p ++ s) = true) by (apply spaced_viable; auto).
  assert (V2 : isViablePhoneNumber (p ++ only_digits s) = true).
  { apply spaced_viable; auto. change (filter dig (runes (only_digits s))) with (only_digits (only_digits s)). rewrite only_digits_self by auto. exact L3. }
  unfold parse_core. rewrite B1, B2. replace (is_empty (p ++ s)) with false by (symmetry; apply is_empty_false; intros E; apply app_eq_nil in E as [_ E]; congruence).
  replace (is_empty (p ++ only_digits s)) with false by (symmetry; apply is_empty_false; intros E; apply app_eq_nil in E as [_ E]; congruence).
  replace (Nat.ltb maxInputStringLength (len (p ++ s))) with false by (symmetry; apply Nat.ltb_ge; exact L).
  replace (Nat.ltb maxInputStringLength (len (p ++ only_digits s))) with false by (symmetry; apply Nat.ltb_ge; unfold len, maxInputStringLength; rewrite app_length in *; lia).
  cbn [bind]. rewrite V1, V2. cbn [negb]. rewrite spaced_region by auto. rewrite !spaced_ext by auto. rewrite spaced_code by auto. rewrite !spaced_normal by auto. rewrite (only_digits_self (only_digits s)) by auto. reflexivity.
Qed.
