(** The digits typed into the as-you-type formatter and the digits it shows. *)
From Verif Require Import Base BaseFacts UnicodeTables Utf8 Utf8Facts Regex RegexSpec RegexFacts RegexGrow NormalizeSpec NormalizeFacts Consts Types Normalize Validate NumberFacts Format Parse AsYouType AytfSpec FormatMore TableFacts AytfFacts AytfMore.
Local Opaque compile re_find re_replace_all.

(** ** Lists *)
Notation strip := (filter diallable).
Lemma digits_strip l : all_digits l = true -> strip l = l.
Proof. induction l as [|c l IH]; [reflexivity|]. unfold all_digits. cbn [forallb filter]. intros H. apply andb_prop in H as [H1 H2]. rewrite digit_diallable by exact H1. rewrite IH by exact H2. reflexivity. Qed.
Lemma gap_strip sp : gap sp -> strip sp = [].
Proof. intros [->| ->]; reflexivity. Qed.
Lemma runes_strip t : strip (encode_runes t) = strip t.
Proof.
  rewrite <- NormalizeDiallableCharsOnly_spec.
  assert (E : forall l, strip (encode_runes l) = strip l).
  { clear. induction l as [|c l IH]; [reflexivity|]. unfold encode_runes in *. cbn [flat_map]. rewrite filter_app, IH. cbn [filter].
    assert (X : strip (encode_rune c) = if diallable c then [c] else []); [|rewrite X; destruct (diallable c); reflexivity].
    destruct (N.lt_ge_cases c 128) as [L|L].
    - unfold encode_rune. apply N.ltb_lt in L. rewrite L. cbn [filter]. destruct (diallable c); reflexivity.
    - assert (D : diallable c = false) by (destruct (diallable c) eqn:D; [apply diallable_iff in D; lia|reflexivity]). rewrite D.
      assert (H : Forall (fun b => 128 <= b) (encode_rune c)).
      { unfold encode_rune. replace (c <? 128) with false by (symmetry; apply N.ltb_ge; lia). destruct (c <? 2048); [|destruct (_ || _); [|destruct (c <? 65536)]]; repeat constructor; lia. }
      induction H as [|b w Hb Hw IHw]; [reflexivity|]. cbn [filter]. replace (diallable b) with false; [exact IHw|]. symmetry. destruct (diallable b) eqn:Db; [apply diallable_iff in Db; lia|reflexivity]. }
  rewrite NormalizeDiallableCharsOnly_spec. apply E.
Qed.
Lemma part_refl x : part_of x x. Proof. induction x; constructor; assumption. Qed.
Lemma part_empty y : part_of [] y. Proof. induction y; constructor; assumption. Qed.
Lemma part_app a b c d : part_of a b -> part_of c d -> part_of (a ++ c) (b ++ d).
Proof. induction 1; intros H'; cbn [app]; [exact H'|apply part_skip; auto|apply part_keep; auto]. Qed.
Lemma part_trans x y z : part_of x y -> part_of y z -> part_of x z.
Proof.
  intros H H'. revert x H. induction H' as [|c y z H' IH|c y z H' IH]; intros x H; [exact H|apply part_skip; auto|]. inversion H; subst; [apply part_skip|apply part_keep]; auto.
Qed.

(** ** Templates *)
Definition open_ (c : N) : Prop := is_placeholder c = true \/ diallable c = false.
Definition shut (c : N) : Prop := is_placeholder c = false.
Lemma find_first X Y i : Forall shut X -> find_placeholder (X ++ digitPlaceholderRune :: Y) i = Some (i + length X)%nat.
Proof.
  intros H. revert i. induction H as [|c X Hc HX IH]; intros i; cbn [app find_placeholder length]; [rewrite N.eqb_refl; f_equal; lia|].
  unfold shut, is_placeholder in Hc. rewrite Hc, IH. f_equal. lia.
Qed.
Lemma find_none X i : Forall shut X -> find_placeholder X i = None.
Proof. intros H. revert i. induction H as [|c X Hc HX IH]; intros i; cbn [find_placeholder]; [reflexivity|]. unfold shut, is_placeholder in Hc. rewrite Hc. apply IH. Qed.
Lemma first_open B k : length (filter is_placeholder B) = S k -> exists B1 B2, B = B1 ++ digitPlaceholderRune :: B2 /\ Forall shut B1 /\ length (filter is_placeholder B2) = k.
Proof.
  induction B as [|c B IH]; cbn [filter length]; [discriminate|]. destruct (is_placeholder c) eqn:P.
  - cbn [length]. intros H. injection H as H. unfold is_placeholder in P. apply N.eqb_eq in P. subst c. exists [], B. split; [reflexivity|]. split; [constructor|exact H].
  - intros H. destruct (IH H) as (B1 & B2 & -> & H1 & H2). exists (c :: B1), B2. split; [reflexivity|]. split; [constructor; assumption|exact H2].
Qed.
Lemma no_open B : length (filter is_placeholder B) = 0%nat -> Forall shut B.
Proof. induction B as [|c B IH]; cbn [filter]; [constructor|]. destruct (is_placeholder c) eqn:P; [discriminate|]. constructor; auto. Qed.
(** The template shows the digits [n] and has room for [k] more. *)
Definition live (n : bytes) (k : nat) (s : aytf) : Prop := exists A B, f_tmpl s = A ++ B /\ (A = [] /\ f_last s = 0%nat \/ length A = S (f_last s)) /\
  Forall shut A /\ strip A = n /\ Forall open_ B /\ length (filter is_placeholder B) = k.
(** There is no room left. *)
Definition dead (s : aytf) : Prop := Forall shut (skipn (f_last s) (f_tmpl s)).
Definition sync (n : bytes) (s : aytf) : Prop := (exists k, live n (S k) s) \/ dead s.
Lemma live_tail A B last : (A = [] /\ last = 0%nat \/ length A = S last) -> Forall shut A -> exists A', skipn last (A ++ B) = A' ++ B /\ Forall shut A' /\ (last + length A' = length A)%nat.
Proof.
  intros [[-> ->]|L] H; [exists []; auto|]. exists (skipn last A). rewrite skipn_app. replace (last - length A)%nat with 0%nat by lia. split; [reflexivity|]. split; [|rewrite skipn_length; lia].
  rewrite <- (firstn_skipn last A) in H. apply Forall_app in H. apply H.
Qed.
Lemma live_dead n s : live n 0 s -> dead s.
Proof.
  intros (A & B & T & L & S & _ & _ & K). unfold dead. rewrite T. destruct (live_tail A B _ L S) as (A' & -> & HA & _). apply Forall_app. split; [exact HA|apply no_open; exact K].
Qed.
Lemma live_sync n k s : live n k s -> sync n s.
Proof. destruct k; intros H; [right; apply live_dead in H; exact H|left; eauto]. Qed.
Lemma digit_shut c : is_digit c = true -> shut c.
Proof. intros D. apply is_digit_iff in D. unfold shut, is_placeholder, digitPlaceholderRune. apply N.eqb_neq. lia. Qed.
Lemma helper_live n k s c : live n (S k) s -> is_digit c = true -> let r := inputDigitHelper s c in
  live (n ++ [c]) k (fst r) /\ strip (snd r) = n ++ [c] /\ f_pattern (fst r) = f_pattern s /\ f_able (fst r) = f_able s.
Proof.
  intros (A & B & T & L & HS & HN & O & K) D. cbv zeta. unfold inputDigitHelper. rewrite T. destruct (live_tail A B _ L HS) as (A' & -> & HA & LA). destruct (first_open B k K) as (B1 & B2 & -> & H1 & H2).
  rewrite app_assoc, find_first by (apply Forall_app; auto). cbn [fst snd f_pattern f_able f_tmpl f_last s_tmpl s_last].
  assert (I : (f_last s + length (A' ++ B1) = length (A ++ B1))%nat) by (rewrite !app_length; lia). rewrite I.
  assert (E : set_nth (A ++ B1 ++ digitPlaceholderRune :: B2) (length (A ++ B1)) c = (A ++ B1 ++ [c]) ++ B2).
  { unfold set_nth. rewrite app_assoc, firstn_app, firstn_all, Nat.sub_diag, firstn_O, app_nil_r, skipn_app. rewrite skipn_all2 by lia. replace (S (length (A ++ B1)) - length (A ++ B1))%nat with 1%nat by lia. cbn [skipn app]. rewrite <- !app_assoc. reflexivity. }
  rewrite E. assert (S1 : strip B1 = []).
  { apply Forall_app in O as [O _]. clear - O H1. induction H1 as [|x l Hx Hl IH]; [reflexivity|]. inversion O as [|? ? Ox Ol]; subst. cbn [filter]. destruct Ox as [Ox|Ox]; [unfold shut in Hx; congruence|]. rewrite Ox. auto. }
  assert (S2 : strip (A ++ B1 ++ [c]) = n ++ [c]) by (rewrite !filter_app, S1, HN; cbn [filter app]; rewrite digit_diallable by exact D; reflexivity).
  split; [|split; [|auto]].
  - exists (A ++ B1 ++ [c]), B2. cbn [f_tmpl f_last s_last]. split; [reflexivity|]. split; [right; rewrite !app_length; cbn; lia|]. split; [apply Forall_app; split; [exact HS|]; apply Forall_app; split; [exact H1|]; constructor; [apply digit_shut; exact D|constructor]|].
    split; [exact S2|]. apply Forall_app in O as [_ O]. inversion O; subst. auto.
  - rewrite runes_strip. replace (S (length (A ++ B1))) with (length (A ++ B1 ++ [c])) by (rewrite !app_length; cbn; lia). rewrite firstn_app, firstn_all, Nat.sub_diag, firstn_O, app_nil_r. exact S2.
Qed.
Lemma helper_dead s c : dead s -> let r := inputDigitHelper s c in dead (fst r) /\ f_pattern (fst r) = [].
Proof.
  intros H. cbv zeta. unfold inputDigitHelper. rewrite find_none by exact H. destruct (f_formats s) as [|x [|y l]]; cbn [fst f_pattern s_pattern]; (split; [exact H|reflexivity]).
Qed.
Lemma fold_live l : forall n k s t, live n k s -> all_digits l = true -> (length l <= k)%nat -> let r := fold_left (fun st c => inputDigitHelper (fst st) c) l (s, t) in
  live (n ++ l) (k - length l) (fst r) /\ (l <> [] -> strip (snd r) = n ++ l) /\ f_able (fst r) = f_able s.
Proof.
  induction l as [|c l IH]; intros n k s t H D L; cbv zeta; cbn [fold_left length] in *.
  - rewrite app_nil_r, Nat.sub_0_r. cbn [fst]. split; [exact H|]. split; [congruence|reflexivity].
  - destruct k as [|k]; [lia|]. unfold all_digits in D. cbn [forallb] in D. apply andb_prop in D as [D1 D2]. cbn [fst]. destruct (helper_live n k s c H D1) as (H1 & H2 & _ & H4). destruct (inputDigitHelper s c) as [s1 t1]. cbn [fst snd] in *.
    destruct (IH (n ++ [c]) k s1 t1 H1 D2 ltac:(lia)) as (G1 & G2 & G3). rewrite <- app_assoc in G1, G2. cbn [app] in G1, G2. replace (S k - S (length l))%nat with (k - length l)%nat by lia.
    split; [exact G1|]. split; [|congruence]. intros _. destruct l as [|x l]; [cbn [fold_left snd]; exact H2|apply G2; discriminate].
Qed.
Lemma append_strip s t : strip (appendNationalNumber s t) = strip (f_prefix s) ++ strip t.
Proof. unfold appendNationalNumber. destruct (_ && _); rewrite !filter_app; reflexivity. Qed.
Lemma accrue_live k s : live [] k s -> all_digits (f_nn s) = true -> f_nn s <> [] -> (length (f_nn s) <= k)%nat -> let r := inputAccruedNationalNumber s in
  sync (f_nn s) (fst r) /\ (f_able s = true -> strip (snd r) = strip (f_prefix s) ++ f_nn s) /\ f_able (fst r) = f_able s.
Proof.
  intros H D Ne L. cbv zeta. unfold inputAccruedNationalNumber. destruct (is_empty (f_nn s)) eqn:E; [destruct (f_nn s); [congruence|discriminate]|].
  pose proof (fold_helper_keeps (f_nn s) s []) as K. destruct (fold_live (f_nn s) [] k s [] H D L) as (G1 & G2 & G3). destruct (fold_left _ _ _) as [s1 t1]. cbn [fst snd app] in *. split; [eapply live_sync; exact G1|]. split; [|exact G3].
  intros A. rewrite G3, A, append_strip, (G2 Ne). destruct K as (_ & _ & K & _). rewrite K. reflexivity.
Qed.
Lemma template_room l : forall s, fmts_ok l -> holds (maybe_template_loop s l) (fun r => if snd r then f_formats (fst r) <> [] /\ exists k, live [] k (fst r) /\ (length (f_nn s) <= k)%nat
  else f_able (fst r) = false \/ f_formats (fst r) <> [] /\ f_pattern s <> [] /\ f_last (fst r) = f_last s /\ (f_tmpl (fst r) = f_tmpl s \/ f_tmpl (fst r) = [])).
Proof.
  induction l as [|f l IH]; intros s F; cbn [maybe_template_loop]; [apply holds_ret; cbn; auto|]. inversion F as [|? ? Hf Hl]; subst.
  destruct (beq (f_pattern s) (get_pattern f)) eqn:Q.
  { apply holds_ret. cbn. right. apply beq_eq in Q. rewrite Q. apply fmt_ok_parts in Hf as (Hf & _). split; [discriminate|auto]. }
  unfold createFormattingTemplate, getFormattingTemplate. unfold must_compile. unfold fmt_okb in Hf. apply andb_prop in Hf as [_ Hf]. unfold template_okb in Hf. destruct (compile (get_pattern f)) as [m|]; [|discriminate].
  cbn [or_panic bind]. unfold fill in Hf. set (T := flat_map _ _) in *. set (P := re_find_string m longestPhoneNumber) in *. clearbody T P. apply andb_prop in Hf as [H1 H2]. apply Nat.eqb_eq in H2. rewrite forallb_forall in H1.
  assert (SK : holds (maybe_template_loop (s_tmpl s []) l) (fun r => if snd r then f_formats (fst r) <> [] /\ exists k, live [] k (fst r) /\ (length (f_nn s) <= k)%nat
    else f_able (fst r) = false \/ f_formats (fst r) <> [] /\ f_pattern s <> [] /\ f_last (fst r) = f_last s /\ (f_tmpl (fst r) = f_tmpl s \/ f_tmpl (fst r) = []))).
  { eapply holds_imp; [apply IH; exact Hl|]. intros [s' b]. cbn [fst snd]. destruct b; [auto|]. intros [H|(G1 & G2 & G3 & [G4|G4])]; [auto| |]; right; cbn in *; auto. }
  destruct (len P <? len (f_nn s))%nat eqn:LP; cbn [bind is_empty]; [exact SK|]. destruct (is_empty T); cbn [bind]; [exact SK|].
  apply holds_ret. cbn [fst snd]. split; [cbn; discriminate|]. exists (length P). apply Nat.ltb_ge in LP. split; [|exact LP]. exists [], (runes T). cbn. split; [reflexivity|]. split; [auto|]. split; [constructor|]. split; [reflexivity|]. split; [|exact H2].
  apply Forall_forall. intros c Hc. specialize (H1 c Hc). cbv beta in H1. unfold open_. apply orb_prop in H1 as [H1|H1]; [auto|]. right. destruct (diallable c); [discriminate|reflexivity].
Qed.
Lemma stable m E y t : aytf_meta_okb m = true -> fixed_ndd m = true -> lasting m E -> E <> [] -> all_digits (E ++ y) = true -> all_digits (E ++ t) = true -> ext m (E ++ y) = E -> ext m (E ++ t) = E.
Proof.
  intros M Fx La Ne D1 D2 X. destruct (ext_again m E t M La Ne) as [R Y]. rewrite Y. rewrite <- (app_nil_r E) at 2. f_equal.
  assert (AS : forall l, all_digits l = true -> Forall (fun c => c < 128) l) by (intros l Hl; apply Forall_forall; intros c Hc; apply (all_digits_In _ _ Hl) in Hc; lia).
  destruct (Z.eq_dec (mcc m) 1) as [C1|C1].
  - rewrite ext_one in * by auto. destruct E as [|a E]; [congruence|]. cbn [app] in *. assert (a = 49 /\ E = []) as [-> ->]; [|injection Y as <-; reflexivity].
    destruct a as [|p]; try discriminate X; do 6 (destruct p as [p|p|]; try discriminate X). injection X as ->. auto.
  - unfold ext in *. assert (Nn : forall nn, nanpa m nn = false) by (intros nn; unfold nanpa; replace (mcc m =? 1)%Z with false by (symmetry; apply Z.eqb_neq; exact C1); reflexivity). rewrite Nn in *.
    unfold fixed_ndd in Fx. destruct (is_empty _) eqn:Em; [congruence|]. cbn [orb] in Fx. destruct (meta_ndd m M) as [Z|(x & Ex & S)]; [rewrite Z in Em; discriminate|]. rewrite Ex in *. 
    destruct (re_find x (E ++ y)) as [m1|] eqn:F1; [|congruence]. destruct (re_find x (E ++ t)) as [m2|] eqn:F2; [|symmetry in Y; apply app_eq_nil in Y as [Y _]; congruence].
    destruct E as [|e E]; [congruence|]. cbn [app] in F1, F2, D1, D2. pose proof (find_width x e _ _ S (AS _ D1) F1) as W1. pose proof (find_width x e _ _ S (AS _ D2) F2) as W2.
    rewrite forallb_forall in Fx. assert (De : In e (bs "0123456789")).
    { assert (B : 48 <= e <= 57) by (apply (all_digits_In _ _ D1); left; reflexivity). assert (G : e = 48 \/ e = 49 \/ e = 50 \/ e = 51 \/ e = 52 \/ e = 53 \/ e = 54 \/ e = 55 \/ e = 56 \/ e = 57) by lia. change (bs "0123456789") with [48; 49; 50; 51; 52; 53; 54; 55; 56; 57]. cbn [In]. intuition auto. }
    specialize (Fx e De). cbv beta in Fx. destruct (width_at e (re_ast x)) as [[n|]|]; [|discriminate|destruct W1]. rewrite W1 in X. rewrite W2 in Y.
    pose proof (re_find_sound _ _ _ F1) as (_ & B1 & _). rewrite W1 in B1. change ((e :: E) ++ y) with (e :: E ++ y) in X.
    assert (L1 : length (e :: E) = n) by (rewrite <- X at 1; rewrite firstn_length; lia). apply (f_equal (@length N)) in Y. rewrite firstn_length, (app_length (e :: E) R) in Y. apply length_zero_iff_nil. lia.
Qed.
Lemma live_same n k s s' : f_tmpl s' = f_tmpl s -> f_last s' = f_last s -> live n k s -> live n k s'.
Proof. unfold live. intros -> ->. auto. Qed.
Lemma dead_same s s' : f_tmpl s' = f_tmpl s -> f_last s' = f_last s -> dead s -> dead s'.
Proof. unfold dead. intros -> ->. auto. Qed.
Lemma sync_same n s s' : f_tmpl s' = f_tmpl s -> f_last s' = f_last s -> sync n s -> sync n s'.
Proof. intros T L [[k H]|H]; [left; exists k; eapply live_same; eauto|right; eapply dead_same; eauto]. Qed.
Lemma dead_empty s : f_tmpl s = [] -> dead s.
Proof. unfold dead. intros ->. rewrite skipn_nil. constructor. Qed.

Lemma idd_digits s d : aytf_meta_okb (f_meta s) = true -> all_digits d = true -> (f_plain s = d \/ f_plain s = 43 :: d) ->
  holds (attemptToExtractIdd s) (fun r => (snd r = true -> all_digits (f_nn (fst r)) = true) /\ (f_plain s = 43 :: d -> snd r = true)).
Proof.
  intros M Dd P. destruct (meta_idd _ M) as (x & X & A & r0 & R0 & R1). unfold attemptToExtractIdd, must_compile. change ([92; plusSign] ++ bs "|" ++ mbytes md_iprefix (f_meta s)) with (bs "\+|" ++ mbytes md_iprefix (f_meta s)).
  unfold idd_re in X. rewrite X. cbn [or_panic bind].
  assert (W : whole (bs "+")) by (apply whole_ascii; repeat constructor).
  pose proof (find_grow x (bs "+") d A W) as G. change (bs "+" ++ d) with (43 :: d) in G. change (length (bs "+")) with 1%nat in G.
  assert (SK : forall n, all_digits (skipn n d) = true). { intros n. unfold all_digits in *. rewrite forallb_forall in *. intros c Hc. apply Dd. rewrite <- (firstn_skipn n d). apply in_or_app. right. exact Hc. }
  destruct (re_find x (f_plain s)) as [m|] eqn:F.
  - cbn [f_plain s_prefix s_nn s_complete]. destruct (f_plain s) as [|c t] eqn:E; [exact I|]. assert (N : all_digits (skipn (m_end m) (c :: t)) = true).
    { destruct P as [<-|P]; [apply SK|]. rewrite P in F. rewrite F in G. destruct G as [_ G]. assert (B : (1 <= m_end m)%nat) by (destruct G as [G|(m1 & G1 & G2)]; [lia|rewrite R0 in G1; injection G1 as <-; lia]).
      destruct (m_end m) as [|e]; [lia|]. injection P as _ ->. apply SK. }
    destruct (c =? plusSign); apply holds_ret; cbn; auto.
  - apply holds_ret. cbn [snd fst]. split; [discriminate|]. intros Q. rewrite Q in F. rewrite F, R0 in G. discriminate.
Qed.

Section Kept.
Variables (strict : bool) (D : option meta).
Hypothesis HD : strict = true -> fixed_ndd D = true.
Definition rel (x y : list N) : Prop := if strict then x = y else part_of x y.
Lemma rel_eq x y : x = y -> rel x y.
Proof. intros ->. unfold rel. destruct strict; [reflexivity|apply part_refl]. Qed.
Lemma rel_app a b c d : rel a b -> rel c d -> rel (a ++ c) (b ++ d).
Proof. unfold rel. destruct strict; [congruence|apply part_app]. Qed.
Lemma rel_trans a b c : rel a b -> rel b c -> rel a c.
Proof. unfold rel. destruct strict; [congruence|apply part_trans]. Qed.
Definition okout (s : aytf) (o : bytes) : Prop := o = f_input s \/ rel (strip o) (f_plain s).
Definition filled (r : aytf * bytes) : Prop := okout (fst r) (snd r) /\ (f_able (fst r) = true -> sync (f_nn (fst r)) (fst r) /\ (f_formats (fst r) = [] -> dead (fst r))).

Lemma choose_ok s : aytf_meta_okb (f_meta s) = true -> f_formats s = [] -> f_able s = true -> all_digits (f_nn s) = true -> rel (strip (f_prefix s) ++ f_nn s) (f_plain s) -> dead s ->
  holds (attemptToChooseFormattingPattern s) filled.
Proof.
  intros M F A Dn R De. unfold attemptToChooseFormattingPattern. destruct (minLeadingDigitsLength <=? len (f_nn s))%nat eqn:L.
  2: { apply holds_ret. unfold filled. cbn [fst snd]. split; [right; rewrite append_strip, (digits_strip (f_nn s)) by exact Dn; exact R|]. intros _. split; [right; exact De|auto]. }
  apply Nat.leb_le in L. unfold minLeadingDigitsLength in L. assert (FO : fmts_ok (f_formats s)) by (rewrite F; constructor).
  assert (H1 : holds (getAvailableFormats s (f_nn s)) (fun s1 => (same s s1 /\ f_able s1 = f_able s) /\ fmts_ok (f_formats s1) /\ fill_same s s1)).
  { pose proof (available_keeps s (f_nn s)) as X. pose proof (available_formats s (f_nn s) M FO) as Y. destruct (getAvailableFormats s (f_nn s)); cbn in *; auto. }
  apply holds_bind. eapply holds_imp; [exact H1|]. clear H1. intros s1 ((K1 & A1) & F1 & S1). unfold attemptToFormatAccruedDigits.
  assert (H2 : holds (format_accrued_loop s1 (f_formats s1)) (fun r => (same s1 (fst r) /\ f_able (fst r) = f_able s1 /\ (snd r = [] \/ NormalizeDiallableCharsOnly (snd r) = f_plain s1)) /\ f_formats (fst r) = f_formats s1 /\ fill_same s1 (fst r))).
  { pose proof (accrued_keeps (f_formats s1) s1) as X. pose proof (accrued_formats (f_formats s1) s1) as Y. destruct (format_accrued_loop _ _); cbn in *; auto. }
  apply holds_bind. eapply holds_imp; [exact H2|]. clear H2. intros [s2 o] ((K2 & A2 & O) & F2 & S2). cbn [fst snd] in *.
  assert (K : same s s2) by (eapply same_trans; eassumption). destruct S1 as (T1 & L1 & P1). destruct S2 as (T2 & L2 & P2).
  assert (De2 : dead s2) by (eapply dead_same; [| |exact De]; congruence). destruct o as [|b o]; cbn [is_empty negb].
  2: { apply holds_ret. unfold filled. cbn [fst snd]. split; [right; destruct O as [O|O]; [discriminate|]; rewrite <- NormalizeDiallableCharsOnly_spec, O; apply rel_eq; symmetry; apply K2|]. intros _. split; [right; exact De2|auto]. }
  clear O. assert (F2' : fmts_ok (f_formats s2)) by (rewrite F2; exact F1). unfold maybeCreateNewTemplate.
  assert (H3 : holds (maybe_template_loop s2 (f_formats s2)) (fun r => (same s2 (fst r) /\ (snd r = true -> f_able (fst r) = f_able s2)) /\ (if snd r then f_formats (fst r) <> [] /\ exists k, live [] k (fst r) /\ (length (f_nn s2) <= k)%nat
     else f_able (fst r) = false \/ f_formats (fst r) <> [] /\ f_pattern s2 <> [] /\ f_last (fst r) = f_last s2 /\ (f_tmpl (fst r) = f_tmpl s2 \/ f_tmpl (fst r) = [])))).
  { pose proof (template_keeps (f_formats s2) s2) as X. pose proof (template_room (f_formats s2) s2 F2') as Y. destruct (maybe_template_loop _ _); cbn in *; auto. split; [|exact Y]. split; apply X. }
  apply holds_bind. eapply holds_imp; [exact H3|]. clear H3. intros [s3 b] ((K3 & A3) & T3). cbn [fst snd] in *. assert (K' : same s s3) by (eapply same_trans; eassumption). pose proof K' as (KK & Nn & Pp & _). pose proof KK as (_ & Pl & _). destruct b.
  - destruct T3 as (F3 & k & Lv & Lk). destruct K as (_ & Nn2 & _). assert (Ne : f_nn s3 <> []) by (rewrite Nn; intros Z; rewrite Z in L; cbn in L; lia).
    destruct (accrue_live k s3 Lv) as (G1 & G2 & G3); [rewrite Nn; exact Dn|exact Ne|rewrite Nn, <- Nn2; exact Lk|]. destruct (accrue_keeps s3) as [(K4 & N4 & P4 & _) _]. pose proof (accrue_formats s3) as F4. pose proof K4 as (_ & Pl4 & _). destruct (inputAccruedNationalNumber s3) as [s4 o4].
    cbn [fst snd] in *. apply holds_ret. unfold filled. cbn [fst snd]. split; [|intros _; split; [rewrite N4; exact G1|congruence]].
    right. rewrite G2 by (rewrite (A3 eq_refl); congruence). rewrite Pl4, Pl, Pp, Nn. exact R.
  - apply holds_ret. unfold filled. cbn [fst snd]. split; [left; reflexivity|]. intros A4. destruct T3 as [T3|(T3 & _ & T5 & T6)]; [congruence|].
    assert (De3 : dead s3) by (destruct T6 as [T6|T6]; [eapply dead_same; eauto|apply dead_empty; exact T6]). split; [right; exact De3|auto].
Qed.
Lemma default_ok C s c n0 : aytf_meta_okb (f_meta s) = true -> fmts_ok (f_formats s) -> f_expect s = false -> f_able s = true -> all_digits (f_nn s) = true -> rel (strip (f_prefix s) ++ f_nn s) (f_plain s) ->
  is_digit c = true -> f_nn s = n0 ++ [c] -> sync n0 s -> (f_formats s = [] -> dead s) -> holds (input_default C s c) filled.
Proof.
  intros M FO X A Dn R Dc Nc Sy De. unfold input_default. rewrite X. destruct (f_formats s) as [|f0 l0] eqn:F; [apply choose_ok; auto|]. clear De.
  pose proof (helper_keeps s c) as K1. pose proof (helper_formats s c) as F1.
  assert (H1 : (f_pattern (fst (inputDigitHelper s c)) = [] \/ strip (snd (inputDigitHelper s c)) = f_nn s /\ f_able (fst (inputDigitHelper s c)) = true) /\ sync (f_nn s) (fst (inputDigitHelper s c))).
  { destruct Sy as [[k Lv]|De]; [destruct (helper_live n0 k s c Lv Dc) as (G1 & G2 & _ & G4); rewrite Nc; split; [right; split; [exact G2|congruence]|eapply live_sync; exact G1]|]. destruct (helper_dead s c De) as (G1 & G2). split; [left; exact G2|right; exact G1]. }
  destruct (inputDigitHelper s c) as [s1 temp]. cbn [fst snd] in *. destruct H1 as [Pt Sy1].
  assert (H2 : holds (format_accrued_loop s1 (f_formats s1)) (fun r => (same s1 (fst r) /\ f_able (fst r) = f_able s1 /\ (snd r = [] \/ NormalizeDiallableCharsOnly (snd r) = f_plain s1)) /\ f_formats (fst r) = f_formats s1 /\ fill_same s1 (fst r))).
  { pose proof (accrued_keeps (f_formats s1) s1) as Y. pose proof (accrued_formats (f_formats s1) s1) as Z. destruct (format_accrued_loop _ _); cbn in *; auto. }
  apply holds_bind. unfold attemptToFormatAccruedDigits. eapply holds_imp; [exact H2|]. clear H2. intros [s2 o] ((K2 & A2 & O) & F2 & T2 & L2 & P2). cbn [fst snd] in *.
  assert (K : same s s2) by (eapply same_trans; eassumption). assert (Sy2 : sync (f_nn s) s2) by (eapply sync_same; eauto). pose proof K as (KK2 & Nn2 & _).
  destruct o as [|b o]; cbn [is_empty negb].
  2: { apply holds_ret. unfold filled. cbn [fst snd]. split; [right; destruct O as [O|O]; [discriminate|]; rewrite <- NormalizeDiallableCharsOnly_spec, O; apply rel_eq; symmetry; apply K2|]. intros _. split; [rewrite Nn2; exact Sy2|congruence]. }
  clear O. assert (H3 : holds (narrowDownPossibleFormats s2 (f_nn s2)) (fun s3 => (same s2 s3 /\ f_able s3 = f_able s2) /\ incl (f_formats s3) (f_formats s2) /\ fill_same s2 s3)).
  { pose proof (narrow_keeps s2 (f_nn s2)) as Y. pose proof (narrow_formats s2 (f_nn s2)) as Z. destruct (narrowDownPossibleFormats _ _); cbn in *; auto. }
  apply holds_bind. eapply holds_imp; [exact H3|]. clear H3. intros s3 ((K3 & A3) & F3 & T3 & L3 & P3). assert (FO3 : fmts_ok (f_formats s3)) by (eapply fmts_incl; [exact F3|]; rewrite F2, F1, F; exact FO).
  unfold maybeCreateNewTemplate.
  assert (H4 : holds (maybe_template_loop s3 (f_formats s3)) (fun r => (same s3 (fst r) /\ (snd r = true -> f_able (fst r) = f_able s3)) /\ (if snd r then f_formats (fst r) <> [] /\ exists k, live [] k (fst r) /\ (length (f_nn s3) <= k)%nat
     else f_able (fst r) = false \/ f_formats (fst r) <> [] /\ f_pattern s3 <> [] /\ f_last (fst r) = f_last s3 /\ (f_tmpl (fst r) = f_tmpl s3 \/ f_tmpl (fst r) = [])))).
  { pose proof (template_keeps (f_formats s3) s3) as Y. pose proof (template_room (f_formats s3) s3 FO3) as Z. destruct (maybe_template_loop _ _); cbn in *; auto. split; [|exact Z]. split; apply Y. }
  apply holds_bind. eapply holds_imp; [exact H4|]. clear H4. intros [s4 b] ((K4 & A4) & T4). cbn [fst snd] in *. assert (K' : same s s4) by (eapply same_trans; [exact K|]; eapply same_trans; eassumption).
  pose proof K' as (KK & Nn & Pp & _). pose proof KK as (_ & Pl & _). destruct b.
  - destruct T4 as (F4 & k & Lv & Lk). destruct K4 as (_ & Nn4 & _). assert (Ne : f_nn s4 <> []) by (rewrite Nn, Nc; intros Z; apply app_eq_nil in Z as [_ Z]; discriminate).
    destruct (accrue_live k s4 Lv) as (G1 & G2 & G3); [rewrite Nn; exact Dn|exact Ne|rewrite Nn4; exact Lk|]. destruct (accrue_keeps s4) as [(K5 & N5 & P5 & _) I5]. pose proof (accrue_formats s4) as F5. pose proof K5 as (_ & Pl5 & _). destruct (inputAccruedNationalNumber s4) as [s5 o5].
    cbn [fst snd] in *. apply holds_ret. unfold filled. cbn [fst snd]. split; [|intros _; split; [rewrite N5; exact G1|congruence]].
    destruct (f_able s4) eqn:Ab; [right; rewrite G2 by reflexivity; rewrite Pl5, Pl, Pp, Nn; exact R|left; apply I5; [right; exact Ne|exact G3]].
  - destruct (f_able s4) eqn:Ab; apply holds_ret; unfold filled; cbn [fst snd]; [|split; [left; reflexivity|congruence]].
    destruct T4 as [T4|(T4 & P4 & L4 & T6)]; [congruence|]. destruct Pt as [Pt|[Pt _]]; [congruence|]. split; [right; rewrite append_strip, Pt, Pp, Pl; exact R|]. intros _. split; [|congruence]. rewrite Nn.
    destruct T6 as [T6|T6]; [eapply sync_same; [exact T6|exact L4|]; eapply sync_same; [exact T3|exact L3|]; exact Sy2|right; apply dead_empty; exact T6].
Qed.

(** What holds after every key, as long as the user has not formatted the number. *)
Record cv (k : nat) (n : bytes) (s : aytf) : Prop := {
  v_nn : all_digits (f_nn s) = true;
  v_ndd : all_digits (f_ndd s) = true;
  v_plain : exists d, all_digits d = true /\ (f_plain s = d \/ f_plain s = 43 :: d);
  v_early : (len (f_plain s) < k)%nat -> f_prefix s = [] /\ (f_plain s = f_nn s \/ f_plain s = 43 :: f_nn s) /\ f_meta s = D /\ dead s;
  v_con : (k <= len (f_plain s))%nat -> rel (strip (f_prefix s) ++ f_nn s) (f_plain s);
  v_strict : strict = true -> f_ndd s <> [] -> idd_hit (f_meta s) (f_plain s) \/
    f_meta s = D /\ exists sp y, gap sp /\ f_prefix s = f_ndd s ++ sp /\ all_digits y = true /\ ext D (f_ndd s ++ y) = f_ndd s;
  v_sync : f_able s = true -> sync n s;
  v_dead : f_able s = true -> f_formats s = [] -> dead s }.
Lemma new_cv C r : D = aytf_metadata C r -> cv 3 [] (GetAsYouTypeFormatter C r).
Proof.
  intros E. assert (De : dead (GetAsYouTypeFormatter C r)) by (apply dead_empty; reflexivity). constructor; cbn; try reflexivity; auto.
  - exists []. auto.
  - intros L. lia.
  - congruence.
  - intros _. right. exact De.
Qed.
Lemma accrued_cv ts s ns c b : good ts s ns -> np 3 s -> cv 3 (f_nn s) s -> f_userfmt (fst (accrued s c b)) = false -> hd 0 (ts ++ [c]) <> 65291 ->
  cv 4 (f_nn s) (fst (accrued s c b)) /\ (len (f_plain (fst (accrued s c b))) = 1%nat \/ is_digit (snd (accrued s c b)) = true /\ f_nn (fst (accrued s c b)) = f_nn s ++ [snd (accrued s c b)]).
Proof.
  intros G NP [V1 V2 V3 V4 V5 V6 V7 V8] U H. pose proof (g_input _ _ _ G) as GI. pose proof (g_plain _ _ _ G) as GP. unfold accrued in *. set (s0 := s_input s _) in *. set (s1 := if b then _ else s0) in *.
  assert (E : f_input s1 = f_input s ++ encode_rune c /\ f_meta s1 = f_meta s /\ f_formats s1 = f_formats s /\ f_able s1 = f_able s /\ f_plain s1 = f_plain s /\ f_nn s1 = f_nn s /\ f_ndd s1 = f_ndd s /\ f_prefix s1 = f_prefix s /\ f_tmpl s1 = f_tmpl s /\ f_last s1 = f_last s) by (destruct b; cbn; auto 20).
  assert (U1 : f_userfmt s1 = f_userfmt s) by (destruct b; reflexivity). clearbody s1. clear s0. destruct E as (E0 & E1 & E2 & E3 & E5 & E6 & E7 & E8 & E9 & E10).
  destruct (isDigitOrLeadingPlusSign s1 c) eqn:Q; [|cbn in U; discriminate].
  assert (US : f_userfmt s = false). { unfold normalizeAndAccrueDigitsAndPlusSign in U. destruct (c =? plusSign), b; cbn in U; congruence. }
  pose proof (g_norm _ _ _ G US) as GN.
  unfold isDigitOrLeadingPlusSign in Q. rewrite E0, GI, <- encode_runes_one, <- encode_runes_app, runes_count, app_length, is_Nd_decimal, encode_runes_one, leading_plus in Q. cbn [length] in Q.
  assert (N : exists v, (c = 43 /\ ts = [] /\ v = 43 \/ c <> 43 /\ is_digit v = true) /\ let r := normalizeAndAccrueDigitsAndPlusSign s1 c b in snd r = v /\ f_meta (fst r) = f_meta s /\ f_formats (fst r) = f_formats s /\ f_able (fst r) = f_able s /\ f_plain (fst r) = f_plain s ++ [v] /\
     f_nn (fst r) = (if c =? 43 then f_nn s else f_nn s ++ [v]) /\ f_ndd (fst r) = f_ndd s /\ f_prefix (fst r) = f_prefix s /\ f_tmpl (fst r) = f_tmpl s /\ f_last (fst r) = f_last s).
  { unfold normalizeAndAccrueDigitsAndPlusSign, plusSign. destruct (N.eq_dec c 43) as [Ec|Ec].
    - subst c. exists 43. split; [left; split; [reflexivity|]; split; [|reflexivity]|].
      + replace (decimal 43) with false in Q by (vm_compute; reflexivity). destruct ts; [reflexivity|]. cbn [length orb] in Q. replace (S (length ts) + 1 =? 1)%nat with false in Q by (symmetry; apply Nat.eqb_neq; lia). discriminate.
      + cbn [N.eqb Pos.eqb]. destruct b; cbn; rewrite ?E1, ?E2, ?E3, ?E5, ?E6, ?E7, ?E8, ?E9, ?E10; auto 20.
    - replace (c =? 43) with false in * by (symmetry; apply N.eqb_neq; exact Ec).
      assert (Dc : decimal c = true).
      { destruct (decimal c); [reflexivity|]. cbn [orb] in Q. apply andb_prop in Q as [Q1 Q2]. apply N.eqb_eq in Q2. apply Nat.eqb_eq in Q1. destruct ts; [|cbn [length] in Q1; lia]. cbn in H. congruence. }
      unfold decimal in Dc. rewrite char_digit_spec. destruct (digit_for c) as [v|] eqn:Dv; [|discriminate]. exists v. assert (Dg : is_digit v = true) by (apply is_digit_iff; eapply digit_for_digit; exact Dv). split; [right; auto|].
      assert (Ev : encode_rune v = [v]) by (apply is_digit_iff in Dg; unfold encode_rune; replace (v <? 128) with true by (symmetry; apply N.ltb_lt; lia); reflexivity).
      rewrite Ev. destruct b; cbn; rewrite ?E1, ?E2, ?E3, ?E5, ?E6, ?E7, ?E8, ?E9, ?E10; auto 20. }
  destruct N as (v & Hv & N). cbv zeta in N. destruct (normalizeAndAccrueDigitsAndPlusSign s1 c b) as [r v']. cbn [fst snd] in *. destruct N as (-> & N1 & N2 & N3 & N4 & N5 & N6 & N7 & N8 & N9). clear E0 E1 E2 E3 E5 E6 E7 E8 E9 E10 U1 s1 Q U.
  destruct Hv as [(-> & -> & ->)|[Nc Dv]].
  - cbn [N.eqb Pos.eqb] in *. subst ns. assert (P0 : f_plain s = []) by (rewrite GP; reflexivity). rewrite P0 in *. cbn [app] in N4. destruct (V4 ltac:(cbn; lia)) as (Q1 & Q2 & Q3 & Q4). assert (Nn : f_nn s = []) by (destruct Q2 as [Q2|Q2]; congruence).
    split; [|left; rewrite N4; reflexivity]. constructor.
    + rewrite N5. exact V1.
    + rewrite N6. exact V2.
    + exists []. split; [reflexivity|]. right. exact N4.
    + intros _. rewrite N7, N4, N5, N1, Nn. split; [exact Q1|]. split; [right; reflexivity|]. split; [exact Q3|]. eapply dead_same; eauto.
    + rewrite N4. intros L. cbn in L. lia.
    + rewrite N6. intros S Ne. destruct (n_early _ _ NP) as (Z & _); [rewrite P0; cbn; lia|]. congruence.
    + intros A. rewrite N3 in A. eapply sync_same; [exact N8|exact N9|]. auto.
    + intros A F. eapply dead_same; eauto.
  - replace (c =? 43) with false in N5 by (symmetry; apply N.eqb_neq; exact Nc). assert (D1 : all_digits [v] = true) by (unfold all_digits; cbn [forallb]; rewrite Dv; reflexivity).
    split; [|right; auto]. constructor.
    + rewrite N5, all_digits_app, V1, D1. reflexivity.
    + rewrite N6. exact V2.
    + destruct V3 as (d & Dd & Pd). exists (d ++ [v]). split; [rewrite all_digits_app, Dd, D1; reflexivity|]. rewrite N4. destruct Pd as [-> | ->]; auto.
    + rewrite N4. intros L. unfold len in *. rewrite app_length in L. cbn in L. destruct (V4 ltac:(lia)) as (Q1 & Q2 & Q3 & Q4). rewrite N7, N5, N1. split; [exact Q1|]. split; [destruct Q2 as [-> | ->]; auto|]. split; [exact Q3|]. eapply dead_same; eauto.
    + rewrite N4, N5, N7. intros L. unfold len in *. rewrite app_length in L. cbn in L. rewrite app_assoc. apply rel_app; [apply V5; lia|apply rel_eq; reflexivity].
    + rewrite N1, N4, N6, N7. intros S Ne. destruct (V6 S Ne) as [X|X]; [left|right; exact X]. apply idd_hit_more; [apply (n_meta _ _ NP)|apply (n_plain _ _ NP)|exact X].
    + intros A. eapply sync_same; [exact N8|exact N9|]. apply V7. congruence.
    + intros A F. eapply dead_same; [exact N8|exact N9|]. apply V8; congruence.
Qed.
Lemma plain_strip s k n : cv k n s -> strip (f_plain s) = f_plain s.
Proof. intros V. destruct (v_plain _ _ _ V) as (d & Dd & [->| ->]); [apply digits_strip; exact Dd|]. cbn [filter]. replace (diallable 43) with true by reflexivity. rewrite digits_strip by exact Dd. reflexivity. Qed.
(** Moving the country code from the number to the prefix. *)
Lemma cc_kept C s : aytf_ok C -> aytf_meta_okb (f_meta s) = true -> all_digits (f_nn s) = true -> rel (strip (f_prefix s) ++ f_nn s) (f_plain s) ->
  let s' := fst (attemptToExtractCountryCallingCode C s) in all_digits (f_nn s') = true /\ rel (strip (f_prefix s') ++ f_nn s') (f_plain s').
Proof.
  intros CO M Dn R. cbv zeta. destruct (cc_spec C s CO M) as ((_ & P & _) & _ & _ & _ & _ & _ & _ & _ & Q). destruct (attemptToExtractCountryCallingCode C s) as [s' ok]. cbn [fst snd] in *. destruct ok; [|subst s'; auto].
  destruct Q as (_ & cc & X & Pr). apply extract_some in X as (X & _ & C0 & _); [|exact Dn]. rewrite X, all_digits_app in Dn. apply andb_prop in Dn as [Dc Dn]. split; [exact Dn|].
  rewrite P, Pr, !filter_app, (digits_strip _ Dc). cbn [filter]. replace (diallable 32) with false by reflexivity. rewrite app_nil_r, <- app_assoc, <- X. exact R.
Qed.
Lemma extracted_ok s : aytf_meta_okb (f_meta s) = true -> all_digits (f_nn s) = true -> rel (strip (f_prefix s) ++ f_nn s) (f_plain s) ->
  holds (attemptToChoosePatternWithPrefixExtracted s) (fun r => filled r /\ (keeps s (fst r) /\ f_nn (fst r) = f_nn s /\ f_prefix (fst r) = f_prefix s /\ f_meta (fst r) = f_meta s /\ f_ndd (fst r) = f_ndd s)).
Proof.
  intros M Dn R. unfold attemptToChoosePatternWithPrefixExtracted. set (s1 := s_pattern _ _).
  pose proof (choose_ok s1 M eq_refl eq_refl Dn R (dead_empty s1 eq_refl)) as X. pose proof (choose_keeps s1) as Y. destruct (attemptToChooseFormattingPattern s1) as [r| |]; cbn [holds] in *; auto. split; [exact X|]. destruct Y as [(K & Y1 & Y2 & Y3 & Y4 & _) _].
  split; [exact K|]. split; [exact Y1|]. split; [exact Y2|]. split; [exact Y3|exact Y4].
Qed.
Lemma step_cv C ts s ns c b : aytf_ok C -> good ts s ns -> (f_userfmt s = false -> np 3 s) -> (f_userfmt s = false -> hd 0 ts <> 65291 -> cv 3 (f_nn s) s) -> hd 0 (ts ++ [c]) <> 65291 ->
  holds (inputDigitWithOptionToRememberPosition C s c b) (fun r => f_userfmt (fst r) = false -> cv 3 (f_nn (fst r)) (fst r) /\ okout (fst r) (snd r)).
Proof.
  intros CO G HN HV HH. unfold inputDigitWithOptionToRememberPosition.
  assert (US : f_userfmt (fst (accrued s c b)) = false -> f_userfmt s = false).
  { intros U. destruct (accrued_good ts s ns c b G) as (ns' & [_ _ G3 _ _ _ _] & _). rewrite U, dialled_snoc in G3. rewrite (g_user _ _ _ G). destruct (dialled ts); [reflexivity|discriminate]. }
  assert (A1 : f_userfmt (fst (accrued s c b)) = false -> np 4 (fst (accrued s c b)) /\ f_plain (fst (accrued s c b)) <> []) by (intros U; apply accrued_np; auto).
  assert (HT : hd 0 ts <> 65291) by (destruct ts; [discriminate|exact HH]).
  assert (A2 : f_userfmt (fst (accrued s c b)) = false -> cv 4 (f_nn s) (fst (accrued s c b)) /\ (len (f_plain (fst (accrued s c b))) = 1%nat \/ is_digit (snd (accrued s c b)) = true /\ f_nn (fst (accrued s c b)) = f_nn s ++ [snd (accrued s c b)]))
    by (intros U; eapply accrued_cv; eauto).
  destruct (accrued_good ts s ns c b G) as (ns' & G' & _ & _). clear G HN HV US HT HH.
  unfold accrued in *. cbv zeta in *. destruct (if isDigitOrLeadingPlusSign _ c then _ else _) as [s1 c1]. cbn [fst snd] in *.
  destruct (f_userfmt s1) eqn:U.
  { rewrite (g_able _ _ _ G' U). cbn [negb]. apply holds_ret. cbn [fst]. congruence. }
  destruct (A1 eq_refl) as [NP Ne]. destruct (A2 eq_refl) as [V Ch]. clear A1 A2 G' U. pose proof (plain_strip _ _ _ V) as PS. pose proof (v_plain _ _ _ V) as (d & Dd & Pd). pose proof (n_meta _ _ NP) as M.
  destruct (f_able s1) eqn:Ab; cbn [negb].
  - destruct (len (f_plain s1) <=? 2)%nat eqn:L2.
    { apply Nat.leb_le in L2. apply holds_ret. intros _. cbn [fst snd]. split; [|left; reflexivity]. destruct V as [V1 V2 V3 V4 V5 V6 V7 V8]. destruct (V4 ltac:(lia)) as (Q1 & Q2 & Q3 & Q4). constructor; auto; [intros B; lia|intros _; right; exact Q4]. }
    apply Nat.leb_gt in L2. destruct Ch as [Ch|[Dc Nc]]; [lia|]. destruct (len (f_plain s1) =? 3)%nat eqn:L3.
    + apply Nat.eqb_eq in L3. destruct V as [V1 V2 V3 V4 V5 V6 V7 V8]. destruct (V4 ltac:(lia)) as (Q1 & Q2 & Q3 & Q4). destruct (n_early _ _ NP ltac:(lia)) as (D0 & _ & _ & F0 & X0 & _).
      assert (HI : holds (attemptToExtractIdd s1) (fun r => (frame s1 (fst r) /\ (if snd r then idd_hit (f_meta s1) (f_plain s1) /\ exists E sp, gap sp /\ f_plain s1 = E ++ f_nn (fst r) /\ f_prefix (fst r) = E ++ sp else fst r = s1 /\ ~ idd_hit (f_meta s1) (f_plain s1))) /\
        ((snd r = true -> all_digits (f_nn (fst r)) = true) /\ (f_plain s1 = 43 :: d -> snd r = true)))).
      { pose proof (idd_spec s1) as X. pose proof (idd_digits s1 d M Dd Pd) as Y. destruct (attemptToExtractIdd s1); cbn in *; auto. }
      apply holds_bind. eapply holds_imp; [exact HI|]. clear HI. intros [s2 idd] ((Fr & Q) & Dn & Pl). cbn [fst snd] in *. destruct idd.
      * destruct Q as [_ (E & sp & Gp & PE & Pr)]. specialize (Dn eq_refl). clear Pl. pose proof Fr as ((_ & P2 & _) & A2 & T2 & L2' & _ & F2 & _ & M2 & D2).
        assert (R2 : rel (strip (f_prefix s2) ++ f_nn s2) (f_plain s2)).
        { apply rel_eq. rewrite P2, Pr, filter_app, (gap_strip _ Gp), app_nil_r. rewrite <- PS, PE, filter_app, (digits_strip _ Dn). reflexivity. }
        set (s3 := s_expect s2 true). unfold input_default. replace (f_expect s3) with true by reflexivity.
        assert (M3 : aytf_meta_okb (f_meta s3) = true) by (cbn; rewrite M2; exact M). destruct (cc_kept C s3 CO M3 Dn R2) as [Dn4 R4].
        destruct (cc_spec C s3 CO M3) as (K4 & A4 & T4 & L4 & _ & F4 & _ & _ & Q5). destruct (attemptToExtractCountryCallingCode C s3) as [s4 ok]. cbn [fst snd] in *. pose proof K4 as (_ & P4 & _).
        assert (N4 : f_ndd s4 = []) by (destruct ok; [apply Q5|rewrite Q5; cbn; congruence]). assert (De : dead s4) by (eapply dead_same; [| |exact Q4]; [rewrite T4; cbn; exact T2|rewrite L4; cbn; exact L2']).
        assert (PP : f_plain s4 = f_plain s1) by (rewrite P4; exact P2).
        assert (CV : cv 3 (f_nn s4) s4).
        { constructor; auto; try (rewrite N4; try reflexivity; congruence).
          - rewrite PP. exact V3.
          - rewrite PP. intros B. lia.
          - intros _. right. exact De. }
        apply holds_ret. intros _. cbn [fst snd]. split; [destruct ok; [|exact CV]; destruct CV as [W1 W2 W3 W4 W5 W6 W7 W8]; constructor; assumption|].
        right. assert (strip (f_prefix s4 ++ f_nn s4) = strip (f_prefix s4) ++ f_nn s4) as Z by (rewrite filter_app, (digits_strip _ Dn4); reflexivity). destruct ok; cbn; rewrite Z; exact R4.
      * destruct Q as [-> Qi]. clear Dn. assert (PN : f_plain s1 = f_nn s1).
        { destruct Q2 as [Q2|Q2]; [exact Q2|]. destruct Pd as [Pd|Pd]; [|discriminate (Pl Pd)]. rewrite Pd in Q2. rewrite Q2 in Dd. unfold all_digits in Dd. cbn in Dd. discriminate. }
        apply holds_bind. eapply holds_imp; [apply remove_spec|]. intros [s3 E] (R1 & R2 & (sp & R3 & R4) & Fr3). cbn [fst snd] in *. pose proof Fr3 as (K3 & A3 & T3 & L3' & _ & F3 & _ & M3 & _). pose proof K3 as (_ & P3 & _).
        rewrite R2, all_digits_app in V1. apply andb_prop in V1 as [DE Dn]. rewrite Q1 in R4. cbn [app] in R4.
        assert (Rl : rel (strip (f_prefix s3) ++ f_nn s3) (f_plain s3)) by (apply rel_eq; rewrite R4, filter_app, (gap_strip _ R3), (digits_strip _ DE), app_nil_r, P3, PN; symmetry; exact R2).
        set (s4 := s_ndd s3 E). assert (De : dead s4) by (eapply dead_same; [| |exact Q4]; [exact T3|exact L3']).
        assert (CH : holds (attemptToChooseFormattingPattern s4) (fun r => filled r /\ same s4 (fst r))).
        { pose proof (choose_ok s4) as X. pose proof (choose_keeps s4) as Y. destruct (attemptToChooseFormattingPattern s4) as [r| |]; cbn [holds] in *; auto. split; [|apply Y]. apply X; cbn; auto; try congruence. }
        eapply holds_imp; [exact CH|]. intros [s5 o] [[O5 S5] (K5 & N5 & P5 & M5 & D5 & _)] _. cbn [fst snd] in *. split; [|exact O5]. pose proof K5 as (_ & PL5 & _). constructor.
        -- rewrite N5. exact Dn.
        -- rewrite D5. exact DE.
        -- rewrite PL5. cbn. rewrite P3. exact V3.
        -- rewrite PL5. cbn. rewrite P3. intros B. unfold len in *. lia.
        -- rewrite PL5, N5, P5. intros _. exact Rl.
        -- intros S B. right. rewrite M5, D5, P5. cbn. rewrite M3. split; [exact Q3|]. exists sp, (f_nn s3). split; [exact R3|]. split; [exact R4|]. split; [exact Dn|]. rewrite <- R2, <- Q3. symmetry. exact R1.
        -- intros A. apply S5. exact A.
        -- intros A. apply S5. exact A.
    + apply Nat.eqb_neq in L3. destruct V as [V1 V2 V3 V4 V5 V6 V7 V8]. assert (L : (4 <= len (f_plain s1))%nat) by lia. specialize (V5 L). destruct (f_expect s1) eqn:X.
      * pose proof (n_expect _ _ NP X) as F1. unfold input_default. rewrite X. destruct (cc_kept C s1 CO M V1 V5) as [Dn4 R4]. destruct (cc_spec C s1 CO M) as (K4 & A4 & T4 & L4 & _ & F4 & _ & _ & Q5). destruct (attemptToExtractCountryCallingCode C s1) as [s4 ok]. cbn [fst snd] in *.
        pose proof K4 as (_ & P4 & _). assert (De : dead s4) by (eapply dead_same; [exact T4|exact L4|]; auto).
        assert (CV : cv 3 (f_nn s4) s4).
        { constructor; auto.
          - destruct ok; [destruct Q5 as [-> _]; reflexivity|subst s4; exact V2].
          - rewrite P4. exact V3.
          - rewrite P4. intros B. lia.
          - destruct ok; [destruct Q5 as [-> _]; congruence|subst s4; exact V6].
          - intros _. right. exact De. }
        apply holds_ret. intros _. cbn [fst snd]. split; [destruct ok; [|exact CV]; destruct CV as [W1 W2 W3 W4 W5 W6 W7 W8]; constructor; assumption|].
        right. assert (strip (f_prefix s4 ++ f_nn s4) = strip (f_prefix s4) ++ f_nn s4) as Z by (rewrite filter_app, (digits_strip _ Dn4); reflexivity). destruct ok; cbn; rewrite Z; exact R4.
      * assert (DF : holds (input_default C s1 c1) (fun r => filled r /\ same s1 (fst r))).
        { pose proof (default_ok C s1 c1 (f_nn s) M (n_fmts _ _ NP) X Ab V1 V5 Dc Nc (V7 Ab) (V8 Ab)) as Y. pose proof (default_same C s1 c1 X) as Z. destruct (input_default C s1 c1); cbn in *; auto. }
        eapply holds_imp; [exact DF|]. intros [s5 o] [[O5 S5] (K5 & N5 & P5 & M5 & D5 & _)] _. cbn [fst snd] in *. split; [|exact O5]. pose proof K5 as (_ & PL5 & _). constructor.
        -- rewrite N5. exact V1.
        -- rewrite D5. exact V2.
        -- rewrite PL5. exact V3.
        -- rewrite PL5. intros B. lia.
        -- rewrite PL5, N5, P5. intros _. exact V5.
        -- rewrite M5, D5, P5, PL5. exact V6.
        -- intros A. apply S5. exact A.
        -- intros A. apply S5. exact A.
  - assert (L : (4 <= len (f_plain s1))%nat). { destruct (Nat.lt_ge_cases (len (f_plain s1)) 4) as [B|B]; [|lia]. destruct (n_early _ _ NP B) as (_ & _ & X & _). congruence. }
    destruct V as [V1 V2 V3 V4 V5 V6 V7 V8]. specialize (V5 L).
    assert (HI : holds (attemptToExtractIdd s1) (fun r => (frame s1 (fst r) /\ (if snd r then idd_hit (f_meta s1) (f_plain s1) /\ exists E sp, gap sp /\ f_plain s1 = E ++ f_nn (fst r) /\ f_prefix (fst r) = E ++ sp else fst r = s1 /\ ~ idd_hit (f_meta s1) (f_plain s1))) /\
        ((snd r = true -> all_digits (f_nn (fst r)) = true) /\ (f_plain s1 = 43 :: d -> snd r = true)))).
    { pose proof (idd_spec s1) as X. pose proof (idd_digits s1 d M Dd Pd) as Y. destruct (attemptToExtractIdd s1); cbn in *; auto. }
    apply holds_bind. eapply holds_imp; [exact HI|]. clear HI. intros [s2 idd] ((Fr & Q) & Dn & Pl). cbn [fst snd] in *. destruct idd.
    + destruct Q as [Hit (E & sp & Gp & PE & Pr)]. specialize (Dn eq_refl). clear Pl. pose proof Fr as ((I2 & P2 & _) & A2 & T2 & L2' & _ & F2 & _ & M2 & D2).
      assert (R2 : rel (strip (f_prefix s2) ++ f_nn s2) (f_plain s2)).
      { apply rel_eq. rewrite P2, Pr, filter_app, (gap_strip _ Gp), app_nil_r. rewrite <- PS, PE, filter_app, (digits_strip _ Dn). reflexivity. }
      assert (M2' : aytf_meta_okb (f_meta s2) = true) by (rewrite M2; exact M). destruct (cc_kept C s2 CO M2' Dn R2) as [Dn4 R4].
      destruct (cc_spec C s2 CO M2') as (K4 & A4 & T4 & L4 & _ & F4 & _ & M4 & Q5). destruct (attemptToExtractCountryCallingCode C s2) as [s4 ok]. cbn [fst snd] in *. pose proof K4 as (_ & P4 & _). destruct ok.
      * destruct Q5 as [N4 _]. eapply holds_imp; [apply extracted_ok; auto|]. intros [s5 o] [[O5 S5] (K5 & N5 & P5 & M5 & D5)] _. cbn [fst snd] in *. split; [|exact O5]. pose proof K5 as (_ & PL5 & _). constructor.
        -- rewrite N5. exact Dn4.
        -- rewrite D5, N4. reflexivity.
        -- rewrite PL5, P4, P2. exact V3.
        -- rewrite PL5, P4, P2. intros B. lia.
        -- rewrite PL5, N5, P5. intros _. exact R4.
        -- rewrite D5, N4. congruence.
        -- intros A. apply S5. exact A.
        -- intros A. apply S5. exact A.
      * subst s4. apply holds_ret. intros _. cbn [fst snd]. split; [|left; reflexivity]. constructor; auto; try congruence.
        -- rewrite P2. exact V3.
        -- rewrite P2. intros B. lia.
        -- intros _ _. left. rewrite M2, P2. exact Hit.
    + destruct Q as [-> Qi]. clear Dn Fr. apply holds_bind. eapply holds_imp; [apply longer_spec|]. intros [s3 lg] (Fr3 & P0 & B0 & E & sp & R1 & R2 & LI & R3 & R4 & R5 & R6 & R7). cbn [fst snd] in *.
      pose proof Fr3 as (K3 & A3 & T3 & L3' & _ & F3 & _ & M3 & D3). pose proof K3 as (_ & P3 & _).
      assert (DD : all_digits (f_ndd s1 ++ f_nn s1) = true) by (rewrite all_digits_app, V1, V2; reflexivity). pose proof DD as DD'. rewrite R4, all_digits_app in DD'. apply andb_prop in DD' as [DE Dn3].
      assert (ST : strict = true -> f_ndd s1 <> [] -> f_meta s1 = D /\ E = f_ndd s1 /\ P0 = [] /\ strip B0 = [] /\ exists y, all_digits y = true /\ ext D (f_ndd s1 ++ y) = f_ndd s1).
      { intros S B. destruct (V6 S B) as [X|(Dm & sp' & y & Gp & Pr & Dy & X)]; [contradiction|]. split; [exact Dm|]. destruct (n_ndd _ _ NP B) as [Y|[_ La]]; [contradiction|]. split.
        - rewrite R3. apply (stable (f_meta s1) (f_ndd s1) y); auto; [rewrite Dm; auto|rewrite all_digits_app, V2, Dy; reflexivity|rewrite Dm; exact X].
        - assert (P0 = [] /\ strip B0 = []) as [Z1 Z2]; [|eauto]. rewrite Pr in R1. clear - R1 Gp B V2. destruct P0 as [|p P0]; cbn [app] in R1; [apply app_inv_head in R1; subst B0; split; [reflexivity|apply gap_strip; exact Gp]|]. exfalso.
          pose proof (f_equal (@length N) R1) as Ll. cbn [length] in Ll. rewrite !app_length in Ll. assert (Ls : (length sp' <= 1)%nat) by (destruct Gp as [->| ->]; cbn; lia).
          destruct P0; [|cbn [length] in Ll; lia]. destruct B0; [|cbn [length] in Ll; lia]. destruct Gp as [->| ->]; [cbn [length] in Ll; lia|]. cbn [app] in R1. rewrite app_nil_r in R1.
          destruct (exists_last B) as (l & z & Z). rewrite Z in R1. change (p :: l ++ [z]) with ((p :: l) ++ [z]) in R1. apply app_inj_tail in R1 as [_ <-]. rewrite Z, all_digits_app in V2. apply andb_prop in V2 as [_ V2]. discriminate V2. }
      assert (Rl : rel (strip (f_prefix s3) ++ f_nn s3) (f_plain s3)).
      { rewrite P3, R6, !filter_app, (gap_strip _ R5), (digits_strip _ DE), app_nil_r, <- app_assoc, <- R4. eapply rel_trans; [|exact V5]. rewrite R1, !filter_app, (digits_strip _ V2), <- !app_assoc.
        unfold rel. destruct strict eqn:S.
        - f_equal. f_equal. destruct (f_ndd s1) as [|x0 l0] eqn:Q; [rewrite (R2 eq_refl); reflexivity|]. destruct (ST eq_refl ltac:(discriminate)) as (_ & _ & _ & -> & _). reflexivity.
        - apply part_app; [apply part_refl|]. apply part_app; [apply part_refl|]. apply (part_app [] _ _ _ (part_empty _) (part_refl _)). }
      assert (LG : strict = true -> f_ndd s1 <> [] -> lg = false).
      { intros S B. destruct (ST S B) as (_ & Z & _). rewrite R7, Z. replace (beq (f_ndd s1) (f_ndd s1)) with true by (symmetry; apply beq_eq; reflexivity). reflexivity. }
      destruct lg.
      * set (s4 := s_prefix s3 _). eapply holds_imp; [apply (extracted_ok s4)|].
        -- cbn. rewrite M3. exact M.
        -- exact Dn3.
        -- cbn [s4 f_prefix s_prefix f_nn f_plain]. unfold s4. cbn [f_prefix s_prefix f_nn f_plain]. rewrite filter_app. cbn [filter]. replace (diallable separatorBeforeNationalNumber) with false by reflexivity. rewrite app_nil_r. exact Rl.
        -- intros [s5 o] [[O5 S5] (K5 & N5 & P5 & M5 & D5)] _. cbn [fst snd] in *. split; [|exact O5]. pose proof K5 as (_ & PL5 & _). cbn in N5, P5, M5, D5, PL5. constructor.
           ++ rewrite N5. exact Dn3.
           ++ rewrite D5, D3. exact V2.
           ++ rewrite PL5, P3. exact V3.
           ++ rewrite PL5, P3. intros B. lia.
           ++ rewrite PL5, N5, P5. intros _. rewrite filter_app. cbn [filter]. replace (diallable separatorBeforeNationalNumber) with false by reflexivity. rewrite app_nil_r. exact Rl.
           ++ rewrite D5, D3. intros S B. specialize (LG S B). discriminate.
           ++ intros A. apply S5. exact A.
           ++ intros A. apply S5. exact A.
      * apply holds_ret. intros _. cbn [fst snd]. split; [|left; reflexivity]. constructor; auto; try congruence.
        -- rewrite P3. exact V3.
        -- rewrite P3. intros B. lia.
        -- rewrite D3, M3. intros S B. right. destruct (ST S B) as (Z1 & Z2 & Z3 & _ & y & Dy & Z5). split; [exact Z1|]. exists sp, y. split; [exact R5|]. split; [rewrite R6, Z2, Z3; reflexivity|]. auto.
Qed.
End Kept.

(** ** After any keys *)
Lemma press_kept strict C r ks : aytf_ok C -> (strict = true -> fixed_ndd (aytf_metadata C r) = true) -> forall ts s, good_out C r ts s -> (f_userfmt s = false -> np 3 s) ->
  (f_userfmt s = false -> hd 0 ts <> 65291 -> cv strict (aytf_metadata C r) 3 (f_nn s) s /\ okout strict s (f_out s)) ->
  holds (press C s ks) (fun s => f_userfmt s = false -> hd 0 (fold_left typed_by ks ts) <> 65291 -> okout strict s (f_out s)).
Proof.
  intros CO HD. induction ks as [|k ks IH]; intros ts s G H V; cbn [press fold_left]; [apply holds_ret; intros U Hd; apply V; assumption|].
  apply holds_bind. destruct (press_one_np C r ts s k CO G H) as (s' & E & N'). pose proof (press_one_good C r ts s k G) as G'. rewrite E in *. cbn [holds] in *. eapply IH; [exact G'|exact N'|]. intros U Hd.
  destruct k as [c|c|]; cbn [press_one typed_by] in *.
  1,2: destruct G as (ns & G & _); assert (W : f_userfmt s = false -> hd 0 ts <> 65291 -> cv strict (aytf_metadata C r) 3 (f_nn s) s) by (intros; apply V; assumption);
       unfold InputDigit, InputDigitAndRememberPosition in E.
  - pose proof (step_cv strict (aytf_metadata C r) HD C ts s ns c false CO G H W Hd) as S. destruct (inputDigitWithOptionToRememberPosition C s c false) as [[s1 o]| |]; try discriminate. cbn [bind fst] in E. apply ret_inj in E. subst s'. cbn [holds fst snd] in S. destruct (S U) as [[W1 W2 W3 W4 W5 W6 W7 W8] O]. split; [constructor; assumption|exact O].
  - pose proof (step_cv strict (aytf_metadata C r) HD C ts s ns c true CO G H W Hd) as S. destruct (inputDigitWithOptionToRememberPosition C s c true) as [[s1 o]| |]; try discriminate. cbn [bind fst] in E. apply ret_inj in E. subst s'. cbn [holds fst snd] in S. destruct (S U) as [[W1 W2 W3 W4 W5 W6 W7 W8] O]. split; [constructor; assumption|exact O].
  - apply ret_inj in E. subst s'. destruct G as (ns & _ & _ & R). rewrite clear_new, R. split; [apply new_cv; reflexivity|left; reflexivity].
Qed.
Lemma kept strict C r ks s : aytf_ok C -> (strict = true -> fixed_ndd (aytf_metadata C r) = true) -> press C (GetAsYouTypeFormatter C r) ks = Ret s -> dialled (typed ks) = true -> hd 0 (typed ks) <> 65291 ->
  f_out s = encode_runes (typed ks) \/ rel strict (strip (f_out s)) (plain_of (typed ks)).
Proof.
  intros CO HD E Dl Hd. pose proof (press_new C r ks s E) as (ns & G & _). pose proof (g_user _ _ _ G) as U. rewrite Dl in U. cbn in U. pose proof (g_norm _ _ _ G U) as Nn. pose proof (g_plain _ _ _ G) as Gp. pose proof (g_input _ _ _ G) as Gi.
  pose proof (press_kept strict C r ks CO HD [] _ (good_new C r) (fun _ => new_np C r CO)) as K. rewrite E in K. cbn [holds] in K. destruct K as [K|K]; auto.
  - intros _ _. split; [apply new_cv; reflexivity|left; reflexivity].
  - left. congruence.
  - right. unfold plain_of. rewrite <- Nn, <- Gp. exact K.
Qed.
