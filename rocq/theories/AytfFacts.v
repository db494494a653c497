From Verif Require Import Base BaseFacts UnicodeTables Utf8 Utf8Facts Regex NormalizeSpec NormalizeFacts Consts Types Normalize Validate Format Parse AsYouType AytfSpec TableFacts ShortSpec ShortFacts.

(** Partial correctness: what holds of the result if there is one. *)
Definition holds {A} (m : M A) (P : A -> Prop) : Prop := match m with Ret a => P a | _ => True end.
Lemma holds_bind {A B} (m : M A) (f : A -> M B) P : holds m (fun a => holds (f a) P) -> holds (bind m f) P.
Proof. destruct m; simpl; auto. Qed.
Lemma holds_ret {A} (a : A) (P : A -> Prop) : P a -> holds (Ret a) P. Proof. auto. Qed.
Lemma holds_imp {A} (m : M A) (P Q : A -> Prop) : holds m P -> (forall a, P a -> Q a) -> holds m Q.
Proof. destruct m; simpl; auto. Qed.
Lemma holds_any {A} (m : M A) (P : A -> Prop) : (forall a, P a) -> holds m P. Proof. destruct m; simpl; auto. Qed.

(** What no step after reading the character changes. *)
Definition keeps (s s' : aytf) : Prop :=
  f_input s' = f_input s /\ f_plain s' = f_plain s /\ f_origpos s' = f_origpos s /\ f_pos s' = f_pos s /\ f_userfmt s' = f_userfmt s /\ f_country s' = f_country s.
Lemma keeps_refl s : keeps s s. Proof. unfold keeps. auto 10. Qed.
Lemma keeps_trans a b c : keeps a b -> keeps b c -> keeps a c.
Proof. unfold keeps. intros (A1 & A2 & A3 & A4 & A5 & A6) (B1 & B2 & B3 & B4 & B5 & B6). rewrite B1, B2, B3, B4, B5, B6. auto 10. Qed.
Ltac keep := unfold keeps; cbn; auto 20.
(** What choosing and filling a template does not change either. *)
Definition same (s s' : aytf) : Prop :=
  keeps s s' /\ f_nn s' = f_nn s /\ f_prefix s' = f_prefix s /\ f_meta s' = f_meta s /\ f_ndd s' = f_ndd s /\ f_complete s' = f_complete s /\ f_expect s' = f_expect s.
Lemma same_refl s : same s s. Proof. unfold same. split; [apply keeps_refl|auto 10]. Qed.
Lemma same_trans a b c : same a b -> same b c -> same a c.
Proof. unfold same. intros (A0 & A1 & A2 & A3 & A4 & A5 & A6) (B0 & B1 & B2 & B3 & B4 & B5 & B6). rewrite B1, B2, B3, B4, B5, B6. split; [eapply keeps_trans; eassumption|auto 10]. Qed.
Lemma same_keeps a b : same a b -> keeps a b. Proof. intros H. apply H. Qed.
Ltac sm := unfold same, keeps; cbn; auto 20.

Lemma template_keeps l : forall s, holds (maybe_template_loop s l) (fun r => same s (fst r) /\ (snd r = false -> f_able (fst r) = f_able s \/ f_able (fst r) = false) /\ (snd r = true -> f_able (fst r) = f_able s)).
Proof.
  induction l as [|f l IH]; intros s; cbn [maybe_template_loop].
  - apply holds_ret. split; [sm|]. split; [auto|discriminate].
  - destruct (beq _ _); [apply holds_ret; split; [sm|]; split; [auto|discriminate]|]. apply holds_bind. unfold createFormattingTemplate. apply holds_bind. apply holds_any. intros t. destruct (is_empty t); apply holds_ret; cbv iota beta.
    + eapply holds_imp; [apply IH|]. intros r (K & A & B). split; [|split; [exact A|exact B]]. eapply same_trans; [|exact K]. sm.
    + apply holds_ret. split; [sm|]. split; [discriminate|reflexivity].
Qed.
Lemma narrow_keeps s d : holds (narrowDownPossibleFormats s d) (fun s' => same s s' /\ f_able s' = f_able s).
Proof. unfold narrowDownPossibleFormats. apply holds_bind. apply holds_any. intros l. apply holds_ret. split; [sm|reflexivity]. Qed.
Lemma available_keeps s d : holds (getAvailableFormats s d) (fun s' => same s s' /\ f_able s' = f_able s).
Proof. unfold getAvailableFormats. eapply holds_imp; [apply narrow_keeps|]. intros s' [K A]. split; [eapply same_trans; [|exact K]; sm|exact A]. Qed.
Lemma accrued_keeps l : forall s, holds (format_accrued_loop s l) (fun r => same s (fst r) /\ f_able (fst r) = f_able s /\ (snd r = [] \/ NormalizeDiallableCharsOnly (snd r) = f_plain s)).
Proof.
  induction l as [|f l IH]; intros s; cbn [format_accrued_loop]; [apply holds_ret; split; [sm|]; split; auto|].
  apply holds_bind. apply holds_any. intros m. destruct (re_match m (f_nn s)); [|apply IH].
  set (s1 := s_space s _). set (full := appendNationalNumber _ _). destruct (beq _ _) eqn:E.
  - apply holds_ret. cbn [fst snd]. split; [sm|]. split; [reflexivity|]. right. apply beq_eq in E. exact E.
  - eapply holds_imp; [apply IH|]. intros r (K & A & B). split; [eapply same_trans; [|exact K]; sm|]. split; [exact A|exact B].
Qed.
Lemma helper_keeps s c : same s (fst (inputDigitHelper s c)).
Proof. unfold inputDigitHelper. destruct (find_placeholder _ _); [sm|]. destruct (f_formats s) as [|x [|y l]]; sm. Qed.
Lemma fold_helper_keeps l : forall s t, same s (fst (fold_left (fun st c => inputDigitHelper (fst st) c) l (s, t))).
Proof.
  induction l as [|c l IH]; intros s t; cbn [fold_left]; [sm|]. cbn [fst]. pose proof (helper_keeps s c) as K. destruct (inputDigitHelper s c) as [s1 t1]. eapply same_trans; [exact K|apply IH].
Qed.
Lemma accrue_keeps s : let r := inputAccruedNationalNumber s in same s (fst r) /\ (f_able s = true \/ f_nn s <> [] -> f_able (fst r) = false -> snd r = f_input (fst r)).
Proof.
  cbv zeta. unfold inputAccruedNationalNumber. destruct (f_nn s) as [|n0 nn] eqn:En; cbn [is_empty]; [split; [sm|cbn]; intros [A|A]; congruence|]. rewrite <- En.
  pose proof (fold_helper_keeps (f_nn s) s []) as K. destruct (fold_left _ _ _) as [s1 t1]. cbn [fst snd] in *. split; [exact K|]. intros _ A. rewrite A. reflexivity.
Qed.
Lemma choose_keeps s : holds (attemptToChooseFormattingPattern s) (fun r => same s (fst r) /\ (f_able s = true -> f_able (fst r) = false -> snd r = f_input (fst r))).
Proof.
  unfold attemptToChooseFormattingPattern. destruct (_ <=? _)%nat; [|apply holds_ret; split; [sm|cbn; congruence]].
  apply holds_bind. eapply holds_imp; [apply available_keeps|]. intros s1 (K1 & A1). apply holds_bind. unfold attemptToFormatAccruedDigits. eapply holds_imp; [apply accrued_keeps|]. intros [s2 o2] (K2 & A2 & _). cbn [fst snd] in *.
  assert (K : same s s2) by (eapply same_trans; eassumption). destruct (negb _); [apply holds_ret; split; [exact K|cbn; congruence]|].
  apply holds_bind. unfold maybeCreateNewTemplate. eapply holds_imp; [apply template_keeps|]. intros [s3 b] (K3 & A3 & B3). cbn [fst snd] in *. destruct b.
  - destruct (accrue_keeps s3) as [K4 A4]. destruct (inputAccruedNationalNumber s3) as [s4 o4]. apply holds_ret. cbn [fst snd] in *. split; [eapply same_trans; [exact K|]; eapply same_trans; eassumption|]. intros A. apply A4. left. rewrite (B3 eq_refl). congruence.
  - apply holds_ret. cbn [fst snd]. split; [eapply same_trans; eassumption|reflexivity].
Qed.
Lemma extracted_keeps s : holds (attemptToChoosePatternWithPrefixExtracted s) (fun r => keeps s (fst r) /\ (f_able (fst r) = false -> snd r = f_input (fst r))).
Proof.
  unfold attemptToChoosePatternWithPrefixExtracted. eapply holds_imp; [apply choose_keeps|]. intros r [K A]. apply same_keeps in K. split; [eapply keeps_trans; [|exact K]; keep|]. apply A. reflexivity.
Qed.
Lemma remove_keeps s : holds (removeNationalPrefixFromNationalNumber s) (fun r => keeps s (fst r) /\ f_able (fst r) = f_able s).
Proof.
  unfold removeNationalPrefixFromNationalNumber. destruct (isNanpaNumberWithNationalPrefix s); [apply holds_ret; split; [keep|reflexivity]|]. destruct (is_empty _); [apply holds_ret; split; [keep|reflexivity]|]. apply holds_bind. apply holds_any. intros x.
  destruct (re_find x (f_nn s)) as [m|]; [destruct (0 <? m_end m)%nat|]; apply holds_ret; (split; [keep|reflexivity]).
Qed.
Lemma longer_keeps s : holds (ableToExtractLongerNdd s) (fun r => keeps s (fst r) /\ f_able (fst r) = f_able s).
Proof.
  unfold ableToExtractLongerNdd. apply holds_bind.
  assert (H : holds (if is_empty (f_ndd s) then Ret s else match last_index_of (f_prefix s) (f_ndd s) with Some i => Ret (s_prefix (s_nn s (f_ndd s ++ f_nn s)) (firstn i (f_prefix s))) | None => Panic end) (fun s' => keeps s s' /\ f_able s' = f_able s)).
  { destruct (is_empty _); [apply holds_ret; split; [keep|reflexivity]|]. destruct (last_index_of _ _); [apply holds_ret; split; [keep|reflexivity]|exact I]. }
  eapply holds_imp; [exact H|]. intros s1 [K1 A1]. apply holds_bind. eapply holds_imp; [apply remove_keeps|]. intros [s2 d] [K2 A2]. apply holds_ret. cbn [fst snd] in *. split; [eapply keeps_trans; eassumption|congruence].
Qed.
Lemma idd_keeps s : holds (attemptToExtractIdd s) (fun r => keeps s (fst r) /\ f_able (fst r) = f_able s).
Proof.
  unfold attemptToExtractIdd. apply holds_bind. apply holds_any. intros x. destruct (re_find x (f_plain s)) as [m|]; [|apply holds_ret; split; [keep|reflexivity]].
  cbn [f_plain s_prefix s_nn s_complete]. destruct (f_plain s); [exact I|]. destruct (_ =? _); apply holds_ret; (split; [keep|reflexivity]).
Qed.
Lemma cc_keeps C s : keeps s (fst (attemptToExtractCountryCallingCode C s)) /\ f_able (fst (attemptToExtractCountryCallingCode C s)) = f_able s.
Proof.
  unfold attemptToExtractCountryCallingCode. destruct (is_empty _); [split; [keep|reflexivity]|]. destruct (extractCountryCode C (f_nn s)) as [[cc rest]|]; [|split; [keep|reflexivity]]. destruct (cc =? 0)%Z; [split; [keep|reflexivity]|].
  destruct (beq nonGeoEntity _); [split; [keep|reflexivity]|]. destruct (negb _); (split; [keep|reflexivity]).
Qed.
Lemma default_keeps C s c : (f_expect s = false -> f_nn s <> []) -> holds (input_default C s c) (fun r => keeps s (fst r) /\ (f_able s = true -> f_able (fst r) = false -> snd r = f_input (fst r) \/ NormalizeDiallableCharsOnly (snd r) = f_plain s)).
Proof.
  intros NN. unfold input_default. destruct (f_expect s).
  - destruct (cc_keeps C s) as [K A]. destruct (attemptToExtractCountryCallingCode C s) as [s1 ok]. cbn [fst] in *. apply holds_ret. cbn [fst snd]. destruct ok; (split; [eapply keeps_trans; [exact K|]; keep|cbn; congruence]).
  - specialize (NN eq_refl). destruct (f_formats s) as [|f0 l0] eqn:F.
    + eapply holds_imp; [apply choose_keeps|]. intros r [K A]. apply same_keeps in K. split; [exact K|]. intros A1 A2. left. auto.
    + pose proof (helper_keeps s c) as K1. destruct (inputDigitHelper s c) as [s1 temp]. cbn [fst] in K1. apply holds_bind. unfold attemptToFormatAccruedDigits. eapply holds_imp; [apply accrued_keeps|]. intros [s2 o] (K2 & A2 & O). cbn [fst snd] in *.
      assert (K : same s s2) by (eapply same_trans; eassumption). destruct o as [|b o].
      * cbn [is_empty negb]. apply holds_bind. eapply holds_imp; [apply narrow_keeps|]. intros s3 [K3 A3]. apply holds_bind. unfold maybeCreateNewTemplate. eapply holds_imp; [apply template_keeps|]. intros [s4 b] (K4 & A4 & B4). cbn [fst snd] in *.
        assert (K' : same s s4) by (eapply same_trans; [exact K|]; eapply same_trans; eassumption). destruct b.
        -- destruct (accrue_keeps s4) as [K5 A5]. destruct (inputAccruedNationalNumber s4) as [s5 t5]. cbn [fst snd] in *. apply holds_ret. split; [apply same_keeps; eapply same_trans; eassumption|]. cbn [fst snd]. intros _ A. left. apply A5; [right|exact A]. destruct K' as (_ & K' & _). congruence.
        -- destruct (f_able s4) eqn:A5; apply holds_ret; (split; [apply same_keeps; exact K'|]); cbn [fst snd]; [congruence|auto].
      * cbn [is_empty negb]. apply holds_ret. cbn [fst snd]. split; [apply same_keeps; exact K|]. intros _ _. right. destruct O as [O|O]; [discriminate|]. rewrite O. apply K1.
Qed.

(** ** Text *)
Definition repair (c : N) : N := if in_rng 55296 57343 c || (1114111 <? c) then rune_error else c.
Lemma encode_repair c : encode_rune c = encode_rune (repair c) /\ scalar (repair c).
Proof.
  unfold repair. destruct (in_rng 55296 57343 c || (1114111 <? c)) eqn:E.
  - split; [|unfold scalar, rune_error; lia]. unfold encode_rune. rewrite E. apply orb_true_iff in E.
    assert (c <? 128 = false /\ c <? 2048 = false) as [-> ->]; [|reflexivity].
    destruct E as [E|E]; [apply in_rng_iff in E|apply N.ltb_lt in E]; split; apply N.ltb_ge; lia.
  - split; [reflexivity|]. apply orb_false_iff in E as [E1 E2]. apply in_rng_false in E1. apply N.ltb_ge in E2. unfold scalar. lia.
Qed.
Lemma runes_encode_repair l : runes (encode_runes l) = map repair l.
Proof.
  assert (E : encode_runes l = encode_runes (map repair l)).
  { induction l as [|c l IH]; [reflexivity|]. unfold encode_runes in *. cbn [flat_map map]. rewrite IH, (proj1 (encode_repair c)). reflexivity. }
  rewrite E, runes_encode; [reflexivity|]. apply Forall_map. apply Forall_forall. intros c _. apply encode_repair.
Qed.
Lemma encode_runes_app a b : encode_runes (a ++ b) = encode_runes a ++ encode_runes b.
Proof. apply flat_map_app. Qed.
Lemma encode_runes_one c : encode_runes [c] = encode_rune c.
Proof. unfold encode_runes. cbn [flat_map]. apply app_nil_r. Qed.
Lemma runes_count l : length (runes (encode_runes l)) = length l.
Proof. rewrite runes_encode_repair, map_length. reflexivity. Qed.
Lemma is_Nd_decimal c : is_Nd c = decimal c.
Proof.
  unfold decimal. rewrite <- char_digit_spec. unfold char_digit. destruct (is_digit c) eqn:D.
  - apply is_digit_iff in D. assert (G : c = 48 \/ c = 49 \/ c = 50 \/ c = 51 \/ c = 52 \/ c = 53 \/ c = 54 \/ c = 55 \/ c = 56 \/ c = 57) by lia.
    repeat (destruct G as [G|G]; [subst; vm_compute; reflexivity|]). subst; vm_compute; reflexivity.
  - unfold is_Nd. destruct (in_table tab_Nd c) eqn:E.
    + apply digit_in_iff in E as [d ->]. reflexivity.
    + destruct (digit_in tab_Nd c) eqn:E2; [|reflexivity]. assert (in_table tab_Nd c = true) by (apply digit_in_iff; eauto). congruence.
Qed.

Lemma leading_plus c : re_match plusCharsPattern (encode_rune c) = (c =? 43) || (c =? 65291).
Proof.
  apply eq_true_iff_eq. rewrite plus_iff. unfold has_plus. rewrite <- encode_runes_one, runes_encode_repair. cbn [map In]. rewrite orb_true_iff, !N.eqb_eq.
  unfold repair. destruct (in_rng 55296 57343 c || (1114111 <? c)) eqn:E; [|intuition congruence].
  unfold rune_error. assert (G : 55296 <= c <= 57343 \/ 1114111 < c) by (apply orb_true_iff in E as [E|E]; [left; apply in_rng_iff in E; exact E|right; apply N.ltb_lt in E; exact E]). lia.
Qed.

(** ** What holds after every key *)
Record good (ts : list N) (s : aytf) (ns : list N) : Prop := {
  g_input : f_input s = encode_runes ts;
  g_plain : f_plain s = encode_runes ns;
  g_user : f_userfmt s = negb (dialled ts);
  g_norm : f_userfmt s = false -> ns = map ascii_digit ts;
  g_orig : (f_origpos s <= length ts)%nat;
  g_pos : (f_pos s <= length ns)%nat;
  g_able : f_userfmt s = true -> f_able s = false }.
Definition shown (s : aytf) (o : bytes) : Prop :=
  f_able s = false -> o = f_input s \/ (f_userfmt s = false /\ NormalizeDiallableCharsOnly o = f_plain s).

Lemma good_keeps ts s s' ns : keeps s s' -> (f_userfmt s' = true -> f_able s' = false) -> good ts s ns -> good ts s' ns.
Proof. intros (K1 & K2 & K3 & K4 & K5 & K6) A [G1 G2 G3 G4 G5 G6 G7]. constructor; rewrite ?K1, ?K2, ?K3, ?K4, ?K5; auto. rewrite <- K5. exact A. Qed.

Lemma dialled_snoc l c : dialled (l ++ [c]) = dialled l && (decimal c || match l with [] => (c =? 43) || (c =? 65291) | _ => false end).
Proof.
  destruct l as [|x l]; cbn [app dialled forallb]; [rewrite andb_true_r, orb_assoc; reflexivity|]. rewrite forallb_app. cbn [forallb]. rewrite andb_true_r, orb_false_r, andb_assoc. reflexivity.
Qed.

(** The state after the character has been accrued, asyoutypeformatter.go:320-334. *)
Definition accrued (s : aytf) (c : N) (remember : bool) : aytf * N :=
  let s := s_input s (f_input s ++ encode_rune c) in
  let s := if remember then s_origpos s (List.length (runes (f_input s))) else s in
  if isDigitOrLeadingPlusSign s c then normalizeAndAccrueDigitsAndPlusSign s c remember
  else (s_userfmt (s_able s false) true, c).
Lemma accrued_good ts s ns c b : good ts s ns -> exists ns', good (ts ++ [c]) (fst (accrued s c b)) ns' /\
  f_country (fst (accrued s c b)) = f_country s /\
  (f_userfmt (fst (accrued s c b)) = false -> (3 < len (f_plain (fst (accrued s c b))))%nat -> f_nn (fst (accrued s c b)) <> []).
Proof.
  intros [G1 G2 G3 G4 G5 G6 G7]. unfold accrued.
  assert (I : f_input s ++ encode_rune c = encode_runes (ts ++ [c])) by (rewrite encode_runes_app, encode_runes_one, G1; reflexivity).
  set (s0 := s_input s _). set (s1 := if b then s_origpos s0 (length (runes (f_input s0))) else s0).
  assert (E1 : f_input s1 = encode_runes (ts ++ [c])) by (destruct b; exact I).
  assert (E2 : f_plain s1 = f_plain s /\ f_userfmt s1 = f_userfmt s /\ f_pos s1 = f_pos s /\ f_able s1 = f_able s /\ f_country s1 = f_country s /\ f_nn s1 = f_nn s) by (destruct b; cbn; auto 10).
  assert (E3 : (f_origpos s1 <= length (ts ++ [c]))%nat).
  { destruct b; cbn [s1 f_origpos s_origpos]; [|rewrite app_length; cbn; lia]. unfold s1. cbn [f_origpos s_origpos]. unfold s0. cbn [f_input s_input]. rewrite I, runes_count. lia. }
  clearbody s1. destruct E2 as (P1 & P2 & P3 & P4 & P5 & P6).
  unfold isDigitOrLeadingPlusSign. rewrite E1, runes_count, app_length, is_Nd_decimal, leading_plus. cbn [length].
  assert (Q : ((length ts + 1 =? 1)%nat && ((c =? 43) || (c =? 65291))) = match ts with [] => (c =? 43) || (c =? 65291) | _ => false end).
  { destruct ts; [reflexivity|]. cbn [length]. replace (S (length ts) + 1 =? 1)%nat with false by (symmetry; apply Nat.eqb_neq; lia). reflexivity. }
  rewrite Q. clear Q. destruct (decimal c || _) eqn:D.
  - (* accrued *)
    assert (N : exists v, ascii_digit c = v /\ normalizeAndAccrueDigitsAndPlusSign s1 c b =
              (let s2 := s_plain s1 (f_plain s1 ++ encode_rune v) in let s2 := if c =? 43 then s2 else s_nn s2 (f_nn s2 ++ encode_rune v) in
               (if b then s_pos s2 (length (runes (f_plain s2))) else s2), v)).
    { exists (ascii_digit c). split; [reflexivity|]. unfold normalizeAndAccrueDigitsAndPlusSign, ascii_digit, plusSign. rewrite char_digit_spec. destruct (c =? 43) eqn:Ec; [|destruct b; reflexivity].
      apply N.eqb_eq in Ec. subst c. replace (digit_for 43) with (@None N) by (vm_compute; reflexivity). destruct b; reflexivity. }
    destruct N as (v & V & ->). cbn [fst]. exists (ns ++ [v]).
    set (s2 := s_plain s1 _). set (s3 := if c =? 43 then s2 else _). set (s4 := if b then _ else s3).
    assert (F : f_input s4 = f_input s1 /\ f_plain s4 = f_plain s ++ encode_rune v /\ f_userfmt s4 = f_userfmt s /\ f_origpos s4 = f_origpos s1 /\ f_able s4 = f_able s /\ f_country s4 = f_country s /\ (c <> 43 -> f_nn s4 <> [])).
    { unfold s4, s3, s2. destruct b, (c =? 43) eqn:Ec; cbn; rewrite P1, P2, P4, P5; repeat (split; [reflexivity|]); intros X; try (apply N.eqb_eq in Ec; congruence); intros Y; apply app_eq_nil in Y as [_ Y];
      pose proof (decode_encode (repair v) [] (proj2 (encode_repair v))) as Z; rewrite <- (proj1 (encode_repair v)), Y in Z; discriminate. }
    assert (FP : (f_pos s4 <= length (ns ++ [v]))%nat).
    { assert (X : f_pos s4 = if b then length (runes (f_plain s3)) else f_pos s) by (unfold s4; destruct b; cbn; [reflexivity|unfold s3, s2; destruct (c =? 43); cbn; exact P3]).
      rewrite X, app_length. destruct b; [|cbn; lia]. replace (f_plain s3) with (encode_runes (ns ++ [v])); [rewrite runes_count, app_length; lia|].
      rewrite encode_runes_app, encode_runes_one, <- G2. unfold s3, s2. destruct (c =? 43); cbn; rewrite P1; reflexivity. }
    destruct F as (F1 & F2 & F3 & F4 & F5 & F6 & F7). clearbody s4. split; [|split; [exact F6|]].
    + constructor; try congruence.
      * rewrite F2, G2, encode_runes_app, encode_runes_one. reflexivity.
      * rewrite F3, G3, dialled_snoc, D, andb_true_r. reflexivity.
      * rewrite F3. intros U. rewrite map_app, (G4 U). cbn [map]. congruence.
      * rewrite F3, F5. exact G7.
    + rewrite F3. intros U L. apply F7. intros ->. destruct ts as [|x ts]; [|vm_compute in D; discriminate].
      specialize (G4 U). subst ns. rewrite F2, G2, <- V in L. vm_compute in L. lia.
  - exists ns. cbn [fst]. split; [|split; [cbn; exact P5|discriminate]]. constructor; cbn; try congruence; try (rewrite P1; exact G2); try (rewrite P3; exact G6).
    rewrite dialled_snoc, D, andb_false_r. reflexivity.
Qed.

Lemma step_good C ts s ns c b : good ts s ns -> holds (inputDigitWithOptionToRememberPosition C s c b) (fun r =>
  exists ns', good (ts ++ [c]) (fst r) ns' /\ shown (fst r) (snd r) /\ f_country (fst r) = f_country s).
Proof.
  intros G. destruct (accrued_good ts s ns c b G) as (ns' & G' & Hc & NN). unfold inputDigitWithOptionToRememberPosition. fold (accrued s c b). cbv zeta.
  unfold accrued in *. cbv zeta in *. destruct (if isDigitOrLeadingPlusSign _ c then _ else _) as [s1 c1]. cbn [fst] in *.
  assert (FIN : forall s' o, keeps s1 s' -> f_userfmt s1 = false -> (f_able s' = false -> o = f_input s' \/ NormalizeDiallableCharsOnly o = f_plain s1) ->
    exists ns'0, good (ts ++ [c]) s' ns'0 /\ shown s' o /\ f_country s' = f_country s).
  { intros s' o K U S. exists ns'. pose proof K as (K1 & K2 & K3 & K4 & K5 & K6). split; [eapply good_keeps; eauto; congruence|]. split; [|congruence].
    intros A. destruct (S A) as [S'|S']; [left; exact S'|right]. split; [congruence|]. rewrite K2. exact S'. }
  destruct (f_userfmt s1) eqn:U.
  { rewrite (g_able _ _ _ G' U). cbn [negb]. apply holds_ret. cbn [fst snd]. exists ns'. split; [exact G'|]. split; [left; reflexivity|exact Hc]. }
  specialize (FIN). destruct (f_able s1) eqn:A; cbn [negb].
  - destruct (len (f_plain s1) <=? 2)%nat eqn:L2; [apply holds_ret; apply FIN; auto using keeps_refl|]. destruct (len (f_plain s1) =? 3)%nat eqn:L3.
    + apply holds_bind. eapply holds_imp; [apply idd_keeps|]. intros [s2 idd] [K2 A2]. cbn [fst] in *. destruct idd.
      * eapply holds_imp; [apply default_keeps; discriminate|]. intros [s3 o] [K3 S3]. cbn [fst snd] in *. apply FIN; auto.
        -- eapply keeps_trans; [exact K2|]. exact K3.
        -- intros A3. destruct S3 as [S3|S3]; auto; [cbn; congruence|]. right. rewrite S3. cbn. apply K2.
      * apply holds_bind. eapply holds_imp; [apply remove_keeps|]. intros [s3 ndd] [K3 A3]. cbn [fst] in *. eapply holds_imp; [apply choose_keeps|]. intros [s4 o] [K4 S4]. cbn [fst snd] in *. apply same_keeps in K4. apply FIN; auto.
        -- eapply keeps_trans; [exact K2|]. eapply keeps_trans; [exact K3|]. exact K4.
        -- intros A4. left. apply S4; [cbn; congruence|exact A4].
    + assert (L : (3 < len (f_plain s1))%nat) by (apply Nat.leb_gt in L2; apply Nat.eqb_neq in L3; lia).
      eapply holds_imp; [apply default_keeps; intros _; auto|]. intros [s2 o] [K2 S2]. cbn [fst snd] in *. apply FIN; auto.
  - apply holds_bind. eapply holds_imp; [apply idd_keeps|]. intros [s2 idd] [K2 A2]. cbn [fst] in *. destruct idd.
    + destruct (cc_keeps C s2) as [K3 A3]. destruct (attemptToExtractCountryCallingCode C s2) as [s3 ok]. cbn [fst] in *. assert (K : keeps s1 s3) by (eapply keeps_trans; eassumption). destruct ok.
      * eapply holds_imp; [apply extracted_keeps|]. intros [s4 o] [K4 S4]. cbn [fst snd] in *. apply FIN; auto. eapply keeps_trans; eassumption.
      * apply holds_ret. apply FIN; auto.
    + apply holds_bind. eapply holds_imp; [apply longer_keeps|]. intros [s3 lg] [K3 A3]. cbn [fst] in *. assert (K : keeps s1 s3) by (eapply keeps_trans; eassumption). destruct lg.
      * eapply holds_imp; [apply extracted_keeps|]. intros [s4 o] [K4 S4]. cbn [fst snd] in *. apply FIN; auto. eapply keeps_trans; [exact K|]. exact K4.
      * apply holds_ret. apply FIN; auto.
Qed.

Definition good_out (C : container) (region : bytes) (ts : list N) (s : aytf) : Prop :=
  exists ns, good ts s ns /\ shown s (f_out s) /\ f_country s = region.
Lemma good_new C r : good_out C r [] (GetAsYouTypeFormatter C r).
Proof. exists []. split; [|split; [intros A; discriminate|reflexivity]]. constructor; cbn; auto; discriminate. Qed.
Lemma clear_new C s : Clear C s = GetAsYouTypeFormatter C (f_country s).
Proof. reflexivity. Qed.
Lemma press_one_good C r ts s k : good_out C r ts s -> holds (press_one C s k) (good_out C r (typed_by ts k)).
Proof.
  intros (ns & G & S & R). destruct k as [c|c|]; cbn [press_one typed_by].
  1,2: unfold InputDigit, InputDigitAndRememberPosition; apply holds_bind; apply holds_bind; eapply holds_imp; [eapply step_good; exact G|];
    intros [s' o] (ns' & G' & S' & R'); cbn [fst snd] in *; apply holds_ret; apply holds_ret; cbn [fst]; exists ns';
    destruct G'; (split; [constructor; assumption|split; [exact S'|cbn; congruence]]).
  apply holds_ret. rewrite clear_new, R. apply good_new.
Qed.
Lemma press_good C r ks : forall ts s, good_out C r ts s -> holds (press C s ks) (good_out C r (fold_left typed_by ks ts)).
Proof.
  induction ks as [|k ks IH]; intros ts s G; cbn [press fold_left]; [exact G|]. apply holds_bind. eapply holds_imp; [apply press_one_good; exact G|]. intros s' G'. apply IH. exact G'.
Qed.
Lemma press_new C r ks s : press C (GetAsYouTypeFormatter C r) ks = Ret s -> good_out C r (typed ks) s.
Proof. intros H. pose proof (press_good C r ks [] _ (good_new C r)) as G. rewrite H in G. exact G. Qed.

(** ** Remembered position *)
Lemma filter_length_le {A} (f : A -> bool) l : (length (filter f l) <= length l)%nat.
Proof. induction l as [|a l IH]; cbn [filter length]; [lia|]. destruct (f a); cbn [length]; lia. Qed.
Lemma remembered_bound input : forall output left pos, (left <= length input)%nat -> exists p, remembered_loop input output left pos = Ret p /\ (p <= pos + length output)%nat.
Proof.
  intros output. revert input. induction output as [|o output IH]; intros input [|left] pos L; cbn [remembered_loop length].
  1-3: eexists; split; [reflexivity|cbn; lia].
  destruct input as [|i input]; cbn [length] in L; [lia|]. destruct (i =? o).
  - destruct (IH input left (S pos)) as (p & -> & B); [lia|]. exists p. split; [reflexivity|lia].
  - destruct (IH (i :: input) (S left) (S pos)) as (p & -> & B); [cbn; lia|]. exists p. split; [reflexivity|lia].
Qed.
Lemma position_bound C r ts s : good_out C r ts s -> exists p, GetRememberedPosition s = Ret p /\ (p <= length (runes (f_out s)))%nat.
Proof.
  intros (ns & [G1 G2 G3 G4 G5 G6 G7] & S & _). unfold GetRememberedPosition. destruct (f_able s) eqn:A; cbn [negb].
  - apply remembered_bound. rewrite G2, runes_count. exact G6.
  - eexists. split; [reflexivity|]. destruct (S A) as [->|[U P]]; [rewrite G1, runes_count; exact G5|].
    rewrite NormalizeDiallableCharsOnly_spec, <- filter_runes in P by (intros c Hc; apply diallable_iff in Hc; lia).
    specialize (G4 U). assert (L : (length ns <= length (f_plain s))%nat).
    { rewrite G2. clear. induction ns as [|c l IH]; [cbn; lia|]. unfold encode_runes in *. cbn [flat_map]. rewrite app_length. cbn [length].
      assert (encode_rune c <> []). { intros Y. pose proof (decode_encode (repair c) [] (proj2 (encode_repair c))) as Z. rewrite <- (proj1 (encode_repair c)), Y in Z. discriminate. }
      destruct (encode_rune c); [congruence|cbn [length]; lia]. }
    subst ns. rewrite map_length in L. rewrite <- P in L. pose proof (filter_length_le diallable (runes (f_out s))). lia.
Qed.
