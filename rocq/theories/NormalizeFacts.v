(** Proofs about the normalisation functions. *)
From Coq Require Import List NArith ZArith Bool Lia Arith ZifyBool ZifyNat ZifyN.
From Verif Require Import Base BaseFacts Utf8 Utf8Facts UnicodeTables UnicodeSpec Regex Consts Normalize NormalizeSpec.
Import ListNotations.
Local Open Scope N_scope.

(** ** Digits *)

(** All members of an ascending range table. *)
Fixpoint table_members (t : list (N * N)) : list N :=
  match t with
  | [] => []
  | (lo, hi) :: t' => map (fun i => lo + N.of_nat i) (seq 0 (N.to_nat (hi + 1 - lo))) ++ table_members t'
  end.

Lemma in_table_members t c : in_table t c = true -> In c (table_members t).
Proof.
  induction t as [|[lo hi] t IH]; simpl; [discriminate|].
  destruct (c <? lo) eqn:E1; [discriminate|]. apply N.ltb_ge in E1. intros H. apply in_or_app.
  destruct (c <=? hi) eqn:E2; [|right; auto]. apply N.leb_le in E2. left.
  apply in_map_iff. exists (N.to_nat (c - lo)). split; [lia|]. apply in_seq. lia.
Qed.

Lemma nd_members : table_members tab_Nd = map fst decimal_values.
Proof. vm_cast_no_check (eq_refl (map fst decimal_values)). Qed.

Lemma nd_values_ok :
  forallb (fun e => match char_digit (fst e) with Some d => d =? 48 + snd e | None => false end) decimal_values = true.
Proof. vm_cast_no_check (eq_refl true). Qed.

Lemma ascii_digits_listed : forallb (fun c => existsb (N.eqb c) (map fst decimal_values)) (bs "0123456789") = true.
Proof. vm_cast_no_check (eq_refl true). Qed.

Lemma char_digit_spec c : char_digit c = digit_for c.
Proof.
  unfold digit_for. destruct (assoc N.eqb c decimal_values) as [v|] eqn:A.
  - apply assoc_In in A; [|apply N.eqb_eq]. pose proof nd_values_ok as H. eapply forallb_forall in H; [|exact A].
    cbn [fst snd] in H. destruct (char_digit c) as [d|]; [|discriminate]. apply N.eqb_eq in H. congruence.
  - apply assoc_none in A; [|apply N.eqb_eq]. destruct (char_digit c) as [d|] eqn:E; [|reflexivity].
    exfalso. apply A. rewrite <- nd_members. unfold char_digit in E.
    destruct (is_digit c) eqn:Dg.
    + rewrite nd_members. apply is_digit_iff in Dg. pose proof ascii_digits_listed as H.
      assert (I : In c (bs "0123456789")).
      { assert (D : c = 48 \/ c = 49 \/ c = 50 \/ c = 51 \/ c = 52 \/ c = 53 \/ c = 54 \/ c = 55 \/ c = 56 \/ c = 57) by lia.
        simpl. intuition. }
      eapply forallb_forall in H; [|exact I]. apply existsb_exists in H as (x & Hx & Hc). apply N.eqb_eq in Hc. subst. auto.
    + apply in_table_members. apply digit_in_iff. eauto.
Qed.

Lemma digit_for_digit c d : digit_for c = Some d -> 48 <= d <= 57.
Proof. rewrite <- char_digit_spec. apply char_digit_digit. Qed.
Lemma digit_for_self c : 48 <= c <= 57 -> digit_for c = Some c.
Proof. rewrite <- char_digit_spec. apply char_digit_self. Qed.

Lemma digits_of_digits l : all_digits (digits_of l) = true.
Proof.
  unfold digits_of. induction l as [|c l IH]; [reflexivity|]. cbn [flat_map]. rewrite all_digits_app, IH, andb_true_r.
  destruct (digit_for c) eqn:E; [|reflexivity]. unfold all_digits. cbn [forallb]. rewrite andb_true_r.
  apply is_digit_iff. eapply digit_for_digit; eauto.
Qed.
Lemma digits_of_self s : all_digits s = true -> digits_of s = s.
Proof.
  induction s as [|c s IH]; [reflexivity|]. cbn [all_digits forallb]. rewrite andb_true_iff, is_digit_iff. intros [Hc Hs].
  unfold digits_of in *. cbn [flat_map]. rewrite IH by exact Hs. rewrite digit_for_self by exact Hc. reflexivity.
Qed.
Lemma digits_of_app a b : digits_of (a ++ b) = digits_of a ++ digits_of b.
Proof. apply flat_map_app. Qed.

Lemma NormalizeDigitsOnly_spec s : NormalizeDigitsOnly s = digits_of (runes s).
Proof.
  unfold NormalizeDigitsOnly, normalizeDigits.
  replace (flat_map _ (runes s)) with (digits_of (runes s)).
  - apply encode_ascii. apply digits_ascii. apply digits_of_digits.
  - unfold digits_of. apply flat_map_ext. intros c. rewrite char_digit_spec. destruct (digit_for c); reflexivity.
Qed.

Lemma NormalizeDigitsOnly_digits s : all_digits (NormalizeDigitsOnly s) = true.
Proof. rewrite NormalizeDigitsOnly_spec. apply digits_of_digits. Qed.
Lemma NormalizeDigitsOnly_self s : all_digits s = true -> NormalizeDigitsOnly s = s.
Proof. intros H. rewrite NormalizeDigitsOnly_spec, runes_ascii, digits_of_self; auto using digits_ascii. Qed.
Lemma NormalizeDigitsOnly_idem s : NormalizeDigitsOnly (NormalizeDigitsOnly s) = NormalizeDigitsOnly s.
Proof. apply NormalizeDigitsOnly_self, NormalizeDigitsOnly_digits. Qed.

(** ** ASCII subsequences *)

Lemma filter_runes P s : (forall c, P c = true -> c < 128) -> filter P (runes s) = filter P s.
Proof.
  intros HP. assert (N128 : forall c, 128 <= c -> P c = false).
  { intros c Hc. destruct (P c) eqn:E; auto. apply HP in E. lia. }
  induction s as [|s c t D IH] using runes_ind; [reflexivity|].
  rewrite (runes_step _ _ _ D). cbn [filter]. rewrite IH.
  apply decode_rune_spec in D as (w & -> & _ & _ & [[H1 ->]|(H1 & b & w' & -> & Hb & Hw)]).
  - reflexivity.
  - rewrite (N128 c H1). cbn [app filter]. rewrite (N128 b Hb). rewrite filter_app.
    replace (filter P w') with (@nil N); [reflexivity|].
    clear -Hw N128. induction Hw as [|x w' Hx Hw IH]; [reflexivity|]. cbn [filter]. rewrite (N128 x Hx). exact IH.
Qed.

Lemma diallable_iff c : diallable c = true <-> (48 <= c <= 57 \/ c = 43 \/ c = 42 \/ c = 35).
Proof.
  unfold diallable. rewrite existsb_exists. split.
  - intros (x & Hx & E). apply N.eqb_eq in E. subst x. simpl in Hx. intuition lia.
  - intros H. exists c. split; [|apply N.eqb_refl]. 
    assert (D : c = 48 \/ c = 49 \/ c = 50 \/ c = 51 \/ c = 52 \/ c = 53 \/ c = 54 \/ c = 55 \/ c = 56 \/ c = 57 \/ c = 43 \/ c = 42 \/ c = 35) by lia.
    simpl. intuition.
Qed.

Lemma diallableCharMappings_spec c : diallableCharMappings (to_upper c) = if diallable c then Some c else None.
Proof.
  assert (D : diallableCharMappings (to_upper c) = if is_digit (to_upper c) || (to_upper c =? 43) || (to_upper c =? 42) || (to_upper c =? 35) then Some (to_upper c) else None) by reflexivity.
  rewrite D. clear D. unfold to_upper, in_rng, is_digit.
  destruct (diallable c) eqn:E.
  - apply diallable_iff in E.
    replace ((97 <=? c) && (c <=? 122)) with false by lia. replace (c =? 305) with false by lia. replace (c =? 383) with false by lia.
    destruct ((48 <=? c) && (c <=? 57) || (c =? 43) || (c =? 42) || (c =? 35)) eqn:F; [reflexivity|lia].
  - assert (H : ~ (48 <= c <= 57 \/ c = 43 \/ c = 42 \/ c = 35)) by (rewrite <- diallable_iff; congruence).
    destruct ((97 <=? c) && (c <=? 122)) eqn:F1; [|destruct (c =? 305) eqn:F2; [reflexivity|destruct (c =? 383) eqn:F3; [reflexivity|]]];
    match goal with |- (if ?b then _ else _) = _ => destruct b eqn:G; [lia|reflexivity] end.
Qed.

Lemma NormalizeDiallableCharsOnly_spec s : NormalizeDiallableCharsOnly s = filter diallable s.
Proof.
  unfold NormalizeDiallableCharsOnly, normalizeHelper.
  replace (flat_map _ (runes s)) with (filter diallable (runes s)).
  - rewrite encode_ascii.
    + apply filter_runes. intros c H. apply diallable_iff in H. lia.
    + apply Forall_forall. intros c H. apply filter_In in H as [_ H]. apply diallable_iff in H. lia.
  - induction (runes s) as [|c l IH]; [reflexivity|]. cbn [filter flat_map]. rewrite diallableCharMappings_spec, <- IH.
    destruct (diallable c); reflexivity.
Qed.

Lemma filter_idem {A} (P : A -> bool) l : filter P (filter P l) = filter P l.
Proof. induction l as [|x l IH]; [reflexivity|]. simpl. destruct (P x) eqn:E; simpl; rewrite ?E, IH; reflexivity. Qed.

(** ** Keypad letters *)

Lemma key_of_outside c : ~ (65 <= c <= 90) -> ~ (97 <= c <= 122) -> key_of c = None.
Proof.
  intros H1 H2. unfold key_of. destruct (@find (N * list N) (fun k => existsb (N.eqb c) (snd k)) keypad) as [[d l]|] eqn:F; [|reflexivity]. exfalso.
  apply find_some in F as [F1 F2]. cbn [snd] in F2. apply existsb_exists in F2 as (x & Hx & E). apply N.eqb_eq in E. subst x.
  simpl in F1. intuition; match goal with H : (_, _) = (_, _) |- _ => inversion H; subst end; simpl in Hx; intuition lia.
Qed.

Lemma letters_ok :
  forallb (fun c => match alphaPhoneMappings (to_upper c), key_of c with
                    | Some a, Some b => a =? b | _, _ => false end) (map N.of_nat (seq 65 26 ++ seq 97 26)) = true.
Proof. vm_compute. reflexivity. Qed.

Lemma alphaPhoneMappings_spec c : ~ (48 <= c <= 57) -> alphaPhoneMappings (to_upper c) = key_of_rune c.
Proof.
  intros H0. unfold key_of_rune. destruct (c =? 305) eqn:E1; [apply N.eqb_eq in E1; subst; reflexivity|].
  destruct (c =? 383) eqn:E2; [apply N.eqb_eq in E2; subst; reflexivity|].
  destruct (ascii_letter c) eqn:L.
  - unfold ascii_letter in L. apply orb_true_iff in L. rewrite !in_rng_iff in L. pose proof letters_ok as H.
    eapply forallb_forall with (x := c) in H.
    + destruct (alphaPhoneMappings (to_upper c)), (key_of c); try discriminate. apply N.eqb_eq in H. congruence.
    + apply in_map_iff. exists (N.to_nat c). split; [lia|]. apply in_or_app. rewrite !in_seq. lia.
  - unfold ascii_letter in L. apply orb_false_iff in L. rewrite !in_rng_false in L. destruct L as [L1 L2].
    rewrite key_of_outside by auto. unfold to_upper. replace (in_rng 97 122 c) with false by (symmetry; apply in_rng_false; auto).
    rewrite E1, E2. unfold alphaPhoneMappings. replace (is_digit c) with false by (symmetry; apply not_true_is_false; rewrite is_digit_iff; auto).
    repeat match goal with |- (if in_rng ?a ?b c then _ else _) = _ => replace (in_rng a b c) with false by (symmetry; apply in_rng_false; lia) end.
    reflexivity.
Qed.

Definition convert_rune (c : N) : N := match key_of_rune c with Some d => d | None => c end.

Lemma key_of_digit c d : key_of_rune c = Some d -> 50 <= d <= 57.
Proof.
  unfold key_of_rune. destruct (c =? 305); [intros H; inv H; lia|]. destruct (c =? 383); [intros H; inv H; lia|].
  unfold key_of. destruct (@find (N * list N) (fun k => existsb (N.eqb c) (snd k)) keypad) as [[e l]|] eqn:F; [|discriminate]. intros H; inv H.
  apply find_some in F as [F1 _]. simpl in F1. intuition; match goal with H : (_, _) = (_, _) |- _ => inversion H; subst end; lia.
Qed.

Lemma ConvertAlpha_spec s : ConvertAlphaCharactersInNumber s = encode_runes (map convert_rune (runes s)).
Proof.
  unfold ConvertAlphaCharactersInNumber, normalizeHelper. f_equal.
  induction (runes s) as [|c l IH]; [reflexivity|]. cbn [flat_map map]. rewrite IH. unfold convert_rune.
  destruct (is_digit c) eqn:E.
  - apply is_digit_iff in E. unfold key_of_rune. replace (c =? 305) with false by lia. replace (c =? 383) with false by lia.
    rewrite key_of_outside by lia. unfold to_upper. replace (in_rng 97 122 c) with false by (symmetry; apply in_rng_false; lia).
    replace (c =? 305) with false by lia. replace (c =? 383) with false by lia.
    unfold alphaPhoneMappings. apply is_digit_iff in E. rewrite E. reflexivity.
  - rewrite alphaPhoneMappings_spec. + destruct (key_of_rune c); reflexivity. + rewrite <- is_digit_iff. congruence.
Qed.

Lemma convert_rune_scalar c : scalar c -> scalar (convert_rune c).
Proof.
  unfold convert_rune. destruct (key_of_rune c) eqn:E; auto. intros _. apply key_of_digit in E. unfold scalar. lia.
Qed.
Lemma convert_rune_idem c : convert_rune (convert_rune c) = convert_rune c.
Proof.
  unfold convert_rune at 2 3. destruct (key_of_rune c) eqn:E; [|unfold convert_rune; rewrite E; reflexivity].
  apply key_of_digit in E. unfold convert_rune. unfold key_of_rune.
  replace (n =? 305) with false by lia. replace (n =? 383) with false by lia. rewrite key_of_outside by lia. reflexivity.
Qed.
Lemma runes_ConvertAlpha s : runes (ConvertAlphaCharactersInNumber s) = map convert_rune (runes s).
Proof.
  rewrite ConvertAlpha_spec. apply runes_encode. apply Forall_forall. intros c H. apply in_map_iff in H as (x & <- & Hx).
  apply convert_rune_scalar. pose proof (runes_scalar s) as S. rewrite Forall_forall in S. auto.
Qed.
Lemma ConvertAlpha_idem s : ConvertAlphaCharactersInNumber (ConvertAlphaCharactersInNumber s) = ConvertAlphaCharactersInNumber s.
Proof.
  rewrite (ConvertAlpha_spec (ConvertAlphaCharactersInNumber s)), runes_ConvertAlpha, map_map, (ConvertAlpha_spec s).
  f_equal. apply map_ext. apply convert_rune_idem.
Qed.
Lemma key_of_letter c : ascii_letter c = true -> exists d, key_of c = Some d.
Proof.
  intros L. unfold ascii_letter in L. apply orb_true_iff in L. rewrite !in_rng_iff in L. pose proof letters_ok as H.
  eapply forallb_forall with (x := c) in H.
  + destruct (alphaPhoneMappings (to_upper c)), (key_of c); try discriminate. eauto.
  + apply in_map_iff. exists (N.to_nat c). split; [lia|]. apply in_or_app. rewrite !in_seq. lia.
Qed.
Lemma convert_rune_no_letter c : ascii_letter (convert_rune c) = false.
Proof.
  unfold convert_rune. destruct (key_of_rune c) eqn:E.
  - apply key_of_digit in E. unfold ascii_letter. apply orb_false_iff. split; apply in_rng_false; lia.
  - destruct (ascii_letter c) eqn:L; [|reflexivity]. destruct (key_of_letter c L) as [d Hd]. unfold key_of_rune in E.
    destruct (c =? 305); [discriminate|]. destruct (c =? 383); [discriminate|]. congruence.
Qed.
(** ASCII bytes of an encoded rune list are its ASCII runes. *)
Lemma encode_runes_ascii_in l c : c < 128 -> In c (encode_runes l) -> In c l.
Proof.
  intros Hc H. unfold encode_runes in H. apply in_flat_map in H as (x & Hx & Hi). unfold encode_rune in Hi.
  destruct (x <? 128); [destruct Hi as [->|[]]; auto|]. exfalso.
  destruct (x <? 2048); [simpl in Hi; intuition lia|].
  destruct (in_rng 55296 57343 x || (1114111 <? x)); [simpl in Hi; intuition lia|].
  destruct (x <? 65536); simpl in Hi; intuition lia.
Qed.
