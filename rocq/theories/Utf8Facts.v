(** Facts about UTF-8 decoding and encoding and the Unicode digit tables. *)
From Coq Require Import List NArith ZArith Bool Lia Arith ZifyBool ZifyNat ZifyN.
From Verif Require Import Base BaseFacts Utf8 UnicodeTables.
Import ListNotations.
Local Open Scope N_scope.
Ltac Zify.zify_post_hook ::= Z.div_mod_to_equations.

(** A Unicode scalar value. *)
Definition scalar (c : N) : Prop := c < 1114112 /\ ~ (55296 <= c <= 57343).

Lemma in_rng_iff lo hi c : in_rng lo hi c = true <-> lo <= c <= hi.
Proof. unfold in_rng. rewrite andb_true_iff, !N.leb_le. tauto. Qed.
Lemma in_rng_false lo hi c : in_rng lo hi c = false <-> ~ (lo <= c <= hi).
Proof. rewrite <- in_rng_iff. destruct (in_rng lo hi c); split; congruence. Qed.

(** Decoding consumes a non-empty prefix of at most 4 bytes; an ASCII rune is exactly an ASCII byte. *)
Lemma decode_rune_spec s c t : decode_rune s = Some (c, t) ->
  exists w, s = w ++ t /\ (1 <= length w <= 4)%nat /\ scalar c /\
    ((c < 128 /\ w = [c]) \/ (128 <= c /\ exists b w', w = b :: w' /\ 128 <= b /\ Forall (fun x => 128 <= x) w')).
Proof.
  assert (SE : scalar rune_error) by (unfold scalar, rune_error; lia).
  assert (BAD : forall b0 t', 128 <= b0 -> Some (rune_error, t') = Some (c, t) ->
    exists w, b0 :: t' = w ++ t /\ (1 <= length w <= 4)%nat /\ scalar c /\
    ((c < 128 /\ w = [c]) \/ (128 <= c /\ exists b w', w = b :: w' /\ 128 <= b /\ Forall (fun x => 128 <= x) w'))).
  { intros b0 t' Hb H. inv H. exists [b0]. simpl. repeat split; auto; try lia; try (apply SE).
    right. split; [unfold rune_error; lia|]. exists b0, []. auto. }
  destruct s as [|b0 s]; cbn [decode_rune]; [discriminate|].
  destruct (b0 <? 128) eqn:E0.
  { intros H; inv H. apply N.ltb_lt in E0. exists [c]. simpl. unfold scalar. repeat split; try lia. left; auto. }
  apply N.ltb_ge in E0. specialize (BAD b0).
  destruct (in_rng 194 223 b0) eqn:E1.
  { apply in_rng_iff in E1. destruct s as [|b1 s]; [apply BAD; auto|]. destruct (in_rng 128 191 b1) eqn:F1; [|apply BAD; auto].
    apply in_rng_iff in F1. intros H; inv H. exists [b0; b1]. simpl. unfold scalar. repeat split; try lia.
    right. split; [lia|]. exists b0, [b1]. repeat split; auto; repeat constructor; lia. }
  destruct (in_rng 224 239 b0) eqn:E2.
  { apply in_rng_iff in E2. destruct s as [|b1 [|b2 s]]; try (apply BAD; auto; fail).
    destruct (in_rng (if b0 =? 224 then 160 else 128) (if b0 =? 237 then 159 else 191) b1 && in_rng 128 191 b2) eqn:F; [|apply BAD; auto].
    apply andb_true_iff in F as [F1 F2]. apply in_rng_iff in F1, F2.
    intros H; inv H. exists [b0; b1; b2]. simpl. 
    destruct (b0 =? 224) eqn:G1, (b0 =? 237) eqn:G2; rewrite ?N.eqb_eq, ?N.eqb_neq in *; try (exfalso; clear -G1 G2; congruence); try (exfalso; lia);
    (unfold scalar; repeat split; try lia; right; split; [lia|]; exists b0, [b1; b2]; repeat split; auto; repeat constructor; lia). }
  destruct (in_rng 240 244 b0) eqn:E3; [|apply BAD; auto].
  apply in_rng_iff in E3. destruct s as [|b1 [|b2 [|b3 s]]]; try (apply BAD; auto; fail).
  destruct (in_rng (if b0 =? 240 then 144 else 128) (if b0 =? 244 then 143 else 191) b1 && in_rng 128 191 b2 && in_rng 128 191 b3) eqn:F; [|apply BAD; auto].
  apply andb_true_iff in F as [F F3]. apply andb_true_iff in F as [F1 F2]. apply in_rng_iff in F1, F2, F3.
  intros H; inv H. exists [b0; b1; b2; b3]. simpl.
  destruct (b0 =? 240) eqn:G1, (b0 =? 244) eqn:G2; rewrite ?N.eqb_eq, ?N.eqb_neq in *; try (exfalso; clear -G1 G2; congruence); try (exfalso; lia);
  (unfold scalar; repeat split; try lia; right; split; [lia|]; exists b0, [b1; b2; b3]; repeat split; auto; repeat constructor; lia).
Qed.

Lemma decode_rune_none s : decode_rune s = None <-> s = [].
Proof.
  split; [|intros ->; reflexivity]. destruct s as [|b0 s]; auto. cbn [decode_rune].
  repeat match goal with |- context [if ?b then _ else _] => destruct b | |- context [match ?l with [] => _ | _ :: _ => _ end] => destruct l end; discriminate.
Qed.

Lemma decode_rune_lt s c t : decode_rune s = Some (c, t) -> (length t < length s)%nat.
Proof. intros H. apply decode_rune_spec in H as (w & -> & H & _). rewrite app_length. lia. Qed.

Lemma runes_fuel_enough s : forall f g, (length s <= f)%nat -> (length s <= g)%nat -> runes_fuel f s = runes_fuel g s.
Proof.
  remember (length s) as n eqn:E. revert s E. induction n as [n IH] using lt_wf_ind. intros s E f g Hf Hg.
  destruct s as [|b s]; [destruct f, g; reflexivity|].
  destruct f as [|f]; [simpl in E; lia|]. destruct g as [|g]; [simpl in E; lia|]. cbn [runes_fuel].
  destruct (decode_rune (b :: s)) as [[c t]|] eqn:D; [|reflexivity].
  pose proof (decode_rune_lt _ _ _ D) as L. f_equal. apply (IH (length t)); auto; lia.
Qed.

Lemma runes_nil : runes [] = []. Proof. reflexivity. Qed.
Lemma runes_step s c t : decode_rune s = Some (c, t) -> runes s = c :: runes t.
Proof.
  intros D. unfold runes. pose proof (decode_rune_lt _ _ _ D) as L. destruct (length s) as [|f] eqn:E; [lia|].
  cbn [runes_fuel]. rewrite D. f_equal. apply runes_fuel_enough; lia.
Qed.
Lemma runes_eq s : runes s = match decode_rune s with None => [] | Some (c, t) => c :: runes t end.
Proof.
  destruct (decode_rune s) as [[c t]|] eqn:D; [apply runes_step; auto|]. apply decode_rune_none in D. subst. reflexivity.
Qed.

(** Induction over the runes of a string. *)
Lemma runes_ind (P : bytes -> Prop) : P [] -> (forall s c t, decode_rune s = Some (c, t) -> P t -> P s) -> forall s, P s.
Proof.
  intros H0 H1 s. remember (length s) as n eqn:E. revert s E. induction n as [n IH] using lt_wf_ind. intros s E.
  destruct (decode_rune s) as [[c t]|] eqn:D; [|apply decode_rune_none in D; subst; auto].
  eapply H1; eauto. apply (IH (length t)); auto. pose proof (decode_rune_lt _ _ _ D). lia.
Qed.

Lemma decode_ascii c t : c < 128 -> decode_rune (c :: t) = Some (c, t).
Proof. intros H. cbn [decode_rune]. apply N.ltb_lt in H. rewrite H. reflexivity. Qed.
Lemma runes_ascii_cons c t : c < 128 -> runes (c :: t) = c :: runes t.
Proof. intros. apply runes_step, decode_ascii. auto. Qed.

Definition ascii (s : bytes) : Prop := Forall (fun c => c < 128) s.
Lemma runes_ascii_app a b : ascii a -> runes (a ++ b) = a ++ runes b.
Proof. induction 1 as [|c a Hc Ha IH]; [reflexivity|]. simpl. rewrite runes_ascii_cons, IH; auto. Qed.
Lemma runes_ascii a : ascii a -> runes a = a.
Proof. intros H. rewrite <- (app_nil_r a) at 1. rewrite runes_ascii_app; auto. rewrite runes_nil, app_nil_r. reflexivity. Qed.
Lemma digits_ascii s : all_digits s = true -> ascii s.
Proof.
  intros H. unfold ascii. apply Forall_forall. intros c Hc. pose proof (all_digits_In _ _ H Hc). lia.
Qed.
Lemma ascii_app a b : ascii (a ++ b) <-> ascii a /\ ascii b.
Proof. apply Forall_app. Qed.

Lemma runes_scalar s : Forall scalar (runes s).
Proof.
  induction s as [|s c t D IH] using runes_ind; [constructor|]. rewrite (runes_step _ _ _ D).
  constructor; auto. apply decode_rune_spec in D as (w & _ & _ & H & _). auto.
Qed.

(** Encoding followed by decoding is the identity on scalar values. *)
Lemma decode_encode c t : scalar c -> decode_rune (encode_rune c ++ t) = Some (c, t).
Proof.
  intros [H1 H2]. unfold encode_rune. destruct (c <? 128) eqn:E1.
  { apply N.ltb_lt in E1. apply decode_ascii; auto. }
  apply N.ltb_ge in E1. destruct (c <? 2048) eqn:E2.
  { apply N.ltb_lt in E2. cbn [app decode_rune].
    replace (192 + c / 64 <? 128) with false by lia.
    replace (in_rng 194 223 (192 + c / 64)) with true by (symmetry; apply in_rng_iff; lia).
    replace (in_rng 128 191 (128 + c mod 64)) with true by (symmetry; apply in_rng_iff; lia).
    do 2 f_equal. lia. }
  apply N.ltb_ge in E2.
  replace (in_rng 55296 57343 c || (1114111 <? c)) with false.
  2:{ symmetry. apply orb_false_iff. split; [apply in_rng_false; lia|]. apply N.ltb_ge. lia. }
  destruct (c <? 65536) eqn:E3.
  { apply N.ltb_lt in E3. cbn [app decode_rune].
    replace (224 + c / 4096 <? 128) with false by lia.
    replace (in_rng 194 223 (224 + c / 4096)) with false by (symmetry; apply in_rng_false; lia).
    replace (in_rng 224 239 (224 + c / 4096)) with true by (symmetry; apply in_rng_iff; lia).
    replace (in_rng 128 191 (128 + c mod 64)) with true by (symmetry; apply in_rng_iff; lia).
    replace (in_rng (if 224 + c / 4096 =? 224 then 160 else 128) (if 224 + c / 4096 =? 237 then 159 else 191) (128 + (c / 64) mod 64)) with true.
    { cbn [andb]. do 2 f_equal. lia. }
    symmetry. apply in_rng_iff.
    destruct (224 + c / 4096 =? 224) eqn:G1; destruct (224 + c / 4096 =? 237) eqn:G2; lia. }
  apply N.ltb_ge in E3. cbn [app decode_rune].
  replace (240 + c / 262144 <? 128) with false by lia.
  replace (in_rng 194 223 (240 + c / 262144)) with false by (symmetry; apply in_rng_false; lia).
  replace (in_rng 224 239 (240 + c / 262144)) with false by (symmetry; apply in_rng_false; lia).
  replace (in_rng 240 244 (240 + c / 262144)) with true by (symmetry; apply in_rng_iff; lia).
  replace (in_rng 128 191 (128 + c mod 64)) with true by (symmetry; apply in_rng_iff; lia).
  replace (in_rng 128 191 (128 + (c / 64) mod 64)) with true by (symmetry; apply in_rng_iff; lia).
  replace (in_rng (if 240 + c / 262144 =? 240 then 144 else 128) (if 240 + c / 262144 =? 244 then 143 else 191) (128 + (c / 4096) mod 64)) with true.
  { cbn [andb]. do 2 f_equal. lia. }
  symmetry. apply in_rng_iff.
  destruct (240 + c / 262144 =? 240) eqn:G1; destruct (240 + c / 262144 =? 244) eqn:G2; lia.
Qed.

Lemma runes_encode l : Forall scalar l -> runes (encode_runes l) = l.
Proof.
  induction 1 as [|c l Hc Hl IH]; [reflexivity|]. unfold encode_runes. cbn [flat_map].
  rewrite (runes_step _ c (encode_runes l)); [congruence|]. apply decode_encode; auto.
Qed.

Lemma encode_ascii l : Forall (fun c => c < 128) l -> encode_runes l = l.
Proof.
  induction 1 as [|c l Hc Hl IH]; [reflexivity|]. unfold encode_runes in *. cbn [flat_map]. rewrite IH.
  unfold encode_rune. apply N.ltb_lt in Hc. rewrite Hc. reflexivity.
Qed.

(** Range tables *)
Lemma digit_in_iff t c : (exists d, digit_in t c = Some d) <-> in_table t c = true.
Proof.
  induction t as [|[lo hi] t IH]; simpl; [split; [intros [d H]; discriminate|discriminate]|].
  destruct (c <? lo); [split; [intros [d H]; discriminate|discriminate]|].
  destruct (c <=? hi); [split; eauto|auto].
Qed.
Lemma digit_in_digit t c d : digit_in t c = Some d -> 48 <= d <= 57.
Proof.
  induction t as [|[lo hi] t IH]; simpl; [discriminate|]. destruct (c <? lo); [discriminate|].
  destruct (c <=? hi); auto. intros H; inv H. lia.
Qed.
Lemma char_digit_digit c d : char_digit c = Some d -> 48 <= d <= 57.
Proof.
  unfold char_digit. destruct (is_digit c) eqn:E.
  - intros H; inv H. apply is_digit_iff; auto.
  - apply digit_in_digit.
Qed.
Lemma char_digit_self c : 48 <= c <= 57 -> char_digit c = Some c.
Proof. intros H. unfold char_digit. apply is_digit_iff in H. rewrite H. reflexivity. Qed.
