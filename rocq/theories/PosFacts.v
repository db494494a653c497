(** The remembered position: what the formatter keeps, and where that is in the output. *)
From Verif Require Import Base BaseFacts UnicodeTables Utf8 Utf8Facts Regex NormalizeSpec NormalizeFacts Consts Types Normalize Validate Format Parse FormatMore AsYouType AytfSpec TableFacts AytfFacts AytfMore AytfDigits PosSpec.

Lemma step_keeps C ts s ns c b : good ts s ns -> holds (inputDigitWithOptionToRememberPosition C s c b) (fun r => keeps (fst (accrued s c b)) (fst r)).
Proof.
  intros G. destruct (accrued_good ts s ns c b G) as (ns' & G' & Hc & NN). unfold inputDigitWithOptionToRememberPosition.
  unfold accrued in *. cbv zeta in *. destruct (if isDigitOrLeadingPlusSign _ c then _ else _) as [s1 c1]. cbn [fst] in *.
  destruct (f_userfmt s1) eqn:U.
  { rewrite (g_able _ _ _ G' U). cbn [negb]. apply holds_ret. apply keeps_refl. }
  destruct (f_able s1) eqn:A; cbn [negb].
  - destruct (len (f_plain s1) <=? 2)%nat eqn:L2; [apply holds_ret; apply keeps_refl|]. destruct (len (f_plain s1) =? 3)%nat eqn:L3.
    + apply holds_bind. eapply holds_imp; [apply idd_keeps|]. intros [s2 idd] [K2 A2]. cbn [fst] in *. destruct idd.
      * eapply holds_imp; [apply default_keeps; discriminate|]. intros [s3 o] [K3 S3]. cbn [fst snd] in *. eapply keeps_trans; [exact K2|]. exact K3.
      * apply holds_bind. eapply holds_imp; [apply remove_keeps|]. intros [s3 ndd] [K3 A3]. cbn [fst] in *. eapply holds_imp; [apply choose_keeps|]. intros [s4 o] [K4 S4]. cbn [fst snd] in *. apply same_keeps in K4.
        eapply keeps_trans; [exact K2|]. eapply keeps_trans; [exact K3|]. exact K4.
    + assert (L : (3 < len (f_plain s1))%nat) by (apply Nat.leb_gt in L2; apply Nat.eqb_neq in L3; lia).
      eapply holds_imp; [apply default_keeps; intros _; auto|]. intros [s2 o] [K2 S2]. exact K2.
  - apply holds_bind. eapply holds_imp; [apply idd_keeps|]. intros [s2 idd] [K2 A2]. cbn [fst] in *. destruct idd.
    + destruct (cc_keeps C s2) as [K3 A3]. destruct (attemptToExtractCountryCallingCode C s2) as [s3 ok]. cbn [fst] in *. assert (K : keeps s1 s3) by (eapply keeps_trans; eassumption). destruct ok.
      * eapply holds_imp; [apply extracted_keeps|]. intros [s4 o] [K4 S4]. cbn [fst snd] in *. eapply keeps_trans; eassumption.
      * apply holds_ret. exact K.
    + apply holds_bind. eapply holds_imp; [apply longer_keeps|]. intros [s3 lg] [K3 A3]. cbn [fst] in *. assert (K : keeps s1 s3) by (eapply keeps_trans; eassumption). destruct lg.
      * eapply holds_imp; [apply extracted_keeps|]. intros [s4 o] [K4 S4]. cbn [fst snd] in *. eapply keeps_trans; [exact K|]. exact K4.
      * apply holds_ret. exact K.
Qed.
Lemma accrued_pos ts s ns c b : good ts s ns -> let s' := fst (accrued s c b) in
  f_origpos s' = (if b then S (length ts) else f_origpos s) /\ (f_userfmt s' = false -> f_pos s' = if b then S (length ts) else f_pos s).
Proof.
  intros [G1 G2 G3 G4 G5 G6 G7]. cbv zeta. unfold accrued. cbv zeta. assert (I : length (runes (f_input s ++ encode_rune c)) = S (length ts)) by (rewrite G1, <- encode_runes_one, <- encode_runes_app, runes_count, app_length; cbn; lia).
  cbn [f_input s_input s_origpos]. rewrite I. destruct (isDigitOrLeadingPlusSign _ c).
  - assert (J : forall v, f_userfmt s = false -> length (runes (f_plain s ++ encode_rune v)) = S (length ts)) by (intros v U; specialize (G4 U); subst ns; rewrite G2, <- encode_runes_one, <- encode_runes_app, runes_count, app_length, map_length; cbn; lia).
    unfold normalizeAndAccrueDigitsAndPlusSign. destruct (c =? plusSign), b; cbn [fst snd f_origpos f_pos f_userfmt f_plain f_nn s_pos s_plain s_nn s_origpos s_input]; (split; [reflexivity|]); intros U; auto.
  - destruct b; cbn; (split; [reflexivity|discriminate]).
Qed.

(** The marks kept. *)
Definition marks (n m : nat) (s : aytf) : Prop := f_origpos s = m /\ (f_userfmt s = false -> f_pos s = m).
Lemma press_marks C r ks : forall ts n m s, good_out C r ts s -> length ts = n -> marks n m s ->
  holds (press C s ks) (fun s' => let '(n', m') := fold_left mark_by ks (n, m) in marks n' m' s').
Proof.
  induction ks as [|k ks IH]; intros ts n m s G L M; cbn [press fold_left]; [apply holds_ret; exact M|]. apply holds_bind.
  pose proof (press_one_good C r ts s k G) as G'.
  assert (S1 : holds (press_one C s k) (fun s' => let '(n', m') := mark_by (n, m) k in length (typed_by ts k) = n' /\ marks n' m' s')).
  { destruct G as (ns & G & _). assert (FU : forall c b, f_userfmt (fst (accrued s c b)) = false -> f_userfmt s = false).
    { intros c b U. destruct (accrued_good ts s ns c b G) as (ns' & [_ _ G3 _ _ _ _] & _). rewrite U, dialled_snoc in G3. rewrite (g_user _ _ _ G). destruct (dialled ts); [reflexivity|discriminate]. }
    destruct k as [c|c|]; cbn [press_one mark_by typed_by fst snd].
    1: unfold InputDigit; apply holds_bind, holds_bind; (eapply holds_imp; [apply (step_keeps C ts s ns c false G)|]); destruct (accrued_pos ts s ns c false G) as [P1 P2]; specialize (FU c false).
    2: unfold InputDigitAndRememberPosition; apply holds_bind, holds_bind; (eapply holds_imp; [apply (step_keeps C ts s ns c true G)|]); destruct (accrued_pos ts s ns c true G) as [P1 P2]; specialize (FU c true).
    1,2: intros [s1 o] (_ & _ & K3 & K4 & K5 & _); cbn [fst] in *; apply holds_ret, holds_ret; cbn [fst f_origpos f_pos f_userfmt s_out]; (split; [rewrite app_length; cbn; lia|]); destruct M as [M1 M2]; unfold marks; cbn [f_origpos f_pos f_userfmt s_out];
      rewrite K3, K4, K5, P1; (split; [lia|]); intros U; rewrite P2 by exact U; auto; lia.
    apply holds_ret. cbn. unfold marks. cbn. auto. }
  destruct (press_one C s k) as [s1| |]; cbn [holds] in *; auto. destruct (mark_by (n, m) k) as [n' m'] eqn:E. destruct S1 as [L1 M1]. eapply IH; eauto.
Qed.
Lemma marks_new C r ks s : press C (GetAsYouTypeFormatter C r) ks = Ret s -> f_origpos s = marked ks /\ (f_userfmt s = false -> f_pos s = marked ks).
Proof.
  intros E. pose proof (press_marks C r ks [] 0%nat 0%nat _ (good_new C r) eq_refl) as H. rewrite E in H. unfold marked. destruct (fold_left mark_by ks (0, 0)%nat) as [n m]. cbn [holds snd] in *. apply H. split; reflexivity.
Qed.

(** The scan of the output. *)
Lemma scan output : forall input left pos, filter diallable output = input -> (left <= length input)%nat ->
  exists q, remembered_loop input output left pos = Ret (pos + q)%nat /\ filter diallable (firstn q output) = firstn left input /\
    (q = 0%nat /\ left = 0%nat \/ exists c, nth_error output (q - 1) = Some c /\ diallable c = true /\ (0 < q)%nat).
Proof.
  induction output as [|o output IH]; intros input left pos F L.
  - cbn in F. subst input. cbn in L. destruct left; [|lia]. exists 0%nat. cbn. rewrite Nat.add_0_r. auto.
  - destruct left as [|left]; [exists 0%nat; cbn [remembered_loop]; rewrite Nat.add_0_r; destruct input; auto|].
    destruct input as [|i input]; [cbn in L; lia|]. cbn [remembered_loop]. cbn [filter] in F. destruct (diallable o) eqn:Do.
    + injection F as <- F. rewrite N.eqb_refl. cbn [length] in L. destruct (IH input left (S pos) F ltac:(lia)) as (q & Eq & Fq & Q). exists (S q). split; [rewrite Eq; f_equal; lia|]. cbn [firstn filter]. rewrite Do, Fq. split; [reflexivity|]. right.
      destruct Q as [[-> ->]|(c & N1 & N2 & N3)]; [exists o; cbn; auto with arith|]. exists c. replace (S q - 1)%nat with (S (q - 1)) by lia. cbn [nth_error]. split; [exact N1|]. split; [exact N2|lia].
    + assert (Di : diallable i = true) by (assert (I : In i (filter diallable output)) by (rewrite F; left; reflexivity); apply filter_In in I; apply I).
      replace (i =? o) with false by (symmetry; apply N.eqb_neq; congruence). destruct (IH (i :: input) (S left) (S pos) F L) as (q & Eq & Fq & Q). exists (S q). split; [rewrite Eq; f_equal; lia|]. cbn [firstn filter]. rewrite Do. split; [exact Fq|]. right.
      destruct Q as [[_ X]|(c & N1 & N2 & N3)]; [discriminate|]. exists c. replace (S q - 1)%nat with (S (q - 1)) by lia. cbn [nth_error]. split; [exact N1|]. split; [exact N2|lia].
Qed.
Lemma keypad_dialled l : keypad l = true -> dialled l = true /\ hd 0 l <> 65291 /\ map ascii_digit l = l /\ encode_runes l = l /\ runes l = l /\ filter diallable l = l.
Proof.
  intros K. assert (DD : forall c, is_digit c = true -> decimal c = true /\ ascii_digit c = c).
  { intros c Dc. unfold decimal, ascii_digit. rewrite <- char_digit_spec. unfold char_digit. rewrite Dc. auto. }
  assert (F : Forall (fun c => c < 128 /\ diallable c = true /\ ascii_digit c = c) l).
  { assert (Q : forall c, is_digit c = true -> c < 128 /\ diallable c = true /\ ascii_digit c = c) by (intros c Dc; split; [apply is_digit_iff in Dc; lia|]; split; [apply digit_diallable; exact Dc|apply DD; exact Dc]).
    destruct l as [|c t]; [constructor|]. cbn [keypad] in K. apply andb_prop in K as [K1 K2]. constructor.
    - apply orb_prop in K1 as [K1|K1]; [apply Q; exact K1|]. apply N.eqb_eq in K1. subst c. split; [lia|]. split; vm_compute; reflexivity.
    - apply Forall_forall. intros c0 Hc. apply Q. unfold all_digits in K2. rewrite forallb_forall in K2. auto. }
  split; [|split; [|split; [|split; [|split]]]].
  - destruct l as [|c t]; [reflexivity|]. cbn [keypad] in K. apply andb_prop in K as [K1 K2]. cbn [dialled]. apply andb_true_intro. split.
    + apply orb_prop in K1 as [K1|K1]; [rewrite (proj1 (DD c K1)); reflexivity|rewrite K1; rewrite orb_true_r; reflexivity].
    + apply forallb_forall. intros x Hx. apply DD. unfold all_digits in K2. rewrite forallb_forall in K2. auto.
  - destruct l as [|c t]; [discriminate|]. inversion F as [|? ? Fc _]; subst. cbn [hd]. lia.
  - clear K. induction F as [|c t (_ & _ & E) _ IH]; [reflexivity|]. cbn [map]. rewrite E, IH. reflexivity.
  - clear K. induction F as [|c t (Lc & _) _ IH]; [reflexivity|]. unfold encode_runes in *. cbn [flat_map]. rewrite IH. unfold encode_rune. replace (c <? 128) with true by (symmetry; apply N.ltb_lt; lia). reflexivity.
  - apply runes_ascii. eapply Forall_impl; [|exact F]. intros a H. apply H.
  - clear K. induction F as [|c t (_ & E & _) _ IH]; [reflexivity|]. cbn [filter]. rewrite E, IH. reflexivity.
Qed.
Lemma position_at C r ks s p : aytf_ok C -> fixed_ndd (aytf_metadata C r) = true -> press C (GetAsYouTypeFormatter C r) ks = Ret s -> keypad (typed ks) = true -> f_able s = true -> GetRememberedPosition s = Ret p ->
  just_after (runes (f_out s)) (typed ks) (marked ks) p.
Proof.
  intros CO FN E K A P. destruct (keypad_dialled _ K) as (Dl & Hd & Ma & En & Ru & Fi). destruct (marks_new _ _ _ _ E) as [_ Mp].
  pose proof (press_new C r ks s E) as (ns & [G1 G2 G3 G4 G5 G6 G7] & _). rewrite Dl in G3. cbn in G3. specialize (Mp G3). specialize (G4 G3). rewrite Ma in G4. subst ns. rewrite En in G2.
  assert (O : filter diallable (runes (f_out s)) = typed ks).
  { rewrite filter_runes by (intros c Hc; apply diallable_iff in Hc; lia). destruct (kept true C r ks s CO (fun _ => FN) E Dl Hd) as [O|O]; [rewrite O, En; exact Fi|]. unfold rel, plain_of in O. rewrite Ma, En in O. exact O. }
  unfold GetRememberedPosition in P. rewrite A in P. cbn [negb] in P. rewrite G2, Ru, Mp in P. rewrite Mp in G6.
  destruct (scan (runes (f_out s)) (typed ks) (marked ks) 0%nat O G6) as (q & Eq & Fq & Q). rewrite Eq in P. injection P as <-. split; [exact Fq|]. split; [exact G6|]. exact Q.
Qed.
