(** What a run of the text matcher returns and how much work it does. *)
From Verif Require Import Base BaseFacts Utf8 Utf8Facts Regex RegexSpec RegexFacts LangFacts Consts Types Normalize Validate Format Parse Matcher MetaSpec MatcherSpec AytfFacts MatcherFacts.
From Coq Require Import Sorting.Sorted.
Local Opaque re_find re_find_all re_match.
Local Open Scope nat_scope.

Definition text_good C A cfg m := good_match C A (mc_text cfg) (mc_region cfg) (mc_len cfg) m.

Lemma latin_word c : isLatinLetter c = word_char c.
Proof. reflexivity. Qed.
Lemma lead_starts s : is_some (re_find leadClassPattern s) = true -> starts_as_number s.
Proof.
  destruct (re_find leadClassPattern s) as [m|] eqn:F; [|discriminate]. intros _. apply re_find_sound in F as (L1 & L2 & D & _).
  unfold leadClassPattern in D. cbn [re_ast] in D. inversion D as [| |a b p s0 cs p1 s1 cs1 p2 s2 cs2 D1 D2| | | | | | |]; subst. inversion D1; subst.
  match goal with H : _ = m_start m |- _ => rewrite <- H in * end. cbn [skipn] in D2. inversion D2 as [|k c p s2 t cs Dc K| | | | | | | |]; subst.
  eexists c, _. split; [eassumption|]. unfold cls_match, items_match in K. cbn [cfold cneg citems existsb citem_match] in K. rewrite !orb_true_iff, !in_rng_iff in K. cbn [In]. lia.
Qed.

Lemma neighbours_holds text s i : occurs text s i -> holds (bad_neighbours text s i) (fun b => b = false -> neighbours_ok text s i).
Proof.
  intros (a & b & E & L). unfold bad_neighbours. apply holds_bind.
  assert (P : holds (if (0 <? i) && negb (is_some (re_find leadClassPattern s)) then t <- slice_to text i ;; let c := decode_last_rune t in Ret (isInvalidPunctuationSymbol c || isLatinLetter c) else Ret false)
    (fun r => r = false -> a <> [] -> starts_as_number s \/ (word_char (decode_last_rune a) = false /\ amount_char (decode_last_rune a) = false))).
  { destruct (0 <? i) eqn:I; cbn [andb]; [|apply holds_ret; intros _ N0; apply Nat.ltb_ge in I; destruct a; [congruence|simpl in L; lia]].
    destruct (is_some (re_find leadClassPattern s)) eqn:F; cbn [negb]; [apply holds_ret; intros _ _; left; apply lead_starts; auto|].
    unfold slice_to, slice. destruct (_ && _); [|constructor]. cbn [bind holds]. intros H _. right. apply orb_false_iff in H as [H1 H2].
    assert (Ea : sub text 0 i = a). { rewrite E, <- L. unfold sub. rewrite Nat.sub_0_r. cbn [skipn]. rewrite firstn_app, firstn_all, Nat.sub_diag. cbn. apply app_nil_r. }
    fold (sub text 0 i) in H1, H2. rewrite Ea in *. split; [rewrite <- latin_word|]; auto. }
  eapply holds_imp; [exact P|]. clear P. intros [|] Hb; [apply holds_ret; discriminate|].
  assert (Lt : i + len s <= len text) by (unfold len; rewrite E, !app_length; lia).
  destruct (i + len s <? len text) eqn:Q.
  - unfold slice_from, slice. destruct (_ && _); [|constructor]. cbn [bind holds]. intros H.
    assert (Eb : sub text (i + len s) (len text) = b). { unfold len. rewrite sub_to_end, E, <- L. rewrite app_assoc, <- app_length, skipn_app, skipn_all, Nat.sub_diag. reflexivity. }
    fold (sub text (i + len s) (len text)) in H. rewrite Eb in H. exists a, b. split; [exact E|]. split; [exact L|]. split; [auto|]. intros c t D. rewrite D in H. apply orb_false_iff in H as [H1 H2]. split; [rewrite <- latin_word|]; auto.
  - apply holds_ret. intros _. exists a, b. split; [exact E|]. split; [exact L|]. split; [auto|]. intros c t D. apply Nat.ltb_ge in Q. unfold len in *. rewrite E, !app_length in Q. destruct b; [discriminate|simpl in Q; lia].
Qed.

Lemma pv_holds C A cfg s i : occurs (mc_text cfg) s i -> holds (parseAndVerify C A cfg s i) (fun o => forall p, o = Some p -> text_good C A cfg p /\ pm_start p = i).
Proof.
  intros O. unfold parseAndVerify. destruct (negb _ || _) eqn:B; [apply holds_ret; discriminate|]. apply orb_false_iff in B as [B _]. apply negb_false_iff in B.
  apply holds_bind. eapply holds_imp with (P := fun b => b = false -> (1 <= mc_len cfg)%Z -> neighbours_ok (mc_text cfg) s i).
  { destruct (VALID <=? mc_len cfg)%Z eqn:V; [|apply holds_ret; intros _ L; apply Z.leb_gt in V; unfold VALID in V; lia]. eapply holds_imp; [apply neighbours_holds; exact O|]. auto. }
  intros [|] NB; [apply holds_ret; discriminate|]. apply holds_bind. destruct (ParseAndKeepRawInputToNumber C s (mc_region cfg) phone0) as [[n [e|]]| |] eqn:P; cbn [holds]; [discriminate| |exact I|exact I].
  destruct (Verify C A (mc_len cfg) n s) as [[|]| |] eqn:V; cbn [bind holds]; [|discriminate|exact I|exact I].
  intros p E. injection E as <-. split; [|reflexivity]. split; [exact O|]. split; [cbn; intros ->; rewrite brackets_nonempty in B; discriminate|]. split; [|auto].
  exists n. auto.
Qed.

(** Calls made and tries used, between two points of a run. *)
Definition spent (w w' : work) (extra : nat) : Prop :=
  (Z.of_nat (w_calls w') - Z.of_nat (w_calls w) <= w_tries w - w_tries w' + Z.of_nat extra)%Z /\ (w_tries w' <= w_tries w)%Z /\ (w_calls w <= w_calls w') .

Ltac wk := unfold spent in *; cbn [called dec_tries w_tries w_calls fst snd] in *; lia.

Lemma inner_loop_holds C A cfg s off gs : occurs (mc_text cfg) s off ->
  (forall g, In g gs -> m_start g <= length s /\ exists i j, group g 1 = Some (i, j) /\ i <= j /\ j <= length s) ->
  forall first w, holds (inner_loop C A cfg s off gs first w) (fun r =>
    (forall p, fst r = Some p -> text_good C A cfg p /\ off <= pm_start p) /\
    spent w (snd r) (match fst r with Some _ => 1 | None => 0 end) /\ (w_tries w <= w_tries (snd r) \/ -1 <= w_tries (snd r))%Z).
Proof.
  intros O. induction gs as [|g gs IH]; intros G first w; cbn [inner_loop].
  - apply holds_ret. cbn [fst snd]. split; [discriminate|]. wk.
  - destruct (w_tries w <=? 0)%Z eqn:T. { apply holds_ret. cbn [fst snd]. split; [discriminate|]. wk. }
    apply Z.leb_gt in T. destruct (G g (or_introl eq_refl)) as (Ls & i & j & Eg & Lij & Lj). apply holds_bind.
    apply holds_imp with (P := fun r => (forall p, fst r = Some p -> text_good C A cfg p /\ off <= pm_start p) /\ spent w (snd r) (match fst r with Some _ => 1 | None => 0 end) /\ (w_tries w - 1 <= w_tries (snd r))%Z).
    { destruct first; [|apply holds_ret; cbn [fst snd]; split; [discriminate|wk]]. apply holds_bind. eapply holds_imp; [apply pv_holds|].
      - replace off with (off + (0 + 0)) by lia. eapply occurs_trans; [exact O|]. eapply occurs_trans; [|apply trim_occurs]. apply sub_occurs; lia.
      - intros [p|] Hp; apply holds_ret; cbn [fst snd]; (split; [|wk]); [|discriminate]. intros q Eq. destruct (Hp q Eq). split; [auto|lia]. }
    intros [[p|] w1]; cbn [fst snd]; intros (H1 & H2 & H3).
    + apply holds_ret. cbn [fst snd]. split; [auto|]. split; [auto|]. lia.
    + rewrite Eg. cbn [or_panic bind]. apply holds_bind. eapply holds_imp; [apply pv_holds|].
      * replace (off + i) with (off + (i + 0)) by lia. eapply occurs_trans; [exact O|]. eapply occurs_trans; [|apply trim_occurs]. apply sub_occurs; lia.
      * intros [p|] Hp.
        -- apply holds_ret. cbn [fst snd]. split; [intros q Eq; destruct (Hp q Eq); split; [auto|lia]|]. wk.
        -- eapply holds_imp; [apply IH; intros; apply G; right; auto|]. intros [o w2]. cbn [fst snd]. intros (K1 & K2 & K3). split; [auto|]. destruct o; wk.
Qed.

Lemma inner_holds C A cfg s off pats : occurs (mc_text cfg) s off -> incl pats innerMatches ->
  forall w, holds (extractInnerMatch C A cfg s off pats w) (fun r =>
    (forall p, fst r = Some p -> text_good C A cfg p /\ off <= pm_start p) /\
    spent w (snd r) (match fst r with Some _ => 1 | None => 0 end) /\ (w_tries w <= w_tries (snd r) \/ -1 <= w_tries (snd r))%Z).
Proof.
  intros O. induction pats as [|x pats IH]; intros I w; cbn [extractInnerMatch].
  - apply holds_ret. cbn [fst snd]. split; [discriminate|]. wk.
  - apply holds_bind. eapply holds_imp; [apply inner_loop_holds; [exact O|]|].
    + intros g Hg. eapply inner_find_all; [|exact Hg]. apply I. left. auto.
    + intros [[p|] w1]; cbn [fst snd]; intros (H1 & H2 & H3); [apply holds_ret; auto|].
      eapply holds_imp; [apply IH; intros y Hy; apply I; right; auto|]. intros [o w2]. cbn [fst snd]. intros (K1 & K2 & K3). split; [auto|]. destruct o; wk.
Qed.

Lemma extract_holds C A cfg s off w : occurs (mc_text cfg) s off -> holds (extractMatch C A cfg s off w) (fun r =>
    (forall p, fst r = Some p -> text_good C A cfg p /\ off <= pm_start p) /\
    spent w (snd r) (match fst r with Some _ => 2 | None => 1 end) /\ (w_tries w <= w_tries (snd r) \/ -1 <= w_tries (snd r))%Z).
Proof.
  intros O. unfold extractMatch. assert (Nil : holds (Ret (@None pmatch, w)) (fun r => (forall p, fst r = Some p -> text_good C A cfg p /\ off <= pm_start p) /\ spent w (snd r) (match fst r with Some _ => 2 | None => 1 end) /\ (w_tries w <= w_tries (snd r) \/ -1 <= w_tries (snd r))%Z)).
  { apply holds_ret. cbn [fst snd]. split; [discriminate|]. wk. }
  destruct (re_match slashSeparatedDates s); [exact Nil|]. apply holds_bind. apply holds_any. intros [|]; [exact Nil|]. apply holds_bind. eapply holds_imp; [apply pv_holds; exact O|].
  intros [p|] Hp.
  - apply holds_ret. cbn [fst snd]. split; [intros q Eq; destruct (Hp q Eq); split; [auto|lia]|]. wk.
  - eapply holds_imp; [apply inner_holds; [exact O|apply incl_refl]|]. intros [o w2]. cbn [fst snd]. intros (K1 & K2 & K3). split; [auto|]. destruct o; wk.
Qed.

Lemma find_holds C A cfg fuel : forall index w, index <= length (mc_text cfg) -> holds (find fuel C A cfg index w) (fun r =>
    (forall p, fst r = Some p -> text_good C A cfg p /\ index <= pm_start p) /\
    spent w (snd r) (match fst r with Some _ => 2 | None => 0 end) /\ (w_tries w <= w_tries (snd r) \/ -2 <= w_tries (snd r))%Z).
Proof.
  induction fuel as [|fuel IH]; intros index w L; cbn [find]; [exact I|].
  destruct (0 <? w_tries w)%Z eqn:T; [|apply holds_ret; cbn [fst snd]; split; [discriminate|wk]]. apply Z.ltb_lt in T.
  unfold slice_from, slice at 1. destruct (_ && _); [|exact I]. cbn [bind]. fold (sub (mc_text cfg) index (len (mc_text cfg))). unfold len at 1. rewrite sub_to_end.
  destruct (re_find phoneNumberMatcherPattern (skipn index (mc_text cfg))) as [loc|] eqn:F; [|apply holds_ret; cbn [fst snd]; split; [discriminate|wk]].
  apply candidate_ok in F as (Lb & c0 & c1 & Ec & NA). rewrite skipn_length in Lb. rewrite sub_skipn in Ec.
  unfold slice. destruct (_ && _); [|exact I]. cbn [bind]. fold (sub (mc_text cfg) (index + m_start loc) (index + m_end loc)). rewrite Ec.
  assert (O : occurs (mc_text cfg) (c0 :: c1) (index + m_start loc)).
  { rewrite <- Ec. replace (index + m_start loc) with (index + m_start loc + 0) at 2 by lia. eapply occurs_trans; [|apply trim_occurs]. apply sub_occurs; lia. }
  apply holds_bind. eapply holds_imp; [apply extract_holds; exact O|].
  intros [[p|] w1]; cbn [fst snd]; intros (K1 & K2 & K3).
  - apply holds_ret. cbn [fst snd]. split; [intros q Eq; destruct (K1 q Eq); split; [auto|lia]|]. split; [auto|lia].
  - pose proof (occurs_bound _ _ _ O) as OB. eapply holds_imp; [apply IH; unfold len; lia|]. intros [o w2]. cbn [fst snd]. intros (J1 & J2 & J3).
    split; [intros q Eq; destruct (J1 q Eq); split; [auto|unfold len in *; lia]|]. destruct o; wk.
Qed.
