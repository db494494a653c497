(** The as-you-type formatter while an international number is typed. *)
From Verif Require Import Base BaseFacts UnicodeTables Utf8 Utf8Facts Regex RegexSpec RegexFacts RegexGrow NormalizeSpec NormalizeFacts Consts Types Normalize Validate Format Parse
  NumberSpec NumberFacts MetaSpec ValidateSpec ValidateFacts Container FormatSpec TextFacts LangFacts FormatFacts FormatMore DerivFacts RoundTripFacts RuleSpec RuleFacts RuleMore
  AsYouType AytfSpec TableFacts AytfFacts AytfMore AytfDigits NationalFacts ShowFacts ShowMore.
Local Opaque compile re_find re_replace_all safe.

Lemma joint_diallable c : joint c = true -> diallable c = false.
Proof.
  intros J. pose proof (joint_ascii _ J) as L. assert (H : forallb (fun n => negb (joint n) || negb (diallable n)) (map N.of_nat (seq 0 128)) = true) by (vm_compute; reflexivity).
  rewrite forallb_forall in H. specialize (H c). rewrite J in H. cbn [negb orb] in H. apply negb_true_iff. apply H. apply in_map_iff. exists (N.to_nat c). split; [lia|]. apply in_seq. lia.
Qed.
Lemma woven_strip s o : woven joint s o -> all_digits s = true -> strip o = s.
Proof. intros W D. rewrite (woven_filter joint diallable s o W joint_diallable). apply digits_strip. exact D. Qed.

(** * Narrowing and templates *)
Definition kept_at (s : bytes) (k : nat) (g : nfmt) : bool := acc [front (level (k - 3) g)] (firstn k s).
Lemma kept_narrowed s k g : kept_at s k g = true <-> narrowed s k g.
Proof. unfold kept_at, narrowed. apply acc_one. Qed.
Lemma narrow_show s k l : all_digits s = true -> (3 <= k <= length s)%nat -> (forall g, In g l -> rule_clear g = true) ->
  holds (narrow_loop (Z.of_nat (len (firstn k s)) - Z.of_nat minLeadingDigitsLength) (firstn k s) l) (fun l' => l' = filter (kept_at s k) l).
Proof.
  intros D K. assert (Dk : all_digits (firstn k s) = true) by (apply all_digits_firstn; exact D). assert (Lk : len (firstn k s) = k) by (unfold len; rewrite firstn_length; lia). rewrite Lk.
  induction l as [|g l IH]; intros Cl; cbn [narrow_loop filter]; [apply holds_ret; reflexivity|]. assert (IH' := IH (fun h Hh => Cl h (or_intror Hh))). clear IH.
  pose proof (clear_parts _ (Cl g (or_introl eq_refl))) as (_ & _ & _ & _ & Lv & _).
  destruct (nf_leading g) as [|p ps] eqn:E.
  - apply holds_bind. eapply holds_imp; [exact IH'|]. intros r ->. apply holds_ret. replace (kept_at s k g) with true; [reflexivity|]. symmetry. apply acc_one. unfold level. rewrite E. apply (proj2 (front_lang _ _ Dk)). exists [], (firstn k s). split; [reflexivity|constructor].
  - set (i := Z.min _ _). assert (Ei : i = Z.of_nat (Nat.min (k - 3) (length (p :: ps) - 1))) by (unfold i, minLeadingDigitsLength; cbn [length]; lia).
    destruct (Z.ltb_spec i 0); [exact I|]. rewrite Ei, Nat2Z.id. set (q := nth (Nat.min (k - 3) (length (p :: ps) - 1)) (p :: ps) []).
    assert (Nq : nth_error (p :: ps) (Nat.min (k - 3) (length (p :: ps) - 1)) = Some q) by (apply nth_error_nth'; cbn [length]; lia). rewrite Nq. cbn [or_panic bind].
    assert (Iq : In q (p :: ps)) by (apply nth_In; cbn [length]; lia). destruct (Lv q Iq) as (Fr & An & Co). pose proof Fr as (x & y & Cx & Cy & Ey).
    unfold must_compile. rewrite Cy. cbn [or_panic bind]. apply holds_bind. eapply holds_imp; [exact IH'|]. intros r ->. apply holds_ret.
    replace (re_match y (firstn k s)) with (kept_at s k g); [reflexivity|]. apply eq_true_iff_eq. rewrite (framed_left_match q y _ Fr Cy), (matches_front_lang q _ An Co Dk), kept_narrowed. unfold narrowed, level. rewrite E. fold q. reflexivity.
Qed.
Lemma template_show f b : fmt_okb f = true -> forall a s, (1 <= length (f_nn s) <= room f)%nat -> holds (maybe_template_loop s (a ++ f :: b)) (fun r => exists a', f_formats (fst r) = a' ++ f :: b /\ incl a' a).
Proof.
  intros Fk. induction a as [|g a IH]; intros s Ro; cbn [app maybe_template_loop].
  - destruct (beq _ _); [apply holds_ret; exists []; split; [reflexivity|intros x []]|]. unfold createFormattingTemplate, getFormattingTemplate, must_compile. unfold room in Ro. unfold fmt_okb in Fk. apply andb_prop in Fk as [_ Fk]. unfold template_okb in Fk.
    destruct (compile (get_pattern f)) as [m|]; [|discriminate]. cbn [or_panic bind]. unfold fill in Fk. set (T := flat_map _ _) in *. set (P := re_find_string m longestPhoneNumber) in *. clearbody T P. apply andb_prop in Fk as [_ H2]. apply Nat.eqb_eq in H2.
    replace (len P <? len (f_nn s))%nat with false by (symmetry; apply Nat.ltb_ge; unfold len; lia). cbn [bind]. destruct T as [|t0 T]; [exfalso; cbn in H2; lia|]. cbn [is_empty bind]. apply holds_ret. exists []. split; [reflexivity|intros x []].
  - destruct (beq _ _); [apply holds_ret; exists (g :: a); split; [reflexivity|apply incl_refl]|]. apply holds_bind. unfold createFormattingTemplate. apply holds_bind. apply holds_any. intros t. destruct (is_empty t); apply holds_ret; cbv iota beta.
    + eapply holds_imp; [apply IH; exact Ro|]. intros r (a' & E & I'). exists a'. split; [exact E|]. intros x X. right. auto.
    + apply holds_ret. exists (g :: a). split; [reflexivity|apply incl_refl].
Qed.

Section Run.
Variables (C : container) (region : bytes) (cc : Z) (s0 : bytes) (m : meta) (f : nfmt) (pre post : list nfmt) (x0 : re).
Hypothesis (CO : aytf_ok C) (W : wf_container C) (PF : prefix_free (map fst (c_cc2region C))) (V : hasValidCountryCallingCode C cc = true) (Mm : main_meta C cc = Some m) (Mo : aytf_meta_okb (Some m) = true).
Hypothesis (Plus : forall mm, mm = Some m \/ mm = aytf_metadata C region -> plus_first mm = true).
Let l := rules m INTERNATIONAL.
Hypothesis (Cl : rules_clear l = true) (D : all_digits s0 = true) (L3 : (3 <= length s0)%nat) (L17 : (length s0 <= 17)%nat).
Hypothesis (El : l = pre ++ f :: post) (Ap : applies f s0) (Np : forall g, In g pre -> ~ applies g s0) (Cx : compile (get_pattern f) = Some x0).

Definition shown_text : bytes := 43 :: itoa cc ++ 32 :: re_replace_all x0 s0 (get_format f).
Definition cand (k : nat) (fs : list nfmt) : Prop := exists a b j, fs = a ++ f :: b /\ incl a pre /\ incl b l /\ (3 <= j <= k)%nat /\ (forall g, In g fs -> narrowed s0 j g) /\
  (forall j', (j < j' <= k)%nat -> exists h, In h fs /\ has_len h j' = true).
Record set_up (k : nat) (s : aytf) : Prop := {
  u_nn : f_nn s = firstn k s0; u_prefix : f_prefix s = 43 :: itoa cc ++ [32]; u_plain : f_plain s = 43 :: itoa cc ++ firstn k s0; u_meta : f_meta s = Some m; u_complete : f_complete s = true;
  u_ndd : f_ndd s = []; u_expect : f_expect s = false; u_user : f_userfmt s = false; u_country : f_country s = region }.
Lemma set_up_same k s s' : set_up k s -> same s s' -> set_up k s'.
Proof. intros [A1 A2 A3 A4 A5 A6 A7 A8 A9] ((K1 & K2 & K3 & K4 & K5 & K6) & B1 & B2 & B3 & B4 & B5 & B6). constructor; congruence. Qed.
Lemma rule_in g : In g l -> rule_clear g = true /\ survives g = true.
Proof. unfold rules_clear in Cl. rewrite !andb_true_iff in Cl. destruct Cl as ((C1 & C2) & _). rewrite forallb_forall in C1, C2. auto. Qed.
Lemma f_in : In f l. Proof. rewrite El. apply in_or_app. right. left. reflexivity. Qed.
Lemma pre_in : incl pre l. Proof. rewrite El. intros g Hg. apply in_or_app. left. exact Hg. Qed.
Lemma cand_incl k fs : cand k fs -> incl fs l.
Proof. intros (a & b & j & -> & Ia & Ib & _) g Hg. apply in_app_or in Hg as [Hg|[<-|Hg]]; [apply pre_in, Ia, Hg|apply f_in|apply Ib, Hg]. Qed.
Lemma fmt_ok_in g : In g l -> fmt_okb g = true.
Proof.
  intros I. destruct (rule_in g I) as [Rc _]. apply clear_parts in Rc as (Eg & _). unfold aytf_meta_okb in Mo. apply andb_true_iff in Mo as [_ H]. rewrite forallb_forall in H. specialize (H g). rewrite Eg in H. cbn [negb orb] in H. apply H. apply in_or_app.
  unfold l in I. apply rules_in in I. exact I.
Qed.
Lemma f_lang : lang (patt f) s0 /\ lang (front (last_level f)) s0.
Proof. apply (applies_lang f s0); [apply rule_in, f_in|exact D|exact Ap]. Qed.
Lemma f_narrowed j : (3 <= j <= length s0)%nat -> narrowed s0 j f.
Proof. intros J. destruct (rule_in f f_in) as [A B]. apply survive; auto. Qed.
(** When the last digit comes, no rule before f matches the whole number. *)
Lemma cand_first k fs : cand k fs -> (length s0 <= S k)%nat -> (k <= length s0)%nat -> exists a b, fs = a ++ f :: b /\ forall g, In g a -> ~ lang (patt g) s0.
Proof.
  intros Ca K1 K2. pose proof (cand_incl _ _ Ca) as Inc. destruct Ca as (a & b & j & E & Ia & Ib & J & Nar & Len). exists a, b. split; [exact E|]. intros g Hg Lg. apply (Np g (Ia g Hg)).
  assert (Gi : In g fs) by (rewrite E; apply in_or_app; left; exact Hg).
  apply (discard l g f s0 j fs); auto; [|apply f_in|lia|].
  - unfold rules_clear in Cl. rewrite !andb_true_iff in Cl. destruct Cl as (_ & C3). exact (pairs_in l l C3 pre f post g El (Ia g Hg)).
  - intros j' J'. apply Len. lia.
Qed.
Lemma shown_full s o : f_prefix s = 43 :: itoa cc ++ [32] -> appendNationalNumber s o = 43 :: itoa cc ++ 32 :: o.
Proof.
  intros E. unfold appendNationalNumber. rewrite E. assert (La : last (43 :: itoa cc ++ [32]) 0 = 32) by (change (43 :: itoa cc ++ [32]) with ((43 :: itoa cc) ++ [32]); apply last_last).
  rewrite La. change (32 =? separatorBeforeNationalNumber) with true. cbn [negb]. rewrite andb_false_r. cbn [app]. rewrite <- app_assoc. reflexivity.
Qed.
Lemma cc_digits : all_digits (itoa cc) = true.
Proof. rewrite itoa_pos by (pose proof (valid_cc_pos _ _ W V); lia). apply dec_digits. Qed.

Lemma accrued_show k : (k <= length s0)%nat -> forall fs s, set_up k s -> incl fs l -> (k = length s0 -> exists a b, fs = a ++ f :: b /\ forall g, In g a -> ~ lang (patt g) s0) ->
  holds (format_accrued_loop s fs) (fun r => (snd r <> [] -> exists h, In h fs /\ has_len h k = true) /\ (k = length s0 -> snd r = shown_text)).
Proof.
  intros K. assert (Dk : all_digits (firstn k s0) = true) by (apply all_digits_firstn; exact D). assert (Lk : length (firstn k s0) = k) by (rewrite firstn_length; lia).
  induction fs as [|h fs IH]; intros s U Inc F; cbn [format_accrued_loop].
  { apply holds_ret. cbn [snd]. split; [congruence|]. intros E. destruct (F E) as (a & b & X & _). destruct a; discriminate. }
  destruct (rule_in h (Inc h (or_introl eq_refl))) as [Rc _]. pose proof (clear_parts _ Rc) as (_ & Fr & An & Co & _ & _ & Pr & Kp). pose proof Fr as (x & y & Hx & Hy & Ey). unfold must_compile. rewrite Hy. cbn [or_panic bind].
  assert (Mt : re_match y (f_nn s) = true <-> lang (patt h) (firstn k s0)). { rewrite (u_nn _ _ U), (framed_match _ y _ Fr Hy), (matches_all_lang _ _ An Co Dk). reflexivity. }
  assert (REC : forall s', set_up k s' -> (k = length s0 -> exists a b, fs = a ++ f :: b /\ forall g, In g a -> ~ lang (patt g) s0) ->
    holds (format_accrued_loop s' fs) (fun r => (snd r <> [] -> exists h', In h' (h :: fs) /\ has_len h' k = true) /\ (k = length s0 -> snd r = shown_text))).
  { intros s' U' F'. eapply holds_imp; [apply IH; [exact U'|intros g Hg; apply Inc; right; exact Hg|exact F']|]. intros r [R1 R2]. split; [|exact R2]. intros Hr. destruct (R1 Hr) as (h' & I' & H'). exists h'. split; [right; exact I'|exact H']. }
  destruct (re_match y (f_nn s)) eqn:Em.
  - apply proj1 in Mt. specialize (Mt eq_refl). set (s1 := s_space s _). assert (U1 : set_up k s1) by (eapply set_up_same; [exact U|sm]).
    change (f_nn s1) with (f_nn s). rewrite (shown_full s1) by exact (u_prefix _ _ U1). change (f_plain s1) with (f_plain s). rewrite (u_nn _ _ U).
    rewrite (u_plain _ _ U), NormalizeDiallableCharsOnly_spec.
    assert (Nf : k = length s0 -> h = f /\ re_replace_all y (firstn k s0) (get_format h) = re_replace_all x0 s0 (get_format f) /\ strip (43 :: itoa cc ++ 32 :: re_replace_all y (firstn k s0) (get_format h)) = 43 :: itoa cc ++ firstn k s0).
    { intros Ek. destruct (F Ek) as (a & b & Ea & Ha). rewrite Ek, firstn_all in *. destruct a as [|g a].
      - cbn [app] in Ea. injection Ea as -> _. split; [reflexivity|]. rewrite Cx in Hx. injection Hx as <-. assert (Ep : re_replace_all y s0 (get_format f) = re_replace_all x0 s0 (get_format f)) by (eapply anchored_prints; eauto). rewrite Ep. split; [reflexivity|].
        pose proof (rule_keeps_ok joint f (get_format f) x0 s0 Kp Cx) as Wo. change (strip (43 :: itoa cc ++ 32 :: re_replace_all x0 s0 (get_format f))) with (43 :: strip (itoa cc ++ 32 :: re_replace_all x0 s0 (get_format f))).
        rewrite filter_app. rewrite (digits_strip _ cc_digits). f_equal. f_equal. change (strip (32 :: re_replace_all x0 s0 (get_format f))) with (strip (re_replace_all x0 s0 (get_format f))). apply woven_strip; assumption.
      - injection Ea as <- _. destruct (Ha h (or_introl eq_refl) Mt). }
    destruct (beq _ _) eqn:Eb.
    + apply holds_ret. cbn [snd]. split.
      * intros _. exists h. split; [left; reflexivity|]. rewrite <- Lk at 1. apply (blind_same h); auto.
      * intros Ek. destruct (Nf Ek) as (-> & Ep & _). rewrite Ep. reflexivity.
    + apply REC; [exact U1|]. intros Ek. destruct (Nf Ek) as (_ & _ & Es). rewrite Es, beq_refl in Eb. discriminate.
  - apply REC; [exact U|]. intros Ek. destruct (F Ek) as (a & b & Ea & Ha). destruct a as [|g a].
    + injection Ea as -> _. exfalso. assert (X : false = true); [|discriminate]. apply Mt. rewrite Ek, firstn_all. apply f_lang.
    + injection Ea as <- ->. exists a, b. split; [reflexivity|]. intros g Hg. apply Ha. right. exact Hg.
Qed.

Lemma narrow_cand k fs a b : (3 <= k <= length s0)%nat -> fs = a ++ f :: b -> incl a pre -> incl b l -> cand k (filter (kept_at s0 k) fs).
Proof.
  intros K -> Ia Ib. exists (filter (kept_at s0 k) a), (filter (kept_at s0 k) b), k. assert (Kf : kept_at s0 k f = true) by (apply kept_narrowed; apply f_narrowed; lia).
  split; [rewrite filter_app; cbn [filter]; rewrite Kf; reflexivity|]. split; [intros g Hg; apply filter_In in Hg; apply Ia; tauto|]. split; [intros g Hg; apply filter_In in Hg; apply Ib; tauto|]. split; [lia|].
  split; [intros g Hg; apply filter_In in Hg; apply kept_narrowed; tauto|]. intros j' J'. lia.
Qed.
(** Dropping rules for which there is no template right after narrowing. *)
Lemma template_cand k fs s : (3 <= k < length s0)%nat -> set_up k s -> cand k (filter (kept_at s0 k) fs) ->
  holds (maybe_template_loop s (filter (kept_at s0 k) fs)) (fun r => cand k (f_formats (fst r))).
Proof.
  intros K U (a & b & j & E & Ia & Ib & _). rewrite E. eapply holds_imp; [apply template_show|].
  - apply fmt_ok_in, f_in.
  - rewrite (u_nn _ _ U), firstn_length. pose proof (clear_parts _ (proj1 (rule_in f f_in))) as (_ & _ & _ & _ & _ & (n & Mx & Ro) & _). pose proof (maxlen_ok _ _ (proj1 f_lang) _ Mx). lia.
  - intros r (a' & Er & I'). exists a', b, k. split; [exact Er|]. split; [intros g Hg; apply Ia, I', Hg|]. split; [exact Ib|]. split; [lia|]. split; [|intros j' J'; lia].
    intros g Hg. rewrite Er in Hg. assert (X : In g (filter (kept_at s0 k) fs)) by (rewrite E; apply in_app_or in Hg as [Hg|Hg]; apply in_or_app; [left; apply I', Hg|right; exact Hg]). apply filter_In in X. apply kept_narrowed. tauto.
Qed.
Lemma shown_nonempty : shown_text <> []. Proof. discriminate. Qed.

Definition fine (k : nat) (s : aytf) : Prop := set_up k s /\ (f_formats s = [] \/ cand k (f_formats s)).
Lemma relevant_all s : f_ndd s = [] -> f_complete s = true -> filter (format_relevant s) l = l.
Proof.
  intros E1 E2. assert (H : forall g, In g l -> format_relevant s g = true).
  { intros g Hg. unfold format_relevant. rewrite E1, E2. cbn [is_empty negb andb]. pose proof (clear_parts _ (proj1 (rule_in g Hg))) as (Eg & _). exact Eg. }
  clear Cl El Ap Np Cx. induction l as [|g t IH]; [reflexivity|]. cbn [filter]. rewrite (H g (or_introl eq_refl)). f_equal. apply IH. intros h Hh. apply H. right. exact Hh.
Qed.
Lemma choose_show k s : (k <= length s0)%nat -> set_up k s -> f_formats s = [] -> holds (attemptToChooseFormattingPattern s) (fun r => fine k (fst r) /\ (k = length s0 -> snd r = shown_text)).
Proof.
  intros K U E. unfold attemptToChooseFormattingPattern. assert (Ln : len (f_nn s) = k) by (rewrite (u_nn _ _ U); unfold len; rewrite firstn_length; lia). rewrite Ln. destruct (Nat.leb_spec minLeadingDigitsLength k) as [Q|Q]; unfold minLeadingDigitsLength in Q.
  2: { apply holds_ret. cbn [fst snd]. split; [split; [exact U|left; exact E]|lia]. }
  apply holds_bind. unfold getAvailableFormats. cbv zeta. rewrite (u_complete _ _ U), (u_ndd _ _ U), (u_meta _ _ U), E. cbn [mget is_empty app andb].
  assert (Er : (if negb match md_inf m with [] => true | _ => false end then md_inf m else md_nf m) = l) by (unfold l, rules; destruct (md_inf m); reflexivity). rewrite Er, (relevant_all s (u_ndd _ _ U) (u_complete _ _ U)).
  unfold narrowDownPossibleFormats. apply holds_bind. change (f_formats (s_formats s l)) with l. rewrite (u_nn _ _ U). eapply holds_imp; [apply narrow_show; [exact D|lia|intros g Hg; apply rule_in, Hg]|]. intros fs ->. apply holds_ret.
  set (fs := filter (kept_at s0 k) l). set (s1 := s_formats (s_formats s l) fs). assert (Ca : cand k fs). { apply (narrow_cand k l pre post); [lia|exact El|apply incl_refl|]. rewrite El. intros g Hg. apply in_or_app. right. right. exact Hg. }
  assert (U1 : set_up k s1) by (eapply set_up_same; [exact U|sm]). apply holds_bind. unfold attemptToFormatAccruedDigits. change (f_formats s1) with fs.
  assert (Fst : k = length s0 -> exists a b, fs = a ++ f :: b /\ forall g, In g a -> ~ lang (patt g) s0) by (intros Ek; apply (cand_first k fs Ca); lia).
  pose proof (accrued_show k K fs s1 U1 (cand_incl _ _ Ca) Fst) as A1. pose proof (accrued_keeps fs s1) as A2. pose proof (accrued_formats fs s1) as A3. destruct (format_accrued_loop s1 fs) as [[s2 o]| |]; cbn [holds] in *; auto. cbn [fst snd] in *.
  destruct A1 as [A1 A1']. destruct A2 as (A2 & _ & _). destruct A3 as [A3 _]. assert (U2 : set_up k s2) by (eapply set_up_same; eassumption). destruct o as [|c o].
  - cbn [is_empty negb]. destruct (Nat.eq_dec k (length s0)) as [Ek|Nk]; [specialize (A1' Ek); discriminate|]. apply holds_bind. unfold maybeCreateNewTemplate. rewrite A3. change (f_formats s1) with fs.
    pose proof (template_cand k l s2 ltac:(lia) U2 Ca) as T1. fold fs in T1. pose proof (template_keeps fs s2) as T2. destruct (maybe_template_loop s2 fs) as [[s3 cr]| |]; cbn [holds] in *; auto. cbn [fst snd] in *. destruct T2 as (T2 & _ & _).
    assert (U3 : set_up k s3) by (eapply set_up_same; eassumption). destruct cr.
    + pose proof (accrue_keeps s3) as [K4 _]. pose proof (accrue_formats s3) as F4. destruct (inputAccruedNationalNumber s3) as [s4 o4]. cbn [fst snd] in *. apply holds_ret. cbn [fst snd]. split; [|lia]. split; [eapply set_up_same; eassumption|]. right. rewrite F4. exact T1.
    + apply holds_ret. cbn [fst snd]. split; [|lia]. split; [exact U3|right; exact T1].
  - cbn [is_empty negb]. apply holds_ret. cbn [fst snd]. split; [|intros Ek; apply A1'; exact Ek]. split; [exact U2|]. right. rewrite A3. exact Ca.
Qed.
Lemma default_show k s c : (k < length s0)%nat -> set_up (S k) s -> f_formats s = [] \/ cand k (f_formats s) -> holds (input_default C s c) (fun r => fine (S k) (fst r) /\ (S k = length s0 -> snd r = shown_text)).
Proof.
  intros K U H. unfold input_default. rewrite (u_expect _ _ U). destruct (f_formats s) as [|f0 l0] eqn:F.
  { apply choose_show; auto. }
  destruct H as [H|Ca]; [discriminate|]. rewrite <- F in Ca. pose proof (helper_keeps s c) as K1. pose proof (helper_formats s c) as F1. destruct (inputDigitHelper s c) as [s1 temp]. cbn [fst] in *.
  assert (U1 : set_up (S k) s1) by (eapply set_up_same; eassumption). apply holds_bind. unfold attemptToFormatAccruedDigits. rewrite F1. set (fs := f_formats s) in *. clearbody fs.
  assert (Fst : S k = length s0 -> exists a b, fs = a ++ f :: b /\ forall g, In g a -> ~ lang (patt g) s0) by (intros Ek; apply (cand_first k fs Ca); lia).
  pose proof (accrued_show (S k) K fs s1 U1 (cand_incl _ _ Ca) Fst) as A1. pose proof (accrued_keeps fs s1) as A2. pose proof (accrued_formats fs s1) as A3. destruct (format_accrued_loop s1 fs) as [[s2 o]| |]; cbn [holds] in *; auto. cbn [fst snd] in *.
  destruct A1 as [A1 A1']. destruct A2 as (A2 & _ & _). destruct A3 as [A3 _]. assert (U2 : set_up (S k) s2) by (eapply set_up_same; eassumption). destruct o as [|c' o].
  - cbn [is_empty negb]. destruct (Nat.eq_dec (S k) (length s0)) as [Ek|Nk]; [specialize (A1' Ek); discriminate|]. apply holds_bind. unfold narrowDownPossibleFormats. apply holds_bind. rewrite (u_nn _ _ U2), A3, F1.
    pose proof (cand_incl _ _ Ca) as Inc. destruct Ca as (a & b & j & E & Ia & Ib & J & _).
    eapply holds_imp; [apply narrow_show; [exact D|lia|intros g Hg; apply rule_in, Inc, Hg]|]. intros fs' ->. apply holds_ret.
    assert (Ca' : cand (S k) (filter (kept_at s0 (S k)) fs)) by (apply (narrow_cand (S k) fs a b); auto; lia).
    set (s3 := s_formats s2 _). assert (U3 : set_up (S k) s3) by (eapply set_up_same; [exact U2|sm]). apply holds_bind. unfold maybeCreateNewTemplate. change (f_formats s3) with (filter (kept_at s0 (S k)) fs).
    pose proof (template_cand (S k) fs s3 ltac:(lia) U3 Ca') as T1. pose proof (template_keeps (filter (kept_at s0 (S k)) fs) s3) as T2. destruct (maybe_template_loop s3 _) as [[s4 cr]| |]; cbn [holds] in *; auto. cbn [fst snd] in *. destruct T2 as (T2 & _ & _).
    assert (U4 : set_up (S k) s4) by (eapply set_up_same; eassumption). destruct cr.
    + pose proof (accrue_keeps s4) as [K5 _]. pose proof (accrue_formats s4) as F5. destruct (inputAccruedNationalNumber s4) as [s5 o5]. cbn [fst snd] in *. apply holds_ret. cbn [fst snd]. split; [|lia]. split; [eapply set_up_same; eassumption|]. right. rewrite F5. exact T1.
    + destruct (f_able s4); apply holds_ret; cbn [fst snd]; (split; [|lia]); (split; [exact U4|right; exact T1]).
  - cbn [is_empty negb]. apply holds_ret. cbn [fst snd]. split; [|intros Ek; apply A1'; exact Ek]. split; [exact U2|]. right. rewrite A3, F1. destruct A1 as (h & Ih & Hh); [discriminate|]. destruct Ca as (a & b & j & E & Ia & Ib & J & Nar & Len).
    exists a, b, j. split; [exact E|]. split; [exact Ia|]. split; [exact Ib|]. split; [lia|]. split; [exact Nar|]. intros j' J'. destruct (Nat.eq_dec j' (S k)) as [->|Nj]; [exists h; auto|apply Len; lia].
Qed.

(** * From the first key to the last *)
Lemma idd_plus s t : f_plain s = 43 :: t -> plus_first (f_meta s) = true -> attemptToExtractIdd s = Ret (s_prefix (s_nn (s_complete s true) t) [43], true).
Proof.
  intros E P. unfold attemptToExtractIdd, must_compile. change ([92; plusSign] ++ bs "|" ++ mbytes md_iprefix (f_meta s)) with (bs "\+|" ++ mbytes md_iprefix (f_meta s)).
  unfold plus_first, idd_re in P. destruct (compile (anchored_left (bs "\+|" ++ mbytes md_iprefix (f_meta s)))) as [x|]; [|discriminate]. cbn [or_panic bind]. rewrite E.
  assert (F : re_find x (43 :: t) = Some {| m_start := 0; m_end := 1; m_caps := [] |}).
  { Local Transparent re_find. unfold re_find, find_from. rewrite skipn_O, Nat.sub_0_r. destruct (re_ast x) as [| |a b0| | | | |]; try discriminate. destruct a; try discriminate. destruct b0 as [| | |a b0| | | |]; try discriminate. destruct a as [|kk| | | | | |]; try discriminate.
    assert (M : rmatch (RCat RBegin (RAlt (RClass kk) b0)) final 0 (43 :: t) [] = Some (1%nat, [])).
    { cbn [rmatch Nat.eqb]. rewrite decode_ascii by lia. rewrite P. replace (0 + (len (43%N :: t) - len t))%nat with 1%nat by (unfold len; cbn [length]; lia). reflexivity. }
    unfold len. cbn [length search]. rewrite M. reflexivity. Local Opaque re_find. }
  rewrite F. cbn [m_end]. cbn [f_plain s_prefix s_nn s_complete]. rewrite E. reflexivity.
Qed.
Lemma main_region_meta : exists r, GetRegionCodeForCountryCode C cc = r /\ (if beq nonGeoEntity r then getMetadataForNonGeographicalRegion C cc = Some m else aytf_metadata C r = Some m).
Proof.
  exists (GetRegionCodeForCountryCode C cc). split; [reflexivity|]. unfold main_meta, getMetadataForRegionOrCallingCode in Mm. destruct (beq nonGeoEntity (GetRegionCodeForCountryCode C cc)) eqn:E; [exact Mm|].
  pose proof V as V'. apply hasValid_In in V' as (rs & I & R). unfold GetRegionCodeForCountryCode in *. rewrite R in *. destruct rs as [|r rs]; [destruct (wf_cc _ W _ _ I) as (_ & Ne & _); congruence|].
  destruct (nongeo_valid_cc C cc (r :: rs) r W I (or_introl eq_refl) R) as (m' & _ & _ & _ & H & _). destruct H as [H1 H2]; [intros ->; rewrite beq_refl in E; discriminate|].
  unfold aytf_metadata, GetCountryCodeForRegion. rewrite H2. unfold getMetadataForRegion in H1. destruct (isValidRegionCode C r) eqn:Vr; [|discriminate]. unfold GetRegionCodeForCountryCode. rewrite R. rewrite Mm. reflexivity.
Qed.
Lemma cc_own s w : f_nn s = itoa cc ++ w -> all_digits w = true -> f_country s = region -> (f_meta s = Some m \/ f_meta s = aytf_metadata C region) ->
  attemptToExtractCountryCallingCode C s = (s_ndd (s_prefix (s_meta (s_nn s w) (Some m)) (f_prefix s ++ itoa cc ++ [32])) [], true).
Proof.
  intros E Dw Rg Me. unfold attemptToExtractCountryCallingCode. pose proof (valid_cc_pos _ _ W V) as Pos. assert (Ne : is_empty (f_nn s) = false) by (rewrite E, itoa_pos by lia; destruct (dec (Z.to_N cc)) eqn:Ed; [elim (dec_nonempty _ Ed)|reflexivity]).
  rewrite Ne, E, (extract_own C cc w W PF V Dw). replace (cc =? 0)%Z with false by (symmetry; apply Z.eqb_neq; lia). destruct main_region_meta as (r & Er & Hr). rewrite Er. destruct (beq nonGeoEntity r); [rewrite Hr; reflexivity|].
  change (f_country (s_nn s w)) with (f_country s). rewrite Rg. destruct (beq_spec r region) as [Eq|Eq]; cbn [negb]; [|rewrite Hr; reflexivity]. subst r. assert (Ms : f_meta s = Some m) by (destruct Me as [Me|Me]; [exact Me|rewrite Me; congruence]).
  unfold separatorBeforeNationalNumber, s_ndd, s_prefix, s_meta, s_nn. cbn. rewrite Ms. reflexivity.
Qed.
Let DD := itoa cc ++ s0.
Let lc := length (itoa cc).
Lemma DD_digits : all_digits DD = true. Proof. unfold DD. rewrite all_digits_app, cc_digits, D. reflexivity. Qed.
Lemma lc_range : (1 <= lc <= 3)%nat.
Proof.
  pose proof (valid_cc_pos _ _ W V) as Pos. unfold lc. rewrite itoa_pos by lia. split.
  - destruct (dec (Z.to_N cc)) eqn:Ed; [elim (dec_nonempty _ Ed)|cbn; lia].
  - apply dec_length_le; [lia|]. change (10 ^ N.of_nat 3) with 1000. lia.
Qed.
Lemma DD_early j : (lc <= j)%nat -> firstn j DD = itoa cc ++ firstn (j - lc) s0.
Proof. intros H. unfold DD. rewrite firstn_app, firstn_all2 by (fold lc; lia). reflexivity. Qed.
Lemma cc_part j : (j < lc)%nat -> extractCountryCode C (firstn j DD) = None.
Proof.
  intros H. assert (E : firstn j DD = firstn j (itoa cc)) by (unfold DD; rewrite firstn_app; replace (j - length (itoa cc))%nat with 0%nat by (fold lc; lia); rewrite firstn_O, app_nil_r; reflexivity). rewrite E.
  destruct (extractCountryCode C (firstn j (itoa cc))) as [[c r]|] eqn:X; [exfalso|reflexivity]. apply extract_some in X as (E' & _ & _ & V' & _); [|apply all_digits_firstn; apply cc_digits].
  assert (K : forall c, hasValidCountryCallingCode C c = true -> In c (map fst (c_cc2region C))).
  { intros c' Hc. unfold hasValidCountryCallingCode in Hc. destruct (assocz c' (c_cc2region C)) eqn:Ec; [|discriminate]. apply assocz_In in Ec. apply in_map_iff. eexists; split; [|exact Ec]. reflexivity. }
  assert (c = cc). { apply (PF c cc (r ++ skipn j (itoa cc)) (K _ V') (K _ V)). rewrite app_assoc, <- E', firstn_skipn. reflexivity. }
  subst c. apply (f_equal (@length N)) in E'. rewrite firstn_length, app_length in E'. fold lc in E'. lia.
Qed.
(** What does not change before the calling code is complete. *)
Record opening (j : nat) (s : aytf) : Prop := {
  o_plain : f_plain s = 43 :: firstn j DD; o_nn : f_nn s = firstn j DD; o_able : f_able s = true; o_formats : f_formats s = []; o_ndd : f_ndd s = []; o_meta : f_meta s = aytf_metadata C region;
  o_user : f_userfmt s = false; o_country : f_country s = region }.
Definition phase (j : nat) (s : aytf) : Prop :=
  ((j < 2)%nat /\ opening j s /\ f_expect s = false) \/
  ((2 <= j < lc)%nat /\ opening j s /\ f_expect s = true /\ f_prefix s = [43] /\ f_complete s = true) \/
  ((2 <= j)%nat /\ (lc <= j)%nat /\ fine (j - lc) s).
Lemma accrued_digit s c b : is_digit c = true -> exists s1, accrued s c b = (s1, c) /\ f_plain s1 = f_plain s ++ [c] /\ f_nn s1 = f_nn s ++ [c] /\ f_able s1 = f_able s /\ f_userfmt s1 = f_userfmt s /\ f_complete s1 = f_complete s /\
  f_expect s1 = f_expect s /\ f_country s1 = f_country s /\ f_meta s1 = f_meta s /\ f_prefix s1 = f_prefix s /\ f_ndd s1 = f_ndd s /\ f_formats s1 = f_formats s.
Proof.
  intros Dc. assert (Ch : char_digit c = Some c) by (unfold char_digit; rewrite Dc; reflexivity). assert (Nd : is_Nd c = true) by (rewrite is_Nd_decimal; unfold decimal; rewrite <- char_digit_spec, Ch; reflexivity).
  pose proof Dc as Dc'. apply is_digit_iff in Dc'. assert (En : encode_rune c = [c]) by (unfold encode_rune; replace (c <? 128) with true by (symmetry; apply N.ltb_lt; lia); reflexivity).
  unfold accrued. cbv zeta. unfold isDigitOrLeadingPlusSign. rewrite Nd. cbn [orb]. unfold normalizeAndAccrueDigitsAndPlusSign. replace (c =? plusSign) with false by (symmetry; apply N.eqb_neq; unfold plusSign; lia). rewrite Ch, En.
  destruct b; eexists; (split; [reflexivity|]); cbn; auto 20.
Qed.
Lemma expect_show j s c : (2 <= j <= S lc)%nat -> opening j s -> f_expect s = true -> f_prefix s = [43] -> f_complete s = true -> (j < lc -> 2 <= j)%nat -> holds (input_default C s c) (fun r => phase j (fst r)).
Proof.
  intros J O Ex Pr Co _. unfold input_default. rewrite Ex. destruct (Nat.lt_ge_cases j lc) as [H|H].
  - unfold attemptToExtractCountryCallingCode. rewrite (o_nn _ _ O), (cc_part j H). destruct (is_empty _); apply holds_ret; cbn [fst]; right; left; (split; [lia|auto]).
  - pose proof (DD_early j H) as Ed. assert (Dw : all_digits (firstn (j - lc) s0) = true) by (apply all_digits_firstn; exact D).
    rewrite (cc_own s (firstn (j - lc) s0)); [|rewrite (o_nn _ _ O); exact Ed|exact Dw|exact (o_country _ _ O)|right; exact (o_meta _ _ O)]. apply holds_ret. cbn [fst]. right. right. split; [lia|]. split; [exact H|]. split; [|left; exact (o_formats _ _ O)].
    constructor; cbn; try reflexivity; [rewrite Pr; reflexivity|rewrite (o_plain _ _ O), Ed; reflexivity|exact Co|exact (o_user _ _ O)|exact (o_country _ _ O)].
Qed.
Lemma firstn_next {A} (w : list A) j c d : nth_error w j = Some c -> d = c -> firstn (S j) w = firstn j w ++ [d].
Proof. intros E ->. revert w E. induction j as [|j IH]; intros [|a l'] E; try discriminate; cbn in *; [injection E as ->; reflexivity|]. f_equal. apply IH. exact E. Qed.
Lemma step_show j s c b : phase j s -> nth_error DD j = Some c -> holds (inputDigitWithOptionToRememberPosition C s c b) (fun r => phase (S j) (fst r) /\ (S j = length DD -> snd r = shown_text)).
Proof.
  intros P Nc. assert (Dc : is_digit c = true) by (pose proof DD_digits as H; unfold all_digits in H; rewrite forallb_forall in H; apply H; eapply nth_error_In; exact Nc).
  assert (Lj : (j < length DD)%nat) by (apply nth_error_Some; congruence). assert (LD : length DD = (lc + length s0)%nat) by (unfold DD; rewrite app_length; reflexivity). pose proof lc_range as Lc.
  pose proof (firstn_next DD j c c Nc eq_refl) as Fn. destruct (accrued_digit s c b Dc) as (s1 & E1 & A1 & A2 & A3 & A4 & A5 & A6 & A7 & A8 & A9 & A10 & A11).
  unfold inputDigitWithOptionToRememberPosition. unfold accrued in E1. cbv zeta in E1 |- *. rewrite E1. clear E1.
  destruct P as [(J & O & Ex)|[(J & O & Ex & Pr & Co)|(J & Jc & U & F)]].
  - assert (O1 : opening (S j) s1). { destruct O. constructor; try congruence; rewrite A1, o_plain0, Fn; reflexivity. }
    rewrite A3, (o_able _ _ O). cbn [negb]. assert (Lp : len (f_plain s1) = S (S j)) by (rewrite (o_plain _ _ O1); unfold len; cbn [length]; rewrite firstn_length; lia). rewrite Lp.
    destruct (Nat.leb_spec (S (S j)) 2) as [Q|Q].
    + apply holds_ret. cbn [fst snd]. split; [|lia]. left. split; [lia|]. split; [exact O1|congruence].
    + replace (S (S j) =? 3)%nat with true by (symmetry; apply Nat.eqb_eq; lia). assert (j = 1%nat) by lia. subst j.
      rewrite (idd_plus s1 (firstn 2 DD)); [|exact (o_plain _ _ O1)|apply Plus; right; exact (o_meta _ _ O1)]. cbn [bind].
      eapply holds_imp; [apply (expect_show 2); auto; [lia|]|].
      * destruct O1. constructor; cbn; auto.
      * intros r Hr. split; [exact Hr|lia].
  - assert (O1 : opening (S j) s1). { destruct O. constructor; try congruence; rewrite A1, o_plain0, Fn; reflexivity. }
    rewrite A3, (o_able _ _ O). cbn [negb]. assert (Lp : len (f_plain s1) = S (S j)) by (rewrite (o_plain _ _ O1); unfold len; cbn [length]; rewrite firstn_length; lia). rewrite Lp.
    replace (S (S j) <=? 2)%nat with false by (symmetry; apply Nat.leb_gt; lia). replace (S (S j) =? 3)%nat with false by (symmetry; apply Nat.eqb_neq; lia).
    eapply holds_imp; [apply (expect_show (S j)); [lia|exact O1|congruence|congruence|congruence|lia]|]. intros r Hr. split; [exact Hr|lia].
  - assert (Fk : firstn (S j - lc) s0 = firstn (j - lc) s0 ++ [c]).
    { rewrite !DD_early in Fn by lia. rewrite <- app_assoc in Fn. apply app_inv_head in Fn. exact Fn. }
    assert (Kj : (S j - lc = S (j - lc))%nat) by lia. set (k := (j - lc)%nat) in *. rewrite Kj in Fk.
    assert (U1 : set_up (S k) s1). { destruct U. constructor; try congruence; [rewrite A1, u_plain0, Fk; cbn; rewrite <- app_assoc; reflexivity]. }
    assert (PH : forall s', fine (S k) s' -> phase (S j) s') by (intros s' Hf; right; right; split; [lia|]; split; [lia|]; rewrite Kj; exact Hf).
    destruct (f_able s1) eqn:Ab; cbn [negb].
    + assert (Lp : len (f_plain s1) = S (S j)) by (rewrite (u_plain _ _ U1); unfold len; cbn [length]; rewrite app_length, firstn_length; fold lc; lia). rewrite Lp.
      replace (S (S j) <=? 2)%nat with false by (symmetry; apply Nat.leb_gt; lia). replace (S (S j) =? 3)%nat with false by (symmetry; apply Nat.eqb_neq; lia).
      eapply holds_imp; [apply (default_show k); [lia|exact U1|rewrite A11; exact F]|]. intros r [R1 R2]. split; [apply PH; exact R1|]. intros El'. apply R2. lia.
    + rewrite (u_user _ _ U1). rewrite (idd_plus s1 (itoa cc ++ firstn (S k) s0)); [|exact (u_plain _ _ U1)|apply Plus; left; exact (u_meta _ _ U1)]. cbn [bind].
      rewrite (cc_own _ (firstn (S k) s0)); [|reflexivity|apply all_digits_firstn; exact D|exact (u_country _ _ U1)|left; exact (u_meta _ _ U1)]. cbv iota beta.
      unfold attemptToChoosePatternWithPrefixExtracted. eapply holds_imp; [apply (choose_show (S k)); [lia| |reflexivity]|].
      * constructor; cbn; try reflexivity; [exact (u_plain _ _ U1)|exact (u_user _ _ U1)|exact (u_country _ _ U1)].
      * intros r [R1 R2]. split; [apply PH; exact R1|]. intros El'. apply R2. lia.
Qed.

(** * Keys *)
Definition char_of (k : key) : option N := match k with Digit c | DigitRemember c => Some c | ClearKey => None end.
Lemma phase_out j s o : phase j s -> phase j (s_out s o).
Proof.
  intros [(J & O & Ex)|[(J & O & Ex & Pr & Co)|(J & Jc & U & F)]]; [left|right; left|right; right].
  - split; [exact J|]. split; [destruct O; constructor; assumption|exact Ex].
  - split; [exact J|]. split; [destruct O; constructor; assumption|]. auto.
  - split; [exact J|]. split; [exact Jc|]. split; [destruct U; constructor; assumption|exact F].
Qed.
Lemma press_one_show j s k c : phase j s -> char_of k = Some c -> nth_error DD j = Some c -> holds (press_one C s k) (fun s' => phase (S j) s' /\ (S j = length DD -> f_out s' = shown_text)).
Proof.
  intros P K Nc. destruct k as [d|d|]; [| |discriminate]; injection K as ->; cbn [press_one]; unfold InputDigit, InputDigitAndRememberPosition; apply holds_bind; apply holds_bind; (eapply holds_imp; [apply (step_show j); [exact P|exact Nc]|]);
  intros [s1 o] [P1 O1]; cbn [fst snd] in *; apply holds_ret; apply holds_ret; cbn [fst]; (split; [apply phase_out; exact P1|exact O1]).
Qed.
Lemma press_show ks : forall j s u, phase j s -> map char_of ks = map Some u -> skipn j DD = u -> holds (press C s ks) (fun s' => u <> [] -> f_out s' = shown_text).
Proof.
  induction ks as [|k ks IH]; intros j s u P M E.
  - destruct u; [|discriminate]. apply holds_ret. congruence.
  - destruct u as [|c u]; [discriminate|]. cbn [map] in M. injection M as M1 M2. cbn [press]. apply holds_bind.
    assert (Nc : nth_error DD j = Some c). { rewrite <- (firstn_skipn j DD), E, nth_error_app2; rewrite firstn_length_le by (apply Nat.lt_le_incl, Nat.nle_gt; intros Q; rewrite skipn_all2 in E by exact Q; discriminate); [rewrite Nat.sub_diag; reflexivity|lia]. }
    assert (E' : skipn (S j) DD = u). { clear - E. revert E. generalize DD. clear. induction j as [|j IHj]; intros [|a l] E; try discriminate; [cbn in *; injection E as _ <-; reflexivity|]. cbn [skipn] in *. apply IHj. exact E. }
    eapply holds_imp; [apply (press_one_show j s k c P M1 Nc)|]. intros s1 [P1 O1]. destruct u as [|c' u].
    + destruct ks as [|k' ks]; [|discriminate]. apply holds_ret. intros _. apply O1. apply (f_equal (@length N)) in E'. rewrite skipn_length in E'. cbn in E'. assert ((j < length DD)%nat) by (apply nth_error_Some; congruence). lia.
    + eapply holds_imp; [apply (IH (S j) s1 (c' :: u)); auto|]. intros s' H _. apply H. discriminate.
Qed.
Lemma start_show k : char_of k = Some 43 -> holds (press_one C (GetAsYouTypeFormatter C region) k) (phase 0).
Proof.
  intros K. destruct k as [d|d|]; [| |discriminate]; injection K as ->; cbn [press_one]; unfold InputDigit, InputDigitAndRememberPosition, inputDigitWithOptionToRememberPosition; cbn [GetAsYouTypeFormatter f_input s_input app f_able f_origpos s_origpos];
  (replace (isDigitOrLeadingPlusSign _ 43) with true by (vm_compute; reflexivity)); cbn; left; (split; [lia|]); (split; [constructor; reflexivity|reflexivity]).
Qed.
Lemma all_show ks : map char_of ks = map Some (43 :: DD) -> holds (press C (GetAsYouTypeFormatter C region) ks) (fun s' => f_out s' = shown_text).
Proof.
  destruct ks as [|k ks]; [discriminate|]. cbn [map]. intros M. injection M as M1 M2. cbn [press]. apply holds_bind. eapply holds_imp; [apply start_show; exact M1|]. intros s P. eapply holds_imp; [apply (press_show ks 0 s DD P M2 eq_refl)|].
  intros s' H. apply H. intros E. apply (f_equal (@length N)) in E. unfold DD in E. rewrite app_length in E. cbn in E. lia.
Qed.
End Run.

(** The keys after the last clearing. *)
Lemma last_clear ks : exists k1 k2, ks = k1 ++ k2 /\ map char_of k2 = map Some (typed ks) /\ (k1 = [] \/ exists k0, k1 = k0 ++ [ClearKey]).
Proof.
  induction ks as [|k ks IH] using rev_ind; [exists [], []; auto|]. destruct IH as (k1 & k2 & E & M & H). unfold typed. rewrite fold_left_app. cbn [fold_left]. fold (typed ks).
  destruct k as [c|c|]; cbn [typed_by].
  1,2: exists k1; eexists; (split; [rewrite E, <- app_assoc; reflexivity|]); rewrite !map_app, M; auto.
  exists (ks ++ [ClearKey]), []. rewrite app_nil_r. split; [reflexivity|]. split; [reflexivity|]. right. eexists. reflexivity.
Qed.
Lemma press_app C k1 : forall k2 s, press C s (k1 ++ k2) = bind (press C s k1) (fun s' => press C s' k2).
Proof. induction k1 as [|k k1 IH]; intros k2 s; [reflexivity|]. cbn [app press]. destruct (press_one C s k); cbn [bind]; auto. Qed.
Lemma press_reset C region ks : exists k2, map char_of k2 = map Some (typed ks) /\ forall s, press C (GetAsYouTypeFormatter C region) ks = Ret s -> press C (GetAsYouTypeFormatter C region) k2 = Ret s.
Proof.
  destruct (last_clear ks) as (k1 & k2 & E & M & [->|(k0 & ->)]); exists k2; (split; [exact M|]); intros s H.
  - rewrite E in H. exact H.
  - rewrite E, press_app, press_app in H. pose proof (press_good C region k0 [] _ (good_new C region)) as G. destruct (press C _ k0) as [s1| |]; cbn [bind] in H; try discriminate. destruct G as (ns & _ & _ & Rg). cbn [press press_one bind] in H. rewrite clear_new, Rg in H. exact H.
Qed.
