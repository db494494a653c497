(** The as-you-type formatter never panics, and what it does to the digits typed. *)
From Verif Require Import Base BaseFacts UnicodeTables Utf8 Utf8Facts Regex RegexSpec RegexFacts RegexGrow NormalizeSpec NormalizeFacts Consts Types Normalize Validate NumberFacts Format Parse AsYouType AytfSpec FormatMore TableFacts AytfFacts.
(* Keep the kernel from unfolding the expression compiler when it compares terms. *)
Local Opaque compile re_find re_replace_all.

(** ** Extracting prefixes *)
Definition frame (s s' : aytf) : Prop :=
  keeps s s' /\ f_able s' = f_able s /\ f_tmpl s' = f_tmpl s /\ f_last s' = f_last s /\ f_pattern s' = f_pattern s /\ f_formats s' = f_formats s /\
  f_expect s' = f_expect s /\ f_meta s' = f_meta s /\ f_ndd s' = f_ndd s.
Lemma frame_refl s : frame s s. Proof. unfold frame. split; [apply keeps_refl|auto 12]. Qed.
Lemma frame_trans a b c : frame a b -> frame b c -> frame a c.
Proof. unfold frame. intros (A0 & A1 & A2 & A3 & A4 & A5 & A6 & A7 & A8) (B0 & B1 & B2 & B3 & B4 & B5 & B6 & B7 & B8). rewrite B1, B2, B3, B4, B5, B6, B7, B8. split; [eapply keeps_trans; eassumption|auto 12]. Qed.
Ltac fr := unfold frame, keeps; cbn; auto 20.

Definition nanpa (m : option meta) (nn : bytes) : bool :=
  (mcc m =? 1)%Z && match nn with a :: b :: _ => (a =? 49) && negb (b =? 48) && negb (b =? 49) | _ => false end.
(** The national prefix that is taken off the national number. *)
Definition ext (m : option meta) (nn : bytes) : bytes :=
  if nanpa m nn then firstn 1 nn
  else if is_empty (mbytes md_np_parse m) then []
  else match ndd_re m with Some x => match re_find x nn with Some mm => firstn (m_end mm) nn | None => [] end | None => [] end.
Definition gap (sp : bytes) : Prop := sp = [] \/ sp = [32].
Lemma remove_spec s : holds (removeNationalPrefixFromNationalNumber s) (fun r => snd r = ext (f_meta s) (f_nn s) /\ f_nn s = snd r ++ f_nn (fst r) /\
  (exists sp, gap sp /\ f_prefix (fst r) = f_prefix s ++ snd r ++ sp) /\ frame s (fst r)).
Proof.
  unfold removeNationalPrefixFromNationalNumber, ext. change (isNanpaNumberWithNationalPrefix s) with (nanpa (f_meta s) (f_nn s)). destruct (nanpa (f_meta s) (f_nn s)) eqn:Na.
  - apply holds_ret. cbn [fst snd f_nn f_prefix s_nn s_prefix s_complete]. split; [reflexivity|]. split; [cbn; destruct (f_nn s); reflexivity|]. split; [|fr]. exists [32]. split; [right; reflexivity|].
    unfold nanpa in Na. apply andb_prop in Na as [_ Na]. destruct (f_nn s) as [|a [|b t]]; try discriminate. apply andb_prop in Na as [Na _]. apply andb_prop in Na as [Na _]. apply N.eqb_eq in Na. subst a. reflexivity.
  - set (np := mbytes md_np_parse (f_meta s)). destruct (is_empty np) eqn:En.
    + apply holds_ret. cbn [fst snd app]. split; [reflexivity|]. split; [reflexivity|]. split; [|fr]. exists []. split; [left; reflexivity|]. rewrite app_nil_r. reflexivity.
    + unfold must_compile, ndd_re. fold np. destruct (compile (anchored_left np)) as [x|]; [|exact I]. cbn [or_panic bind]. destruct (re_find x (f_nn s)) as [m|].
      * destruct (m_end m) as [|e] eqn:Em.
        -- cbn [Nat.ltb Nat.leb firstn]. apply holds_ret. cbn [fst snd app]. split; [reflexivity|]. split; [reflexivity|]. split; [|fr]. exists []. split; [left; reflexivity|]. rewrite app_nil_r. reflexivity.
        -- cbn [Nat.ltb Nat.leb]. apply holds_ret. cbn [fst snd]. split; [reflexivity|]. split; [symmetry; apply firstn_skipn|]. split; [|fr]. exists []. split; [left; reflexivity|]. rewrite app_nil_r. reflexivity.
      * apply holds_ret. cbn [fst snd app]. split; [reflexivity|]. split; [reflexivity|]. split; [|fr]. exists []. split; [left; reflexivity|]. rewrite app_nil_r. reflexivity.
Qed.
Definition idd_hit (m : option meta) (plain : bytes) : Prop := match idd_re m with Some x => re_find x plain <> None | None => False end.
Lemma idd_spec s : holds (attemptToExtractIdd s) (fun r => frame s (fst r) /\
  if snd r then idd_hit (f_meta s) (f_plain s) /\ exists E sp, gap sp /\ f_plain s = E ++ f_nn (fst r) /\ f_prefix (fst r) = E ++ sp else fst r = s /\ ~ idd_hit (f_meta s) (f_plain s)).
Proof.
  unfold attemptToExtractIdd, must_compile, idd_hit, idd_re. change ([92; plusSign] ++ bs "|" ++ mbytes md_iprefix (f_meta s)) with (bs "\+|" ++ mbytes md_iprefix (f_meta s)).
  destruct (compile _) as [x|]; [|exact I]. cbn [or_panic bind]. destruct (re_find x (f_plain s)) as [m|] eqn:F.
  - cbn [f_plain s_prefix s_nn s_complete]. destruct (f_plain s) as [|c t] eqn:P; [exact I|]. destruct (c =? plusSign); apply holds_ret; cbn [fst snd]; (split; [unfold frame, keeps; cbn; rewrite P; auto 20|]); (split; [discriminate|]).
    + exists (firstn (m_end m) (c :: t)), []. split; [left; reflexivity|]. split; [symmetry; apply firstn_skipn|]. cbn [f_prefix s_prefix]. rewrite app_nil_r. reflexivity.
    + exists (firstn (m_end m) (c :: t)), [32]. split; [right; reflexivity|]. split; [symmetry; apply firstn_skipn|]. reflexivity.
  - apply holds_ret. split; [fr|]. cbn [snd fst]. split; [reflexivity|]. intros X. apply X. reflexivity.
Qed.
Lemma cc_spec C s : aytf_ok C -> aytf_meta_okb (f_meta s) = true ->
  let r := attemptToExtractCountryCallingCode C s in
  keeps s (fst r) /\ f_able (fst r) = f_able s /\ f_tmpl (fst r) = f_tmpl s /\ f_last (fst r) = f_last s /\ f_pattern (fst r) = f_pattern s /\ f_formats (fst r) = f_formats s /\ f_expect (fst r) = f_expect s /\
  aytf_meta_okb (f_meta (fst r)) = true /\
  if snd r then f_ndd (fst r) = [] /\ exists cc, extractCountryCode C (f_nn s) = Some (cc, f_nn (fst r)) /\ f_prefix (fst r) = f_prefix s ++ itoa cc ++ [32] else fst r = s.
Proof.
  intros [OK1 OK2] OK. cbv zeta. unfold attemptToExtractCountryCallingCode.
  assert (ND : keeps s s /\ f_able s = f_able s /\ f_tmpl s = f_tmpl s /\ f_last s = f_last s /\ f_pattern s = f_pattern s /\ f_formats s = f_formats s /\ f_expect s = f_expect s /\ aytf_meta_okb (f_meta s) = true /\ s = s)
    by (split; [apply keeps_refl|auto 20]).
  destruct (is_empty (f_nn s)); [exact ND|]. destruct (extractCountryCode C (f_nn s)) as [[cc rest]|]; [|exact ND]. destruct (cc =? 0)%Z; [exact ND|]. clear ND.
  assert (M : forall r, aytf_meta_okb (aytf_metadata C r) = true).
  { intros r. unfold aytf_metadata. pose proof (OK1 (GetCountryCodeForRegion C r)) as H. destruct (getMetadataForRegion C _); [exact H|vm_compute; reflexivity]. }
  destruct (beq nonGeoEntity _); [|destruct (negb _)]; cbn; (split; [unfold keeps; cbn; auto 20|]); do 6 (split; [reflexivity|]); (split; [auto; apply OK2|]); (split; [reflexivity|]); exists cc; auto.
Qed.

(** ** The formats under consideration *)
Definition fmts_ok (l : list nfmt) : Prop := Forall (fun f => fmt_okb f = true) l.
Lemma fmts_incl l l' : incl l' l -> fmts_ok l -> fmts_ok l'.
Proof. intros H F. apply Forall_forall. intros f Hf. unfold fmts_ok in F. rewrite Forall_forall in F. auto. Qed.
Lemma narrow_incl idx d l : holds (narrow_loop idx d l) (fun l' => incl l' l).
Proof.
  induction l as [|f l IH]; cbn [narrow_loop]; [apply holds_ret; intros x []|]. destruct (nf_leading f) as [|p ps].
  - apply holds_bind. eapply holds_imp; [exact IH|]. intros r H. apply holds_ret. intros x [->|X]; [left; auto|right; auto].
  - destruct (_ <? 0)%Z; [exact I|]. apply holds_bind. apply holds_any. intros q. apply holds_bind. apply holds_any. intros x. apply holds_bind. eapply holds_imp; [exact IH|]. intros r H. apply holds_ret.
    destruct (re_match x d); [intros y [->|Y]; [left; auto|right; auto]|intros y Y; right; auto].
Qed.
Definition fill_same (s s' : aytf) : Prop := f_tmpl s' = f_tmpl s /\ f_last s' = f_last s /\ f_pattern s' = f_pattern s.
Lemma narrow_formats s d : holds (narrowDownPossibleFormats s d) (fun s' => incl (f_formats s') (f_formats s) /\ fill_same s s').
Proof. unfold narrowDownPossibleFormats. apply holds_bind. eapply holds_imp; [apply narrow_incl|]. intros l H. apply holds_ret. split; [exact H|]. unfold fill_same. auto. Qed.
Lemma eligible_ok s l : forallb (fun f => negb (eligible f) || fmt_okb f) l = true -> fmts_ok (filter (format_relevant s) l).
Proof.
  intros H. apply Forall_forall. intros f Hf. apply filter_In in Hf as [Hf R]. eapply forallb_forall in H; [|exact Hf]. cbv beta in H. apply orb_prop in H as [H|H]; [|exact H].
  unfold format_relevant in R. unfold eligible in H. destruct (negb (is_empty (f_ndd s)) && _ && _ && _); [discriminate|]. destruct (is_empty (f_ndd s) && _ && _ && _); [discriminate|]. rewrite R in H. discriminate.
Qed.
Lemma available_formats s d : aytf_meta_okb (f_meta s) = true -> fmts_ok (f_formats s) -> holds (getAvailableFormats s d) (fun s' => fmts_ok (f_formats s') /\ fill_same s s').
Proof.
  intros M F. unfold getAvailableFormats. cbv zeta. match goal with |- context[filter (format_relevant s) ?x] => set (l := x) end. eapply holds_imp; [apply narrow_formats|]. intros s' [H (S1 & S2 & S3)]. cbn [f_formats s_formats f_tmpl f_last f_pattern] in *. split; [|unfold fill_same; auto]. eapply fmts_incl; [exact H|]. apply Forall_app. split; [exact F|]. apply eligible_ok.
  unfold aytf_meta_okb in M. apply andb_prop in M as [_ M]. rewrite forallb_app in M. apply andb_prop in M as [M1 M2]. unfold l. destruct (_ && _); assumption.
Qed.
Lemma accrued_formats l : forall s, holds (format_accrued_loop s l) (fun r => f_formats (fst r) = f_formats s /\ fill_same s (fst r)).
Proof.
  induction l as [|f l IH]; intros s; cbn [format_accrued_loop]; [apply holds_ret; split; [reflexivity|unfold fill_same; auto]|].
  apply holds_bind. apply holds_any. intros m. destruct (re_match m (f_nn s)); [|apply IH]. cbv zeta. destruct (beq _ _); [apply holds_ret; split; [reflexivity|unfold fill_same; auto]|].
  eapply holds_imp; [apply IH|]. intros r [H1 H2]. split; [exact H1|exact H2].
Qed.
Lemma helper_formats s c : f_formats (fst (inputDigitHelper s c)) = f_formats s.
Proof. unfold inputDigitHelper. destruct (find_placeholder _ _); [reflexivity|]. destruct (f_formats s) as [|x [|y l]] eqn:E; cbn; auto. Qed.
Lemma accrue_formats s : f_formats (fst (inputAccruedNationalNumber s)) = f_formats s.
Proof.
  unfold inputAccruedNationalNumber. destruct (is_empty (f_nn s)); [reflexivity|].
  assert (H : forall l s t, f_formats (fst (fold_left (fun st c => inputDigitHelper (fst st) c) l (s, t))) = f_formats s).
  { clear. induction l as [|c l IH]; intros s t; cbn [fold_left]; [reflexivity|]. cbn [fst]. pose proof (helper_formats s c) as K. destruct (inputDigitHelper s c) as [s1 t1]. rewrite IH. exact K. }
  specialize (H (f_nn s) s []). destruct (fold_left _ _ _) as [s1 t1]. exact H.
Qed.
Lemma template_formats l : forall s, holds (maybe_template_loop s l) (fun r => incl (f_formats (fst r)) l).
Proof.
  induction l as [|f l IH]; intros s; cbn [maybe_template_loop]; [apply holds_ret; intros x []|]. destruct (beq _ _); [apply holds_ret; intros x X; exact X|].
  apply holds_bind. apply holds_any. intros [s1 ok]. destruct ok; [apply holds_ret; intros x X; exact X|]. eapply holds_imp; [apply IH|]. intros r H x X. right. auto.
Qed.
Lemma choose_formats s : aytf_meta_okb (f_meta s) = true -> fmts_ok (f_formats s) -> holds (attemptToChooseFormattingPattern s) (fun r => fmts_ok (f_formats (fst r)) /\ ((len (f_nn s) < 3)%nat -> f_formats (fst r) = f_formats s)).
Proof.
  intros M F. unfold attemptToChooseFormattingPattern. destruct (minLeadingDigitsLength <=? len (f_nn s))%nat eqn:L; [|apply holds_ret; cbn [fst]; auto].
  assert (L3 : (len (f_nn s) < 3)%nat -> False) by (apply Nat.leb_le in L; unfold minLeadingDigitsLength in L; lia). clear L.
  apply holds_bind. eapply holds_imp; [apply available_formats; eauto|]. intros s1 [H1 _]. apply holds_bind. unfold attemptToFormatAccruedDigits. eapply holds_imp; [apply accrued_formats|]. intros [s2 o] [H2 _]. cbn [fst] in *.
  destruct (negb _); [apply holds_ret; cbn [fst]; rewrite H2; split; [exact H1|tauto]|]. apply holds_bind. unfold maybeCreateNewTemplate. eapply holds_imp; [apply template_formats|]. intros [s3 b] H3. cbn [fst] in H3.
  assert (F3 : fmts_ok (f_formats s3)) by (eapply fmts_incl; [exact H3|]; rewrite H2; exact H1). destruct b; [|apply holds_ret; cbn [fst]; tauto]. apply holds_ret. rewrite accrue_formats. tauto.
Qed.
Lemma default_formats C s c : aytf_ok C -> aytf_meta_okb (f_meta s) = true -> fmts_ok (f_formats s) -> holds (input_default C s c) (fun r => fmts_ok (f_formats (fst r)) /\ (f_formats s = [] -> (len (f_nn s) < 3)%nat -> f_formats (fst r) = [])).
Proof.
  intros CO M F. unfold input_default. destruct (f_expect s).
  - destruct (cc_spec C s CO M) as (_ & _ & _ & _ & _ & H & _). destruct (attemptToExtractCountryCallingCode C s) as [s1 ok]. cbn [fst] in *. apply holds_ret. destruct ok; cbn; rewrite H; auto.
  - destruct (f_formats s) as [|f0 l0] eqn:E.
    + eapply holds_imp; [apply choose_formats; auto; rewrite E; exact F|]. intros r [H1 H2]. split; [exact H1|]. intros _ L. rewrite H2, E by exact L. reflexivity.
    + pose proof (helper_formats s c) as H1. destruct (inputDigitHelper s c) as [s1 temp]. cbn [fst] in H1. apply holds_bind. unfold attemptToFormatAccruedDigits. eapply holds_imp; [apply accrued_formats|]. intros [s2 o] [H2 _]. cbn [fst] in *.
      assert (F2 : fmts_ok (f_formats s2)) by (rewrite H2, H1, E; exact F). destruct (negb _); [apply holds_ret; split; [exact F2|discriminate]|]. apply holds_bind. eapply holds_imp; [apply narrow_formats|]. intros s3 [H3 _].
      apply holds_bind. unfold maybeCreateNewTemplate. eapply holds_imp; [apply template_formats|]. intros [s4 b] H4. cbn [fst] in H4. assert (F4 : fmts_ok (f_formats s4)) by (eapply fmts_incl; [exact H4|]; eapply fmts_incl; eauto).
      destruct b; [apply holds_ret; rewrite accrue_formats; split; [exact F4|discriminate]|]. destruct (f_able s4); apply holds_ret; (split; [exact F4|discriminate]).
Qed.

(** ** Totality of the parts *)
Lemma fmt_ok_parts f : fmt_okb f = true -> get_pattern f <> [] /\ (exists x, compile (get_pattern f) = Some x) /\ (exists x, compile (anchored (get_pattern f)) = Some x) /\
  (forall p, In p (nf_leading f) -> exists x, compile (anchored_left p) = Some x).
Proof.
  unfold fmt_okb, template_okb. intros H. apply andb_prop in H as [H T]. apply andb_prop in H as [H L]. apply andb_prop in H as [N A]. split; [destruct (get_pattern f); [discriminate|congruence]|].
  split; [destruct (compile (get_pattern f)); [eauto|discriminate]|]. unfold compiles_b in *. split; [destruct (compile (anchored _)); [eauto|discriminate]|].
  intros p Hp. eapply forallb_forall in L; [|exact Hp]. cbv beta in L. destruct (compile (anchored_left p)); [eauto|discriminate].
Qed.
Lemma narrow_total idx d l : fmts_ok l -> (0 <= idx)%Z -> total (narrow_loop idx d l).
Proof.
  intros F I0. induction F as [|f l Hf Hl IH]; cbn [narrow_loop]; [apply total_ret|]. destruct (nf_leading f) as [|p ps] eqn:E; [apply total_bind; [exact IH|intros; apply total_ret]|].
  set (i := Z.min idx _). assert (B : (0 <= i < Z.of_nat (length (p :: ps)))%Z) by (unfold i; cbn [length]; lia). clearbody i. replace (i <? 0)%Z with false by (symmetry; apply Z.ltb_ge; lia).
  destruct (nth_error (p :: ps) (Z.to_nat i)) as [q|] eqn:Q; [|apply nth_error_None in Q; lia]. cbn [or_panic bind]. apply fmt_ok_parts in Hf as (_ & _ & _ & Hp).
  destruct (Hp q) as [x X]; [rewrite E; eapply nth_error_In; exact Q|]. unfold must_compile. rewrite X. cbn [or_panic bind]. apply total_bind; [exact IH|intros; apply total_ret].
Qed.
Lemma narrow_down_total s d : fmts_ok (f_formats s) -> (3 <= len d)%nat -> total (narrowDownPossibleFormats s d).
Proof. intros F L. unfold narrowDownPossibleFormats. apply total_bind; [apply narrow_total; auto; unfold minLeadingDigitsLength; lia|]. intros; apply total_ret. Qed.
Lemma accrued_total l : fmts_ok l -> forall s, total (format_accrued_loop s l).
Proof.
  induction 1 as [|f l Hf Hl IH]; intros s; cbn [format_accrued_loop]; [apply total_ret|]. apply fmt_ok_parts in Hf as (_ & _ & [x X] & _). unfold must_compile. rewrite X. cbn [or_panic bind].
  destruct (re_match x (f_nn s)); [|apply IH]. cbv zeta. destruct (beq _ _); [apply total_ret|apply IH].
Qed.
Lemma template_total l : fmts_ok l -> forall s, total (maybe_template_loop s l).
Proof.
  induction 1 as [|f l Hf Hl IH]; intros s; cbn [maybe_template_loop]; [apply total_ret|]. destruct (beq _ _); [apply total_ret|]. apply fmt_ok_parts in Hf as (_ & [x X] & _ & _).
  unfold createFormattingTemplate, getFormattingTemplate, must_compile. rewrite X. cbn [or_panic bind]. destruct (_ <? _)%nat; cbn [bind is_empty]; [apply IH|]. destruct (is_empty _); cbn [bind]; [apply IH|apply total_ret].
Qed.
Lemma holds_ret_inv {A} (m : M A) P a : holds m P -> m = Ret a -> P a.
Proof. intros H ->. exact H. Qed.
Lemma choose_total s : aytf_meta_okb (f_meta s) = true -> fmts_ok (f_formats s) -> total (attemptToChooseFormattingPattern s).
Proof.
  intros M F. unfold attemptToChooseFormattingPattern. destruct (minLeadingDigitsLength <=? len (f_nn s))%nat eqn:L; [|apply total_ret]. apply Nat.leb_le in L. unfold minLeadingDigitsLength in L.
  assert (T : total (getAvailableFormats s (f_nn s))).
  { unfold getAvailableFormats. apply narrow_down_total; [|exact L]. cbn [f_formats s_formats]. apply Forall_app. split; [exact F|]. apply eligible_ok. unfold aytf_meta_okb in M. apply andb_prop in M as [_ M]. rewrite forallb_app in M. apply andb_prop in M as [M1 M2]. destruct (_ && _); assumption. }
  apply total_bind; [exact T|]. intros s1 E1. apply (holds_ret_inv _ _ _ (available_formats s (f_nn s) M F)) in E1 as [F1 _].
  apply total_bind; [apply accrued_total; exact F1|]. intros [s2 o] E2. apply (holds_ret_inv _ _ _ (accrued_formats _ _)) in E2 as [F2 _]. cbn [fst] in F2. destruct (negb _); [apply total_ret|].
  apply total_bind; [apply template_total; rewrite F2; exact F1|]. intros [s3 b] _. destruct b; apply total_ret.
Qed.
Lemma default_total C s c : aytf_meta_okb (f_meta s) = true -> fmts_ok (f_formats s) -> (f_formats s <> [] -> (3 <= len (f_nn s))%nat) -> total (input_default C s c).
Proof.
  intros M F L. unfold input_default. destruct (f_expect s); [destruct (attemptToExtractCountryCallingCode C s); apply total_ret|]. destruct (f_formats s) as [|f0 l0] eqn:E; [apply choose_total; auto; rewrite E; exact F|].
  specialize (L ltac:(discriminate)). pose proof (helper_formats s c) as H1. pose proof (helper_keeps s c) as K1. destruct (inputDigitHelper s c) as [s1 temp]. cbn [fst] in *.
  apply total_bind; [apply accrued_total; rewrite H1, E; exact F|]. intros [s2 o] E2. pose proof (holds_ret_inv _ _ _ (accrued_formats _ _) E2) as [F2 _]. pose proof (holds_ret_inv _ _ _ (accrued_keeps _ _) E2) as [K2 _]. cbn [fst] in *.
  destruct (negb _); [apply total_ret|]. assert (N2 : f_nn s2 = f_nn s) by (rewrite (proj1 (proj2 K2)); apply K1).
  assert (FF : fmts_ok (f_formats s2)) by (rewrite F2, H1, E; exact F).
  apply total_bind; [apply narrow_down_total; [exact FF|rewrite N2; exact L]|]. intros s3 E3. apply (holds_ret_inv _ _ _ (narrow_formats _ _)) in E3 as [F3 _].
  apply total_bind; [apply template_total; eapply fmts_incl; eauto|]. intros [s4 b] _. destruct b; [apply total_ret|]. destruct (f_able s4); apply total_ret.
Qed.
Lemma meta_idd m : aytf_meta_okb m = true -> exists x, idd_re m = Some x /\ at_start x = true /\ exists r, re_find x (bs "+") = Some r /\ m_end r = 1%nat.
Proof. unfold aytf_meta_okb, idd_okb. intros H. apply andb_prop in H as [H _]. apply andb_prop in H as [H _]. destruct (idd_re m) as [x|]; [|discriminate]. apply andb_prop in H as [H1 H2]. destruct (re_find x (bs "+")) as [r|] eqn:E; [|discriminate]. apply Nat.eqb_eq in H2. eauto 10. Qed.
Lemma meta_ndd m : aytf_meta_okb m = true -> mbytes md_np_parse m = [] \/ exists x, ndd_re m = Some x /\ starts_ok x = true.
Proof.
  unfold aytf_meta_okb, ndd_okb. intros H. apply andb_prop in H as [H _]. apply andb_prop in H as [_ H]. apply andb_prop in H as [H _]. apply orb_prop in H as [H|H]; [left; destruct (mbytes md_np_parse m); [reflexivity|discriminate]|].
  right. destruct (ndd_re m) as [x|]; [eauto|discriminate].
Qed.
Lemma meta_one m : aytf_meta_okb m = true -> mcc m = 1%Z -> mbytes md_np_parse m = bs "1".
Proof.
  unfold aytf_meta_okb, ndd_okb. intros H E. apply andb_prop in H as [H _]. apply andb_prop in H as [_ H]. apply andb_prop in H as [_ H]. rewrite E in H. cbn in H. apply beq_eq in H. exact H.
Qed.
Lemma remove_total s : aytf_meta_okb (f_meta s) = true -> total (removeNationalPrefixFromNationalNumber s).
Proof.
  intros M. unfold removeNationalPrefixFromNationalNumber. destruct (isNanpaNumberWithNationalPrefix s); [apply total_ret|]. destruct (meta_ndd _ M) as [->|(x & X & _)]; [apply total_ret|]. destruct (is_empty _); [apply total_ret|].
  unfold must_compile. unfold ndd_re in X. rewrite X. cbn [or_panic bind]. destruct (re_find x (f_nn s)) as [m|]; [destruct (0 <? m_end m)%nat|]; apply total_ret.
Qed.
Lemma idd_total s : aytf_meta_okb (f_meta s) = true -> f_plain s <> [] -> total (attemptToExtractIdd s).
Proof.
  intros M P. destruct (meta_idd _ M) as (x & X & _). unfold attemptToExtractIdd, must_compile. change ([92; plusSign] ++ bs "|" ++ mbytes md_iprefix (f_meta s)) with (bs "\+|" ++ mbytes md_iprefix (f_meta s)). unfold idd_re in X. rewrite X. cbn [or_panic bind].
  destruct (re_find x (f_plain s)); [|apply total_ret]. cbn [f_plain s_prefix s_nn s_complete]. destruct (f_plain s); [congruence|]. destruct (_ =? _); apply total_ret.
Qed.
Definition inside (p e : bytes) : Prop := exists A B, p = A ++ e ++ B.
Lemma last_index_inside e : forall p, inside p e -> exists i, last_index_of p e = Some i.
Proof.
  induction p as [|c p IH]; intros (A & B & E).
  - symmetry in E. apply app_eq_nil in E as [-> E]. apply app_eq_nil in E as [-> ->]. exists 0%nat. reflexivity.
  - cbn [last_index_of]. destruct (last_index_of p e) as [i|] eqn:L; [eauto|]. destruct A as [|a A].
    + rewrite E. cbn [app]. rewrite has_prefix_app. eauto.
    + cbn [app] in E. injection E as -> E. destruct IH as [i H]; [exists A, B; exact E|congruence].
Qed.
Lemma last_index_some e : forall p i, last_index_of p e = Some i -> exists B, p = firstn i p ++ e ++ B.
Proof.
  induction p as [|c p IH]; intros i; cbn [last_index_of].
  - destruct (has_prefix [] e) eqn:H; [|discriminate]. intros X. injection X as <-. apply has_prefix_iff in H as [B H]. exists B. exact H.
  - destruct (last_index_of p e) as [j|]; [intros X; injection X as <-; destruct (IH j eq_refl) as [B H]; exists B; cbn [firstn app]; rewrite <- H; reflexivity|].
    destruct (has_prefix (c :: p) e) eqn:H; [|discriminate]. intros X. injection X as <-. apply has_prefix_iff in H as [B H]. exists B. exact H.
Qed.
Lemma longer_total s : aytf_meta_okb (f_meta s) = true -> (f_ndd s <> [] -> inside (f_prefix s) (f_ndd s)) -> total (ableToExtractLongerNdd s).
Proof.
  intros M I0. unfold ableToExtractLongerNdd. apply total_bind.
  - destruct (f_ndd s) as [|c t] eqn:E; cbn [is_empty]; [apply total_ret|]. destruct (last_index_inside (c :: t) (f_prefix s)) as [i H]; [apply I0; discriminate|]. cbn [f_prefix f_ndd s_nn]. rewrite E, H. apply total_ret.
  - intros s1 E1. apply total_bind; [|intros [s2 d] _; apply total_ret]. apply remove_total. destruct (is_empty (f_ndd s)); [apply ret_inj in E1; subst; exact M|]. cbn [f_prefix f_ndd s_nn] in E1. destruct (last_index_of _ _); [|discriminate]. apply ret_inj in E1. subst s1. exact M.
Qed.

(** ** The national prefix taken off again *)
Lemma re_find_whole x s m : whole s -> re_find x s = Some m -> exists w, whole w /\ firstn (m_end m) s = w.
Proof.
  intros W F. pose proof (LangFacts.re_find_boundary x s m F) as B. apply re_find_sound in F as (F1 & F2 & D & _).
  assert (G : forall s i, boundary s i -> whole s -> whole (firstn i s) /\ whole (skipn i s)).
  { clear. intros s i H. induction H as [s|s c t i D B IH]; intros W; [split; [exists []; auto|exact W]|].
    destruct (whole_decode s W) as [->|(c' & u & U & _ & D')]; [discriminate|]. specialize (D' []). rewrite !app_nil_r in D'. rewrite D' in D. injection D as -> ->. destruct (IH U) as [I1 I2].
    destruct W as ([|c0 l] & Hl & ->); [discriminate|]. inversion Hl as [|? ? Hc Hl']; subst. assert (E : encode_runes (c0 :: l) = encode_rune c0 ++ encode_runes l) by reflexivity.
    rewrite E in *. rewrite decode_encode in D' by exact Hc. injection D' as -> <-. unfold len. rewrite app_length. replace (length (encode_rune c) + length (encode_runes l) - length (encode_runes l))%nat with (length (encode_rune c)) by lia.
    rewrite firstn_app_2, skipn_app. rewrite skipn_all2 by lia. replace (length (encode_rune c) + i - length (encode_rune c))%nat with i by lia. split; [|exact I2].
    apply whole_app; [|exact I1]. exists [c]. split; [auto|]. unfold encode_runes. cbn [flat_map]. rewrite app_nil_r. reflexivity. }
  destruct (G s _ B W) as [G1 G2]. destruct (whole_prefix _ _ _ _ _ _ _ D G2) as (w & Ww & E). eexists. split; [|reflexivity].
  replace (firstn (m_end m) s) with (firstn (m_start m) s ++ w); [apply whole_app; auto|].
  assert (s = (firstn (m_start m) s ++ w) ++ skipn (m_end m) s) by (rewrite <- app_assoc, <- E; symmetry; apply firstn_skipn).
  rewrite <- (firstn_skipn (m_end m) s) in H at 1. apply app_inj_tail_iff in H || (apply app_inv_tail in H; symmetry; exact H).
Qed.
Definition lasting (m : option meta) (E : bytes) : Prop := whole E /\ (length E <= 3)%nat /\ exists y, ext m (E ++ y) = E.
Lemma ext_one m nn : aytf_meta_okb m = true -> mcc m = 1%Z -> ext m nn = match nn with 49 :: _ => [49] | _ => [] end.
Proof.
  intros M C1. unfold ext, nanpa, ndd_re. rewrite (meta_one m M C1), C1. cbn [Z.eqb Pos.eqb andb].
  assert (X : exists x, compile (anchored_left (bs "1")) = Some x /\ re_ast x = RCat RBegin (RClass {| cneg := false; citems := [CR 49 49]; cfold := false |})).
  { destruct (compile (anchored_left (bs "1"))) as [x|] eqn:E; [|vm_compute in E; discriminate]. exists x. split; [reflexivity|]. vm_compute in E. injection E as <-. reflexivity. }
  destruct X as (x & X & A). rewrite X. replace (is_empty (bs "1")) with false by reflexivity.
  assert (R : match re_find x nn with Some mm => firstn (m_end mm) nn | None => [] end = match nn with 49 :: _ => [49] | _ => [] end).
  { rewrite find_start by (unfold at_start; rewrite A; reflexivity). rewrite A. cbn [rmatch Nat.eqb]. destruct nn as [|a t]; [reflexivity|]. destruct (decode_rune (a :: t)) as [[c u]|] eqn:D; [|destruct a as [|p]; try reflexivity; do 6 (destruct p as [p|p|]; try reflexivity); rewrite decode_ascii in D by lia; discriminate].
    destruct (N.eq_dec a 49) as [->|Na].
    - rewrite decode_ascii in D by lia. injection D as <- <-. cbn [cls_match cneg cfold citems items_match existsb citem_match orb]. replace (in_rng 49 49 49) with true by reflexivity. cbn [orb final]. unfold len. cbn [length m_end]. replace (0 + (S (length t) - length t))%nat with 1%nat by lia. reflexivity.
    - assert (Nc : cls_match {| cneg := false; citems := [CR 49 49]; cfold := false |} c = false).
      { cbn [cls_match cneg cfold citems items_match existsb citem_match orb]. destruct (in_rng 49 49 c) eqn:Q; [|reflexivity]. apply in_rng_iff in Q. apply decode_rune_spec in D as (w & E & _ & _ & [[W1 W2]|[W1 _]]); [|lia]. subst w. injection E as -> _. lia. }
      rewrite Nc. destruct a as [|p]; try reflexivity; do 6 (destruct p as [p|p|]; try reflexivity). lia. }
  match goal with |- (if ?b then _ else _) = _ => destruct b eqn:Q end; [|exact R]. destruct nn as [|a [|b t]]; try discriminate. apply andb_prop in Q as [Q _]. apply andb_prop in Q as [Q _]. apply N.eqb_eq in Q. subst a. reflexivity.
Qed.
Lemma ext_again m E t : aytf_meta_okb m = true -> lasting m E -> E <> [] -> exists R, ext m (E ++ t) = E ++ R.
Proof.
  intros M (W & B & y & X) Ne. destruct (Z.eq_dec (mcc m) 1) as [C1|C1].
  - rewrite ext_one in * by auto. destruct E as [|a E]; [congruence|]. cbn [app] in *. assert (a = 49 /\ E = []) as [-> ->]; [|exists []; reflexivity].
    destruct a as [|p]; try discriminate X; do 6 (destruct p as [p|p|]; try discriminate X). injection X as ->. auto.
  - unfold ext in *. assert (Nn : forall nn, nanpa m nn = false) by (intros nn; unfold nanpa; replace (mcc m =? 1)%Z with false by (symmetry; apply Z.eqb_neq; exact C1); reflexivity).
    rewrite Nn in *. destruct (meta_ndd m M) as [Z|(x & Ex & S)]; [rewrite Z in X; cbn in X; congruence|]. destruct (is_empty _); [congruence|]. rewrite Ex in *.
    destruct (re_find x (E ++ y)) as [mm|] eqn:F; [|congruence]. assert (ME : m_end mm = length E).
    { apply re_find_sound in F as (_ & F2 & _). assert (L : length (firstn (m_end mm) (E ++ y)) = length E) by (rewrite X; reflexivity). rewrite firstn_length in L. unfold len in F2. rewrite app_length in *. lia. }
    destruct (find_again x E y t mm S W B F ME) as (m' & -> & L). exists (firstn (m_end m' - length E) t). rewrite firstn_app, firstn_all2 by exact L. reflexivity.
Qed.
Lemma ext_whole m nn : whole nn -> whole (ext m nn) /\ exists y, nn = ext m nn ++ y.
Proof.
  intros W. assert (N : whole []) by (exists []; auto). unfold ext. destruct (nanpa m nn) eqn:Na.
  - unfold nanpa in Na. apply andb_prop in Na as [_ Na]. destruct nn as [|a [|b t]]; try discriminate. apply andb_prop in Na as [Na _]. apply andb_prop in Na as [Na _]. apply N.eqb_eq in Na. subst a. cbn [firstn]. split; [|exists (b :: t); reflexivity].
    apply whole_ascii. constructor; [lia|constructor].
  - destruct (is_empty _); [split; [exact N|exists nn; reflexivity]|]. destruct (ndd_re m) as [x|]; [|split; [exact N|exists nn; reflexivity]]. destruct (re_find x nn) as [mm|] eqn:F; [|split; [exact N|exists nn; reflexivity]].
    split; [|exists (skipn (m_end mm) nn); symmetry; apply firstn_skipn].
    destruct (re_find_whole x nn mm W F) as (w & Ww & Q). rewrite Q. exact Ww.
Qed.
Lemma longer_spec s : holds (ableToExtractLongerNdd s) (fun r => frame s (fst r) /\ exists P0 B E sp, f_prefix s = P0 ++ f_ndd s ++ B /\ (f_ndd s = [] -> B = []) /\
  (f_ndd s <> [] -> last_index_of (f_prefix s) (f_ndd s) = Some (length P0)) /\
  E = ext (f_meta s) (f_ndd s ++ f_nn s) /\ f_ndd s ++ f_nn s = E ++ f_nn (fst r) /\ gap sp /\ f_prefix (fst r) = P0 ++ E ++ sp /\ snd r = negb (beq (f_ndd s) E)).
Proof.
  unfold ableToExtractLongerNdd. apply holds_bind.
  assert (H : holds (if is_empty (f_ndd s) then Ret s else match last_index_of (f_prefix (s_nn s (f_ndd s ++ f_nn s))) (f_ndd (s_nn s (f_ndd s ++ f_nn s))) with Some i => Ret (s_prefix (s_nn s (f_ndd s ++ f_nn s)) (firstn i (f_prefix (s_nn s (f_ndd s ++ f_nn s))))) | None => Panic end)
    (fun s1 => frame s s1 /\ f_nn s1 = f_ndd s ++ f_nn s /\ exists B, f_prefix s = f_prefix s1 ++ f_ndd s ++ B /\ (f_ndd s = [] -> B = []) /\ (f_ndd s <> [] -> last_index_of (f_prefix s) (f_ndd s) = Some (length (f_prefix s1))))).
  { destruct (f_ndd s) as [|c t] eqn:E; cbn [is_empty].
    - apply holds_ret. split; [fr|]. split; [reflexivity|]. exists []. split; [rewrite app_nil_r; reflexivity|]. split; [reflexivity|congruence].
    - cbn [f_prefix f_ndd s_nn]. rewrite E. destruct (last_index_of (f_prefix s) (c :: t)) as [i|] eqn:L; [|exact I]. apply holds_ret. split; [unfold frame, keeps; cbn; auto 20|]. split; [reflexivity|].
      destruct (last_index_some _ _ _ L) as [B Q]. exists B. cbn [f_prefix s_prefix]. split; [exact Q|]. split; [discriminate|]. intros _. f_equal.
      assert (X : (i <= length (f_prefix s))%nat). { clear - L. revert i L. generalize (f_prefix s). induction b as [|a p IH]; cbn [last_index_of]; intros i; [destruct (has_prefix [] _); [intros X; injection X as <-; lia|discriminate]|].
        destruct (last_index_of p _) as [j|]; [intros X; injection X as <-; specialize (IH j eq_refl); cbn [length]; lia|]. destruct (has_prefix _ _); [intros X; injection X as <-; lia|discriminate]. }
      rewrite firstn_length. lia. }
  eapply holds_imp; [exact H|]. clear H. intros s1 (F1 & N1 & B & P1 & B0 & L1). apply holds_bind. eapply holds_imp; [apply remove_spec|]. intros [s2 E] (X1 & X2 & (sp & X3 & X4) & F2). cbn [fst snd] in *. apply holds_ret. cbn [fst snd].
  split; [eapply frame_trans; eassumption|]. exists (f_prefix s1), B, E, sp. split; [exact P1|]. split; [exact B0|]. split; [exact L1|]. pose proof F1 as (_ & _ & _ & _ & _ & _ & _ & M1 & D1). pose proof F2 as (_ & _ & _ & _ & _ & _ & _ & M2 & D2). rewrite M1, N1 in X1. split; [exact X1|]. split; [congruence|]. split; [exact X3|]. split; [exact X4|]. rewrite D2, D1. reflexivity.
Qed.
Lemma default_same C s c : f_expect s = false -> holds (input_default C s c) (fun r => same s (fst r)).
Proof.
  intros X. unfold input_default. rewrite X. destruct (f_formats s) as [|f0 l0] eqn:F.
  - eapply holds_imp; [apply choose_keeps|]. intros r [K _]. exact K.
  - pose proof (helper_keeps s c) as K1. destruct (inputDigitHelper s c) as [s1 temp]. cbn [fst] in K1. apply holds_bind. unfold attemptToFormatAccruedDigits. eapply holds_imp; [apply accrued_keeps|]. intros [s2 o] (K2 & _). cbn [fst snd] in *.
    assert (K : same s s2) by (eapply same_trans; eassumption). destruct (negb _); [apply holds_ret; exact K|]. apply holds_bind. eapply holds_imp; [apply narrow_keeps|]. intros s3 [K3 _]. apply holds_bind. unfold maybeCreateNewTemplate. eapply holds_imp; [apply template_keeps|]. intros [s4 b] (K4 & _). cbn [fst] in K4.
    assert (K' : same s s4) by (eapply same_trans; [exact K|]; eapply same_trans; eassumption). destruct b.
    + apply holds_ret. eapply same_trans; [exact K'|]. apply (accrue_keeps s4).
    + destruct (f_able s4); apply holds_ret; exact K'.
Qed.

(** ** No panic *)
Definition early (k : nat) (s : aytf) : Prop := (len (f_plain s) < k)%nat ->
  f_ndd s = [] /\ whole (f_nn s) /\ f_able s = true /\ f_formats s = [] /\ f_expect s = false /\ (len (f_nn s) <= len (f_plain s))%nat.
Definition recall (s : aytf) : Prop := f_ndd s <> [] -> idd_hit (f_meta s) (f_plain s) \/ (inside (f_prefix s) (f_ndd s) /\ lasting (f_meta s) (f_ndd s)).
Record np (k : nat) (s : aytf) : Prop := {
  n_meta : aytf_meta_okb (f_meta s) = true;
  n_fmts : fmts_ok (f_formats s);
  n_three : f_able s = true -> f_formats s <> [] -> (3 <= len (f_nn s))%nat;
  n_expect : f_expect s = true -> f_formats s = [];
  n_plain : whole (f_plain s);
  n_early : early k s;
  n_ndd : recall s }.
Lemma np_same k k' s s' : np k s -> same s s' -> (k' <= len (f_plain s))%nat -> fmts_ok (f_formats s') -> (f_formats s' <> [] -> (3 <= len (f_nn s))%nat) -> (f_expect s = true -> f_formats s' = []) -> np k' s'.
Proof.
  intros [G1 G2 G3 G4 G5 G6 G7] (K & S1 & S2 & S3 & S4 & S5 & S6) L F T X. pose proof K as (_ & P & _). constructor; try congruence.
  - rewrite S1. auto.
  - rewrite S6. exact X.
  - intros B. exfalso. unfold len in *. rewrite P in B. lia.
  - unfold recall in *. rewrite S4, S3, S2, P. exact G7.
Qed.
Lemma idd_hit_more m p t : aytf_meta_okb m = true -> whole p -> idd_hit m p -> idd_hit m (p ++ t).
Proof.
  intros M W. destruct (meta_idd m M) as (x & X & A & _). unfold idd_hit. rewrite X. intros H. pose proof (find_grow x p t A W) as G. destruct (re_find x (p ++ t)); [discriminate|congruence].
Qed.
Lemma encode_whole c : whole (encode_rune c) /\ encode_rune c <> [].
Proof.
  destruct (encode_repair c) as [E S]. rewrite E. split; [exists [repair c]; split; [auto|]; unfold encode_runes; cbn [flat_map]; rewrite app_nil_r; reflexivity|].
  intros Y. pose proof (decode_encode (repair c) [] S) as Z. rewrite Y in Z. discriminate.
Qed.
Lemma accrued_np s c b : np 3 s -> f_userfmt (fst (accrued s c b)) = false -> np 4 (fst (accrued s c b)) /\ f_plain (fst (accrued s c b)) <> [].
Proof.
  intros [G1 G2 G3 G4 G5 G6 G7] U. unfold accrued in *. set (s0 := s_input s _) in *. set (s1 := if b then _ else s0) in *.
  assert (E : f_meta s1 = f_meta s /\ f_formats s1 = f_formats s /\ f_able s1 = f_able s /\ f_expect s1 = f_expect s /\ f_plain s1 = f_plain s /\ f_nn s1 = f_nn s /\ f_ndd s1 = f_ndd s /\ f_prefix s1 = f_prefix s) by (destruct b; cbn; auto 20).
  clearbody s1. destruct (isDigitOrLeadingPlusSign s1 c); [|cbn in U; discriminate]. clear U.
  destruct E as (E1 & E2 & E3 & E4 & E5 & E6 & E7 & E8).
  assert (N : exists v, let r := fst (normalizeAndAccrueDigitsAndPlusSign s1 c b) in f_meta r = f_meta s /\ f_formats r = f_formats s /\ f_able r = f_able s /\ f_expect r = f_expect s /\ f_plain r = f_plain s ++ encode_rune v /\ (f_nn r = f_nn s \/ f_nn r = f_nn s ++ encode_rune v) /\ f_ndd r = f_ndd s /\ f_prefix r = f_prefix s).
  { unfold normalizeAndAccrueDigitsAndPlusSign. destruct (c =? plusSign).
    - exists c. destruct b; cbn; rewrite ?E1, ?E2, ?E3, ?E4, ?E5, ?E6, ?E7, ?E8; auto 20.
    - exists (match char_digit c with Some v => v | None => c end). destruct b; cbn; rewrite ?E1, ?E2, ?E3, ?E4, ?E5, ?E6, ?E7, ?E8; auto 20. }
  destruct N as (v & N). cbv zeta in N. set (r := fst _) in *. clearbody r. destruct N as (N1 & N2 & N3 & N4 & N5 & N6 & N7 & N8). destruct (encode_whole v) as [Wv Nv].
  split; [|rewrite N5; intros Z; apply app_eq_nil in Z as [_ Z]; exact (Nv Z)]. constructor.
  - rewrite N1. exact G1.
  - rewrite N2. exact G2.
  - rewrite N2, N3. intros A F. specialize (G3 A F). destruct N6 as [-> | ->]; [exact G3|]. unfold len in *. rewrite app_length. lia.
  - rewrite N2, N4. exact G4.
  - rewrite N5. apply whole_app; assumption.
  - unfold early in *. rewrite N2, N3, N4, N5, N7. intros L. assert (L' : (len (f_plain s) < 3)%nat). { unfold len in *. rewrite app_length in L. destruct (encode_rune v); [congruence|]. cbn [length] in L. lia. }
    destruct (G6 L') as (H1 & H2 & H3 & H4 & H5 & H6). split; [exact H1|]. split; [destruct N6 as [-> | ->]; [exact H2|apply whole_app; assumption]|]. split; [exact H3|]. split; [exact H4|]. split; [exact H5|].
    destruct N6 as [-> | ->]; unfold len in *; rewrite ?app_length; lia.
  - unfold recall in *. rewrite N1, N5, N7, N8. intros D. destruct (G7 D) as [H|H]; [left|right; exact H]. apply idd_hit_more; assumption.
Qed.
Lemma np_weaken j k s : (j <= k)%nat -> np k s -> np j s.
Proof. intros L [G1 G2 G3 G4 G5 G6 G7]. constructor; auto. intros B. apply G6. lia. Qed.

Lemma extracted_np s : aytf_meta_okb (f_meta s) = true -> whole (f_plain s) -> (3 <= len (f_plain s))%nat -> recall s ->
  exists r, attemptToChoosePatternWithPrefixExtracted s = Ret r /\ np 3 (fst r).
Proof.
  intros M W L R. unfold attemptToChoosePatternWithPrefixExtracted. set (s1 := s_pattern _ _).
  assert (F0 : f_formats s1 = []) by reflexivity. assert (F1 : fmts_ok (f_formats s1)) by constructor.
  destruct (choose_total s1 M F1) as [r E]. exists r. split; [exact E|]. pose proof (holds_ret_inv _ _ _ (choose_formats s1 M F1) E) as [H1 H2]. pose proof (holds_ret_inv _ _ _ (choose_keeps s1) E) as [K _].
  eapply np_same; [|exact K| | |  |].
  - constructor; [exact M|exact F1|intros _ X; rewrite F0 in X; congruence|reflexivity|exact W| |exact R]. instantiate (1 := 0%nat). intros B. lia.
  - exact L.
  - exact H1.
  - intros Ne. destruct (Nat.lt_ge_cases (len (f_nn s1)) 3) as [B|B]; [|exact B]. rewrite (H2 B), F0 in Ne. congruence.
  - discriminate.
Qed.
Lemma step_np C ts s ns c b : aytf_ok C -> good ts s ns -> (f_userfmt s = false -> np 3 s) ->
  exists r, inputDigitWithOptionToRememberPosition C s c b = Ret r /\ (f_userfmt (fst r) = false -> np 3 (fst r)).
Proof.
  intros CO G H. unfold inputDigitWithOptionToRememberPosition.
  assert (A : f_userfmt (fst (accrued s c b)) = false -> np 4 (fst (accrued s c b)) /\ f_plain (fst (accrued s c b)) <> []).
  { intros U. apply accrued_np; [|exact U]. apply H. destruct (accrued_good ts s ns c b G) as (ns' & [_ _ G3 _ _ _ _] & _). rewrite U, dialled_snoc in G3. rewrite (g_user _ _ _ G). destruct (dialled ts); [reflexivity|discriminate]. }
  destruct (accrued_good ts s ns c b G) as (ns' & G' & _ & _). clear G H.
  unfold accrued in *. cbv zeta in *. destruct (if isDigitOrLeadingPlusSign _ c then _ else _) as [s1 c1]. cbn [fst] in *.
  destruct (f_userfmt s1) eqn:U.
  { rewrite (g_able _ _ _ G' U). cbn [negb]. eexists. split; [reflexivity|]. cbn [fst]. congruence. }
  destruct (A eq_refl) as [NP Ne]. clear A G' U. destruct NP as [G1 G2 G3 G4 G5 G6 G7] eqn:NPE. pose proof NP as NP0. clear NPE. destruct (f_able s1) eqn:Ab; cbn [negb].
  - destruct (len (f_plain s1) <=? 2)%nat eqn:L2; [eexists; split; [reflexivity|]; intros _; cbn [fst]; apply (np_weaken 3 4); [lia|exact NP0]|]. apply Nat.leb_gt in L2.
    destruct (len (f_plain s1) =? 3)%nat eqn:L3.
    + apply Nat.eqb_eq in L3. destruct (G6 ltac:(lia)) as (D0 & Wn & _ & F0 & X0 & Ln).
      destruct (idd_total s1 G1 Ne) as [[s2 idd] E2]. rewrite E2. cbn [bind]. pose proof (holds_ret_inv _ _ _ (idd_spec s1) E2) as [Fr Q]. cbn [fst snd] in *. destruct idd.
      * (* the country calling code comes next *)
        pose proof Fr as ((_ & P & _) & _ & _ & _ & _ & Ff & _ & Fm & Fd).
        set (s3 := s_expect s2 true). unfold input_default. replace (f_expect s3) with true by reflexivity.
        assert (M3 : aytf_meta_okb (f_meta s3) = true) by (cbn; rewrite Fm; exact G1).
        destruct (cc_spec C s3 CO M3) as (K4 & A4 & _ & _ & _ & Ff4 & X4 & M4 & Q4). destruct (attemptToExtractCountryCallingCode C s3) as [s4 ok]. cbn [fst snd] in *.
        assert (F4 : f_formats s4 = []) by (rewrite Ff4; cbn; rewrite Ff; exact F0). pose proof K4 as (_ & P4 & _). eexists. split; [reflexivity|]. intros _. cbn [fst].
        assert (D4 : f_ndd s4 = []) by (destruct ok; [apply Q4|rewrite Q4; cbn; rewrite Fd; exact D0]).
        destruct ok; constructor; cbn [f_meta f_formats f_able f_expect f_plain s_expect]; try assumption; try (rewrite F4; constructor); try (rewrite F4; congruence); try (rewrite P4; cbn; rewrite P; exact G5);
          try (intros B; exfalso; cbn [f_plain s_expect] in B; rewrite P4 in B; cbn [s3 f_plain s_expect] in B; unfold s3 in B; cbn [f_plain s_expect] in B; rewrite P in B; lia); try (intros B; exfalso; cbn in B; congruence).
      * destruct Q as [Q Qi]. subst s2. destruct (remove_total s1 G1) as [[s3 E] E3]. rewrite E3. cbn [bind]. pose proof (holds_ret_inv _ _ _ (remove_spec s1) E3) as (R1 & R2 & (sp & R3 & R4) & Fr3). cbn [fst snd] in *.
        pose proof Fr3 as (K3 & A3 & _ & _ & _ & Ff & X3 & Fm & Fd). pose proof K3 as (_ & P3 & _).
        set (s4 := s_ndd s3 E). assert (M4 : aytf_meta_okb (f_meta s4) = true) by (cbn; rewrite Fm; exact G1). assert (F4 : f_formats s4 = []) by (cbn; rewrite Ff; exact F0). assert (FO : fmts_ok (f_formats s4)) by (rewrite F4; constructor).
        destruct (choose_total s4 M4 FO) as [r Er]. exists r. split; [exact Er|]. intros _. pose proof (holds_ret_inv _ _ _ (choose_formats s4 M4 FO) Er) as [H1 H2]. pose proof (holds_ret_inv _ _ _ (choose_keeps s4) Er) as [K _].
        eapply np_same; [|exact K| | | |].
        -- constructor; [exact M4|exact FO|intros _ X; rewrite F4 in X; congruence|cbn; congruence|cbn; rewrite P3; exact G5| |].
           ++ instantiate (1 := 0%nat). intros B. lia.
           ++ intros D. cbn in D. right. destruct (ext_whole (f_meta s1) (f_nn s1) Wn) as [We [y Ey]]. rewrite <- R1 in We, Ey. cbn. split.
              ** exists (f_prefix s1), sp. exact R4.
              ** rewrite Fm. split; [exact We|]. split; [unfold len in *; rewrite Ey, app_length in Ln; lia|]. exists y. rewrite <- Ey. symmetry. exact R1.
        -- cbn. rewrite P3. unfold len in *. lia.
        -- exact H1.
        -- intros B. destruct (Nat.lt_ge_cases (len (f_nn s4)) 3) as [B'|B']; [|exact B']. rewrite (H2 B'), F4 in B. congruence.
        -- cbn. congruence.
    + apply Nat.eqb_neq in L3. assert (L : (3 < len (f_plain s1))%nat) by lia. assert (T : f_formats s1 <> [] -> (3 <= len (f_nn s1))%nat) by (intros B; apply G3; auto).
      destruct (default_total C s1 c1 G1 G2 T) as [r Er]. exists r. split; [exact Er|]. intros _. pose proof (holds_ret_inv _ _ _ (default_formats C s1 c1 CO G1 G2) Er) as [H1 H2]. destruct (f_expect s1) eqn:X.
      * specialize (G4 eq_refl). unfold input_default in Er. rewrite X in Er. destruct (cc_spec C s1 CO G1) as (K4 & A4 & _ & _ & _ & Ff4 & X4 & M4 & Q4). destruct (attemptToExtractCountryCallingCode C s1) as [s4 ok]. cbn [fst snd] in *. apply ret_inj in Er. subst r. cbn [fst].
        pose proof K4 as (_ & P4 & _). assert (F4 : f_formats s4 = []) by congruence.
        destruct ok; constructor; cbn [f_meta f_formats f_able f_expect f_plain s_expect]; try assumption; try (rewrite F4; constructor); try (rewrite F4; congruence); try (rewrite P4; exact G5);
          try (intros B; exfalso; cbn [f_plain s_expect] in B; rewrite P4 in B; lia).
        -- destruct Q4 as [Q4 _]. intros B. exfalso. cbn in B. congruence.
        -- rewrite Q4. exact G7.
      * pose proof (holds_ret_inv _ _ _ (default_same C s1 c1 X) Er) as K. eapply np_same; [exact NP0|exact K|unfold len in *; lia|exact H1| |congruence].
        intros B. destruct (f_formats s1) eqn:F; [|apply T; discriminate]. destruct (Nat.lt_ge_cases (len (f_nn s1)) 3) as [B'|B']; [|exact B']. rewrite (H2 eq_refl B') in B. congruence.
  - assert (L : (3 < len (f_plain s1))%nat). { destruct (Nat.lt_ge_cases (len (f_plain s1)) 4) as [B|B]; [|lia]. destruct (G6 B) as (_ & _ & X & _). congruence. }
    destruct (idd_total s1 G1 Ne) as [[s2 idd] E2]. rewrite E2. cbn [bind]. pose proof (holds_ret_inv _ _ _ (idd_spec s1) E2) as [Fr Q]. cbn [fst snd] in *.
    pose proof Fr as ((_ & P2 & _) & A2 & _ & _ & _ & Ff & X2 & Fm & Fd). destruct idd.
    + assert (M2 : aytf_meta_okb (f_meta s2) = true) by (rewrite Fm; exact G1). destruct (cc_spec C s2 CO M2) as (K4 & A4 & _ & _ & _ & Ff4 & X4 & M4 & Q4). destruct (attemptToExtractCountryCallingCode C s2) as [s3 ok]. cbn [fst snd] in *. pose proof K4 as (_ & P4 & _). destruct ok.
      * destruct Q4 as [Q4 _]. destruct (extracted_np s3 M4) as (r & Er & Hr); [rewrite P4, P2; exact G5|rewrite P4, P2; unfold len in *; lia|intros B; congruence|]. exists r. auto.
      * subst s3. eexists. split; [reflexivity|]. intros _. cbn [fst]. constructor.
        -- exact M2.
        -- rewrite Ff. exact G2.
        -- congruence.
        -- rewrite X2, Ff. exact G4.
        -- rewrite P2. exact G5.
        -- intros B. rewrite P2 in B. unfold len in *. lia.
        -- intros _. left. rewrite Fm, P2. apply Q.
    + destruct Q as [Q Qi]. subst s2.
      assert (I0 : f_ndd s1 <> [] -> inside (f_prefix s1) (f_ndd s1) /\ lasting (f_meta s1) (f_ndd s1)) by (intros B; destruct (G7 B) as [X|X]; [contradiction|exact X]).
      destruct (longer_total s1 G1 (fun B => proj1 (I0 B))) as [[s3 lg] E3]. rewrite E3. cbn [bind]. pose proof (holds_ret_inv _ _ _ (longer_spec s1) E3) as (Fr3 & P0 & B0 & E & sp & R1 & R2 & _ & R3 & R4 & R5 & R6 & R7). cbn [fst snd] in *.
      pose proof Fr3 as (K3 & A3 & _ & _ & _ & Ff3 & X3 & Fm3 & Fd3). pose proof K3 as (_ & P3 & _).
      assert (RC : recall s3).
      { intros B. right. rewrite Fd3, Fm3 in *. destruct (I0 B) as [_ LA]. split; [|exact LA]. destruct (ext_again (f_meta s1) (f_ndd s1) (f_nn s1) G1 LA B) as [R X]. rewrite X in R3. rewrite R6, R3. exists P0, (R ++ sp). rewrite !app_assoc. reflexivity. }
      destruct lg.
      * destruct (extracted_np (s_prefix s3 (f_prefix s3 ++ [separatorBeforeNationalNumber]))) as (r & Er & Hr); [cbn; rewrite Fm3; exact G1|cbn; rewrite P3; exact G5|cbn; rewrite P3; unfold len in *; lia| |exists r; auto].
        intros B. cbn in B. destruct (RC B) as [X|[(A & B1 & X) Y]]; [left; exact X|right]. split; [|exact Y]. cbn. exists A, (B1 ++ [separatorBeforeNationalNumber]). rewrite X, <- !app_assoc. reflexivity.
      * eexists. split; [reflexivity|]. intros _. cbn [fst]. constructor.
        -- rewrite Fm3. exact G1.
        -- rewrite Ff3. exact G2.
        -- congruence.
        -- rewrite X3, Ff3. exact G4.
        -- rewrite P3. exact G5.
        -- intros B. rewrite P3 in B. unfold len in *. lia.
        -- exact RC.
Qed.
Lemma new_np C r : aytf_ok C -> np 3 (GetAsYouTypeFormatter C r).
Proof.
  intros [OK1 OK2]. assert (N : whole []) by (exists []; auto). constructor.
  - cbn [GetAsYouTypeFormatter f_meta]. unfold aytf_metadata. pose proof (OK1 (GetCountryCodeForRegion C r)) as H. destruct (getMetadataForRegion C _); [exact H|vm_compute; reflexivity].
  - constructor.
  - intros _ X. cbn in X. congruence.
  - discriminate.
  - exact N.
  - intros _. cbn. auto 10.
  - intros X. cbn in X. congruence.
Qed.
Lemma press_one_np C r ts s k : aytf_ok C -> good_out C r ts s -> (f_userfmt s = false -> np 3 s) -> exists s', press_one C s k = Ret s' /\ (f_userfmt s' = false -> np 3 s').
Proof.
  intros CO G H. destruct k as [c|c|]; cbn [press_one].
  1,2: destruct G as (ns & G & _); unfold InputDigit, InputDigitAndRememberPosition.
    - destruct (step_np C ts s ns c false CO G H) as ([s' o] & -> & N). cbn [bind fst] in *. eexists. split; [reflexivity|]. intros U. destruct (N U). constructor; assumption.
    - destruct (step_np C ts s ns c true CO G H) as ([s' o] & -> & N). cbn [bind fst] in *. eexists. split; [reflexivity|]. intros U. destruct (N U). constructor; assumption.
    - eexists. split; [reflexivity|]. intros _. rewrite clear_new. apply new_np. exact CO.
Qed.
Lemma press_total C r ks : aytf_ok C -> forall ts s, good_out C r ts s -> (f_userfmt s = false -> np 3 s) -> total (press C s ks).
Proof.
  intros CO. induction ks as [|k ks IH]; intros ts s G H; cbn [press]; [apply total_ret|].
  destruct (press_one_np C r ts s k CO G H) as (s' & E & N). pose proof (press_one_good C r ts s k G) as G'. rewrite E in *. cbn [bind]. eapply IH; eauto.
Qed.
