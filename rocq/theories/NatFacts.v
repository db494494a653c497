(** The template of the as-you-type formatter while a number is typed as it is dialled at home: it never runs out of places before the last digit. *)
From Verif Require Import Base BaseFacts UnicodeTables Utf8 Utf8Facts Regex RegexSpec RegexFacts RegexGrow NormalizeSpec NormalizeFacts Consts Types Normalize Validate Format Parse
  NumberSpec NumberFacts MetaSpec ValidateSpec ValidateFacts Container FormatSpec TextFacts LangFacts FormatFacts FormatMore DerivFacts RoundTripFacts RuleSpec RuleFacts RuleMore
  AsYouType AytfSpec TableFacts AytfFacts AytfMore AytfDigits NationalFacts ShowFacts ShowMore ShowRun.
Local Opaque compile re_find re_replace_all safe.

(** Between two rules of one pattern there is no rule of another pattern with less room. *)
Fixpoint after2 (g : nfmt) (l : list nfmt) : bool := match l with [] => true | h :: t =>
  (beq (get_pattern g) (get_pattern h) || forallb (fun f => negb (beq (get_pattern g) (get_pattern f)) || (room f <=? room h)%nat) t) && after2 g t end.
Fixpoint roomy (l : list nfmt) : bool := match l with [] => true | g :: t => after2 g t && roomy t end.
Lemma forallb_filter {A} (p q : A -> bool) l : forallb p l = true -> forallb p (filter q l) = true.
Proof. rewrite !forallb_forall. intros H x Hx. apply filter_In in Hx. apply H. tauto. Qed.
Lemma after2_filter p g l : after2 g l = true -> after2 g (filter p l) = true.
Proof.
  induction l as [|h t IH]; [reflexivity|]. cbn [after2 filter]. intros H. apply andb_prop in H as [H1 H2]. destruct (p h); [|auto]. cbn [after2]. rewrite IH by exact H2. rewrite andb_true_r.
  apply orb_prop in H1 as [H1|H1]; [rewrite H1; reflexivity|]. rewrite (forallb_filter _ p _ H1). apply orb_true_r.
Qed.
Lemma roomy_filter p l : roomy l = true -> roomy (filter p l) = true.
Proof. induction l as [|h t IH]; [reflexivity|]. cbn [roomy filter]. intros H. apply andb_prop in H as [H1 H2]. destruct (p h); [|auto]. cbn [roomy]. rewrite (after2_filter p h t H1). auto. Qed.
Lemma roomy_suffix a b : roomy (a ++ b) = true -> roomy b = true.
Proof. induction a as [|x a IH]; [auto|]. cbn [app roomy]. intros H. apply andb_prop in H as [_ H]. auto. Qed.
Lemma roomy_head h t : roomy (h :: t) = true -> after2 h (h :: t) = true.
Proof. cbn [roomy after2]. rewrite beq_refl. intros H. apply andb_prop in H as [H _]. rewrite H. reflexivity. Qed.
Lemma room_pattern g h : get_pattern g = get_pattern h -> room g = room h.
Proof. unfold room. intros ->. reflexivity. Qed.

Lemma create_room s h : fmt_okb h = true -> (1 <= length (f_nn s))%nat -> exists t, createFormattingTemplate s h = Ret (s_tmpl s (if (room h <? length (f_nn s))%nat then [] else t), negb (room h <? length (f_nn s))%nat) /\
  ((length (f_nn s) <= room h)%nat -> Forall open_ t /\ length (filter is_placeholder t) = room h).
Proof.
  intros Hf L1. unfold createFormattingTemplate, getFormattingTemplate, must_compile, room. unfold fmt_okb in Hf. apply andb_prop in Hf as [_ Hf]. unfold template_okb in Hf. destruct (compile (get_pattern h)) as [x|]; [|discriminate].
  cbn [or_panic bind]. unfold fill in Hf. set (T := flat_map _ _) in *. set (P := re_find_string x longestPhoneNumber) in *. clearbody T P. apply andb_prop in Hf as [H1 H2]. apply Nat.eqb_eq in H2. rewrite forallb_forall in H1. unfold len in *.
  exists (runes T). destruct (Nat.ltb_spec (length P) (length (f_nn s))) as [Q|Q]; cbn [bind is_empty negb]; [split; [reflexivity|lia]|].
  destruct T as [|t0 T]; [exfalso; cbn in H2; lia|]. cbn [is_empty]. split; [reflexivity|]. intros _. split; [|exact H2].
  apply Forall_forall. intros c Hc. specialize (H1 c Hc). cbv beta in H1. unfold open_. apply orb_prop in H1 as [H1|H1]; [auto|]. right. destruct (diallable c); [discriminate|reflexivity].
Qed.
(** A template is made for the first rule with enough room. *)
Definition made (s : aytf) (a : list nfmt) (f : nfmt) (b : list nfmt) (r : aytf * bool) : Prop := snd r = true /\ f_able (fst r) = f_able s /\
  exists a0 a' h t, a = a0 ++ a' /\ f_formats (fst r) = a' ++ f :: b /\ a' ++ f :: b = h :: t /\ f_pattern (fst r) = get_pattern h /\ live [] (room h) (fst r) /\ (length (f_nn s) <= room h)%nat.
Lemma loop_fresh f b : forall a s, fmts_ok (a ++ f :: b) -> (1 <= length (f_nn s) <= room f)%nat -> (forall h, In h (a ++ f :: b) -> beq (f_pattern s) (get_pattern h) = false) ->
  holds (maybe_template_loop s (a ++ f :: b)) (made s a f b).
Proof.
  assert (OK : forall a s t h (x : list nfmt), (a ++ f :: b = h :: x) -> Forall open_ t /\ length (filter is_placeholder t) = room h -> (length (f_nn s) <= room h)%nat ->
    made s a f b (s_formats (s_last (s_space (s_pattern (s_tmpl s t) (get_pattern h)) (re_match nationalPrefixSeparatorsPattern (get_npfr h))) 0%nat) (h :: x), true)).
  { intros a s t h x E [O K] L. split; [reflexivity|]. split; [reflexivity|]. exists [], a, h, x. split; [reflexivity|]. split; [symmetry; exact E|]. split; [exact E|]. split; [reflexivity|]. split; [|exact L].
    exists [], t. split; [reflexivity|]. split; [auto|]. split; [constructor|]. split; [reflexivity|]. auto. }
  induction a as [|g a IH]; intros s Fk Ro Np; cbn [app maybe_template_loop].
  - rewrite (Np f) by (left; reflexivity). apply Forall_inv in Fk. destruct (create_room s f Fk ltac:(lia)) as (t & -> & K). replace (room f <? length (f_nn s))%nat with false by (symmetry; apply Nat.ltb_ge; lia). cbn [bind negb]. apply holds_ret. apply (OK [] s t f b eq_refl); [apply K; lia|lia].
  - rewrite (Np g) by (left; reflexivity). inversion Fk as [|? ? Fg Fr]; subst. destruct (create_room s g Fg ltac:(lia)) as (t & -> & K). destruct (Nat.ltb_spec (room g) (length (f_nn s))) as [Q|Q]; cbn [bind negb].
    + eapply holds_imp; [apply (IH (s_tmpl s [])); [exact Fr|exact Ro|intros h Hh; apply Np; right; exact Hh]|]. intros r (R1 & R2 & a0 & a' & h & t' & E & R3). split; [exact R1|]. split; [exact R2|]. exists (g :: a0), a', h, t'. split; [rewrite E; reflexivity|exact R3].
    + apply holds_ret. apply (OK (g :: a) s t g (a ++ f :: b) eq_refl); [apply K; lia|lia].
Qed.
Lemma loop_room f b a s g : fmts_ok (a ++ f :: b) -> (1 <= length (f_nn s) <= room f)%nat -> f_pattern s = get_pattern g -> (length (f_nn s) <= room g)%nat -> after2 g (a ++ f :: b) = true ->
  holds (maybe_template_loop s (a ++ f :: b)) (fun r => made s a f b r \/ snd r = false /\ f_able (fst r) = f_able s /\ fill_same s (fst r) /\ exists h t, f_formats (fst r) = a ++ f :: b /\ a ++ f :: b = h :: t /\ get_pattern g = get_pattern h).
Proof.
  intros Fk Ro Ep Rg A2. destruct (a ++ f :: b) as [|h t] eqn:E; [destruct a; discriminate|].
  destruct (beq (get_pattern g) (get_pattern h)) eqn:Q.
  { cbn [maybe_template_loop]. rewrite Ep, Q. apply holds_ret. right. split; [reflexivity|]. split; [reflexivity|]. split; [unfold fill_same; auto|]. exists h, t. split; [reflexivity|]. split; [reflexivity|]. apply beq_eq. exact Q. }
  destruct (Nat.lt_ge_cases (room h) (length (f_nn s))) as [Lt|Ge].
  - (* h is dropped; the pattern does not occur again *)
    destruct a as [|g' a].
    { injection E as <- _. lia. }
    injection E as -> Et. cbn [after2] in A2. rewrite Q in A2. cbn [orb] in A2. apply andb_prop in A2 as [A2 _]. rewrite forallb_forall in A2.
    cbn [maybe_template_loop]. rewrite Ep, Q. inversion Fk as [|? ? Fg Fr]; subst. destruct (create_room s h Fg ltac:(lia)) as (t' & -> & _). replace (room h <? length (f_nn s))%nat with true by (symmetry; apply Nat.ltb_lt; lia). cbn [bind negb].
    eapply holds_imp; [apply (loop_fresh f b a (s_tmpl s [])); [exact Fr|exact Ro|]|].
    + intros k Hk. change (f_pattern (s_tmpl s [])) with (f_pattern s). rewrite Ep. specialize (A2 k Hk). destruct (beq_spec (get_pattern g) (get_pattern k)) as [Ek|Nk]; [|reflexivity]. cbn [negb orb] in A2. apply Nat.leb_le in A2. apply room_pattern in Ek. lia.
    + intros r (R1 & R2 & a0 & a' & k & t2 & E' & R3). left. split; [exact R1|]. split; [exact R2|]. exists (h :: a0), a', k, t2. split; [rewrite E'; reflexivity|exact R3].
  - cbn [maybe_template_loop]. rewrite Ep, Q. apply Forall_inv in Fk. destruct (create_room s h Fk ltac:(lia)) as (t' & -> & K). replace (room h <? length (f_nn s))%nat with false by (symmetry; apply Nat.ltb_ge; lia). cbn [bind negb]. apply holds_ret. left.
    split; [reflexivity|]. split; [reflexivity|]. exists [], a, h, t. split; [reflexivity|]. split; [symmetry; exact E|]. split; [exact E|]. split; [reflexivity|]. split; [|exact Ge]. destruct (K Ge) as [K1 K2]. exists [], t'. split; [reflexivity|]. split; [auto|]. split; [constructor|]. split; [reflexivity|]. auto.
Qed.
Lemma fold_pattern d : forall n k s t, live n k s -> all_digits d = true -> (length d <= k)%nat -> f_pattern (fst (fold_left (fun st c => inputDigitHelper (fst st) c) d (s, t))) = f_pattern s.
Proof.
  induction d as [|c d IH]; intros n k s t H D L; cbn [fold_left length] in *; [reflexivity|]. destruct k as [|k]; [lia|]. unfold all_digits in D. cbn [forallb] in D. apply andb_prop in D as [D1 D2]. cbn [fst].
  destruct (helper_live n k s c H D1) as (H1 & _ & H3 & _). destruct (inputDigitHelper s c) as [s1 t1]. cbn [fst snd] in *. rewrite (IH (n ++ [c]) k s1 t1 H1 D2) by lia. exact H3.
Qed.
(** Filling in the digits so far. *)
Lemma accrue_room k s : live [] k s -> all_digits (f_nn s) = true -> (1 <= length (f_nn s) <= k)%nat -> f_able s = true -> let r := inputAccruedNationalNumber s in
  live (f_nn s) (k - length (f_nn s)) (fst r) /\ f_pattern (fst r) = f_pattern s /\ f_able (fst r) = true.
Proof.
  intros H D L A. cbv zeta. unfold inputAccruedNationalNumber. destruct (is_empty (f_nn s)) eqn:E; [destruct (f_nn s); [cbn in L; lia|discriminate]|].
  destruct (fold_live (f_nn s) [] k s [] H D ltac:(lia)) as (G1 & _ & G3). pose proof (fold_pattern (f_nn s) [] k s [] H D ltac:(lia)) as G4. destruct (fold_left _ _ _) as [s1 t1]. cbn [fst snd app] in *. split; [exact G1|]. split; [exact G4|]. congruence.
Qed.
Lemma helper_able s c : length (f_formats s) <> 1%nat -> f_able (fst (inputDigitHelper s c)) = f_able s.
Proof. intros H. unfold inputDigitHelper. destruct (find_placeholder _ _); [reflexivity|]. destruct (f_formats s) as [|x [|y l]]; cbn in *; congruence || reflexivity. Qed.
