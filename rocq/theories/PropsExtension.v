(** C85: the extension of a number is what is written after its main part. *)
From Verif Require Import Base BaseFacts Utf8 Utf8Facts UnicodeSpec Regex RegexSpec RegexFacts LangFacts Consts Types Normalize NormalizeSpec NormalizeFacts Validate Format Parse Parse
  NumberSpec NumberFacts MetaSpec ValidateSpec ValidateFacts Container Shipped MetaFacts FormatSpec TextFacts FormatFacts FormatMore ParseSpec ParseFacts ParseMore ContextFacts
  RoundSpec DerivFacts RoundTripFacts PropsValidate RuleSpec RuleFacts RuleMore ReadSpec ReadFacts ReadMore ExtFacts DialFacts AlphaSpec AlphaFacts ViableSpec ViableFacts ExtensionSpec ExtensionFacts.
Local Opaque compile re_find re_replace_all.

Lemma zeros_ext s p : p_ext (setItalianLeadingZerosForPhoneNumber s p) = p_ext p.
Proof. unfold setItalianLeadingZerosForPhoneNumber. repeat match goal with |- context[match ?b with _ => _ end] => destruct b end; reflexivity. Qed.
Lemma zeros_set s p e : setItalianLeadingZerosForPhoneNumber s (set_ext p e) = set_ext (setItalianLeadingZerosForPhoneNumber s p) e.
Proof. unfold setItalianLeadingZerosForPhoneNumber. repeat match goal with |- context[match ?b with _ => _ end] => destruct b end; reflexivity. Qed.
(** The extension of a parsed number consists of the digits after the main part, as they are written; without such a part there is
    no extension. The main part is the one of ViableSpec. *)
Theorem C85_extension : forall C s r m n, wf_container C -> tidy s -> main_part s m -> Parse C s r = Ret (n, None) ->
  (m = s -> p_ext n = None) /\ (m <> s -> p_ext n = Some (extension_digits s m) /\ extension_digits s m <> []).
Proof.
  intros C s r m n W T M H. pose proof (parse_runs C s r false true W) as R. unfold Parse, ParseToNumber in H. destruct (parse_core C s r true) as [x|e|] eqn:E; [|destruct (R phone0) as (n1 & E1); rewrite E1 in H; discriminate|destruct R].
  rewrite R in H. injection H as <-. pose proof (core_ext C s m r x T M E) as X. assert (P : forall y, p_ext (store false s y phone0) = if is_empty (pr_ext y) then None else Some (pr_ext y)).
  { intros y. unfold store. cbn [andb]. cbv zeta. change (p_ext (set_nn ?a ?b)) with (p_ext a). rewrite zeros_ext. destruct (is_empty (pr_ext y)); reflexivity. }
  rewrite P, X. split; [intros ->; rewrite beq_refl; reflexivity|]. intros Ne. rewrite (proj2 (beq_neq m s)) by exact Ne.
  assert (Z : extension_digits s m <> []).
  { destruct M as [(i & A & B & -> & _)|(-> & _)]; [|congruence]. destruct A as [L A]. unfold extension_digits. rewrite firstn_length. replace (Nat.min i (length s)) with i by lia. clear - A.
    assert (Y : exists c l, filter decimal (runes (skipn i s)) = c :: l).
    { assert (D : forall k d, some_digits k d -> exists c, In c d /\ decimal c = true) by (intros k [|c d] [Lk Q]; [cbn [length] in Lk; lia|exists c; split; [left; auto|apply Q; left; auto]]).
      assert (D2 : forall k w, rest_of_extension k w -> exists c, In c w /\ decimal c = true) by (intros k w (a & b & d & h & -> & _ & _ & Q & _); destruct (D _ _ Q) as (c & I & Dc); exists c; split; [rewrite !in_app_iff; auto|exact Dc]).
      assert (D3 : exists c, In c (runes (skipn i s)) /\ decimal c = true).
      { destruct A as [(l & d & -> & _ & Q)|[(b & la & l & w & -> & _ & _ & _ & Q)|[(b & la & l & w & -> & _ & _ & _ & Q)|[(b & d & -> & _ & _ & Q)|[(b & l & w & -> & _ & _ & Q)|(b & l & w & -> & _ & _ & _ & Q)]]]]];
          (apply D in Q || apply D2 in Q); destruct Q as (c & I & Dc); exists c; (split; [rewrite !in_app_iff; auto|exact Dc]). }
      destruct D3 as (c & I & Dc). destruct (filter decimal _) as [|y l] eqn:F; [|eauto]. assert (J : In c []) by (rewrite <- F; apply filter_In; auto). destruct J. }
    destruct Y as (c & l & ->). unfold encode_runes. cbn [flat_map]. unfold encode_rune. intros Q. apply app_eq_nil in Q as [Q _]. repeat match type of Q with context[if ?b then _ else _] => destruct b end; discriminate. }
  split; [|exact Z]. destruct (extension_digits s m); [congruence|reflexivity].
Qed.
Print Assumptions C85_extension.
(** Everything else is read from the main part alone. *)
Theorem C85_main : forall C s r m, wf_container C -> number_text (runes s) -> (length s <= 250)%nat -> tidy s -> tidy m -> main_part s m -> main_part m m -> m <> s ->
  (forall n, Parse C s r = Ret (n, None) <-> exists n0, Parse C m r = Ret (n0, None) /\ n = set_ext n0 (Some (extension_digits s m))) /\
  (forall e, (exists n, Parse C s r = Ret (n, Some e)) <-> (exists n, Parse C m r = Ret (n, Some e))).
Proof.
  intros C s r m W V L T1 T2 M Mm Ne. pose proof (split_core C s m r T1 T2 V L M Mm Ne) as E. pose proof (parse_runs C s r false true W) as R1. pose proof (parse_runs C m r false true W) as R2.
  pose proof (C85_extension C s r m) as X. unfold Parse, ParseToNumber in *. destruct (parse_core C m r true) as [y|e|] eqn:Em; cbn [bind] in E; rewrite E in R1; [| |destruct R1].
  - assert (Q : pr_ext y = []) by (pose proof (core_ext C m m r y T2 Mm Em) as Q; rewrite beq_refl in Q; exact Q).
    rewrite R1, R2. destruct (X _ W T1 M (R1 phone0)) as [_ X2]. destruct (X2 Ne) as [_ Nz]. clear X X2.
    assert (S : store false s (with_ext (extension_digits s m) y) phone0 = set_ext (store false m y phone0) (Some (extension_digits s m))).
    { unfold store, with_ext. cbn [pr_ext pr_cc pr_nsn pr_src pr_carrier andb]. rewrite Q. cbn [is_empty]. destruct (extension_digits s m) as [|c l]; [congruence|]. cbn [is_empty].
      change (set_cc (set_ext phone0 (Some (c :: l))) (Some (pr_cc y))) with (set_ext (set_cc phone0 (Some (pr_cc y))) (Some (c :: l))). rewrite zeros_set. reflexivity. }
    split; [|intros e; split; intros (n & H); discriminate]. intros n. split.
    + intros H. eexists. split; [reflexivity|]. injection H as <-. exact S.
    + intros (n0 & H & ->). injection H as <-. f_equal. f_equal. exact S.
  - destruct (R1 phone0) as (n1 & E1), (R2 phone0) as (n2 & E2). rewrite E1, E2. split; [intros n; split; [intros H; discriminate|intros (n0 & H & _); discriminate]|]. intros e'. split; intros (n & H); injection H as _ <-; eauto.
Qed.
Print Assumptions C85_main.
Lemma no_word s p : index_of s p = None -> forall u v, s <> u ++ p ++ v.
Proof.
  intros H u v ->. pose proof (index_of_none _ _ H (length u)) as X. rewrite skipn_app, skipn_all, Nat.sub_diag in X. cbn [skipn app] in X. rewrite has_prefix_app in X. discriminate.
Qed.
Lemma tidy_b s c t u z : decode_rune s = Some (c, t) -> (c =? 43) || (c =? 65291) || decimal c = true -> runes s = u ++ [z] -> decimal z || ascii_letter z || (z =? 35) = true ->
  existsb (N.eqb 47) (runes s) || existsb (N.eqb 92) (runes s) = false -> index_of s (bs ";phone-context=") = None -> index_of s (bs ";isub=") = None -> tidy s.
Proof.
  intros D P R Z Sl N1 N2. rewrite !orb_true_iff in P, Z. rewrite !N.eqb_eq in P. rewrite N.eqb_eq in Z. apply orb_false_iff in Sl as [S1 S2].
  assert (X : forall y l, existsb (N.eqb y) l = false -> ~ In y l). { intros y l H I. rewrite <- not_true_iff_false in H. apply H. apply existsb_exists. exists y. split; [exact I|apply N.eqb_refl]. }
  split; [exists c, t; split; [exact D|tauto]|]. split; [exists u, z; split; [exact R|tauto]|]. split; [auto|]. split; [auto|]. split; apply no_word; auto.
Qed.
(** +1 650 253-0000 with extension 55, in three spellings. *)
Definition spelled : list bytes := map bs ["+1 650 253-0000;ext=55"; "+1 650 253-0000 Extn: 55#"; "+1 650 253-0000 - 55#"]%string.
Example C85_witness : forall s, In s spelled -> tidy s /\ number_text (runes s) /\ (length s <= 250)%nat /\
  main_part s (bs "+1 650 253-0000") /\ extension_digits s (bs "+1 650 253-0000") = bs "55" /\ exists n, Parse shipped s (bs "US") = Ret (n, None) /\ p_ext n = Some (bs "55") /\ p_nn n = Some 6502530000.
Proof.
  intros s [<-|[<-|[<-|[]]]].
  all: split; [eapply (tidy_b _ 43); [vm_compute; reflexivity|reflexivity| | | | |]|].
  all: try (vm_compute; reflexivity).
  all: try match goal with |- runes ?s = _ => instantiate (1 := last (runes s) 0); instantiate (1 := removelast (runes s)); vm_compute; reflexivity end.
  all: try (vm_compute; reflexivity).
  all: split; [apply viable_iff; vm_compute; reflexivity|]; split; [vm_compute; lia|]; split; [apply main_part_iff; vm_compute; reflexivity|]; split; [vm_compute; reflexivity|]; eexists; split; [vm_compute; reflexivity|]; split; vm_compute; reflexivity.
Qed.
Example C85_main_witness : tidy (bs "+1 650 253-0000") /\ main_part (bs "+1 650 253-0000") (bs "+1 650 253-0000") /\ exists n, Parse shipped (bs "+1 650 253-0000") (bs "US") = Ret (n, None) /\ p_ext n = None /\ p_nn n = Some 6502530000.
Proof.
  split; [eapply (tidy_b _ 43 _ (bs "+1 650 253-000") 48); vm_compute; reflexivity|]. split; [apply main_part_iff; vm_compute; reflexivity|]. eexists. split; [vm_compute; reflexivity|]. split; vm_compute; reflexivity.
Qed.
(** The digits of the number are converted to ASCII, those of the extension are not: a text in Arabic-Indic digits and its
    transcription have the same number but different extensions, and the two do not match. *)
Definition arabic (s : bytes) : bytes := encode_runes (map (fun c => if is_digit c then c + 1584 else c) s).
Theorem C85_same_digits_refuted : exists n n', Parse shipped (arabic (bs "+1 650 253 0000 ext. 55")) (bs "US") = Ret (n, None) /\ Parse shipped (bs "+1 650 253 0000 ext. 55") (bs "US") = Ret (n', None) /\
  p_cc n = p_cc n' /\ p_nn n = p_nn n' /\ p_ext n' = Some (bs "55") /\ p_ext n = Some (arabic (bs "55")) /\
  IsNumberMatchWithNumbers n n' = NO_MATCH.
Proof. eexists _, _. split; [vm_compute; reflexivity|]. split; [vm_compute; reflexivity|]. split; [vm_compute; reflexivity|]. split; [vm_compute; reflexivity|]. split; [vm_compute; reflexivity|]. split; vm_compute; reflexivity. Qed.
Print Assumptions C85_same_digits_refuted.
