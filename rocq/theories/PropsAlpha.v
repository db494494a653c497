(** C83 and C84: which texts are numbers, and what letters in them mean. *)
From Verif Require Import Base BaseFacts Utf8 Utf8Facts Regex RegexSpec RegexFacts LangFacts Consts Types Normalize NormalizeSpec NormalizeFacts Validate Format Parse
  NumberSpec NumberFacts MetaSpec ValidateSpec ValidateFacts Container Shipped MetaFacts FormatSpec TextFacts FormatFacts FormatMore ParseSpec ParseFacts ParseMore ContextFacts
  RoundSpec DerivFacts RoundTripFacts PropsValidate RuleSpec RuleFacts RuleMore ReadSpec ReadFacts ReadMore ExtFacts DialFacts AlphaSpec AlphaFacts ViableSpec ViableFacts.
Local Opaque compile re_find re_replace_all.

(** C83: IsAlphaNumber says yes exactly for the texts of phone numbers (see ViableSpec) with three letters A-Z outside the extension. *)
Theorem C83_alpha : forall s, IsAlphaNumber s = true <->
  number_text (runes s) /\ exists m, main_part s m /\ (3 <= length (filter ascii_letter (runes m)))%nat.
Proof. exact alpha_number. Qed.
Print Assumptions C83_alpha.
(** There is always exactly one main part. *)
Theorem C83_main_part : forall s, exists m, main_part s m /\ forall m', main_part s m' -> m' = m.
Proof. intros s. eexists. split; [apply main_part_iff; reflexivity|]. intros m' M. apply main_part_iff in M. auto. Qed.
Print Assumptions C83_main_part.
(** A text no part of which is the text of a phone number is never parsed: the error is ErrNotANumber. *)
Lemma firstn_part (s : bytes) i : exists a b, s = a ++ firstn i s ++ b.
Proof. exists [], (skipn i s). cbn [app]. symmetry. apply firstn_skipn. Qed.
Lemma skipn_part (s : bytes) i : exists a b, s = a ++ skipn i s ++ b.
Proof. exists (firstn i s), []. rewrite app_nil_r. symmetry. apply firstn_skipn. Qed.
Lemma part_trans (s t w : bytes) : (exists a b, s = a ++ t ++ b) -> (exists a b, t = a ++ w ++ b) -> exists a b, s = a ++ w ++ b.
Proof. intros (a & b & ->) (c & d & ->). exists (a ++ c), (d ++ b). rewrite <- !app_assoc. reflexivity. Qed.
Lemma part_self (s : bytes) : exists a b, s = a ++ s ++ b. Proof. exists [], []. rewrite app_nil_r. reflexivity. Qed.
Lemma possible_part s : extractPossibleNumber s = [] \/ exists a b, s = a ++ extractPossibleNumber s ++ b.
Proof.
  unfold extractPossibleNumber. destruct (re_find validStartCharPattern s) as [m|]; [right|auto]. eapply part_trans; [apply (skipn_part s (m_start m))|]. generalize (skipn (m_start m) s). intros t.
  destruct (re_find unwantedEndCharPattern t) as [m2|].
  - eapply part_trans; [apply (firstn_part t (m_start m2))|]. generalize (firstn (m_start m2) t). intros w. destruct (re_find secondNumberStartPattern w); [apply firstn_part|apply part_self].
  - destruct (re_find secondNumberStartPattern t); [apply firstn_part|apply part_self].
Qed.
Lemma isub_part t : exists a b, t = a ++ cut_isub t ++ b.
Proof. unfold cut_isub. destruct (index_of t rfc3966IsdnSubaddress) as [[|i]|]; [apply part_self|apply firstn_part|apply part_self]. Qed.
Lemma empty_part (s : bytes) : exists a b, s = a ++ [] ++ b. Proof. exists [], s. reflexivity. Qed.
Theorem C83_not_a_number : forall C s r, wf_container C -> (length s <= 250)%nat -> (forall u v, s <> u ++ bs ";phone-context=" ++ v) ->
  (forall u t v, s = u ++ t ++ v -> ~ number_text (runes t)) -> exists n, Parse C s r = Ret (n, Some ErrNotANumber).
Proof.
  intros C s r W L Nc Nt. assert (E : parse_core C s r true = Fail ErrNotANumber).
  { unfold parse_core. destruct (is_empty s); [reflexivity|]. replace (Nat.ltb maxInputStringLength (len s)) with false by (symmetry; apply Nat.ltb_ge; exact L).
    rewrite build_eq. unfold text_of. destruct (index_of s rfc3966PhoneContext) as [i|] eqn:I.
    - exfalso. apply index_of_some in I as (u & I & _). exact (Nc _ _ I).
    - cbn [bind]. assert (V : isViablePhoneNumber (cut_isub (extractPossibleNumber s)) = false); [|rewrite V; reflexivity].
      apply not_true_is_false. intros V. apply viable_iff in V. assert (X : exists a b, s = a ++ cut_isub (extractPossibleNumber s) ++ b).
      { destruct (possible_part s) as [E|P]; [rewrite E; apply empty_part|]. eapply part_trans; [exact P|apply isub_part]. }
      destruct X as (a & b & X). exact (Nt _ _ _ X V). }
  pose proof (parse_runs C s r false true W) as R. rewrite E in R. exact (R phone0).
Qed.
Print Assumptions C83_not_a_number.
(** A text that is the text of a phone number, without the signs that can cut it short, is never refused as not being a number. *)
Definition nan {A} (m : M A) : Prop := m <> Fail ErrNotANumber.
Lemma nan_bind {A B} (m : M A) (f : A -> M B) : nan m -> (forall x, nan (f x)) -> nan (bind m f).
Proof. unfold nan. intros H F. destruct m as [x|e|]; cbn [bind]; [apply F|congruence|discriminate]. Qed.
Lemma nan_panic {A} (o : option A) : nan (or_panic o). Proof. unfold nan. destruct o; discriminate. Qed.
Lemma nan_test s m t : nan (testNumberLength s m t).
Proof.
  assert (Cl : forall a b c, nan (compareLength a b c)). { intros a b c. unfold compareLength. repeat first [apply nan_bind; [|intros ?]|match goal with |- nan (if ?b then _ else _) => destruct b | |- nan (match ?b with _ => _ end) => destruct b end]; try (unfold nan; discriminate); try apply nan_panic. }
  assert (Lg : forall d, nan (lengths_or_general m d)). { intros d. unfold lengths_or_general. repeat first [apply nan_bind; [|intros ?]|match goal with |- nan (if ?b then _ else _) => destruct b | |- nan (match ?b with _ => _ end) => destruct b end]; try (unfold nan; discriminate); try apply nan_panic. }
  assert (Tl : forall d z, nan (test_length_of m d z)). { intros d z. unfold test_length_of. repeat first [apply nan_bind; [|intros ?]|apply Cl|apply Lg|match goal with |- nan (if ?b then _ else _) => destruct b | |- nan (match ?b with _ => _ end) => destruct b end]; try (unfold nan; discriminate); try apply nan_panic. }
  unfold testNumberLength. destruct t; try apply Tl. apply nan_bind; [apply nan_panic|intros d]. apply nan_bind; [apply Lg|intros pl]. destruct (negb _); [apply Tl|]. apply nan_bind; [apply nan_panic|intros mob]. destruct (descHasPossibleNumberData mob); [|apply Cl]. apply nan_bind; [apply Lg|intros ml]. apply Cl.
Qed.
Lemma nan_strip s m : nan (maybeStripNationalPrefixAndCarrierCode s m).
Proof.
  unfold maybeStripNationalPrefixAndCarrierCode. destruct (_ || _); [unfold nan; discriminate|]. apply nan_bind; [apply nan_panic|intros x]. destruct (re_find x s) as [g|]; [|unfold nan; discriminate]. apply nan_bind; [apply nan_panic|intros y].
  cbv zeta. destruct (_ || _); destruct (_ && _); unfold nan; discriminate.
Qed.
Lemma nan_intl s i : nan (maybeStripInternationalPrefixAndNormalize s i).
Proof.
  unfold maybeStripInternationalPrefixAndNormalize. destruct s as [|c s]; [unfold nan; discriminate|]. destruct (re_find plusCharsPattern (c :: s)) as [[[|a] e cs]|]; [unfold nan; discriminate| |]; (apply nan_bind; [apply nan_panic|intros x]); cbv zeta; destruct (parsePrefixAsIdd _ _); unfold nan; discriminate.
Qed.
Lemma nan_extract C s m : nan (extract_core C s m).
Proof.
  unfold extract_core. destruct s as [|c s]; [unfold nan; discriminate|]. cbv zeta. apply nan_bind; [apply nan_intl|intros [full src]]. destruct src; try (destruct (_ <=? _)%nat; [unfold nan; discriminate|]; destruct (extractCountryCode C full) as [[cc rest]|]; [destruct (cc =? 0)%Z|]; unfold nan; discriminate).
  destruct m as [m|]; [|unfold nan; discriminate]. destruct (has_prefix _ _); [|unfold nan; discriminate]. apply nan_bind; [apply nan_panic|intros rule]. apply nan_bind; [apply nan_strip|intros [[pot x] y]]. apply nan_bind; [apply nan_test|intros v]. destruct (_ || _); unfold nan; discriminate.
Qed.
Lemma nan_code C s m : nan (code_core C s m).
Proof.
  unfold code_core. pose proof (nan_extract C s m) as X. destruct (extract_core C s m) as [x|e|]; [unfold nan; discriminate| |unfold nan; discriminate]. destruct e; auto; try (unfold nan; discriminate).
  destruct (re_find plusCharsPattern s) as [g|]; [|unfold nan; discriminate]. apply nan_bind; [apply nan_extract|intros [[src cc] norm]]. destruct (cc =? 0)%Z; unfold nan; discriminate.
Qed.
Lemma nan_finish s m : nan (finish_core s m).
Proof.
  unfold finish_core. destruct (_ <? _)%nat; [unfold nan; discriminate|]. apply nan_bind.
  - destruct m as [m|]; [|unfold nan; discriminate]. apply nan_bind; [apply nan_strip|intros [[pot x] y]]. apply nan_bind; [apply nan_test|intros v]. destruct v; unfold nan; discriminate.
  - intros [norm carrier]. destruct (_ <? _)%nat; [unfold nan; discriminate|]. destruct (_ <? _)%nat; unfold nan; discriminate.
Qed.
Lemma rune_byte (s : bytes) c : c < 128 -> In c (runes s) -> In c s.
Proof.
  intros Hc. induction s as [|s x t E IH] using runes_ind; [rewrite runes_nil; intros []|]. rewrite (runes_step _ _ _ E). destruct (decode_rune_spec _ _ _ E) as (w & -> & _ & _ & [(_ & ->)|(H & _)]).
  - intros [->|I]; [left; auto|right; auto].
  - intros [->|I]; [lia|]. apply in_or_app. auto.
Qed.
Theorem C83_number : forall C s r n, wf_container C -> number_text (runes s) ->
  (exists c t, decode_rune s = Some (c, t) /\ (c = 43 \/ c = 65291 \/ decimal c = true)) ->
  (exists x z, s = x ++ [z] /\ (is_digit z = true \/ ascii_letter z = true)) -> ~ In 59 s -> ~ In 47 s -> ~ In 92 s ->
  Parse C s r <> Ret (n, Some ErrNotANumber).
Proof.
  intros C s r n W T Cl (x & z & E & Hz) N1 N2 N3 H. pose proof (parse_runs C s r false true W) as R. assert (Iz : In z (digits10 ++ abc)) by (apply in_or_app; destruct Hz as [Hz|Hz]; [left; apply digit_in10; exact Hz|right; apply abc_iff; exact Hz]).
  assert (B : buildNationalNumberForParsing s = Ret s).
  { rewrite E. assert (Z : forall c, In c (runes x) -> In c (runes s)). { intros c I. rewrite E, runes_app_ascii; [apply in_or_app; auto|]. constructor; [apply alnum_small; auto|constructor]. }
    assert (Bx : forall c, c < 128 -> ~ In c s -> ~ In c (runes x)). { intros c Hc Nc I. apply Z in I. apply rune_byte in I; auto. }
    apply text_end; auto; [rewrite <- E; exact Cl|apply Bx; auto; reflexivity|apply Bx; auto; reflexivity|]. intros I. apply N1. rewrite E. apply in_or_app. auto. }
  assert (Q : nan (parse_core C s r true)).
  { pose proof (text_two _ T) as L2. apply viable_iff in T. unfold parse_core. destruct (is_empty s) eqn:Es; [destruct s; [rewrite runes_nil in L2; cbn in L2; lia|discriminate]|]. destruct (_ <? _)%nat; [unfold nan; discriminate|]. rewrite B. cbn [bind]. rewrite T. cbn [negb]. destruct (_ && _); [unfold nan; discriminate|].
    destruct (maybeStripExtension s) as [nn ext]. apply nan_bind; [apply nan_code|intros [[src cc] norm]]. destruct (negb _); cbv zeta; (apply nan_bind; [apply nan_finish|intros y; unfold nan; discriminate]). }
  unfold Parse, ParseToNumber in H. unfold nan in Q. destruct (parse_core C s r true) as [v|e|]; [rewrite R in H; discriminate| |destruct R]. destruct (R phone0) as (n1 & E1). rewrite E1 in H. injection H as _ He. congruence.
Qed.
Print Assumptions C83_number.
Lemma text_decimal w : number_text w -> exists c, In c w /\ decimal c = true.
Proof.
  intros [(a & b & -> & A & _)|(p & w0 & e & -> & _ & (x & y & -> & _ & L & _) & _)]; [exists a; split; [left|]; auto|].
  destruct (filter decimal x) as [|c l] eqn:E; [cbn [length] in L; lia|]. assert (I : In c (filter decimal x)) by (rewrite E; left; auto). apply filter_In in I as [I D]. exists c. split; [|exact D]. rewrite !in_app_iff. auto.
Qed.
Example C83_parse_witness : number_text (runes (bs "123-abc ext. 5")) /\ (forall u t v, bs "call me" = u ++ t ++ v -> ~ number_text (runes t)).
Proof.
  split; [apply viable_iff; vm_compute; reflexivity|]. intros u t v E T. assert (A : Forall (fun c => c < 128) t).
  { assert (X : Forall (fun c => c < 128) (bs "call me")) by (repeat constructor). rewrite E in X. apply Forall_app in X as [_ X]. apply Forall_app in X as [X _]. exact X. }
  rewrite runes_ascii in T by exact A. apply text_decimal in T as (c & I & D). assert (J : In c (bs "call me")) by (rewrite E, !in_app_iff; auto).
  assert (B : forallb (fun c => negb (decimal c)) (bs "call me") = true) by (vm_compute; reflexivity). rewrite forallb_forall in B. specialize (B c J). rewrite D in B. discriminate.
Qed.
(** "1 800 FLOWERS ext. 5" has letters enough, and so has "123 abc"; in "1 800 ext. 555" the letters belong to the extension, and in
    "abc 123" they come too early. *)
Example C83_witness : map (fun t => IsAlphaNumber (bs t)) ["1 800 FLOWERS ext. 5"%string; "123 abc"%string; "1 800 ext. 555"%string; "abc 123"%string; "12 abc"%string] = [true; true; false; false; false].
Proof. vm_compute. reflexivity. Qed.

(** C84: letters in a number stand for the digits of their keys. The text (see AlphaSpec) starts with a plus sign or a digit. *)
Theorem C84_vanity : forall C p s r, wf_container C -> p = [] /\ starts_digit s \/ p = bs "+" -> vanity s -> (length (p ++ s) <= 250)%nat ->
  (forall n, Parse C (p ++ s) r = Ret (n, None) <-> Parse C (p ++ keys s) r = Ret (n, None)) /\
  (forall e, (exists n, Parse C (p ++ s) r = Ret (n, Some e)) <-> (exists n, Parse C (p ++ keys s) r = Ret (n, Some e))).
Proof.
  intros C p s r W Hp V L. pose proof (vanity_core C p s r Hp V L) as E. pose proof (parse_runs C (p ++ s) r false true W) as R1. pose proof (parse_runs C (p ++ keys s) r false true W) as R2.
  rewrite E in R1. unfold Parse, ParseToNumber. destruct (parse_core C (p ++ keys s) r true) as [v|e|]; [| |destruct R1].
  - rewrite R1, R2. split; [intros n; change (store false (p ++ s) v phone0) with (store false (p ++ keys s) v phone0); tauto|]. intros e. split; intros (n & H); discriminate.
  - destruct (R1 phone0) as (n1 & E1), (R2 phone0) as (n2 & E2). rewrite E1, E2. split; [intros n; split; intros H; discriminate|]. intros e'. split; intros (n & H); injection H as _ <-; eauto.
Qed.
Print Assumptions C84_vanity.
(** IsAlphaNumber says yes to all of them. *)
Theorem C84_is_alpha : forall p s, p = [] \/ p = bs "+" -> vanity s -> IsAlphaNumber (p ++ s) = true.
Proof.
  intros p s Hp V. unfold IsAlphaNumber. rewrite vanity_viable by auto. cbn [negb]. rewrite vanity_ext by auto. cbn [fst]. apply alpha_iff. rewrite pre_runes by auto. split.
  - destruct V as (_ & _ & L & _). rewrite filter_app, app_length. lia.
  - intros I. pose proof no_nl79 as Y. rewrite <- not_true_iff_false in Y. apply Y. apply existsb_exists. exists 10. split; [|reflexivity].
    apply in_app_or in I as [I|I]; [destruct Hp as [-> | ->]; [destruct I|destruct I as [I|[]]; discriminate]|]. right. apply (vanity_in s); auto.
Qed.
Print Assumptions C84_is_alpha.
Lemma vanity_b s x z : s = x ++ [z] -> Forall (fun c => c < 128) s -> forallb (fun c => is_digit c || ascii_letter c || existsb (N.eqb c) separators) s = true ->
  (3 <=? length (filter is_digit (firstn 5 s)))%nat && negb (existsb ascii_letter (firstn 5 s)) && (3 <=? length (filter ascii_letter s))%nat && ascii_letter z = true -> vanity s.
Proof.
  intros E A F H. rewrite !andb_true_iff in H. destruct H as [[[H1 H2] H3] H4]. apply Nat.leb_le in H1, H3. assert (R : runes s = s) by (apply runes_ascii; exact A). unfold vanity. rewrite R. rewrite forallb_forall in F. split; [|split; [|split]].
  - intros c I. specialize (F c I). rewrite !orb_true_iff in F. destruct F as [[F|F]|F]; auto. right. right. apply existsb_exists in F as (y & Iy & Ey). apply N.eqb_eq in Ey. subst y. exact Iy.
  - exists (firstn 5 s), (skipn 5 s). split; [symmetry; apply firstn_skipn|]. split; [|exact H1]. intros c I. apply negb_true_iff in H2. rewrite <- not_true_iff_false in H2. apply not_true_is_false. intros X. apply H2. apply existsb_exists. eauto.
  - exact H3.
  - exists x, z. auto.
Qed.
Example C84_witness : vanity (bs "1 800 FLOWERS") /\ keys (bs "1 800 FLOWERS") = bs "18003569377" /\
  exists n, Parse shipped (bs "1 800 FLOWERS") (bs "US") = Ret (n, None) /\ p_nn n = Some 8003569377 /\ Parse shipped (bs "18003569377") (bs "US") = Ret (n, None).
Proof.
  split; [apply (vanity_b _ (bs "1 800 FLOWER") 83); [reflexivity|repeat constructor|vm_compute; reflexivity|vm_compute; reflexivity]|]. split; [vm_compute; reflexivity|]. eexists. split; [vm_compute; reflexivity|]. split; vm_compute; reflexivity.
Qed.
(** The letter X before digits is not a letter of the number: 1 800 FOX 1234 loses its end to the extension. *)
Theorem C84_x_refuted : keys (bs "1 800 FOX 1234") = bs "18003691234" /\
  exists n n', Parse shipped (bs "1 800 FOX 1234") (bs "US") = Ret (n, None) /\ p_ext n = Some (bs "1234") /\ Parse shipped (bs "18003691234") (bs "US") = Ret (n', None) /\ p_ext n' = None /\ p_nn n' = Some 8003691234.
Proof. split; [vm_compute; reflexivity|]. eexists _, _. split; [vm_compute; reflexivity|]. split; [vm_compute; reflexivity|]. split; [vm_compute; reflexivity|]. split; vm_compute; reflexivity. Qed.
Print Assumptions C84_x_refuted.
