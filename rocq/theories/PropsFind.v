(** Property C75: the text search finds the numbers that are there. *)
From Verif Require Import Base BaseFacts UnicodeTables Utf8 Utf8Facts Regex RegexFacts Consts Types Validate Format Parse NumberSpec NumberFacts MetaSpec Container Shipped MetaFacts
  PropsNumber PropsValidate PropsRound Matcher MatcherSpec MatcherFacts MatcherRun MatcherTotal PropsMatcher FindSpec FindFacts FindMore FindPrint FindShip.

(** C75: in a text laid out as quiet text, number, quiet text, number, ..., every number that stands for something at the requested leniency
    is found, at its place, in order, and nothing else; no other candidate is even looked at. *)
Theorem C75_all_found : forall C A region l t u0 ps ns, (0 < t)%Z -> quiet u0 -> laid l u0 ps -> Forall2 (fun x n => stands C A region l (fst x) n) ps ns ->
  exists m, FindNumbersWithLeniency C A (laid_text u0 ps) region l t (fun _ => true) = Ret (hits (length u0) ps ns, m) /\ rejected m (flat_map (fun o => match o with Some p => [p] | None => [] end) (hits (length u0) ps ns)) = 0%Z.
Proof. exact all_found. Qed.
Print Assumptions C75_all_found.

(** C75: nothing is found in quiet text. *)
Theorem C75_nothing : forall C A region l t u, (0 < t)%Z -> quiet u -> exists m, FindNumbersWithLeniency C A u region l t (fun _ => true) = Ret ([], m).
Proof.
  intros C A region l t u T Q. destruct (all_found C A region l t u [] [] T Q (laid_nil _ _) (Forall2_nil _)) as (m & E & _). exists m. unfold laid_text in E. cbn [map concat hits] in E. rewrite app_nil_r in E. exact E.
Qed.
Print Assumptions C75_nothing.

(** w is the E164 or the INTERNATIONAL text of the valid number n, which has no extension; the two exceptions of C10 are left out, and for the grouping leniencies the national number is not 0. *)
Definition prints (l : leniency) (n : phone) (w : bytes) : Prop :=
  IsValidNumber shipped n = Ret true /\ (forall t, GetNumberType shipped n = Ret t -> ~ (cc_of n = 81%Z /\ t = TOLL_FREE) /\ ~ (cc_of n = 375%Z /\ t = PREMIUM_RATE)) /\
  (nn_of n <> 0 \/ p_raw n = None /\ (l <= 1)%Z) /\ ext_of n = [] /\ (Format shipped n E164 = Ret w \/ Format shipped n INTERNATIONAL = Ret w).
(** Texts in which each piece begins with a plus sign need less care: only what comes after each number is looked at. *)
Definition followed (l : leniency) (ps : list (bytes * bytes)) : Prop := Forall (fun x => quiet (snd x) /\ forall c t, decode_rune (snd x) = Some (c, t) -> fine l c) ps.

Lemma prints_stands A region l n w : (0 <= l <= 3)%Z -> prints l n w -> written w /\ (exists t, w = 43 :: t) /\ exists r, stands shipped A region l w r /\ cc_of r = cc_of n /\ GetNationalSignificantNumber r = GetNationalSignificantNumber n /\ p_ext r = None.
Proof.
  intros Ll (V & X & R & E & F). destruct (ValidateFacts.type_valid_spec shipped n shipped_wf) as (ty & b & Et & _). destruct (X ty Et) as [X1 X2].
  assert (G : exists f, (f = E164 \/ f = INTERNATIONAL) /\ Format shipped n f = Ret w) by (destruct F; eauto). destruct G as (f & Hf & F').
  destruct (printed_stands n ty region l A f Ll V Et X1 X2 R E Hf) as (text & r & F2 & W & S & St & K). rewrite F' in F2. injection F2 as <-. split; [exact W|]. split; [exact S|]. exists r. auto.
Qed.
Lemma plus_laid l ps : followed l ps -> Forall (fun x => written (fst x) /\ exists t, fst x = 43 :: t) ps -> forall pre, laid l pre ps.
Proof.
  intros F. induction F as [|[w u] ps (Q & Fi) F IH]; intros P pre; [constructor|]. inv P. cbn [fst snd] in *. destruct H1 as [W S]. constructor; auto. destruct ps as [|[w2 u2] ps]; [exact I|]. inv H2. left. apply H1.
Qed.
(** C75: every valid number, printed in E164 or INTERNATIONAL form anywhere in a text, is found at every leniency, whatever the region:
    the matches are exactly the printed texts, each with the calling code and the national significant number that was printed. *)
Theorem C75_shipped : forall A region l t u0 ps ns, (0 <= l <= 3)%Z -> (0 < t)%Z -> quiet u0 -> followed l ps -> Forall2 (fun x n => prints l n (fst x)) ps ns ->
  exists rs m, FindNumbersWithLeniency shipped A (laid_text u0 ps) region l t (fun _ => true) = Ret (hits (length u0) ps rs, m) /\
    Forall2 (fun n r => cc_of r = cc_of n /\ GetNationalSignificantNumber r = GetNationalSignificantNumber n /\ p_ext r = None) ns rs.
Proof.
  intros A region l t u0 ps ns Ll T Q F H.
  assert (K : exists rs, Forall2 (fun x r => stands shipped A region l (fst x) r) ps rs /\ Forall2 (fun n r => cc_of r = cc_of n /\ GetNationalSignificantNumber r = GetNationalSignificantNumber n /\ p_ext r = None) ns rs).
  { clear F. induction H as [|x n ps ns Hx H (rs & I1 & I2)]; [exists []; auto|]. destruct (prints_stands A region l n (fst x) Ll Hx) as (_ & _ & r & St & Kr). exists (r :: rs). split; constructor; auto. }
  assert (L : laid l u0 ps). { apply plus_laid; auto. clear - H Ll. induction H as [|x n ps ns Hx H IH]; constructor; auto. destruct (prints_stands [] [] l n (fst x) Ll Hx) as (W & S & _). auto. }
  destruct K as (rs & K1 & K2). destruct (all_found shipped A region l t u0 ps rs T Q L K1) as (m & E & _). exists rs, m. auto.
Qed.
Print Assumptions C75_shipped.

(** The same for FindNumbers. *)
Theorem C75_find_numbers : forall A region u0 ps ns, quiet u0 -> followed VALID ps -> Forall2 (fun x n => prints VALID n (fst x)) ps ns ->
  exists rs m, FindNumbers shipped A (laid_text u0 ps) region (fun _ => true) = Ret (hits (length u0) ps rs, m) /\
    Forall2 (fun n r => cc_of r = cc_of n /\ GetNationalSignificantNumber r = GetNationalSignificantNumber n /\ p_ext r = None) ns rs.
Proof. intros A region u0 ps ns Q F H. apply (C75_shipped A region VALID max_int u0 ps ns); auto; vm_compute; split; congruence || auto. Qed.
Print Assumptions C75_find_numbers.

(** Quiet text, decided. *)
Lemma quiet_ascii u : forallb (fun c => (c <? 128) && negb (opens c)) u = true -> quiet u.
Proof.
  intros H. rewrite forallb_forall in H. exists u. assert (A : Forall (fun c => c < 128) u) by (apply Forall_forall; intros c I; apply H in I; apply andb_true_iff in I as [I _]; apply N.ltb_lt; exact I).
  split; [eapply Forall_impl; [|exact A]; intros c Hc; cbv beta in Hc; unfold scalar; lia|]. split; [symmetry; apply encode_ascii; exact A|]. apply Forall_forall. intros c I. apply H in I. apply andb_true_iff in I as [_ I]. apply negb_true_iff. exact I.
Qed.
(** A text with two printed numbers: the hypotheses of C75_shipped hold at the strictest leniency, and what the search returns. *)
Definition swiss : phone := num 41 446681800.
Definition american : phone := num 1 6502530000.
Definition two : list (bytes * bytes) := [(bs "+41 44 668 18 00", bs " or else "); (bs "+16502530000", bs ", please.")].
Example C75_witness : quiet (bs "Ring ") /\ followed EXACT_GROUPING two /\ Forall2 (fun x n => prints EXACT_GROUPING n (fst x)) two [swiss; american] /\
  laid_text (bs "Ring ") two = bs "Ring +41 44 668 18 00 or else +16502530000, please." /\
  exists m, FindNumbersWithLeniency shipped shipped_alt (laid_text (bs "Ring ") two) (bs "FR") EXACT_GROUPING 10 (fun _ => true) =
    Ret ([Some {| pm_start := 5; pm_raw := bs "+41 44 668 18 00"; pm_number := swiss |}; Some {| pm_start := 30; pm_raw := bs "+16502530000"; pm_number := american |}], m).
Proof.
  split; [apply quiet_ascii; reflexivity|]. split; [|split; [|split]].
  - unfold two. constructor; [|constructor; [|constructor]]; cbn [snd].
    + split; [apply quiet_ascii; reflexivity|]. intros c t H _. vm_compute in H. injection H as <- _. vm_compute. auto.
    + split; [apply quiet_ascii; reflexivity|]. intros c t H _. vm_compute in H. injection H as <- _. vm_compute. auto.
  - unfold two. constructor; [|constructor; [|constructor]]; cbn [fst].
    + split; [vm_compute; reflexivity|]. split; [intros t _; split; intros [H _]; vm_compute in H; discriminate|]. split; [left; vm_compute; discriminate|]. split; [reflexivity|right; vm_compute; reflexivity].
    + split; [vm_compute; reflexivity|]. split; [intros t _; split; intros [H _]; vm_compute in H; discriminate|]. split; [left; vm_compute; discriminate|]. split; [reflexivity|left; vm_compute; reflexivity].
  - reflexivity.
  - eexists. vm_compute. reflexivity.
Qed.
(** Numbers without a plus sign: the hypotheses of C75_all_found, for a search in Switzerland. *)
Definition home : list (bytes * bytes) := [(bs "044 668 18 00", bs " and later "); (bs "044-668-18-01", bs "!")].
Example C75_home_witness : laid VALID (bs "Ring ") home /\ Forall2 (fun x n => stands shipped shipped_alt (bs "CH") VALID (fst x) n) home [swiss; num 41 446681801].
Proof.
  assert (G : forall d, all_digits d = true -> (1 <= length d <= 20)%nat -> digit_group d) by (intros d D L; split; [|exact L]; apply Forall_forall; intros c I; apply (all_digits_In _ _ D); auto).
  split; unfold home.
  - constructor; [exists [], (bs "044"), [(bs " ", bs "668"); (bs " ", bs "18"); (bs " ", bs "00")]| | | | |].
    + split; [auto|]. split; [apply G; [reflexivity|cbn; lia]|]. split; [|split; [cbn; lia|reflexivity]].
      repeat (constructor; [split; [split; [constructor; [vm_compute; auto|constructor]|cbn; lia]|apply G; [reflexivity|cbn; lia]]|]). constructor.
    + right. right. intros _. vm_compute. auto.
    + apply quiet_ascii. reflexivity.
    + intros c t H _. vm_compute in H. injection H as <- _. vm_compute. auto.
    + right. exists 108. split; vm_compute; tauto.
    + constructor; [exists [], (bs "044"), [(bs "-", bs "668"); (bs "-", bs "18"); (bs "-", bs "01")]| | | | |].
      * split; [auto|]. split; [apply G; [reflexivity|cbn; lia]|]. split; [|split; [cbn; lia|reflexivity]].
        repeat (constructor; [split; [split; [constructor; [vm_compute; auto|constructor]|cbn; lia]|apply G; [reflexivity|cbn; lia]]|]). constructor.
      * right. right. intros _. vm_compute. auto.
      * apply quiet_ascii. reflexivity.
      * intros c t H _. vm_compute in H. injection H as <- _. vm_compute. auto.
      * exact I.
      * constructor.
  - constructor; [|constructor; [|constructor]]; cbn [fst]; eexists; (split; [vm_compute; reflexivity|]; split; vm_compute; reflexivity).
Qed.
(** The condition on what follows a number is needed: with a letter right after it, a number is not found at VALID. *)
Theorem C75_letter_after : exists m, FindNumbersWithLeniency shipped shipped_alt (bs "+16502530000a") (bs "US") VALID 10 (fun _ => true) = Ret ([], m).
Proof. eexists. vm_compute. reflexivity. Qed.
Print Assumptions C75_letter_after.
(** So is the condition on what separates two numbers without plus signs: two valid German numbers with only a space between them are found as one. *)
Theorem C75_apart_needed : (forall s, In s [bs "030 23456"; bs "030 34567"] -> exists n, stands shipped shipped_alt (bs "DE") VALID s n) /\
  exists n m, FindNumbersWithLeniency shipped shipped_alt (bs "030 23456 030 34567") (bs "DE") VALID 10 (fun _ => true) = Ret ([Some {| pm_start := 0; pm_raw := bs "030 23456 030 34567"; pm_number := n |}], m).
Proof.
  split; [|do 2 eexists; vm_compute; reflexivity]. intros s [<-|[<-|[]]]; eexists; eexists; (split; [vm_compute; reflexivity|]; split; vm_compute; reflexivity).
Qed.
Print Assumptions C75_apart_needed.
