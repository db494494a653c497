(** C88, C89: what the metadata builder makes of a territory of the XML source. *)
From Coq Require Import Lia Sorted Permutation.
From Verif Require Import Base BaseFacts Utf8 Types Regex Builder TableFacts BuildSpec PropsBuild TerritorySpec TestXml.

(** The outcome of a step: a value with [P], or a panic for the reason [Q]; never an error. *)
Definition cls {A} (m : M A) (P : A -> Prop) (Q : Prop) : Prop := match m with Ret a => P a | Fail _ => False | Panic => Q end.
Lemma cls_bind {A B} (m : M A) (f : A -> M B) P Q P' (Q' : Prop) : cls m P Q -> (Q -> Q') -> (forall a, m = Ret a -> P a -> cls (f a) P' Q') -> cls (bind m f) P' Q'.
Proof. destruct m; cbn [cls bind]; intros H HQ HF; auto. Qed.
Lemma cls_imp {A} (m : M A) (P P' : A -> Prop) (Q Q' : Prop) : cls m P Q -> (forall a, m = Ret a -> P a -> P' a) -> (Q -> Q') -> cls m P' Q'.
Proof. destruct m; cbn [cls]; auto. Qed.

Lemma sp_given s : sp s = given s.
Proof. destruct s; reflexivity. Qed.
Lemma squeeze_eq s : filter (fun c => negb (is_space c)) s = squeeze s.
Proof.
  apply filter_ext. intros c. f_equal. unfold is_space, in_rng. cbn [existsb]. rewrite orb_false_r. apply eq_true_iff_eq.
  rewrite !orb_true_iff, !andb_true_iff, !N.leb_le, !N.eqb_eq. lia.
Qed.
Lemma validate_cls r : cls (validateRE r false) (fun x => x = r /\ compiles r) (~ compiles r).
Proof. unfold validateRE, must_compile, compiles. cbv zeta. destruct (compile r) eqn:E; cbn; [split; [reflexivity|discriminate]|tauto]. Qed.
Lemma validate_ws_cls r : cls (validateRE r true) (fun x => x = squeeze r /\ compiles (squeeze r)) (~ compiles (squeeze r)).
Proof. unfold validateRE. cbv zeta. rewrite squeeze_eq. apply (validate_cls (squeeze r)). Qed.
Lemma compiles_nil : compiles [].
Proof. unfold compiles. vm_compute. discriminate. Qed.

(** * Lengths *)
Lemma listed_parse s : well_listed s -> exists l, parsePossibleLengthStringToSet s = Ret l /\ NoDup l /\ (forall x, In x l <-> listed s x) /\ l <> [].
Proof.
  intros (es & Ne & P & ->). destruct (C43_decodes es Ne P) as (l & E & D & I). exists l. split; [exact E|]. split; [exact D|]. split.
  - intros x. rewrite I. split; [intros H; exists es; auto|]. intros (es' & Ne' & P' & Eq & H). destruct (C43_decodes es' Ne' P') as (l' & E' & D' & I'). rewrite <- Eq, E in E'. apply ret_inj in E'. subst l'. apply I, I'. exact H.
  - destruct es as [|i es]; [congruence|]. inversion P as [|? ? Pi ?]; subst. assert (exists x, covers i x) as (x & X) by (destruct i as [n|a b]; [exists (Z.of_N n); reflexivity|exists (Z.of_N a); cbn in *; lia]).
    intros ->. apply (proj2 (I x)). left. exact X.
Qed.
Lemma not_listed_nil x : ~ listed [] x.
Proof.
  intros (es & Ne & P & E & _). pose proof (spec_text_split es Ne) as Q. rewrite <- E in Q. cbn [split_byte] in Q. destruct es as [|[n|a b] es]; [congruence| |discriminate]. cbn [map show] in Q. injection Q as Q _. symmetry in Q. destruct (dec_nonempty _ Q).
Qed.
Definition union_of (P : option desc_e -> Z -> Prop) (base : list Z) (data : list (option desc_e)) (l : list Z) : Prop :=
  NoDup l /\ forall x, In x l <-> In x base \/ somewhere P data x.
Lemma no_full d x : (match d with Some d => de_lengths d | None => None end) = None -> ~ full d x.
Proof. intros E (d' & l & -> & H & _). cbn in E. congruence. Qed.
Lemma no_local d x : (match d with Some d => de_lengths d | None => None end) = None -> ~ local d x.
Proof. intros E (d' & l & -> & H & _). cbn in E. congruence. Qed.
Lemma full_iff d e x : (match d with Some d => de_lengths d | None => None end) = Some e -> (full d x <-> listed (le_national e) x).
Proof. intros E. destruct d as [d|]; [|discriminate]. split; [intros (d' & l & Q & H & L); injection Q as <-; congruence|]. intros L. exists d, e. auto. Qed.
Lemma local_iff d e x : (match d with Some d => de_lengths d | None => None end) = Some e -> (local d x <-> listed (le_local e) x).
Proof. intros E. destruct d as [d|]; [|discriminate]. split; [intros (d' & l & Q & H & L); injection Q as <-; congruence|]. intros L. exists d, e. auto. Qed.
Lemma somewhere_cons P d data x : somewhere P (d :: data) x <-> P d x \/ somewhere P data x.
Proof. unfold somewhere. split; [intros (e & [->|H] & Q); [left|right; exists e]; auto|]. intros [H|(e & H & Q)]; [exists d|exists e]; simpl; auto. Qed.
Lemma somewhere_nil P x : ~ somewhere P [] x.
Proof. intros (e & [] & _). Qed.

Lemma populate_cls data : Forall written data -> forall l lo, NoDup l -> NoDup lo ->
  cls (populatePossibleLengthSets data l lo)
    (fun r => union_of full l data (fst r) /\ union_of local lo data (snd r) /\ forall e x, In e data -> ~ (full e x /\ local e x))
    (exists e x, In e data /\ full e x /\ local e x).
Proof.
  induction 1 as [|d data W F IH]; intros l lo Dl Dlo; cbn [populatePossibleLengthSets].
  - cbn [cls fst snd]. split; [|split].
    + split; [exact Dl|]. intros x. pose proof (somewhere_nil full x). tauto.
    + split; [exact Dlo|]. intros x. pose proof (somewhere_nil local x). tauto.
    + intros e x [].
  - destruct (match d with Some d => de_lengths d | None => None end) as [e|] eqn:E.
    + assert (W' : well_listed (le_national e) /\ (le_local e = [] \/ well_listed (le_local e))) by (destruct d as [d|]; [|discriminate]; exact (W d e eq_refl E)).
      destruct W' as [W1 W2]. destruct (listed_parse _ W1) as (this & E1 & D1 & I1 & _). rewrite E1. cbn [bind].
      assert (L : cls (if negb (is_empty (le_local e)) then tl <- parsePossibleLengthStringToSet (le_local e) ;; if existsb (fun k => memz k tl) this then Panic else Ret (zset_union lo tl) else Ret lo)
                (fun lo' => NoDup lo' /\ (forall x, In x lo' <-> In x lo \/ local d x) /\ forall x, ~ (full d x /\ local d x)) (exists x, full d x /\ local d x)).
      { destruct (is_empty (le_local e)) eqn:Em; cbn [negb cls].
        - apply is_empty_iff in Em. assert (Nl : forall x, ~ local d x) by (intros x; rewrite (local_iff _ _ _ E), Em; apply not_listed_nil). split; [exact Dlo|]. split; [intros x; specialize (Nl x); tauto|]. intros x [_ H]. exact (Nl x H).
        - apply is_empty_false in Em. destruct W2 as [W2|W2]; [congruence|]. destruct (listed_parse _ W2) as (tl & E2 & D2 & I2 & _). rewrite E2. cbn [bind].
          destruct (existsb (fun k => memz k tl) this) eqn:Ex; cbn [cls].
          + apply existsb_exists in Ex as (x & X & Y). apply memz_iff in Y. exists x. rewrite (full_iff _ _ _ E), (local_iff _ _ _ E). split; [apply I1|apply I2]; assumption.
          + split; [apply zset_union_nodup; exact Dlo|]. split; [intros x; rewrite zset_union_in, I2, (local_iff _ _ _ E); tauto|].
            intros x [A B]. rewrite (full_iff _ _ _ E), <- I1 in A. rewrite (local_iff _ _ _ E), <- I2 in B. assert (existsb (fun k => memz k tl) this = true) by (apply existsb_exists; exists x; split; [exact A|apply memz_iff; exact B]). congruence. }
      eapply cls_bind; [exact L| |].
      * intros (x & A & B). exists d, x. split; [left; reflexivity|]. auto.
      * intros lo' _ (D' & I' & Ap). eapply cls_imp; [apply IH; [apply zset_union_nodup; exact Dl|exact D']| |].
        -- intros [l2 lo2] _ ((Da & Ia) & (Db & Ib) & Q). cbn [fst snd] in *. split; [|split].
           ++ split; [exact Da|]. intros x. rewrite Ia, somewhere_cons, zset_union_in, I1, (full_iff _ _ _ E). tauto.
           ++ split; [exact Db|]. intros x. rewrite Ib, somewhere_cons, I'. tauto.
           ++ intros e' x [<-|H]; [apply Ap|apply Q; exact H].
        -- intros (e' & x & H & Q). exists e', x. split; [right; exact H|exact Q].
    + eapply cls_imp; [apply IH; assumption| |].
      * intros [l2 lo2] _ ((Da & Ia) & (Db & Ib) & Q). cbn [fst snd] in *. pose proof (fun x => no_full d x E) as Nf. pose proof (fun x => no_local d x E) as Nl. split; [|split].
        -- split; [exact Da|]. intros x. rewrite Ia, somewhere_cons. specialize (Nf x). tauto.
        -- split; [exact Db|]. intros x. rewrite Ib, somewhere_cons. specialize (Nl x). tauto.
        -- intros e' x [<-|H]; [specialize (Nf x); tauto|apply Q; exact H].
      * intros (e' & x & H & Q). exists e', x. split; [right; exact H|exact Q].
Qed.

(** Without a parent nothing is refused; with one, only lengths outside it. *)
Lemma set_cls lengths locals parent d :
  cls (setPossibleLengths lengths locals parent d)
    (fun d' => d_pattern d' = d_pattern d /\ d_example d' = d_example d)
    (exists p, parent = Some p /\ exists x, (In x lengths /\ ~ In x (d_len p)) \/ (In x locals /\ ~ In x lengths /\ ~ In x (d_len p) /\ ~ In x (d_local p))).
Proof.
  unfold setPossibleLengths. eapply (cls_bind _ _ (fun _ => True) (exists p, parent = Some p /\ exists x, In x lengths /\ ~ In x (d_len p))).
  - destruct (match parent with None => false | Some p => arePossibleLengthsEqual lengths p end); cbn [cls]; [exact I|].
    destruct (forallb _ lengths) eqn:F; cbn [cls]; [exact I|]. apply not_true_iff_false in F. destruct parent as [p|]; [|exfalso; apply F; apply forallb_forall; reflexivity].
    exists p. split; [reflexivity|]. assert (G : existsb (fun x => negb (memz x (d_len p))) lengths = true).
    { clear -F. induction lengths as [|x l IH]; [exfalso; apply F; reflexivity|]. cbn [forallb existsb] in *. destruct (memz x (d_len p)); [|reflexivity]. apply IH. exact F. }
    apply existsb_exists in G as (x & X & Y). exists x. split; [exact X|]. intros Q. apply memz_iff in Q. rewrite Q in Y. discriminate.
  - intros (p & E & x & X). exists p. split; [exact E|]. exists x. left. exact X.
  - intros pl _ _. cbv zeta. destruct (forallb _ (filter _ locals)) eqn:F; cbn [cls d_pattern d_example]; [auto|]. apply not_true_iff_false in F. destruct parent as [p|]; [|exfalso; apply F; apply forallb_forall; reflexivity].
    exists p. split; [reflexivity|]. set (loc := filter _ locals) in F. assert (G : existsb (fun x => negb (memz x (d_len p) || memz x (d_local p))) loc = true).
    { clearbody loc. clear -F. induction loc as [|x l IH]; [exfalso; apply F; reflexivity|]. cbn [forallb existsb] in *. destruct (memz x (d_len p) || memz x (d_local p)); [|reflexivity]. apply IH. exact F. }
    apply existsb_exists in G as (x & X & Y). subst loc. apply filter_In in X as [X1 X2]. exists x. right. apply negb_true_iff in X2, Y. apply orb_false_iff in Y as [Y1 Y2].
    split; [exact X1|]. split; [|split]; intros Q; apply memz_iff in Q; congruence.
Qed.

(** An element fits below the general description. *)
Definition fits (g : desc) (e : option desc_e) : Prop :=
  (forall x, ~ (full e x /\ local e x)) /\ (forall x, full e x -> In x (d_len g)) /\ (forall x, local e x -> In x (d_len g) \/ In x (d_local g))
  /\ forall d, e = Some d -> compiles (squeeze (de_pattern d)).
Lemma increasing_nodup l : increasing l -> NoDup l.
Proof. unfold increasing. induction 1 as [|x l S IH F]; constructor; auto. intros H. rewrite Forall_forall in F. specialize (F x H). lia. Qed.

Lemma somewhere_one P d x : somewhere P [d] x <-> P d x.
Proof. rewrite somewhere_cons. pose proof (somewhere_nil P x). tauto. Qed.
Lemma pattern_cls p : cls (if is_empty p then Ret None else p <- validateRE p true ;; Ret (sp p)) (fun o => o = given (squeeze p) /\ compiles (squeeze p)) (~ compiles (squeeze p)).
Proof.
  destruct p as [|c p]; cbn [is_empty cls]; [split; [reflexivity|apply compiles_nil]|]. eapply cls_bind; [apply validate_ws_cls|auto|].
  intros a _ (-> & H). cbn [cls]. rewrite sp_given. auto.
Qed.
Lemma process_cls g e : increasing (d_len g) -> written e -> cls (processPhoneNumberDescElement (Some g) e) (fun d => describes g e d /\ fits g e) (~ fits g e).
Proof.
  intros Ig W. destruct e as [e|]; cbn [processPhoneNumberDescElement].
  2:{ cbn [cls describes]. split; [reflexivity|]. split; [intros x [(d & l & Q & _) _]; discriminate|]. split; [intros x (d & l & Q & _); discriminate|]. split; [intros x (d & l & Q & _); discriminate|discriminate]. }
  assert (L : cls (ls <- populatePossibleLengthSets [Some e] [] [] ;; let '(lengths, locals) := ls in setPossibleLengths lengths locals (Some g) desc0)
            (fun d => increasing (d_len d) /\ increasing (d_local d) /\ (forall x, In x (d_local d) <-> local (Some e) x) /\ (de_lengths e = None -> d_len d = [])
                      /\ (de_lengths e <> None -> forall n, In n (match d_len d with [] => d_len g | l => l end) <-> full (Some e) n)
                      /\ (de_lengths e <> None -> d_len d <> d_len g)
                      /\ (forall x, ~ (full (Some e) x /\ local (Some e) x)) /\ (forall x, full (Some e) x -> In x (d_len g)) /\ (forall x, local (Some e) x -> In x (d_len g) \/ In x (d_local g)))
            (~ fits g (Some e))).
  { eapply cls_bind; [apply populate_cls; [constructor; [exact W|constructor]|constructor|constructor]| |].
    - intros (e' & x & [<-|[]] & H) (Ap & _). exact (Ap x H).
    - intros [lengths locals] _ ((D1 & I1) & (D2 & I2) & Ap). cbn [fst snd] in *.
      assert (J1 : forall x, In x lengths <-> full (Some e) x) by (intros x; rewrite I1, somewhere_one; simpl; tauto). assert (J2 : forall x, In x locals <-> local (Some e) x) by (intros x; rewrite I2, somewhere_one; simpl; tauto). clear I1 I2.
      assert (Ap' : forall x, ~ (full (Some e) x /\ local (Some e) x)) by (intros x; apply Ap; left; reflexivity). clear Ap.
      eapply cls_imp; [apply set_cls| |].
      + intros d E _. destruct (C43_stored _ _ _ _ _ D1 D2 E) as (S1 & S2 & Il & (G1 & G2 & G3)). specialize (G3 (increasing_nodup _ Ig)).
        split; [exact S1|]. split; [exact S2|]. split. { intros x. rewrite Il, J2, J1. specialize (Ap' x). tauto. }
        assert (Ne : de_lengths e <> None -> exists n, In n lengths).
        { intros H. destruct (de_lengths e) as [l|] eqn:El; [|congruence]. destruct (W e l eq_refl El) as [Wl _]. destruct (listed_parse _ Wl) as (ll & _ & _ & Ill & Nl). destruct ll as [|n ll]; [congruence|]. exists n. apply J1. exists e, l. split; [reflexivity|]. split; [exact El|]. apply Ill. left. reflexivity. }
        split. { intros H. assert (lengths = []) as ->. { destruct lengths as [|n r]; [reflexivity|]. exfalso. apply (no_full (Some e) n H). apply J1. left. reflexivity. }
                 destruct G3 as [[G3 _]|[G3 _]]; [exact G3|]. destruct (d_len d) as [|n r]; [reflexivity|]. destruct (proj1 (G3 n) (or_introl eq_refl)). }
        split. { intros H n. rewrite <- J1. destruct (Ne H) as (k & K). destruct G3 as [[G3 G4]|[G3 _]]; [rewrite G3, G4; tauto|]. destruct (d_len d) as [|n' r] eqn:Ed; [destruct (proj2 (G3 k) K)|]. apply G3. }
        split. { intros H Q. destruct (Ne H) as (k & K). destruct G3 as [[G3 G4]|[G3 G4]]; [rewrite G3 in Q; apply G4 in K; rewrite <- Q in K; destruct K|]. apply G4. intros x. rewrite <- Q, G3. tauto. }
        split; [exact Ap'|]. split; [intros x X; apply G1; [apply J1; exact X|apply increasing_nodup; exact Ig]|]. intros x X. apply G2. apply Il. rewrite J2, J1. specialize (Ap' x). tauto.
      + intros (p & Q & x & [[X1 X2]|(X1 & X2 & X3 & X4)]) (_ & F1 & F2 & _); injection Q as <-.
        * apply X2, F1, J1. exact X1.
        * apply J2, F2 in X1. tauto. }
  eapply cls_bind; [exact L|auto|]. intros d _ (S1 & S2 & A1 & A2 & A3 & A4 & A5 & A6 & A7). eapply cls_bind; [apply pattern_cls| |].
  - intros H (_ & _ & _ & F). exact (H (F e eq_refl)).
  - intros pat _ (-> & Cp). cbn [cls]. split.
    + cbn [describes d_pattern d_example d_len d_local]. rewrite sp_given. split; [reflexivity|]. split; [reflexivity|]. split; [exact S1|]. split; [exact S2|]. split; [exact A1|]. split; [exact A2|]. split; [exact A3|exact A4].
    + split; [exact A5|]. split; [exact A6|]. split; [exact A7|]. intros d' Q. injection Q as <-. exact Cp.
Qed.

Lemma process_root_cls e : cls (processPhoneNumberDescElement None e)
  (fun g => d_pattern g = match e with Some x => given (squeeze (de_pattern x)) | None => None end /\ d_example g = match e with Some x => given (de_example x) | None => None end
            /\ forall d, e = Some d -> compiles (squeeze (de_pattern d)))
  (~ forall d, e = Some d -> compiles (squeeze (de_pattern d))).
Proof.
  destruct e as [e|]; cbn [processPhoneNumberDescElement]; [|cbn [cls d_pattern d_example]; split; [reflexivity|]; split; [reflexivity|discriminate]].
  cbn [bind]. eapply cls_bind; [apply pattern_cls| |].
  - intros H F. exact (H (F e eq_refl)).
  - intros pat _ (-> & Cp). cbn [cls d_pattern d_example]. rewrite sp_given. split; [reflexivity|]. split; [reflexivity|]. intros d Q. injection Q as <-. exact Cp.
Qed.
(** What the general description asks of the lengths. *)
Definition root_fits (short : bool) (t : terr_e) : Prop :=
  (forall d, te_general t = Some d -> de_lengths d = None) /\ (forall e x, In e (counted short t) -> ~ (full e x /\ local e x))
  /\ (short = true -> forall x, ~ local (te_shortcode t) x).
Lemma general_cls g t short : written (te_general t) -> Forall written (counted short t) ->
  cls (setPossibleLengthsGeneralDesc g t short)
    (fun g' => d_pattern g' = d_pattern g /\ d_example g' = d_example g /\ increasing (d_len g') /\ increasing (d_local g')
       /\ (forall n, In n (d_len g') <-> somewhere full (counted short t) n)
       /\ (forall n, In n (d_local g') <-> somewhere local (counted short t) n /\ ~ somewhere full (counted short t) n)
       /\ root_fits short t)
    (~ root_fits short t).
Proof.
  intros Wg Wc. unfold setPossibleLengthsGeneralDesc. eapply cls_bind; [apply populate_cls; [constructor; [exact Wg|constructor]|constructor|constructor]| |].
  { intros (e & x & [<-|[]] & F & _) (G & _). revert F. apply no_full. destruct (te_general t) as [d|]; [exact (G d eq_refl)|reflexivity]. }
  intros [l0 lo0] _ ((_ & I1) & (_ & I2) & _). cbn [fst snd] in *.
  assert (Gn : l0 = [] -> forall d, te_general t = Some d -> de_lengths d = None).
  { intros -> d Ed. destruct (de_lengths d) as [l|] eqn:El; [|reflexivity]. exfalso. destruct (Wg d l Ed El) as [Wl _]. destruct (listed_parse _ Wl) as (ll & _ & _ & Ill & Nl). destruct ll as [|n ll]; [congruence|]. destruct (proj2 (I1 n)). right. apply somewhere_one. exists d, l. split; [exact Ed|]. split; [exact El|]. apply Ill. left. reflexivity. }
  assert (Gb : forall x, (In x l0 \/ In x lo0) -> ~ root_fits short t).
  { intros x X (G & _). assert (E : match te_general t with Some d => de_lengths d | None => None end = None) by (destruct (te_general t) as [d|]; [exact (G d eq_refl)|reflexivity]).
    rewrite I1, I2, !somewhere_one in X. pose proof (no_full _ x E). pose proof (no_local _ x E). simpl in X. tauto. }
  destruct l0 as [|x l0]; [|cbn [cls]; apply (Gb x); left; left; reflexivity]. destruct lo0 as [|x lo0]; [|cbn [cls]; apply (Gb x); right; left; reflexivity].
  specialize (Gn eq_refl). clear Gb I1 I2. assert (Eg : match te_general t with Some d => de_lengths d | None => None end = None) by (destruct (te_general t) as [d|]; [exact (Gn d eq_refl)|reflexivity]).
  eapply (cls_bind _ _ (fun r => union_of full [] (counted short t) (fst r) /\ union_of local [] (counted short t) (snd r) /\ root_fits short t) (~ root_fits short t)); [|auto|].
  - destruct short; cbn [negb].
    + eapply cls_bind; [apply populate_cls; [exact Wc|constructor|constructor]| |].
      * intros (e & x & H & Q) (_ & F & _). exact (F e x H Q).
      * intros [l lo] _ (U1 & U2 & Ap). cbn [fst snd] in *. destruct lo as [|x lo]; cbn [cls fst snd].
        -- split; [exact U1|]. split; [exact U2|]. split; [exact Gn|]. split; [exact Ap|]. intros _ x X. destruct U2 as [_ U2]. apply (U2 x). right. apply somewhere_one. exact X.
        -- intros (_ & _ & F). apply (F eq_refl x). destruct U2 as [_ U2]. pose proof (proj1 (U2 x) (or_introl eq_refl)) as H. destruct H as [[]|H]. apply (proj1 (somewhere_one local (te_shortcode t) x)). exact H.
    + eapply cls_imp; [apply (populate_cls (te_general t :: counted false t)); [constructor; [exact Wg|exact Wc]|constructor|constructor]| |].
      * intros [l lo] _ ((D1 & U1) & (D2 & U2) & Ap). cbn [fst snd] in *. split; [|split; [|split; [|split]]].
        -- split; [exact D1|]. intros x. rewrite U1, somewhere_cons. pose proof (no_full _ x Eg). tauto.
        -- split; [exact D2|]. intros x. rewrite U2, somewhere_cons. pose proof (no_local _ x Eg). tauto.
        -- exact Gn.
        -- intros e x H. apply Ap. right. exact H.
        -- discriminate.
      * intros (e & x & [<-|H] & Q) (_ & F & _); [apply (no_full _ x Eg); apply Q|exact (F e x H Q)].
  - intros [l lo] _ ((D1 & U1) & (D2 & U2) & R). cbn [fst snd] in *. eapply cls_imp; [apply set_cls| |].
    + intros d E (P1 & P2). destruct (C43_stored _ _ _ _ _ D1 D2 E) as (S1 & S2 & Il & G1). split; [exact P1|]. split; [exact P2|]. split; [exact S1|]. split; [exact S2|]. split; [|split; [|exact R]].
      * intros n. rewrite G1, U1. simpl. tauto.
      * intros n. rewrite Il, U2, U1. simpl. tauto.
    + intros (p & Q & _). discriminate.
Qed.

(** * Formats *)
Lemma replace_first_spec s old new : first_replaced old new s (replace_first s old new).
Proof.
  unfold replace_first, first_replaced. destruct (index_of s old) as [i|] eqn:E.
  - left. destruct (index_of_some _ _ _ E) as (t & Es & Ls). unfold len in *. exists (firstn i s), t. split; [exact Es|]. split.
    + f_equal. f_equal. rewrite Es at 1. rewrite app_assoc, skipn_app, skipn_all2 by (rewrite app_length, firstn_length_le; lia). rewrite app_length, firstn_length_le by lia. rewrite Nat.sub_diag. reflexivity.
    + intros a' b' Ea. rewrite firstn_length_le by lia. apply Nat.nlt_ge. intros L. pose proof (index_of_first _ _ _ E _ L) as H. rewrite Ea, skipn_app, skipn_all, Nat.sub_diag in H. cbn [skipn app] in H. rewrite has_prefix_app in H. discriminate.
  - right. split; [|reflexivity]. intros X. apply contains_iff in X. unfold contains in X. rewrite E in X. discriminate.
Qed.
Lemma app_same_length {A} (a1 : list A) : forall a2 b1 b2, a1 ++ b1 = a2 ++ b2 -> length a1 = length a2 -> a1 = a2 /\ b1 = b2.
Proof. induction a1 as [|x a1 IH]; intros [|y a2] b1 b2 E L; try discriminate; [auto|]. injection E as -> E. injection L as L. destruct (IH _ _ _ E L) as [-> ->]. auto. Qed.
Lemma first_replaced_fun old new s a b : first_replaced old new s a -> first_replaced old new s b -> a = b.
Proof.
  intros [(a1 & b1 & E1 & -> & M1)|[N1 ->]] [(a2 & b2 & E2 & -> & M2)|[N2 ->]]; [|destruct N2; eauto|destruct N1; eauto|reflexivity].
  assert (L : length a1 = length a2) by (pose proof (M1 _ _ E2); pose proof (M2 _ _ E1); lia). rewrite E1 in E2. apply app_same_length in E2 as [-> E2]; [|exact L]. apply app_inv_head in E2. subst b2. reflexivity.
Qed.
Lemma rule_filled rule np : filled np rule (getNationalPrefixFormattingRule rule np).
Proof. exists (replace_first rule (bs "$NP") np). split; apply replace_first_spec. Qed.
Lemma carrier_rule_filled rule np : carrier_filled np rule (getDomesticCarrierCodeFormattingRule rule np).
Proof. exists (replace_first rule (bs "$FG") (bs "$1")). split; apply replace_first_spec. Qed.
Lemma carrier_filled_fun np rule a b : carrier_filled np rule a -> carrier_filled np rule b -> a = b.
Proof. intros (m1 & A1 & B1) (m2 & A2 & B2). rewrite (first_replaced_fun _ _ _ _ _ A1 A2) in B1. exact (first_replaced_fun _ _ _ _ _ B1 B2). Qed.
Lemma carrier_filled_nil np : carrier_filled np [] [].
Proof. exact (carrier_rule_filled [] np). Qed.
Lemma leading_cls l : cls (leading_patterns l) (fun r => r = map squeeze l /\ forall p, In p l -> compiles (squeeze p)) (~ forall p, In p l -> compiles (squeeze p)).
Proof.
  induction l as [|p l IH]; cbn [leading_patterns map]; [cbn [cls]; split; [reflexivity|intros p []]|]. eapply cls_bind; [apply validate_ws_cls| |].
  - intros H F. apply H, F. left. reflexivity.
  - intros a _ (-> & Cp). eapply cls_bind; [exact IH| |].
    + intros H F. apply H. intros q Q. apply F. right. exact Q.
    + intros r _ (-> & Cl). cbn [cls]. split; [reflexivity|]. intros q [<-|Q]; auto.
Qed.
Lemma carrier_cls rule np : cls (if is_empty rule then Ret [] else validateRE (getDomesticCarrierCodeFormattingRule rule np) false)
  (fun r => carrier_filled np rule r /\ forall r', carrier_filled np rule r' -> compiles r') (~ forall r', carrier_filled np rule r' -> compiles r').
Proof.
  destruct rule as [|c rule]; cbn [is_empty].
  - cbn [cls]. split; [apply carrier_filled_nil|]. intros r' H. rewrite (carrier_filled_fun _ _ _ _ H (carrier_filled_nil np)). apply compiles_nil.
  - eapply cls_imp; [apply validate_cls| |].
    + intros a _ (-> & Cp). split; [apply carrier_rule_filled|]. intros r' H. rewrite (carrier_filled_fun _ _ _ _ H (carrier_rule_filled _ _)). exact Cp.
    + intros H F. apply H, F, carrier_rule_filled.
Qed.
(** The demands on one format. *)
Definition format_fits (t : terr_e) (f : nfmt_e) : Prop :=
  compiles (fe_pattern f) /\ (forall l, In l (fe_leading f) -> compiles (squeeze l)) /\ (length (fe_intl f) <= 1)%nat
  /\ forall r, carrier_filled (te_nprefix t) (fe_ccfr f) r -> compiles r.
Lemma national_cls t f npfr ccfr : npfr = getNationalPrefixFormattingRule (te_npfr t) (te_nprefix t) -> carrier_filled (te_nprefix t) (te_ccfr t) ccfr ->
  cls (national_format f (te_nprefix t) npfr ccfr (te_npopt t))
    (fun o => national_of t f o /\ compiles (fe_pattern f) /\ (forall l, In l (fe_leading f) -> compiles (squeeze l)) /\ forall r, carrier_filled (te_nprefix t) (fe_ccfr f) r -> compiles r)
    (~ format_fits t f).
Proof.
  intros -> Hc. unfold national_format. cbv zeta.
  assert (D : cls (if negb (is_empty (fe_ccfr f)) then r <- validateRE (getDomesticCarrierCodeFormattingRule (fe_ccfr f) (te_nprefix t)) false ;; Ret (sp r) else Ret (sp ccfr))
            (fun o => (exists r, carrier_filled (te_nprefix t) (match fe_ccfr f with [] => te_ccfr t | r => r end) r /\ o = given r) /\ forall r, carrier_filled (te_nprefix t) (fe_ccfr f) r -> compiles r)
            (~ forall r, carrier_filled (te_nprefix t) (fe_ccfr f) r -> compiles r)).
  { pose proof (carrier_cls (fe_ccfr f) (te_nprefix t)) as K. destruct (fe_ccfr f) as [|c r0] eqn:Ef; cbn [is_empty negb] in *.
    - cbn [cls] in *. rewrite sp_given. split; [exists ccfr; auto|apply K].
    - eapply cls_bind; [exact K|auto|]. intros a _ (A & B). cbn [cls]. rewrite sp_given. split; [exists a; auto|exact B]. }
  eapply cls_bind; [exact D|intros H (_ & _ & _ & F); exact (H F)|]. intros dcc _ (Hd & Cd). eapply cls_bind; [apply leading_cls|intros H (_ & F & _); exact (H F)|]. intros ld _ (-> & Cl).
  eapply cls_bind; [apply validate_cls|intros H (F & _); exact (H F)|]. intros p _ (-> & Cp). cbn [cls]. split; [|auto]. unfold national_of. cbn [nf_pattern nf_format nf_leading nf_npfr nf_npopt nf_dccfr].
  split; [apply sp_given|]. split; [apply sp_given|]. split; [reflexivity|]. split; [|split; [reflexivity|exact Hd]].
  destruct (fe_npfr f) as [|c r]; cbn [is_empty negb]; eexists; (split; [apply rule_filled|apply sp_given]).
Qed.
Lemma international_cls f o : (forall l, In l (fe_leading f) -> compiles (squeeze l)) ->
  cls (loadInternationalFormat f o)
    (fun r => match fst r with Some x => [x] | None => [] end = international_of f o /\ snd r = (match fe_intl f with [] => false | _ => true end) /\ (length (fe_intl f) <= 1)%nat)
    (~ (length (fe_intl f) <= 1)%nat).
Proof.
  intros Cl. unfold loadInternationalFormat, international_of. destruct (fe_intl f) as [|v [|w r]]; cbn [length].
  - cbn [cls fst snd]. split; [|split; [reflexivity|lia]]. destruct (nf_format o); reflexivity.
  - eapply cls_bind; [apply leading_cls|intros H _; exact (H Cl)|]. intros ld _ (-> & _). cbv zeta. cbn [cls fst snd]. split; [|split; [reflexivity|lia]].
    destruct (beq v (bs "NA")); cbn [orb]; [reflexivity|]. destruct v as [|c v]; [reflexivity|]. cbn [sp is_empty is_some]. rewrite sp_given. reflexivity.
  - cbn [cls]. lia.
Qed.
Lemma formats_cls t npfr ccfr fs : npfr = getNationalPrefixFormattingRule (te_npfr t) (te_nprefix t) -> carrier_filled (te_nprefix t) (te_ccfr t) ccfr ->
  cls (load_formats fs (te_nprefix t) npfr ccfr (te_npopt t))
    (fun r => Forall2 (national_of t) fs (fst (fst r)) /\ snd (fst r) = concat (map (fun p => international_of (fst p) (snd p)) (combine fs (fst (fst r))))
              /\ snd r = negb (forallb (fun f => match fe_intl f with [] => true | _ => false end) fs) /\ forall f, In f fs -> format_fits t f)
    (~ forall f, In f fs -> format_fits t f).
Proof.
  intros Hn Hc. induction fs as [|f fs IH]; cbn [load_formats].
  - cbn [cls fst snd]. split; [constructor|]. split; [reflexivity|]. split; [reflexivity|]. intros f [].
  - eapply cls_bind; [apply national_cls; assumption| |]. { intros H F. apply H, F. left. reflexivity. } intros o _ (No & Cp & Cl & Cc).
    eapply cls_bind; [apply international_cls; exact Cl| |]. { intros H F. apply H. apply (F f). left. reflexivity. } intros i _ (Ei & Es & Le).
    eapply cls_bind; [exact IH| |]. { intros H F. apply H. intros g G. apply F. right. exact G. } intros [[nfs infs] ex] _ (A & B & D & F). cbn [fst snd] in *. cbn [cls fst snd].
    split; [constructor; assumption|]. split; [|split].
    + cbn [combine map concat fst snd]. rewrite <- Ei, <- B. destruct (fst i); reflexivity.
    + rewrite Es, D. cbn [forallb]. destruct (fe_intl f); reflexivity.
    + intros g [<-|G]; [split; [exact Cp|split; [exact Cl|split; [exact Le|exact Cc]]]|apply F; exact G].
Qed.
Lemma available_cls t : cls (loadAvailableFormats t (getNationalPrefixFormattingRule (te_npfr t) (te_nprefix t)))
    (fun r => Forall2 (national_of t) (te_formats t) (fst r)
              /\ snd r = (if forallb (fun f => match fe_intl f with [] => true | _ => false end) (te_formats t) then [] else concat (map (fun p => international_of (fst p) (snd p)) (combine (te_formats t) (fst r))))
              /\ (forall r, carrier_filled (te_nprefix t) (te_ccfr t) r -> compiles r) /\ forall f, In f (te_formats t) -> format_fits t f)
    (~ texts_fit t).
Proof.
  unfold loadAvailableFormats. cbv zeta. eapply cls_bind; [apply carrier_cls|intros H F; apply H, F|]. intros ccfr _ (Hc & Cc).
  eapply cls_bind; [apply formats_cls; [reflexivity|exact Hc]|intros H F; apply H, F|]. intros [[nfs infs] ex] _ (A & B & D & F). cbn [fst snd] in *. cbn [cls fst snd].
  split; [exact A|]. split; [|auto]. rewrite D. destruct (forallb _ _); [reflexivity|exact B].
Qed.

(** * The territory *)
Lemma opt_re_cls v (ws : bool) : cls (opt_re v ws) (fun o => o = given (if ws then squeeze v else v) /\ compiles (if ws then squeeze v else v)) (~ compiles (if ws then squeeze v else v)).
Proof.
  destruct ws; [apply pattern_cls|]. unfold opt_re. destruct v as [|c v]; cbn [is_empty cls]; [split; [reflexivity|apply compiles_nil]|].
  eapply cls_bind; [apply validate_cls|auto|]. intros a _ (-> & H). cbn [cls]. rewrite sp_given. auto.
Qed.
Lemma transform_cls t : cls (if is_empty (te_np_parse t) then Ret None else opt_re (te_np_transform t) false)
  (fun o => o = match te_np_parse t with [] => None | _ => given (te_np_transform t) end /\ (te_np_parse t <> [] -> compiles (te_np_transform t))) (~ (te_np_parse t <> [] -> compiles (te_np_transform t))).
Proof.
  destruct (te_np_parse t) as [|c v]; cbn [is_empty]; [cbn [cls]; split; [reflexivity|congruence]|]. eapply cls_imp; [apply opt_re_cls| |].
  - intros a _ (-> & H). auto.
  - intros H F. apply H, F. discriminate.
Qed.
Definition all_fit (short : bool) (t : terr_e) : Prop := lengths_fit short t /\ texts_fit t /\ patterns_fit short t.
Lemma child_refused short t g e : describes_all short t g -> In e (kinds short t) -> ~ fits g e -> ~ all_fit short t.
Proof.
  intros (_ & _ & _ & _ & L1 & L2) H N (Lf & _ & Pf). apply N. split; [|split; [|split]].
  - intros x. apply (lf_apart _ _ Lf). apply in_or_app. right. exact H.
  - intros x X. apply L1. exact (lf_full _ _ Lf e x H X).
  - intros x X. rewrite L1, L2. pose proof (lf_local _ _ Lf e x H X) as [Q|Q]; [auto|]. destruct (in_dec Z.eq_dec x (d_len g)) as [I|I]; [left; apply L1; exact I|]. right. rewrite <- L1. auto.
  - intros d E. apply (Pf e d); [right; exact H|exact E].
Qed.
Lemma children_fit short t g : describes_all short t g -> root_fits short t -> (forall d, te_general t = Some d -> compiles (squeeze (de_pattern d))) -> Forall (fits g) (kinds short t) -> lengths_fit short t /\ patterns_fit short t.
Proof.
  intros (_ & _ & _ & _ & L1 & L2) (R1 & R2 & R3) Gp F. rewrite Forall_forall in F. split.
  - split; [exact R1| |exact R3| |].
    + intros e x H. apply in_app_or in H as [H|H]; [apply R2; exact H|]. apply (F e H).
    + intros e x H X. apply L1. apply (F e H). exact X.
    + intros e x H X. destruct (F e H) as (_ & _ & Q & _). apply Q in X. rewrite L1, L2 in X. tauto.
  - intros e d [<-|H] E; [apply Gp; exact E|]. apply (F e H). exact E.
Qed.
Ltac child_step H1 H2 g Dg Ig W :=
  eapply cls_bind; [apply (process_cls g); [exact Ig|apply W; unfold counted, kinds; cbn [app In]; tauto]|intros HH; refine (child_refused _ _ g _ Dg _ HH); unfold kinds; cbn [In]; tauto|intros ? _ [H1 H2]].
Lemma territory_cls short t : (forall e, In e (te_general t :: counted short t ++ kinds short t) -> written e) ->
  cls (loadCountryMetadata t short false) (fun m => faithful short t m /\ all_fit short t) (~ all_fit short t).
Proof.
  intros W. unfold loadCountryMetadata.
  eapply cls_bind; [apply opt_re_cls|intros H (_ & F & _); apply H, F|]. intros leading _ (-> & C1).
  eapply cls_bind; [apply opt_re_cls|intros H (_ & F & _); apply H, F|]. intros ipre _ (-> & C2).
  eapply cls_bind; [apply opt_re_cls|intros H (_ & F & _); apply H, F|]. intros npp _ (Enpp & C3). cbv iota in C1, C2, C3, Enpp.
  eapply cls_bind; [apply transform_cls|intros H (_ & F & _); apply H, F|]. intros npt _ (-> & C4). cbv zeta.
  eapply cls_bind; [apply available_cls|intros H (_ & F & _); apply H, F|]. intros fs _ (A1 & A2 & C5 & C6).
  assert (Tf : texts_fit t) by (split; assumption).
  cbv iota. eapply cls_bind; [apply process_root_cls| |]. { intros H (_ & _ & F). apply H. intros d E. apply (F (te_general t) d); [left; reflexivity|exact E]. } intros g0 _ (P0 & X0 & C7).
  eapply cls_bind; [apply general_cls; [apply W; left; reflexivity|apply Forall_forall; intros e He; apply W; right; apply in_or_app; left; exact He]| |].
  { intros H (F & _ & _). apply H. split; [apply F|]. split; [intros e x He; apply (lf_apart _ _ F); apply in_or_app; left; exact He|apply F]. }
  intros g _ (P1 & X1 & S1 & S2 & L1 & L2 & Rf). rewrite P0 in P1. rewrite X0 in X1.
  assert (Dg : describes_all short t g) by (split; [exact P1|]; split; [exact X1|]; split; [exact S1|]; split; [exact S2|]; split; [exact L1|exact L2]).
  assert (At : forall m, md_id m = sp (te_id t) -> md_cc m = (if (te_cc t =? 0)%Z then None else Some (te_cc t)) -> md_leading m = given (te_leading t) -> md_iprefix m = given (te_iprefix t) -> md_pref_iprefix m = sp (te_pref_iprefix t) -> md_nprefix m = sp (te_nprefix t) -> md_extn m = sp (te_extn t)
    -> md_np_parse m = (match npp with None => sp (te_nprefix t) | p => p end) -> md_np_transform m = (match te_np_parse t with [] => None | _ => given (te_np_transform t) end) -> md_main m = (if te_main t then Some true else None) -> md_mnp m = (if te_mnp t then Some true else None) -> md_nf m = fst fs -> md_inf m = snd fs -> attributes t m).
  { intros m. rewrite !sp_given. intros. split; try assumption.
    - rewrite H6, Enpp. destruct (squeeze (te_np_parse t)); reflexivity.
    - rewrite H10. exact A1.
    - rewrite H11, A2, H10. reflexivity. }
  destruct short; cbn [negb].
  - child_step D1 F1 g Dg S1 W. child_step D2 F2 g Dg S1 W. child_step D3 F3 g Dg S1 W. child_step D4 F4 g Dg S1 W. child_step D5 F5 g Dg S1 W. child_step D6 F6 g Dg S1 W. child_step D7 F7 g Dg S1 W.
    cbn [cls]. split; [|destruct (children_fit true t g Dg Rf C7); [repeat (constructor; [assumption|]); constructor|split; [assumption|split; assumption]]].
    split; [apply At; reflexivity|]. split; [|split; [|reflexivity]].
    + exists g. split; [reflexivity|]. split; [exact Dg|]. cbn [kinds fields md_stdrate md_shortcode md_carrier md_emergency md_tollfree md_premium md_sms]. repeat (constructor; [eexists; split; [reflexivity|assumption]|]). constructor.
    + cbn [unused In md_fixed md_mobile md_shared md_voip md_personal md_pager md_uan md_voicemail md_noint]. intros o Ho. repeat (destruct Ho as [<-|Ho]; [reflexivity|]). destruct Ho.
  - child_step D1 F1 g Dg S1 W. child_step D2 F2 g Dg S1 W. child_step D3 F3 g Dg S1 W. child_step D4 F4 g Dg S1 W. child_step D5 F5 g Dg S1 W. child_step D6 F6 g Dg S1 W. child_step D7 F7 g Dg S1 W. child_step D8 F8 g Dg S1 W. child_step D9 F9 g Dg S1 W. child_step D10 F10 g Dg S1 W. child_step D11 F11 g Dg S1 W.
    cbn [cls]. split; [|destruct (children_fit false t g Dg Rf C7); [repeat (constructor; [assumption|]); constructor|split; [assumption|split; assumption]]].
    split; [apply At; reflexivity|]. split; [|split; [|reflexivity]].
    + exists g. split; [reflexivity|]. split; [exact Dg|]. cbn [kinds fields md_fixed md_mobile md_shared md_voip md_personal md_pager md_uan md_voicemail md_noint md_tollfree md_premium]. repeat (constructor; [eexists; split; [reflexivity|assumption]|]). constructor.
    + cbn [unused In md_stdrate md_shortcode md_carrier md_emergency md_sms]. intros o Ho. repeat (destruct Ho as [<-|Ho]; [reflexivity|]). destruct Ho.
Qed.

(** A territory with well written lengths is accepted exactly when its lengths, expressions and patterns are consistent; otherwise the build stops. *)
Theorem C88_accepted : forall short t, (forall e, In e (te_general t :: counted short t ++ kinds short t) -> written e) ->
  ((exists m, loadCountryMetadata t short false = Ret m) <-> lengths_fit short t /\ texts_fit t /\ patterns_fit short t)
  /\ (~ (lengths_fit short t /\ texts_fit t /\ patterns_fit short t) -> loadCountryMetadata t short false = Panic).
Proof.
  intros short t W. pose proof (territory_cls short t W) as H. unfold all_fit in H. destruct (loadCountryMetadata t short false) as [m|e|]; cbn [cls] in H; [|destruct H|].
  - destruct H as [_ H]. split; [split; [auto|intros _; exists m; reflexivity]|tauto].
  - split; [|reflexivity]. split; [intros (m & Q); discriminate|tauto].
Qed.
Print Assumptions C88_accepted.
(** Its descriptions say what its elements say. *)
Theorem C88_descriptions : forall short t m, (forall e, In e (te_general t :: counted short t ++ kinds short t) -> written e) -> loadCountryMetadata t short false = Ret m ->
  (exists g, md_general m = Some g /\ describes_all short t g /\ Forall2 (fun e o => exists d, o = Some d /\ describes g e d) (kinds short t) (fields short m))
  /\ (forall o, In o (unused short m) -> o = None)
  /\ md_same m = if short then None else if beq (get_d_pattern (md_mobile m)) (get_d_pattern (md_fixed m)) then Some true else None.
Proof. intros short t m W E. pose proof (territory_cls short t W) as H. rewrite E in H. cbn [cls] in H. apply H. Qed.
Print Assumptions C88_descriptions.
(** The collection lists the territories in order. *)
Theorem C88_collection : forall short doc, (forall t e, In t doc -> In e (te_general t :: counted short t ++ kinds short t) -> written e) ->
  match BuildPhoneMetadataCollection doc short with
  | Ret ms => Forall2 (faithful short) doc ms
  | Fail _ => False
  | Panic => exists t, In t doc /\ ~ (lengths_fit short t /\ texts_fit t /\ patterns_fit short t)
  end.
Proof.
  intros short doc W. unfold BuildPhoneMetadataCollection. change (cls (build_all doc short false) (Forall2 (faithful short) doc) (exists t, In t doc /\ ~ all_fit short t)).
  induction doc as [|t doc IH]; cbn [build_all]; [constructor|].
  eapply cls_bind; [apply territory_cls; intros e; apply W; left; reflexivity|intros H; exists t; split; [left; reflexivity|exact H]|]. intros m _ (Fm & _). cbn [andb].
  eapply cls_bind; [apply IH; intros t' e Ht; apply W; right; exact Ht|intros (t' & H & Q); exists t'; split; [right; exact H|exact Q]|]. intros ms _ Fs. cbn [cls]. constructor; assumption.
Qed.
Print Assumptions C88_collection.

(** ** Witnesses: a territory with local-only lengths, one with none of most kinds, and three that are refused. *)
Definition am_text (r : M meta) : list (option bytes * list Z * list Z) :=
  match r with
  | Ret m => map (fun o => match o with Some d => (d_pattern d, d_len d, d_local d) | None => (None, [], []) end) [md_general m; md_fixed m; md_mobile m; md_voip m]
  | _ => []
  end.
Lemma written_one e p ex a es l ls : e = Some {| de_pattern := p; de_lengths := Some {| le_national := a; le_local := l |}; de_example := ex |} ->
  a = spec_text es -> es <> [] -> Forall proper es -> (l = [] \/ (l = spec_text ls /\ ls <> [] /\ Forall proper ls)) -> written e.
Proof. intros -> Ea Ne P L d l' Q R. injection Q as <-. cbn in R. injection R as <-. cbn [le_national le_local]. split; [exists es; auto|]. destruct L as [L|(L & N & F)]; [left; exact L|right; exists ls; auto]. Qed.
Lemma written_none : written None.
Proof. intros d l Q. discriminate. Qed.
Lemma written_bare p ex : written (Some {| de_pattern := p; de_lengths := None; de_example := ex |}).
Proof. intros d l Q R. injection Q as <-. discriminate R. Qed.
Example C88_witness : (forall e, In e (te_general tx_2 :: counted false tx_2 ++ kinds false tx_2) -> written e)
  /\ am_text (loadCountryMetadata tx_2 false false) = [(Some (bs "[1-9]\d{7}"), [8%Z], [5; 6]%Z); (Some (bs "[1-9]\d{7}"), [], [5; 6]%Z); (Some (bs "[1-9]\d{7}"), [], [5; 6]%Z); (None, [(-1)%Z], [])].
Proof.
  split; [|vm_compute; reflexivity]. intros e H. cbn [counted kinds app In tx_2 te_general te_fixed te_mobile te_pager te_tollfree te_premium te_shared te_personal te_voip te_uan te_voicemail te_stdrate te_shortcode te_emergency te_carrier te_noint] in H.
  repeat (destruct H as [<-|H]; [first [apply written_none|apply written_bare|eapply (written_one _ _ _ _ [One 8] _ [One 5; One 6]); [reflexivity|reflexivity|discriminate|constructor; [reflexivity|constructor]|right; split; [reflexivity|split; [discriminate|constructor; [reflexivity|constructor; [reflexivity|constructor]]]]]]|]). destruct H.
Qed.
Definition with_fixed (t : terr_e) (g f noint : option desc_e) : terr_e :=
  Build_terr_e (te_id t) (te_main t) (te_leading t) (te_cc t) (te_nprefix t) (te_iprefix t) (te_pref_iprefix t) (te_npfr t) (te_mnp t) (te_np_parse t) (te_np_transform t) (te_extn t) (te_npopt t) (te_ccfr t) (te_formats t)
    g noint f (te_mobile t) (te_pager t) (te_tollfree t) (te_premium t) (te_shared t) (te_personal t) (te_voip t) (te_uan t) (te_voicemail t) (te_stdrate t) (te_shortcode t) (te_emergency t) (te_carrier t) (te_sms t).
Definition elem (p a l : bytes) : option desc_e := Some {| de_pattern := p; de_lengths := Some {| le_national := a; le_local := l |}; de_example := [] |}.
Example C88_refused_witness :
  loadCountryMetadata (with_fixed tx_2 (te_general tx_2) (elem (bs "\d{8}") (bs "8") (bs "6,8")) None) false false = Panic
  /\ loadCountryMetadata (with_fixed tx_2 (te_general tx_2) (te_fixed tx_2) (elem (bs "\d{9}") (bs "9") (bs ""))) false false = Panic
  /\ loadCountryMetadata (with_fixed tx_2 (elem (bs "\d{8}") (bs "8") (bs "")) (te_fixed tx_2) None) false false = Panic
  /\ loadCountryMetadata (with_fixed tx_2 (te_general tx_2) (elem (bs "(\d{8}") (bs "8") (bs "")) None) false false = Panic.
Proof. split; [|split; [|split]]; vm_compute; reflexivity. Qed.

(** * Attributes and formats, for every territory that is accepted, whatever its lengths and whatever the kind of metadata. *)
Lemma bind_ret_inv {A B} (m : M A) (f : A -> M B) b : bind m f = Ret b -> exists a, m = Ret a /\ f a = Ret b.
Proof. destruct m; cbn [bind]; intros H; try discriminate. eauto. Qed.
Lemma cls_ret {A} (m : M A) (P : A -> Prop) Q a : cls m P Q -> m = Ret a -> P a.
Proof. intros H ->. exact H. Qed.
Theorem C89_territory : forall t short alt m, loadCountryMetadata t short alt = Ret m -> attributes t m /\ texts_fit t.
Proof.
  intros t short alt m E. unfold loadCountryMetadata in E.
  apply bind_ret_inv in E as (leading & E1 & E). apply (cls_ret _ _ _ _ (opt_re_cls _ _)) in E1 as (-> & C1).
  apply bind_ret_inv in E as (ipre & E2 & E). apply (cls_ret _ _ _ _ (opt_re_cls _ _)) in E2 as (-> & C2).
  apply bind_ret_inv in E as (npp & E3 & E). apply (cls_ret _ _ _ _ (opt_re_cls _ _)) in E3 as (Enpp & C3). cbv iota in C1, C2, C3, Enpp.
  apply bind_ret_inv in E as (npt & E4 & E). apply (cls_ret _ _ _ _ (transform_cls t)) in E4 as (-> & C4). cbv zeta in E.
  apply bind_ret_inv in E as (fs & E5 & E). apply (cls_ret _ _ _ _ (available_cls t)) in E5 as (A1 & A2 & C5 & C6).
  split; [|split; assumption].
  assert (At : forall m, md_id m = sp (te_id t) -> md_cc m = (if (te_cc t =? 0)%Z then None else Some (te_cc t)) -> md_leading m = given (te_leading t) -> md_iprefix m = given (te_iprefix t) -> md_pref_iprefix m = sp (te_pref_iprefix t) -> md_nprefix m = sp (te_nprefix t) -> md_extn m = sp (te_extn t)
    -> md_np_parse m = (match npp with None => sp (te_nprefix t) | p => p end) -> md_np_transform m = (match te_np_parse t with [] => None | _ => given (te_np_transform t) end) -> md_main m = (if te_main t then Some true else None) -> md_mnp m = (if te_mnp t then Some true else None) -> md_nf m = fst fs -> md_inf m = snd fs -> attributes t m).
  { intros m'. rewrite !sp_given. intros. split; try assumption.
    - rewrite H6, Enpp. destruct (squeeze (te_np_parse t)); reflexivity.
    - rewrite H10. exact A1.
    - rewrite H11, A2, H10. reflexivity. }
  destruct alt.
  - apply ret_inj in E. subst m. apply At; reflexivity.
  - apply bind_ret_inv in E as (g0 & _ & E). apply bind_ret_inv in E as (g & _ & E). destruct short; cbn [negb] in E.
    + do 7 apply bind_ret_inv in E as (? & _ & E). apply ret_inj in E. subst m. apply At; reflexivity.
    + do 11 apply bind_ret_inv in E as (? & _ & E). apply ret_inj in E. subst m. apply At; reflexivity.
Qed.
Print Assumptions C89_territory.
(** Alternate formats: accepted exactly when the expressions are; no descriptions; an identifier is always present. *)
Definition no_descriptions (m : meta) : Prop := md_general m = None /\ (forall o, In o (fields false m ++ unused false m) -> o = None) /\ md_same m = None.
Definition alternate_of (t : terr_e) (m : meta) : Prop := no_descriptions m /\ md_id m = Some (te_id t) /\ exists m', attributes t m' /\ m = set_id m' (Some (te_id t)).
Theorem C89_alternate : forall doc, match BuildAlternateFormatsMetadataCollection doc with
  | Ret ms => Forall2 alternate_of doc ms /\ Forall texts_fit doc
  | Fail _ => False
  | Panic => ~ Forall texts_fit doc
  end.
Proof.
  intros doc. unfold BuildAlternateFormatsMetadataCollection. change (cls (build_all doc false true) (fun ms => Forall2 alternate_of doc ms /\ Forall texts_fit doc) (~ Forall texts_fit doc)).
  induction doc as [|t doc IH]; cbn [build_all]; [split; constructor|].
  assert (L : cls (loadCountryMetadata t false true) (fun m => attributes t m /\ texts_fit t /\ no_descriptions m) (~ texts_fit t)).
  { destruct (loadCountryMetadata t false true) as [m|e|] eqn:E; cbn [cls].
    - destruct (C89_territory _ _ _ _ E) as [A T]. split; [exact A|]. split; [exact T|]. unfold loadCountryMetadata in E. do 5 apply bind_ret_inv in E as (? & _ & E). cbv zeta iota in E. apply ret_inj in E. subst m. split; [reflexivity|]. split; [|reflexivity].
      intros o Ho. cbn [fields unused app In md_fixed md_mobile md_shared md_voip md_personal md_pager md_uan md_voicemail md_noint md_tollfree md_premium md_stdrate md_shortcode md_carrier md_emergency md_sms] in Ho. repeat (destruct Ho as [<-|Ho]; [reflexivity|]). destruct Ho.
    - assert (K : cls (loadCountryMetadata t false true) (fun _ => True) (~ texts_fit t)); [|rewrite E in K; exact K]. unfold loadCountryMetadata.
      do 3 (eapply cls_bind; [apply opt_re_cls|intros H F; apply H, F|]; intros ? _ _). eapply cls_bind; [apply transform_cls|intros H F; apply H, F|]. intros ? _ _. cbv zeta. eapply cls_bind; [apply available_cls|intros H F; apply H, F|]. intros ? _ _. exact I.
    - assert (K : cls (loadCountryMetadata t false true) (fun _ => True) (~ texts_fit t)); [|rewrite E in K; exact K]. unfold loadCountryMetadata.
      do 3 (eapply cls_bind; [apply opt_re_cls|intros H F; apply H, F|]; intros ? _ _). eapply cls_bind; [apply transform_cls|intros H F; apply H, F|]. intros ? _ _. cbv zeta. eapply cls_bind; [apply available_cls|intros H F; apply H, F|]. intros ? _ _. exact I. }
  eapply cls_bind; [exact L|intros H F; inversion F; subst; auto|]. intros m _ (A & T & Nd). cbn [andb].
  eapply cls_bind; [exact IH|intros H F; inversion F; subst; auto|]. intros ms _ (Fs & Ts). cbn [cls]. split; [|constructor; assumption]. constructor; [|exact Fs].
  pose proof (at_id _ _ A) as Ei. destruct (te_id t) as [|c r] eqn:Et; cbn [given] in Ei; rewrite Ei; cbn [is_some negb].
  - split; [exact Nd|]. split; [rewrite Et; reflexivity|]. exists m. rewrite Et. split; [exact A|reflexivity].
  - split; [exact Nd|]. split; [rewrite Et; exact Ei|]. exists m. rewrite Et. split; [exact A|]. destruct m. cbn in Ei |- *. subst. reflexivity.
Qed.
Print Assumptions C89_alternate.
Example C89_witness : match loadCountryMetadata tx_4 false false with
  | Ret m => map (fun f => (get_bytes (nf_npfr f), get_bytes (nf_dccfr f))) (md_nf m) = [(bs "0$1", []); (bs "0$1", []); (bs "0$1", []); (bs "0$1", bs "0$1 $CC"); (bs "0$1", [])]
             /\ map (fun f => (get_bytes (nf_format f), get_bytes (nf_npfr f))) (md_inf m) = [(bs "$1 $2-$3", bs "0$1"); (bs "$1 $2-$3", bs "0$1"); (bs "$1 $2 $3 $4", []); (bs "$1 $2 $3 $4", []); (bs "$1-$2-$3", bs "0$1")]
             /\ md_np_transform m = Some (bs "9$1")
  | _ => False end.
Proof. vm_compute. split; [reflexivity|split; reflexivity]. Qed.
Example C89_alternate_witness : match BuildAlternateFormatsMetadataCollection [Build_terr_e [] false [] 1 [] [] [] [] false [] [] [] false [] (te_formats tx_4) None None None None None None None None None None None None None None None None None] with
  | Ret [m] => md_id m = Some [] /\ length (md_nf m) = 5%nat /\ md_general m = None | _ => False end.
Proof. vm_compute. split; [reflexivity|split; reflexivity]. Qed.
