(** The as-you-type formatter while a number is typed as it is dialled from another country. *)
From Verif Require Import Base BaseFacts UnicodeTables Utf8 Utf8Facts Regex RegexSpec RegexFacts RegexGrow NormalizeSpec NormalizeFacts Consts Types Normalize Validate Format Parse
  NumberSpec NumberFacts MetaSpec ValidateSpec ValidateFacts Container FormatSpec TextFacts LangFacts FormatFacts FormatMore DerivFacts RoundTripFacts RuleSpec RuleFacts RuleMore
  AsYouType AytfSpec TableFacts AytfFacts AytfMore AytfDigits NationalFacts ShowFacts ShowMore ShowRun LenientFacts NatSpec NatFacts IddSpec.
Local Opaque compile re_find re_replace_all safe.

(** The conditions on the rules of an entry for numbers typed with an international prefix. *)
Definition abroad_clear (m : meta) : bool := let l := rules m INTERNATIONAL in rules_clear l && roomy l && forallb (fun g => negb (has_len g 3)) l.

Section Abroad.
Variables (C : container) (region : bytes) (cc : Z) (m mr : meta) (I0 s0 : bytes) (f : nfmt) (pre post : list nfmt) (x0 : re).
Hypothesis (W : wf_container C) (PF : prefix_free (map fst (c_cc2region C))) (V : hasValidCountryCallingCode C cc = true) (Mm : main_meta C cc = Some m) (Mo : aytf_meta_okb (Some m) = true).
Let l := rules m INTERNATIONAL.
Hypothesis (Nc : abroad_clear m = true) (DI : all_digits I0 = true) (NI : I0 <> []) (D : all_digits s0 = true) (L3 : (3 <= length s0)%nat) (L17 : (length s0 <= 17)%nat).
Hypothesis (El : l = pre ++ f :: post) (Ap : applies f s0) (Np : forall g, In g pre -> ~ applies g s0) (Cx : compile (get_pattern f) = Some x0).
Let DD := itoa cc ++ s0.
Let lc := length (itoa cc).
Let li := length I0.
Let w := I0 ++ DD.
Hypothesis (Ar : aytf_metadata C region = Some mr) (Px : abroad_of mr (firstn 3 w) = I0).
Let P := I0 ++ 32 :: itoa cc ++ [32].

Definition home_text : bytes := I0 ++ 32 :: itoa cc ++ 32 :: re_replace_all x0 s0 (get_format f).
Definition cand (k : nat) (fs : list nfmt) : Prop := exists a b j, fs = a ++ f :: b /\ incl a pre /\ incl b l /\ (3 <= j <= k)%nat /\ (forall g, In g fs -> narrowed s0 j g) /\
  (forall j', (j < j' <= k)%nat -> exists h, In h fs /\ has_len h j' = true).
Record home (k : nat) (s : aytf) : Prop := {
  u_nn : f_nn s = firstn k s0; u_prefix : f_prefix s = P; u_plain : f_plain s = I0 ++ itoa cc ++ firstn k s0; u_meta : f_meta s = Some m; u_complete : f_complete s = true;
  u_ndd : f_ndd s = []; u_expect : f_expect s = false; u_user : f_userfmt s = false }.
Lemma set_up_same k s s' : home k s -> same s s' -> home k s'.
Proof. intros [A1 A2 A3 A4 A5 A6 A7 A8] ((K1 & K2 & K3 & K4 & K5 & K6) & B1 & B2 & B3 & B4 & B5 & B6). constructor; congruence. Qed.
Lemma abroad_parts : rules_clear l = true /\ roomy l = true /\ (forall g, In g l -> has_len g 3 = false).
Proof. pose proof Nc as H. unfold abroad_clear in H. cbv zeta in H. fold l in H. rewrite !andb_true_iff in H. destruct H as ((N1 & N2) & N3). split; [exact N1|]. split; [exact N2|]. rewrite forallb_forall in N3. intros g Hg. apply negb_true_iff. exact (N3 g Hg). Qed.
Lemma Cl : rules_clear l = true. Proof. apply abroad_parts. Qed.
Lemma rule_in g : In g l -> rule_clear g = true /\ survives g = true.
Proof. pose proof Cl as Cl'. unfold rules_clear in Cl'. rewrite !andb_true_iff in Cl'. destruct Cl' as ((C1 & C2) & _). rewrite forallb_forall in C1, C2. auto. Qed.
Lemma f_in : In f l. Proof. rewrite El. apply in_or_app. right. left. reflexivity. Qed.
Lemma pre_in : incl pre l. Proof. rewrite El. intros g Hg. apply in_or_app. left. exact Hg. Qed.
Lemma cand_incl k fs : cand k fs -> incl fs l.
Proof. intros (a & b & j & -> & Ia & Ib & _) g Hg. apply in_app_or in Hg as [Hg|[<-|Hg]]; [apply pre_in, Ia, Hg|apply f_in|apply Ib, Hg]. Qed.
Lemma fmt_ok_in g : In g l -> fmt_okb g = true.
Proof.
  intros I. destruct (rule_in g I) as [Rc _]. apply clear_parts in Rc as (Eg & _). unfold aytf_meta_okb in Mo. apply andb_true_iff in Mo as [_ H]. rewrite forallb_forall in H. specialize (H g). rewrite Eg in H. cbn [negb orb] in H. apply H. apply in_or_app.
  unfold l, rules in I. destruct (md_inf m) eqn:Ei; [left; exact I|right; cbn [mget]; rewrite Ei; exact I].
Qed.
Lemma f_lang : lang (patt f) s0 /\ lang (front (last_level f)) s0.
Proof. apply (applies_lang f s0); [apply rule_in, f_in|exact D|exact Ap]. Qed.
Lemma f_narrowed j : (3 <= j <= length s0)%nat -> narrowed s0 j f.
Proof. intros J. destruct (rule_in f f_in) as [A B]. apply survive; auto. Qed.
(** When the last digit comes, no rule before f matches the whole number. *)
Lemma cand_first k fs : cand k fs -> (length s0 <= S k)%nat -> (k <= length s0)%nat -> exists a b, fs = a ++ f :: b /\ forall g, In g a -> ~ lang (patt g) s0.
Proof.
  intros Ca K1 K2. pose proof (cand_incl _ _ Ca) as Inc. destruct Ca as (a & b & j & E & Ia & Ib & J & Nar & Len). exists a, b. split; [exact E|]. intros g Hg Lg. apply (Np g (Ia g Hg)).
  assert (Gi : In g fs) by (rewrite E; apply in_or_app; left; exact Hg).
  pose proof Cl as Cl0. apply (discard l g f s0 j fs); auto; [|apply f_in|lia|].
  - pose proof Cl as Cl'. unfold rules_clear in Cl'. rewrite !andb_true_iff in Cl'. destruct Cl' as (_ & C3). exact (pairs_in l l C3 pre f post g El (Ia g Hg)).
  - intros j' J'. apply Len. lia.
Qed.
Lemma shown_full s o : f_prefix s = P -> appendNationalNumber s o = P ++ o.
Proof.
  intros E. unfold appendNationalNumber. rewrite E. replace (last P 0) with 32; [|symmetry; unfold P; rewrite app_comm_cons, app_assoc; apply last_last]. change (32 =? separatorBeforeNationalNumber) with true. cbn [negb]. rewrite !andb_false_r. reflexivity.
Qed.
Lemma cc_dig : all_digits (itoa cc) = true.
Proof. rewrite itoa_pos by (pose proof (valid_cc_pos _ _ W V); lia). apply dec_digits. Qed.
Lemma P_strip o : strip (P ++ o) = I0 ++ itoa cc ++ strip o.
Proof.
  unfold P. rewrite !filter_app. change (strip (32 :: itoa cc ++ [32])) with (strip (itoa cc ++ [32])). rewrite filter_app. change (strip [32]) with (@nil N). rewrite (digits_strip _ DI), (digits_strip _ cc_dig), app_nil_r, app_assoc. reflexivity.
Qed.
Lemma P_text o : P ++ o = I0 ++ 32 :: itoa cc ++ 32 :: o.
Proof. unfold P. rewrite <- app_assoc. cbn [app]. rewrite <- app_assoc. reflexivity. Qed.
Lemma accrued_show k : (k <= length s0)%nat -> forall fs s, home k s -> incl fs l -> (k = length s0 -> exists a b, fs = a ++ f :: b /\ forall g, In g a -> ~ lang (patt g) s0) ->
  holds (format_accrued_loop s fs) (fun r => (snd r <> [] -> exists h, In h fs /\ has_len h k = true) /\ (k = length s0 -> snd r = home_text)).
Proof.
  intros K. assert (Dk : all_digits (firstn k s0) = true) by (apply all_digits_firstn; exact D). assert (Lk : length (firstn k s0) = k) by (rewrite firstn_length; lia).
  induction fs as [|h fs IH]; intros s U Inc F; cbn [format_accrued_loop].
  { apply holds_ret. cbn [snd]. split; [congruence|]. intros E. destruct (F E) as (a & b & X & _). destruct a; discriminate. }
  destruct (rule_in h (Inc h (or_introl eq_refl))) as [Rc _]. pose proof (clear_parts _ Rc) as (_ & Fr & An & Co & _ & _ & Pr & Kp). pose proof Fr as (x & y & Hx & Hy & Ey). unfold must_compile. rewrite Hy. cbn [or_panic bind].
  assert (Mt : re_match y (f_nn s) = true <-> lang (patt h) (firstn k s0)). { rewrite (u_nn _ _ U), (framed_match _ y _ Fr Hy), (matches_all_lang _ _ An Co Dk). reflexivity. }
  assert (REC : forall s', home k s' -> (k = length s0 -> exists a b, fs = a ++ f :: b /\ forall g, In g a -> ~ lang (patt g) s0) ->
    holds (format_accrued_loop s' fs) (fun r => (snd r <> [] -> exists h', In h' (h :: fs) /\ has_len h' k = true) /\ (k = length s0 -> snd r = home_text))).
  { intros s' U' F'. eapply holds_imp; [apply IH; [exact U'|intros g Hg; apply Inc; right; exact Hg|exact F']|]. intros r [R1 R2]. split; [|exact R2]. intros Hr. destruct (R1 Hr) as (h' & I' & H'). exists h'. split; [right; exact I'|exact H']. }
  destruct (re_match y (f_nn s)) eqn:Em.
  - apply proj1 in Mt. specialize (Mt eq_refl). set (s1 := s_space s _). assert (U1 : home k s1) by (eapply set_up_same; [exact U|sm]).
    change (f_nn s1) with (f_nn s). rewrite (shown_full s1) by exact (u_prefix _ _ U1). change (f_plain s1) with (f_plain s). rewrite (u_nn _ _ U).
    rewrite (u_plain _ _ U), NormalizeDiallableCharsOnly_spec.
    assert (Nf : k = length s0 -> h = f /\ re_replace_all y (firstn k s0) (get_format h) = re_replace_all x0 s0 (get_format f) /\ strip (P ++ re_replace_all y (firstn k s0) (get_format h)) = I0 ++ itoa cc ++ firstn k s0).
    { intros Ek. destruct (F Ek) as (a & b & Ea & Ha). rewrite Ek, firstn_all in *. destruct a as [|g a].
      - cbn [app] in Ea. injection Ea as -> _. split; [reflexivity|]. rewrite Cx in Hx. injection Hx as <-. assert (Ep : re_replace_all y s0 (get_format f) = re_replace_all x0 s0 (get_format f)) by (eapply anchored_prints; eauto). rewrite Ep. split; [reflexivity|].
        pose proof (rule_keeps_ok joint f (get_format f) x0 s0 Kp Cx) as Wo. rewrite P_strip. do 2 f_equal. apply woven_strip; assumption.
      - injection Ea as <- _. destruct (Ha h (or_introl eq_refl) Mt). }
    destruct (beq _ _) eqn:Eb.
    + apply holds_ret. cbn [snd]. split.
      * intros _. exists h. split; [left; reflexivity|]. rewrite <- Lk at 1. apply (blind_same h); auto.
      * intros Ek. destruct (Nf Ek) as (-> & Ep & _). rewrite Ep. apply P_text.
    + apply REC; [exact U1|]. intros Ek. destruct (Nf Ek) as (_ & _ & Es). rewrite Es, beq_refl in Eb. discriminate.
  - apply REC; [exact U|]. intros Ek. destruct (F Ek) as (a & b & Ea & Ha). destruct a as [|g a].
    + injection Ea as -> _. exfalso. assert (X : false = true); [|discriminate]. apply Mt. rewrite Ek, firstn_all. apply f_lang.
    + injection Ea as <- ->. exists a, b. split; [reflexivity|]. intros g Hg. apply Ha. right. exact Hg.
Qed.

Lemma narrow_cand k fs a b : (3 <= k <= length s0)%nat -> fs = a ++ f :: b -> incl a pre -> incl b l -> cand k (filter (kept_at s0 k) fs).
Proof.
  intros K -> Ia Ib. exists (filter (kept_at s0 k) a), (filter (kept_at s0 k) b), k. assert (Kf : kept_at s0 k f = true) by (apply kept_narrowed; apply f_narrowed; lia).
  split; [rewrite filter_app; cbn [filter]; rewrite Kf; reflexivity|]. split; [intros g Hg; apply filter_In in Hg; apply Ia; tauto|]. split; [intros g Hg; apply filter_In in Hg; apply Ib; tauto|]. split; [lia|].
  split; [intros g Hg; apply filter_In in Hg; apply kept_narrowed; tauto|]. intros j' J'. lia.
Qed.
Lemma f_room k : (k < length s0)%nat -> (k <= room f)%nat.
Proof. intros K. pose proof (clear_parts _ (proj1 (rule_in f f_in))) as (_ & _ & _ & _ & _ & (n & Mx & Ro) & _). pose proof (maxlen_ok _ _ (proj1 f_lang) _ Mx). lia. Qed.
Lemma template_cand k fs s : (3 <= k < length s0)%nat -> home k s -> cand k (filter (kept_at s0 k) fs) ->
  holds (maybe_template_loop s (filter (kept_at s0 k) fs)) (fun r => cand k (f_formats (fst r))).
Proof.
  intros K U (a & b & j & E & Ia & Ib & _). rewrite E. eapply holds_imp; [apply template_show|].
  - apply fmt_ok_in, f_in.
  - rewrite (u_nn _ _ U), firstn_length. pose proof (f_room k ltac:(lia)). lia.
  - intros r (a' & Er & I'). exists a', b, k. split; [exact Er|]. split; [intros g Hg; apply Ia, I', Hg|]. split; [exact Ib|]. split; [lia|]. split; [|intros j' J'; lia].
    intros g Hg. rewrite Er in Hg. assert (X : In g (filter (kept_at s0 k) fs)) by (rewrite E; apply in_app_or in Hg as [Hg|Hg]; apply in_or_app; [left; apply I', Hg|right; exact Hg]). apply filter_In in X. apply kept_narrowed. tauto.
Qed.

(** * The template has a place for the next digit *)
Definition place (k : nat) (fs : list nfmt) (s : aytf) : Prop := roomy fs = true /\ ((f_pattern s = [] /\ AytfDigits.dead s /\ length fs <> 1%nat) \/
  exists g, In g l /\ f_pattern s = get_pattern g /\ after2 g fs = true /\ live (firstn k s0) (room g - k) s /\ (k <= room g)%nat /\ (length fs = 1%nat -> get_pattern g = get_pattern f)).
Lemma home_nonempty : home_text <> [].
Proof.
  intros E.   unfold home_text in E. apply app_eq_nil in E as [_ E]. discriminate.
Qed.
Definition filled (r : aytf * bool) : aytf := if snd r then fst (inputAccruedNationalNumber (fst r)) else fst r.
Lemma place_home k fs a b s : (3 <= k < length s0)%nat -> home k s -> f_able s = true -> fs = a ++ f :: b -> incl fs l -> roomy fs = true ->
  (f_pattern s = [] \/ exists g, In g l /\ f_pattern s = get_pattern g /\ after2 g fs = true /\ live (firstn k s0) (room g - k) s /\ (k <= room g)%nat) ->
  holds (maybe_template_loop s fs) (fun r => f_able (filled r) = true /\ place k (f_formats (filled r)) (filled r)).
Proof.
  intros K U A E Inc Ro H. assert (Ln : length (f_nn s) = k) by (rewrite (u_nn _ _ U), firstn_length; lia). assert (Dn : all_digits (f_nn s) = true) by (rewrite (u_nn _ _ U); apply all_digits_firstn; exact D).
  assert (Fk : fmts_ok fs) by (apply Forall_forall; intros g Hg; apply fmt_ok_in, Inc, Hg). pose proof (f_room k ltac:(lia)) as Rf.
  assert (MD : forall r, made s a f b r -> same s (fst r) -> f_able (filled r) = true /\ place k (f_formats (filled r)) (filled r)).
  { intros [s' cr] (R1 & R2 & a0 & a' & h & t & Ea & Ef & Eh & Ep & Lv & Rh) Sm. cbn [fst snd] in *. unfold filled. cbn [fst snd]. rewrite R1. assert (En : f_nn s' = f_nn s) by apply Sm.
    destruct (accrue_room (room h) s') as (G1 & G2 & G3); [exact Lv|rewrite En; exact Dn|rewrite En; lia|congruence|]. rewrite accrue_formats, Ef, Eh. split; [exact G3|].
    assert (Rs : roomy (h :: t) = true) by (apply (roomy_suffix a0); rewrite <- Eh, app_assoc, <- Ea, <- E; exact Ro). split; [exact Rs|]. right. exists h.
    split; [apply Inc; rewrite E, Ea, <- app_assoc, Eh; apply in_or_app; right; left; reflexivity|]. split; [congruence|]. split; [apply roomy_head; exact Rs|]. rewrite En, Ln, (u_nn _ _ U) in G1. split; [exact G1|]. split; [lia|].
    intros L1. destruct t; [|discriminate]. destruct a' as [|x [|y a']]; try discriminate. injection Eh as <- _. reflexivity. }
  pose proof (template_keeps fs s) as TK. destruct H as [Ep|(g & Gi & Ep & A2 & Lv & Rg)].
  - pose proof (loop_fresh f b a s) as Q. rewrite <- E in Q. specialize (Q Fk ltac:(lia)). assert (Q' : forall h, In h fs -> beq (f_pattern s) (get_pattern h) = false).
    { intros h Hh. rewrite Ep. unfold fmts_ok in Fk. rewrite Forall_forall in Fk. specialize (Fk h Hh). apply fmt_ok_parts in Fk as (Fh & _). destruct (get_pattern h); [congruence|reflexivity]. }
    specialize (Q Q'). destruct (maybe_template_loop s fs) as [r| |]; cbn [holds] in *; auto. apply MD; [exact Q|apply TK].
  - pose proof (loop_room f b a s g) as Q. rewrite <- E in Q. specialize (Q Fk ltac:(lia) Ep ltac:(lia) A2). destruct (maybe_template_loop s fs) as [r| |]; cbn [holds] in *; auto. destruct Q as [Q|(R1 & R2 & (S1 & S2 & S3) & h & t & Ef & Eh & Eg)]; [apply MD; [exact Q|apply TK]|].
    destruct r as [s' cr]. cbn [fst snd] in *. subst cr. unfold filled. cbn [fst snd]. rewrite Ef. split; [congruence|]. split; [exact Ro|]. right. exists g. split; [exact Gi|]. split; [congruence|]. split; [exact A2|]. split; [eapply live_same; eassumption|]. split; [exact Rg|].
    intros L1. rewrite Eg. rewrite Eh in E, L1. destruct t; [|discriminate]. destruct a as [|x [|y a]]; try discriminate. injection E as <- _. reflexivity.
Qed.
Definition fine (k : nat) (s : aytf) : Prop := home k s /\ f_able s = true /\
  ((k < 3)%nat /\ f_formats s = [] /\ f_pattern s = [] /\ AytfDigits.dead s \/ (3 <= k)%nat /\ cand k (f_formats s) /\ place k (f_formats s) s).
Lemma relevant_abroad s : f_ndd s = [] -> f_complete s = true -> filter (format_relevant s) l = l.
Proof.
  intros E1 E2. assert (H : forall g, In g l -> format_relevant s g = true).
  { intros g Hg. unfold format_relevant. rewrite E1, E2. cbn [is_empty negb andb]. pose proof (clear_parts _ (proj1 (rule_in g Hg))) as (Eg & _). exact Eg. }
  clear Nc El Ap Np Cx. induction l as [|g t IH]; [reflexivity|]. cbn [filter]. rewrite (H g (or_introl eq_refl)). f_equal. apply IH. intros h Hh. apply H. right. exact Hh.
Qed.
Lemma choose_home k s : (k <= length s0)%nat -> (k <= 3)%nat -> home k s -> f_able s = true -> f_formats s = [] -> f_pattern s = [] -> AytfDigits.dead s ->
  holds (attemptToChooseFormattingPattern s) (fun r => ((k < length s0)%nat -> fine k (fst r)) /\ (k = length s0 -> snd r = home_text)).
Proof.
  intros K K3 U A E Ep De. unfold attemptToChooseFormattingPattern. assert (Ln : len (f_nn s) = k) by (rewrite (u_nn _ _ U); unfold len; rewrite firstn_length; lia). rewrite Ln. destruct (Nat.leb_spec minLeadingDigitsLength k) as [Q|Q]; unfold minLeadingDigitsLength in Q.
  2: { apply holds_ret. cbn [fst snd]. split; [|lia]. intros _. split; [exact U|]. split; [exact A|]. left. auto. }
  apply holds_bind. unfold getAvailableFormats. cbv zeta. rewrite (u_complete _ _ U), (u_ndd _ _ U), (u_meta _ _ U), E. cbn [mget is_empty app andb].
  assert (Er : (if negb match md_inf m with [] => true | _ => false end then md_inf m else md_nf m) = l) by (unfold l, rules; destruct (md_inf m); reflexivity). rewrite Er, (relevant_abroad s (u_ndd _ _ U) (u_complete _ _ U)).
  unfold narrowDownPossibleFormats. apply holds_bind. change (f_formats (s_formats s l)) with l. rewrite (u_nn _ _ U). eapply holds_imp; [apply narrow_show; [exact D|lia|intros g Hg; apply rule_in, Hg]|]. intros fs ->. apply holds_ret.
  set (fs := filter (kept_at s0 k) l). set (s1 := s_formats (s_formats s l) fs). assert (Ca : cand k fs). { apply (narrow_cand k l pre post); [lia|exact El|apply incl_refl|]. rewrite El. intros g Hg. apply in_or_app. right. right. exact Hg. }
  assert (U1 : home k s1) by (eapply set_up_same; [exact U|sm]). apply holds_bind. unfold attemptToFormatAccruedDigits. change (f_formats s1) with fs.
  assert (Fst : k = length s0 -> exists a b, fs = a ++ f :: b /\ forall g, In g a -> ~ lang (patt g) s0) by (intros Ek; apply (cand_first k fs Ca); lia). pose proof (cand_incl _ _ Ca) as Inc.
  pose proof (accrued_show k K fs s1 U1 Inc Fst) as A1. pose proof (accrued_keeps fs s1) as A2. pose proof (accrued_formats fs s1) as A3. destruct (format_accrued_loop s1 fs) as [[s2 o]| |]; cbn [holds] in *; auto. cbn [fst snd] in *.
  destruct A1 as [A1 A1']. destruct A2 as (A2 & A2' & _). destruct A3 as (A3 & A4 & A5 & A6). assert (U2 : home k s2) by (eapply set_up_same; eassumption). destruct o as [|c o].
  - cbn [is_empty negb]. destruct (Nat.eq_dec k (length s0)) as [Ek|Nk]; [specialize (A1' Ek); elim (home_nonempty (eq_sym A1'))|]. apply holds_bind. unfold maybeCreateNewTemplate. rewrite A3. change (f_formats s1) with fs.
    pose proof (template_cand k l s2 ltac:(lia) U2 Ca) as T1. fold fs in T1. destruct Ca as (a & b & j & Ea & _). pose proof (place_home k fs a b s2 ltac:(lia) U2 ltac:(exact (eq_trans A2' A)) Ea Inc (roomy_filter _ _ (proj1 (proj2 abroad_parts))) (or_introl ltac:(exact (eq_trans A6 Ep)))) as T3.
    pose proof (template_keeps fs s2) as T2. destruct (maybe_template_loop s2 fs) as [[s3 cr]| |]; cbn [holds] in *; auto. cbn [fst snd] in *. destruct T2 as (T2 & _ & _). unfold filled in T3. cbn [fst snd] in T3. destruct T3 as [T3 T4].
    assert (U3 : home k s3) by (eapply set_up_same; eassumption). destruct cr.
    + pose proof (accrue_keeps s3) as [K4 _]. pose proof (accrue_formats s3) as F4. destruct (inputAccruedNationalNumber s3) as [s4 o4]. cbn [fst snd] in *. apply holds_ret. cbn [fst snd]. split; [|lia]. intros _. split; [eapply set_up_same; eassumption|]. split; [exact T3|]. right. split; [lia|]. split; [rewrite F4; exact T1|exact T4].
    + apply holds_ret. cbn [fst snd]. split; [|lia]. intros _. split; [exact U3|]. split; [exact T3|]. right. auto.
  - cbn [is_empty negb]. apply holds_ret. cbn [fst snd]. split; [|intros Ek; apply A1'; exact Ek]. intros Lt. destruct A1 as (h & Hh & Hl); [discriminate|]. replace k with 3%nat in Hl by lia. rewrite (proj2 (proj2 abroad_parts) h) in Hl; [discriminate|]. apply Inc. exact Hh.
Qed.
Lemma default_home k s c : (k < length s0)%nat -> home (S k) s -> f_able s = true -> is_digit c = true -> firstn (S k) s0 = firstn k s0 ++ [c] ->
  ((k < 3)%nat /\ f_formats s = [] /\ f_pattern s = [] /\ AytfDigits.dead s \/ (3 <= k)%nat /\ cand k (f_formats s) /\ place k (f_formats s) s) ->
  holds (input_default C s c) (fun r => ((S k < length s0)%nat -> fine (S k) (fst r)) /\ (S k = length s0 -> snd r = home_text)).
Proof.
  intros K U A Dc Fc H. unfold input_default. rewrite (u_expect _ _ U). destruct H as [(K3 & F & Ep & De)|(K3 & Ca & Pl)].
  { rewrite F. apply choose_home; auto. }
  destruct (f_formats s) as [|f0 l0] eqn:F. { destruct Ca as (a & b & j & Ea & _). destruct a; discriminate. } rewrite <- F in *.
  (* one more digit in the template *)
  assert (HP : (S k < length s0)%nat -> f_able (fst (inputDigitHelper s c)) = true /\ roomy (f_formats s) = true /\ ((f_pattern (fst (inputDigitHelper s c)) = [] /\ AytfDigits.dead (fst (inputDigitHelper s c)) /\ length (f_formats s) <> 1%nat) \/
    exists g, In g l /\ f_pattern (fst (inputDigitHelper s c)) = get_pattern g /\ after2 g (f_formats s) = true /\ live (firstn (S k) s0) (room g - S k) (fst (inputDigitHelper s c)) /\ (S k <= room g)%nat /\ (length (f_formats s) = 1%nat -> get_pattern g = get_pattern f))).
  { intros Lt. destruct Pl as (Rm & [(Ep & De & N1)|(g & Gi & Ep & A2 & Lv & Rg & G1)]).
    - destruct (helper_dead s c De) as [H1 H2]. rewrite (helper_able s c N1). split; [exact A|]. split; [exact Rm|]. left. auto.
    - destruct (Nat.eq_dec k (room g)) as [Er|Nr].
      + assert (N1 : length (f_formats s) <> 1%nat). { intros L1. specialize (G1 L1). apply room_pattern in G1. pose proof (f_room (S k) Lt). lia. }
        rewrite Er, Nat.sub_diag in Lv. apply live_dead in Lv. destruct (helper_dead s c Lv) as [H1 H2]. rewrite (helper_able s c N1). split; [exact A|]. split; [exact Rm|]. left. auto.
      + replace (room g - k)%nat with (S (room g - S k)) in Lv by lia. destruct (helper_live _ _ s c Lv Dc) as (H1 & _ & H3 & H4). rewrite <- Fc in H1. split; [congruence|]. split; [exact Rm|]. right. exists g. split; [exact Gi|]. split; [congruence|]. split; [exact A2|]. split; [exact H1|]. split; [lia|exact G1]. }
  pose proof (helper_keeps s c) as K1. pose proof (helper_formats s c) as F1. destruct (inputDigitHelper s c) as [s1 temp]. cbn [fst] in *.
  assert (U1 : home (S k) s1) by (eapply set_up_same; eassumption). apply holds_bind. unfold attemptToFormatAccruedDigits. rewrite F1. clear F. set (fs := f_formats s) in *. clearbody fs.
  assert (Fst : S k = length s0 -> exists a b, fs = a ++ f :: b /\ forall g, In g a -> ~ lang (patt g) s0) by (intros Ek; apply (cand_first k fs Ca); lia). pose proof (cand_incl _ _ Ca) as Inc.
  pose proof (accrued_show (S k) K fs s1 U1 Inc Fst) as A1. pose proof (accrued_keeps fs s1) as A2. pose proof (accrued_formats fs s1) as A3. destruct (format_accrued_loop s1 fs) as [[s2 o]| |]; cbn [holds] in *; auto. cbn [fst snd] in *.
  destruct A1 as [A1 A1']. destruct A2 as (A2 & A2' & _). destruct A3 as (A3 & A4 & A5 & A6). assert (U2 : home (S k) s2) by (eapply set_up_same; eassumption). destruct o as [|c' o].
  - cbn [is_empty negb]. destruct (Nat.eq_dec (S k) (length s0)) as [Ek|Nk]; [specialize (A1' Ek); elim (home_nonempty (eq_sym A1'))|]. destruct (HP ltac:(lia)) as (Ab1 & Rm & Pl1). clear HP. apply holds_bind. unfold narrowDownPossibleFormats. apply holds_bind. rewrite (u_nn _ _ U2), A3, F1.
    destruct Ca as (a & b & j & E & Ia & Ib & J & _).
    eapply holds_imp; [apply narrow_show; [exact D|lia|intros g Hg; apply rule_in, Inc, Hg]|]. intros fs' ->. apply holds_ret.
    assert (Ca' : cand (S k) (filter (kept_at s0 (S k)) fs)) by (apply (narrow_cand (S k) fs a b); auto; lia).
    set (s3 := s_formats s2 _). assert (U3 : home (S k) s3) by (eapply set_up_same; [exact U2|sm]). apply holds_bind. unfold maybeCreateNewTemplate. change (f_formats s3) with (filter (kept_at s0 (S k)) fs).
    pose proof (template_cand (S k) fs s3 ltac:(lia) U3 Ca') as T1. pose proof (cand_incl _ _ Ca') as Inc'. destruct Ca' as (a' & b' & j' & E' & _).
    assert (Pl3 : f_pattern s3 = [] \/ exists g, In g l /\ f_pattern s3 = get_pattern g /\ after2 g (filter (kept_at s0 (S k)) fs) = true /\ live (firstn (S k) s0) (room g - S k) s3 /\ (S k <= room g)%nat).
    { change (f_pattern s3) with (f_pattern s2). rewrite A6. destruct Pl1 as [(P1 & _)|(g & G1 & G2 & G3 & G4 & G5 & _)]; [left; exact P1|right]. exists g. split; [exact G1|]. split; [exact G2|]. split; [apply after2_filter; exact G3|]. split; [|exact G5]. eapply live_same; [| |exact G4]; assumption. }
    pose proof (place_home (S k) _ a' b' s3 ltac:(lia) U3 ltac:(exact (eq_trans A2' Ab1)) E' Inc' (roomy_filter _ _ Rm) Pl3) as T3.
    pose proof (template_keeps (filter (kept_at s0 (S k)) fs) s3) as T2. destruct (maybe_template_loop s3 _) as [[s4 cr]| |]; cbn [holds] in *; auto. cbn [fst snd] in *. destruct T2 as (T2 & _ & _). unfold filled in T3. cbn [fst snd] in T3. destruct T3 as [T3 T4].
    assert (U4 : home (S k) s4) by (eapply set_up_same; eassumption). destruct cr.
    + pose proof (accrue_keeps s4) as [K5 _]. pose proof (accrue_formats s4) as F5. destruct (inputAccruedNationalNumber s4) as [s5 o5]. cbn [fst snd] in *. apply holds_ret. cbn [fst snd]. split; [|lia]. intros _. split; [eapply set_up_same; eassumption|]. split; [exact T3|]. right. split; [lia|]. split; [rewrite F5; exact T1|exact T4].
    + rewrite T3. apply holds_ret. cbn [fst snd]. split; [|lia]. intros _. split; [exact U4|]. split; [exact T3|]. right. split; [lia|]. auto.
  - cbn [is_empty negb]. apply holds_ret. cbn [fst snd]. split; [|intros Ek; apply A1'; exact Ek]. intros Lt. destruct (HP Lt) as (Ab1 & Rm & Pl1). split; [exact U2|]. split; [congruence|]. right. split; [lia|]. rewrite A3, F1. split.
    + destruct A1 as (h & Ih & Hh); [discriminate|]. destruct Ca as (a & b & j & E & Ia & Ib & J & Nar & Len).
      exists a, b, j. split; [exact E|]. split; [exact Ia|]. split; [exact Ib|]. split; [lia|]. split; [exact Nar|]. intros j' J'. destruct (Nat.eq_dec j' (S k)) as [->|Nj]; [exists h; auto|apply Len; lia].
    + split; [exact Rm|]. destruct Pl1 as [(P1 & P2 & P3)|(g & G1 & G2 & G3 & G4 & G5 & G6)]; [left|right].
      * split; [congruence|]. split; [eapply dead_same; [| |exact P2]; assumption|exact P3].
      * exists g. split; [exact G1|]. split; [congruence|]. split; [exact G3|]. split; [eapply live_same; [| |exact G4]; assumption|]. auto.
Qed.

(** * From the first key to the last *)
Lemma w_digits : all_digits w = true. Proof. unfold w, DD. rewrite !all_digits_app, DI, cc_dig, D. reflexivity. Qed.
Lemma w_length : length w = (li + lc + length s0)%nat. Proof. unfold w, DD. rewrite !app_length. fold li lc. lia. Qed.
Lemma lc_some : (1 <= lc)%nat. Proof. unfold lc. pose proof (valid_cc_pos _ _ W V) as Pos. rewrite itoa_pos by lia. destruct (dec (Z.to_N cc)) eqn:Ed; [elim (dec_nonempty _ Ed)|cbn; lia]. Qed.
Lemma li_short : (1 <= li <= 3)%nat.
Proof.
  split; [unfold li; destruct I0; [congruence|cbn; lia]|]. unfold li. rewrite <- Px. unfold abroad_of. match goal with |- context [match compile ?p with _ => _ end] => destruct (compile p) as [x|]; [|apply Nat.le_0_l] end. destruct (re_find x _); [|apply Nat.le_0_l]. rewrite firstn_length, firstn_length. eapply Nat.le_trans; [apply Nat.le_min_r|apply Nat.le_min_l].
Qed.
Lemma w_early j : (li <= j)%nat -> firstn j w = I0 ++ firstn (j - li) DD.
Proof. intros H. unfold w. rewrite firstn_app, firstn_all2 by exact H. reflexivity. Qed.
Lemma idd_abroad s : f_plain s = firstn 3 w -> f_meta s = aytf_metadata C region -> holds (attemptToExtractIdd s) (fun r => r = (s_prefix (s_nn (s_complete s true) (firstn (3 - li) DD)) (I0 ++ [32]), true)).
Proof.
  intros E M. unfold attemptToExtractIdd, must_compile. rewrite M, E, Ar. pose proof Px as Q. unfold abroad_of in Q. pose proof li_short as Ls.
  change (anchored_left ([92; plusSign] ++ bs "|" ++ mbytes md_iprefix (Some mr))) with (bs "^(?:\+|" ++ get_bytes (md_iprefix mr) ++ bs ")"). match goal with |- context [or_panic (compile ?p)] => destruct (compile p) as [x|]; [|exact I] end. cbn [or_panic bind]. destruct (re_find x (firstn 3 w)) as [r|]; [|exfalso; apply NI; symmetry; exact Q].
  cbn [f_plain s_nn s_complete s_prefix f_prefix]. rewrite E, Q. assert (Sk : skipn (m_end r) (firstn 3 w) = firstn (3 - li) DD). { apply (app_inv_head I0). rewrite <- (w_early 3) by lia. rewrite <- Q at 1. apply firstn_skipn. }
  rewrite Sk. rewrite w_early by lia. unfold li in Ls. clear - DI NI Ls. destruct I0 as [|c i]; [congruence|]. cbn [app]. assert (Dc : is_digit c = true) by (unfold all_digits in DI; cbn [forallb] in DI; apply andb_prop in DI; apply DI). apply is_digit_iff in Dc.
  replace (c =? plusSign) with false by (symmetry; apply N.eqb_neq; unfold plusSign; lia). apply holds_ret. reflexivity.
Qed.
Record begun (j : nat) (s : aytf) : Prop := {
  o_plain : f_plain s = firstn j w; o_able : f_able s = true; o_formats : f_formats s = []; o_pattern : f_pattern s = []; o_dead : AytfDigits.dead s; o_meta : f_meta s = aytf_metadata C region;
  o_ndd : f_ndd s = []; o_user : f_userfmt s = false; o_country : f_country s = region }.
Definition stage (j : nat) (s : aytf) : Prop := ((j < 3)%nat /\ begun j s /\ f_expect s = false) \/
  ((3 <= j < li + lc)%nat /\ begun j s /\ f_nn s = firstn (j - li) DD /\ f_expect s = true /\ f_prefix s = I0 ++ [32] /\ f_complete s = true) \/
  ((3 <= j)%nat /\ (li + lc <= j)%nat /\ fine (j - li - lc) s).
Lemma expect_abroad j s c : (3 <= j)%nat -> (j < li + lc + 3)%nat -> begun j s -> f_nn s = firstn (j - li) DD -> f_expect s = true -> f_prefix s = I0 ++ [32] -> f_complete s = true -> holds (input_default C s c) (fun r => stage j (fst r)).
Proof.
  intros J J3 O En Ex Pr Co. unfold input_default. rewrite Ex. pose proof li_short as Ls. destruct (Nat.lt_ge_cases j (li + lc)) as [H|H].
  - unfold attemptToExtractCountryCallingCode. rewrite En. unfold DD. rewrite (cc_part C cc s0 m f pre W PF V L3 L17 Np (j - li) ltac:(fold lc; lia)). destruct (is_empty _); apply holds_ret; cbn [fst]; right; left; (split; [lia|]); auto.
  - assert (Ed : firstn (j - li) DD = itoa cc ++ firstn (j - li - lc) s0) by (unfold DD, lc; rewrite (firstn_app (j - li)), firstn_all2 by (fold lc; lia); reflexivity). assert (Dw : all_digits (firstn (j - li - lc) s0) = true) by (apply all_digits_firstn; exact D).
    rewrite (cc_own C region cc s0 m f pre W PF V Mm L3 L17 Np s (firstn (j - li - lc) s0)); [|rewrite En; exact Ed|exact Dw|exact (o_country _ _ O)|right; exact (o_meta _ _ O)]. apply holds_ret. cbn [fst]. right. right. split; [lia|]. split; [exact H|]. split; [|split; [exact (o_able _ _ O)|left; destruct O; split; [lia|auto]]].
    constructor; cbn; try reflexivity; [rewrite Pr; unfold P; rewrite <- app_assoc; reflexivity|rewrite (o_plain _ _ O), w_early, Ed by lia; reflexivity|exact Co|exact (o_user _ _ O)].
Qed.
Lemma accrued_more s c b : let s1 := fst (accrued s c b) in f_pattern s1 = f_pattern s /\ f_tmpl s1 = f_tmpl s /\ f_last s1 = f_last s.
Proof. cbv zeta. unfold accrued. cbv zeta. destruct (isDigitOrLeadingPlusSign _ c); [|destruct b; auto]. unfold normalizeAndAccrueDigitsAndPlusSign. destruct (c =? plusSign); destruct b; cbn; auto. Qed.
Lemma step_abroad j s c b : stage j s -> nth_error w j = Some c -> holds (inputDigitWithOptionToRememberPosition C s c b) (fun r => ((S j < length w)%nat -> stage (S j) (fst r)) /\ (S j = length w -> snd r = home_text)).
Proof.
  intros Sg Nw. assert (Dc : is_digit c = true) by (pose proof w_digits as H; unfold all_digits in H; rewrite forallb_forall in H; apply H; eapply nth_error_In; exact Nw).
  assert (Lj : (j < length w)%nat) by (apply nth_error_Some; congruence). pose proof w_length as Lw. pose proof li_short as Ls. pose proof lc_some as Lc.
  pose proof (firstn_next w j c c Nw eq_refl) as Fn. pose proof (accrued_more s c b) as AM. destruct (accrued_digit C 0%Z s0 m f pre L3 L17 Np s c b Dc) as (s1 & E1 & A1 & A2 & A3 & A4 & A5 & A6 & A7 & A8 & A9 & A10 & A11). rewrite E1 in AM. cbn [fst] in AM. destruct AM as (M1 & M2 & M3).
  unfold inputDigitWithOptionToRememberPosition. unfold accrued in E1. cbv zeta in E1 |- *. rewrite E1. clear E1.
  assert (OB : begun j s -> begun (S j) s1). { intros O. destruct O. constructor; try congruence. eapply dead_same; eassumption. }
  destruct Sg as [(J & O & Ex)|[(J & O & En & Ex & Pr & Co)|(J & Jc & U & Able & H)]].
  - specialize (OB O). rename OB into O1. rewrite (o_able _ _ O1). cbn [negb]. assert (Lp : len (f_plain s1) = S j) by (rewrite (o_plain _ _ O1); unfold len; rewrite firstn_length; lia). rewrite Lp. destruct (Nat.leb_spec (S j) 2) as [Q|Q].
    + apply holds_ret. cbn [fst snd]. split; [|lia]. intros _. left. split; [lia|]. split; [exact O1|congruence].
    + assert (j = 2%nat) by lia. subst j. replace (3 =? 3)%nat with true by reflexivity. apply holds_bind. eapply holds_imp; [apply idd_abroad; [exact (o_plain _ _ O1)|exact (o_meta _ _ O1)]|]. intros r ->. cbv iota beta.
      eapply holds_imp; [apply (expect_abroad 3); [lia|lia| |reflexivity|reflexivity|reflexivity|reflexivity]|].
      * destruct O1. constructor; cbn; auto.
      * intros r R1. split; [intros _; exact R1|lia].
  - specialize (OB O). rename OB into O1. rewrite (o_able _ _ O1). cbn [negb]. assert (Lp : len (f_plain s1) = S j) by (rewrite (o_plain _ _ O1); unfold len; rewrite firstn_length; lia). rewrite Lp.
    replace (S j <=? 2)%nat with false by (symmetry; apply Nat.leb_gt; lia). replace (S j =? 3)%nat with false by (symmetry; apply Nat.eqb_neq; lia).
    assert (En1 : f_nn s1 = firstn (S j - li) DD). { rewrite A2, En. apply (app_inv_head I0). rewrite <- (w_early (S j)) by lia. rewrite app_assoc, <- (w_early j) by lia. symmetry. exact Fn. }
    eapply holds_imp; [apply (expect_abroad (S j)); [lia|lia|exact O1|exact En1|congruence|congruence|congruence]|]. intros r R1. split; [intros _; exact R1|lia].
  - clear OB. set (k := (j - li - lc)%nat) in *. assert (Kj : (S j - li - lc = S k)%nat) by lia.
    assert (DDe : forall i, (li + lc <= i)%nat -> firstn i w = I0 ++ itoa cc ++ firstn (i - li - lc) s0). { intros i Hi. rewrite w_early by lia. f_equal. unfold DD, lc. rewrite (firstn_app (i - li)), firstn_all2 by (fold lc; lia). reflexivity. }
    assert (Fk : firstn (S k) s0 = firstn k s0 ++ [c]). { rewrite !DDe in Fn by lia. rewrite <- !app_assoc in Fn. do 2 apply app_inv_head in Fn. rewrite Kj in Fn. exact Fn. }
    assert (U1 : home (S k) s1). { destruct U. constructor; try congruence. rewrite A1, u_plain0, Fk, <- !app_assoc. reflexivity. }
    rewrite A3, Able. cbn [negb]. assert (Lp : len (f_plain s1) = S j) by (rewrite (u_plain _ _ U1); unfold len; rewrite !app_length, firstn_length; fold li lc; lia). rewrite Lp.
    replace (S j <=? 2)%nat with false by (symmetry; apply Nat.leb_gt; lia). replace (S j =? 3)%nat with false by (symmetry; apply Nat.eqb_neq; lia).
    eapply holds_imp; [apply (default_home k s1 c); [lia|exact U1|congruence|exact Dc|exact Fk|]|].
    + rewrite A11. destruct H as [(H1 & H2 & H3 & H4)|(H1 & H2 & H3 & H4)]; [left|right].
      * split; [exact H1|]. split; [exact H2|]. split; [congruence|]. eapply dead_same; eassumption.
      * split; [exact H1|]. split; [exact H2|]. split; [exact H3|]. destruct H4 as [(H4 & H5 & H6)|(g & G1 & G2 & G3 & G4 & G5 & G6)]; [left|right].
        -- split; [congruence|]. split; [eapply dead_same; eassumption|exact H6].
        -- exists g. split; [exact G1|]. split; [congruence|]. split; [exact G3|]. split; [eapply live_same; [| |exact G4]; assumption|]. auto.
    + intros r [R1 R2]. split; [intros Lt; right; right; split; [lia|split; [lia|rewrite Kj; apply R1; lia]]|intros Eq; apply R2; lia].
Qed.
Lemma stage_out j s o : stage j s -> stage j (s_out s o).
Proof.
  intros [(J & O & Ex)|[(J & O & En & Ex & Pr & Co)|(J & Jc & U & Able & H)]]; [left|right; left|right; right].
  - split; [exact J|]. split; [destruct O; constructor; assumption|exact Ex].
  - split; [exact J|]. split; [destruct O; constructor; assumption|]. auto.
  - split; [exact J|]. split; [exact Jc|]. split; [destruct U; constructor; assumption|]. split; [exact Able|exact H].
Qed.
Lemma press_one_abroad j s k c : stage j s -> char_of k = Some c -> nth_error w j = Some c -> holds (press_one C s k) (fun s' => ((S j < length w)%nat -> stage (S j) s') /\ (S j = length w -> f_out s' = home_text)).
Proof.
  intros Sg K Nw. destruct k as [d|d|]; [| |discriminate]; injection K as ->; cbn [press_one]; unfold InputDigit, InputDigitAndRememberPosition; apply holds_bind; apply holds_bind; (eapply holds_imp; [apply (step_abroad j); [exact Sg|exact Nw]|]);
  intros [s1 o] [P1 O1]; cbn [fst snd] in *; apply holds_ret; apply holds_ret; cbn [fst]; (split; [intros Lt; apply stage_out; exact (P1 Lt)|exact O1]).
Qed.
Lemma press_abroad ks : forall j s u, stage j s -> map char_of ks = map Some u -> skipn j w = u -> holds (press C s ks) (fun s' => u <> [] -> f_out s' = home_text).
Proof.
  induction ks as [|k ks IH]; intros j s u Sg Mk E.
  - destruct u; [|discriminate]. apply holds_ret. congruence.
  - destruct u as [|c u]; [discriminate|]. cbn [map] in Mk. injection Mk as M1 M2. cbn [press]. apply holds_bind.
    assert (Nw : nth_error w j = Some c). { rewrite <- (firstn_skipn j w), E, nth_error_app2; rewrite firstn_length_le by (apply Nat.lt_le_incl, Nat.nle_gt; intros Q; rewrite skipn_all2 in E by exact Q; discriminate); [rewrite Nat.sub_diag; reflexivity|lia]. }
    assert (E' : skipn (S j) w = u). { clear - E. revert E. generalize w. clear. induction j as [|j IHj]; intros [|a l] E; try discriminate; [cbn in *; injection E as _ <-; reflexivity|]. cbn [skipn] in *. apply IHj. exact E. }
    pose proof (f_equal (@length N) E') as Le. rewrite skipn_length in Le. assert (Lj : (j < length w)%nat) by (apply nth_error_Some; congruence).
    eapply holds_imp; [apply (press_one_abroad j s k c Sg M1 Nw)|]. intros s1 [P1 O1]. destruct u as [|c' u].
    + destruct ks as [|k' ks]; [|discriminate]. apply holds_ret. intros _. apply O1. cbn in Le. lia.
    + cbn in Le. eapply holds_imp; [apply (IH (S j) s1 (c' :: u)); auto; apply P1; lia|]. intros s' H _. apply H. discriminate.
Qed.
Lemma all_abroad ks : map char_of ks = map Some w -> holds (press C (GetAsYouTypeFormatter C region) ks) (fun s' => f_out s' = home_text).
Proof.
  intros Mk. eapply holds_imp; [apply (press_abroad ks 0 _ w); [|exact Mk|reflexivity]|].
  - left. split; [lia|]. split; [constructor; try reflexivity; constructor|reflexivity].
  - intros s' H. apply H. intros E. apply (f_equal (@length N)) in E. rewrite w_length in E. cbn in E. lia.
Qed.
End Abroad.
