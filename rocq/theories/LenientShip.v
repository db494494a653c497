(** The leniency levels put together. *)
From Verif Require Import Base BaseFacts UnicodeTables Utf8 Utf8Facts Regex RegexSpec RegexFacts LangFacts Consts Types Normalize NormalizeSpec NormalizeFacts Validate Format Parse
  NumberSpec NumberFacts MetaSpec ValidateSpec ValidateFacts Container Shipped MetaFacts FormatSpec TextFacts FormatFacts FormatMore ParseSpec ParseFacts ParseMore ContextFacts
  RoundSpec DerivFacts Matcher MatcherSpec MatcherFacts MatcherRun MatcherTotal RoundTripFacts RuleSpec RuleFacts RuleMore ReadSpec ReadFacts BackFacts
  FindSpec FindFacts FindMore FindPrint FindShip PropsTotal PropsMatcher LenientSpec LenientFacts LenientMore.
Local Opaque compile re_find re_replace_all re_find_all re_match.

(** * The groups of a number *)
Lemma groups_of_digits body gs s : all_digits s = true -> s <> [] -> woven joint s body -> stretches is_digit body gs -> gs <> [] /\ Forall (fun g => all_digits g = true) gs /\ Forall (fun g => g <> []) gs.
Proof.
  intros D N0 W St. apply stretches_concat in St as [Ec Fg]. rewrite (woven_filter _ _ _ _ W) in Ec by apply joint_digit. rewrite digits_filter in Ec by exact D. split; [intros ->; apply N0; symmetry; exact Ec|].
  split; eapply Forall_impl; try exact Fg; intros g [A B]; [exact B|exact A].
Qed.
Lemma usual_shipped n : hasValidCountryCallingCode shipped (cc_of n) = true -> printed_raw n = false -> exists gs, usual_groups shipped n gs /\ getNationalNumberGroups shipped n = Ret gs /\ gs <> [] /\ Forall (fun g => g <> []) gs.
Proof.
  intros V R. destruct (format_rfc n R V) as (m & body & gs & Me & Pr & St & F).
  destruct (main_entry_ok shipped _ shipped_wf V) as (m' & Me' & Em & _). rewrite <- (entry_once _ _ _ _ Me Me') in Em.
  destruct (groups_of_digits body gs (GetNationalSignificantNumber n)) as (Ng & Fg & Fn); auto using nsn_digits, nsn_nonempty; [exact (printed_woven _ _ _ (main_keeps _ _ Em) Pr)|].
  exists gs. split; [exists m, body; auto|]. split; [|auto].
  pose proof (valid_cc_pos _ _ shipped_wf V) as Pos. destruct (itoa_len _ Pos) as [Da _]. unfold getNationalNumberGroups. rewrite F. cbn [bind]. set (a := itoa (cc_of n)) in *. set (e := if is_empty (ext_of n) then [] else bs ";ext=" ++ ext_of n).
  assert (He : e = [] \/ exists t, e = 59 :: t). { unfold e. destruct (is_empty (ext_of n)); [left; reflexivity|right; eexists; reflexivity]. } clearbody a e. clear F Me Me' Em Pr St.
  assert (Na : forall c, is_digit c = false -> ~ In c a) by (intros c Hc I; apply (all_digits_In _ _ Da) in I; apply is_digit_iff in I; congruence).
  set (J := join gs (bs "-")). assert (NJ : ~ In 59 J) by (apply join_no; [exact Fg|discriminate|reflexivity]).
  assert (Nt : forall c, is_digit c = false -> ~ In c (bs "tel:+") -> ~ In c (bs "tel:+" ++ a)). { intros c Hd Hn I. apply in_app_or in I as [I|I]; [tauto|]. revert I. apply Na. exact Hd. }
  assert (N45 : ~ In 45 (bs "tel:+" ++ a)) by (apply Nt; [reflexivity|vm_compute; intuition discriminate]).
  assert (N59 : ~ In 59 (bs "tel:+" ++ a)) by (apply Nt; [reflexivity|vm_compute; intuition discriminate]).
  assert (E0 : bs "tel:+" ++ a ++ bs "-" ++ J ++ e = (bs "tel:+" ++ a) ++ 45 :: J ++ e) by (rewrite <- app_assoc; reflexivity). rewrite E0. set (T := bs "tel:+" ++ a) in *. clearbody T.
  assert (Ei : match index_byte (T ++ 45 :: J ++ e) 59 with Some i => i | None => len (T ++ 45 :: J ++ e) end = length (T ++ 45 :: J)).
  { assert (NN : ~ In 59 (T ++ 45 :: J)). { intros I. apply in_app_or in I as [I|[I|I]]; [tauto|discriminate|tauto]. }
    replace (T ++ 45 :: J ++ e) with ((T ++ 45 :: J) ++ e) by (rewrite <- app_assoc; reflexivity). destruct He as [->|(t & ->)]; [rewrite app_nil_r, (index_byte_no 59) by exact NN; reflexivity|]. rewrite (index_byte_skip 59) by exact NN. reflexivity. }
  rewrite Ei, (index_byte_skip 45) by exact N45. 
  replace (T ++ 45 :: J ++ e) with ((T ++ [45]) ++ J ++ e) by (rewrite <- app_assoc; reflexivity). replace (S (length T)) with (length (T ++ [45])) by (rewrite app_length; cbn [length]; lia).
  replace (T ++ 45 :: J) with ((T ++ [45]) ++ J) by (rewrite <- app_assoc; reflexivity).
  rewrite (app_length (T ++ [45]) J). rewrite slice_mid. cbn [bind]. unfold J. rewrite split_join; auto.
Qed.

Definition alt_keeps (A : alt_map) : Prop := forall cc m f, In (cc, m) A -> In f (md_nf m) -> rule_keeps joint f (get_format f) = true.
Lemma shipped_alt_keeps : alt_keeps shipped_alt.
Proof.
  assert (H : forallb (fun e => forallb (fun f => rule_keeps joint f (get_format f)) (md_nf (snd e))) shipped_alt = true) by (vm_cast_no_check (eq_refl true)).
  intros cc m f I If. rewrite forallb_forall in H. specialize (H _ I). cbn [snd] in H. rewrite forallb_forall in H. exact (H f If).
Qed.
(** What a format of the alternate list gives. *)
Definition rule_groups (f : nfmt) (s : bytes) (gs : list bytes) : Prop := (nf_leading f = [] \/ matches_front (hd [] (nf_leading f)) s) /\
  exists x, compile (get_pattern f) = Some x /\ stretches is_digit (re_replace_all x s (get_format f)) gs.
Lemma pattern_groups n f : rule_keeps joint f (get_format f) = true -> exists x gs, compile (get_pattern f) = Some x /\ stretches is_digit (re_replace_all x (GetNationalSignificantNumber n) (get_format f)) gs /\
  getNationalNumberGroupsWithPattern n f = Ret gs /\ gs <> [] /\ Forall (fun g => g <> []) gs.
Proof.
  intros K. unfold rule_keeps in K. destruct (compile (get_pattern f)) as [x|] eqn:Ex; [|discriminate].
  assert (K' : rule_keeps joint f (get_format f) = true) by (unfold rule_keeps; rewrite Ex; exact K). pose proof (rule_keeps_ok _ _ _ _ (GetNationalSignificantNumber n) K' Ex) as Wv.
  destruct (rfc_groups _ _ (nsn_digits n) Wv) as (gs & St & Es). destruct (groups_of_digits _ _ _ (nsn_digits n) (nsn_nonempty n) Wv St) as (Ng & Fd & Fn).
  exists x, gs. split; [reflexivity|]. split; [exact St|]. split; [|auto].
  unfold getNationalNumberGroupsWithPattern, formatNsnUsingPattern, formatNsnUsingPatternWithCarrier, must_compile. rewrite Ex. cbn [or_panic bind pformat_eqb andb]. rewrite Es. cbn [bind]. rewrite split_join; auto.
Qed.
Lemma try_spec checker n nc (P : list bytes -> Prop) (ck : forall gs, gs <> [] -> Forall (fun g => g <> []) gs -> exists b, checker n nc gs = Ret b /\ (b = true <-> P gs)) l :
  Forall wf_format l -> Forall (fun f => rule_keeps joint f (get_format f) = true) l ->
  exists b, try_alternates checker n nc (GetNationalSignificantNumber n) l = Ret b /\ (b = true <-> exists f gs, In f l /\ rule_groups f (GetNationalSignificantNumber n) gs /\ P gs).
Proof.
  induction l as [|f l IH]; intros Wf Kf.
  - exists false. split; [reflexivity|]. split; [discriminate|]. intros (f & gs & [] & _).
  - inv Wf. inv Kf. destruct IH as (b & Eb & Hb); auto. cbn [try_alternates].
    set (skip := match nf_leading f with [] => Ret false | p :: _ => _ end).
    assert (Hs : exists k, skip = Ret k /\ (k = false <-> (nf_leading f = [] \/ matches_front (hd [] (nf_leading f)) (GetNationalSignificantNumber n)))).
    { unfold skip. destruct (nf_leading f) as [|p ps] eqn:El; [exists false; split; [reflexivity|]; split; auto|]. cbn [hd].
      match goal with W : wf_format f |- _ => destruct W as (_ & _ & W); rewrite El in W; apply Forall_inv in W; destruct W as (y & Ey) end. unfold must_compile. rewrite Ey. cbn [or_panic bind]. pose proof (find_front p y (GetNationalSignificantNumber n) Ey) as Ff.
      destruct (re_find y (GetNationalSignificantNumber n)) as [m|] eqn:Em.
      - exists (negb (m_start m =? 0)%nat). split; [reflexivity|]. rewrite negb_false_iff, Nat.eqb_eq, <- Ff. split; [intros Z0; right; eauto|]. intros [K|(m' & K & Z0)]; [discriminate|]. injection K as ->. exact Z0.
      - exists true. split; [reflexivity|]. rewrite <- Ff. split; [discriminate|]. intros [K|(m' & K & _)]; discriminate. }
    destruct Hs as (k & -> & Hk). cbn [bind].
    assert (Rest : forall Q, (b = true \/ Q) <-> (exists f0 gs, In f0 l /\ rule_groups f0 (GetNationalSignificantNumber n) gs /\ P gs) \/ Q) by (intros Q; rewrite Hb; reflexivity).
    destruct k.
    + exists b. split; [exact Eb|]. rewrite Hb. split; [intros (f0 & gs & I & K); exists f0, gs; split; [right; exact I|exact K]|]. intros (f0 & gs & [<-|I] & (K1 & K2) & K3); [apply Hk in K1; discriminate|]. exists f0, gs. repeat split; auto.
    + match goal with K : rule_keeps joint f _ = true |- _ => destruct (pattern_groups n f K) as (x & gs & Ex & St & Eg & Ng & Fn) end. rewrite Eg. cbn [bind]. destruct (ck gs Ng Fn) as (ok & Eo & Ho). rewrite Eo. cbn [bind].
      assert (Kl := proj1 Hk eq_refl). destruct ok.
      * exists true. split; [reflexivity|]. split; [intros _|reflexivity]. exists f, gs. split; [left; reflexivity|]. split; [split; [exact Kl|exists x; auto]|]. apply Ho. reflexivity.
      * exists b. split; [exact Eb|]. rewrite Hb. split; [intros (f0 & gs0 & I & K); exists f0, gs0; split; [right; exact I|exact K]|]. intros (f0 & gs0 & [<-|I] & K); [exfalso|exists f0, gs0; auto].
        destruct K as ((_ & x' & Ex' & St') & K). rewrite Ex in Ex'. injection Ex' as <-. rewrite <- (stretches_once _ _ St _ St') in K. apply Ho in K. discriminate.
Qed.
Lemma grouping_spec A checker n s (P : list bytes -> Prop) (ck : forall gs, gs <> [] -> Forall (fun g => g <> []) gs -> exists b, checker n (plain_text s) gs = Ret b /\ (b = true <-> P gs)) :
  alt_ok A -> alt_keeps A -> hasValidCountryCallingCode shipped (cc_of n) = true -> printed_raw n = false ->
  exists b, checkNumberGroupingIsValid shipped A n s checker = Ret b /\ (b = true <-> exists gs, groups_of shipped A n gs /\ P gs).
Proof.
  intros AO AK V R. destruct (usual_shipped n V R) as (gs & (m & body & Me & Pr & St) & Eg & Ng & Fn). unfold checkNumberGroupingIsValid. rewrite plain_spec. cbv zeta. rewrite Eg. cbn [bind]. destruct (ck gs Ng Fn) as (ok & Eo & Ho). rewrite Eo. cbn [bind].
  assert (Us : forall gs', usual_groups shipped n gs' -> gs' = gs). { intros gs' (m' & body' & Me' & Pr' & St'). rewrite <- (entry_once _ _ _ _ Me Me') in Pr'. rewrite <- (printed_unique _ _ _ _ _ _ Pr Pr') in St'. symmetry. exact (stretches_once _ _ St _ St'). }
  destruct ok.
  - exists true. split; [reflexivity|]. split; [intros _|reflexivity]. exists gs. split; [left; exists m, body; auto|apply Ho; reflexivity].
  - change (get_cc n) with (cc_of n). unfold getAlternateFormats. destruct (assocz (cc_of n) A) as [a|] eqn:Ea.
    + pose proof (assocz_In _ _ _ Ea) as Ia. destruct (try_spec checker n (plain_text s) P ck (md_nf a)) as (b & Eb & Hb); [exact (AO _ _ Ia)|apply Forall_forall; intros f If; exact (AK _ _ _ Ia If)|]. exists b. split; [exact Eb|]. rewrite Hb. split.
      * intros (f & gs' & I & (K1 & x & K2 & K3) & K4). exists gs'. split; [right; exists a, f, x; auto|exact K4].
      * intros (gs' & [U|(a' & f & x & K1 & K2 & K3 & K4 & K5)] & K6); [rewrite (Us _ U) in K6; apply Ho in K6; discriminate|]. rewrite Ea in K1. injection K1 as <-. exists f, gs'. split; [exact K2|]. split; [split; [exact K3|exists x; auto]|exact K6].
    + exists false. split; [reflexivity|]. split; [discriminate|]. intros (gs' & [U|(a' & f & x & K1 & _)] & K6); [rewrite (Us _ U) in K6; apply Ho in K6; discriminate|]. rewrite Ea in K1. discriminate.
Qed.
