(** Lemmas about short numbers. *)
From Verif Require Import Base BaseFacts Utf8 Utf8Facts Regex RegexSpec RegexFacts Consts Types Normalize Validate UnicodeSpec NormalizeSpec NormalizeFacts NumberSpec NumberFacts LangFacts ParseSpec ContextFacts
  Container Shipped MetaFacts ValidateFacts ShortNumber ShortSpec ShippedShort.
From Coq Require Import Sorting.Permutation.

(** A search finds a match at offset 0 exactly when the text starts with a word of the expression. *)
Lemma find_zero x s : re_find x s <> None -> (exists m, re_find x s = Some m /\ m_start m = 0%nat) \/ (exists m, re_find x s = Some m /\ m_start m <> 0%nat).
Proof. destruct (re_find x s) as [m|]; [|congruence]. destruct (Nat.eq_dec (m_start m) 0); eauto. Qed.
Lemma find_at_zero x s : (exists m, re_find x s = Some m /\ m_start m = 0%nat) <-> exists e w cs, derives (re_ast x) 0 s [] e w cs.
Proof.
  split.
  - intros (m & F & Z). apply re_find_sound in F as (_ & _ & D & _). rewrite Z in D. rewrite skipn_O in D. eauto.
  - intros (e & w & cs & D). destruct (re_find x s) as [m|] eqn:F.
    + exists m. split; auto. destruct (Nat.eq_dec (m_start m) 0) as [|NE]; auto. exfalso. unfold re_find, find_from in F. rewrite skipn_O in F.
      eapply (search_leftmost _ _ _ _ _) with (i := 0%nat) in F; [|unfold len; lia|constructor|lia]. apply F. rewrite skipn_O. exact D.
    + exfalso. assert (M : re_match x s = true) by (apply re_match_iff; exists 0%nat, e, w, cs; split; [constructor|rewrite skipn_O; exact D]). unfold re_match in M. rewrite F in M. discriminate.
Qed.
Lemma starts_iff x s : ascii s -> anchorless (re_ast x) = true -> (exists e w cs, derives (re_ast x) 0 s [] e w cs) <-> exists a b, s = a ++ b /\ lang (re_ast x) (runes a).
Proof.
  intros As An. split.
  - intros (e & w & cs & D). apply derives_lang in D as (v & E & L). apply eats_ascii in E; auto. exists v, w. split; auto. rewrite runes_ascii; auto. rewrite E in As. apply ascii_app in As. tauto.
  - intros (a & b & -> & L). apply ascii_app in As as [A1 A2]. rewrite runes_ascii in L by auto.
    assert (E : eats (a ++ b) a b). { clear -A1. induction a as [|c a IH]; [constructor|]. inv A1. cbn [app]. econstructor; [apply decode_ascii; auto|auto]. }
    destruct (lang_derives _ _ L An _ _ 0%nat [] E) as (p' & cs' & D). eauto.
Qed.
Lemma clear_match p s k : clear_pattern p -> p <> [] -> ascii s -> exists b, match_pattern s p k = Ret b /\
  (b = true <-> if k : bool then begins_with p s else in_language p s).
Proof.
  intros [->|(x & y & X & Y & E & An)] NE As; [congruence|]. unfold match_pattern, must_compile. rewrite X. cbn [or_panic bind].
  assert (Full : re_match y s = true <-> in_language p s).
  { rewrite (anchored_match y (RCat (re_ast x) REnd) s E) by (cbn [ends_anchored]; rewrite An; reflexivity). rewrite lang_cat. unfold in_language. split.
    - intros (v & w & R & L & M). rewrite lang_end in M. subst w. rewrite app_nil_r in R. exists x. rewrite R. auto.
    - intros (x' & X' & L). rewrite X in X'. inv X'. exists (runes s), []. rewrite app_nil_r. split; auto. split; auto. constructor. }
  assert (St : (exists m, re_find x s = Some m /\ m_start m = 0%nat) <-> begins_with p s).
  { rewrite find_at_zero, (starts_iff _ _ As An). unfold begins_with, in_language. split; intros (a & b & R & L); exists a, b; split; auto; [eauto|]. destruct L as (x' & X' & L). rewrite X in X'. inv X'. auto. }
  assert (Sub : in_language p s -> begins_with p s) by (intros I; exists s, []; rewrite app_nil_r; auto).
  destruct (re_find x s) as [m|] eqn:F.
  - destruct (m_start m =? 0)%nat eqn:Z.
    + apply Nat.eqb_eq in Z. rewrite Y. cbn [or_panic bind]. eexists. split; [reflexivity|]. destruct k; [rewrite orb_true_r|rewrite orb_false_r; auto]. split; auto. intros _. apply St. eauto.
    + apply Nat.eqb_neq in Z. exists false. split; auto. assert (~ begins_with p s) by (rewrite <- St; intros (m' & M & Z'); inv M; auto). destruct k; split; try discriminate; intros; exfalso; auto.
  - exists false. split; auto. assert (~ begins_with p s) by (rewrite <- St; intros (m' & M & Z'); discriminate). destruct k; split; try discriminate; intros; exfalso; auto.
Qed.
Lemma match_number_spec s d k : clear_pattern (get_d_pattern d) -> ascii s -> exists b, MatchNationalNumber s d k = Ret b /\
  (b = true <-> get_d_pattern d <> [] /\ if k : bool then begins_with (get_d_pattern d) s else in_language (get_d_pattern d) s).
Proof.
  intros Cl As. unfold MatchNationalNumber. destruct (is_empty (get_d_pattern d)) eqn:E.
  - exists false. split; auto. destruct (get_d_pattern d); [|discriminate]. split; [discriminate|]. intros [[] _]; auto.
  - assert (NE : get_d_pattern d <> []) by (destruct (get_d_pattern d); [discriminate|discriminate]). destruct (clear_match _ s k Cl NE As) as (b & -> & B). exists b. split; auto. rewrite B. tauto.
Qed.
Lemma int32_small z : (0 <= z < 2147483648)%Z -> to_int32 z = z.
Proof. intros H. unfold to_int32. rewrite Z.mod_small by lia. lia. Qed.
Lemma matches_total s d : clear_pattern (get_d_pattern d) -> ascii s -> exists b, matchesPossibleNumberAndNationalNumber s d = Ret b /\
  (b = true <-> exists x, d = Some x /\ (d_len x = [] \/ In (to_int32 (Z.of_nat (length s))) (d_len x)) /\ get_d_pattern d <> [] /\ in_language (get_d_pattern d) s).
Proof.
  intros Cl As. unfold matchesPossibleNumberAndNationalNumber. destruct d as [x|]; [|exists false; split; auto; split; [discriminate|intros (x & X & _); discriminate]].
  unfold HasPossibleLength. cbn [or_panic bind]. destruct (match_number_spec s (Some x) false Cl As) as (b & -> & B).
  assert (L : existsb (fun l => Z.eqb l (to_int32 (Z.of_nat (len s)))) (d_len x) = true <-> In (to_int32 (Z.of_nat (length s))) (d_len x)).
  { rewrite existsb_exists. split; [intros (l & I & Q); apply Z.eqb_eq in Q; unfold len in Q; congruence|intros I; eexists; split; [eauto|apply Z.eqb_eq; reflexivity]]. }
  destruct ((0 <? length (d_len x))%nat && negb (existsb (fun l => Z.eqb l (to_int32 (Z.of_nat (len s)))) (d_len x))) eqn:Q.
  - apply andb_true_iff in Q as [Q1 Q2]. apply Nat.ltb_lt in Q1. apply negb_true_iff in Q2. exists false. split; auto. split; [discriminate|]. intros (x' & X & [Y|Y] & _); inv X.
    + rewrite Y in Q1. simpl in Q1. lia.
    + apply L in Y. congruence.
  - exists b. split; auto. rewrite B. split.
    + intros [P I]. exists x. split; auto. split; auto. apply andb_false_iff in Q as [Q|Q]; [left|right; apply L; apply negb_false_iff; auto]. apply Nat.ltb_ge in Q. destruct (d_len x); [reflexivity|simpl in Q; lia].
    + intros (x' & X & _ & P & I). auto.
Qed.
Lemma matches_spec s d : clear_pattern (get_d_pattern d) -> ascii s -> (length s < 100)%nat -> exists b, matchesPossibleNumberAndNationalNumber s d = Ret b /\ (b = true <-> short_accepts d s).
Proof.
  intros Cl As L. destruct (matches_total s d Cl As) as (b & E & B). exists b. split; auto. rewrite int32_small in B by lia. exact B.
Qed.

Lemma desc_clear m d : wf_short_meta m -> In d (short_descs m) -> clear_pattern (get_d_pattern d).
Proof. intros W I. pose proof (ws_descs _ W) as F. rewrite Forall_forall in F. apply (F d I). Qed.
Lemma short_meta SC r m : wf_short SC -> assocb r SC = Some m -> wf_short_meta m.
Proof. intros W H. apply assocb_In in H. eapply W; eauto. Qed.

(** * Emergency numbers *)
Lemma plus_iff s : re_match plusCharsPattern s = true <-> has_plus s.
Proof.
  rewrite re_match_iff. change (re_ast plusCharsPattern) with (RCat (RClass {| cneg := false; citems := [CR 43 43; CR 65291 65291]; cfold := false |}) (RStar true (RClass {| cneg := false; citems := [CR 43 43; CR 65291 65291]; cfold := false |}))).
  split.
  - intros (i & e & w & cs & B & D). apply boundary_runes in B as (u & B). apply derives_lang in D as (v & E & L). apply eats_runes in E. rewrite E in B. rewrite lang_cat in L. destruct L as (a & b & -> & A & _).
    rewrite lang_cls in A. destruct A as (c & -> & A). unfold cls_match in A. cbn [cneg cfold citems] in A. unfold items_match in A. cbn [existsb citem_match] in A. rewrite orb_false_r in A. apply orb_true_iff in A as [A|A]; apply in_rng_iff in A; [left|right]; rewrite B; apply in_or_app; right; left; lia.
  - intros H. assert (I : exists c, In c (runes s) /\ (c = 43 \/ c = 65291)) by (destruct H; eauto). clear H. destruct I as (c & I & P).
    assert (Q : exists i t, boundary s i /\ decode_rune (skipn i s) = Some (c, t)).
    { clear P. revert I. induction s as [|s x t D IH] using runes_ind; [intros []|]. rewrite (runes_step _ _ _ D). intros [<-|I]; [exists 0%nat, t; split; [constructor|rewrite skipn_O; exact D]|].
      destruct (IH I) as (i & u & B & E). exists (len s - len t + i)%nat, u. split; [econstructor; eauto|]. pose proof (decode_rune_spec _ _ _ D) as (w & -> & _). unfold len. rewrite app_length.
      replace (length w + length t - length t + i)%nat with (length w + i)%nat by lia. rewrite <- skipn_add, skipn_app, skipn_all, Nat.sub_diag. exact E. }
    destruct Q as (i & t & B & D). do 4 eexists. split; [exact B|]. eapply D_cat; [econstructor; [exact D|]|apply D_star_done]. destruct P as [-> | ->]; reflexivity.
Qed.
Lemma digits_only_ascii s : ascii (NormalizeDigitsOnly s).
Proof. apply digits_ascii, NormalizeDigitsOnly_digits. Qed.
Lemma emergency_spec SC s r k : wf_short SC -> exists b, matchesEmergencyNumber SC s r k = Ret b /\
  (b = true <-> ~ has_plus (extractPossibleNumber s) /\ exists m, assocb r SC = Some m /\ get_d_pattern (md_emergency m) <> [] /\
     let digits := digits_of (runes (extractPossibleNumber s)) in
     if k && negb (mem_bytes r regionsWhereEmergencyNumbersMustBeExact) then begins_with (get_d_pattern (md_emergency m)) digits
     else in_language (get_d_pattern (md_emergency m)) digits).
Proof.
  intros W. unfold matchesEmergencyNumber, getShortNumberMetadataForRegion. cbv zeta. rewrite NormalizeDigitsOnly_spec. destruct (re_match plusCharsPattern (extractPossibleNumber s)) eqn:P.
  { exists false. split; auto. apply plus_iff in P. split; [discriminate|]. intros [H _]. contradiction. }
  assert (NP : ~ has_plus (extractPossibleNumber s)) by (rewrite <- plus_iff; congruence).
  destruct (assocb r SC) as [m|] eqn:A; [|exists false; split; auto; split; [discriminate|intros (_ & m & M & _); discriminate]].
  pose proof (desc_clear m (md_emergency m) (short_meta _ _ _ W A)) as Cl. destruct (md_emergency m) as [d|] eqn:Em.
  2:{ exists false. split; auto. split; [discriminate|]. intros (_ & m' & M & NE & _). inv M. rewrite Em in NE. destruct NE. reflexivity. }
  assert (As : ascii (digits_of (runes (extractPossibleNumber s)))) by (rewrite <- NormalizeDigitsOnly_spec; apply digits_only_ascii).
  destruct (match_number_spec _ (Some d) (k && negb (mem_bytes r regionsWhereEmergencyNumbersMustBeExact)) (Cl ltac:(unfold short_descs; rewrite Em; simpl; tauto)) As) as (b & E & B).
  exists b. split; [exact E|]. rewrite B. split.
  - intros [H1 H2]. split; auto. exists m. rewrite Em. auto.
  - intros (_ & m' & M & H). inv M. rewrite Em in H. exact H.
Qed.
Lemma firstn_decode s m c t : decode_rune s = Some (c, t) -> c <> rune_error -> boundary s m -> m <> 0%nat -> exists t', decode_rune (firstn m s) = Some (c, t').
Proof.
  intros D NE B NZ. inversion B as [|s0 c0 t0 i D0 B0]; subst; [congruence|]. rewrite D in D0. inv D0.
  pose proof (decode_inv _ _ _ D NE) as E. rewrite E. unfold len. rewrite app_length. replace (length (encode_rune c0) + length t0 - length t0)%nat with (length (encode_rune c0)) by lia.
  rewrite firstn_app, firstn_all2 by lia. rewrite (decode_any _ _ _ _ D NE). eauto.
Qed.
Lemma starts_plus v c t : decode_rune v = Some (c, t) -> c = 43 \/ c = 65291 -> has_plus v.
Proof. intros D P. unfold has_plus. rewrite (runes_step _ _ _ D). destruct P; subst c; [left|right]; left; reflexivity. Qed.
Lemma possible_plus s c t : decode_rune s = Some (c, t) -> c = 43 \/ c = 65291 -> extractPossibleNumber s = [] \/ has_plus (extractPossibleNumber s).
Proof.
  intros D P. assert (NE : c <> rune_error) by (destruct P; subst; discriminate). unfold extractPossibleNumber.
  destruct (find_start s) as (m & -> & ->); [exists c, t; tauto|]. rewrite skipn_O.
  assert (K : forall u, (u = [] \/ exists t, decode_rune u = Some (c, t)) -> forall x, let v := match re_find x u with Some m => firstn (m_start m) u | None => u end in v = [] \/ exists t, decode_rune v = Some (c, t)).
  { intros u H x v. subst v. destruct (re_find x u) as [m'|] eqn:F; auto. destruct H as [->|(t' & H)]; [left; apply firstn_nil|]. apply re_find_boundary in F. destruct (Nat.eq_dec (m_start m') 0) as [->|NZ]; [left; reflexivity|].
    right. eapply firstn_decode; eauto. }
  assert (K1 := K s (or_intror (ex_intro _ t D)) unwantedEndCharPattern). cbv zeta in K1. pose proof (K _ K1 secondNumberStartPattern) as K2. cbv zeta in K2.
  destruct K2 as [K2|(t' & K2)]; [left; exact K2|right]. apply (starts_plus _ _ _ K2 P).
Qed.
Lemma emergency_plus SC s r k c t : wf_short SC -> decode_rune s = Some (c, t) -> c = 43 \/ c = 65291 ->
  matchesEmergencyNumber SC s r k = Ret false.
Proof.
  intros W D P. destruct (emergency_spec SC s r k W) as (b & E & B). rewrite E. destruct b; [exfalso|reflexivity]. destruct (proj1 B eq_refl) as (NP & m & A & NE & L). clear B.
  destruct (possible_plus _ _ _ D P) as [Z|Z]; [|contradiction]. rewrite Z in L. rewrite runes_nil in L. cbn [digits_of flat_map] in L. cbv zeta in L.
  pose proof (ws_emergency _ (short_meta _ _ _ W A) NE) as Em. destruct (k && _); [|contradiction]. destruct L as (a & b & Q & L). symmetry in Q. apply app_eq_nil in Q as [-> ->]. contradiction.
Qed.

(** * Possible and valid short numbers *)
Lemma has_length d x : d = Some x -> forall z, exists b, HasPossibleLength d z = Ret b /\ (b = true <-> In z (d_len x)).
Proof.
  intros -> z. unfold HasPossibleLength. cbn [or_panic bind]. eexists. split; [reflexivity|]. rewrite existsb_exists. split; [intros (l & I & Q); apply Z.eqb_eq in Q; congruence|intros I; eexists; split; [eauto|apply Z.eqb_eq; reflexivity]].
Qed.
Lemma dialing_iff C n r : regionDialingFromMatchesNumber C n r = true <-> In r (GetRegionCodesForCountryCode C (get_cc n)).
Proof. unfold regionDialingFromMatchesNumber. apply mem_bytes_iff. Qed.
Lemma possible_region_spec C SC n r : wf_short SC -> exists b, IsPossibleShortNumberForRegion C SC n r = Ret b /\
  (b = true <-> In r (GetRegionCodesForCountryCode C (get_cc n)) /\ exists m g, assocb r SC = Some m /\ md_general m = Some g /\ In (to_int32 (Z.of_nat (length (GetNationalSignificantNumber n)))) (d_len g)).
Proof.
  intros W. unfold IsPossibleShortNumberForRegion, getShortNumberMetadataForRegion. destruct (regionDialingFromMatchesNumber C n r) eqn:Dr; cbn [negb].
  2:{ exists false. split; auto. rewrite <- dialing_iff. split; [discriminate|intros [H _]; congruence]. }
  apply dialing_iff in Dr. destruct (assocb r SC) as [m|] eqn:A; [|exists false; split; auto; split; [discriminate|intros (_ & m & g & M & _); discriminate]].
  destruct (ws_general _ (short_meta _ _ _ W A)) as (g & G & _). destruct (has_length _ _ G (to_int32 (Z.of_nat (len (GetNationalSignificantNumber n))))) as (b & E & B). exists b. split; auto. rewrite B. split.
  - intros I. split; auto. exists m, g. auto.
  - intros (_ & m' & g' & M & G' & I). inv M. rewrite G in G'. inv G'. exact I.
Qed.
Lemma possible_in_spec SC l z : wf_short SC -> exists b, possible_in SC l z = Ret b /\
  (b = true <-> exists r m g, In r l /\ assocb r SC = Some m /\ md_general m = Some g /\ In z (d_len g)).
Proof.
  intros W. induction l as [|r l (b & E & B)]; cbn [possible_in].
  { exists false. split; auto. split; [discriminate|]. intros (r & m & g & [] & _). }
  unfold getShortNumberMetadataForRegion. destruct (assocb r SC) as [m|] eqn:A.
  - destruct (ws_general _ (short_meta _ _ _ W A)) as (g & G & _). destruct (has_length _ _ G z) as (b' & E' & B'). rewrite E'. cbn [bind]. destruct b'.
    + exists true. split; auto. split; auto. intros _. exists r, m, g. split; [left; reflexivity|]. split; auto. split; auto. apply B'. reflexivity.
    + exists b. split; auto. rewrite B. split; intros (r' & m' & g' & I & A' & G' & L); [exists r', m', g'; split; [right; auto|auto]|]. destruct I as [<-|I]; [|exists r', m', g'; auto].
      rewrite A in A'. inv A'. rewrite G in G'. inv G'. apply B' in L. discriminate.
  - exists b. split; auto. rewrite B. split; intros (r' & m' & g' & I & A' & G' & L); [exists r', m', g'; split; [right; auto|auto]|]. destruct I as [<-|I]; [congruence|exists r', m', g'; auto].
Qed.
Lemma nsn_short n : (length (GetNationalSignificantNumber n) < 100)%nat -> to_int32 (Z.of_nat (len (GetNationalSignificantNumber n))) = Z.of_nat (length (GetNationalSignificantNumber n)).
Proof. intros L. apply int32_small. unfold len. lia. Qed.
Lemma valid_region_total C SC n r : wf_short SC -> exists b, IsValidShortNumberForRegion C SC n r = Ret b /\
  (b = true <-> In r (GetRegionCodesForCountryCode C (get_cc n)) /\ exists m, assocb r SC = Some m /\
     matchesPossibleNumberAndNationalNumber (GetNationalSignificantNumber n) (md_general m) = Ret true /\ matchesPossibleNumberAndNationalNumber (GetNationalSignificantNumber n) (md_shortcode m) = Ret true).
Proof.
  intros W. unfold IsValidShortNumberForRegion, getShortNumberMetadataForRegion. destruct (regionDialingFromMatchesNumber C n r) eqn:Dr; cbn [negb].
  2:{ exists false. split; auto. rewrite <- dialing_iff. split; [discriminate|intros [H _]; congruence]. }
  apply dialing_iff in Dr. destruct (assocb r SC) as [m|] eqn:A; [|exists false; split; auto; split; [discriminate|intros (_ & m & M & _); discriminate]].
  pose proof (short_meta _ _ _ W A) as Wm.
  destruct (matches_total (GetNationalSignificantNumber n) (md_general m) (desc_clear m (md_general m) Wm ltac:(simpl; tauto)) (nsn_ascii n)) as (b1 & E1 & _).
  destruct (matches_total (GetNationalSignificantNumber n) (md_shortcode m) (desc_clear m (md_shortcode m) Wm ltac:(simpl; tauto)) (nsn_ascii n)) as (b2 & E2 & _).
  rewrite E1. cbn [bind]. destruct b1; cbn [negb].
  - exists b2. split; auto. split; [intros ->; split; auto; exists m; auto|]. intros (_ & m' & M & _ & E). inv M. rewrite E2 in E. inv E. reflexivity.
  - exists false. split; auto. split; [discriminate|]. intros (_ & m' & M & E & _). inv M. rewrite E1 in E. discriminate.
Qed.
Lemma valid_region_possible C SC n r : wf_short SC -> IsValidShortNumberForRegion C SC n r = Ret true -> IsPossibleShortNumberForRegion C SC n r = Ret true.
Proof.
  intros W V. destruct (valid_region_total C SC n r W) as (b & E & B). rewrite V in E. inv E. destruct (proj1 B eq_refl) as (I & m & A & G & _).
  destruct (possible_region_spec C SC n r W) as (b' & E' & B'). rewrite E'. f_equal. apply B'. split; auto. pose proof (short_meta _ _ _ W A) as Wm.
  destruct (matches_total (GetNationalSignificantNumber n) (md_general m) (desc_clear m (md_general m) Wm ltac:(simpl; tauto)) (nsn_ascii n)) as (b1 & E1 & B1). rewrite G in E1. inv E1.
  destruct (ws_general _ Wm) as (g & Eg & NE). destruct (proj1 B1 eq_refl) as (x & X & [L|L] & _); rewrite X in Eg; inv Eg; [congruence|]. exists m, g. auto.
Qed.
Lemma first_short_spec SC s l : wf_short SC -> ascii s -> exists r, first_short_region SC s l = Ret r /\
  (r = [] \/ In r l /\ exists m, assocb r SC = Some m /\ matchesPossibleNumberAndNationalNumber s (md_shortcode m) = Ret true) /\
  (r = [] -> ~ In [] l -> forall r' m, In r' l -> assocb r' SC = Some m -> matchesPossibleNumberAndNationalNumber s (md_shortcode m) = Ret false).
Proof.
  intros W As. induction l as [|r l (r1 & E & B & F)]; cbn [first_short_region]; [exists []; split; auto; split; [left; auto|intros _ _ r' m []]|]. unfold getShortNumberMetadataForRegion.
  assert (K : (forall m, assocb r SC = Some m -> matchesPossibleNumberAndNationalNumber s (md_shortcode m) = Ret false) -> first_short_region SC s l = Ret r1 -> exists r0 : bytes, Ret r1 = Ret r0 /\
     (r0 = [] \/ In r0 (r :: l) /\ (exists m, assocb r0 SC = Some m /\ matchesPossibleNumberAndNationalNumber s (md_shortcode m) = Ret true)) /\
     (r0 = [] -> ~ In [] (r :: l) -> forall r' m, In r' (r :: l) -> assocb r' SC = Some m -> matchesPossibleNumberAndNationalNumber s (md_shortcode m) = Ret false)).
  { intros N _. exists r1. split; auto. split; [destruct B as [->|(I & B)]; [left; auto|right; split; [right; auto|auto]]|].
    intros Z NI r' m' [<-|I] A'; [apply N; auto|]. eapply F; eauto. intros X. apply NI. right. auto. }
  destruct (assocb r SC) as [m|] eqn:A.
  - destruct (matches_total s (md_shortcode m) (desc_clear m (md_shortcode m) (short_meta _ _ _ W A) ltac:(simpl; tauto)) As) as (b & E1 & _). rewrite E1. cbn [bind]. destruct b.
    + exists r. split; auto. split; [right; split; [left; reflexivity|exists m; auto]|]. intros -> NI. exfalso. apply NI. left. reflexivity.
    + rewrite E. apply K; auto. intros m' M. inv M. auto.
  - rewrite E. apply K; auto. intros m' M. discriminate.
Qed.
Lemma valid_possible_short C SC n : wf_short SC -> short_nested SC -> IsValidShortNumber C SC n = Ret true -> IsPossibleShortNumber C SC n = Ret true.
Proof.
  intros W Ne V. unfold IsValidShortNumber in V. unfold IsPossibleShortNumber. set (l := GetRegionCodesForCountryCode C (get_cc n)) in *.
  destruct (possible_in_spec SC l (to_int32 (Z.of_nat (len (GetNationalSignificantNumber n)))) W) as (b & E & B). rewrite E. f_equal. apply B.
  assert (Rg : forall r, IsValidShortNumberForRegion C SC n r = Ret true -> exists r m g, In r l /\ assocb r SC = Some m /\ md_general m = Some g /\ In (to_int32 (Z.of_nat (len (GetNationalSignificantNumber n)))) (d_len g)).
  { intros r H. apply valid_region_possible in H; auto. destruct (possible_region_spec C SC n r W) as (b' & E' & B'). rewrite H in E'. inv E'. destruct (proj1 B' eq_refl) as (I & m & g & X). exists r, m, g. auto. }
  unfold getRegionCodeForShortNumberFromRegionList in V. destruct l as [|r1 [|r2 l']] eqn:El.
  - cbn [bind length] in V. cbn in V. eauto.
  - cbn [bind length] in V. change (1 <? 1)%nat with false in V. cbn [andb] in V. eauto.
  - rewrite <- El in *. destruct (first_short_spec SC (GetNationalSignificantNumber n) l W (nsn_ascii n)) as (r & Er & Br & _). rewrite Er in V. cbn [bind] in V. destruct (is_empty r) eqn:Em.
    + rewrite andb_false_r in V. eauto.
    + destruct Br as [->|(I & m & A & M)]; [discriminate|]. pose proof (short_meta _ _ _ W A) as Wm.
      destruct (matches_total (GetNationalSignificantNumber n) (md_shortcode m) (desc_clear m (md_shortcode m) Wm ltac:(simpl; tauto)) (nsn_ascii n)) as (b1 & E1 & B1). rewrite M in E1. inv E1. destruct (proj1 B1 eq_refl) as (x & X & Lx & Px & Ix).
      destruct (Ne r m _ (assocb_In _ _ _ A) (nsn_ascii n) Px Ix) as [Ls Ng]. rewrite nsn_short by auto. destruct Ng as (g & G & Ig); [|exists r, m, g; auto].
      exists x. split; auto. split; auto. destruct Lx as [Lx|Lx]; auto. right. rewrite int32_small in Lx by lia. auto.
Qed.

(** * Costs *)
Lemma possible_digits d : all_digits d = true -> d <> [] -> extractPossibleNumber d = d.
Proof.
  intros Dd Ne. apply (possible_clean [] d); auto. destruct d as [|c d]; [congruence|]. assert (48 <= c <= 57) by (apply (all_digits_In (c :: d)); [auto|left; auto]). exists c, d. split; [apply decode_ascii; lia|].
  right. right. unfold decimal. rewrite digit_for_self by auto. reflexivity.
Qed.
Lemma digits_no_plus s : all_digits s = true -> ~ has_plus s.
Proof. intros D [H|H]; rewrite runes_ascii in H by (apply digits_ascii; auto); apply (all_digits_In s) in H; auto; lia. Qed.
Lemma emergency_digits SC s r : wf_short SC -> all_digits s = true -> s <> [] -> exists b, IsEmergencyNumber SC s r = Ret b /\
  (b = true <-> exists m, assocb r SC = Some m /\ get_d_pattern (md_emergency m) <> [] /\ in_language (get_d_pattern (md_emergency m)) s).
Proof.
  intros W D NE. destruct (emergency_spec SC s r false W) as (b & E & B). exists b. split; [exact E|]. rewrite B. cbv zeta. cbn [andb]. rewrite possible_digits by auto. rewrite runes_ascii by (apply digits_ascii; auto). rewrite digits_of_self by auto.
  pose proof (digits_no_plus s D). tauto.
Qed.
Lemma cost_region_total C SC n r : wf_short SC -> exists c, GetExpectedCostForRegion C SC n r = Ret c.
Proof.
  intros W. unfold GetExpectedCostForRegion, getShortNumberMetadataForRegion. destruct (negb _); [eauto|]. destruct (assocb r SC) as [m|] eqn:A; [|eauto]. pose proof (short_meta _ _ _ W A) as Wm.
  destruct (ws_general _ Wm) as (g & G & _). destruct (has_length _ _ G (to_int32 (Z.of_nat (len (GetNationalSignificantNumber n))))) as (b & E & _). rewrite E. cbn [bind]. destruct (negb b); [eauto|].
  destruct (matches_total (GetNationalSignificantNumber n) (md_premium m) (desc_clear m (md_premium m) Wm ltac:(simpl; tauto)) (nsn_ascii n)) as ([|] & E1 & _); rewrite E1; cbn [bind]; [eauto|].
  destruct (matches_total (GetNationalSignificantNumber n) (md_stdrate m) (desc_clear m (md_stdrate m) Wm ltac:(simpl; tauto)) (nsn_ascii n)) as ([|] & E2 & _); rewrite E2; cbn [bind]; [eauto|].
  destruct (matches_total (GetNationalSignificantNumber n) (md_tollfree m) (desc_clear m (md_tollfree m) Wm ltac:(simpl; tauto)) (nsn_ascii n)) as ([|] & E3 & _); rewrite E3; cbn [bind]; [eauto|].
  destruct (emergency_digits SC _ r W (nsn_digits n) (nsn_nonempty n)) as ([|] & E4 & _); rewrite E4; cbn [bind]; eauto.
Qed.
Lemma cost_region_spec C SC n r : wf_short SC -> (length (GetNationalSignificantNumber n) < 100)%nat -> exists c, GetExpectedCostForRegion C SC n r = Ret c /\
  cost_in (GetRegionCodesForCountryCode C (get_cc n)) SC (GetNationalSignificantNumber n) r c.
Proof.
  intros W L. unfold GetExpectedCostForRegion, getShortNumberMetadataForRegion. destruct (regionDialingFromMatchesNumber C n r) eqn:Dr; cbn [negb].
  2:{ exists UNKNOWN_COST. split; auto. left. intros [H _]. apply dialing_iff in H. congruence. }
  apply dialing_iff in Dr. destruct (assocb r SC) as [m|] eqn:A.
  2:{ exists UNKNOWN_COST. split; auto. left. intros (_ & m & g & M & _). congruence. }
  pose proof (short_meta _ _ _ W A) as Wm. rewrite nsn_short by auto.
  destruct (ws_general _ Wm) as (g & G & _). destruct (has_length _ _ G (Z.of_nat (length (GetNationalSignificantNumber n)))) as (b & E & B). rewrite E. cbn [bind]. destruct b; cbn [negb].
  2:{ exists UNKNOWN_COST. split; auto. left. intros (_ & m' & g' & M & G' & I). rewrite A in M. inv M. rewrite G in G'. inv G'. apply B in I. discriminate. }
  assert (Ls : In r (GetRegionCodesForCountryCode C (get_cc n)) /\ exists m g, assocb r SC = Some m /\ md_general m = Some g /\ In (Z.of_nat (length (GetNationalSignificantNumber n))) (d_len g)).
  { split; auto. exists m, g. split; auto. split; auto. apply B. reflexivity. }
  assert (K : forall f, In (f m) (short_descs m) -> exists b, matchesPossibleNumberAndNationalNumber (GetNationalSignificantNumber n) (f m) = Ret b /\ (b = true <-> exists m, assocb r SC = Some m /\ short_accepts (f m) (GetNationalSignificantNumber n))).
  { intros f I. destruct (matches_spec (GetNationalSignificantNumber n) (f m) (desc_clear m (f m) Wm I) (nsn_ascii n) L) as (b0 & E0 & B0). exists b0. split; auto. rewrite B0. split; [intros H; exists m; auto|]. intros (m' & M & H). rewrite A in M. inv M. exact H. }
  destruct (K md_premium ltac:(simpl; tauto)) as ([|] & E1 & B1); rewrite E1; cbn [bind].
  { exists PREMIUM_RATE_COST. split; auto. split; auto. apply B1. reflexivity. }
  assert (N1 : ~ exists m, assocb r SC = Some m /\ short_accepts (md_premium m) (GetNationalSignificantNumber n)) by (rewrite <- B1; discriminate).
  destruct (K md_stdrate ltac:(simpl; tauto)) as ([|] & E2 & B2); rewrite E2; cbn [bind].
  { exists STANDARD_RATE_COST. split; auto. split; [auto|]. split; [auto|]. apply B2. reflexivity. }
  assert (N2 : ~ exists m, assocb r SC = Some m /\ short_accepts (md_stdrate m) (GetNationalSignificantNumber n)) by (rewrite <- B2; discriminate).
  destruct (K md_tollfree ltac:(simpl; tauto)) as ([|] & E3 & B3); rewrite E3; cbn [bind].
  { exists TOLL_FREE_COST. split; auto. split; [auto|]. split; [auto|]. split; [auto|]. left. apply B3. reflexivity. }
  assert (N3 : ~ exists m, assocb r SC = Some m /\ short_accepts (md_tollfree m) (GetNationalSignificantNumber n)) by (rewrite <- B3; discriminate).
  destruct (emergency_digits SC _ r W (nsn_digits n) (nsn_nonempty n)) as ([|] & E4 & B4); rewrite E4; cbn [bind].
  { exists TOLL_FREE_COST. split; auto. split; [auto|]. split; [auto|]. split; [auto|]. right. apply B4. reflexivity. }
  exists UNKNOWN_COST. split; auto. right. split; auto. split; auto. split; auto. rewrite <- B4. discriminate.
Qed.
Lemma cost_in_fun l SC s r c c' : cost_in l SC s r c -> cost_in l SC s r c' -> c = c'.
Proof. destruct c, c'; cbn [cost_in]; cbv zeta; intros; try reflexivity; exfalso; tauto. Qed.
Lemma rank_inj a b : rank a = rank b -> a = b.
Proof. destruct a, b; simpl; intros; congruence. Qed.
Lemma cost_loop_max C SC n l : wf_short SC -> forall acc, (acc <> PREMIUM_RATE_COST) -> exists c, cost_loop C SC n l acc = Ret c /\ (rank acc <= rank c)%nat /\
  (forall r d, In r l -> GetExpectedCostForRegion C SC n r = Ret d -> (rank d <= rank c)%nat) /\
  (c = acc \/ exists r, In r l /\ GetExpectedCostForRegion C SC n r = Ret c).
Proof.
  intros W. induction l as [|r l IH]; intros acc NP; cbn [cost_loop].
  { exists acc. split; auto. split; auto. split; [intros r d []|auto]. }
  destruct (cost_region_total C SC n r W) as (c & E). rewrite E. cbn [bind].
  assert (K : forall acc', acc' <> PREMIUM_RATE_COST -> (rank acc <= rank acc')%nat -> (rank c <= rank acc')%nat -> (acc' = acc \/ acc' = c) -> exists c0, cost_loop C SC n l acc' = Ret c0 /\ (rank acc <= rank c0)%nat /\
    (forall r0 d, In r0 (r :: l) -> GetExpectedCostForRegion C SC n r0 = Ret d -> (rank d <= rank c0)%nat) /\ (c0 = acc \/ exists r0, In r0 (r :: l) /\ GetExpectedCostForRegion C SC n r0 = Ret c0)).
  { intros acc' N1 R1 R2 Q. destruct (IH acc' N1) as (c0 & E0 & R0 & F & X). exists c0. split; auto. split; [lia|]. split.
    - intros r0 d [<-|I] H; [rewrite E in H; inv H; lia|eauto].
    - destruct X as [->|(r0 & I & X)]; [|right; exists r0; split; [right; auto|auto]]. destruct Q as [-> | ->]; [left; auto|right; exists r; split; [left; auto|auto]]. }
  destruct c.
  - apply K; auto. simpl. lia.
  - destruct acc; cbn [cost_eqb negb]; apply K; auto; simpl; try lia; try discriminate; congruence.
  - exists PREMIUM_RATE_COST. split; auto. split; [destruct acc; simpl; lia|]. split; [intros r0 d _ _; destruct d; simpl; lia|]. right. exists r. split; [left; reflexivity|auto].
  - apply K; auto; try discriminate. destruct acc; simpl; try lia. congruence.
Qed.
Lemma cost_max C SC n : wf_short SC -> let l := GetRegionCodesForCountryCode C (get_cc n) in exists c, GetExpectedCost C SC n = Ret c /\
  (l = [] -> c = UNKNOWN_COST) /\ (l <> [] -> exists r, In r l /\ GetExpectedCostForRegion C SC n r = Ret c) /\
  (forall r d, In r l -> GetExpectedCostForRegion C SC n r = Ret d -> (rank d <= rank c)%nat).
Proof.
  intros W l. unfold GetExpectedCost. fold l. destruct l as [|r [|r2 l']] eqn:El.
  - exists UNKNOWN_COST. split; auto. split; auto. split; [congruence|]. intros r d [].
  - destruct (cost_region_total C SC n r W) as (c & E). exists c. split; auto. split; [discriminate|]. split; [intros _; exists r; split; [left; auto|auto]|]. intros r' d [<-|[]] H. rewrite E in H. inv H. lia.
  - destruct (cost_loop_max C SC n (r :: r2 :: l') W TOLL_FREE_COST ltac:(discriminate)) as (c & E & R & F & X). exists c. split; auto. split; [discriminate|]. split; [|auto]. intros _. destruct X as [->|X]; auto.
    destruct (cost_region_total C SC n r W) as (d & Ed). exists r. split; [left; auto|]. pose proof (F r d (or_introl eq_refl) Ed) as Q. rewrite Ed. f_equal. apply rank_inj. simpl in *. lia.
Qed.
Lemma cost_region_ext C C' SC n r : (forall r, In r (GetRegionCodesForCountryCode C (get_cc n)) <-> In r (GetRegionCodesForCountryCode C' (get_cc n))) -> GetExpectedCostForRegion C SC n r = GetExpectedCostForRegion C' SC n r.
Proof.
  intros H. unfold GetExpectedCostForRegion. replace (regionDialingFromMatchesNumber C' n r) with (regionDialingFromMatchesNumber C n r); auto. apply eq_true_iff_eq. rewrite !dialing_iff. auto.
Qed.
Lemma cost_order C C' SC n : wf_short SC -> (forall r, In r (GetRegionCodesForCountryCode C (get_cc n)) <-> In r (GetRegionCodesForCountryCode C' (get_cc n))) -> GetExpectedCost C SC n = GetExpectedCost C' SC n.
Proof.
  intros W H. destruct (cost_max C SC n W) as (c & -> & Z & M & F). destruct (cost_max C' SC n W) as (c' & -> & Z' & M' & F'). f_equal.
  destruct (GetRegionCodesForCountryCode C (get_cc n)) as [|r l] eqn:E.
  - rewrite Z by auto. destruct (GetRegionCodesForCountryCode C' (get_cc n)) as [|r' l'] eqn:E'; [rewrite Z'; auto|]. exfalso. apply (H r'). left. reflexivity.
  - destruct M as (r1 & I1 & E1); [discriminate|]. destruct M' as (r2 & I2 & E2). { intros X. rewrite X in H. apply (H r). left. reflexivity. }
    rewrite <- E in H, I1. apply rank_inj. apply Nat.le_antisymm.
    + apply (F' r1); [apply H; auto|]. rewrite <- (cost_region_ext C C' SC n r1 H). auto.
    + apply (F r2); [rewrite <- E; apply H; auto|]. rewrite (cost_region_ext C C' SC n r2 H). auto.
Qed.
Lemma valid_region_spec C SC n r : wf_short SC -> (length (GetNationalSignificantNumber n) < 100)%nat -> exists b, IsValidShortNumberForRegion C SC n r = Ret b /\
  (b = true <-> In r (GetRegionCodesForCountryCode C (get_cc n)) /\ exists m, assocb r SC = Some m /\
     short_accepts (md_general m) (GetNationalSignificantNumber n) /\ short_accepts (md_shortcode m) (GetNationalSignificantNumber n)).
Proof.
  intros W L. destruct (valid_region_total C SC n r W) as (b & E & B). exists b. split; auto. rewrite B.
  assert (K : forall m d, assocb r SC = Some m -> In d (short_descs m) -> (matchesPossibleNumberAndNationalNumber (GetNationalSignificantNumber n) d = Ret true <-> short_accepts d (GetNationalSignificantNumber n))).
  { intros m d A I. destruct (matches_spec (GetNationalSignificantNumber n) d (desc_clear m d (short_meta _ _ _ W A) I) (nsn_ascii n) L) as (b0 & E0 & B0). rewrite E0. rewrite <- B0. split; congruence. }
  split; intros (I & m & A & G & S); (split; [auto|]); exists m; split; auto; split; apply (K m); auto; simpl; tauto.
Qed.
Lemma valid_short_spec C SC n : wf_short SC -> ~ In [] (GetRegionCodesForCountryCode C (get_cc n)) -> (length (GetNationalSignificantNumber n) < 100)%nat -> let l := GetRegionCodesForCountryCode C (get_cc n) in
  exists b, IsValidShortNumber C SC n = Ret b /\ (b = true <-> exists r m, In r l /\ assocb r SC = Some m /\ short_accepts (md_shortcode m) (GetNationalSignificantNumber n) /\
    (length l = 1%nat -> short_accepts (md_general m) (GetNationalSignificantNumber n))).
Proof.
  intros W NI L l. unfold IsValidShortNumber. fold l.
  assert (K : forall r m d, assocb r SC = Some m -> In d (short_descs m) -> (matchesPossibleNumberAndNationalNumber (GetNationalSignificantNumber n) d = Ret true <-> short_accepts d (GetNationalSignificantNumber n))).
  { intros r m d A I. destruct (matches_spec (GetNationalSignificantNumber n) d (desc_clear m d (short_meta _ _ _ W A) I) (nsn_ascii n) L) as (b0 & E0 & B0). rewrite E0. rewrite <- B0. split; congruence. }
  destruct l as [|r1 [|r2 l']] eqn:El.
  - cbn [getRegionCodeForShortNumberFromRegionList bind length]. change (1 <? 0)%nat with false. cbn [andb].
    destruct (valid_region_spec C SC n [] W L) as (b & E & B). exists b. split; auto. rewrite B. fold l. rewrite El. split; [intros ([] & _)|intros (r & m & [] & _)].
  - cbn [getRegionCodeForShortNumberFromRegionList bind length]. change (1 <? 1)%nat with false. cbn [andb].
    destruct (valid_region_spec C SC n r1 W L) as (b & E & B). exists b. split; auto. rewrite B. fold l. rewrite El. split.
    + intros (I & m & A & G & S). exists r1, m. split; auto.
    + intros (r & m & [<-|[]] & A & S & G). split; [left; auto|]. exists m. auto.
  - unfold getRegionCodeForShortNumberFromRegionList. rewrite <- El in *. assert (G2 : (2 <= length l)%nat) by (rewrite El; simpl; lia). replace (1 <? length l)%nat with true by (symmetry; apply Nat.ltb_lt; lia).
    destruct (first_short_spec SC (GetNationalSignificantNumber n) l W (nsn_ascii n)) as (r & Er & Br & Nr). rewrite Er. cbn [bind]. destruct r as [|c r].
    + cbn [is_empty negb andb]. destruct (valid_region_spec C SC n [] W L) as (b & E & B). exists b. split; auto. rewrite B. split; [intros (I & _); contradiction|].
      intros (r & m & I & A & S & _). apply (K r m) in S; auto; [|simpl; tauto]. rewrite (Nr eq_refl NI r m I A) in S. discriminate.
    + cbn [is_empty negb andb]. exists true. split; auto. split; auto. intros _. destruct Br as [X|(I & m & A & M)]; [discriminate|]. exists (c :: r), m. split; auto. split; auto. split; [apply (K (c :: r) m); auto; simpl; tauto|]. lia.
Qed.
Lemma carrier_spec C SC n r : wf_short SC -> (length (GetNationalSignificantNumber n) < 100)%nat ->
  (exists b, IsCarrierSpecificForRegion C SC n r = Ret b /\ (b = true <-> In r (GetRegionCodesForCountryCode C (get_cc n)) /\ exists m, assocb r SC = Some m /\ short_accepts (md_carrier m) (GetNationalSignificantNumber n))) /\
  (exists b, IsSmsServiceForRegion C SC n r = Ret b /\ (b = true <-> In r (GetRegionCodesForCountryCode C (get_cc n)) /\ exists m, assocb r SC = Some m /\ short_accepts (md_sms m) (GetNationalSignificantNumber n))).
Proof.
  intros W L. unfold IsCarrierSpecificForRegion, IsSmsServiceForRegion, getShortNumberMetadataForRegion. destruct (regionDialingFromMatchesNumber C n r) eqn:Dr; cbn [negb].
  2:{ split; exists false; (split; [auto|]); rewrite <- dialing_iff; split; [discriminate|intros [H _]; congruence|discriminate|intros [H _]; congruence]. }
  apply dialing_iff in Dr. destruct (assocb r SC) as [m|] eqn:A; [|split; exists false; (split; [auto|]); (split; [discriminate|intros (_ & m & M & _); discriminate])].
  assert (K : forall f, In (f m) (short_descs m) -> exists b, matchesPossibleNumberAndNationalNumber (GetNationalSignificantNumber n) (f m) = Ret b /\ (b = true <-> In r (GetRegionCodesForCountryCode C (get_cc n)) /\ exists m0, Some m = Some m0 /\ short_accepts (f m0) (GetNationalSignificantNumber n))).
  { intros f I. destruct (matches_spec (GetNationalSignificantNumber n) (f m) (desc_clear m (f m) (short_meta _ _ _ W A) I) (nsn_ascii n) L) as (b0 & E0 & B0). exists b0. split; auto. rewrite B0. split; [intros H; split; [auto|exists m; auto]|]. intros (_ & m' & M & H). inv M. exact H. }
  split; [apply (K md_carrier)|apply (K md_sms)]; simpl; tauto.
Qed.
