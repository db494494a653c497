(** What a successful parse returns: digits only, within the length bounds, with a supported calling code. *)
From Verif Require Import Base BaseFacts Utf8 Utf8Facts Regex RegexSpec RegexFacts LangFacts Consts Types Normalize NormalizeSpec NormalizeFacts Validate Format Parse
  NumberSpec NumberFacts MetaSpec ValidateSpec ValidateFacts Container Shipped MetaFacts FormatSpec TextFacts FormatFacts FormatMore ParseSpec ParseFacts.

(** * Digits *)
Lemma digits_Forall s : all_digits s = true <-> Forall (fun c => is_digit c = true) s.
Proof. unfold all_digits. rewrite forallb_forall, Forall_forall. reflexivity. Qed.
Lemma alpha_digit c d : alphaPhoneMappings c = Some d -> is_digit d = true.
Proof.
  unfold alphaPhoneMappings. destruct (is_digit c) eqn:E; [intros H; inv H; auto|].
  repeat match goal with |- context [if ?b then _ else _] => destruct b end; intros H; inv H; reflexivity.
Qed.
Lemma normalize_digits s : all_digits (normalize s) = true.
Proof.
  unfold normalize. destruct (re_match _ _); [|apply NormalizeDigitsOnly_digits]. unfold normalizeHelper.
  set (l := flat_map _ _). assert (H : Forall (fun c => is_digit c = true) l).
  { apply Forall_forall. intros x Hx. unfold l in Hx. apply in_flat_map in Hx as (y & _ & Hy). destruct (alphaPhoneMappings (to_upper y)) eqn:E; [|destruct Hy].
    destruct Hy as [<-|[]]. eapply alpha_digit; eauto. }
  rewrite encode_ascii; [apply digits_Forall; auto|]. eapply Forall_impl; [|exact H]. intros a Ha. apply is_digit_iff in Ha. lia.
Qed.

(** Literal characters of a replacement template are digits. *)
Fixpoint tmpl_digits (fuel : nat) (tmpl : bytes) : bool :=
  match fuel with
  | O => true
  | S f =>
      match tmpl with
      | [] => true
      | 36 :: t =>
          match t with
          | 36 :: t' => false
          | _ => match extract_ref t with None => false | Some (_, rest) => tmpl_digits f rest end
          end
      | c :: t => is_digit c && tmpl_digits f t
      end
  end.
Lemma group_digits s m n : all_digits s = true -> all_digits (group_str s m n) = true.
Proof. intros D. unfold group_str. destruct (group m n) as [[i j]|]; [apply all_digits_sub; auto|reflexivity]. Qed.
Lemma case36' {A} (c : N) (x y : A) : match c with 36 => x | _ => y end = if c =? 36 then x else y.
Proof. destruct (N.eqb_spec c 36) as [->|H]; [reflexivity|apply case36; auto]. Qed.
Lemma expand_digits s m : all_digits s = true -> forall f tmpl, tmpl_digits f tmpl = true -> all_digits (expand f tmpl s m) = true.
Proof.
  intros D. induction f as [|f IH]; intros tmpl H; [reflexivity|]. destruct tmpl as [|c t]; [reflexivity|]. cbn [expand tmpl_digits] in *. rewrite case36' in H. rewrite case36'.
  destruct (c =? 36).
  - destruct t as [|c1 t1].
    + cbn [extract_ref] in H. discriminate.
    + rewrite case36' in H. rewrite case36'. destruct (c1 =? 36); [discriminate|].
      destruct (extract_ref (c1 :: t1)) as [[[n|] rest]|]; [|auto|discriminate]. rewrite all_digits_app, group_digits by auto. simpl. auto.
  - apply andb_true_iff in H as [H1 H2]. unfold all_digits. cbn [forallb]. rewrite H1. apply IH. auto.
Qed.
Lemma replace_digits x s repl : all_digits s = true -> (forall m, all_digits (repl m) = true) -> all_digits (re_replace_func x s repl) = true.
Proof.
  intros D R. unfold re_replace_func. generalize (S (S (len s))) at 1. intros f. generalize 0%nat at 1 as a. generalize 0%nat as b. induction f as [|f IH]; intros b a; cbn [replace_loop]; [apply all_digits_skipn; auto|].
  destruct (len s <? b)%nat; [apply all_digits_skipn; auto|]. destruct (find_from x s b); [|apply all_digits_skipn; auto]. cbv zeta.
  rewrite !all_digits_app, IH, all_digits_sub by auto. rewrite andb_true_r, andb_true_l. destruct (_ || _); auto.
Qed.
Definition transform_digits (m : meta) : bool := tmpl_digits (S (len (get_bytes (md_np_transform m)))) (get_bytes (md_np_transform m)).
Definition opt_digits (m : option meta) : Prop := match m with Some x => transform_digits x = true | None => True end.
Lemma strip_digits number m r c b : all_digits number = true -> opt_digits m -> maybeStripNationalPrefixAndCarrierCode number m = Ret (r, c, b) ->
  all_digits r = true /\ all_digits c = true.
Proof.
  intros D T H. unfold maybeStripNationalPrefixAndCarrierCode in H. destruct (_ || _); [injection H as <- <- _; split; [auto|reflexivity]|].
  destruct (must_compile _) as [x| |]; cbn [bind] in H; try discriminate. destruct (re_find x number) as [g|]; [|injection H as <- <- _; split; [auto|reflexivity]].
  destruct (must_compile _) as [rule| |]; cbn [bind] in H; try discriminate. cbv zeta in H.
  assert (Hc : forall c : bool, all_digits (if c then group_str number g 1 else []) = true) by (intros []; [apply group_digits; auto|reflexivity]).
  destruct (_ || _).
  - destruct (_ && _); injection H as <- <- _; split; auto. + apply all_digits_skipn. auto.
  - destruct (_ && _); injection H as <- <- _; split; auto. unfold re_replace_all. apply replace_digits; auto. intros y. unfold expand_template. apply expand_digits; auto.
    destruct m; [exact T|reflexivity].
Qed.
Lemma intl_digits_out number idd full src : maybeStripInternationalPrefixAndNormalize number idd = Ret (full, src) -> all_digits full = true.
Proof.
  unfold maybeStripInternationalPrefixAndNormalize. destruct number as [|c number]; [intros H; injection H as <- _; reflexivity|].
  assert (K : (idd0 <- must_compile idd ;; match parsePrefixAsIdd idd0 (normalize (c :: number)) with
     | Some rest => Ret (rest, FROM_NUMBER_WITH_IDD) | None => Ret (normalize (c :: number), FROM_DEFAULT_COUNTRY) end) = Ret (full, src) -> all_digits full = true).
  { destruct (must_compile idd) as [x| |]; cbn [bind]; try discriminate. destruct (parsePrefixAsIdd x _) eqn:E; intros H; injection H as <- _; [|apply normalize_digits].
    unfold parsePrefixAsIdd in E. destruct (re_find x _) as [g|]; [|discriminate]. destruct (_ =? _)%nat; [|discriminate].
    destruct (re_find_all_string _ _) as [|d l]; [|destruct (beq _ _); [discriminate|]]; injection E as <-; apply all_digits_skipn, normalize_digits. }
  destruct (re_find plusCharsPattern _) as [[[|st] e cs]|]; auto. intros H; injection H as <- _. apply normalize_digits.
Qed.
Lemma extract_digits C number dm s cc rest : opt_digits dm -> extract_core C number dm = Ret (s, cc, rest) -> all_digits rest = true.
Proof.
  intros T H. unfold extract_core in H. destruct number as [|c number]; [injection H as _ _ <-; reflexivity|]. cbv zeta in H.
  destruct (maybeStripInternationalPrefixAndNormalize _ _) as [[full src]| |] eqn:E; cbn [bind] in H; try discriminate. apply intl_digits_out in E.
  destruct src; try (destruct (_ <=? _)%nat; [discriminate|]; destruct (extractCountryCode C full) as [[? ?]|] eqn:X; [|discriminate]; destruct (_ =? _)%Z; [discriminate|];
    injection H as _ _ <-; apply extract_some in X as (X & _); auto; rewrite X, all_digits_app in E; apply andb_true_iff in E; tauto).
  destruct dm as [m|]; [|injection H as _ _ <-; reflexivity]. destruct (has_prefix _ _); [|injection H as _ _ <-; reflexivity].
  destruct (must_compile _); cbn [bind] in H; try discriminate. destruct (maybeStripNationalPrefixAndCarrierCode _ _) as [[[pot ?] ?]| |] eqn:X; cbn [bind] in H; try discriminate.
  destruct (testNumberLength _ _ _); cbn [bind] in H; try discriminate. apply strip_digits in X; auto; [|apply all_digits_skipn; auto]. destruct (_ || _); injection H as _ _ <-; [tauto|reflexivity].
Qed.
Lemma code_digits C number dm s cc rest : opt_digits dm -> code_core C number dm = Ret (s, cc, rest) -> all_digits rest = true.
Proof.
  intros T H. unfold code_core in H. destruct (extract_core C number dm) as [[[s1 cc1] r1]|e|] eqn:E1; [inv H; eapply extract_digits; eauto| |discriminate].
  destruct e; try discriminate. destruct (re_find plusCharsPattern number) as [x|]; [|discriminate].
  destruct (extract_core C (skipn _ _) dm) as [[[s2 cc2] r2]|e|] eqn:E2; cbn [bind] in H; try discriminate. destruct (cc2 =? 0)%Z; [discriminate|]. inv H. eapply extract_digits; eauto.
Qed.
Lemma finish_spec norm m d car : all_digits norm = true -> opt_digits m -> finish_core norm m = Ret (d, car) -> all_digits d = true /\ (2 <= length d <= 17)%nat.
Proof.
  intros D T H. unfold finish_core in H. destruct (len norm <? minLengthForNSN)%nat eqn:L; [discriminate|].
  assert (K : forall d0 c0, all_digits d0 = true -> (if (len d0 <? minLengthForNSN)%nat then Fail ErrTooShortNSN else if (maxLengthForNSN <? len d0)%nat then Fail ErrNumTooLong else Ret (d0, c0)) = Ret (d, car) ->
     all_digits d = true /\ (2 <= length d <= 17)%nat).
  { intros d0 c0 D0. destruct (len d0 <? minLengthForNSN)%nat eqn:L1; [discriminate|]. destruct (maxLengthForNSN <? len d0)%nat eqn:L2; [discriminate|].
    intros X. injection X as <- <-. apply Nat.ltb_ge in L1, L2. unfold minLengthForNSN, maxLengthForNSN, len in *. auto. }
  destruct m as [m|]; [|cbn [bind] in H; eapply K; [|exact H]; auto].
  destruct (maybeStripNationalPrefixAndCarrierCode norm (Some m)) as [[[pot c] b]| |] eqn:X; cbn [bind] in H; try discriminate. apply strip_digits in X as [X1 X2]; auto.
  destruct (testNumberLength _ _ _) as [v| |]; cbn [bind] in H; try discriminate. destruct v; cbn [bind] in H; eapply K; try exact H; auto.
Qed.

(** * Plus signs *)
Definition plus_cls : cls := Eval vm_compute in match re_ast plusCharsPattern with RCat (RClass k) _ => k | _ => any_not_nl end.
Lemma plus_is_plus : is_plus plusCharsPattern plus_cls. Proof. left. reflexivity. Qed.
Lemma plus_cls_iff c : cls_match plus_cls c = true <-> c = 43 \/ c = 65291.
Proof.
  unfold cls_match, plus_cls. cbn [cfold cneg citems]. unfold items_match. cbn [existsb citem_match]. unfold in_rng. rewrite orb_false_r, orb_true_iff, !andb_true_iff, !N.leb_le. lia.
Qed.
(** The text starts with a plus sign. *)
Definition starts_plus (s : bytes) : Prop := exists c t, decode_rune s = Some (c, t) /\ (c = 43 \/ c = 65291).
Lemma plus_at_0 s m : re_find plusCharsPattern s = Some m -> m_start m = 0%nat -> starts_plus s.
Proof.
  intros H Z. apply re_find_sound in H as (_ & _ & D & _). rewrite Z in D. simpl skipn in D at 1. change (re_ast plusCharsPattern) with (plus_re plus_cls) in D. unfold plus_re in D. inv D.
  match goal with H : derives (RClass _) _ _ _ _ _ _ |- _ => inv H end. eexists _, _. split; [eassumption|]. apply plus_cls_iff. auto.
Qed.
Lemma starts_plus_find s : starts_plus s -> exists m, re_find plusCharsPattern s = Some m /\ m_start m = 0%nat.
Proof.
  intros (c & t & D & P).
  assert (R : rmatch (re_ast plusCharsPattern) final 0 s [] <> None).
  { change (re_ast plusCharsPattern) with (plus_re plus_cls). unfold plus_re. eapply rmatch_complete with (k := final); [|discriminate].
    eapply D_cat; [econstructor; [exact D|apply plus_cls_iff; auto]|]. apply D_star_done. }
  unfold re_find, find_from. cbn [skipn]. destruct (len s - 0)%nat; cbn [search]; destruct (rmatch (re_ast plusCharsPattern) final 0 s []) as [[e cs]|]; try congruence; eexists; split; reflexivity.
Qed.
Lemma match_plus_in s : re_match plusCharsPattern s = true -> exists c, In c (runes s) /\ (c = 43 \/ c = 65291).
Proof.
  intros H. apply re_match_iff in H as (i & e & w & cs & B & D). change (re_ast plusCharsPattern) with (plus_re plus_cls) in D. unfold plus_re in D. inv D.
  match goal with H : derives (RClass _) _ _ _ _ _ _ |- _ => inv H end.
  exists c. split; [|apply plus_cls_iff; auto]. match goal with H : decode_rune (skipn i s) = Some _ |- _ => revert H end. clear - B. 
  induction B; intros D.
  - simpl in D. erewrite runes_step by eauto. left. reflexivity.
  - erewrite runes_step by eauto. right. apply IHB. pose proof (decode_rune_spec _ _ _ H) as (u & -> & _). unfold len in D. rewrite app_length in D.
    match type of D with context [skipn ?n _] => replace n with (length u + i)%nat in D by lia end. (* *) rewrite <- skipn_add, skipn_app, skipn_all, Nat.sub_diag in D. simpl in D. exact D.
Qed.

(** Only at the beginning of a viable number can there be a plus sign. *)
Definition vp_a : regex := Eval vm_compute in match re_ast validPhoneNumberPattern with RCat _ (RCat (RGroup _ (RAlt a _)) _) => a | _ => REmpty end.
Definition vp_k : cls := Eval vm_compute in match re_ast validPhoneNumberPattern with RCat _ (RCat (RGroup _ (RAlt _ (RCat (RStar _ (RClass k)) _))) _) => k | _ => any_not_nl end.
Definition vp_b : regex := Eval vm_compute in match re_ast validPhoneNumberPattern with RCat _ (RCat (RGroup _ (RAlt _ (RCat (RStar _ (RClass _)) b))) _) => b | _ => REmpty end.
Lemma vp_shape : re_ast validPhoneNumberPattern = RCat RBegin (RCat (RGroup 1 (RAlt vp_a (RCat (RStar true (RClass vp_k)) vp_b))) REnd).
Proof. vm_cast_no_check (eq_refl (re_ast validPhoneNumberPattern)). Qed.
Lemma vp_avoids : avoids 43 vp_a && avoids 65291 vp_a && avoids 43 vp_b && avoids 65291 vp_b = true.
Proof. vm_cast_no_check (eq_refl true). Qed.
Lemma vp_k_plus c : cls_match vp_k c = true -> c = 43 \/ c = 65291.
Proof.
  assert (I : forall x, items_match (citems vp_k) x = true -> x = 43 \/ x = 65291).
  { intros x. unfold items_match, vp_k. cbn [existsb citem_match citems]. unfold in_rng. rewrite orb_false_r, orb_true_iff, !andb_true_iff, !N.leb_le. lia. }
  unfold cls_match, vp_k. cbn [cfold cneg]. intros H. apply existsb_exists in H as (x & Hx & Hi). apply I in Hi.
  unfold fold_orbit in Hx. unfold in_rng in Hx.
  repeat match type of Hx with context [if ?b then _ else _] => let E := fresh in destruct b eqn:E; [rewrite ?orb_true_iff, ?andb_true_iff, ?N.eqb_eq, ?N.leb_le in E; simpl in Hx; lia|] end.
  destruct Hx as [->|[]]. auto.
Qed.
Lemma star_class_lang g k w : lang (RStar g (RClass k)) w -> Forall (fun c => cls_match k c = true) w.
Proof.
  remember (RStar g (RClass k)) as r. induction 1; try discriminate; auto. inv Heqr. match goal with H : lang (RClass _) _ |- _ => inv H end. simpl. constructor; auto.
Qed.
Lemma avoids_plus r w c : lang r w -> avoids 43 r = true -> avoids 65291 r = true -> In c w -> c = 43 \/ c = 65291 -> False.
Proof. intros L A B I [-> | ->]; [exact (avoids_ok _ _ _ L A I)|exact (avoids_ok _ _ _ L B I)]. Qed.
Lemma viable_plus s : isViablePhoneNumber s = true -> re_match plusCharsPattern s = true -> starts_plus s.
Proof.
  unfold isViablePhoneNumber. destruct (_ <? _)%nat; [discriminate|]. intros V P. apply match_plus_in in P as (c & I & P).
  apply re_match_iff in V as (i & e & w & cs & B & D). rewrite vp_shape in D. inv D. match goal with H : derives RBegin _ _ _ _ _ _ |- _ => inv H end. simpl skipn in *.
  match goal with H : derives (RCat _ REnd) _ _ _ _ _ _ |- _ => inv H end. match goal with H : derives REnd _ _ _ _ _ _ |- _ => inv H end.
  match goal with H : derives (RGroup _ _) _ _ _ _ _ _ |- _ => inv H end. match goal with H : derives (RAlt _ _) _ _ _ _ _ _ |- _ => apply derives_lang in H as (v & E & L) end.
  pose proof (eats_runes _ _ _ E) as R. change (runes []) with (@nil N) in R. rewrite app_nil_r in R.
  rewrite R in I. pose proof vp_avoids as A. rewrite !andb_true_iff in A. destruct A as [[[A1 A2] A3] A4].
  inv L.
  - exfalso. eapply avoids_plus with (r := vp_a); eauto.
  - match goal with H : lang (RCat _ _) _ |- _ => inv H end. match goal with H : lang (RStar _ _) _ |- _ => apply star_class_lang in H; rename H into F end.
    match goal with H : ?a ++ ?b = runes s |- _ => rewrite <- H in E, I; destruct a as [|x a] end.
    + exfalso. simpl in *. eapply avoids_plus with (r := vp_b); eauto.
    + simpl in E. inversion E; subst. eexists _, _. split; [eassumption|]. inv F. apply vp_k_plus. auto.
Qed.

(** * The calling code *)
Lemma starts_plus_firstn s i : starts_plus s -> boundary s i -> i <> 0%nat -> starts_plus (firstn i s).
Proof.
  intros (c & t & D & P) B I. pose proof (boundary_first _ _ _ _ B I D) as L. assert (NE : c <> rune_error) by (unfold rune_error; destruct P; lia).
  pose proof (decode_inv _ _ _ D NE) as E. assert (L2 : (length (encode_rune c) <= i)%nat) by (apply (f_equal (@length N)) in E; rewrite app_length in E; lia).
  exists c, (firstn (i - length (encode_rune c)) t). split; auto. rewrite E, firstn_app, firstn_all2 by auto. eapply decode_any; eauto.
Qed.
Lemma ext_plus t nn ext : maybeStripExtension t = (nn, ext) -> starts_plus t -> starts_plus nn.
Proof.
  unfold maybeStripExtension. destruct (re_find _ _) as [m|] eqn:F; [|intros H; inv H; auto]. destruct (isViablePhoneNumber _) eqn:V; [|intros H; inv H; auto].
  destruct (filter _ _); intros H S; inv H; auto. apply starts_plus_firstn; auto; [eapply re_find_boundary; eauto|]. intros Z. rewrite Z in V. discriminate V.
Qed.
Lemma extract_plus C number dm s cc rest : starts_plus number -> extract_core C number dm = Ret (s, cc, rest) -> cc <> 0%Z.
Proof.
  intros P H. unfold extract_core in H. destruct number as [|c number]; [destruct P as (? & ? & ? & _); discriminate|]. cbv zeta in H. unfold maybeStripInternationalPrefixAndNormalize in H.
  destruct (starts_plus_find _ P) as (m & F & Z). rewrite F in H. destruct m as [st e cs]. simpl in Z. subst st. cbn [bind] in H.
  destruct (_ <=? _)%nat; [discriminate|]. destruct (extractCountryCode _ _) as [[cc1 r1]|]; [|discriminate]. destruct (Z.eqb_spec cc1 0); [discriminate|]. injection H as _ <- _. auto.
Qed.
Lemma code_plus C number dm s cc rest : starts_plus number -> code_core C number dm = Ret (s, cc, rest) -> cc <> 0%Z.
Proof.
  intros P H. unfold code_core in H. destruct (extract_core C number dm) as [[[s1 cc1] r1]|e|] eqn:E1; [inv H; eapply extract_plus; eauto| |discriminate].
  destruct e; try discriminate. destruct (re_find plusCharsPattern number) as [x|]; [|discriminate].
  destruct (extract_core C (skipn _ _) dm) as [[[s2 cc2] r2]|e|] eqn:E2; cbn [bind] in H; try discriminate. destruct (Z.eqb_spec cc2 0); [discriminate|]. inv H. auto.
Qed.

(** Beyond well-formedness: replacement templates for national prefixes contain digits and group references only, and every
    region's own calling code is a supported one. *)
Record parse_ok (C : container) : Prop := {
  po_digits : forall m, In m (map snd (c_region C) ++ map snd (c_nongeo C)) -> transform_digits m = true;
  po_codes : forall r m, getMetadataForRegion C r = Some m -> hasValidCountryCallingCode C (mcc (Some m)) = true
}.
Lemma region_in C r m : getMetadataForRegion C r = Some m -> In m (map snd (c_region C) ++ map snd (c_nongeo C)).
Proof.
  unfold getMetadataForRegion. destruct (isValidRegionCode C r); [|discriminate]. intros H. apply assocb_In in H. apply in_or_app. left. apply in_map_iff. exists (r, m). auto.
Qed.
Lemma any_in C cc r m : getMetadataForRegionOrCallingCode C cc r = Some m -> In m (map snd (c_region C) ++ map snd (c_nongeo C)).
Proof.
  unfold getMetadataForRegionOrCallingCode, getMetadataForNonGeographicalRegion. intros H. destruct (beq _ _); [|eapply region_in; eauto].
  match goal with H : (if ?b then _ else _) = _ |- _ => destruct b; [|discriminate] | _ => idtac end. apply assocz_In in H. apply in_or_app. right. apply in_map_iff. exists (cc, m). auto.
Qed.
Lemma opt_digits_region C r : parse_ok C -> opt_digits (getMetadataForRegion C r).
Proof. intros P. destruct (getMetadataForRegion C r) eqn:E; [|exact I]. apply (po_digits _ P). eapply region_in; eauto. Qed.
Lemma opt_digits_any C cc r : parse_ok C -> opt_digits (getMetadataForRegionOrCallingCode C cc r).
Proof. intros P. destruct (getMetadataForRegionOrCallingCode C cc r) eqn:E; [|exact I]. apply (po_digits _ P). eapply any_in; eauto. Qed.

Lemma int32_small z : (0 <= z < 1000)%Z -> to_int32 z = z.
Proof. intros H. unfold to_int32. rewrite Z.mod_small; lia. Qed.
Lemma extract_code C number region s cc rest : wf_container C -> parse_ok C -> extract_core C number (getMetadataForRegion C region) = Ret (s, cc, rest) ->
  cc = 0%Z \/ hasValidCountryCallingCode C cc = true.
Proof.
  intros W PO H. unfold extract_core in H. destruct number as [|c number]; [injection H as _ <- _; auto|]. cbv zeta in H.
  destruct (maybeStripInternationalPrefixAndNormalize _ _) as [[full src]| |] eqn:E; cbn [bind] in H; try discriminate. apply intl_digits_out in E.
  destruct src; try (destruct (_ <=? _)%nat; [discriminate|]; destruct (extractCountryCode C full) as [[? ?]|] eqn:X; [|discriminate]; destruct (_ =? _)%Z; [discriminate|];
    injection H as _ <- _; apply extract_some in X as (_ & _ & _ & X & _); auto).
  destruct (getMetadataForRegion C region) as [m|] eqn:Em; [|injection H as _ <- _; auto]. destruct (has_prefix _ _); [|injection H as _ <- _; auto].
  destruct (must_compile _); cbn [bind] in H; try discriminate. destruct (maybeStripNationalPrefixAndCarrierCode _ _) as [[[pot ?] ?]| |] eqn:X; cbn [bind] in H; try discriminate.
  destruct (testNumberLength _ _ _); cbn [bind] in H; try discriminate. destruct (_ || _); injection H as _ <- _; auto. right. eapply po_codes; eauto.
Qed.
Lemma code_code C number region s cc rest : wf_container C -> parse_ok C -> code_core C number (getMetadataForRegion C region) = Ret (s, cc, rest) ->
  cc = 0%Z \/ hasValidCountryCallingCode C cc = true.
Proof.
  intros W PO H. unfold code_core in H. destruct (extract_core C number _) as [[[s1 cc1] r1]|e|] eqn:E1; [inv H; eapply extract_code; eauto| |discriminate].
  destruct e; try discriminate. destruct (re_find plusCharsPattern number) as [x|]; [|discriminate].
  destruct (extract_core C (skipn _ _) _) as [[[s2 cc2] r2]|e|] eqn:E2; cbn [bind] in H; try discriminate. destruct (Z.eqb_spec cc2 0); [discriminate|]. inv H. eapply extract_code; eauto.
Qed.

(** What is known of every successful parse. *)
Record found_ok (C : container) (x : parsed) : Prop := {
  fo_digits : all_digits (pr_nsn x) = true;
  fo_length : (2 <= length (pr_nsn x) <= 17)%nat;
  fo_code : hasValidCountryCallingCode C (pr_cc x) = true
}.
Theorem parse_core_ok C s region x : wf_container C -> parse_ok C -> parse_core C s region true = Ret x -> found_ok C x.
Proof.
  intros W PO H. unfold parse_core in H. destruct (is_empty s); [discriminate|]. destruct (_ <? len s)%nat; [discriminate|].
  destruct (buildNationalNumberForParsing s) as [t|e|]; cbn [bind] in H; try discriminate.
  destruct (isViablePhoneNumber t) eqn:V; cbn [negb] in H; [|discriminate]. destruct (checkRegionForParsing C t region) eqn:K; cbn [negb andb] in H; [|discriminate].
  destruct (maybeStripExtension t) as [nn ext] eqn:Ee. pose proof (opt_digits_region C region PO) as Dm.
  destruct (code_core C nn (getMetadataForRegion C region)) as [[[src cc] norm]|e|] eqn:Ec; cbn [bind] in H; try discriminate.
  pose proof (code_digits _ _ _ _ _ _ Dm Ec) as Dn. pose proof (code_code _ _ _ _ _ _ W PO Ec) as Cc.
  destruct (Z.eqb_spec cc 0) as [Z0|Z0]; cbn [negb] in H.
  - destruct (finish_core _ _) as [[d car]|e|] eqn:F; cbn [bind] in H; try discriminate. apply finish_spec in F as [F1 F2]; auto.
    2: { rewrite all_digits_app, Dn, normalize_digits. reflexivity. }
    injection H as <-. constructor; cbn [pr_nsn pr_cc fst snd]; auto.
    unfold checkRegionForParsing in K. apply orb_true_iff in K as [K|K].
    + assert (R : region <> []). { intros ->. unfold isValidRegionCode in K. discriminate K. }
      replace (is_empty region) with false by (destruct region; [congruence|reflexivity]).
      unfold isValidRegionCode in K. destruct (getMetadataForRegion C region) as [m|] eqn:Em.
      * pose proof (po_codes _ PO _ _ Em) as Hc. pose proof (valid_cc_pos _ _ W Hc). rewrite int32_small by lia. auto.
      * exfalso. unfold getMetadataForRegion in Em. change (isValidRegionCode C region = true) in K. rewrite K in Em.
        assert (In region (c_regions C)). { unfold isValidRegionCode in K. apply andb_true_iff in K as [_ K]. apply mem_bytes_iff in K. auto. }
        destruct (wf_supported _ W _ H) as (_ & _ & m & Em'). congruence.
    + exfalso. apply andb_true_iff in K as [_ K]. pose proof (viable_plus _ V K) as S. pose proof (ext_plus _ _ _ Ee S) as S2. eapply code_plus in S2; eauto.
  - destruct (finish_core _ _) as [[d car]|e|] eqn:F; cbn [bind] in H; try discriminate. apply finish_spec in F as [F1 F2]; auto.
    2: { destruct (beq _ _); auto. apply opt_digits_any; auto. }
    injection H as <-. constructor; cbn [pr_nsn pr_cc fst snd]; auto. destruct Cc as [Cc|Cc]; [congruence|]. pose proof (valid_cc_pos _ _ W Cc). rewrite int32_small by lia. auto.
Qed.

(** * The shipped metadata *)
Definition parse_ok_b (C : container) : bool :=
  forallb transform_digits (map snd (c_region C) ++ map snd (c_nongeo C)) &&
  forallb (fun r => match assocb r (c_region C) with Some m => hasValidCountryCallingCode C (mcc (Some m)) | None => true end) (c_regions C).
Lemma shipped_parse_ok : parse_ok shipped.
Proof.
  assert (B : parse_ok_b shipped = true) by (vm_cast_no_check (eq_refl true)). unfold parse_ok_b in B. apply andb_true_iff in B as [B1 B2].
  rewrite forallb_forall in B1, B2. constructor; [exact B1|]. intros r m H. unfold getMetadataForRegion in H. destruct (isValidRegionCode shipped r) eqn:V; [|discriminate].
  unfold isValidRegionCode in V. apply andb_true_iff in V as [_ V]. apply mem_bytes_iff in V. specialize (B2 _ V). rewrite H in B2. exact B2.
Qed.

(** * Consequences for the API *)
Lemma store_nsn k s x p : all_digits (pr_nsn x) = true -> (2 <= length (pr_nsn x) <= 17)%nat -> p_nlz p = None -> GetNationalSignificantNumber (store k s x p) = pr_nsn x.
Proof.
  intros D L Z. unfold store. apply leading_zeros_roundtrip; auto; [lia|]. destruct (k && _), k, (is_empty (pr_ext x)); exact Z.
Qed.
Lemma zeros_cc s p : cc_of (setItalianLeadingZerosForPhoneNumber s p) = cc_of p.
Proof. destruct (set_zeros_cases s p) as [(x & t & E & ->)|[H ->]]; [destruct (_ =? _)%nat|]; reflexivity. Qed.
Lemma store_cc k s x p : cc_of (store k s x p) = pr_cc x.
Proof. unfold store. change (cc_of (set_nn ?a ?b)) with (cc_of a). rewrite zeros_cc. destruct (k && _); reflexivity. Qed.
Lemma parse_found C s r k p n : wf_container C -> parseHelper C s r k true p = Ret (n, None) -> exists x, parse_core C s r true = Ret x /\ n = store k s x p.
Proof.
  intros W H. pose proof (parse_runs C s r k true W) as R. destruct (parse_core C s r true) as [x|e|]; [|destruct (R p) as (p' & R'); congruence|destruct R].
  rewrite R in H. exists x. split; [reflexivity|]. congruence.
Qed.
Lemma parse_bounds C s r n e : wf_container C -> parse_ok C -> Parse C s r = Ret (n, e) -> e = None ->
  (2 <= length (GetNationalSignificantNumber n) <= 17)%nat /\ all_digits (GetNationalSignificantNumber n) = true /\ hasValidCountryCallingCode C (cc_of n) = true.
Proof.
  intros W P H ->. apply parse_found in H as (x & H & ->); auto. destruct (parse_core_ok _ _ _ _ W P H) as [D L V]. rewrite store_nsn, store_cc by auto. auto.
Qed.
Lemma extract_err C number dm e : opt_wf dm -> extract_core C number dm = Fail e -> e = ErrInvalidCountryCode \/ e = ErrTooShortAfterIDD.
Proof.
  intros W H. unfold extract_core in H. destruct number as [|c number]; [discriminate|]. cbv zeta in H.
  destruct (intl_total (c :: number) _ (idd_compiles _ W)) as ([full src] & E). rewrite E in H. cbn [bind] in H.
  destruct src; try (destruct (_ <=? _)%nat; [injection H as <-; auto|]; destruct (extractCountryCode C full) as [[? ?]|]; [|injection H as <-; auto]; destruct (_ =? _)%Z; [injection H as <-; auto|discriminate]).
  destruct dm as [m|]; [|discriminate]. destruct (has_prefix _ _); [|discriminate].
  destruct (compiles_ret _ (general_compiles _ W)) as (rule & Er). rewrite Er in H. cbn [bind] in H.
  destruct (national_total (skipn (len (itoa (mcc (Some m)))) full) m W) as ([[pot car] b] & En). rewrite En in H. cbn [bind] in H.
  destruct (test_total full m UNKNOWN W) as (v & Et). rewrite Et in H. cbn [bind] in H. destruct (_ || _); discriminate.
Qed.
Lemma code_err C number dm e : opt_wf dm -> code_core C number dm = Fail e -> e = ErrInvalidCountryCode \/ e = ErrTooShortAfterIDD.
Proof.
  intros W H. unfold code_core in H. destruct (extract_core C number dm) as [[[s1 cc1] r1]|e1|] eqn:E1; [discriminate| |discriminate].
  pose proof (extract_err _ _ _ _ W E1) as X. destruct e1; try (injection H as <-; auto; fail).
  destruct (re_find plusCharsPattern number) as [x|]; [|injection H as <-; auto].
  destruct (extract_core C (skipn _ _) dm) as [[[s2 cc2] r2]|e2|] eqn:E2; cbn [bind] in H; [|injection H as <-; eapply extract_err; eauto|discriminate].
  destruct (_ =? _)%Z; [injection H as <-; auto|discriminate].
Qed.
Lemma finish_err norm m e : opt_wf m -> finish_core norm m = Fail e -> e = ErrTooShortNSN \/ e = ErrNumTooLong.
Proof.
  intros W H. unfold finish_core in H. destruct (_ <? _)%nat; [injection H as <-; auto|].
  assert (K : forall (d c : bytes), (if (len d <? minLengthForNSN)%nat then Fail ErrTooShortNSN else if (maxLengthForNSN <? len d)%nat then Fail ErrNumTooLong else Ret (d, c)) = Fail e -> e = ErrTooShortNSN \/ e = ErrNumTooLong).
  { intros d c. destruct (_ <? _)%nat; [intros X; injection X as <-; auto|]. destruct (_ <? _)%nat; [intros X; injection X as <-; auto|discriminate]. }
  destruct m as [m|]; [|cbn [bind] in H; eapply K; exact H].
  destruct (national_total norm m W) as ([[pot car] b] & En). rewrite En in H. cbn [bind] in H. destruct (test_total pot m UNKNOWN W) as (v & Et). rewrite Et in H. cbn [bind] in H.
  destruct v; cbn [bind] in H; eapply K; exact H.
Qed.
Lemma text_err s e : buildNationalNumberForParsing s = Fail e -> e = ErrNotANumber.
Proof. rewrite build_eq. unfold text_of. destruct (index_of _ _); [|discriminate]. destruct (negb _); [intros H; injection H as <-; auto|]. destruct (_ =? _)%nat; discriminate. Qed.
Definition documented (e : err) : Prop := e = ErrInvalidCountryCode \/ e = ErrNotANumber \/ e = ErrTooShortAfterIDD \/ e = ErrTooShortNSN \/ e = ErrNumTooLong.
Lemma core_err C s r ck e : wf_container C -> parse_core C s r ck = Fail e -> documented e.
Proof.
  intros W H. unfold parse_core, documented in *. destruct (is_empty s); [injection H as <-; auto|]. destruct (_ <? len s)%nat; [injection H as <-; auto 6|].
  destruct (buildNationalNumberForParsing s) as [t|e1|] eqn:Eb; cbn [bind] in H; [|injection H as <-; apply text_err in Eb; auto|discriminate].
  destruct (negb _); [injection H as <-; auto|]. destruct (ck && _); [injection H as <-; auto|]. destruct (maybeStripExtension t) as [nn ext].
  destruct (code_core C nn _) as [[[src cc] norm]|e1|] eqn:Ec; cbn [bind] in H; [|injection H as <-; apply code_err in Ec; [|apply opt_wf_region; auto]; destruct Ec; auto|discriminate].
  destruct (negb _).
  - destruct (finish_core _ _) as [x|e1|] eqn:Ef; cbn [bind] in H; [discriminate| |discriminate]. injection H as <-. apply finish_err in Ef; [destruct Ef; auto|]. destruct (beq _ _); [apply opt_wf_region|apply opt_wf_any]; auto.
  - destruct (finish_core _ _) as [x|e1|] eqn:Ef; cbn [bind] in H; [discriminate| |discriminate]. injection H as <-. apply finish_err in Ef; [destruct Ef; auto 6|]. apply opt_wf_region; auto.
Qed.
Lemma parse_errors C s r p : wf_container C -> exists p' e, ParseToNumber C s r p = Ret (p', e) /\
  (e = None \/ e = Some ErrInvalidCountryCode \/ e = Some ErrNotANumber \/ e = Some ErrTooShortAfterIDD \/ e = Some ErrTooShortNSN \/ e = Some ErrNumTooLong).
Proof.
  intros W. pose proof (parse_runs C s r false true W) as R. unfold ParseToNumber. destruct (parse_core C s r true) as [x|e|] eqn:Ec; [|destruct (R p) as (p' & R')|destruct R].
  - do 2 eexists. split; [apply R|]. auto.
  - apply core_err in Ec; auto. exists p', (Some e). split; [exact R'|]. unfold documented in Ec. destruct Ec as [->|[->|[->|[->| ->]]]]; auto 7.
Qed.

(** The fields of a stored result. *)
Definition zero_fields (d : bytes) (z : option Z) : option bool * option Z :=
  match d with
  | 48 :: _ :: _ => (Some true, if (num_lead_zeros d =? 1)%nat then z else Some (Z.of_nat (num_lead_zeros d)))
  | _ => (None, z)
  end.
Lemma zeros_store d p : let q := setItalianLeadingZerosForPhoneNumber d p in
  p_cc q = p_cc p /\ p_nn q = p_nn p /\ p_ext q = p_ext p /\ (p_ilz q, p_nlz q) = zero_fields d (p_nlz p) /\ p_raw q = p_raw p /\ p_src q = p_src p /\ p_carrier q = p_carrier p.
Proof.
  cbv zeta. destruct (set_zeros_cases d p) as [(x & t & E & ->)|[H ->]].
  - rewrite E. unfold zero_fields. destruct (_ =? _)%nat; repeat split; reflexivity.
  - unfold zero_fields. repeat split; try reflexivity. destruct d as [|c [|c1 d]]; try reflexivity; [destruct c as [|q]; try reflexivity; do 6 (destruct q as [q|q|]; try reflexivity)|].
    destruct (N.eq_dec c 48) as [->|]; [exfalso; eapply H; reflexivity|]. destruct c as [|q]; try reflexivity; do 6 (destruct q as [q|q|]; try reflexivity). congruence.
Qed.
Lemma store_fields k s x p : let q := store k s x p in
  p_cc q = Some (pr_cc x) /\ p_nn q = Some (parse_uint_val (pr_nsn x)) /\ p_ext q = (if is_empty (pr_ext x) then p_ext p else Some (pr_ext x)) /\
  (p_ilz q, p_nlz q) = zero_fields (pr_nsn x) (p_nlz p) /\ p_raw q = (if k then Some s else p_raw p) /\ p_src q = (if k then pr_src x else p_src p) /\
  p_carrier q = (if k && negb (is_empty (pr_carrier x)) then Some (pr_carrier x) else p_carrier p).
Proof.
  cbv zeta. unfold store. set (b := if k && _ then _ else _). pose proof (zeros_store (pr_nsn x) b) as (E1 & E2 & E3 & E4 & E5 & E6 & E7).
  set (q := setItalianLeadingZerosForPhoneNumber (pr_nsn x) b) in *. clearbody q. cbn [set_nn p_cc p_nn p_ext p_ilz p_nlz p_raw p_src p_carrier]. rewrite E1, E3, E4, E5, E6, E7. unfold b. clear.
  destruct k, (is_empty (pr_ext x)), (is_empty (pr_carrier x)); repeat split; reflexivity.
Qed.
Lemma parse_agree C s r : wf_container C ->
  (exists e n n', Parse C s r = Ret (n, Some e) /\ ParseAndKeepRawInput C s r = Ret (n', Some e)) \/
  (exists n n', Parse C s r = Ret (n, None) /\ ParseAndKeepRawInput C s r = Ret (n', None) /\
     p_cc n = p_cc n' /\ p_nn n = p_nn n' /\ p_ext n = p_ext n' /\ p_ilz n = p_ilz n' /\ p_nlz n = p_nlz n' /\
     p_raw n' = Some s /\ p_raw n = None /\ p_src n = None /\ p_carrier n = None).
Proof.
  intros W. pose proof (parse_runs C s r false true W) as R1. pose proof (parse_runs C s r true true W) as R2. unfold Parse, ParseToNumber, ParseAndKeepRawInput, ParseAndKeepRawInputToNumber.
  destruct (parse_core C s r true) as [x|e|]; [right|left; destruct (R1 phone0) as (p1 & E1), (R2 phone0) as (p2 & E2); exists e, p1, p2; auto|destruct R1].
  exists (store false s x phone0), (store true s x phone0). split; [apply R1|]. split; [apply R2|].
  pose proof (store_fields false s x phone0) as (A1 & A2 & A3 & A4 & A5 & A6 & A7). pose proof (store_fields true s x phone0) as (B1 & B2 & B3 & B4 & B5 & _).
  rewrite A1, A2, A3, A5, A6, A7, B1, B2, B3, B5. change (p_nlz phone0) with (@None Z) in *. rewrite <- B4 in A4. apply pair_equal_spec in A4 as [E1 E2]. repeat split; auto.
Qed.
Lemma parse_reuse_any C s r p : wf_container C ->
  (exists e n n', Parse C s r = Ret (n, Some e) /\ ParseToNumber C s r p = Ret (n', Some e)) \/
  (exists n n', Parse C s r = Ret (n, None) /\ ParseToNumber C s r p = Ret (n', None) /\ p_cc n' = p_cc n /\ p_nn n' = p_nn n /\ p_ilz n' = p_ilz n /\
     p_ext n' = (if p_ext n then p_ext n else p_ext p) /\ p_nlz n' = (if p_nlz n then p_nlz n else p_nlz p)).
Proof.
  intros W. pose proof (parse_runs C s r false true W) as R. unfold Parse, ParseToNumber.
  destruct (parse_core C s r true) as [x|e|]; [right|left; destruct (R phone0) as (p1 & E1), (R p) as (p2 & E2); exists e, p1, p2; auto|destruct R].
  exists (store false s x phone0), (store false s x p). split; [apply R|]. split; [apply R|].
  pose proof (store_fields false s x phone0) as (A1 & A2 & A3 & A4 & _). pose proof (store_fields false s x p) as (B1 & B2 & B3 & B4 & _).
  rewrite A1, A2, A3, B1, B2, B3. split; [reflexivity|]. split; [reflexivity|].
  assert (HZ : forall z, zero_fields (pr_nsn x) z = (fst (zero_fields (pr_nsn x) None), if snd (zero_fields (pr_nsn x) None) then snd (zero_fields (pr_nsn x) None) else z)).
  { intros z. unfold zero_fields. repeat match goal with |- context [match ?y with _ => _ end] => destruct y; try reflexivity end. }
  rewrite HZ in B4. change (p_nlz phone0) with (@None Z) in A4. rewrite <- A4 in B4. cbn [fst snd] in B4. apply pair_equal_spec in B4 as [E1 E2]. rewrite E1, E2. split; [reflexivity|]. split; [|reflexivity].
  destruct (is_empty (pr_ext x)); reflexivity.
Qed.
Lemma parse_reuse C s r p n : wf_container C -> p_ext p = None -> p_nlz p = None -> Parse C s r = Ret (n, None) ->
  exists n', ParseToNumber C s r p = Ret (n', None) /\ core n' = core n.
Proof.
  intros W E Z H. destruct (parse_reuse_any C s r p W) as [(e & n1 & n2 & H1 & _)|(n1 & n2 & H1 & H2 & E1 & E2 & E3 & E4 & E5)]; [congruence|].
  assert (n1 = n) by congruence. subst. exists n2. split; [exact H2|]. unfold core. rewrite E1, E2, E3, E4, E5, E, Z. destruct (p_ext n), (p_nlz n); reflexivity.
Qed.
