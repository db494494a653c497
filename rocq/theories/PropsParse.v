(** Properties C11, C12, C13, C44: what parsing accepts and stores. Vocabulary in ParseSpec.v, proofs in ParseFacts.v and ParseMore.v. *)
From Verif Require Import Base BaseFacts Utf8 Regex Consts Types Normalize NormalizeSpec NormalizeFacts Validate Format Parse NumberSpec NumberFacts MetaSpec
  ValidateSpec ValidateFacts MetaFacts Shipped FormatSpec TextFacts FormatFacts FormatMore ParseSpec ParseFacts ParseMore ContextFacts PropsValidate.

(** C11: input of more than 250 bytes is rejected and the target is untouched; whatever the metadata. *)
Theorem C11_too_long : forall C s r p, (250 < length s)%nat -> ParseToNumber C s r p = Ret (p, Some ErrNumTooLong) /\
  ParseAndKeepRawInputToNumber C s r p = Ret (p, Some ErrNumTooLong).
Proof.
  intros C s r p L. unfold ParseToNumber, ParseAndKeepRawInputToNumber, parseHelper. replace (is_empty s) with false by (destruct s; [simpl in L; lia|reflexivity]).
  replace (maxInputStringLength <? len s)%nat with true by (symmetry; apply Nat.ltb_lt; exact L). auto.
Qed.
Print Assumptions C11_too_long.
(** C11: empty input is not a number. *)
Theorem C11_empty : forall C r p, ParseToNumber C [] r p = Ret (p, Some ErrNotANumber).
Proof. reflexivity. Qed.
Print Assumptions C11_empty.

(** C11: whatever the bytes and the region, a successful parse has a national significant number of 2 to 17 digits and a supported calling code. *)
Theorem C11_bounds : forall s r n, Parse shipped s r = Ret (n, None) ->
  (2 <= length (GetNationalSignificantNumber n) <= 17)%nat /\ (forall c, In c (GetNationalSignificantNumber n) -> 48 <= c <= 57) /\
  hasValidCountryCallingCode shipped (cc_of n) = true.
Proof. intros s r n H. destruct (parse_bounds _ _ _ _ _ shipped_wf shipped_parse_ok H eq_refl) as (A & B & D). split; [exact A|]. split; [|exact D]. intros c. apply all_digits_In. auto. Qed.
Print Assumptions C11_bounds.
(** C11: the same for any metadata that is well formed, whose national prefix templates contain only digits and references and whose
    regions' codes are all supported. *)
Theorem C11_any_metadata : forall C s r n, wf_container C -> parse_ok C -> Parse C s r = Ret (n, None) ->
  (2 <= length (GetNationalSignificantNumber n) <= 17)%nat /\ all_digits (GetNationalSignificantNumber n) = true /\ hasValidCountryCallingCode C (cc_of n) = true.
Proof. intros C s r n W P H. eapply parse_bounds; eauto. Qed.
Print Assumptions C11_any_metadata.
(** C11: parsing always returns, and a failure is one of the five documented errors. *)
Theorem C11_errors : forall s r p, exists p' e, ParseToNumber shipped s r p = Ret (p', e) /\
  (e = None \/ e = Some ErrInvalidCountryCode \/ e = Some ErrNotANumber \/ e = Some ErrTooShortAfterIDD \/ e = Some ErrTooShortNSN \/ e = Some ErrNumTooLong).
Proof. intros s r p. apply parse_errors. apply shipped_wf. Qed.
Print Assumptions C11_errors.
Example C11_witness : exists n, Parse shipped (bs "(650) 253-0000 ext. 12") (bs "US") = Ret (n, None) /\ GetNationalSignificantNumber n = bs "6502530000" /\ cc_of n = 1%Z /\ ext_of n = bs "12".
Proof. eexists. vm_compute. auto. Qed.
Example C11_witness_errors :
  Parse shipped (bs "not a number") (bs "US") = Ret (phone0, Some ErrNotANumber) /\ (exists n, Parse shipped (bs "123 456 7890") (bs "ZZ") = Ret (n, Some ErrInvalidCountryCode)) /\
  (exists n, Parse shipped (bs "011") (bs "US") = Ret (n, Some ErrTooShortAfterIDD)) /\ (exists n, Parse shipped (bs "+49 0") (bs "DE") = Ret (n, Some ErrTooShortNSN)) /\
  (exists n, Parse shipped (bs "01495 72553301873 810104") (bs "GB") = Ret (n, Some ErrNumTooLong)).
Proof. vm_compute. repeat split; eexists; reflexivity. Qed.

(** C12: the two parsers agree; the one that keeps the raw input stores the input itself, the other stores nothing but the core fields. *)
Theorem C12_agree : forall C s r, wf_container C ->
  (exists e n n', Parse C s r = Ret (n, Some e) /\ ParseAndKeepRawInput C s r = Ret (n', Some e)) \/
  (exists n n', Parse C s r = Ret (n, None) /\ ParseAndKeepRawInput C s r = Ret (n', None) /\
     p_cc n = p_cc n' /\ p_nn n = p_nn n' /\ p_ext n = p_ext n' /\ p_ilz n = p_ilz n' /\ p_nlz n = p_nlz n' /\
     p_raw n' = Some s /\ p_raw n = None /\ p_src n = None /\ p_carrier n = None).
Proof. exact parse_agree. Qed.
Print Assumptions C12_agree.
Theorem C12_shipped : forall s r,
  (exists e n n', Parse shipped s r = Ret (n, Some e) /\ ParseAndKeepRawInput shipped s r = Ret (n', Some e)) \/
  (exists n n', Parse shipped s r = Ret (n, None) /\ ParseAndKeepRawInput shipped s r = Ret (n', None) /\ core n = core n' /\ p_raw n' = Some s).
Proof.
  intros s r. destruct (parse_agree shipped s r shipped_wf) as [H|(n & n' & H1 & H2 & E1 & E2 & E3 & E4 & E5 & E6 & _)]; [left; exact H|right].
  exists n, n'. split; [exact H1|]. split; [exact H2|]. split; [|exact E6]. unfold core. congruence.
Qed.
Print Assumptions C12_shipped.
Example C12_witness : exists n, ParseAndKeepRawInput shipped (bs "0033 1 42 68 53 00") (bs "DE") = Ret (n, None) /\ core n = (Some 33%Z, Some 142685300, None, None, None) /\
  p_raw n = Some (bs "0033 1 42 68 53 00") /\ p_src n = Some FROM_NUMBER_WITH_IDD.
Proof. eexists. vm_compute. auto. Qed.

(** C13: parsing into a number that has no extension and no zero count gives the same core fields as a fresh parse. *)
Theorem C13_reuse_clean : forall C s r p n, wf_container C -> p_ext p = None -> p_nlz p = None -> Parse C s r = Ret (n, None) ->
  exists n', ParseToNumber C s r p = Ret (n', None) /\ core n' = core n.
Proof. exact parse_reuse. Qed.
Print Assumptions C13_reuse_clean.
(** C13: whatever the target held, success or failure and the error do not depend on it; country code, national number and leading-zero flag are those of a
    fresh parse; extension and zero count are those of a fresh parse or, if it has none, those the target had. *)
Theorem C13_reuse_any : forall C s r p, wf_container C ->
  (exists e n n', Parse C s r = Ret (n, Some e) /\ ParseToNumber C s r p = Ret (n', Some e)) \/
  (exists n n', Parse C s r = Ret (n, None) /\ ParseToNumber C s r p = Ret (n', None) /\ p_cc n' = p_cc n /\ p_nn n' = p_nn n /\ p_ilz n' = p_ilz n /\
     p_ext n' = (if p_ext n then p_ext n else p_ext p) /\ p_nlz n' = (if p_nlz n then p_nlz n else p_nlz p)).
Proof. exact parse_reuse_any. Qed.
Print Assumptions C13_reuse_any.
(** C13 in full is false of the code: a stale extension, or a stale zero count, survives. *)
Theorem C13_stale_extension_refuted : exists s r p n n', Parse shipped s r = Ret (n, None) /\ ParseToNumber shipped s r p = Ret (n', None) /\ ext_of n = [] /\ ext_of n' = bs "12".
Proof. exists (bs "+1 650 253 0000"), (bs "US"), (set_ext phone0 (Some (bs "12"))). do 2 eexists. vm_compute. auto. Qed.
Print Assumptions C13_stale_extension_refuted.
Theorem C13_stale_zeros_refuted : exists s r p n n', Parse shipped s r = Ret (n, None) /\ ParseToNumber shipped s r p = Ret (n', None) /\
  GetNationalSignificantNumber n = bs "0236618300" /\ GetNationalSignificantNumber n' = bs "000236618300".
Proof. exists (bs "+39 02366 18300"), (bs "IT"), (set_nlz (set_ilz phone0 (Some true)) (Some 3%Z)). do 2 eexists. vm_compute. auto. Qed.
Print Assumptions C13_stale_zeros_refuted.
Example C13_witness : exists n, ParseToNumber shipped (bs "+39 02366 18300") (bs "IT") (set_cc (set_raw phone0 (Some (bs "x"))) (Some 44%Z)) = Ret (n, None) /\ cc_of n = 39%Z /\ p_raw n = Some (bs "x").
Proof. eexists. vm_compute. auto. Qed.

(** C44: every text with a phone-context parameter has a first one; if its value is neither a global number nor a domain name the text is not a number. *)
Theorem C44_first : forall s a b, s = a ++ bs ";phone-context=" ++ b -> exists before ctx after, first_context s before ctx after.
Proof. exact context_exists. Qed.
Print Assumptions C44_first.
Theorem C44_invalid : forall C s before ctx after r p, first_context s before ctx after -> ~ valid_context ctx -> (length s <= 250)%nat ->
  ParseToNumber C s r p = Ret (p, Some ErrNotANumber) /\ ParseAndKeepRawInputToNumber C s r p = Ret (p, Some ErrNotANumber).
Proof. intros C s before ctx after r p F V L. split; eapply parse_bad_context; eauto. Qed.
Print Assumptions C44_invalid.
(** C44: a global context is put in front of the local number, "tel:" being optional; whatever parameters follow. *)
Theorem C44_global : forall C s pre d ctx after r p, first_context s (pre ++ d) ctx after -> pre = [] \/ pre = bs "tel:" -> d <> [] -> all_digits d = true ->
  global_context (runes ctx) -> (length s <= 250)%nat -> ParseToNumber C s r p = ParseToNumber C (ctx ++ d) r p.
Proof. intros. eapply parse_global; eauto. Qed.
Print Assumptions C44_global.
(** C44: a domain name is ignored. *)
Theorem C44_domain : forall C s pre d ctx after r p, first_context s (pre ++ d) ctx after -> pre = [] \/ pre = bs "tel:" -> d <> [] -> all_digits d = true ->
  domain_context (runes ctx) -> (length s <= 250)%nat -> ParseToNumber C s r p = ParseToNumber C d r p.
Proof. intros. eapply parse_domain; eauto. Qed.
Print Assumptions C44_domain.
Lemma first_context_by s before ctx after : s = before ++ bs ";phone-context=" ++ ctx ++ after -> index_of s (bs ";phone-context=") = Some (length before) -> ~ In 59 ctx ->
  (after = [] \/ exists t, after = 59 :: t) -> first_context s before ctx after.
Proof.
  intros E I Nc A. split; [exact E|]. split; [|auto]. intros a b E'. destruct (Nat.le_gt_cases (length before) (length a)) as [G|G]; [exact G|]. pose proof (index_of_first _ _ _ I _ G) as Y.
  rewrite E', skipn_app, skipn_all, Nat.sub_diag, skipn_O, app_nil_l, has_prefix_app in Y. discriminate.
Qed.
Example C44_witness_global :
  let s := bs "tel:033316005;phone-context=+64-3;isub=1" in first_context s (bs "tel:" ++ bs "033316005") (bs "+64-3") (bs ";isub=1") /\ global_context (runes (bs "+64-3")).
Proof.
  split; [apply first_context_by; [vm_compute; reflexivity|vm_compute; reflexivity|vm_compute; intuition discriminate|right; eexists; vm_compute; reflexivity]|].
  exists (bs "64-3"). vm_compute. auto.
Qed.
Example C44_witness_domain : domain_context (runes (bs "a-1.example.com")) /\ ~ valid_context (bs "64") /\ ~ valid_context (bs "a-.com") /\
  (exists n, Parse shipped (bs "tel:033316005;phone-context=www.google.com") (bs "NZ") = Ret (n, None) /\ cc_of n = 64%Z /\ GetNationalSignificantNumber n = bs "33316005").
Proof.
  split; [exists [bs "a-1"; bs "example"], (bs "com"), []; split; [vm_compute; reflexivity|]|].
  { split; [repeat constructor; eexists; vm_compute; auto|]. split; [eexists; vm_compute; auto|]. split; [eexists; vm_compute; auto|auto]. }
  split; [rewrite <- context_ok; vm_compute; discriminate|]. split; [rewrite <- context_ok; vm_compute; discriminate|]. eexists. vm_compute. auto.
Qed.
