(** Properties C68-C71: dialling from a mobile phone, keeping letters, formatting by given rules, and the format a number was
    typed in. Vocabulary in DialSpec.v, proofs in DialFacts.v. *)
From Verif Require Import Base BaseFacts Utf8 Utf8Facts Regex RegexSpec Consts Types Normalize NormalizeSpec NormalizeFacts Validate Format Parse NumberSpec NumberFacts MetaSpec
  ValidateSpec ValidateFacts MetaFacts Shipped FormatSpec FormatFacts FormatMore PropsValidate PropsFormat RuleSpec RuleFacts RuleMore PropsRule ReadSpec ExtSpec DialSpec DialFacts.

(** C68: called from the first region of its calling code, a number is printed as [home_text] says, without its extension;
    without formatting only the diallable characters of that text remain. *)
Theorem C68_home : forall n pretty r rest, assocz (cc_of n) (c_cc2region shipped) = Some (r :: rest) ->
  exists t s, GetNumberType shipped (without_extension n) = Ret t /\ home_text shipped (without_extension n) r t s /\
    FormatNumberForMobileDialing shipped n r pretty = Ret (if pretty then s else filter diallable s).
Proof.
  intros n pretty r rest A. apply (mobile_home shipped n pretty r rest shipped_wf shipped_nanpa A). intros E. rewrite E in A.
  assert (U : match assocz 1 (c_cc2region shipped) with Some (r :: _) => beq r (bs "US") | _ => false end = true) by (vm_compute; reflexivity).
  rewrite A in U. apply beq_eq in U. subst r. discriminate.
Qed.
Print Assumptions C68_home.
(** C68: called from anywhere else, it is the INTERNATIONAL or E164 form for a number that can be dialled from abroad and has a
    type, and nothing for the others. *)
Theorem C68_abroad : forall n pretty from r rest, assocz (cc_of n) (c_cc2region shipped) = Some (r :: rest) -> from <> r ->
  exists t d, GetNumberType shipped (without_extension n) = Ret t /\ CanBeInternationallyDialled shipped (without_extension n) = Ret d /\
    (t <> UNKNOWN -> d = true -> FormatNumberForMobileDialing shipped n from pretty = Format shipped (without_extension n) (if pretty then INTERNATIONAL else E164)) /\
    (t = UNKNOWN \/ d = false -> FormatNumberForMobileDialing shipped n from pretty = Ret []).
Proof. intros n pretty from r rest A. exact (mobile_abroad shipped n pretty from r rest shipped_wf A). Qed.
Print Assumptions C68_abroad.
(** C68: for a calling code that is not supported it is the raw input. *)
Theorem C68_unsupported : forall C n from pretty, hasValidCountryCallingCode C (cc_of n) = false -> FormatNumberForMobileDialing C n from pretty = Ret (get_raw n).
Proof. intros C n from pretty V. unfold FormatNumberForMobileDialing. change (get_cc n) with (cc_of n). rewrite V. reflexivity. Qed.
Print Assumptions C68_unsupported.
Example C68_witness : assocz (cc_of (num 55 1123456789)) (c_cc2region shipped) = Some [bs "BR"]
  /\ FormatNumberForMobileDialing shipped (num 55 1123456789) (bs "BR") true = Ret []
  /\ FormatNumberForMobileDialing shipped (with_pref_carrier (bs "15") (num 55 1123456789)) (bs "BR") true = Ret (bs "0 15 (11) 2345-6789")
  /\ FormatNumberForMobileDialing shipped (with_pref_carrier (bs "15") (num 55 1123456789)) (bs "BR") false = Ret (bs "0151123456789")
  /\ FormatNumberForMobileDialing shipped (num 55 1123456789) (bs "US") false = Ret (bs "+551123456789")
  /\ FormatNumberForMobileDialing shipped us (bs "US") true = Ret (bs "+1 650-253-0000")
  /\ FormatNumberForMobileDialing shipped (num 52 2221234567) (bs "MX") true = Ret (bs "+52 222 123 4567")
  /\ FormatNumberForMobileDialing shipped (num 44 2087654321) (bs "GB") true = Ret (bs "020 8765 4321")
  /\ FormatNumberForMobileDialing shipped (num 44 208765432) (bs "US") true = Ret []
  /\ hasValidCountryCallingCode shipped 999 = false.
Proof. vm_compute. repeat split. Qed.
(** C68: North American local numbers are not dialled as such: the country code is put before the seven digits. *)
Theorem C68_local_refuted : exists n s, IsPossibleNumberForTypeWithReason shipped n UNKNOWN = Ret IS_POSSIBLE_LOCAL_ONLY /\
  FormatNumberForMobileDialing shipped n (bs "US") true = Ret s /\ s = bs "+1 2530000".
Proof. exists (num 1 2530000), (bs "+1 2530000"). vm_compute. auto. Qed.
Print Assumptions C68_local_refuted.

(** C69: without a raw input, FormatOutOfCountryKeepingAlphaChars is FormatOutOfCountryCallingNumber; for a calling code that is
    not supported it is the raw input. *)
Theorem C69_no_raw : forall C n from, get_raw n = [] -> FormatOutOfCountryKeepingAlphaChars C n from = FormatOutOfCountryCallingNumber C n from.
Proof. intros C n from E. unfold FormatOutOfCountryKeepingAlphaChars. rewrite E. reflexivity. Qed.
Print Assumptions C69_no_raw.
Theorem C69_unsupported : forall C n from, get_raw n <> [] -> hasValidCountryCallingCode C (cc_of n) = false -> FormatOutOfCountryKeepingAlphaChars C n from = Ret (get_raw n).
Proof. intros C n from E V. unfold FormatOutOfCountryKeepingAlphaChars. change (get_cc n) with (cc_of n). rewrite V. destruct (get_raw n); [congruence|reflexivity]. Qed.
Print Assumptions C69_unsupported.
(** C69: with a raw input, what is kept of it is printed: after "1 " within the North American Numbering Plan; within the region's
    own calling code with the national prefix rule of the rule that applies put around its first digits; and otherwise without
    its extension, between the exit prefix (or a plus sign) with the calling code and the number's own extension. *)
Theorem C69_known : forall n from mf, supported n -> get_raw n <> [] -> In from (c_regions shipped) -> assocb from (c_region shipped) = Some mf ->
  exists k s, kept (get_raw n) (GetNationalSignificantNumber n) k /\ FormatOutOfCountryKeepingAlphaChars shipped n from = Ret s /\
    (mcc (Some mf) = cc_of n -> cc_of n = 1%Z -> s = bs "1 " ++ k) /\
    (mcc (Some mf) = cc_of n -> cc_of n <> 1%Z -> exists r, first_applying (md_nf mf) (GetNationalSignificantNumber n) r /\ match r with None => s = k | Some f => wrapped (get_npfr f) k s end) /\
    (mcc (Some mf) <> cc_of n -> exists m body, main_entry shipped (cc_of n) m /\ cut_extension k body /\
       s = match exit_prefix_alpha mf with [] => bs "+" | p => p ++ bs " " end ++ itoa (cc_of n) ++ bs " " ++ body ++ extension_text m (ext_of n)).
Proof. intros n from mf V R I E. exact (alpha_known shipped n from mf shipped_wf shipped_rules V R I E (shipped_exits _ _ E)). Qed.
Print Assumptions C69_known.
Theorem C69_elsewhere : forall n from, supported n -> get_raw n <> [] -> ~ In from (c_regions shipped) ->
  exists k m body, kept (get_raw n) (GetNationalSignificantNumber n) k /\ main_entry shipped (cc_of n) m /\ cut_extension k body /\
    FormatOutOfCountryKeepingAlphaChars shipped n from = Ret (bs "+" ++ itoa (cc_of n) ++ bs " " ++ body ++ extension_text m (ext_of n)).
Proof.
  intros n from V R I. apply (alpha_elsewhere shipped n from shipped_wf V R I).
  assert (H : forallb (fun r => mem_bytes r (c_regions shipped)) (c_nanpa shipped) = true) by (vm_compute; reflexivity). rewrite forallb_forall in H.
  unfold IsNANPACountry. apply not_true_iff_false. intros Q. apply I. apply mem_bytes_iff. apply H. apply mem_bytes_iff. exact Q.
Qed.
Print Assumptions C69_elsewhere.
Definition six_flag := with_raw (bs "1800 SIX-flag") (num 1 8007493524).
Example C69_witness : supported six_flag /\ get_raw six_flag <> [] /\ In (bs "AU") (c_regions shipped) /\ kept_text (get_raw six_flag) = bs "1800 SIX-FLAG"
  /\ FormatOutOfCountryKeepingAlphaChars shipped six_flag (bs "AU") = Ret (bs "0011 1 800 SIX-FLAG")
  /\ FormatOutOfCountryKeepingAlphaChars shipped six_flag (bs "CA") = Ret (bs "1 800 SIX-FLAG")
  /\ FormatOutOfCountryKeepingAlphaChars shipped six_flag (bs "ZZ") = Ret (bs "+1 800 SIX-FLAG")
  /\ FormatOutOfCountryKeepingAlphaChars shipped (set_ext (with_raw (bs "2070313000 ext 12") (num 44 2070313000)) (Some (bs "12"))) (bs "DE") = Ret (bs "00 44 2070313000 x12")
  /\ FormatOutOfCountryKeepingAlphaChars shipped (with_raw (bs "02070313000") (num 44 2070313000)) (bs "GB") = Ret (bs "02070313000").
Proof. split; [vm_compute; reflexivity|]. split; [discriminate|]. split; [apply mem_bytes_iff; vm_compute; reflexivity|]. vm_compute. repeat split. Qed.
(** C69: the national prefix is not always removed from the input: when a separator stands within the first three digits of the
    number it stays, so that at home it is printed twice and from abroad it is dialled after the calling code. *)
Theorem C69_prefix_refuted : exists n, supported n /\ Format shipped n NATIONAL = Ret (bs "020 7031 3000") /\
  FormatOutOfCountryKeepingAlphaChars shipped n (bs "GB") = Ret (bs "0020 7031 3000") /\
  FormatOutOfCountryKeepingAlphaChars shipped n (bs "DE") = Ret (bs "00 44 020 7031 3000").
Proof. exists (with_raw (bs "020 7031 3000") (num 44 2070313000)). vm_compute. auto. Qed.
Print Assumptions C69_prefix_refuted.
(** C69: the exit prefix is the one FormatOutOfCountryCallingNumber uses, except in regions with both a single and a preferred one,
    where this function takes the single one and the other function the preferred one. *)
Theorem C69_exit_prefixes : forall C from mf, assocb from (c_region C) = Some mf -> exit_prefix_alpha mf <> exit_prefix mf ->
  all_digits (get_bytes (md_iprefix mf)) = true /\ get_bytes (md_iprefix mf) <> [] /\ get_bytes (md_pref_iprefix mf) <> [].
Proof.
  intros C from mf _ H. unfold exit_prefix_alpha, exit_prefix in H. cbv zeta in H. destruct (all_digits (get_bytes (md_iprefix mf))); cbn [andb] in H.
  - destruct (get_bytes (md_iprefix mf)); cbn [is_empty negb] in H; destruct (get_bytes (md_pref_iprefix mf)); try congruence. repeat split; congruence.
  - destruct (get_bytes (md_pref_iprefix mf)); congruence.
Qed.
Print Assumptions C69_exit_prefixes.
(** C69: for the shipped regions the two have the same digits; they differ in the mark for waiting for the dial tone. *)
Theorem C69_exit_digits : forall r m, assocb r (c_region shipped) = Some m -> filter is_digit (exit_prefix_alpha m) = filter is_digit (exit_prefix m).
Proof.
  assert (H : forallb (fun rm => beq (filter is_digit (exit_prefix_alpha (snd rm))) (filter is_digit (exit_prefix (snd rm)))) (c_region shipped) = true) by (vm_compute; reflexivity).
  intros r m E. rewrite forallb_forall in H. apply beq_eq. exact (H (r, m) (assocb_In _ _ _ E)).
Qed.
Print Assumptions C69_exit_digits.
Theorem C69_dial_tone_refuted : FormatOutOfCountryCallingNumber shipped us (bs "RU") = Ret (bs "8~10 1 650-253-0000") /\
  FormatOutOfCountryKeepingAlphaChars shipped (with_raw (bs "650-253-0000") us) (bs "RU") = Ret (bs "810 1 650-253-0000").
Proof. vm_compute. auto. Qed.
Print Assumptions C69_dial_tone_refuted.

(** C70: FormatByPattern prints the number by the first of the given rules that applies to it, with the region's national prefix
    for $NP and the first group for $FG, and then the extension. *)
Lemma shipped_no_dollar cc m : main_entry shipped cc m -> ~ In 36 (get_bytes (md_nprefix m)).
Proof.
  assert (H : forallb (fun m => negb (existsb (N.eqb 36) (get_bytes (md_nprefix m)))) (map snd (c_region shipped) ++ map snd (c_nongeo shipped)) = true) by (vm_compute; reflexivity).
  rewrite forallb_forall in H. intros Me. apply not_in_36. apply negb_true_iff. apply H.
  destruct Me as (r & rest & _ & Me). unfold meta_of in Me. apply in_or_app. destruct (beq r nonGeoEntity).
  - right. apply in_map_iff. exists (cc, m). split; [reflexivity|]. apply assocz_In. exact Me.
  - left. apply in_map_iff. exists (r, m). split; [reflexivity|]. apply assocb_In. exact Me.
Qed.
Theorem C70_by_pattern : forall n nf l m, supported n -> nf <> RFC3966 -> main_entry shipped (cc_of n) m -> (forall f, In f l -> usable (get_bytes (md_nprefix m)) f) ->
  exists r body, first_applying l (GetNationalSignificantNumber n) r /\
    match r with
    | None => body = GetNationalSignificantNumber n
    | Some f => exists o x t, filled_rule (get_bytes (md_nprefix m)) (get_npfr f) o /\ compile (get_pattern f) = Some x /\ template (set_npfr f o) nf [] t /\
                  body = re_replace_all x (GetNationalSignificantNumber n) t
    end /\
    FormatByPattern shipped n nf l = Ret (with_code (cc_of n) nf (body ++ extension_text m (ext_of n))).
Proof. intros n nf l m V Nr Me U. exact (by_pattern_spec shipped n nf l m shipped_wf V Nr Me (shipped_no_dollar _ _ Me) U). Qed.
Print Assumptions C70_by_pattern.
(** C70: for a calling code that is not supported the national significant number is printed. *)
Theorem C70_unsupported : forall C n nf l, hasValidCountryCallingCode C (cc_of n) = false -> FormatByPattern C n nf l = Ret (GetNationalSignificantNumber n).
Proof. intros C n nf l V. unfold FormatByPattern. change (get_cc n) with (cc_of n). rewrite V. reflexivity. Qed.
Print Assumptions C70_unsupported.
(** C70: what a rule is filled in to is determined. *)
Theorem C70_filled_determined : forall np rule o o', ~ In 36 np -> filled_rule np rule o -> filled_rule np rule o' -> o = o'.
Proof.
  intros np rule o o' Nd. unfold filled_rule. destruct rule as [|c r]; [congruence|]. destruct np as [|c' np]; [congruence|].
  intros (t & u & R1 & R2 & ->) (t' & u' & R1' & R2' & ->). pose proof (replaced_unique 78 80 _ _ _ R1 _ R1') as E. subst t'. f_equal. exact (replaced_unique 70 71 _ _ _ R2 _ R2').
Qed.
Print Assumptions C70_filled_determined.
Definition rule_of (pattern format npfr : bytes) : nfmt := set_npfr {| nf_pattern := Some pattern; nf_format := Some format; nf_leading := []; nf_npfr := None; nf_npopt := None; nf_dccfr := None |} (Some npfr).
Definition dotted := rule_of (bs "(\d{3})(\d{3})(\d{4})") (bs "$1.$2.$3") (bs "($NP) $FG").
Lemma dotted_replaced : filled_rule (bs "1") (get_npfr dotted) (Some (bs "(1) $1")).
Proof.
  exists (bs "(1) $FG"), (bs "(1) $1"). split; [|split; [|reflexivity]].
  - apply (rep_skip _ _ 40); [intros u E; discriminate|]. apply (rep_here (bs "$NP") (bs "1") (bs ") $FG") (bs ") $FG")).
    do 5 (apply rep_skip; [intros u E; discriminate|]). apply rep_nil.
  - do 4 (apply rep_skip; [intros u E; discriminate|]). exact (rep_here (bs "$FG") (bs "$1") [] [] (rep_nil _ _)).
Qed.
Example C70_witness : supported us /\ FormatByPattern shipped us NATIONAL [dotted] = Ret (bs "(1) 650.253.0000")
  /\ FormatByPattern shipped us INTERNATIONAL [dotted] = Ret (bs "+1 650.253.0000") /\ usable (bs "1") dotted.
Proof.
  split; [vm_compute; reflexivity|]. split; [vm_compute; reflexivity|]. split; [vm_compute; reflexivity|]. split; [|split].
  - apply framed_b_ok. vm_compute. reflexivity.
  - intros p [].
  - intros u F. assert (E : Some u = Some (bs "(1) $1")) by (eapply C70_filled_determined; [|exact F|exact dotted_replaced]; vm_compute; intuition discriminate). injection E as ->.
    exists (bs "(1) $1.$2.$3"), [], 49, (bs ".$2.$3"), (bs "(1) "), []. repeat split; vm_compute; intuition discriminate.
Qed.
(** C70: a national prefix written right after the first group runs into the group reference, and the number is lost. *)
Theorem C70_adjacent_refuted : exists n f s, supported n /\ FormatByPattern shipped n NATIONAL [f] = Ret s /\ get_npfr f = bs "$FG$NP" /\ NormalizeDigitsOnly s = bs "2530000".
Proof. exists us, (rule_of (bs "(\d{3})(\d{3})(\d{4})") (bs "$1.$2.$3") (bs "$FG$NP")), (bs ".253.0000"). vm_compute. auto. Qed.
Print Assumptions C70_adjacent_refuted.
(** C70: E164 text from FormatByPattern is not E164: it has separators and the extension. *)
Theorem C70_e164_refuted : exists n s, supported n /\ FormatByPattern shipped n E164 [dotted] = Ret s /\ s = bs "+1650.253.0000 ext. 12".
Proof. exists (set_ext us (Some (bs "12"))), (bs "+1650.253.0000 ext. 12"). vm_compute. auto. Qed.
Print Assumptions C70_e164_refuted.

(** C71: FormatInOriginalFormat. A raw input to which no rule of the metadata applies is printed as it is. Otherwise the text is
    NATIONAL when it is not known how the number was typed; else the text for the way it was typed, or the raw input if that has
    other diallable characters. *)
Lemma shipped_no_zz : ~ In (bs "ZZ") (c_regions shipped).
Proof. intros I. apply mem_bytes_iff in I. assert (E : mem_bytes (bs "ZZ") (c_regions shipped) = false) by (vm_compute; reflexivity). rewrite E in I. discriminate. Qed.
Theorem C71_original : forall n from s, FormatInOriginalFormat shipped n from = Ret s ->
  (get_raw n <> [] /\ ~ has_rule shipped n /\ s = get_raw n) \/
  ((get_raw n = [] \/ has_rule shipped n) /\ get_src n = UNSPECIFIED /\ Format shipped n NATIONAL = Ret s) \/
  ((get_raw n = [] \/ has_rule shipped n) /\ get_src n <> UNSPECIFIED /\ exists t, as_typed shipped n from t /\
     (get_raw n = [] \/ t = [] \/ filter diallable t = filter diallable (get_raw n) -> s = t) /\
     (get_raw n <> [] -> t <> [] -> filter diallable t <> filter diallable (get_raw n) -> s = get_raw n)).
Proof. intros n from s H. exact (original_full shipped n from s shipped_wf shipped_rules shipped_no_zz H). Qed.
Print Assumptions C71_original.
Definition typed (src : ccsource) (raw : bytes) (n : phone) : phone := with_src src (with_raw raw n).
Example C71_witness : FormatInOriginalFormat shipped (typed FROM_DEFAULT_COUNTRY (bs "2087654321") (num 44 2087654321)) (bs "GB") = Ret (bs "20 8765 4321")
  /\ FormatInOriginalFormat shipped (typed FROM_DEFAULT_COUNTRY (bs "02087654321") (num 44 2087654321)) (bs "GB") = Ret (bs "020 8765 4321")
  /\ FormatInOriginalFormat shipped (typed FROM_NUMBER_WITH_IDD (bs "0011442087654321") (num 44 2087654321)) (bs "AU") = Ret (bs "0011 44 20 8765 4321")
  /\ FormatInOriginalFormat shipped (typed FROM_NUMBER_WITHOUT_PLUS_SIGN (bs "442087654321") (num 44 2087654321)) (bs "GB") = Ret (bs "44 20 8765 4321")
  /\ FormatInOriginalFormat shipped (typed FROM_NUMBER_WITH_PLUS_SIGN (bs "+4420876543210") (num 44 20876543210)) (bs "GB") = Ret (bs "+4420876543210").
Proof. vm_compute. repeat split. Qed.
(** C71: of a number typed with an unsupported calling code and without a plus sign, but no raw input, the first digit is lost. *)
Theorem C71_lost_digit_refuted : exists n from s, get_src n = FROM_NUMBER_WITHOUT_PLUS_SIGN /\ GetNationalSignificantNumber n = bs "123" /\
  FormatInOriginalFormat shipped n from = Ret s /\ s = bs "23".
Proof. exists (with_src FROM_NUMBER_WITHOUT_PLUS_SIGN (num 999 123)), (bs "US"), (bs "23"). vm_compute. auto. Qed.
Print Assumptions C71_lost_digit_refuted.
