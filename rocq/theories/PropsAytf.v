(** C33-C35 and C46: the as-you-type formatter after any sequence of keys, for any metadata unless stated otherwise. *)
From Verif Require Import Base BaseFacts Utf8 Utf8Facts NormalizeSpec Types Shipped Validate MetaSpec FormatMore AsYouType AytfSpec AytfFacts AytfMore AytfDigits.

(** After any keys, Clear gives back a new formatter for the same region: same outputs and positions ever after. *)
Theorem C33_clear : forall C region ks s, press C (GetAsYouTypeFormatter C region) ks = Ret s ->
  forall more, observe C (Clear C s) more = observe C (GetAsYouTypeFormatter C region) more.
Proof. intros C region ks s H more. apply press_new in H as (ns & _ & _ & R). rewrite clear_new, R. reflexivity. Qed.
Print Assumptions C33_clear.
Definition german := map Digit (bs "+49301234").
Example C33_witness : exists s, press shipped (GetAsYouTypeFormatter shipped (bs "US")) german = Ret s /\ f_out s = bs "+49 30 1234" /\
  f_out (Clear shipped s) = [] /\
  observe shipped (Clear shipped s) (map Digit (bs "6502")) = Ret [(bs "6", 0%nat); (bs "65", 0%nat); (bs "650", 0%nat); (bs "650-2", 0%nat)] /\
  observe shipped s (map Digit (bs "6502")) <> observe shipped (Clear shipped s) (map Digit (bs "6502")).
Proof. eexists. split; [vm_compute; reflexivity|]. split; [vm_compute; reflexivity|]. split; [vm_compute; reflexivity|]. split; [vm_compute; reflexivity|]. vm_compute. discriminate. Qed.

(** As soon as a typed character is neither a decimal digit nor a leading plus sign, the output is exactly what was typed. *)
Theorem C34_verbatim : forall C region ks s, press C (GetAsYouTypeFormatter C region) ks = Ret s -> dialled (typed ks) = false ->
  f_out s = encode_runes (typed ks).
Proof.
  intros C region ks s H D. apply press_new in H as (ns & [G1 G2 G3 G4 G5 G6 G7] & S & _). rewrite D in G3. cbn in G3.
  destruct (S (G7 G3)) as [->|[U _]]; [exact G1|congruence].
Qed.
Print Assumptions C34_verbatim.
Example C34_verbatim_witness : exists s, press shipped (GetAsYouTypeFormatter shipped (bs "US")) (map Digit (bs "650-2532")) = Ret s /\ f_out s = bs "650-2532".
Proof. eexists. split; vm_compute; reflexivity. Qed.

(** The remembered position is never outside the output, and asking for it never panics. *)
Theorem C35_position : forall C region ks s, press C (GetAsYouTypeFormatter C region) ks = Ret s ->
  exists p, GetRememberedPosition s = Ret p /\ (p <= length (runes (f_out s)))%nat.
Proof. intros C region ks s H. eapply position_bound. apply press_new. exact H. Qed.
Print Assumptions C35_position.
Example C35_witness : exists s, press shipped (GetAsYouTypeFormatter shipped (bs "US")) (map Digit (bs "65") ++ [DigitRemember 48] ++ map Digit (bs "2532222")) = Ret s /\
  f_out s = bs "(650) 253-2222" /\ GetRememberedPosition s = Ret 4%nat.
Proof. eexists. split; [vm_compute; reflexivity|]. split; vm_compute; reflexivity. Qed.

(** No sequence of keys makes the formatter panic: every output and every remembered position exists. This holds for metadata
    whose expressions compile and have the simple shape that [aytf_ok] asks for, and the shipped metadata is like that. *)
Lemma shipped_aytf_geo : forallb (fun e => aytf_meta_okb (getMetadataForRegion shipped (GetRegionCodeForCountryCode shipped (fst e)))) (c_cc2region shipped) = true.
Proof. vm_cast_no_check (eq_refl true). Qed.
Lemma shipped_aytf_nongeo : forallb (fun e => aytf_meta_okb (Some (snd e))) (c_nongeo shipped) = true.
Proof. vm_cast_no_check (eq_refl true). Qed.
Lemma shipped_aytf_none : aytf_meta_okb None = true /\ getMetadataForRegion shipped Consts.unknownRegion = None.
Proof. split; vm_compute; reflexivity. Qed.
Lemma shipped_aytf_ok : aytf_ok shipped.
Proof.
  pose proof shipped_aytf_geo as G. pose proof shipped_aytf_nongeo as X. destruct shipped_aytf_none as [Z0 Z1]. rewrite forallb_forall in G, X. split; intros cc.
  - destruct (assocz cc (c_cc2region shipped)) as [l|] eqn:E; [exact (G _ (assocz_In _ _ _ E))|]. unfold GetRegionCodeForCountryCode, regions_of. rewrite E, Z1. exact Z0.
  - unfold getMetadataForNonGeographicalRegion. destruct (hasValidCountryCallingCode shipped cc); [|exact Z0]. destruct (assocz cc (c_nongeo shipped)) as [m|] eqn:E; [|exact Z0]. exact (X _ (assocz_In _ _ _ E)).
Qed.
Lemma observe_total C region ks : aytf_ok C -> total (observe C (GetAsYouTypeFormatter C region) ks).
Proof.
  intros CO. assert (H : forall ts s, good_out C region ts s -> (f_userfmt s = false -> np 3 s) -> total (observe C s ks)).
  { induction ks as [|k ks IH]; intros ts s G N; cbn [observe]; [apply total_ret|]. pose proof (press_total C region [k] CO ts s G N) as T. cbn [press] in T.
    pose proof (press_one_good C region ts s k G) as G'. destruct (press_one_np C region ts s k CO G N) as (s' & E & N'). rewrite E in *. cbn [bind] in *. clear T.
    destruct (position_bound C region (typed_by ts k) s' G') as (p & -> & _). cbn [bind]. destruct (IH _ _ G' N') as (l & ->). cbn [bind]. apply total_ret. }
  eapply H; [apply good_new|]. intros _. apply new_np. exact CO.
Qed.
Theorem C46_as_you_type : forall C region ks, aytf_ok C ->
  total (press C (GetAsYouTypeFormatter C region) ks) /\ total (observe C (GetAsYouTypeFormatter C region) ks).
Proof. intros C region ks CO. split; [eapply press_total; [exact CO|apply good_new|intros _; apply new_np; exact CO]|apply observe_total; exact CO]. Qed.
Print Assumptions C46_as_you_type.
Theorem C46_as_you_type_shipped : forall region ks, total (press shipped (GetAsYouTypeFormatter shipped region) ks) /\ total (observe shipped (GetAsYouTypeFormatter shipped region) ks).
Proof. intros region ks. apply C46_as_you_type. apply shipped_aytf_ok. Qed.
Print Assumptions C46_as_you_type_shipped.

(** Digits only (with an optional leading ASCII plus sign): nothing that was not typed is shown. The output is what was typed, or
    the diallable characters of the output are the typed ones (as ASCII digits), in order, possibly without some of them. *)
Theorem C34_nothing_invented : forall C region ks s, aytf_ok C -> press C (GetAsYouTypeFormatter C region) ks = Ret s -> dialled (typed ks) = true -> hd 0 (typed ks) <> 65291 ->
  f_out s = encode_runes (typed ks) \/ part_of (filter diallable (f_out s)) (plain_of (typed ks)).
Proof. intros C region ks s CO H D P. exact (kept false C region ks s CO ltac:(discriminate) H D P). Qed.
Print Assumptions C34_nothing_invented.
(** If the first digit of a number tells the length of its national prefix, nothing is lost either. *)
Theorem C34_nothing_lost : forall C region ks s, aytf_ok C -> fixed_ndd (aytf_metadata C region) = true ->
  press C (GetAsYouTypeFormatter C region) ks = Ret s -> dialled (typed ks) = true -> hd 0 (typed ks) <> 65291 ->
  f_out s = encode_runes (typed ks) \/ filter diallable (f_out s) = plain_of (typed ks).
Proof. intros C region ks s CO F H D P. exact (kept true C region ks s CO (fun _ => F) H D P). Qed.
Print Assumptions C34_nothing_lost.
(** On the shipped metadata that is so for every region (supported or not) but seven. *)
Definition variable_prefix : list bytes := [bs "AR"; bs "BO"; bs "BR"; bs "BY"; bs "CO"; bs "JP"; bs "KR"].
Lemma shipped_fixed : forallb (fun r => mem_bytes r variable_prefix || fixed_ndd (aytf_metadata shipped r)) (c_regions shipped) = true.
Proof. vm_cast_no_check (eq_refl true). Qed.
Lemma shipped_fixed_none : (match getMetadataForRegion shipped (GetRegionCodeForCountryCode shipped 0) with Some _ => false | None => true end) = true /\ fixed_ndd (Some emptyMetadata) = true.
Proof. split; vm_compute; reflexivity. Qed.
Lemma mem_bytes_In x l : mem_bytes x l = true <-> In x l.
Proof. induction l as [|y l IH]; cbn [mem_bytes In]; [split; [discriminate|intros []]|]. rewrite orb_true_iff, IH, beq_eq. intuition congruence. Qed.
Lemma shipped_fixed_all region : ~ In region variable_prefix -> fixed_ndd (aytf_metadata shipped region) = true.
Proof.
  intros H. destruct (isValidRegionCode shipped region) eqn:V.
  - unfold isValidRegionCode in V. apply andb_prop in V as [_ V]. apply mem_bytes_In in V. pose proof shipped_fixed as F. rewrite forallb_forall in F. specialize (F region V). cbv beta in F. apply orb_prop in F as [F|F]; [|exact F]. apply mem_bytes_In in F. contradiction.
  - unfold aytf_metadata, GetCountryCodeForRegion. rewrite V. cbn [negb]. destruct shipped_fixed_none as [A B]. destruct (getMetadataForRegion shipped (GetRegionCodeForCountryCode shipped 0)); [discriminate|exact B].
Qed.
Theorem C34_nothing_lost_shipped : forall region ks s, ~ In region variable_prefix ->
  press shipped (GetAsYouTypeFormatter shipped region) ks = Ret s -> dialled (typed ks) = true -> hd 0 (typed ks) <> 65291 ->
  f_out s = encode_runes (typed ks) \/ filter diallable (f_out s) = plain_of (typed ks).
Proof. intros region ks s R. apply C34_nothing_lost; [apply shipped_aytf_ok|apply shipped_fixed_all; exact R]. Qed.
Print Assumptions C34_nothing_lost_shipped.
Example C34_nothing_lost_witness : exists s, press shipped (GetAsYouTypeFormatter shipped (bs "GB")) (map Digit (bs "02087389353")) = Ret s /\
  f_out s = bs "020 8738 9353" /\ dialled (bs "02087389353") = true /\ filter diallable (f_out s) = bs "02087389353" /\ ~ In (bs "GB") variable_prefix.
Proof.
  eexists. split; [vm_compute; reflexivity|]. split; [vm_compute; reflexivity|]. split; [vm_compute; reflexivity|]. split; [vm_compute; reflexivity|].
  rewrite <- mem_bytes_In. vm_compute. discriminate.
Qed.
(** Finding: in Brazil twelve of the digits typed disappear from the output. *)
Theorem C34_nothing_lost_refuted : exists ks s, press shipped (GetAsYouTypeFormatter shipped (bs "BR")) ks = Ret s /\ typed ks = bs "015123456789112345678222222" /\
  f_out s = bs "02345678222222 " /\ f_out s <> encode_runes (typed ks) /\ filter diallable (f_out s) <> plain_of (typed ks).
Proof.
  exists (map Digit (bs "015123456789112345678222222")). eexists. split; [vm_compute; reflexivity|]. split; [vm_compute; reflexivity|]. split; [vm_compute; reflexivity|]. split; vm_compute; discriminate.
Qed.
Print Assumptions C34_nothing_lost_refuted.
