(** C80: what the remembered position means. *)
From Verif Require Import Base BaseFacts Utf8 Utf8Facts NormalizeSpec Types Shipped Validate MetaSpec FormatMore AsYouType AytfSpec AytfFacts AytfMore AytfDigits PropsAytf PosSpec PosFacts.

(** While the formatter formats, the position is right after the character that was to be remembered, wherever that is in the output now. *)
Theorem C80_adjusted : forall C region ks s p, aytf_ok C -> fixed_ndd (aytf_metadata C region) = true -> press C (GetAsYouTypeFormatter C region) ks = Ret s ->
  keypad (typed ks) = true -> f_able s = true -> GetRememberedPosition s = Ret p -> just_after (runes (f_out s)) (typed ks) (marked ks) p.
Proof. exact position_at. Qed.
Print Assumptions C80_adjusted.
Theorem C80_adjusted_shipped : forall region ks s p, ~ In region variable_prefix -> press shipped (GetAsYouTypeFormatter shipped region) ks = Ret s ->
  keypad (typed ks) = true -> f_able s = true -> GetRememberedPosition s = Ret p -> just_after (runes (f_out s)) (typed ks) (marked ks) p.
Proof. intros region ks s p R. exact (position_at shipped region ks s p shipped_aytf_ok (shipped_fixed_all region R)). Qed.
Print Assumptions C80_adjusted_shipped.
(** When it has given up, the position is the number of characters typed up to that character. *)
Theorem C80_given_up : forall C region ks s, press C (GetAsYouTypeFormatter C region) ks = Ret s -> f_able s = false -> GetRememberedPosition s = Ret (marked ks).
Proof. intros C region ks s E A. unfold GetRememberedPosition. rewrite A. cbn [negb]. f_equal. exact (proj1 (marks_new _ _ _ _ E)). Qed.
Print Assumptions C80_given_up.
(** So it is when the user formats, whatever the metadata: the output is what was typed. *)
Theorem C80_own_formatting : forall C region ks s, press C (GetAsYouTypeFormatter C region) ks = Ret s -> dialled (typed ks) = false ->
  f_out s = encode_runes (typed ks) /\ GetRememberedPosition s = Ret (marked ks).
Proof.
  intros C region ks s E D. split; [eapply C34_verbatim; eassumption|]. eapply C80_given_up; [exact E|]. apply press_new in E as (ns & G & _). apply (g_able _ _ _ G). rewrite (g_user _ _ _ G), D. reflexivity.
Qed.
Print Assumptions C80_own_formatting.
(** And whenever the output is what was typed on a keypad. *)
Theorem C80_unformatted : forall C region ks s p, aytf_ok C -> fixed_ndd (aytf_metadata C region) = true -> press C (GetAsYouTypeFormatter C region) ks = Ret s -> keypad (typed ks) = true ->
  f_out s = typed ks -> GetRememberedPosition s = Ret p -> p = marked ks.
Proof.
  intros C region ks s p CO FN E K O P. destruct (f_able s) eqn:A; [|rewrite (C80_given_up _ _ _ _ E A) in P; congruence].
  destruct (position_at C region ks s p CO FN E K A P) as (F & L & Q). destruct (keypad_dialled _ K) as (_ & _ & _ & _ & Ru & Fi). rewrite O, Ru in F, Q.
  assert (Ff : forall q, filter diallable (firstn q (typed ks)) = firstn q (typed ks)).
  { intros q. rewrite <- Fi at 1. rewrite <- Fi in Fi at 1. clear - K. assert (H : forall c, In c (typed ks) -> diallable c = true) by (intros c Hc; rewrite <- (proj2 (proj2 (proj2 (proj2 (proj2 (keypad_dialled _ K)))))) in Hc; apply filter_In in Hc; apply Hc).
    rewrite (proj2 (proj2 (proj2 (proj2 (proj2 (keypad_dialled _ K)))))). clear K. revert q. induction (typed ks) as [|c l IH]; intros [|q]; try reflexivity. cbn [firstn filter]. rewrite (H c (or_introl eq_refl)), IH by (intros; apply H; right; assumption). reflexivity. }
  rewrite Ff in F. apply (f_equal (@length N)) in F. rewrite !firstn_length in F. destruct Q as [[-> ->]|(c & N1 & _ & N3)]; [reflexivity|]. assert ((p - 1 < length (typed ks))%nat) by (apply nth_error_Some; congruence). lia.
Qed.
Print Assumptions C80_unformatted.
(** The second digit is remembered; more digits move it behind a bracket, and back when the formatter gives up. *)
Definition marked_second (rest : bytes) : list key := Digit 54 :: DigitRemember 53 :: map Digit rest.
Example C80_witness : marked (marked_second (bs "02532222")) = 2%nat /\ keypad (typed (marked_second (bs "02532222"))) = true /\ ~ In (bs "US") variable_prefix /\
  (exists s, press shipped (GetAsYouTypeFormatter shipped (bs "US")) (marked_second (bs "02532222")) = Ret s /\ f_out s = bs "(650) 253-2222" /\ f_able s = true /\ GetRememberedPosition s = Ret 3%nat) /\
  (exists s, press shipped (GetAsYouTypeFormatter shipped (bs "US")) (marked_second (bs "025322222")) = Ret s /\ f_out s = bs "65025322222" /\ f_able s = false /\ GetRememberedPosition s = Ret 2%nat) /\
  exists s, press shipped (GetAsYouTypeFormatter shipped (bs "US")) (marked_second (bs "-02")) = Ret s /\ f_out s = bs "65-02" /\ dialled (typed (marked_second (bs "-02"))) = false /\ GetRememberedPosition s = Ret 2%nat.
Proof.
  split; [reflexivity|]. split; [vm_compute; reflexivity|]. split; [rewrite <- mem_bytes_In; vm_compute; discriminate|]. split; [|split]; eexists; (split; [vm_compute; reflexivity|]); (split; [vm_compute; reflexivity|]); (split; [vm_compute; reflexivity|]); vm_compute; reflexivity.
Qed.
(** Finding: a formatter that has given up can show formatted text all the same, and then the position is wrong. In Chile, 1100 is an exit
    prefix that is noticed late. The 2 is remembered; the output is cut before it, between the calling code and the number. *)
Definition marked_late : list key := map Digit (bs "1100431") ++ DigitRemember 50 :: map Digit (bs "345678").
Theorem C80_given_up_refuted : exists s, press shipped (GetAsYouTypeFormatter shipped (bs "CL")) marked_late = Ret s /\ keypad (typed marked_late) = true /\ ~ In (bs "CL") variable_prefix /\ marked marked_late = 8%nat /\
  f_out s = bs "1100 43 1 2345678" /\ GetRememberedPosition s = Ret 8%nat /\ ~ just_after (runes (f_out s)) (typed marked_late) (marked marked_late) 8.
Proof.
  eexists. split; [vm_compute; reflexivity|]. split; [vm_compute; reflexivity|]. split; [rewrite <- mem_bytes_In; vm_compute; discriminate|]. split; [vm_compute; reflexivity|]. split; [vm_compute; reflexivity|]. split; [vm_compute; reflexivity|].
  intros (F & _). vm_compute in F. discriminate.
Qed.
Print Assumptions C80_given_up_refuted.
(** Finding: digits of other scripts are shown as typed but looked for as ASCII digits, so the position is at the end of the output. *)
Theorem C80_scripts_refuted : exists ks s, press shipped (GetAsYouTypeFormatter shipped (bs "US")) ks = Ret s /\ typed ks = [1638; 1637] /\ dialled (typed ks) = true /\ f_able s = true /\ marked ks = 1%nat /\
  runes (f_out s) = typed ks /\ GetRememberedPosition s = Ret 2%nat.
Proof.
  exists [DigitRemember 1638; Digit 1637]. eexists. split; [vm_compute; reflexivity|]. split; [reflexivity|]. split; [vm_compute; reflexivity|]. split; [vm_compute; reflexivity|]. split; [reflexivity|]. split; vm_compute; reflexivity.
Qed.
Print Assumptions C80_scripts_refuted.
