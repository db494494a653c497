(** Properties C01-C03: string normalisation. Statements only; proofs are in NormalizeFacts.v, specifications in
    NormalizeSpec.v. [runes s] are the code points Go's [range] visits, U+FFFD for each invalid byte. *)
From Coq Require Import List NArith ZArith Bool.
From Verif Require Import Base BaseFacts Utf8 Utf8Facts Normalize NormalizeSpec NormalizeFacts.
Import ListNotations.
Local Open Scope N_scope.

(** C01: exactly the Unicode decimal digits, as ASCII digits, in order. *)
Theorem C01_digits_only : forall s : bytes, NormalizeDigitsOnly s = digits_of (runes s).
Proof. exact NormalizeDigitsOnly_spec. Qed.
Print Assumptions C01_digits_only.

(** C01 on well-formed UTF-8: for any sequence of Unicode scalar values. *)
Theorem C01_digits_only_utf8 : forall l : list N, Forall scalar l -> NormalizeDigitsOnly (encode_runes l) = digits_of l.
Proof. intros l H. rewrite NormalizeDigitsOnly_spec, runes_encode; auto. Qed.
Print Assumptions C01_digits_only_utf8.

Theorem C01_only_ascii_digits : forall s c, In c (NormalizeDigitsOnly s) -> 48 <= c <= 57.
Proof. intros s c. apply all_digits_In, NormalizeDigitsOnly_digits. Qed.
Print Assumptions C01_only_ascii_digits.

Theorem C01_idempotent : forall s, NormalizeDigitsOnly (NormalizeDigitsOnly s) = NormalizeDigitsOnly s.
Proof. exact NormalizeDigitsOnly_idem. Qed.
Print Assumptions C01_idempotent.

(** Arabic-Indic and full-width digits mixed with separators and an invalid byte. *)
Example C01_witness : NormalizeDigitsOnly (encode_runes [0x663; 45; 0xFF17; 120] ++ [255; 50]) = bs "372".
Proof. vm_compute. reflexivity. Qed.
Example C01_witness_scalar : Forall scalar [0x663; 45; 0xFF17; 120].
Proof. repeat constructor; discriminate || (intros [H1 H2]; compute in H1, H2; congruence). Qed.

(** C02: the subsequence of the characters 0-9 + * #, byte for byte. *)
Theorem C02_diallable_only : forall s : bytes, NormalizeDiallableCharsOnly s = filter diallable s.
Proof. exact NormalizeDiallableCharsOnly_spec. Qed.
Print Assumptions C02_diallable_only.

Theorem C02_idempotent : forall s, NormalizeDiallableCharsOnly (NormalizeDiallableCharsOnly s) = NormalizeDiallableCharsOnly s.
Proof. intros s. rewrite !NormalizeDiallableCharsOnly_spec. apply filter_idem. Qed.
Print Assumptions C02_idempotent.

Example C02_witness : NormalizeDiallableCharsOnly (bs "+1 (800) *FLOWERS#2" ++ encode_runes [0xFF17]) = bs "+1800*#2".
Proof. vm_compute. reflexivity. Qed.

(** C03: every rune is replaced by its keypad digit or kept; in particular the runes keep their places. *)
Theorem C03_convert_alpha : forall s : bytes,
  runes (ConvertAlphaCharactersInNumber s) =
  map (fun c => match key_of_rune c with Some d => d | None => c end) (runes s).
Proof. exact runes_ConvertAlpha. Qed.
Print Assumptions C03_convert_alpha.

(** For ASCII text this is a byte-by-byte replacement: letters become their key, all other characters are unchanged. *)
Theorem C03_convert_alpha_ascii : forall s, ascii s ->
  ConvertAlphaCharactersInNumber s = map (fun c => match key_of c with Some d => d | None => c end) s.
Proof.
  intros s H. rewrite ConvertAlpha_spec, runes_ascii by exact H. unfold ascii in H. 
  replace (map convert_rune s) with (map (fun c => match key_of c with Some d => d | None => c end) s).
  - apply encode_ascii. rewrite Forall_forall in *. intros c Hc. apply in_map_iff in Hc as (x & <- & Hx). specialize (H x Hx).
    destruct (key_of x) eqn:E; auto. assert (K : key_of_rune x = Some n).
    { unfold key_of_rune. destruct (N.eqb_spec x 305); [subst; discriminate|]. destruct (N.eqb_spec x 383); [subst; discriminate|]. exact E. }
    apply key_of_digit in K. apply N.le_lt_trans with 57; [tauto|reflexivity].
  - apply map_ext_in. intros c Hc. rewrite Forall_forall in H. specialize (H c Hc). unfold convert_rune, key_of_rune.
    destruct (N.eqb_spec c 305); [subst; discriminate|]. destruct (N.eqb_spec c 383); [subst; discriminate|]. reflexivity.
Qed.
Print Assumptions C03_convert_alpha_ascii.

Theorem C03_no_letter_left : forall s c, In c (ConvertAlphaCharactersInNumber s) -> ascii_letter c = false.
Proof.
  intros s c H. destruct (ascii_letter c) eqn:L; [|reflexivity].
  assert (c < 128).
  { unfold ascii_letter in L. apply orb_true_iff in L. rewrite !in_rng_iff in L. destruct L as [[_ L]|[_ L]]; eapply N.le_lt_trans; eauto; reflexivity. }
  rewrite ConvertAlpha_spec in H. apply encode_runes_ascii_in in H; auto. apply in_map_iff in H as (x & <- & _).
  rewrite convert_rune_no_letter in L. discriminate.
Qed.
Print Assumptions C03_no_letter_left.

Theorem C03_idempotent : forall s, ConvertAlphaCharactersInNumber (ConvertAlphaCharactersInNumber s) = ConvertAlphaCharactersInNumber s.
Proof. exact ConvertAlpha_idem. Qed.
Print Assumptions C03_idempotent.

Example C03_witness : ConvertAlphaCharactersInNumber (bs "1-800-Flowers+7") = bs "1-800-3569377+7".
Proof. vm_compute. reflexivity. Qed.
Example C03_witness_ascii : ascii (bs "1-800-Flowers+7").
Proof. repeat constructor. Qed.
