(** Vocabulary for statements about finding numbers in text. *)
From Verif Require Import Base UnicodeTables Utf8 Types Validate Parse Matcher MetaSpec.
From Coq Require Import Sorting.Sorted.

(** [occurs text s i]: text[i:i+len(s)] is a legal slice and equals s. *)
Definition occurs (text s : bytes) (i : nat) : Prop := exists a b, text = a ++ s ++ b /\ length a = i.

(** One match ends before the next begins. *)
Definition before (p q : pmatch) : Prop := (pm_start p + length (pm_raw p) <= pm_start q)%nat.

(** Letters and marks that make a digit string beside them part of a word: Latin script letters and non-spacing marks, and the
    combining diacriticals U+0300-U+036F. Symbols that make it an amount: the percent sign and the currency symbols. *)
Definition word_char (c : N) : bool := (is_L c || in_table tab_Mn c) && (in_table tab_Latin c || ((768 <=? c) && (c <=? 879))).
Definition amount_char (c : N) : bool := (c =? 37) || in_table tab_Sc c.

(** A text starts with an opening bracket or a plus sign (ASCII or full width). *)
Definition starts_as_number (s : bytes) : Prop := exists c t, decode_rune s = Some (c, t) /\ In c [40; 91; 65288; 65339; 43; 65291].

(** The alternate formats have patterns that compile. *)
Definition alt_ok (A : alt_map) : Prop := forall cc m, In (cc, m) A -> Forall wf_format (md_nf m).

(** The characters beside an occurrence of s at offset i do not make it part of a word or an amount. The one before is
    not looked at when s itself starts with an opening bracket or a plus sign. *)
Definition neighbours_ok (text s : bytes) (i : nat) : Prop := exists a b, text = a ++ s ++ b /\ length a = i /\
  (a <> [] -> starts_as_number s \/ (word_char (decode_last_rune a) = false /\ amount_char (decode_last_rune a) = false)) /\
  (forall c t, decode_rune b = Some (c, t) -> word_char c = false /\ amount_char c = false).

(** A match m of the text, as the caller asked for it. *)
Definition good_match (C : container) (A : alt_map) (text region : bytes) (l : leniency) (m : pmatch) : Prop :=
  occurs text (pm_raw m) (pm_start m) /\ pm_raw m <> [] /\
  (exists n, ParseAndKeepRawInput C (pm_raw m) region = Ret (n, None) /\ Verify C A l n (pm_raw m) = Ret true /\
     pm_number m = set_carrier (set_raw (set_src n None) None) None) /\
  ((1 <= l)%Z -> neighbours_ok text (pm_raw m) (pm_start m)).

(** A history of calls on one matcher: the results of the calls of next, in order. *)
Inductive mcall := CallHasNext | CallNext.
Fixpoint calls (C : container) (A : alt_map) (h : list mcall) (m : matcher) : M (list (option pmatch) * matcher) :=
  match h with
  | [] => Ret ([], m)
  | CallHasNext :: h => r <- hasNext C A m ;; calls C A h (fst r)
  | CallNext :: h => r <- next C A m ;; r' <- calls C A h (fst r) ;; Ret (snd r :: fst r', snd r')
  end.
Definition is_next (c : mcall) : bool := match c with CallNext => true | CallHasNext => false end.

(** How many substrings were parsed and then not returned as a match, in a run that produced ms and left the matcher m. *)
Definition rejected (m : matcher) (ms : list pmatch) : Z := (Z.of_nat (w_calls (mx_work m)) - Z.of_nat (length ms))%Z.
