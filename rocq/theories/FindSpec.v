(** Vocabulary for statements about which numbers a text search must find. *)
From Verif Require Import Base UnicodeTables Utf8 Utf8Facts Types Validate Parse Matcher MatcherSpec.

(** The characters with which a number in a text can begin: a decimal digit of any script, an opening bracket or a plus sign (the last two also full width). *)
Definition opens (c : N) : bool := is_Nd c || existsb (N.eqb c) [40; 91; 65288; 65339; 43; 65291].
(** Text in which no number can begin: any text in UTF-8 without these characters. *)
Definition quiet (u : bytes) : Prop := exists l, Forall scalar l /\ u = encode_runes l /\ Forall (fun c => opens c = false) l.

(** A number as people write it: groups of one to twenty digits, at most twenty-one of them, with one to four spaces, hyphens and dots between two groups; a plus sign may come first. *)
Definition digit_group (d : bytes) : Prop := Forall (fun c => 48 <= c <= 57) d /\ (1 <= length d <= 20)%nat.
Definition gap (g : bytes) : Prop := Forall (fun c => c = 32 \/ c = 45 \/ c = 46) g /\ (1 <= length g <= 4)%nat.
Definition written (w : bytes) : Prop := exists p d l, (p = [] \/ p = [43]) /\ digit_group d /\ Forall (fun x => gap (fst x) /\ digit_group (snd x)) l /\ (length l <= 20)%nat /\
  w = p ++ d ++ concat (map (fun x => fst x ++ snd x) l).

(** Characters that occur neither between the groups of one number nor in the mark of an extension. Between two numbers there must be one, so that they cannot be read as one. *)
Definition breaking : list N := 10 :: bs "!""$%&'*+<>?@_bcdfghjklmpqruvwyzBCDFGHJKLMPQRUVWYZ".
(** The text between a number and the pieces after it keeps them apart. *)
Definition apart (u : bytes) (rest : list (bytes * bytes)) : Prop :=
  match rest with [] => True | (w, _) :: _ => (exists t, w = 43 :: t) \/ exists c, In c u /\ In c breaking end.

(** The neighbours of a number, when the leniency looks at them (from VALID on): not a Latin letter, not a percent or currency sign. *)
Definition fine (l : leniency) (c : N) : Prop := (1 <= l)%Z -> word_char c = false /\ amount_char c = false.
(** [laid l pre ps]: the pieces ps, each a number and the text after it, follow the text pre in such a way that the numbers can be told apart from what is around them. *)
Inductive laid (l : leniency) : bytes -> list (bytes * bytes) -> Prop :=
  | laid_nil pre : laid l pre []
  | laid_cons pre w u rest : written w -> pre = [] \/ (exists t, w = 43 :: t) \/ fine l (decode_last_rune pre) -> quiet u -> (forall c t, decode_rune u = Some (c, t) -> fine l c) ->
      apart u rest -> laid l (pre ++ w ++ u) rest -> laid l pre ((w, u) :: rest).
(** The whole text. *)
Definition laid_text (u : bytes) (ps : list (bytes * bytes)) : bytes := u ++ concat (map (fun x => fst x ++ snd x) ps).

(** What the search should hand over: for each piece in turn a match at its place, with its text and the number it stands for. *)
Fixpoint hits (pos : nat) (ps : list (bytes * bytes)) (ns : list phone) : list (option pmatch) :=
  match ps, ns with
  | (w, u) :: ps, n :: ns => Some {| pm_start := pos; pm_raw := w; pm_number := n |} :: hits (pos + length w + length u) ps ns
  | _, _ => []
  end.
(** A text stands for a number at the requested leniency. The fields that describe how the text was read are not part of the match. *)
Definition stands (C : container) (A : alt_map) (region : bytes) (l : leniency) (w : bytes) (n : phone) : Prop :=
  exists r, ParseAndKeepRawInput C w region = Ret (r, None) /\ Verify C A l r w = Ret true /\ n = set_carrier (set_raw (set_src r None) None) None.
