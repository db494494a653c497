(** Texts that look like numbers and are not: dates, times, page references, unbalanced brackets. *)
From Verif Require Import Base Utf8.

(** Day and month: one or two digits, the first of two at most k. *)
Definition small (k : N) (s : bytes) : Prop := (exists e, s = [e] /\ is_digit e = true) \/ (exists t e, s = [t; e] /\ 48 <= t <= 48 + k /\ is_digit e = true).
(** Two digits, or four beginning with 1 or 2. *)
Definition year (s : bytes) : Prop := (exists a b, s = [a; b] /\ is_digit a = true /\ is_digit b = true) \/
  (exists m c a b, s = [m; c; a; b] /\ 49 <= m <= 50 /\ is_digit c = true /\ is_digit a = true /\ is_digit b = true).
(** 3/10/2011, 31/10/96, 08/31/95. *)
Definition slash_date (s : bytes) : Prop := exists d m y, s = d ++ 47 :: m ++ 47 :: y /\ (small 3 d /\ small 1 m \/ small 1 d /\ small 3 m) /\ year y.

(** 211-227 (2003, as in a citation. *)
Definition digits_upto (k : nat) (s : bytes) : Prop := forallb is_digit s = true /\ (1 <= length s <= k)%nat.
Definition white (c : N) : bool := (c =? 9) || (c =? 10) || (c =? 12) || (c =? 13) || (c =? 32).
Definition page_reference (s : bytes) : Prop := exists p k q ws y, s = p ++ repeat 45 (S k) ++ q ++ ws ++ 40 :: y /\
  digits_upto 5 p /\ digits_upto 5 q /\ forallb white ws = true /\ (length ws <= 4)%nat /\ digits_upto 4 y.

(** 2012-01-02 08, or 20120102 08; what follows it is :00. *)
Definition date_sep (s : bytes) : Prop := s = [] \/ s = [45] \/ s = [47].
Definition hour_stamp (s : bytes) : Prop := exists y1 y2 y3 y4 p m1 m2 q d1 d2 k h1 h2,
  s = y1 :: y2 :: y3 :: y4 :: p ++ m1 :: m2 :: q ++ d1 :: d2 :: repeat 32 (S k) ++ [h1; h2] /\
  49 <= y1 <= 50 /\ is_digit y2 = true /\ is_digit y3 = true /\ is_digit y4 = true /\ date_sep p /\ 48 <= m1 <= 49 /\ is_digit m2 = true /\
  date_sep q /\ 48 <= d1 <= 51 /\ is_digit d2 = true /\ 48 <= h1 <= 50 /\ is_digit h2 = true.
Definition minutes (s : bytes) : Prop := exists a b t, s = 58 :: a :: b :: t /\ 48 <= a <= 53 /\ is_digit b = true.

(** Brackets, round and square, ASCII and full width. *)
Definition opening (c : N) : bool := (c =? 40) || (c =? 91) || (c =? 65288) || (c =? 65339).
Definition closing (c : N) : bool := (c =? 41) || (c =? 93) || (c =? 65289) || (c =? 65341).
(** The brackets of a text, true for an opening one. *)
Definition kind (c : N) : list bool := if opening c then [true] else if closing c then [false] else [].
Definition brackets (s : bytes) : list bool := flat_map kind (runes s).
Fixpoint pairs (k : nat) : list bool := match k with O => [] | S j => true :: false :: pairs j end.
(** Brackets come in pairs that are not nested, at most four of them; only an opening bracket at the very start may stay open,
    and only the first bracket may be a closing one whose opening was left out. *)
Definition paired (s : bytes) : Prop := exists k, (brackets s = pairs k /\ (k <= 4)%nat) \/
  (brackets s = true :: pairs k /\ (k <= 3)%nat /\ exists o t, runes s = o :: t /\ opening o = true) \/ (brackets s = false :: pairs k /\ (k <= 3)%nat).
(** And there is something in every bracket. *)
Definition filled (s : bytes) : Prop := forall a o b, runes s = a ++ o :: b -> opening o = true -> exists c t, b = c :: t /\ opening c = false /\ closing c = false.
