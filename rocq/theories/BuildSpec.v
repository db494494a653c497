(** Small specification for the metadata container and the metadata builder. *)
From Verif Require Import Base Types.
From Coq Require Import Sorted.

(** [m] is the last element of [l] with the property. *)
Definition last_with {A} (P : A -> Prop) (l : list A) (m : A) : Prop := exists a b, l = a ++ m :: b /\ P m /\ forall x, In x b -> ~ P x.
Definition id_of (m : meta) : bytes := get_bytes (md_id m).
Definition code_of (m : meta) : Z := match md_cc m with Some c => c | None => 0%Z end.
Definition main_of (m : meta) : bool := get_bool (md_main m).

(** A possible-length specification: single lengths and ranges, as in "4,[6-8]". *)
Inductive item := One (n : N) | Range (a b : N).
Definition show (i : item) : bytes := match i with One n => dec n | Range a b => bs "[" ++ dec a ++ bs "-" ++ dec b ++ bs "]" end.
Definition spec_text (l : list item) : bytes := join (map show l) (bs ",").
(** Ranges have at least three members; lengths fit 31 bits. *)
Definition proper (i : item) : Prop := match i with One n => n < 2147483648 | Range a b => a + 2 <= b /\ b < 2147483648 end.
Definition covers (i : item) (x : Z) : Prop := match i with One n => x = Z.of_N n | Range a b => (Z.of_N a <= x <= Z.of_N b)%Z end.
Definition increasing (l : list Z) : Prop := StronglySorted Z.lt l.
