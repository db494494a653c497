(** What the as-you-type formatter takes for an international prefix. *)
From Verif Require Import Base Regex Types AsYouType.

(** What the region's expression for dialling abroad, or a plus sign, takes from the beginning of the text. *)
Definition abroad_of (m : meta) (w : bytes) : bytes :=
  match compile (bs "^(?:\+|" ++ get_bytes (md_iprefix m) ++ bs ")") with
  | Some x => match re_find x w with Some r => firstn (m_end r) w | None => [] end
  | None => []
  end.
