(** What the as-you-type formatter does with a number typed as it is dialled at home: which digits it takes for the national prefix, which rules it
    considers and what it writes between the prefix and the number. *)
From Verif Require Import Base Utf8 Regex Consts Types Normalize Validate Format AsYouType.

(** The expression listed for dialling abroad, or a plus sign, begins the text. *)
Definition dials_abroad (m : meta) (w : bytes) : bool :=
  match compile (bs "^(?:\+|" ++ get_bytes (md_iprefix m) ++ bs ")") with Some x => re_match x w | None => false end.
(** What the expression for the national prefix takes from the beginning of the text. *)
Definition prefix_of (m : meta) (w : bytes) : bytes :=
  match get_bytes (md_np_parse m) with
  | [] => []
  | p => match compile (bs "^(?:" ++ p ++ bs ")") with
         | Some x => match re_find x w with Some r => firstn (m_end r) w | None => [] end
         | None => []
         end
  end.
(** Only references to groups and punctuation, the first reference being $1. *)
Definition simple_format (f : nfmt) : bool := re_match eligibleFormatPattern (get_format f).
(** The rule prints the number without a national prefix. *)
Definition bare_rule (f : nfmt) : bool := mem_bytes (get_npfr f) [bs ""; bs "$1"; bs "($1"; bs "$1)"; bs "($1)"].
(** The rules that fit a number typed with, or without, the national prefix. *)
Definition fits (typed_prefix : bool) (f : nfmt) : bool :=
  (if typed_prefix then negb (bare_rule f) || get_npopt f || negb (is_empty (get_dccfr f)) else bare_rule f || get_npopt f) && simple_format f.
(** A space after the prefix, if the rule puts a space or a dash somewhere in its own prefix text. *)
Definition gap_of (prefix : bytes) (f : nfmt) : bytes :=
  if existsb (fun c => (c =? 32) || (c =? 45)) (get_npfr f) then match prefix with [] => [] | _ => bs " " end else [].
