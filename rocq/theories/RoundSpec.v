(** When the parser's national-prefix step leaves a national number alone. *)
From Verif Require Import Base Utf8 Regex Types Validate MetaSpec ValidateSpec.

(** What is left of a number once a match g of the region's national-prefix expression is taken away: the rest, or, when the
    region rewrites and the expression's last group took part in the match, the rewritten number. *)
Definition left_over (m : meta) (x : re) (s : bytes) (g : mres) : bytes :=
  if is_empty (get_bytes (md_np_transform m)) || negb (is_some (group g (re_ngroups x))) then skipn (m_end g) s
  else re_replace_all x s (get_bytes (md_np_transform m)).

(** The number has no national prefix, or it has one but is a complete number of the region only with it. *)
Definition unstripped (m : meta) (s : bytes) : Prop :=
  get_bytes (md_np_parse m) = [] \/
  forall x g, compile (anchored_left (get_bytes (md_np_parse m))) = Some x -> re_find x s = Some g ->
    left_over m x s g = s \/
    (full_match (get_d_pattern (md_general m)) s /\ ~ full_match (get_d_pattern (md_general m)) (left_over m x s g)).
