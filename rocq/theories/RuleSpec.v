(** How a formatting rule of the metadata is chosen for a number and what it prints, in terms of the rule's own texts. *)
From Verif Require Import Base Utf8 Regex RegexSpec Consts Types Validate MetaSpec ValidateSpec FormatSpec.

(** The pattern, as it stands in the metadata, matches all of s; some beginning of s. *)
Definition matches_all (p s : bytes) : Prop := exists x cs, compile p = Some x /\ matches_at (re_ast x) s 0 (length s) cs.
Definition matches_front (p s : bytes) : Prop := exists x j cs, compile p = Some x /\ matches_at (re_ast x) s 0 j cs.

(** A rule applies to a national significant number: its pattern matches the whole number and, if it lists leading digits, the
    most detailed (last) of these patterns matches the beginning. *)
Definition applies (f : nfmt) (s : bytes) : Prop :=
  matches_all (get_pattern f) s /\ (nf_leading f = [] \/ matches_front (last (nf_leading f) []) s).

(** The rules consulted: the international list for everything but NATIONAL, when there is one. *)
Definition rules (m : meta) (nf : pformat) : list nfmt :=
  match nf with NATIONAL => md_nf m | _ => match md_inf m with [] => md_nf m | l => l end end.

(** The first rule of a list that applies, if any. *)
Definition first_applying (l : list nfmt) (s : bytes) (o : option nfmt) : Prop :=
  match o with
  | Some f => exists pre post, l = pre ++ f :: post /\ applies f s /\ forall g, In g pre -> ~ applies g s
  | None => forall g, In g l -> ~ applies g s
  end.

(** The format "a$db", d a digit and "$d" its first group reference, combined with the rule "u$1v": the reference is wrapped. *)
Definition word_char (c : N) : bool := is_digit c || ((65 <=? c) && (c <=? 90)) || ((97 <=? c) && (c <=? 122)) || (c =? 95) || (128 <=? c).
Definition combined (format rule t : bytes) : Prop := exists a d b u v,
  format = a ++ 36 :: d :: b /\ is_digit d = true /\ ~ In 36 a /\
  rule = u ++ 36 :: 49 :: v /\ ~ In 36 u /\ ~ In 36 v /\ match v with c :: _ => word_char c = false | [] => True end /\
  t = a ++ u ++ 36 :: d :: v ++ b.

(** The carrier rule "u$CCv" with a carrier code put in. *)
Definition with_carrier (rule carrier r : bytes) : Prop := exists u v, rule = u ++ bs "$CC" ++ v /\ ~ In 36 u /\ r = u ++ carrier ++ v.

(** The template a rule stands for: only NATIONAL uses the carrier rule, and the national prefix rule when there is no carrier
    or no carrier rule. *)
Definition template (f : nfmt) (nf : pformat) (carrier t : bytes) : Prop :=
  match nf with
  | NATIONAL =>
      if negb (is_empty carrier) && negb (is_empty (get_dccfr f))
      then exists r, with_carrier (get_dccfr f) carrier r /\ combined (get_format f) r t
      else if is_empty (get_npfr f) then t = get_format f else combined (get_format f) (get_npfr f) t
  | _ => t = get_format f
  end.

(** The national significant number s as printed in NATIONAL or INTERNATIONAL format. *)
Definition printed (m : meta) (nf : pformat) (carrier s o : bytes) : Prop := exists r, first_applying (rules m nf) s r /\
  match r with
  | None => o = s
  | Some f => exists x t, compile (get_pattern f) = Some x /\ template f nf carrier t /\ o = re_replace_all x s t
  end.

(** The metadata consulted for a calling code: that of the first region listed for it. *)
Definition main_entry (C : container) (cc : Z) (m : meta) : Prop := exists r rest,
  assocz cc (c_cc2region C) = Some (r :: rest) /\ meta_of C cc r = Some m.

(** What is printed for an extension: the region's own prefix or " ext. " before it. *)
Definition extension_text (m : meta) (e : bytes) : bytes :=
  match e with [] => [] | _ => match get_bytes (md_extn m) with [] => bs " ext. " ++ e | p => p ++ e end end.

(** The prefix to dial abroad from a region: the preferred one, or the only one (then it consists of digits); none when there
    are several and none is preferred. *)
Definition exit_prefix (m : meta) : bytes :=
  match get_bytes (md_pref_iprefix m) with
  | [] => let p := get_bytes (md_iprefix m) in if all_digits p then p else []
  | p => p
  end.
