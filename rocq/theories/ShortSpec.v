(** What short-number queries are supposed to answer, and what it means for the short-number table to be well formed. *)
From Verif Require Import Base Utf8 Utf8Facts Regex Types Validate UnicodeSpec NormalizeSpec LangFacts ShortNumber.

(** A word belongs to a pattern. *)
Definition in_language (p s : bytes) : Prop := exists x, compile p = Some x /\ lang (re_ast x) (runes s).
(** A text starts with a word of a pattern. *)
Definition begins_with (p s : bytes) : Prop := exists a b, s = a ++ b /\ in_language p a.

(** A descriptor of the table accepts a national number: it has a pattern, the number has one of its lengths (if it lists any)
    and is a word of the pattern. *)
Definition short_accepts (d : option desc) (s : bytes) : Prop :=
  exists x, d = Some x /\ (d_len x = [] \/ In (Z.of_nat (length s)) (d_len x)) /\ get_d_pattern d <> [] /\ in_language (get_d_pattern d) s.

(** The pattern is absent, or it compiles, has no anchors of its own, and putting it between "^(?:" and ")$" anchors exactly it. *)
Definition clear_pattern (p : bytes) : Prop := p = [] \/ exists x y, compile p = Some x /\ compile (anchored p) = Some y /\
  re_ast y = RCat RBegin (RCat (re_ast x) REnd) /\ anchorless (re_ast x) = true.
Definition short_descs (m : meta) : list (option desc) :=
  [md_general m; md_premium m; md_stdrate m; md_tollfree m; md_emergency m; md_shortcode m; md_carrier m; md_sms m].
Record wf_short_meta (m : meta) : Prop := {
  ws_general : exists g, md_general m = Some g /\ d_len g <> [];
  ws_descs : Forall (fun d => clear_pattern (get_d_pattern d)) (short_descs m);
  ws_emergency : get_d_pattern (md_emergency m) <> [] -> ~ in_language (get_d_pattern (md_emergency m)) []
}.
Definition wf_short (SC : list (bytes * meta)) : Prop := forall r m, In (r, m) SC -> wf_short_meta m.
(** Every word of a short-code pattern is short, and those of an allowed length have a length the general descriptor lists. *)
Definition short_nested (SC : list (bytes * meta)) : Prop := forall r m s, In (r, m) SC -> ascii s -> get_d_pattern (md_shortcode m) <> [] ->
  in_language (get_d_pattern (md_shortcode m)) s -> (length s < 100)%nat /\
  (short_accepts (md_shortcode m) s -> exists g, md_general m = Some g /\ In (Z.of_nat (length s)) (d_len g)).

(** A text with a plus sign, ASCII or full width. *)
Definition has_plus (s : bytes) : Prop := In 43 (runes s) \/ In 65291 (runes s).

(** Costs, from cheap to expensive; not knowing is worse than the standard rate. *)
Definition rank (c : cost) : nat :=
  match c with TOLL_FREE_COST => 0 | STANDARD_RATE_COST => 1 | UNKNOWN_COST => 2 | PREMIUM_RATE_COST => 3 end.
(** The cost of a number in one region: known only if the region dials the number's calling code and lists its length; then
    premium before standard before toll free, and emergency numbers are toll free. *)
Definition cost_in (regions : list bytes) (SC : list (bytes * meta)) (s r : bytes) (c : cost) : Prop :=
  let listed := In r regions /\ exists m g, assocb r SC = Some m /\ md_general m = Some g /\ In (Z.of_nat (length s)) (d_len g) in
  let has (d : meta -> option desc) := exists m, assocb r SC = Some m /\ short_accepts (d m) s in
  let emergency := exists m, assocb r SC = Some m /\ get_d_pattern (md_emergency m) <> [] /\ in_language (get_d_pattern (md_emergency m)) s in
  match c with
  | PREMIUM_RATE_COST => listed /\ has md_premium
  | STANDARD_RATE_COST => listed /\ ~ has md_premium /\ has md_stdrate
  | TOLL_FREE_COST => listed /\ ~ has md_premium /\ ~ has md_stdrate /\ (has md_tollfree \/ emergency)
  | UNKNOWN_COST => ~ listed \/ (~ has md_premium /\ ~ has md_stdrate /\ ~ has md_tollfree /\ ~ emergency)
  end.
