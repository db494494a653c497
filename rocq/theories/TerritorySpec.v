(** Small specification of what the metadata builder makes of one territory of the XML source. *)
From Verif Require Import Base Types Regex Builder BuildSpec.

(** Text without white space; optional text; the expression is one the regexp package accepts. *)
Definition squeeze (s : bytes) : bytes := filter (fun c => negb (existsb (N.eqb c) [9; 10; 12; 13; 32])) s.
Definition given (s : bytes) : option bytes := match s with [] => None | _ => Some s end.
Definition compiles (r : bytes) : Prop := compile r <> None.

(** * Possible lengths *)
(** [s] is a list of lengths and ranges that covers [x]. *)
Definition listed (s : bytes) (x : Z) : Prop := exists es, es <> [] /\ Forall proper es /\ s = spec_text es /\ Exists (fun i => covers i x) es.
(** The full lengths and the local-only lengths an element gives. *)
Definition full (e : option desc_e) (x : Z) : Prop := exists d l, e = Some d /\ de_lengths d = Some l /\ listed (le_national l) x.
Definition local (e : option desc_e) (x : Z) : Prop := exists d l, e = Some d /\ de_lengths d = Some l /\ listed (le_local l) x.
(** The lengths of an element, if given, are well written. *)
Definition well_listed (s : bytes) : Prop := exists es, es <> [] /\ Forall proper es /\ s = spec_text es.
Definition written (e : option desc_e) : Prop :=
  forall d l, e = Some d -> de_lengths d = Some l -> well_listed (le_national l) /\ (le_local l = [] \/ well_listed (le_local l)).

(** The elements whose lengths make up the lengths of the territory: for ordinary metadata all but the one for numbers that
    cannot be dialled from abroad and the one for SMS services; for short-number metadata the short codes. *)
Definition counted (short : bool) (t : terr_e) : list (option desc_e) :=
  if short then [te_shortcode t]
  else [te_fixed t; te_mobile t; te_pager t; te_tollfree t; te_premium t; te_shared t; te_personal t; te_voip t; te_uan t;
        te_voicemail t; te_stdrate t; te_shortcode t; te_emergency t; te_carrier t].
(** The elements that are described in the result, the fields that describe them, and the fields not used. *)
Definition kinds (short : bool) (t : terr_e) : list (option desc_e) :=
  if short then [te_stdrate t; te_shortcode t; te_carrier t; te_emergency t; te_tollfree t; te_premium t; te_sms t]
  else [te_fixed t; te_mobile t; te_shared t; te_voip t; te_personal t; te_pager t; te_uan t; te_voicemail t; te_noint t;
        te_tollfree t; te_premium t].
Definition fields (short : bool) (m : meta) : list (option desc) :=
  if short then [md_stdrate m; md_shortcode m; md_carrier m; md_emergency m; md_tollfree m; md_premium m; md_sms m]
  else [md_fixed m; md_mobile m; md_shared m; md_voip m; md_personal m; md_pager m; md_uan m; md_voicemail m; md_noint m;
        md_tollfree m; md_premium m].
Definition unused (short : bool) (m : meta) : list (option desc) :=
  if short then [md_fixed m; md_mobile m; md_shared m; md_voip m; md_personal m; md_pager m; md_uan m; md_voicemail m; md_noint m]
  else [md_stdrate m; md_shortcode m; md_carrier m; md_emergency m; md_sms m].
Definition somewhere (P : option desc_e -> Z -> Prop) (l : list (option desc_e)) (x : Z) : Prop := exists e, In e l /\ P e x.

(** The lengths of the territory are consistent. *)
Record lengths_fit (short : bool) (t : terr_e) : Prop := {
  lf_general : forall d, te_general t = Some d -> de_lengths d = None;
  lf_apart : forall e x, In e (counted short t ++ kinds short t) -> ~ (full e x /\ local e x);
  lf_short : short = true -> forall x, ~ local (te_shortcode t) x;
  lf_full : forall e x, In e (kinds short t) -> full e x -> somewhere full (counted short t) x;
  lf_local : forall e x, In e (kinds short t) -> local e x -> somewhere full (counted short t) x \/ somewhere local (counted short t) x }.

(** * Formats *)
(** [s'] is [s] with the first occurrence of [old], if any, replaced by [new]. *)
Definition first_replaced (old new s s' : bytes) : Prop :=
  (exists a b, s = a ++ old ++ b /\ s' = a ++ new ++ b /\ forall a' b', s = a' ++ old ++ b' -> (length a <= length a')%nat)
  \/ ((~ exists a b, s = a ++ old ++ b) /\ s' = s).
(** A rule with the placeholders $NP (national prefix) and $FG (first group) filled in. *)
Definition filled (np rule out : bytes) : Prop :=
  exists mid, first_replaced (bs "$NP") np rule mid /\ first_replaced (bs "$FG") (bs "$1") mid out.
Definition carrier_filled (np rule out : bytes) : Prop :=
  exists mid, first_replaced (bs "$FG") (bs "$1") rule mid /\ first_replaced (bs "$NP") np mid out.

(** The expressions of a territory are accepted and no format has two international forms. *)
Record texts_fit (t : terr_e) : Prop := {
  tf_leading : compiles (te_leading t);
  tf_iprefix : compiles (te_iprefix t);
  tf_parse : compiles (squeeze (te_np_parse t));
  tf_transform : te_np_parse t <> [] -> compiles (te_np_transform t);
  tf_carrier : forall r, carrier_filled (te_nprefix t) (te_ccfr t) r -> compiles r;
  tf_formats : forall f, In f (te_formats t) ->
    compiles (fe_pattern f) /\ (forall l, In l (fe_leading f) -> compiles (squeeze l)) /\ (length (fe_intl f) <= 1)%nat
    /\ forall r, carrier_filled (te_nprefix t) (fe_ccfr f) r -> compiles r }.
(** The patterns of the described elements are accepted. *)
Definition patterns_fit (short : bool) (t : terr_e) : Prop :=
  forall e d, In e (te_general t :: kinds short t) -> e = Some d -> compiles (squeeze (de_pattern d)).

(** [d] describes the element [e] of a territory whose general description is [g]. *)
Definition describes (g : desc) (e : option desc_e) (d : desc) : Prop :=
  match e with
  | None => d = {| d_pattern := None; d_len := [(-1)%Z]; d_local := []; d_example := None |}
  | Some x =>
      d_pattern d = given (squeeze (de_pattern x)) /\ d_example d = given (de_example x)
      /\ increasing (d_len d) /\ increasing (d_local d)
      /\ (forall n, In n (d_local d) <-> local e n)
      /\ (de_lengths x = None -> d_len d = [])
      /\ (de_lengths x <> None -> forall n, In n (match d_len d with [] => d_len g | l => l end) <-> full e n)
      /\ (de_lengths x <> None -> d_len d <> d_len g)
  end.
(** The general description. *)
Definition describes_all (short : bool) (t : terr_e) (g : desc) : Prop :=
  d_pattern g = match te_general t with Some x => given (squeeze (de_pattern x)) | None => None end
  /\ d_example g = match te_general t with Some x => given (de_example x) | None => None end
  /\ increasing (d_len g) /\ increasing (d_local g)
  /\ (forall n, In n (d_len g) <-> somewhere full (counted short t) n)
  /\ (forall n, In n (d_local g) <-> somewhere local (counted short t) n /\ ~ somewhere full (counted short t) n).

(** The national format of an element. *)
Definition national_of (t : terr_e) (f : nfmt_e) (o : nfmt) : Prop :=
  nf_pattern o = given (fe_pattern f) /\ nf_format o = given (fe_format f) /\ nf_leading o = map squeeze (fe_leading f)
  /\ (exists r, filled (te_nprefix t) (match fe_npfr f with [] => te_npfr t | r => r end) r /\ nf_npfr o = given r)
  /\ nf_npopt o = match fe_npopt f with Some b => Some b | None => if te_npopt t then Some true else None end
  /\ (exists r, carrier_filled (te_nprefix t) (match fe_ccfr f with [] => te_ccfr t | r => r end) r /\ nf_dccfr o = given r).
(** Its international format: its own if it has one, none if that is "NA", otherwise the national format. *)
Definition international_of (f : nfmt_e) (o : nfmt) : list nfmt :=
  match fe_intl f with
  | v :: _ => if beq v (bs "NA") || is_empty v then []
              else [{| nf_pattern := given (fe_pattern f); nf_format := Some v; nf_leading := map squeeze (fe_leading f);
                       nf_npfr := None; nf_npopt := None; nf_dccfr := None |}]
  | [] => match nf_format o with Some _ => [o] | None => [] end
  end.
Record attributes (t : terr_e) (m : meta) : Prop := {
  at_id : md_id m = given (te_id t);
  at_cc : md_cc m = if (te_cc t =? 0)%Z then None else Some (te_cc t);
  at_leading : md_leading m = given (te_leading t);
  at_iprefix : md_iprefix m = given (te_iprefix t);
  at_pref : md_pref_iprefix m = given (te_pref_iprefix t);
  at_np : md_nprefix m = given (te_nprefix t);
  at_extn : md_extn m = given (te_extn t);
  at_parse : md_np_parse m = match squeeze (te_np_parse t) with [] => given (te_nprefix t) | p => Some p end;
  at_transform : md_np_transform m = match te_np_parse t with [] => None | _ => given (te_np_transform t) end;
  at_main : md_main m = if te_main t then Some true else None;
  at_mnp : md_mnp m = if te_mnp t then Some true else None;
  at_nf : Forall2 (national_of t) (te_formats t) (md_nf m);
  at_inf : md_inf m = if forallb (fun f => match fe_intl f with [] => true | _ => false end) (te_formats t) then []
                      else concat (map (fun p => international_of (fst p) (snd p)) (combine (te_formats t) (md_nf m))) }.
(** The territory's metadata. *)
Definition faithful (short : bool) (t : terr_e) (m : meta) : Prop :=
  attributes t m
  /\ (exists g, md_general m = Some g /\ describes_all short t g
        /\ Forall2 (fun e o => exists d, o = Some d /\ describes g e d) (kinds short t) (fields short m))
  /\ (forall o, In o (unused short m) -> o = None)
  /\ md_same m = if short then None else if beq (get_d_pattern (md_mobile m)) (get_d_pattern (md_fixed m)) then Some true else None.
