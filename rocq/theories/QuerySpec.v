(** Vocabulary for the answers of the query functions: type precedence, supported types, geographical numbers, diallability. *)
From Verif Require Import Base Types Validate ValidateSpec.

(** The order of precedence of number types, highest first. *)
Definition precedence : list ptype :=
  [PREMIUM_RATE; TOLL_FREE; SHARED_COST; VOIP; PERSONAL_NUMBER; PAGER; UAN; VOICEMAIL; FIXED_LINE_OR_MOBILE; FIXED_LINE; MOBILE].

(** The type reported for a national significant number s under metadata m: the first one of the list that s has, and UNKNOWN
    if it has none. *)
Definition reported_type (m : meta) (s : bytes) (t : ptype) : Prop :=
  (exists pre post, precedence = pre ++ t :: post /\ has_type m s t /\ forall u, In u pre -> ~ has_type m s u)
  \/ (t = UNKNOWN /\ forall u, ~ has_type m s u).

(** Metadata has information on a type: an example number, or possible lengths other than the mark -1, or a pattern. *)
Definition informs (d : desc) : Prop :=
  (exists e, d_example d = Some e /\ e <> []) \/ d_len d <> [(-1)%Z] \/ d_pattern d <> None.

(** Calling codes whose mobile numbers are geographical as well: Mexico, Argentina, Brazil, Indonesia, China. *)
Definition geographical_mobile : list Z := [52; 54; 55; 62; 86]%Z.
Definition geographical (cc : Z) (t : ptype) : Prop :=
  t = FIXED_LINE \/ t = FIXED_LINE_OR_MOBILE \/ (t = MOBILE /\ In cc geographical_mobile).
