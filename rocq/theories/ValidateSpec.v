(** Independent description of possible-length classification. *)
From Verif Require Import Base Utf8 Regex Consts Types Validate MetaSpec.

(** The descriptor that describes each type; UNKNOWN stands for numbers of any type. FIXED_LINE_OR_MOBILE has no descriptor of
    its own. *)
Definition desc_for (m : meta) (t : ptype) : option desc :=
  match t with
  | FIXED_LINE => md_fixed m
  | MOBILE => md_mobile m
  | TOLL_FREE => md_tollfree m
  | PREMIUM_RATE => md_premium m
  | SHARED_COST => md_shared m
  | VOIP => md_voip m
  | PERSONAL_NUMBER => md_personal m
  | PAGER => md_pager m
  | UAN => md_uan m
  | VOICEMAIL => md_voicemail m
  | UNKNOWN => md_general m
  | FIXED_LINE_OR_MOBILE => None
  end.

(** Allowed and local-only lengths of a number type in a region's metadata. For FIXED_LINE_OR_MOBILE they are the union over
    the two types, counting only a type that has numbers. *)
Definition allowed (m : meta) (t : ptype) (l : Z) : Prop :=
  match t with
  | FIXED_LINE_OR_MOBILE =>
      (exists d, md_fixed m = Some d /\ has_numbers d /\ In l (lengths_of m d)) \/
      (exists d, md_mobile m = Some d /\ has_numbers d /\ In l (lengths_of m d))
  | _ => exists d, desc_for m t = Some d /\ has_numbers d /\ In l (lengths_of m d)
  end.
Definition local_only (m : meta) (t : ptype) (l : Z) : Prop :=
  match t with
  | FIXED_LINE_OR_MOBILE =>
      (exists d, md_fixed m = Some d /\ has_numbers d /\ In l (d_local d)) \/
      (exists d, md_mobile m = Some d /\ has_numbers d /\ In l (d_local d))
  | _ => exists d, desc_for m t = Some d /\ has_numbers d /\ In l (d_local d)
  end.

(** The documented meaning of each answer. [nonempty]: the type exists in the region at all. *)
Definition classified (ok loc : Z -> Prop) (l : Z) (v : vresult) : Prop :=
  let exists_type := exists k, ok k in
  match v with
  | IS_POSSIBLE_LOCAL_ONLY => exists_type /\ loc l
  | IS_POSSIBLE => ok l /\ ~ loc l
  | TOO_SHORT => exists_type /\ ~ loc l /\ (forall k, ok k -> (l < k)%Z)
  | TOO_LONG => exists_type /\ ~ loc l /\ (forall k, ok k -> (k < l)%Z)
  | INVALID_LENGTH => ~ exists_type \/
      (~ loc l /\ ~ ok l /\ (exists k, ok k /\ (k < l)%Z) /\ (exists k, ok k /\ (l < k)%Z))
  | INVALID_COUNTRY_CODE => False
  end.

(** A descriptor accepts a national significant number: the length is one of its own (if it lists any) and the whole number
    matches the pattern. *)
Definition full_match (p s : bytes) : Prop := exists x, compile (anchored p) = Some x /\ re_match x s = true.
Definition accepts (d : option desc) (s : bytes) : Prop :=
  exists x, d = Some x /\ (d_len x = [] \/ In (Z.of_nat (length s)) (d_len x)) /\ full_match (get_d_pattern d) s.

(** The documented meaning of a number's type within one region. When the metadata says that fixed-line and mobile patterns
    are the same, only the fixed-line one is meaningful and such numbers are FIXED_LINE_OR_MOBILE. *)
Definition has_type (m : meta) (s : bytes) (t : ptype) : Prop :=
  accepts (md_general m) s /\
  match t with
  | UNKNOWN => False
  | FIXED_LINE_OR_MOBILE => accepts (md_fixed m) s /\ (md_same m = Some true \/ accepts (md_mobile m) s)
  | MOBILE => md_same m <> Some true /\ accepts (md_mobile m) s
  | _ => accepts (desc_for m t) s
  end.

(** A region claims a number of its calling code: by its leading digits when it has any, otherwise because the number has some
    type there. *)
Definition starts_with (p s : bytes) : Prop := exists x, compile (anchored_left p) = Some x /\ re_match x s = true.
Definition claims (C : container) (s r : bytes) : Prop := exists m, getMetadataForRegion C r = Some m /\
  ((get_bytes (md_leading m) <> [] /\ starts_with (get_bytes (md_leading m)) s) \/
   (get_bytes (md_leading m) = [] /\ exists t, has_type m s t)).

(** The metadata a (region, calling code) pair stands for: "001" stands for the code's non-geographical entity. *)
Definition meta_of (C : container) (cc : Z) (r : bytes) : option meta :=
  if beq r nonGeoEntity then assocz cc (c_nongeo C) else assocb r (c_region C).

(** Lengths of a region's numbers are possible for the main region of its calling code. *)
Definition lengths_nested (C : container) : Prop := forall cc l r m mm k, In (cc, l) (c_cc2region C) -> In r l ->
  meta_of C cc r = Some m -> main_meta C cc = Some mm -> allowed m UNKNOWN k -> allowed mm UNKNOWN k \/ local_only mm UNKNOWN k.
