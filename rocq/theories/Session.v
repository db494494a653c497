(** Model of the package-global parts: the active metadata container (metadata/source.go) with the maps handed out to callers, and
    the example numbers that are found by iterating over those maps. No proofs here. *)
From Verif Require Import Base Types Consts Regex Normalize Validate Format Parse.

(** phonenumberutil.go:1725-1743. Go iterates over the two maps in an unspecified order: [regions] and [codes] list their keys in
    the order of this run. *)
Fixpoint example_in_regions (C : container) (t : ptype) (regions : list bytes) : M (option phone) :=
  match regions with
  | [] => Ret None
  | r :: rest =>
      x <- GetExampleNumberForTypeInRegion C r t ;;
      match x with Some n => Ret (Some n) | None => example_in_regions C t rest end
  end.
Fixpoint example_in_entities (C : container) (t : ptype) (codes : list Z) : M (option phone) :=
  match codes with
  | [] => Ret None
  | cc :: rest =>
      let ex := get_d_example (getNumberDescByType (getMetadataForNonGeographicalRegion C cc) t) in
      if is_empty ex then example_in_entities C t rest
      else
        x <- Parse C ([plusSign] ++ itoa cc ++ ex) unknownRegion ;;
        match x with
        | (n, None) => Ret (Some n)
        | (_, Some _) => example_in_entities C t rest
        end
  end.
Definition GetExampleNumberForType (C : container) (regions : list bytes) (codes : list Z) (t : ptype) : M (option phone) :=
  x <- example_in_regions C t regions ;;
  match x with Some n => Ret (Some n) | None => example_in_entities C t codes end.

(** metadata/source.go:61-71: the containers that exist, by address, the active one, and for each call of Use so far the container
    its restore function goes back to (metadata/source.go:159-163). *)
Record session := { s_heap : list container; s_current : nat; s_restores : list nat }.
(** What the library works with: metadata/source.go:166-198 all read current. A dangling address stands for a nil container. *)
Definition active (s : session) : option container := nth_error (s_heap s) (s_current s).

Fixpoint update {A} (l : list A) (i : nat) (f : A -> A) : list A :=
  match l, i with
  | [], _ => []
  | x :: t, O => f x :: t
  | x :: t, S i => x :: update t i f
  end.
(** delete(m, r) on the map of supported regions. *)
Definition drop_region (r : bytes) (C : container) : container :=
  {| c_cc2region := c_cc2region C; c_region := c_region C; c_nongeo := c_nongeo C; c_nanpa := c_nanpa C;
     c_regions := filter (fun r' => negb (beq r r')) (c_regions C); c_codes := c_codes C; c_nongeo_codes := c_nongeo_codes C |}.

(** What a program can do to this state: Use a container, call the k-th restore function it got, or delete a key from the map
    GetSupportedRegions returned (phonenumberutil.go:704-706, metadata/source.go:185: the map itself, not a copy). *)
Inductive act := AUse (i : nat) | ARestore (k : nat) | ADelete (r : bytes).
Definition do_act (s : session) (a : act) : session :=
  match a with
  | AUse i => {| s_heap := s_heap s; s_current := i; s_restores := s_restores s ++ [s_current s] |}
  | ARestore k => {| s_heap := s_heap s; s_current := nth k (s_restores s) (s_current s); s_restores := s_restores s |}
  | ADelete r => {| s_heap := update (s_heap s) (s_current s) (drop_region r); s_current := s_current s; s_restores := s_restores s |}
  end.
Definition do_acts (s : session) (l : list act) : session := fold_left do_act l s.
