(** Model of metadata/source.go: building the lookup container. No proofs here. *)
From Verif Require Import Base Types Consts.

(** m[k] = v on a Go map: an existing key keeps its place, a new key is added. *)
Fixpoint map_put {K V} (eqb : K -> K -> bool) (k : K) (v : V) (l : list (K * V)) : list (K * V) :=
  match l with
  | [] => [(k, v)]
  | (k', v') :: t => if eqb k k' then (k', v) :: t else (k', v') :: map_put eqb k v t
  end.
(** set[x] = true *)
Definition set_add {A} (mem : A -> list A -> bool) (x : A) (l : list A) : list A := if mem x l then l else l ++ [x].

(** metadata/source.go:113-121, one iteration. *)
Definition add_meta (st : list (bytes * meta) * list (Z * meta)) (m : meta) : list (bytes * meta) * list (Z * meta) :=
  let region := get_bytes (md_id m) in
  if beq region nonGeoEntity then (fst st, map_put Z.eqb (mcc (Some m)) m (snd st))
  else (map_put beq region m (fst st), snd st).

(** metadata/source.go:123-140, one iteration: (nonGeo codes, supported regions, supported codes). The map is iterated
    in the order of the association list; Go's order is unspecified (ContainerFacts shows the order is irrelevant). *)
Definition add_code (st : list Z * list bytes * list Z) (e : Z * list bytes) : list Z * list bytes * list Z :=
  let '(ng, rs, cs) := st in
  let '(k, regions) := e in
  let single := match regions with [r] => beq nonGeoEntity r | _ => false end in
  let '(ng, rs) := if single then (set_add memz k ng, rs)
                   else (ng, fold_left (fun acc r => set_add mem_bytes r acc) regions rs) in
  (ng, rs, set_add memz k cs).

(** metadata/source.go:96-152 *)
Definition NewContainer (coll : list meta) (cc2region : list (Z * list bytes)) : M container :=
  match coll with
  | [] => Fail ErrOther      (* ErrEmptyMetadata *)
  | _ =>
      let '(regionMap, nongeoMap) := fold_left add_meta coll ([], []) in
      let '(ng, rs, cs) := fold_left add_code cc2region ([], [], []) in
      let rs := filter (fun r => negb (beq r nonGeoEntity)) rs in
      let nanpa := fold_left (fun acc r => set_add mem_bytes r acc)
                     (match assocz nanpaCountryCode cc2region with Some l => l | None => [] end) [] in
      Ret {| c_cc2region := cc2region; c_region := regionMap; c_nongeo := nongeoMap; c_nanpa := nanpa;
             c_regions := rs; c_codes := cs; c_nongeo_codes := ng |}
  end.
