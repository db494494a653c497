(** Model of the writing side of the prefix tables: cmd/buildmetadata/main.go. No proofs here.
    Simplifications: files are their contents; gzip, git and printing are not modelled; a Go map is a list of pairs with
    distinct keys, whose order stands for the (unspecified) order in which a range loop visits it. Writes to a
    bytes.Buffer cannot fail. *)
From Coq Require Import Sorting.
From Verif Require Import Base Utf8 Serialize Container.

(** sort.Ints and sort.Strings, by insertion: the result is the sorted rearrangement whatever the algorithm. *)
Fixpoint insert {A} (leb : A -> A -> bool) (x : A) (l : list A) : list A :=
  match l with
  | [] => [x]
  | y :: t => if leb x y then x :: l else y :: insert leb x t
  end.
Definition sort {A} (leb : A -> A -> bool) (l : list A) : list A := fold_right (insert leb) [] l.
(** The order of Go strings: bytewise. *)
Fixpoint bleb (a b : bytes) : bool :=
  match a, b with
  | [], _ => true
  | _ :: _, [] => false
  | x :: a', y :: b' => (x <? y) || ((x =? y) && bleb a' b')
  end.

(** binary.Write(data, binary.LittleEndian, x) for an unsigned x of k bytes, after conversion to that type. *)
Fixpoint put_le (k : nat) (x : N) : bytes :=
  match k with O => [] | S k' => x mod 256 :: put_le k' (x / 256) end.
Definition put_u8 (x : N) : bytes := put_le 1 x.
Definition put_u16 (x : N) : bytes := put_le 2 x.
Definition put_u32 (x : N) : bytes := put_le 4 x.

(** binary.PutUvarint *)
Fixpoint uvarint (fuel : nat) (x : N) : bytes :=
  match fuel with
  | O => []
  | S f => if x <? 128 then [x] else (128 + x mod 128) :: uvarint f (x / 128)
  end.
(** cmd/buildmetadata/main.go:378-386 and 450-456: the difference to the previous key, through a buffer of six bytes; writing past
    its end panics. int subtraction wraps, uint64(diff) is modulo 2^64. *)
Definition put_diff (key last : Z) : M bytes :=
  let b := uvarint 10 (Z.to_N (to_int64 (key - last) mod 18446744073709551616)) in
  if (6 <? len b)%nat then Panic else Ret b.

(** The distinct strings of a list in order of first occurrence: cmd/buildmetadata/main.go:325-335 and 411-420. *)
Definition distinct (l : list bytes) : list bytes := fold_left (fun acc v => set_add mem_bytes v acc) l [].
(** internMap[v]: the index at which v was stored last; 0 if it never was. cmd/buildmetadata/main.go:349-352 and 424-427. *)
Fixpoint position (v : bytes) (l : list bytes) : option nat :=
  match l with
  | [] => None
  | x :: t => match position v t with
              | Some i => Some (S i)
              | None => if beq v x then Some O else None
              end
  end.
Definition intern (values : list bytes) (v : bytes) : N :=
  match position v values with Some i => N.of_nat i | None => 0 end.

(** The strings, joined, with their length: cmd/buildmetadata/main.go:357-364 and 431-438. *)
Definition put_strings (values : list bytes) : bytes :=
  let joined := join values [10] in
  put_u32 (N.of_nat (len joined)) ++ joined.

(** cmd/buildmetadata/main.go:447-474, the loop over the sorted keys *)
Fixpoint render_entries (values : list bytes) (last : Z) (l : list (Z * list bytes)) : M bytes :=
  match l with
  | [] => Ret []
  | (key, vs) :: t =>
      d <- put_diff key last ;;
      r <- render_entries values key t ;;
      Ret (d ++ put_u8 (N.of_nat (length vs)) ++ concat (map (fun v => put_u16 (intern values v)) vs) ++ r)
  end.
(** prefixMap[k] for the sorted keys k. *)
Definition by_key {V} (m : list (Z * V)) : list (Z * V) :=
  concat (map (fun k => match assocz k m with Some v => [(k, v)] | None => [] end) (sort Z.leb (map fst m))).
(** cmd/buildmetadata/main.go:405-477 *)
Definition renderMap (m : list (Z * list bytes)) : M bytes :=
  let values := sort bleb (distinct (concat (map snd m))) in
  body <- render_entries values 0 (by_key m) ;;
  Ret (put_strings values ++ put_u32 (N.of_nat (length m)) ++ body).

(** cmd/buildmetadata/main.go:373-388 *)
Fixpoint prefix_entries (values : list bytes) (last : Z) (l : list (Z * bytes)) : M bytes :=
  match l with
  | [] => Ret []
  | (key, v) :: t =>
      d <- put_diff key last ;;
      r <- prefix_entries values key t ;;
      Ret (d ++ put_u16 (intern values v) ++ r)
  end.
(** cmd/buildmetadata/main.go:322-388: the blob of one language, in buildPrefixMetadata. *)
Definition renderPrefixMap (m : list (Z * bytes)) : M bytes :=
  let values := distinct (map snd m) in
  if (65535 <? N.of_nat (length values)) then Fail ErrOther else
  let values := sort bleb values in
  body <- prefix_entries values 0 (by_key m) ;;
  Ret (put_strings values ++ put_u32 (N.of_nat (length m)) ++ body).

(** unicode.IsSpace *)
Definition uspace (c : N) : bool :=
  in_rng 9 13 c || (c =? 32) || (c =? 133) || (c =? 160) || (c =? 5760) || in_rng 8192 8202 c || (c =? 8232) || (c =? 8233)
  || (c =? 8239) || (c =? 8287) || (c =? 12288).
(** strings.TrimSpace(s) == "" *)
Definition blank (s : bytes) : bool := forallb uspace (runes s).

(** cmd/buildmetadata/main.go:503-530, one line of a carrier or geocoding file. *)
Definition read_mapping (acc : list (Z * bytes)) (line : bytes) : M (list (Z * bytes)) :=
  if has_prefix line [35] || blank line then Ret acc else
  match split_byte line 124 with
  | [p; v] =>
      match atoi p with
      | Some k => if (k <? 0)%Z then Fail ErrOther
                  else if blank v then Ret acc
                  else if is_some (assocz k acc) then Fail ErrOther
                  else Ret (acc ++ [(k, v)])
      | None => Fail ErrOther
      end
  | _ => Ret acc
  end.
Fixpoint foldM {A B} (f : A -> B -> M A) (a : A) (l : list B) : M A :=
  match l with [] => Ret a | x :: t => a <- f a x ;; foldM f a t end.
(** cmd/buildmetadata/main.go:489-536 *)
Definition readMappingsForDir (files : list bytes) : M (list (Z * bytes)) :=
  foldM (fun acc body => foldM read_mapping acc (split_byte body 10)) [] files.

(** cmd/buildmetadata/main.go:249-274, one line of the timezone file. strings.Split never returns an empty list, so the
    second check of the length cannot fail. *)
Definition read_zones (acc : list (Z * list bytes)) (line : bytes) : M (list (Z * list bytes)) :=
  if has_prefix line [35] || blank line then Ret acc else
  match split_byte line 124 with
  | [p; v] => match atoi p with
              | Some k => Ret (map_put Z.eqb k (split_byte v 38) acc)
              | None => Fail ErrOther
              end
  | _ => Fail ErrOther
  end.
(** cmd/buildmetadata/main.go:241-287, up to gzip *)
Definition buildTimezone (body : bytes) : M bytes :=
  m <- foldM read_zones [] (split_byte body 10) ;; renderMap m.
(** cmd/buildmetadata/main.go:289-403, one language directory, up to gzip *)
Definition buildPrefix (files : list bytes) : M bytes :=
  m <- readMappingsForDir files ;; renderPrefixMap m.
