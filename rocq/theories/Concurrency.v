(** Goroutines that look up prefixes and time zones at the same time: the lazy loading of /repo/internal/prefixmapper/prefixmapper.go
    behind a mutex, and of /repo/timezone/timezone.go behind a sync.Once. Any number of goroutines, any schedule. No proofs here. *)
From Verif Require Import Base Serialize PrefixMapper RegexCache.
Local Open Scope nat_scope.

(** * Mapper.ValueForNumber *)
Record query := mkQ { q_lang : bytes; q_max : nat; q_num : bytes }.
(** Where a goroutine is inside ValueForNumber (prefixmapper.go:71-93) and lazyLoadPrefixes (38-65). *)
Inductive mpc :=
| MIdle
| MLock (q : query)                                       (* 39: about to lock *)
| MHold (q : query)                                       (* 43: holds the mutex, about to look into langMap *)
| MLoad (q : query)                                       (* 49-62: holds the mutex, about to read the file, decode it and store the table *)
| MUnlock (q : query) (r : M (option (table bytes)))      (* deferred Unlock, also when decoding failed or panicked *)
| MFind (q : query) (r : M (option (table bytes)))        (* 73-93: searches the table without the lock *)
| MDead.                                                  (* a panic has ended the goroutine *)
Inductive mevent :=
| MCalled (t : nat) (q : query)
| MLoaded (t : nat) (lang : bytes)                        (* a file was read and decoded *)
| MReturned (t : nat) (q : query) (v : M (bytes * Z)).
Record mstate := mkM { m_map : lang_map; m_owner : option nat; m_thr : list (mpc * list query); m_trace : list mevent }.
Definition mnext (dc : Z -> Z) (fs : bytes -> file) (s : mstate) (t : nat) : option mstate :=
  match nth_error (m_thr s) t with
  | None => None
  | Some (c, todo) =>
    let go c' := upd (m_thr s) t (c', todo) in
    match c with
    | MIdle => match todo with
               | [] => None
               | q :: todo' => Some (mkM (m_map s) (m_owner s) (upd (m_thr s) t (MLock q, todo')) (MCalled t q :: m_trace s))
               end
    | MLock q => match m_owner s with
                 | None => Some (mkM (m_map s) (Some t) (go (MHold q)) (m_trace s))
                 | Some _ => None
                 end
    | MHold q => Some (mkM (m_map s) (m_owner s) (go (match assocb (q_lang q) (m_map s) with Some x => MUnlock q (Ret x) | None => MLoad q end)) (m_trace s))
    | MLoad q => match load_language dc (fs (q_lang q)) with
                 | Ret x => Some (mkM ((q_lang q, x) :: m_map s) (m_owner s) (go (MUnlock q (Ret x))) (MLoaded t (q_lang q) :: m_trace s))
                 | r => Some (mkM (m_map s) (m_owner s) (go (MUnlock q r)) (MLoaded t (q_lang q) :: m_trace s))
                 end
    | MUnlock q r => Some (mkM (m_map s) None (go (MFind q r)) (m_trace s))
    | MFind q r => let v := (x <- r ;; value_for x (q_max q) (q_num q)) in
                   Some (mkM (m_map s) (m_owner s) (go (match v with Panic => MDead | _ => MIdle end)) (MReturned t q v :: m_trace s))
    | MDead => None
    end
  end.
Fixpoint mrun dc fs (s : mstate) (sched : list nat) : mstate :=
  match sched with [] => s | t :: l => mrun dc fs (match mnext dc fs s t with Some s' => s' | None => s end) l end.
Definition mstart (calls : list (list query)) : mstate := mkM [] None (map (fun l => (MIdle, l)) calls) [].
Definition mafter dc fs (calls : list (list query)) (sched : list nat) : mstate := mrun dc fs (mstart calls) sched.

(** * lookupTimeZones *)
(** timezone.go:60-86 around sync.Once: a fast path on an atomic flag, and a slow path that takes the mutex, tests the flag again,
    runs the function and sets the flag even if it panics. *)
Inductive zpc :=
| ZIdle
| ZCheck (n : bytes)                                      (* Do: about to read the flag *)
| ZLock (n : bytes)                                       (* Do: about to lock *)
| ZHold (n : bytes)                                       (* Do: holds the mutex, about to read the flag again *)
| ZLoad (n : bytes)                                       (* 63: about to decode the data and set timezoneMap *)
| ZFlag (n : bytes) (panics : bool)                       (* Do: about to set the flag *)
| ZUnlock (n : bytes) (panics : bool)                     (* Do: about to unlock *)
| ZFind (n : bytes) (panics : bool)                       (* 66-85 *)
| ZDead.
Inductive zevent :=
| ZCalled (t : nat) (n : bytes)
| ZLoaded (t : nat)
| ZReturned (t : nat) (n : bytes) (v : M (list bytes)).
Record zstate := mkZ { z_map : option (table (list bytes)); z_done : bool; z_owner : option nat; z_thr : list (zpc * list bytes); z_trace : list zevent }.
(** [load] is the outcome of serialize.LoadIntArrayMap on the embedded data. *)
Definition znext (load : M (table (list bytes))) (s : zstate) (t : nat) : option zstate :=
  match nth_error (z_thr s) t with
  | None => None
  | Some (c, todo) =>
    let go c' := upd (z_thr s) t (c', todo) in
    match c with
    | ZIdle => match todo with
               | [] => None
               | n :: todo' => Some (mkZ (z_map s) (z_done s) (z_owner s) (upd (z_thr s) t (ZCheck n, todo')) (ZCalled t n :: z_trace s))
               end
    | ZCheck n => Some (mkZ (z_map s) (z_done s) (z_owner s) (go (if z_done s then ZFind n false else ZLock n)) (z_trace s))
    | ZLock n => match z_owner s with
                 | None => Some (mkZ (z_map s) (z_done s) (Some t) (go (ZHold n)) (z_trace s))
                 | Some _ => None
                 end
    | ZHold n => Some (mkZ (z_map s) (z_done s) (z_owner s) (go (if z_done s then ZUnlock n false else ZLoad n)) (z_trace s))
    | ZLoad n => Some (mkZ (match load with Ret x => Some x | _ => None end) (z_done s) (z_owner s) (go (ZFlag n (match load with Panic => true | _ => false end))) (ZLoaded t :: z_trace s))
    | ZFlag n b => Some (mkZ (z_map s) true (z_owner s) (go (ZUnlock n b)) (z_trace s))
    | ZUnlock n b => Some (mkZ (z_map s) (z_done s) None (go (ZFind n b)) (z_trace s))
    | ZFind n b => let v := if b then Panic else match z_map s with Some x => lookupTimeZones (Ret x) n | None => Fail ErrOther end in
                   Some (mkZ (z_map s) (z_done s) (z_owner s) (go (match v with Panic => ZDead | _ => ZIdle end)) (ZReturned t n v :: z_trace s))
    | ZDead => None
    end
  end.
Fixpoint zrun load (s : zstate) (sched : list nat) : zstate :=
  match sched with [] => s | t :: l => zrun load (match znext load s t with Some s' => s' | None => s end) l end.
Definition zstart (calls : list (list bytes)) : zstate := mkZ None false None (map (fun l => (ZIdle, l)) calls) [].
Definition zafter load (calls : list (list bytes)) (sched : list nat) : zstate := zrun load (zstart calls) sched.
