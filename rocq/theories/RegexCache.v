(** Model of /repo/internal/regexcache/regexcache.go: goroutines that call For, under any schedule. *)
From Verif Require Import Base.
Local Open Scope nat_scope.

(** A compiled expression: the pattern it was compiled from and its identity (the pointer). *)
Record re := mkRe { re_id : nat; re_pat : bytes }.
(** Where a goroutine is inside For (regexcache.go:38-45), read (21-26) and write (28-32). *)
Inductive pc :=
| Idle                                   (* between two calls *)
| Entered (p : bytes)                    (* 22: about to RLock *)
| Reading (p : bytes)                    (* 23: holds the read lock, about to read the map *)
| ReadDone (p : bytes) (v : option re)   (* 24: about to RUnlock *)
| Compiling (p : bytes)                  (* 41 *)
| Locking (p : bytes) (r : re)           (* 29: about to Lock *)
| Draining (p : bytes) (r : re)          (* 29: announced as writer, waits for the readers to leave *)
| Writing (p : bytes) (r : re)           (* 30: holds the write lock, about to write the map *)
| Unlocking (p : bytes) (r : re)         (* 31 *)
| Returning (p : bytes) (r : re)         (* 44 *)
| Panicked (p : bytes).                  (* regexp.MustCompile panicked *)
(** What can be observed, newest first in a trace. *)
Inductive event :=
| ECall (t : nat) (p : bytes)            (* goroutine t calls For(p) *)
| ECompile (t : nat) (p : bytes) (id : nat)
| EReturn (t : nat) (p : bytes) (r : re)
| EPanic (t : nat) (p : bytes).
(** regexcache.go:13-19: the cache and its lock. sync.RWMutex is modelled by the number of readers and the goroutine that announced itself as writer: new readers wait while there is one, and it waits for the present readers. *)
Record state := mkState {
  s_cache : list (bytes * re);
  s_readers : nat;
  s_writer : option nat;
  s_next : nat;                          (* allocator of identities *)
  s_thr : list (pc * list bytes);        (* program counter and the calls still to make *)
  s_trace : list event
}.
Fixpoint upd {A} (l : list A) (i : nat) (x : A) : list A :=
  match l, i with
  | [], _ => []
  | _ :: l, O => x :: l
  | y :: l, S i => y :: upd l i x
  end.
(** One step of goroutine [t]; [None] when it is blocked or finished. [valid p]: p is a valid expression. *)
Definition next (valid : bytes -> bool) (s : state) (t : nat) : option state :=
  match nth_error (s_thr s) t with
  | None => None
  | Some (c, todo) =>
    let go c' := upd (s_thr s) t (c', todo) in
    match c with
    | Idle => match todo with
              | [] => None
              | p :: todo' => Some (mkState (s_cache s) (s_readers s) (s_writer s) (s_next s) (upd (s_thr s) t (Entered p, todo')) (ECall t p :: s_trace s))
              end
    | Entered p => match s_writer s with
                   | None => Some (mkState (s_cache s) (S (s_readers s)) None (s_next s) (go (Reading p)) (s_trace s))
                   | Some _ => None
                   end
    | Reading p => Some (mkState (s_cache s) (s_readers s) (s_writer s) (s_next s) (go (ReadDone p (assocb p (s_cache s)))) (s_trace s))
    | ReadDone p v => Some (mkState (s_cache s) (pred (s_readers s)) (s_writer s) (s_next s) (go (match v with Some r => Returning p r | None => Compiling p end)) (s_trace s))
    | Compiling p => if valid p then Some (mkState (s_cache s) (s_readers s) (s_writer s) (S (s_next s)) (go (Locking p (mkRe (s_next s) p))) (ECompile t p (s_next s) :: s_trace s))
                     else Some (mkState (s_cache s) (s_readers s) (s_writer s) (s_next s) (go (Panicked p)) (EPanic t p :: s_trace s))
    | Locking p r => match s_writer s with
                     | None => Some (mkState (s_cache s) (s_readers s) (Some t) (s_next s) (go (Draining p r)) (s_trace s))
                     | Some _ => None
                     end
    | Draining p r => match s_readers s with
                      | O => Some (mkState (s_cache s) O (s_writer s) (s_next s) (go (Writing p r)) (s_trace s))
                      | S _ => None
                      end
    | Writing p r => Some (mkState ((p, r) :: s_cache s) (s_readers s) (s_writer s) (s_next s) (go (Unlocking p r)) (s_trace s))
    | Unlocking p r => Some (mkState (s_cache s) (s_readers s) None (s_next s) (go (Returning p r)) (s_trace s))
    | Returning p r => Some (mkState (s_cache s) (s_readers s) (s_writer s) (s_next s) (go Idle) (EReturn t p r :: s_trace s))
    | Panicked _ => None
    end
  end.
(** A schedule names the goroutine to run next; naming a blocked one changes nothing. *)
Fixpoint run (valid : bytes -> bool) (s : state) (sched : list nat) : state :=
  match sched with
  | [] => s
  | t :: sched => run valid (match next valid s t with Some s' => s' | None => s end) sched
  end.
(** The package starts with an empty cache (regexcache.go:17); [calls] lists the patterns each goroutine asks for. *)
Definition start (calls : list (list bytes)) : state := mkState [] O None O (map (fun l => (Idle, l)) calls) [].
Definition after (valid : bytes -> bool) (calls : list (list bytes)) (sched : list nat) : state := run valid (start calls) sched.
