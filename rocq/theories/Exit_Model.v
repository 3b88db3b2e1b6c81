(** Model of deactivate_shared_memory_resource_tracker
    (dustgoggles/codex/memutilz.py:57-98) and of the part of the standard
    library it patches.  Definitions only.

    Simplifications: a block is its name (its bytes are in Shm_Model); POSIX
    only, except that deactivating elsewhere does nothing; every process has a
    tracker of its own, as processes that do not descend from a common user of
    multiprocessing have; the tracker, which runs as a process of its own with
    its own table of cleanup functions, is the set of names it would clean up. *)
From Verif Require Export Py_Model.

(** What resource_tracker.register and resource_tracker.unregister are: the
    methods of the tracker, or fix_register and fix_unregister. *)
Inductive tracking := Original | Fixed.

(** The module multiprocessing.resource_tracker of one process:
    [t_funcs] are the keys of _CLEANUP_FUNCS, [t_cache] what its tracker knows,
    by type and name. *)
Record tracker := mkTracker {
  t_register : tracking; t_unregister : tracking; t_funcs : list string; t_cache : string -> string -> bool }.

(** A new process. *)
Definition new_tracker : tracker :=
  mkTracker Original Original ["noop"; "semaphore"; "shared_memory"] (fun _ _ => false).

Definition cache_set (c : string -> string -> bool) (rtype name : string) (b : bool) : string -> string -> bool :=
  fun t n => if String.eqb t rtype && String.eqb n name then b else c t n.

(** resource_tracker.register(name, rtype); memutilz.py:84-87 fix_register,
    whose [self] is not defined. *)
Definition register (t : tracker) (name rtype : string) : res tracker :=
  match t_register t with
  | Original => Ok (mkTracker (t_register t) (t_unregister t) (t_funcs t) (cache_set (t_cache t) rtype name true))
  | Fixed => if String.eqb rtype "shared_memory" then Ok t else Exc NameError
  end.
(** resource_tracker.unregister(name, rtype); memutilz.py:91-94
    fix_unregister. *)
Definition unregister (t : tracker) (name rtype : string) : res tracker :=
  match t_unregister t with
  | Original => Ok (mkTracker (t_register t) (t_unregister t) (t_funcs t) (cache_set (t_cache t) rtype name false))
  | Fixed => if String.eqb rtype "shared_memory" then Ok t else Exc NameError
  end.

(** [del d[k]] on the keys of a dict. *)
Fixpoint del_func (k : string) (l : list string) : res (list string) :=
  match l with
  | [] => Exc KeyError
  | x :: r => if String.eqb x k then Ok r else (r' <- del_func k r ;; Ok (x :: r'))
  end.

(** memutilz.py:57-98. *)
Definition deactivate (platform : string) (t : tracker) : res tracker :=
  if String.eqb platform "win32" || String.eqb platform "cygwin" then Ok t
  else
    let t1 := mkTracker Fixed Fixed (t_funcs t) (t_cache t) in
    if existsb (String.eqb "shared_memory") (t_funcs t1)
    then l <- del_func "shared_memory" (t_funcs t1) ;; Ok (mkTracker (t_register t1) (t_unregister t1) l (t_cache t1))
    else Ok t1.

(** ** Processes *)

(** Which blocks there are, and the module of every process. *)
Record world := mkWorld { w_blocks : string -> bool; w_procs : nat -> tracker }.
Definition set_block (f : string -> bool) (a : string) (b : bool) : string -> bool :=
  fun x => if String.eqb x a then b else f x.
Definition set_proc (f : nat -> tracker) (p : nat) (t : tracker) : nat -> tracker :=
  fun q => if Nat.eqb q p then t else f q.

Inductive event :=
| ECreate (p : nat) (a : string)      (* SharedMemory(a, create=True, size=...) *)
| EAttach (p : nat) (a : string)      (* SharedMemory(a) *)
| EUnlink (p : nat) (a : string)      (* block.unlink() *)
| ERegister (p : nat) (name rtype : string)
| EUnregister (p : nat) (name rtype : string)
| EDeactivate (p : nat)
| EExit (p : nat).                    (* the process ends and its tracker cleans up *)

(** An update of a process' tracker that may raise. *)
Definition with_tracker (w : world) (p : nat) (blocks : string -> bool) (r : res tracker) : res unit * world :=
  match r with
  | Ok t => (Ok tt, mkWorld blocks (set_proc (w_procs w) p t))
  | Exc e => (Exc e, mkWorld blocks (w_procs w))
  end.

Definition event_step (w : world) (e : event) : res unit * world :=
  match e with
  | ECreate p a =>
      if w_blocks w a then (Exc FileExistsError, w)
      else with_tracker w p (set_block (w_blocks w) a true) (register (w_procs w p) a "shared_memory")
  | EAttach p a =>
      if w_blocks w a then with_tracker w p (w_blocks w) (register (w_procs w p) a "shared_memory")
      else (Exc FileNotFoundError, w)
  | EUnlink p a =>
      if w_blocks w a then with_tracker w p (set_block (w_blocks w) a false) (unregister (w_procs w p) a "shared_memory")
      else (Exc FileNotFoundError, w)
  | ERegister p name rtype => with_tracker w p (w_blocks w) (register (w_procs w p) name rtype)
  | EUnregister p name rtype => with_tracker w p (w_blocks w) (unregister (w_procs w p) name rtype)
  | EDeactivate p => with_tracker w p (w_blocks w) (deactivate "linux" (w_procs w p))
  | EExit p =>
      (Ok tt, mkWorld (fun a => w_blocks w a && negb (t_cache (w_procs w p) "shared_memory" a))
                (set_proc (w_procs w) p new_tracker))
  end.
Fixpoint events_run (w : world) (h : list event) : list (res unit) * world :=
  match h with
  | [] => ([], w)
  | e :: r =>
      let '(x, w1) := event_step w e in
      let '(xs, w2) := events_run w1 r in (x :: xs, w2)
  end.
