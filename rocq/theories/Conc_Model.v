(** Several processes using shared memory at once, and several processes
    entering and leaving the same SlidingLock.  Definitions only.

    Processes take turns at single primitive operations ([op] of Shm_Model.v),
    in any order.  A process that is never given another turn has crashed. *)
From Verif Require Export Lock_Model.

(** One operation of a program: what is left of it and the store. *)
Definition prog_step {A} (p : prog A) (s : store) : option (prog A * store) :=
  match p with
  | Do o k => let '(r, s') := step o s in Some (k r, s')
  | _ => None
  end.

(** ** Any programs *)

(** [together ps sched s]: each entry of [sched] gives one turn to that
    program (nothing happens if it is at its end or does not exist). *)
Definition turn {A} (ps : list (prog A)) (i : nat) (s : store) : list (prog A) * store :=
  match nth_error ps i with
  | Some p =>
      match prog_step p s with
      | Some (p', s') => (firstn i ps ++ p' :: skipn (S i) ps, s')
      | None => (ps, s)
      end
  | None => (ps, s)
  end.
Fixpoint together {A} (ps : list (prog A)) (sched : list nat) (s : store) : list (prog A) * store :=
  match sched with
  | [] => (ps, s)
  | i :: r => let '(ps', s') := turn ps i s in together ps' r s'
  end.
(** The outcome of a program that is at its end. *)
Definition outcome {A} (p : prog A) : option (res A) :=
  match p with Ret a => Some (Ok a) | Raise e => Some (Exc e) | _ => None end.

(** ** Users of one lock *)

(** implements.py:171-180 __enter__ up to the waiting loop: 187-198
    _renumber, and 213-222 of acquire. *)
Definition entry (fuel : nat) (l : lockst) : prog (lockst * res unit) :=
  ptry (renumber fuel l)
    (fun l1 =>
       ptry (shm_create (lock_address (l_name l1) (l_number l1)) 1)
         (fun h => Ret (set_lock l1 h, Ok tt))
         (fun e => match e with
                   | FileExistsError => Ret (set_acquired l1 true, Ok tt)
                   | _ => Ret (l1, Exc e)
                   end))
    (fun e => Ret (l, Exc e)).

(** Where a process is that does [with SlidingLock(name): ...] once
    (implements.py:442 and others; 158-256). *)
Inductive stage :=
| Starting (p : prog lockst)                        (* in __init__ *)
| Ready (l : lockst)                                (* before __enter__ *)
| Entering (p : prog (lockst * res unit))           (* in [entry] *)
| Waiting (p : prog (lockst * res unit))            (* 223-224 *)
| Inside (l : lockst)                               (* in the guarded section *)
| Leaving (p : prog lockst) (r : res unit)          (* in release; [r] is raised after it *)
| Finished (r : res unit).

(** One turn: one operation, or the passage to the next stage.  Also the slot
    number when the guarded section is entered. *)
Definition stage_step (fuel : nat) (st : stage) (s : store) : option (stage * store * option Z) :=
  match st with
  | Starting (Ret l) => Some (Ready l, s, None)
  | Starting (Raise e) => Some (Finished (Exc e), s, None)
  | Starting p => match prog_step p s with Some (p', s') => Some (Starting p', s', None) | None => None end
  | Ready l => Some (Entering (entry fuel l), s, None)
  | Entering (Ret (l, Ok _)) => Some (Waiting (acquire_loop fuel l), s, None)
  | Entering (Ret (l, Exc e)) =>
      Some (if is_Exception e then Leaving (release l) (Exc e) else Finished (Exc e), s, None)
  | Entering (Raise e) => Some (Finished (Exc e), s, None)
  | Entering p => match prog_step p s with Some (p', s') => Some (Entering p', s', None) | None => None end
  | Waiting (Ret (l, Ok _)) => Some (Inside l, s, Some (l_number l))
  | Waiting (Ret (l, Exc e)) =>
      Some (if is_Exception e then Leaving (release l) (Exc e) else Finished (Exc e), s, None)
  | Waiting (Raise e) => Some (Finished (Exc e), s, None)
  | Waiting p => match prog_step p s with Some (p', s') => Some (Waiting p', s', None) | None => None end
  | Inside l => Some (Leaving (release l) (Ok tt), s, None)
  | Leaving (Ret _) r => Some (Finished r, s, None)
  | Leaving (Raise e) _ => Some (Finished (Exc e), s, None)
  | Leaving p r => match prog_step p s with Some (p', s') => Some (Leaving p' r, s', None) | None => None end
  | Finished _ => None
  end.

(** All processes, the store, and the slots served so far. *)
Record config := mkConfig { procs : nat -> stage; shared : store; served : list Z }.

Definition set_proc (f : nat -> stage) (i : nat) (st : stage) (j : nat) : stage :=
  if Nat.eqb j i then st else f j.

Definition go (fuel : nat) (i : nat) (c : config) : config :=
  match stage_step fuel (procs c i) (shared c) with
  | Some (st, s, o) =>
      mkConfig (set_proc (procs c) i st) s
        (match o with Some n => served c ++ [n] | None => served c end)
  | None => c
  end.

(** Everybody about to create their SlidingLock object. *)
Definition at_start (name : string) (s : store) : config :=
  mkConfig (fun _ => Starting (lock_init name)) s [].
