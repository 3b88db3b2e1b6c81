(** Several processes at one Notepad, each in the middle of one operation
    (dustgoggles/codex/implements.py:674-675, 694-697, 749-785).  Definitions
    only.

    As in Serial_Model.v, processes take turns at single primitive operations
    in any order.  A process first does what comes before the index's lock,
    then goes through [with SlidingLock(...)] like any user of the index, then
    does what comes after it.  Simplification: clear and close, which go
    through the lock several times, are left out. *)
From Verif Require Export Serial_Model Pad_Spec.

(** Where a process is: before the lock (a result: over without the lock), at
    the lock or inside, after it. *)
Inductive act (V : Type) :=
| Before (p : prog (option (pout V)))
| Through
| After (p : prog (pout V)).
Arguments Before {V} p. Arguments Through {V}. Arguments After {V} p.

Section Team.
  Variable hash : bytes -> string.
  Context {V : Type} (enc : V -> res bytes) (dec : bytes -> res V) (isnone : V -> bool).

  (** implements.py:783-785: the exceptions of __delitem__. *)
  Definition gone (e : exn) : exn := match e with FileNotFoundError => KeyError | _ => e end.

  (** Up to the lock.  __setitem__: implements.py:762-765; __delitem__:
      779-782; __getitem__ 749-753, get 755-759, keys 674-675 and iteritems
      694-697 take no lock. *)
  Definition before (p : pad) (o : pop V) : prog (option (pout V)) :=
    match o with
    | PSet k _ _ => if kisstr k && starts_index (ktext k) then Ret (Some (WDone (Exc KeyError))) else Ret None
    | PDel k =>
        if reserved_name k then Ret (Some (WDone (Exc KeyError)))
        else ptry (delete_block (pad_address (p_prefix p) (ktext k)) false) (fun _ => Ret None)
               (fun e => Ret (Some (WDone (Exc (gone e)))))
    | PGet k => let! r := done (np_getitem dec isnone p k) in Ret (Some (WGot r))
    | PGetDefault k => let! r := done (np_get dec isnone p k) in Ret (Some (WGotDefault r))
    | PKeys => let! l := np_keys p in Ret (Some (WKeys l))
    | PItems => let! r := done (np_items dec isnone p) in Ret (Some (WItems r))
    | PClear => Stuck
    end.

  (** What it does to the index, inside the lock: 443 called from 766, 484
      called from 783 (the others do not come there). *)
  Definition at_index (o : pop V) : iop :=
    match o with
    | PSet k _ ok => IAdd k ok
    | PDel k => IRemove k
    | PGet k | PGetDefault k => ICheck k
    | _ => IUpdate
    end.

  (** After the lock, given what came of the index operation: 767-773, 783-785. *)
  Definition after (p : pad) (o : pop V) (r : res iout) : prog (pout V) :=
    match o, r with
    | PSet k v ok, Ok (OPos (Ok _)) =>
        ptry (memorize enc v (pad_address (p_prefix p) (ktext k)) ok) (fun _ => Ret (WDone (Ok tt)))
          (fun e => Ret (WDone (Exc (as_key e))))
    | PSet _ _ _, Ok (OPos (Exc e)) | PSet _ _ _, Exc e => Ret (WDone (Exc (as_key e)))
    | PDel _, Ok (OPos (Ok _)) => Ret (WDone (Ok tt))
    | PDel _, Ok (OPos (Exc e)) | PDel _, Exc e => Ret (WDone (Exc (gone e)))
    | _, _ => Stuck
    end.

  (** All processes: the index and its lock, and where each of them is. *)
  Record team := mkTeam { guards : gconfig; acts : nat -> act V }.
  Definition board_of (t : team) : store := shared (users (guards t)).
  Definition set_act (f : nat -> act V) (i : nat) (a : act V) (j : nat) : act V := if Nat.eqb j i then a else f j.
  (** The same with another store. *)
  Definition on_store (s : store) (g : gconfig) : gconfig :=
    mkG (mkConfig (procs (users g)) s (served (users g))) (todo g) (order g).

  (** One turn: one operation, or the passage to the next stage. *)
  Definition team_turn (fuel : nat) (p : pad) (ops : nat -> pop V) (i : nat) (t : team) : team :=
    let g := guards t in
    match acts t i with
    | Before q =>
        match prog_step q (board_of t) with
        | Some (q', s) => mkTeam (on_store s g) (set_act (acts t) i (Before q'))
        | None =>
            match outcome q with
            | Some (Ok (Some x)) => mkTeam g (set_act (acts t) i (After (Ret x)))
            | Some (Ok None) => mkTeam g (set_act (acts t) i Through)
            | _ => t
            end
        end
    | Through =>
        match procs (users g) i, outcome (todo g i) with
        | Finished (Ok _), Some r => mkTeam g (set_act (acts t) i (After (after p (ops i) r)))
        | Finished (Exc e), _ => mkTeam g (set_act (acts t) i (After (after p (ops i) (Exc e))))
        | _, _ => mkTeam (guarded_turn fuel i g) (acts t)
        end
    | After q =>
        match prog_step q (board_of t) with
        | Some (q', s) => mkTeam (on_store s g) (set_act (acts t) i (After q'))
        | None => t
        end
    end.

  (** Process [i] is about to do operation [ops i], holding notepad [p]. *)
  Definition team_start (p : pad) (ops : nat -> pop V) (s : store) : team :=
    mkTeam (g_start hash (ix_name (p_index p)) (ix_mem (p_index p)) (fun i => at_index (ops i)) s)
      (fun i => Before (before p (ops i))).

  Fixpoint team_play (fuel : nat) (p : pad) (ops : nat -> pop V) (sched : list nat) (t : team) : team :=
    match sched with [] => t | i :: r => team_play fuel p ops r (team_turn fuel p ops i t) end.
End Team.
Arguments team : clear implicits.
