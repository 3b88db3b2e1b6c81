(** Several processes each doing one operation on the same TagIndex inside
    [with SlidingLock(name): ...] (dustgoggles/codex/implements.py:439-443,
    482-484).  Definitions only.

    As in Conc_Model.v, processes take turns at single primitive operations in
    any order; the guarded section is now a program too. *)
From Verif Require Export Conc_Model Index_Spec.

(** The guarded section of one operation.  implements.py:443 for [IAdd], 484
    for [IRemove], with the exception caught outside (as in [visit_prog]).
    [ICheck] and [IUpdate] take no lock of their own in the code; here they
    stand for a caller that puts 397-401 or 391-395 inside
    [with SlidingLock(index.name)]. *)
Definition guarded (hash : bytes -> string) (x : index) (o : iop) : prog iout :=
  match o with
  | IAdd k ok => ptry (_add hash x k ok) (fun p => Ret (OPos (Ok p))) (fun e => Ret (OPos (Exc e)))
  | IRemove k => ptry (_delitem hash x k) (fun r => Ret (OPos (Ok (fst r)))) (fun e => Ret (OPos (Exc e)))
  | ICheck k => let! o := check hash x k in Ret (OFound o)
  | IUpdate => let! l := update x in Ret (OKeys l)
  end.

(** The stages of all processes, what is left of the guarded section of each,
    and the order in which they came to it. *)
Record gconfig := mkG { users : config; todo : nat -> prog iout; order : list nat }.
Definition set_todo (f : nat -> prog iout) (i : nat) (p : prog iout) (j : nat) : prog iout :=
  if Nat.eqb j i then p else f j.

(** One turn: in the guarded section one operation of it, or [__exit__]
    (implements.py:182-185) when it is over; otherwise as in [go]. *)
Definition guarded_turn (fuel : nat) (i : nat) (g : gconfig) : gconfig :=
  match procs (users g) i with
  | Inside _ =>
      match prog_step (todo g i) (shared (users g)) with
      | Some (p, s) => mkG (mkConfig (procs (users g)) s (served (users g))) (set_todo (todo g) i p) (order g)
      | None =>
          match outcome (todo g i) with
          | Some _ => mkG (go fuel i (users g)) (todo g) (order g)
          | None => g
          end
      end
  | _ =>
      let c := go fuel i (users g) in
      mkG c (todo g) (match procs c i with Inside _ => order g ++ [i] | _ => order g end)
  end.

(** Process [i] is about to do operation [ops i]. *)
Definition g_start (hash : bytes -> string) (I : string) (m : handle) (ops : nat -> iop) (s : store) : gconfig :=
  mkG (at_start I s) (fun i => guarded hash (mkIndex I m false) (ops i)) [].

(** The schedule given by a list of turns. *)
Fixpoint guarded_play (fuel : nat) (sched : list nat) (g : gconfig) : gconfig :=
  match sched with [] => g | i :: r => guarded_play fuel r (guarded_turn fuel i g) end.
