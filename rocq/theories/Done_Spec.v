(** Specification vocabulary: guarded index operations under fair schedules. *)
From Verif Require Export Serial_Spec Fair_Spec.

(** [gturns hash name fuel sched g g']: the processes of [sched] are given
    turns one after the other.  Whoever may not move at present ([orderly])
    does nothing with its turn.  Between any two turns anybody may do anything
    to the store that leaves the blocks of the index alone. *)
Inductive gturns (hash : bytes -> string) (name : string) (fuel : nat) : list nat -> gconfig -> gconfig -> Prop :=
| gturns_none g : gturns hash name fuel [] g g
| gturns_go g i r g' : orderly name (users g) i -> gturns hash name fuel r (guarded_turn fuel i g) g' -> gturns hash name fuel (i :: r) g g'
| gturns_held g i r g' : ~ orderly name (users g) i -> gturns hash name fuel r g g' -> gturns hash name fuel (i :: r) g g'
| gturns_env g s r g' : wf s -> (forall a, index_names hash name a -> same_at (shared (users g)) s a) ->
    gturns hash name fuel r (mkG (mkConfig (procs (users g)) s (served (users g))) (todo g) (order g)) g' -> gturns hash name fuel r g g'.

(** Adding, removing and looking up a key (not listing all of them). *)
Definition quick (o : iop) : Prop := match o with IUpdate => False | _ => True end.
(** So many pieces of a schedule are enough for [n] processes: those that the
    lock needs, and for each process so many for the guarded section. *)
Definition enough_guarded (n : nat) : nat := S (enough n + n * 30).

(** Everything has been done, in the order [order g]: the results and the keys
    are those of the operations one after another, and the lock is free. *)
Definition done_in_order (hash : bytes -> string) (K : string -> Prop) (I : string) (m : handle) (k : Z)
    (ks0 : list string) (ops : nat -> iop) (is : list nat) (g : gconfig) : Prop :=
  (forall i, In i is -> procs (users g) i = Finished (Ok tt)) /\
  NoDup (order g) /\ (forall i, In i (order g) <-> In i is) /\
  (forall l i r, order g = l ++ i :: r -> outcome (todo g i) = Some (Ok (fst (tags_step (keys_by ks0 ops l) (ops i))))) /\
  shows hash K I m (shared (users g)) (keys_by ks0 ops (order g)) /\
  free_lock I (k + Z.of_nat (List.length is)) (shared (users g)).
