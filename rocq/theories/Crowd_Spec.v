(** Several processes with operations on one TagIndex under its lock, and
    several that only look and take no lock. *)
From Verif Require Export Serial_Spec Live_Spec.

(** [watched hash name fuel R n g ps g' ps']: [n] moves lead from the lock
    users [g] and the readers [ps] to [g'] and [ps'].  A move is one of
    [rounds], or one operation of a reader, in any order. *)
Inductive watched {A} (hash : bytes -> string) (name : string) (fuel : nat) (R : config -> nat -> Prop) :
    nat -> gconfig -> list (prog A) -> gconfig -> list (prog A) -> Prop :=
| watched_none g ps : watched hash name fuel R 0 g ps g ps
| watched_turn n g ps g' ps' i : watched hash name fuel R n g ps g' ps' -> R (users g') i ->
    watched hash name fuel R (S n) g ps (guarded_turn fuel i g') ps'
| watched_env n g ps g' ps' s : watched hash name fuel R n g ps g' ps' -> wf s ->
    (forall a, index_names hash name a -> same_at (shared (users g')) s a) ->
    watched hash name fuel R (S n) g ps (mkG (mkConfig (procs (users g')) s (served (users g'))) (todo g') (order g')) ps'
| watched_read n g ps g' ps' j ps'' s : watched hash name fuel R n g ps g' ps' ->
    turn ps' j (shared (users g')) = (ps'', s) ->
    watched hash name fuel R (S n) g ps (mkG (mkConfig (procs (users g')) s (served (users g'))) (todo g') (order g')) ps''.

(** No process removes a key. *)
Definition none_removes (ops : nat -> iop) : Prop :=
  forall i, match ops i with IRemove _ => False | _ => True end.

(** The processes [l] came to the guarded section first and are through with
    it. *)
Definition through (g : gconfig) (l : list nat) : Prop :=
  (exists r, order g = l ++ r) /\ forall i, In i l -> ~ inside (users g) i.
