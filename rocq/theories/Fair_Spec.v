(** Specification vocabulary for fair schedules. *)
From Verif Require Export Conc_Spec.

(** [turns name fuel sched c c']: the processes of [sched] are given turns one
    after the other.  Whoever may not move at present ([orderly]) does nothing
    with its turn.  Between any two turns anybody may do anything to the store
    that leaves the lock's blocks alone. *)
Inductive turns (name : string) (fuel : nat) : list nat -> config -> config -> Prop :=
| turns_none c : turns name fuel [] c c
| turns_go c i r c' : orderly name c i -> turns name fuel r (go fuel i c) c' -> turns name fuel (i :: r) c c'
| turns_held c i r c' : ~ orderly name c i -> turns name fuel r c c' -> turns name fuel (i :: r) c c'
| turns_env c s r c' : wf s -> (forall a, lock_names name a -> same_at (shared c) s a) ->
    turns name fuel r (mkConfig (procs c) s (served c)) c' -> turns name fuel r c c'.

(** A piece of a schedule in which each of [is] has a turn, and nobody else. *)
Definition covers (is b : list nat) : Prop := incl is b /\ incl b is.

(** So many such pieces are enough for [n] processes. *)
Definition enough (n : nat) : nat := n * (2 * n + 23).

(** Every process of [is] gets a turn again and again, nobody else ever. *)
Definition fair (is : list nat) (sigma : nat -> nat) : Prop :=
  (forall t, In (sigma t) is) /\ (forall i, In i is -> forall t, exists t', t <= t' /\ sigma t' = i).
Definition first_turns (T : nat) (sigma : nat -> nat) : list nat := map sigma (seq 0 T).
