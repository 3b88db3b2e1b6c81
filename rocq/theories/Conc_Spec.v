(** Specification vocabulary for schedules. *)
From Verif Require Export Conc_Model Index_Spec.

Definition inside (c : config) (i : nat) : Prop := exists l, procs c i = Inside l.
Definition entering (c : config) (i : nat) : Prop := exists p, procs c i = Entering p.
Definition finished (c : config) (i : nat) : Prop := exists r, procs c i = Finished r.
Definition not_begun (name : string) (c : config) (i : nat) : Prop := procs c i = Starting (lock_init name).

(** [execution name fuel R n c c']: [n] moves lead from [c] to [c'].  A move is a
    turn of some process that [R] allows, or anything whatsoever done to the
    store by anybody (the guarded section included) that leaves the lock's
    blocks alone. *)
Inductive execution (name : string) (fuel : nat) (R : config -> nat -> Prop) : nat -> config -> config -> Prop :=
| exec_none c : execution name fuel R 0 c c
| exec_go n c c' i : execution name fuel R n c c' -> R c' i -> execution name fuel R (S n) c (go fuel i c')
| exec_env n c c' s : execution name fuel R n c c' -> wf s ->
    (forall a, lock_names name a -> same_at (shared c') s a) ->
    execution name fuel R (S n) c (mkConfig (procs c') s (served c')).

(** About to remove a marker, at the end of release. *)
Definition unmarking (name : string) (st : stage) : Prop :=
  exists n k r, st = Leaving (Do (OUnlink (marker_address name n)) k) r.

(** Any schedule; schedules in which nobody moves while another process is
    taking its slot and placing its lock; and those in which meanwhile nobody
    else takes a slot or removes a marker (but may prepare, wait, come to the
    guarded section, work there, count up and remove its lock). *)
Definition anyhow (c : config) (i : nat) : Prop := True.
Definition uninterleaved (c : config) (i : nat) : Prop := forall j, j <> i -> ~ entering c j.
Definition orderly (name : string) (c : config) (i : nat) : Prop :=
  forall j, j <> i -> entering c j ->
    (forall l, procs c i <> Ready l) /\ ~ entering c i /\ ~ unmarking name (procs c i).
(** As [orderly], but removing markers is allowed; as [orderly], but taking
    slots is allowed. *)
Definition one_entry (c : config) (i : nat) : Prop :=
  forall j, j <> i -> entering c j -> (forall l, procs c i <> Ready l) /\ ~ entering c i.
Definition markers_kept (name : string) (c : config) (i : nat) : Prop :=
  forall j, j <> i -> entering c j -> ~ unmarking name (procs c i).

(** The lock is free, its counter block exists and says [k]. *)
Definition free_lock (name : string) (k : Z) (s : store) : Prop :=
  wf s /\ (0 <= k)%Z /\ content s (count_address name) = Some (le_digits 5 k) /\
  (forall n, names s (marker_address name n) = None) /\ (forall n, names s (lock_address name n) = None).

(** k+1, ..., k+m. *)
Fixpoint slots_from (k : Z) (m : nat) : list Z :=
  match m with O => [] | S m' => (k + 1)%Z :: slots_from (k + 1) m' end.

(** The schedule given by a list of turns. *)
Fixpoint play (fuel : nat) (sched : list nat) (c : config) : config :=
  match sched with [] => c | i :: r => play fuel r (go fuel i c) end.
