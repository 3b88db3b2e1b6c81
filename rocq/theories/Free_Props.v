(** Deadlock freedom of SlidingLock (C86). *)
From Verif Require Import Conc_Lemmas Free_Proofs.

(** Whatever has happened to a lock entered in an orderly way, any processes
    can still be served, all of them: there is a continuation, orderly too, by
    which each of them has been through the guarded section and out of it
    without an exception.  Of the other processes, each either has not moved
    or has finished as well.  If there are no others under way, the lock is
    free again.  (The patience of the loops must exceed the number of moves
    made.) *)
Theorem C86_no_deadlock name fuel k s n c is :
  free_lock name k s -> execution name fuel (orderly name) n (at_start name s) c ->
  (k + Z.of_nat (n + List.length is) < 256 ^ 5)%Z -> n + List.length is < fuel ->
  exists m c', execution name fuel (orderly name) m c c' /\
    (forall i, In i is -> procs c' i = Finished (Ok tt)) /\
    (forall i, procs c' i = procs c i \/ procs c' i = Finished (Ok tt)) /\
    ((forall i, In i is \/ not_begun name c i) -> free_lock name (k + Z.of_nat (List.length (served c'))) (shared c')).
Proof. exact (no_deadlock name fuel k s n c is). Qed.
Print Assumptions C86_no_deadlock.

(** Process 0 is inside, 2 waits for it, 1 is taking its slot, 3 has not begun. *)
Definition fx_store : store := snd (run (lock_init "L") empty_store).
Definition fx_sched : list nat := repeat 0 15 ++ repeat 2 14 ++ repeat 1 6.
Definition fx_at : config := play 99 fx_sched (at_start "L" fx_store).
Example C86_example :
  free_lock "L" 0 fx_store /\ execution "L" 99 (orderly "L") (List.length fx_sched) (at_start "L" fx_store) fx_at /\
  (0 + Z.of_nat (List.length fx_sched + List.length [3; 2; 1; 0]) < 256 ^ 5)%Z /\ List.length fx_sched + List.length [3; 2; 1; 0] < 99 /\
  inside fx_at 0 /\ (exists p, procs fx_at 2 = Waiting p) /\ entering fx_at 1 /\ not_begun "L" fx_at 3.
Proof.
  split; [|split; [|split; [|split; [|split; [|split; [|split]]]]]].
  - split; [|split; [lia|split; [vm_compute; reflexivity|]]].
    + destruct (lock_init_ok "L" 0 empty_store wf_empty) as (s' & ch & R & W & _).
      * split; [lia|]. split; [reflexivity|]. split; [reflexivity|]. left. auto.
      * unfold fx_store. rewrite R. exact W.
    + split; intro n.
      * assert (H : marker_address "L" n <> count_address "L") by (adn hash0 "L"; try tauto). cbn. unfold upd_name. now rewrite eqb_ne.
      * assert (H : lock_address "L" n <> count_address "L") by (adn hash0 "L"; try tauto). cbn. unfold upd_name. now rewrite eqb_ne.
  - apply (tidy_execution "L" 3 99 (orderly_b "L")); [apply enforces_orderly|vm_compute; reflexivity|]. intros j _ [p Hp]. discriminate Hp.
  - vm_compute. reflexivity.
  - vm_compute. lia.
  - eexists. vm_compute. reflexivity.
  - eexists. vm_compute. reflexivity.
  - eexists. vm_compute. reflexivity.
  - vm_compute. reflexivity.
Qed.

(** The bound on [fuel], which stands for loops without a limit, is not idle:
    with too little, a modelled process gets stuck in its loop for good. *)
Example C86_fuel_example :
  exists fuel s n c, free_lock "L" 0 s /\ execution "L" fuel (orderly "L") n (at_start "L" s) c /\
    forall m c', execution "L" fuel (orderly "L") m c c' -> procs c' 2 = Waiting Stuck.
Proof.
  exists 3, fx_store, (List.length (repeat 0 15 ++ repeat 2 40)), (play 3 (repeat 0 15 ++ repeat 2 40) (at_start "L" fx_store)).
  split; [exact (proj1 C86_example)|]. split.
  - apply (tidy_execution "L" 3 3 (orderly_b "L")); [apply enforces_orderly|vm_compute; reflexivity|]. intros j _ [p Hp]. discriminate Hp.
  - assert (H : forall m c c', execution "L" 3 (orderly "L") m c c' -> procs c 2 = Waiting Stuck -> procs c' 2 = Waiting Stuck).
    { intros m c c' HE H. induction HE as [c|m c c' i HE IH HR|m c c' s HE IH W Hs]; auto.
      destruct (Nat.eq_dec 2 i) as [<-|Hi]; [|rewrite go_other; auto]. unfold go. rewrite (IH H). cbn. now apply IH. }
    intros m c' HE. apply (H _ _ _ HE). vm_compute. reflexivity.
Qed.
