(** Freedom from starvation of SlidingLock (C91). *)
From Verif Require Import Conc_Lemmas Fair_Proofs.

(** Any [n] processes use a free lock, each once.  However their turns are
    arranged, as long as the schedule goes through all of them [enough n]
    times (in any order, each as often as it likes), all of them have been in
    the guarded section and out of it without an exception, the slots have been
    served in their order, and the lock is free again.  (The patience of the
    loops must exceed the number of turns.) *)
Theorem C91_served name fuel k s is bs c :
  free_lock name k s -> NoDup is -> (k + Z.of_nat (List.length is) < 256 ^ 5)%Z ->
  (forall b, In b bs -> covers is b) -> enough (List.length is) <= List.length bs -> List.length (List.concat bs) < fuel ->
  turns name fuel (List.concat bs) (at_start name s) c ->
  (forall i, In i is -> procs c i = Finished (Ok tt)) /\ served c = slots_from k (List.length is) /\
  free_lock name (k + Z.of_nat (List.length is)) (shared c).
Proof. exact (served_all name fuel k s is bs c). Qed.
Print Assumptions C91_served.

(** Under every infinite schedule that gives each of them a turn again and
    again, there is a time from which on that is so. *)
Theorem C91_fair name k s is sigma :
  free_lock name k s -> NoDup is -> (k + Z.of_nat (List.length is) < 256 ^ 5)%Z -> fair is sigma ->
  exists T, forall T' fuel c, T <= T' -> T' < fuel -> turns name fuel (first_turns T' sigma) (at_start name s) c ->
    (forall i, In i is -> procs c i = Finished (Ok tt)) /\ served c = slots_from k (List.length is) /\
    free_lock name (k + Z.of_nat (List.length is)) (shared c).
Proof. exact (fair_served name k s is sigma). Qed.
Print Assumptions C91_fair.

(** *** Two processes that take turns *)
Definition held_b (name : string) (st : stage) : bool :=
  match st with
  | Ready _ | Entering _ => true
  | Leaving (Do o _) _ => match o with OUnlink a => existsb (fun k => String.eqb a (marker_address name (Z.of_nat k))) (seq 0 20) | _ => false end
  | _ => false
  end.
Lemma held_ok name c i j : j <> i -> entering c j -> held_b name (procs c i) = true -> ~ orderly name c i.
Proof.
  intros Hj He Hh HO. destruct (HO j Hj He) as (H1 & H2 & H3). destruct (procs c i) as [p|l|p|p|l|p x|x] eqn:Ei; try discriminate Hh.
  - exact (H1 l eq_refl).
  - apply H2. now exists p.
  - apply H3. destruct p as [a|e| |B o k]; try discriminate Hh. destruct o; try discriminate Hh. cbn in Hh.
    change (existsb (fun k0 => String.eqb a (marker_address name (Z.of_nat k0))) (seq 0 20) = true) in Hh.
    apply existsb_exists in Hh as (n & _ & Hn). apply String.eqb_eq in Hn. subst a. exists (Z.of_nat n), k, x. reflexivity.
Qed.
(** Plays a schedule of processes below [n]. *)
Fixpoint take_turns (name : string) (n fuel : nat) (sched : list nat) (c : config) : option config :=
  match sched with
  | [] => Some c
  | i :: r =>
      if allowed n (orderly_b name) c i then take_turns name n fuel r (go fuel i c)
      else if Nat.ltb i n && held_b name (procs c i) && existsb (fun j => negb (Nat.eqb j i) && entering_b (procs c j)) (seq 0 n)
           then take_turns name n fuel r c else None
  end.
Lemma take_turns_ok name n fuel sched : forall c c', (forall j, n <= j -> ~ entering c j) -> take_turns name n fuel sched c = Some c' -> turns name fuel sched c c'.
Proof.
  induction sched as [|i r IH]; intros c c' HB HT; cbn [take_turns] in HT; [injection HT as <-; constructor|].
  destruct (allowed n (orderly_b name) c i) eqn:EA.
  - destruct (allowed_ok n _ _ c i (enforces_orderly name) HB EA) as [Hi HO]. apply turns_go; [exact HO|]. apply IH; [|exact HT].
    intros j Hj. unfold entering. rewrite go_other by lia. apply HB, Hj.
  - destruct (Nat.ltb i n && held_b name (procs c i) && existsb (fun j => negb (Nat.eqb j i) && entering_b (procs c j)) (seq 0 n)) eqn:EH; [|discriminate].
    apply andb_prop in EH as [EH EX]. apply andb_prop in EH as [EH1 EH2]. apply existsb_exists in EX as (j & _ & EX). apply andb_prop in EX as [E1 E2].
    apply turns_held; [|apply IH; auto]. apply (held_ok name c i j); [|destruct (procs c j) eqn:Ej; try discriminate; now exists p|exact EH2].
    apply negb_true_iff, Nat.eqb_neq in E1. exact E1.
Qed.

Definition fq_store : store := snd (run (lock_init "L") empty_store).
Definition fq_blocks : list (list nat) := repeat [0; 1] (enough 2).
Definition fq_end : option config := take_turns "L" 2 200 (List.concat fq_blocks) (at_start "L" fq_store).
Lemma fq_turns c : fq_end = Some c -> turns "L" 200 (List.concat fq_blocks) (at_start "L" fq_store) c.
Proof. unfold fq_end. apply take_turns_ok. intros j _ [p Hp]. discriminate Hp. Qed.
Example C91_example :
  free_lock "L" 0 fq_store /\ NoDup [0; 1] /\ (forall b, In b fq_blocks -> covers [0; 1] b) /\
  enough (List.length [0; 1]) <= List.length fq_blocks /\ List.length (List.concat fq_blocks) < 200 /\
  (exists c, turns "L" 200 (List.concat fq_blocks) (at_start "L" fq_store) c /\ served c = [1; 2]%Z) /\
  fair [0; 1] (fun t => Nat.modulo t 2).
Proof.
  split; [|split; [|split; [|split; [|split; [|split]]]]].
  - split; [|split; [lia|split; [vm_compute; reflexivity|]]].
    + destruct (lock_init_ok "L" 0 empty_store wf_empty) as (s' & ch & R & W & _).
      * split; [lia|]. split; [reflexivity|]. split; [reflexivity|]. left. auto.
      * unfold fq_store. rewrite R. exact W.
    + split; intro n.
      * assert (H : marker_address "L" n <> count_address "L") by (adn hash0 "L"; try tauto). cbn. unfold upd_name. now rewrite eqb_ne.
      * assert (H : lock_address "L" n <> count_address "L") by (adn hash0 "L"; try tauto). cbn. unfold upd_name. now rewrite eqb_ne.
  - constructor; [intros [H|[]]; discriminate|]. constructor; [intros []|constructor].
  - intros b Hb. apply repeat_spec in Hb as ->. split; intros x Hx; exact Hx.
  - vm_compute. lia.
  - vm_compute. lia.
  - assert (H : option_map served fq_end = Some [1; 2]%Z) by (vm_compute; reflexivity).
    pose proof fq_turns as HT. destruct fq_end as [c|]; [|discriminate H]. injection H as H. exists c. split; [now apply HT|exact H].
  - split.
    + intro t. pose proof (Nat.mod_upper_bound t 2 ltac:(lia)). destruct (t mod 2) as [|[|n]]; cbn; auto; lia.
    + intros i Hi t. exists (2 * t + i). split; [lia|]. assert (i < 2) by (destruct Hi as [<-|[<-|[]]]; lia).
      rewrite Nat.add_comm, Nat.mul_comm, Nat.mod_add by lia. now apply Nat.mod_small.
Qed.
