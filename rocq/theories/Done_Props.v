(** Guarded index operations under fair schedules (C94). *)
From Verif Require Import Conc_Lemmas Done_Proofs Fair_Props Serial_Props Index_Props.

(** Any processes add, remove or look up keys of one index, each inside
    `with lock`.  However their turns are arranged, as long as the schedule goes
    through all of them often enough, everything has been done: there is an
    order in which all the results, and the keys in the end, are those of the
    operations one after another, and the lock is free.  (The patience of the
    loops must exceed the number of turns.) *)
Theorem C94_done hash K I h0 m s k ops fuel is bs g :
  reached hash K I h0 m s -> lock_used I k s -> (forall i key, op_key (ops i) = Some key -> plain_key K key) -> (forall i, In i is -> quick (ops i)) ->
  NoDup is -> (k + Z.of_nat (List.length is) < 256 ^ 5)%Z -> (Z.of_nat (List.length h0) < 256 ^ 5)%Z ->
  (forall b, In b bs -> covers is b) -> enough_guarded (List.length is) <= List.length bs -> List.length (List.concat bs) < fuel ->
  gturns hash I fuel (List.concat bs) (g_start hash I m ops s) g ->
  done_in_order hash K I m k (keys_after h0) ops is g.
Proof. exact (all_guarded_done hash K I h0 m s k ops fuel is bs g). Qed.
Print Assumptions C94_done.

(** Under every infinite schedule that gives each of them a turn again and
    again, there is a time from which on that is so. *)
Theorem C94_fair hash K I h0 m s k ops is sigma :
  reached hash K I h0 m s -> lock_used I k s -> (forall i key, op_key (ops i) = Some key -> plain_key K key) -> (forall i, In i is -> quick (ops i)) ->
  NoDup is -> (k + Z.of_nat (List.length is) < 256 ^ 5)%Z -> (Z.of_nat (List.length h0) < 256 ^ 5)%Z -> fair is sigma ->
  exists T, forall T' fuel g, T <= T' -> T' < fuel -> gturns hash I fuel (first_turns T' sigma) (g_start hash I m ops s) g ->
    done_in_order hash K I m k (keys_after h0) ops is g.
Proof. exact (fair_guarded_done hash K I h0 m s k ops is sigma). Qed.
Print Assumptions C94_fair.

(** *** Three processes that take turns *)
(** Plays a schedule of processes below [n]. *)
Fixpoint take_gturns (name : string) (n fuel : nat) (sched : list nat) (g : gconfig) : option gconfig :=
  match sched with
  | [] => Some g
  | i :: r =>
      if allowed n (orderly_b name) (users g) i then take_gturns name n fuel r (guarded_turn fuel i g)
      else if Nat.ltb i n && held_b name (procs (users g) i) && existsb (fun j => negb (Nat.eqb j i) && entering_b (procs (users g) j)) (seq 0 n)
           then take_gturns name n fuel r g else None
  end.
Lemma turn_other fuel i g j : j <> i -> entering (users (guarded_turn fuel i g)) j -> entering (users g) j.
Proof.
  intros Hj [p Hp]. exists p. rewrite <- Hp. clear Hp. unfold guarded_turn. destruct (procs (users g) i) as [q|l|q|q|l|q x|x]; cbn [users]; try (now rewrite go_elsewhere).
  destruct (prog_step (todo g i) (shared (users g))) as [[q s']|]; cbn [users procs]; [reflexivity|].
  destruct (outcome (todo g i)) as [o|]; cbn [users]; [now rewrite go_elsewhere|reflexivity].
Qed.
Lemma take_gturns_ok hash name n fuel sched : forall g g', (forall j, n <= j -> ~ entering (users g) j) -> take_gturns name n fuel sched g = Some g' -> gturns hash name fuel sched g g'.
Proof.
  induction sched as [|i r IH]; intros g g' HB HT; cbn [take_gturns] in HT; [injection HT as <-; constructor|].
  destruct (allowed n (orderly_b name) (users g) i) eqn:EA.
  - destruct (allowed_ok n _ _ (users g) i (enforces_orderly name) HB EA) as [Hi HO]. apply gturns_go; [exact HO|]. apply IH; [|exact HT].
    intros j Hj He. apply (HB j Hj). eapply turn_other; [|exact He]. lia.
  - destruct (Nat.ltb i n && held_b name (procs (users g) i) && existsb (fun j => negb (Nat.eqb j i) && entering_b (procs (users g) j)) (seq 0 n)) eqn:EH; [|discriminate].
    apply andb_prop in EH as [EH EX]. apply andb_prop in EH as [EH1 EH2]. apply existsb_exists in EX as (j & _ & EX). apply andb_prop in EX as [E1 E2].
    apply gturns_held; [|apply IH; auto]. apply (held_ok name (users g) i j); [|destruct (procs (users g) j) eqn:Ej; try discriminate; now exists p|exact EH2].
    apply negb_true_iff, Nat.eqb_neq in E1. exact E1.
Qed.

Definition dn_blocks : list (list nat) := repeat [0; 1; 2] (enough_guarded 3).
Definition dn_fuel : nat := S (List.length (List.concat dn_blocks)).
Definition dn_end : option gconfig := take_gturns "i" 3 dn_fuel (List.concat dn_blocks) sr_start.
Lemma dn_turns g : dn_end = Some g -> gturns ex_hash "i" dn_fuel (List.concat dn_blocks) sr_start g.
Proof. unfold dn_end. apply take_gturns_ok. intros j _ [p Hp]. discriminate Hp. Qed.
Example C94_example :
  reached ex_hash ex_any "i" ex_history ex_m sr_store /\ lock_used "i" 5 sr_store /\
  (forall i k, op_key (sr_ops i) = Some k -> plain_key ex_any k) /\ (forall i, In i [0; 1; 2] -> quick (sr_ops i)) /\ NoDup [0; 1; 2] /\
  (forall b, In b dn_blocks -> covers [0; 1; 2] b) /\ enough_guarded (List.length [0; 1; 2]) <= List.length dn_blocks /\
  List.length (List.concat dn_blocks) < dn_fuel /\
  (exists g, gturns ex_hash "i" dn_fuel (List.concat dn_blocks) sr_start g /\ order g = [0; 1; 2] /\
     map (fun i => outcome (todo g i)) [0; 1; 2] = [Some (Ok (OPos (Ok 3%Z))); Some (Ok (OPos (Ok 0%Z))); Some (Ok (OPos (Ok 3%Z)))]) /\
  fair [0; 1; 2] (fun t => Nat.modulo t 3).
Proof.
  split; [exact ex_reached|]. split; [exact sr_used|]. split; [exact sr_plain|].
  split; [intros i [<-|[<-|[<-|[]]]]; exact I|].
  split; [constructor; [cbn; intros [H|[H|[]]]; discriminate|]; constructor; [cbn; intros [H|[]]; discriminate|]; constructor; [intros []|constructor]|].
  split; [intros b Hb; apply repeat_spec in Hb as ->; split; intros x Hx; exact Hx|].
  split; [unfold dn_blocks; rewrite repeat_length; apply le_n|]. split; [apply le_n|]. split.
  - assert (H : option_map (fun g => (order g, map (fun i => outcome (todo g i)) [0; 1; 2])) dn_end =
      Some ([0; 1; 2], [Some (Ok (OPos (Ok 3%Z))); Some (Ok (OPos (Ok 0%Z))); Some (Ok (OPos (Ok 3%Z)))])) by (vm_compute; reflexivity).
    pose proof dn_turns as HT. destruct dn_end as [g|]; [|discriminate H]. injection H as H1 H2. exists g. split; [now apply HT|]. split; [exact H1|cbn [map]; congruence].
  - split.
    + intro t. pose proof (Nat.mod_upper_bound t 3 ltac:(lia)). destruct (t mod 3) as [|[|[|n]]]; cbn; auto; lia.
    + intros i Hi t. exists (3 * t + i). split; [lia|]. assert (i < 3) by (destruct Hi as [<-|[<-|[<-|[]]]]; lia).
      rewrite Nat.add_comm, Nat.mul_comm, Nat.mod_add by lia. now apply Nat.mod_small.
Qed.
