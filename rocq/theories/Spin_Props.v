(** C76: waiting for a SlidingLock with a limit, and closing one. *)
From Verif Require Import Spin_Proofs.

(** With max_spins = m, entering while somebody ahead never moves fails with
    TimeoutError after exactly [rounds m sp] looks, and leaves shared memory
    as it was. *)
Theorem C76_timeout : forall I ch c j n f sp m s fuel,
  wf s -> queued I ch c j s -> j < fuel ->
  (rounds m sp <= fuel ->
   exists s', run (enter fuel (idle I ch n f sp (Some m))) s = (Some (Exc TimeoutError), s') /\
     wf s' /\ forall a, same_at s s' a) /\
  (fuel < rounds m sp -> fst (run (enter fuel (idle I ch n f sp (Some m))) s) = None).
Proof. exact enter_times_out. Qed.
Print Assumptions C76_timeout.

(** The spins are spent for good: an object that timed out once gives up at
    its first look the next time. *)
Theorem C76_spins_accumulate : forall I ch mh n f m sp s,
  wf s -> ahead I f n s -> names s (lock_address I n) = None ->
  exists s', wf s' /\ only_at (eq (lock_address I n)) s s' /\
    forall fuel,
    run (acquire fuel (slotted I ch mh n f sp (Some m) None)) s =
    (if (Nat.ltb fuel (rounds m sp)) then None
     else Some (Ok (slotted I ch mh n f (Z.max m sp + 1) (Some m)
                      (Some (mkHandle (lock_address I n) (next s))), Exc TimeoutError)), s').
Proof.
  intros I ch mh n f m sp s W H N. destruct (acquire_times_out I ch mh n f m sp s W H N) as (s' & A & B & _ & C).
  exists s'. auto.
Qed.
Print Assumptions C76_spins_accumulate.

Example C76_ex_rounds : rounds 5 0 = 6 /\ rounds 5 (Z.max 5 0 + 1) = 1.
Proof. split; reflexivity. Qed.

(** close() deletes the blocks of the object and nothing else. *)
Theorem C76_close : forall l s, wf s -> no_half_made l s ->
  exists s', run (lock_close l) s = (Some (Ok tt), s') /\ wf s' /\
    (forall a, In a (lock_blocks l) -> names s' a = None) /\
    only_at (fun a => In a (lock_blocks l)) s s'.
Proof. exact lock_close_run. Qed.
Print Assumptions C76_close.

(** The counter is one of them, so closing an idle object lets the next
    newcomer in beside a process that holds the lock in a later slot. *)
Theorem C76_close_keeps_exclusion_refuted : forall I ch n f sp mx s fuel k,
  wf s -> fuel <> 0 ->
  content s (count_address I) <> Some "" ->
  names s (marker_address I 1) = None -> names s (lock_address I 0) = None -> names s (lock_address I 1) = None ->
  (1 < k)%Z -> names s (lock_address I k) <> None ->
  exists l s', run (lock_close (idle I ch n f sp mx) >>> (let! l := lock_init I in enter fuel l)) s = (Some (Ok l), s') /\
    l_acquired l = true /\ names s' (lock_address I k) = names s (lock_address I k).
Proof. exact close_lets_others_in. Qed.
Print Assumptions C76_close_keeps_exclusion_refuted.

(** So does closing an index whose lock another process holds. *)
Theorem C76_index_close_keeps_exclusion_refuted : forall I ih nl s fuel k,
  wf s -> fuel <> 0 ->
  names s I <> None -> content s (count_address I) <> Some "" ->
  names s (marker_address I 1) = None -> names s (lock_address I 0) = None -> names s (lock_address I 1) = None ->
  (1 < k)%Z -> names s (lock_address I k) <> None ->
  exists l s', run (tag_close (mkIndex I (mkHandle I ih) nl) >>> (let! l := lock_init I in enter fuel l)) s = (Some (Ok l), s') /\
    l_acquired l = true /\ names s' (lock_address I k) = names s (lock_address I k).
Proof. exact index_close_lets_others_in. Qed.
Print Assumptions C76_index_close_keeps_exclusion_refuted.

(** One process has used lock "L" and left, another is inside (slot 2). *)
Definition spin_store : store :=
  snd (run (with_lock false 9 "L" (Ret tt) >>> let! l := lock_init "L" in enter 9 l) empty_store).
Example C76_ex :
  wf spin_store /\ queued "L" 0 1 1 spin_store /\ 
  names spin_store (marker_address "L" 1) = None /\ names spin_store (lock_address "L" 0) = None /\
  names spin_store (lock_address "L" 1) = None /\ names spin_store (lock_address "L" 2) <> None /\
  content spin_store (count_address "L") <> Some "" /\
  no_half_made (idle "L" 0 0 0 0 None) spin_store.
Proof.
  split; [|split].
  - assert (W0 : wf empty_store) by (repeat split; intros; try discriminate; reflexivity).
    assert (Q0 : quiet "L" 0 empty_store).
    { split; [lia|]. split; [reflexivity|]. split; [reflexivity|]. left. auto. }
    assert (B : (0 + 1 + 1 < 256 ^ 5)%Z) by (change (256 ^ 5)%Z with 1099511627776%Z; lia).
    destruct (with_lock_run "L" 0 empty_store 9 (Ret tt) W0 Q0) as (s1 & W1 & _ & H); [lia|discriminate|].
    destruct (H _ s1 eq_refl W1) as (s3 & R3 & W3 & _ & Q3); [intros; apply same_refl|].
    destruct (lock_init_ok "L" _ s3 W3 Q3) as (s4 & ch & R4 & W4 & A4 & O4).
    assert (Q4 : quiet "L" (0 + 1) s4).
    { destruct Q3 as (H0 & H1 & H2 & H3). split; [exact H0|]. split; [|split].
      - intro n. rewrite (same_names s3 s4); [apply H1|]. apply O4. adn hash0 "L"%string; try tauto.
      - intro n. rewrite (same_names s3 s4); [apply H2|]. apply O4. adn hash0 "L"%string; try tauto.
      - right. split; [apply (at_content _ _ _ _ A4)|lia]. }
    destruct (enter_ok "L" _ s4 ch 9 W4 Q4 A4) as (s5 & mh & lh & R5 & W5 & _); [lia|discriminate|].
    unfold spin_store. rewrite (run_bind_ok _ _ _ _ _ R3), (run_bind_ok _ _ _ _ _ R4), R5. exact W5.
  - split; [change (256 ^ 5)%Z with 1099511627776%Z; lia|]. split; [vm_compute; reflexivity|]. split; [vm_compute; reflexivity|].
    split; [intros n Hn; assert (n = 2%Z) as -> by lia; vm_compute; discriminate|]. split; [vm_compute; reflexivity|].
    split; [vm_compute; reflexivity|]. exists 2%Z. split; [vm_compute; split; congruence|vm_compute; discriminate].
  - split; [vm_compute; reflexivity|]. split; [vm_compute; reflexivity|]. split; [vm_compute; reflexivity|].
    split; [vm_compute; discriminate|]. split; [vm_compute; discriminate|].
    intros a [<-|[]]. vm_compute. discriminate.
Qed.
