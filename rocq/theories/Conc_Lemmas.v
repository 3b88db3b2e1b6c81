(** Statements about schedules, ready for Conc_Props.v. *)
From Verif Require Export Conc_Dead Race_Proofs.

Lemma play_execution name fuel sched : forall c, execution name fuel anyhow (List.length sched) c (play fuel sched c).
Proof.
  assert (H : forall c n c0, execution name fuel anyhow n c0 c -> execution name fuel anyhow (List.length sched + n) c0 (play fuel sched c)).
  { induction sched as [|i r IH]; intros c n c0 H; cbn [play List.length]; [exact H|]. cbn [plus]. rewrite plus_n_Sm. apply IH. constructor; [exact H|exact Logic.I]. }
  intro c. rewrite <- (Nat.add_0_r (List.length sched)). apply H. constructor.
Qed.
Lemma play_without name fuel i sched : forall c, ~ In i sched -> execution name fuel (fun _ j => j <> i) (List.length sched) c (play fuel sched c).
Proof.
  assert (H : forall c n c0, ~ In i sched -> execution name fuel (fun _ j => j <> i) n c0 c ->
    execution name fuel (fun _ j => j <> i) (List.length sched + n) c0 (play fuel sched c)).
  { induction sched as [|k r IH]; intros c n c0 Hn H; cbn [play List.length]; [exact H|]. cbn [plus]. rewrite plus_n_Sm. cbn [In] in Hn. apply IH; [tauto|].
    constructor; [exact H|]. intros ->. tauto. }
  intros c Hn. rewrite <- (Nat.add_0_r (List.length sched)). apply H; [exact Hn|constructor].
Qed.
Lemma play_app fuel x y c : play fuel (x ++ y) c = play fuel y (play fuel x c).
Proof. revert c. induction x as [|i x IH]; intro c; cbn; auto. Qed.

(** A check of a schedule of processes below [n]: while another process is
    entering, only stages that meet [f] are left. *)
Definition entering_b (st : stage) : bool := match st with Entering _ => true | _ => false end.
Definition ready_b (st : stage) : bool := match st with Ready _ => true | _ => false end.
Definition unmarking_b (name : string) (st : stage) : bool :=
  match st with
  | Leaving (Do o _) _ => match o with OUnlink a => negb (existsb (fun k => String.eqb a (lock_address name (Z.of_nat k))) (seq 0 20)) | _ => false end
  | _ => false
  end.
Definition orderly_b (name : string) (st : stage) : bool := negb (ready_b st) && negb (entering_b st) && negb (unmarking_b name st).
Definition one_entry_b (st : stage) : bool := negb (ready_b st) && negb (entering_b st).
Definition allowed (n : nat) (f : stage -> bool) (c : config) (i : nat) : bool :=
  Nat.ltb i n && forallb (fun j => Nat.eqb j i || negb (entering_b (procs c j)) || f (procs c i)) (seq 0 n).
Fixpoint tidy (n fuel : nat) (f : stage -> bool) (sched : list nat) (c : config) : bool :=
  match sched with
  | [] => true
  | i :: r => allowed n f c i && tidy n fuel f r (go fuel i c)
  end.
Definition enforces (f : stage -> bool) (R : config -> nat -> Prop) : Prop :=
  forall c i, (forall j, j <> i -> entering c j -> f (procs c i) = true) -> R c i.
Lemma allowed_ok n f R c i : enforces f R -> (forall j, n <= j -> ~ entering c j) -> allowed n f c i = true -> i < n /\ R c i.
Proof.
  intros HR HB HA. apply andb_prop in HA as [HA0 HA]. apply Nat.ltb_lt in HA0. split; [exact HA0|]. apply HR. intros j Hj [p Hp].
  destruct (Nat.lt_ge_cases j n) as [Hlt|Hge]; [|destruct (HB j Hge); now exists p].
  rewrite forallb_forall in HA. specialize (HA j). rewrite in_seq in HA. specialize (HA ltac:(lia)). rewrite Hp in HA. cbn in HA.
  rewrite (proj2 (Nat.eqb_neq j i) Hj) in HA. exact HA.
Qed.
Lemma unmarking_complete name st : unmarking_b name st = false -> ~ unmarking name st.
Proof.
  intros H (n & k & r & ->). cbn [unmarking_b] in H. apply negb_false_iff, existsb_exists in H. destruct H as (x & _ & Hx). apply String.eqb_eq in Hx.
  revert Hx. adn hash0 name; try tauto.
Qed.
Lemma enforces_never : enforces (fun _ => false) uninterleaved.
Proof. intros c i H j Hj He. discriminate (H j Hj He). Qed.
Lemma enforces_one : enforces one_entry_b one_entry.
Proof.
  intros c i H j Hj He. specialize (H j Hj He). apply andb_prop in H as [H1 H2]. 
  split; [intros l E|intros [p E]]; rewrite E in *; discriminate.
Qed.
Lemma enforces_markers name : enforces (fun st => negb (unmarking_b name st)) (markers_kept name).
Proof. intros c i H j Hj He. specialize (H j Hj He). apply unmarking_complete. now apply negb_true_iff. Qed.
Lemma enforces_orderly name : enforces (orderly_b name) (orderly name).
Proof.
  intros c i H j Hj He. specialize (H j Hj He). apply andb_prop in H as [H H3]. apply andb_prop in H as [H1 H2]. 
  split; [intros l E; rewrite E in *; discriminate|]. split; [intros [p E]; rewrite E in *; discriminate|].
  apply unmarking_complete. now apply negb_true_iff.
Qed.
Lemma go_other fuel i c j : j <> i -> procs (go fuel i c) j = procs c j.
Proof. intro H. unfold go. destruct (stage_step fuel (procs c i) (shared c)) as [[[st s'] o]|]; cbn [procs]; [apply set_other, H|reflexivity]. Qed.
Lemma tidy_execution name n fuel f R sched : enforces f R -> forall c, tidy n fuel f sched c = true -> (forall j, n <= j -> ~ entering c j) ->
  execution name fuel R (List.length sched) c (play fuel sched c).
Proof.
  intro HR. assert (H : forall c m c0, tidy n fuel f sched c = true -> (forall j, n <= j -> ~ entering c j) ->
    execution name fuel R m c0 c -> execution name fuel R (List.length sched + m) c0 (play fuel sched c)).
  { induction sched as [|i r IH]; intros c m c0 HT HB HE; cbn [play List.length]; [exact HE|]. cbn [tidy] in HT.
    apply andb_prop in HT as [HT HT2]. destruct (allowed_ok n f R c i HR HB HT) as [Hi Hr]. cbn [plus]. rewrite plus_n_Sm.
    apply IH; [exact HT2| |].
    - intros j Hj [p Hp]. rewrite go_other in Hp by lia. apply (HB j Hj). now exists p.
    - constructor; [exact HE|exact Hr]. }
  intros c HT HB. rewrite <- (Nat.add_0_r (List.length sched)). apply H; auto. constructor.
Qed.

(** The stages are what SlidingLock.__enter__ does. *)
Lemma enter_stages fuel l s :
  let fail (l : lockst) (e : exn) : prog lockst := if is_Exception e then release l >>> Raise e else Raise e in
  let finish (lr : lockst * res unit) : prog lockst := match snd lr with Ok _ => Ret (fst lr) | Exc e => fail (fst lr) e end in
  run (enter fuel l) s =
  run (let! lr := entry fuel l in
       match snd lr with
       | Ok _ => let! lr' := acquire_loop fuel (fst lr) in finish lr'
       | Exc e => fail (fst lr) e
       end) s.
Proof.
  cbn zeta. unfold enter, entry. rewrite run_bind, !run_ptry. destruct (run (renumber fuel l) s) as [[[l1|e]|] s1]; try reflexivity.
  rewrite run_bind. unfold acquire. rewrite !run_ptry.
  destruct (run (shm_create (lock_address (l_name l1) (l_number l1)) 1) s1) as [[[h|e]|] s2]; try reflexivity.
  - cbn [run snd fst]. rewrite run_bind. reflexivity.
  - destruct e; try reflexivity. cbn [run snd fst]. rewrite run_bind. reflexivity.
Qed.

Lemma free_quiet name k s : free_lock name k s -> (k < 256 ^ 5)%Z -> quiet name k s.
Proof. intros (W & H0 & HC & HM & HL) Hk. split; [exact H0|]. split; [exact HM|]. split; [exact HL|]. right. auto. Qed.

Lemma next_entrant name k s : free_lock name k s -> (k < 256 ^ 5)%Z ->
  exists l s', run (let! l := lock_init name in enter 1 l) s = (Some (Ok l), s') /\
    l_number l = (k + 1)%Z /\ l_acquired l = true /\ l_spins l = 0%Z.
Proof.
  intros HF Hk. pose proof (free_quiet _ _ _ HF Hk) as HQ. pose proof (proj1 HF) as W.
  destruct (lock_init_ok _ _ _ W HQ) as (s1 & ch & R1 & W1 & A1 & O1).
  assert (HQ1 : quiet name k s1).
  { destruct HQ as (Q1 & Q2 & Q3 & Q4). split; [exact Q1|]. split; [|split].
    - intro n. rewrite (same_names s s1); [apply Q2|]. apply O1. adn hash0 name; try tauto.
    - intro n. rewrite (same_names s s1); [apply Q3|]. apply O1. adn hash0 name; try tauto.
    - right. split; [exact (at_content _ _ _ _ A1)|exact Hk]. }
  destruct (Lock_Proofs.enter_ok name k s1 ch 1 W1 HQ1 A1 Hk) as (s2 & mh & lh & R2 & _); [discriminate|].
  eexists. exists s2. rewrite (run_bind_ok _ _ _ _ _ R1), R2. split; [reflexivity|]. auto.
Qed.

Lemma mutual_exclusion name fuel k s n c i j : free_lock name k s -> (k + Z.of_nat n < 256 ^ 5)%Z ->
  execution name fuel (orderly name) n (at_start name s) c -> inside c i -> inside c j -> i = j.
Proof.
  intros HF Hb HE. destruct (start_inv _ fuel _ _ HF) as [ch H0]. apply (Inv_mutex name fuel ch k n c). eapply Inv_reach; eauto.
Qed.
Lemma slot_order name fuel k s n c : free_lock name k s -> (k + Z.of_nat n < 256 ^ 5)%Z ->
  execution name fuel (orderly name) n (at_start name s) c ->
  served c = slots_from k (List.length (served c)) /\ (forall i r, procs c i = Finished r -> r = Ok tt) /\
  ((forall i, finished c i \/ not_begun name c i) -> free_lock name (k + Z.of_nat (List.length (served c))) (shared c)).
Proof.
  intros HF Hb HE. destruct (start_inv _ fuel _ _ HF) as [ch H0]. pose proof (Inv_reach name fuel ch k n _ _ H0 HE Hb) as H.
  split; [eapply Inv_served; eauto|]. split; [intros i r; eapply Inv_finished; eauto|eapply Inv_clean; eauto].
Qed.
