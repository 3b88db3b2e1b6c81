(** Properties of schedules: SlidingLock used by several processes (C50-C52),
    and unguarded use of one note by several processes (C53). *)
From Verif Require Import Conc_Lemmas.

(** A lock "L" whose counter block exists, in three schedules. *)
Definition cx_store : store := snd (run (lock_init "L") empty_store).
Lemma cx_free : free_lock "L" 0 cx_store.
Proof.
  split; [|split; [lia|split; [vm_compute; reflexivity|]]].
  - destruct (lock_init_ok "L" 0 empty_store wf_empty) as (s' & ch & R & W & _).
    + split; [lia|]. split; [reflexivity|]. split; [reflexivity|]. left. auto.
    + unfold cx_store. rewrite R. exact W.
  - split; intro n.
    + assert (H : marker_address "L" n <> count_address "L") by (adn hash0 "L"; try tauto).
      cbn. unfold upd_name. now rewrite eqb_ne.
    + assert (H : lock_address "L" n <> count_address "L") by (adn hash0 "L"; try tauto).
      cbn. unfold upd_name. now rewrite eqb_ne.
Qed.
(** Three processes whose entries are not interleaved: 0 and 1 and 2 place
    their locks, then wait for each other in turn. *)
Definition cx_tidy : list nat := repeat 0 13 ++ repeat 1 16 ++ repeat 2 17 ++ repeat 0 4 ++ repeat 1 2 ++ repeat 0 5 ++ repeat 2 3 ++ repeat 1 3.
Definition cx_end : list nat := repeat 0 15 ++ repeat 2 14 ++ repeat 1 6 ++ repeat 0 3 ++ repeat 2 3 ++ repeat 1 9 ++ repeat 0 3 ++ repeat 2 10 ++ repeat 1 20.
(** Process 1 enters while 0 has its marker but not its lock. *)
Definition cx_race : list nat := repeat 0 9 ++ repeat 1 17 ++ repeat 0 6.
(** While 1 is entering, 0 counts up and removes its lock, and 2 comes in. *)
Definition cx_over : list nat := repeat 0 15 ++ repeat 2 14 ++ repeat 1 6 ++ repeat 0 3 ++ repeat 2 3 ++ repeat 1 9.
(** While 1 is entering, 0 removes its marker too. *)
Definition cx_gap : list nat := repeat 0 15 ++ repeat 2 14 ++ repeat 1 6 ++ repeat 0 3 ++ repeat 2 3.
Definition cx_unmark : list nat := [0] ++ repeat 1 9.

(** ** C50 *)

(** Never two inside, if while a process is taking its slot and placing its
    lock nobody else takes a slot or removes a marker. *)
Theorem C50_mutual_exclusion name fuel k s n c i j :
  free_lock name k s -> (k + Z.of_nat n < 256 ^ 5)%Z ->
  execution name fuel (orderly name) n (at_start name s) c ->
  inside c i -> inside c j -> i = j.
Proof. exact (mutual_exclusion name fuel k s n c i j). Qed.
Print Assumptions C50_mutual_exclusion.

Example C50_example :
  free_lock "L" 0 cx_store /\
  execution "L" 9 (orderly "L") (List.length cx_over) (at_start "L" cx_store) (play 9 cx_over (at_start "L" cx_store)) /\
  inside (play 9 cx_over (at_start "L" cx_store)) 2 /\ (exists p, procs (play 9 cx_over (at_start "L" cx_store)) 1 = Waiting p) /\
  unmarking "L" (procs (play 9 cx_over (at_start "L" cx_store)) 0).
Proof.
  split; [exact cx_free|]. split; [|split; [|split]].
  - apply (tidy_execution "L" 3 9 (orderly_b "L")); [apply enforces_orderly|vm_compute; reflexivity|]. intros j _ [p Hp]. discriminate Hp.
  - eexists. vm_compute. reflexivity.
  - eexists. vm_compute. reflexivity.
  - exists 1%Z. do 2 eexists. vm_compute. reflexivity.
Qed.

(** Nobody moving at all meanwhile is more than enough. *)
Theorem C50_uninterleaved name c i : uninterleaved c i -> orderly name c i.
Proof. exact (uninterleaved_orderly name c i). Qed.
Print Assumptions C50_uninterleaved.

Example C50_uninterleaved_example :
  execution "L" 9 uninterleaved (List.length cx_tidy) (at_start "L" cx_store) (play 9 cx_tidy (at_start "L" cx_store)) /\
  inside (play 9 cx_tidy (at_start "L" cx_store)) 1 /\ ~ inside (play 9 cx_tidy (at_start "L" cx_store)) 2.
Proof.
  split; [|split].
  - apply (tidy_execution "L" 3 9 (fun _ => false)); [apply enforces_never|vm_compute; reflexivity|]. intros j _ [p Hp]. discriminate Hp.
  - eexists. vm_compute. reflexivity.
  - intros [l Hl]. vm_compute in Hl. discriminate Hl.
Qed.

(** Both halves are needed.  With two entering at once, two processes are
    inside at once. *)
Theorem C50_interleaved_refuted :
  exists name fuel s n c, free_lock name 0 s /\ execution name fuel (markers_kept name) n (at_start name s) c /\ inside c 0 /\ inside c 1.
Proof.
  exists "L", 9, cx_store, (List.length cx_race), (play 9 cx_race (at_start "L" cx_store)). split; [exact cx_free|].
  split; [|split; eexists; vm_compute; reflexivity].
  apply (tidy_execution "L" 3 9 (fun st => negb (unmarking_b "L" st))); [apply enforces_markers|vm_compute; reflexivity|]. intros j _ [p Hp]. discriminate Hp.
Qed.
Print Assumptions C50_interleaved_refuted.

(** With one entering at a time, but a marker removed meanwhile, too. *)
Theorem C50_marker_refuted :
  exists name fuel s n c, free_lock name 0 s /\ execution name fuel one_entry n (at_start name s) c /\ inside c 1 /\ inside c 2.
Proof.
  exists "L", 9, cx_store, (List.length (cx_gap ++ cx_unmark)), (play 9 (cx_gap ++ cx_unmark) (at_start "L" cx_store)). split; [exact cx_free|].
  split; [|split; eexists; vm_compute; reflexivity].
  apply (tidy_execution "L" 3 9 one_entry_b); [apply enforces_one|vm_compute; reflexivity|]. intros j _ [p Hp]. discriminate Hp.
Qed.
Print Assumptions C50_marker_refuted.

(** The stages of the schedules are what the sequential __enter__ does. *)
Theorem C50_stages_agree fuel l s :
  let fail (l : lockst) (e : exn) : prog lockst := if is_Exception e then release l >>> Raise e else Raise e in
  let finish (lr : lockst * res unit) : prog lockst := match snd lr with Ok _ => Ret (fst lr) | Exc e => fail (fst lr) e end in
  run (enter fuel l) s =
  run (let! lr := entry fuel l in
       match snd lr with
       | Ok _ => let! lr' := acquire_loop fuel (fst lr) in finish lr'
       | Exc e => fail (fst lr) e
       end) s.
Proof. exact (enter_stages fuel l s). Qed.
Print Assumptions C50_stages_agree.

Example C50_stages_example :
  exists l, fst (run (let! l := lock_init "L" in enter 3 l) cx_store) = Some (Ok l) /\ l_number l = 1%Z /\ l_acquired l = true.
Proof. eexists. vm_compute. repeat split. Qed.

(** ** C51 *)

(** Slots k+1, k+2, ... are served in that order, nobody fails, and when
    nobody is under way the lock is free again, its counter at the last slot
    served. *)
Theorem C51_slot_order name fuel k s n c :
  free_lock name k s -> (k + Z.of_nat n < 256 ^ 5)%Z ->
  execution name fuel (orderly name) n (at_start name s) c ->
  served c = slots_from k (List.length (served c)) /\
  (forall i r, procs c i = Finished r -> r = Ok tt) /\
  ((forall i, finished c i \/ not_begun name c i) ->
   free_lock name (k + Z.of_nat (List.length (served c))) (shared c)).
Proof. exact (slot_order name fuel k s n c). Qed.
Print Assumptions C51_slot_order.

Example C51_example :
  let c := play 9 cx_end (at_start "L" cx_store) in
  execution "L" 9 (orderly "L") (List.length cx_end) (at_start "L" cx_store) c /\
  served c = [1; 2; 3]%Z /\ (forall i, finished c i \/ not_begun "L" c i).
Proof.
  cbn zeta. split; [|split].
  - apply (tidy_execution "L" 3 9 (orderly_b "L")); [apply enforces_orderly|vm_compute; reflexivity|]. intros j _ [p Hp]. discriminate Hp.
  - vm_compute. reflexivity.
  - intro i. destruct i as [|[|[|i]]]; [left; eexists; vm_compute; reflexivity..|right].
    assert (H : forall sched c, (forall x, In x sched -> x < 3) -> procs c (S (S (S i))) = Starting (lock_init "L") ->
      procs (play 9 sched c) (S (S (S i))) = Starting (lock_init "L")).
    { induction sched as [|x r IH]; intros c Hx Hc; [exact Hc|]. cbn [play]. apply IH; [intros y Hy; apply Hx; now right|].
      rewrite go_other; [exact Hc|]. specialize (Hx x (or_introl eq_refl)). lia. }
    apply H; [|reflexivity]. intros x Hx. assert (forallb (fun y => Nat.ltb y 3) cx_end = true) as F by (vm_compute; reflexivity).
    rewrite forallb_forall in F. apply Nat.ltb_lt, F, Hx.
Qed.

(** Whoever comes to a free lock next gets the next slot with one check and
    no waiting. *)
Theorem C51_next_entrant name k s :
  free_lock name k s -> (k < 256 ^ 5)%Z ->
  exists l s', run (let! l := lock_init name in enter 1 l) s = (Some (Ok l), s') /\
    l_number l = (k + 1)%Z /\ l_acquired l = true /\ l_spins l = 0%Z.
Proof. exact (next_entrant name k s). Qed.
Print Assumptions C51_next_entrant.

Example C51_next_example : free_lock "L" 0 cx_store /\ exists s', free_lock "L" 2 s'.
Proof.
  split; [exact cx_free|].
  assert (H : exists n c, execution "L" 9 (orderly "L") n (at_start "L" cx_store) c /\ (Z.of_nat n < 100)%Z /\ served c = [1; 2]%Z /\
    (forall i, finished c i \/ not_begun "L" c i)).
  { exists (List.length (repeat 0 30 ++ repeat 1 30)), (play 9 (repeat 0 30 ++ repeat 1 30) (at_start "L" cx_store)). split; [|split; [|split]].
    - apply (tidy_execution "L" 3 9 (orderly_b "L")); [apply enforces_orderly|vm_compute; reflexivity|]. intros j _ [p Hp]. discriminate Hp.
    - vm_compute. reflexivity.
    - vm_compute. reflexivity.
    - intro i. destruct i as [|[|i]]; [left; eexists; vm_compute; reflexivity..|right]. vm_compute. reflexivity. }
  destruct H as (n & c & HE & Hn & Hs & Ha). exists (shared c).
  destruct (C51_slot_order "L" 9 0 cx_store n c cx_free) as (_ & _ & F).
  - change (256 ^ 5)%Z with 1099511627776%Z. lia.
  - exact HE.
  - specialize (F Ha). rewrite Hs in F. exact F.
Qed.

(** The first users of a lock can fail: one finds the other's half-made
    counter block. *)
Theorem C51_first_use_refuted :
  exists name fuel n c, execution name fuel anyhow n (at_start name empty_store) c /\ procs c 1 = Finished (Exc ValueError).
Proof.
  exists "L", 9, (List.length (repeat 0 1 ++ repeat 1 4)), (play 9 (repeat 0 1 ++ repeat 1 4) (at_start "L" empty_store)). split; [apply play_execution|]. vm_compute. reflexivity.
Qed.
Print Assumptions C51_first_use_refuted.

(** ** C52 *)

(** If the process that is inside never moves again, nobody else ever gets
    in, however the others are interleaved. *)
Theorem C52_dead_holder_blocks name fuel k s n m c c' i j :
  free_lock name k s -> execution name fuel uninterleaved n (at_start name s) c ->
  (k + Z.of_nat n < 256 ^ 5)%Z -> inside c i ->
  execution name fuel (fun _ j => j <> i) m c c' -> j <> i -> ~ inside c' j.
Proof. exact (dead_holder_blocks name fuel k s n m c c' i j). Qed.
Print Assumptions C52_dead_holder_blocks.

(** Process 0 dies inside; 1 and 2 interleave their entries and wait. *)
Example C52_example :
  let c := play 9 (repeat 0 15) (at_start "L" cx_store) in
  let sched := repeat 1 9 ++ repeat 2 16 ++ repeat 1 30 in
  execution "L" 9 uninterleaved 15 (at_start "L" cx_store) c /\ inside c 0 /\
  execution "L" 9 (fun _ j => j <> 0) (List.length sched) c (play 9 sched c) /\
  (exists p, procs (play 9 sched c) 1 = Waiting p) /\ (exists p, procs (play 9 sched c) 2 = Waiting p).
Proof.
  cbn zeta. split; [|split; [|split; [|split]]].
  - apply (tidy_execution "L" 3 9 (fun _ => false) _ (repeat 0 15)); [apply enforces_never|vm_compute; reflexivity|]. intros j _ [p Hp]. discriminate Hp.
  - eexists. vm_compute. reflexivity.
  - apply play_without. cbn. intuition discriminate.
  - eexists. vm_compute. reflexivity.
  - eexists. vm_compute. reflexivity.
Qed.

(** It is enough that entries were orderly and nobody was entering at the
    death. *)
Theorem C52_dead_holder_orderly name fuel k s n m c c' i j :
  free_lock name k s -> execution name fuel (orderly name) n (at_start name s) c ->
  (k + Z.of_nat n < 256 ^ 5)%Z -> inside c i -> (forall x, ~ entering c x) ->
  execution name fuel (fun _ j => j <> i) m c c' -> j <> i -> ~ inside c' j.
Proof. exact (dead_holder_orderly name fuel k s n m c c' i j). Qed.
Print Assumptions C52_dead_holder_orderly.

(** Process 2 dies inside after 1 has entered beside 0's leaving. *)
Example C52_orderly_example :
  let c := play 9 cx_over (at_start "L" cx_store) in
  execution "L" 9 (orderly "L") (List.length cx_over) (at_start "L" cx_store) c /\ inside c 2 /\ (forall x, ~ entering c x) /\
  execution "L" 9 (fun _ j => j <> 2) (List.length cx_unmark) c (play 9 cx_unmark c).
Proof.
  cbn zeta. split; [|split; [|split]].
  - apply (tidy_execution "L" 3 9 (orderly_b "L")); [apply enforces_orderly|vm_compute; reflexivity|]. intros j _ [p Hp]. discriminate Hp.
  - eexists. vm_compute. reflexivity.
  - intros x [p Hp]. destruct x as [|[|[|x]]]; vm_compute in Hp; discriminate Hp.
  - apply play_without. cbn. intuition discriminate.
Qed.

(** If somebody was entering at the death, they can get in. *)
Theorem C52_entering_refuted :
  exists name fuel s n m c c', free_lock name 0 s /\ execution name fuel (orderly name) n (at_start name s) c /\ inside c 2 /\
    entering c 1 /\ execution name fuel (fun _ j => j <> 2) m c c' /\ inside c' 1.
Proof.
  exists "L", 9, cx_store, (List.length cx_gap), (List.length cx_unmark), (play 9 cx_gap (at_start "L" cx_store)), (play 9 cx_unmark (play 9 cx_gap (at_start "L" cx_store))).
  split; [exact cx_free|]. split; [|split; [eexists; vm_compute; reflexivity|split; [eexists; vm_compute; reflexivity|split]]].
  - apply (tidy_execution "L" 3 9 (orderly_b "L")); [apply enforces_orderly|vm_compute; reflexivity|]. intros j _ [p Hp]. discriminate Hp.
  - apply play_without. cbn. intuition discriminate.
  - eexists. vm_compute. reflexivity.
Qed.
Print Assumptions C52_entering_refuted.

(** With entries interleaved before the death, somebody who had not even
    begun gets in. *)
Theorem C52_interleaved_refuted :
  exists name fuel s n m c c', free_lock name 0 s /\ execution name fuel anyhow n (at_start name s) c /\ inside c 0 /\
    not_begun name c 2 /\ execution name fuel (fun _ j => j <> 0) m c c' /\ inside c' 2.
Proof.
  exists "L", 9, cx_store, (List.length cx_race), (List.length (repeat 1 6 ++ repeat 2 15)),
    (play 9 cx_race (at_start "L" cx_store)), (play 9 (repeat 1 6 ++ repeat 2 15) (play 9 cx_race (at_start "L" cx_store))).
  split; [exact cx_free|]. split; [apply play_execution|]. split; [eexists; vm_compute; reflexivity|]. split; [vm_compute; reflexivity|].
  split; [apply play_without; cbn; intuition discriminate|]. eexists. vm_compute. reflexivity.
Qed.
Print Assumptions C52_interleaved_refuted.

(** ** C53 *)

(** Whatever the interleaving, each process comes to one of a few ends. *)
Theorem C53_possible_results a js old sched s :
  wf s -> content s a = Some old -> old <> "" -> (forall v, offered js v -> v <> "") ->
  let '(ps, _) := together (map (job_prog a) js) sched s in
  forall i j p r, nth_error js i = Some j -> nth_error ps i = Some p -> outcome p = Some r -> job_result js old j r.
Proof. exact (race_results a js old sched s). Qed.
Print Assumptions C53_possible_results.

(** Once all are done, the note holds what an overwrite that reported success
    has written. *)
Theorem C53_last_writer_wins a js old sched s b0 :
  wf s -> content s a = Some old -> old <> "" -> (forall v, offered js v -> v <> "") -> offered js b0 ->
  let '(ps, s') := together (map (job_prog a) js) sched s in
  all_done ps -> exists i v r, nth_error js i = Some (Overwrite v) /\ nth_error ps i = Some (Ret r) /\ content s' a = Some v.
Proof. exact (race_final a js old sched s b0). Qed.
Print Assumptions C53_last_writer_wins.

Definition cx_note : store := snd (run (memorize (fun x => Ok x) "old" "a" true) empty_store).
Lemma cx_note_wf : wf cx_note.
Proof. destruct (memorize_ok (fun x => Ok x) empty_store "old" "old" "a" true wf_empty) as (s' & i & R & W & _); try reflexivity; try discriminate. unfold cx_note. rewrite R. exact W. Qed.
Definition cx_jobs : list job := [Overwrite "new!"; Fetch; Overwrite "other"].
Definition cx_out (sched : list nat) : list (option (res string)) * option bytes :=
  (map outcome (fst (together (map (job_prog "a") cx_jobs) sched cx_note)), content (snd (together (map (job_prog "a") cx_jobs) sched cx_note)) "a").

Example C53_example :
  wf cx_note /\ content cx_note "a" = Some "old" /\ (forall v, offered cx_jobs v -> v <> "") /\ offered cx_jobs "other" /\
  cx_out (repeat 0 7 ++ repeat 1 2 ++ repeat 2 8 ++ [0; 1]) = ([Some (Ok "a"); Some (Ok "new!"); Some (Ok "a")], Some "other").
Proof.
  split; [exact cx_note_wf|]. split; [vm_compute; reflexivity|]. split; [|split; [cbn; auto|vm_compute; reflexivity]].
  intros v [H|[H|[H|[]]]]; try discriminate; injection H as <-; discriminate.
Qed.

(** Access is not atomic: a fetch sees nothing, a half-made block or zeros,
    and overwrites fail in each of the three ways. *)
Theorem C53_atomic_refuted :
  (exists sched, nth_error (fst (cx_out sched)) 1 = Some (Some (Exc FileNotFoundError))) /\
  (exists sched, nth_error (fst (cx_out sched)) 1 = Some (Some (Exc ValueError))) /\
  (exists sched, nth_error (fst (cx_out sched)) 1 = Some (Some (Ok (zeros 4)))) /\
  (exists sched, nth_error (fst (cx_out sched)) 0 = Some (Some (Exc FileExistsError))) /\
  (exists sched, nth_error (fst (cx_out sched)) 0 = Some (Some (Exc FileNotFoundError))) /\
  (exists sched, nth_error (fst (cx_out sched)) 2 = Some (Some (Exc ValueError))).
Proof.
  split; [exists (repeat 0 4 ++ repeat 1 3); vm_compute; reflexivity|].
  split; [exists (repeat 0 5 ++ repeat 1 3); vm_compute; reflexivity|].
  split; [exists (repeat 0 6 ++ repeat 1 3); vm_compute; reflexivity|].
  split; [exists (repeat 0 4 ++ repeat 2 8 ++ repeat 0 4); vm_compute; reflexivity|].
  split; [exists (repeat 0 3 ++ repeat 2 4 ++ repeat 0 4); vm_compute; reflexivity|].
  exists (repeat 0 5 ++ repeat 2 8). vm_compute. reflexivity.
Qed.
Print Assumptions C53_atomic_refuted.
