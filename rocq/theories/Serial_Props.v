(** Properties of guarded operations on a TagIndex (C85, C87). *)
From Verif Require Import Serial_Lemmas Free_Guarded Index_Props.

(** The index of Index_Props.v, with keys "c", "b", "d".  Process 0 adds
    "ee", 1 removes "c", 2 adds "f", the others list the keys. *)
Definition sr_store : store := snd (ex_run ex_history).
Definition sr_ops (i : nat) : iop :=
  match i with 0 => IAdd (skey "ee") true | 1 => IRemove (skey "c") | 2 => IAdd (skey "f") false | _ => IUpdate end.
Definition sr_start : gconfig := g_start ex_hash "i" ex_m sr_ops sr_store.
Definition sr_tidy : list nat :=
  repeat 0 17 ++ repeat 1 6 ++ repeat 0 8 ++ repeat 1 2 ++ repeat 0 4 ++ repeat 1 10 ++ repeat 0 14 ++ repeat 3 6 ++ repeat 1 12 ++ repeat 3 20 ++ repeat 1 40 ++ repeat 3 60.
Definition sr_race : list nat := repeat 0 9 ++ repeat 2 17 ++ repeat 0 8 ++ repeat 2 20 ++ repeat 0 20.
Definition sr_out (g : gconfig) : list (option (res iout)) := map (fun i => outcome (todo g i)) [0; 1; 2; 3].

Lemma sr_used : lock_used "i" 5 sr_store.
Proof. split; [lia|]. vm_compute. reflexivity. Qed.
Lemma sr_plain i k : op_key (sr_ops i) = Some k -> plain_key ex_any k.
Proof. destruct i as [|[|[|i]]]; cbn; try discriminate; intros [= <-]; (split; [discriminate|split; [reflexivity|exact Logic.I]]). Qed.

(** ** C85 *)

(** Any number of processes, each doing one operation in a guarded section,
    interleaved in any way in which, while one takes its slot and places its
    lock, no other takes a slot or removes a marker: each gets the
    result it would get if the operations were done one after another in the
    order in which the processes came to the guarded section; whenever nobody
    is inside, the index holds exactly the keys of that history; and in the
    end the lock is free. *)
Theorem C85_serial hash K I h0 m s k ops fuel n g :
  reached hash K I h0 m s -> lock_used I k s -> (forall i key, op_key (ops i) = Some key -> plain_key K key) ->
  (k + Z.of_nat n < 256 ^ 5)%Z -> (Z.of_nat (List.length h0 + n) + 8 < 256 ^ 5)%Z ->
  rounds hash I fuel (orderly I) n (g_start hash I m ops s) g ->
  let keys l := keys_by (keys_after h0) ops l in
  NoDup (order g) /\ (forall i, In i (order g) <-> past_entry (users g) i) /\
  (forall l i r, order g = l ++ i :: r -> ~ inside (users g) i ->
     outcome (todo g i) = Some (Ok (fst (tags_step (keys l) (ops i))))) /\
  ((forall i, ~ inside (users g) i) -> shows hash K I m (shared (users g)) (keys (order g))) /\
  ((forall i, finished (users g) i \/ not_begun I (users g) i) ->
     free_lock I (k + Z.of_nat (List.length (order g))) (shared (users g))).
Proof. exact (serial hash K I h0 m s k ops fuel n g). Qed.
Print Assumptions C85_serial.

(** Process 1 enters while 0 adds its key, 3 while 1 removes its own, and each
    waits for the one before. *)
Example C85_example :
  let g := guarded_play 40 sr_tidy sr_start in
  reached ex_hash ex_any "i" ex_history ex_m sr_store /\ lock_used "i" 5 sr_store /\
  (forall i k, op_key (sr_ops i) = Some k -> plain_key ex_any k) /\
  rounds ex_hash "i" 40 (orderly "i") (List.length sr_tidy) sr_start g /\
  order g = [0; 1; 3] /\
  sr_out g = [Some (Ok (OPos (Ok 3%Z))); Some (Ok (OPos (Ok 0%Z))); None; Some (Ok (OKeys ["ee"; "b"; "d"]))].
Proof.
  cbv zeta. split; [exact ex_reached|]. split; [exact sr_used|]. split; [exact sr_plain|].
  split; [apply (guarded_tidy_rounds ex_hash "i" 4 40 (orderly_b "i")); [apply enforces_orderly|vm_compute; reflexivity|intros j _ [p Hp]; discriminate Hp]|].
  vm_compute. auto.
Qed.

(** The order of coming to the guarded section only grows at its end, so an
    operation that is over before another process begins comes first. *)
Theorem C85_order hash I fuel R n g g' : rounds hash I fuel R n g g' -> exists l, order g' = order g ++ l.
Proof. exact (order_grows hash I fuel R n g g'). Qed.
Print Assumptions C85_order.

Example C85_order_example :
  rounds ex_hash "i" 40 anyhow (List.length sr_race) sr_start (guarded_play 40 sr_race sr_start) /\
  order (guarded_play 40 (firstn 30 sr_race) sr_start) = [2] /\ order (guarded_play 40 sr_race sr_start) = [2; 0].
Proof. split; [apply guarded_play_rounds|]. vm_compute. auto. Qed.

(** One process alone goes through the stages to the result and the store of
    the sequential [with SlidingLock(name): ...]. *)
Theorem C85_alone hash I m ops fuel i s r s' :
  run (with_lock false fuel I (guarded hash (mkIndex I m false) (ops i))) s = (Some r, s') ->
  exists n, let g := guarded_play fuel (repeat i n) (g_start hash I m ops s) in
    shared (users g) = s' /\
    match procs (users g) i with
    | Finished (Ok _) => outcome (todo g i) = Some r
    | Finished (Exc e) => r = Exc e
    | _ => False
    end.
Proof. exact (Serial_Lemmas.alone hash I m ops fuel i s r s'). Qed.
Print Assumptions C85_alone.

Example C85_alone_example :
  fst (run (with_lock false 3 "i" (guarded ex_hash (mkIndex "i" ex_m false) (sr_ops 1))) sr_store) = Some (Ok (OPos (Ok 0%Z))) /\
  (let g := guarded_play 3 (repeat 1 60) sr_start in
   outcome (todo g 1) = Some (Ok (OPos (Ok 0%Z))) /\ procs (users g) 1 = Finished (Ok tt)).
Proof. vm_compute. auto. Qed.

(** With entries interleaved, two processes add at once: both are told that
    their key is number 3, and one of the keys is lost. *)
Theorem C85_interleaved_refuted :
  exists g n, rounds ex_hash "i" 40 anyhow n sr_start g /\
    sr_out g = [Some (Ok (OPos (Ok 3%Z))); None; Some (Ok (OPos (Ok 3%Z))); None] /\
    fst (run (update (mkIndex "i" ex_m true)) (shared (users g))) = Some (Ok ["c"; "b"; "d"; "ee"]).
Proof.
  exists (guarded_play 40 sr_race sr_start), (List.length sr_race). split; [apply guarded_play_rounds|]. vm_compute. auto.
Qed.
Print Assumptions C85_interleaved_refuted.

(** ** C87 *)

(** Wherever the processes are (some of them in the middle of adding or
    removing), any of them can be brought to the end, in an orderly way: they
    get the results of the operations done one after another, the others have
    not moved or are at the end as well, and if nobody else was under way the
    index holds the keys of that history and the lock is free.  (The patience
    of the loops must exceed the number of moves made.) *)
Theorem C87_no_deadlock hash K I h0 m s k ops fuel n g is :
  reached hash K I h0 m s -> lock_used I k s -> (forall i key, op_key (ops i) = Some key -> plain_key K key) ->
  (k + Z.of_nat (n + List.length is) < 256 ^ 5)%Z -> (Z.of_nat (List.length h0 + n) + 8 < 256 ^ 5)%Z -> n + List.length is < fuel ->
  rounds hash I fuel (orderly I) n (g_start hash I m ops s) g ->
  let keys l := keys_by (keys_after h0) ops l in
  exists n' g', rounds hash I fuel (orderly I) n' g g' /\
    (forall i, In i is -> procs (users g') i = Finished (Ok tt) /\
       exists l r, order g' = l ++ i :: r /\ outcome (todo g' i) = Some (Ok (fst (tags_step (keys l) (ops i))))) /\
    (forall i, procs (users g') i = procs (users g) i \/ procs (users g') i = Finished (Ok tt)) /\
    ((forall i, In i is \/ not_begun I (users g) i) ->
       shows hash K I m (shared (users g')) (keys (order g')) /\
       free_lock I (k + Z.of_nat (List.length (order g'))) (shared (users g'))).
Proof. exact (guarded_no_deadlock hash K I h0 m s k ops fuel n g is). Qed.
Print Assumptions C87_no_deadlock.

(** Process 0 is adding its key, 1 waits for the lock, 3 is taking its slot, 2
    has not begun. *)
Definition sr_middle : list nat := repeat 0 17 ++ repeat 1 6 ++ repeat 0 8 ++ repeat 1 8 ++ repeat 3 6.
Definition sr_at : gconfig := guarded_play 99 sr_middle sr_start.
Example C87_example :
  reached ex_hash ex_any "i" ex_history ex_m sr_store /\ lock_used "i" 5 sr_store /\
  (forall i k, op_key (sr_ops i) = Some k -> plain_key ex_any k) /\
  (5 + Z.of_nat (List.length sr_middle + List.length [0; 1; 2; 3]) < 256 ^ 5)%Z /\
  (Z.of_nat (List.length ex_history + List.length sr_middle) + 8 < 256 ^ 5)%Z /\ List.length sr_middle + List.length [0; 1; 2; 3] < 99 /\
  rounds ex_hash "i" 99 (orderly "i") (List.length sr_middle) sr_start sr_at /\
  inside (users sr_at) 0 /\ outcome (todo sr_at 0) = None /\ todo sr_at 0 <> guarded ex_hash (mkIndex "i" ex_m false) (sr_ops 0) /\
  (exists p, procs (users sr_at) 1 = Waiting p) /\ not_begun "i" (users sr_at) 2 /\ entering (users sr_at) 3.
Proof.
  split; [exact ex_reached|]. split; [exact sr_used|]. split; [exact sr_plain|].
  split; [vm_compute; reflexivity|]. split; [vm_compute; reflexivity|]. split; [vm_compute; lia|].
  split; [apply (guarded_tidy_rounds ex_hash "i" 4 99 (orderly_b "i")); [apply enforces_orderly|vm_compute; reflexivity|intros j _ [p Hp]; discriminate Hp]|].
  split; [eexists; vm_compute; reflexivity|]. split; [vm_compute; reflexivity|]. split.
  - intro E. apply (f_equal (fun p => match p with Do (OOpen _) _ => true | _ => false end)) in E. vm_compute in E. discriminate E.
  - split; [eexists; vm_compute; reflexivity|]. split; [vm_compute; reflexivity|eexists; vm_compute; reflexivity].
Qed.
