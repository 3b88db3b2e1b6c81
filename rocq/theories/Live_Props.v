(** Properties of a TagIndex that is read while it is written (C84). *)
From Verif Require Import Live_Lemmas Index_Props.

(** The index of Index_Props.v, with keys "c", "b", "d". *)
Definition lv_store : store := snd (ex_run ex_history).
Definition lv_prog (h : list visit) : prog (list iout) := visits_prog ex_hash "i" ex_m h.
Definition lv_outcomes (hs : list (list visit)) (sched : list nat) : list (option (res (list iout))) :=
  map outcome (fst (together (map lv_prog hs) sched lv_store)).
(** A locking writer that adds "ee" and "f"; a reader that lists, looks for
    "ee", lists again and looks for "d" and "zz". *)
Definition lv_writer : list visit :=
  [ mkVisit false 9 (IAdd (skey "ee") true); mkVisit true 9 (IAdd (skey "c") true); mkVisit true 9 (IAdd (skey "f") false) ].
Definition lv_reader : list visit :=
  [ mkVisit true 1 IUpdate; mkVisit true 1 (ICheck (skey "ee")); mkVisit true 1 IUpdate;
    mkVisit true 1 (ICheck (skey "d")); mkVisit true 1 (ICheck (skey "zz")) ].

Lemma lv_plain h : forallb (fun v => negb (Nat.eqb (v_fuel v) 0) && match op_key (v_op v) with Some k => negb (String.eqb (ktext k) "") && String.eqb (kraw k) (ktext k) | None => true end) h = true ->
  Forall (plain_visit ex_any) h.
Proof.
  rewrite forallb_forall, Forall_forall. intros Hb v Hv. specialize (Hb v Hv). apply andb_prop in Hb. destruct Hb as [H1 H2].
  split; [intro E; rewrite E in H1; discriminate|]. intros k E. rewrite E in H2. apply andb_prop in H2. destruct H2 as [H2 H3].
  split; [intro Ek; rewrite Ek in H2; discriminate|]. split; [now apply String.eqb_eq|exact Logic.I].
Qed.

(** ** C84 *)

(** One process adds any keys, any number of others look, in any
    interleaving of their operations: the process that adds is not disturbed,
    and the others see what [reads] says or get ValueError. *)
Theorem C84_readers hash K I h0 m s h rs sched w ps s' :
  reached hash K I h0 m s -> Forall (plain_visit K) h -> removes_nothing h ->
  (Z.of_nat (List.length h0 + List.length h) + 8 < 256 ^ 5)%Z ->
  Forall (fun r => only_looks r /\ Forall (plain_visit K) r) rs ->
  together (visits_prog hash I m h :: map (visits_prog hash I m) rs) sched s = (w :: ps, s') ->
  (forall r, outcome w = Some r ->
     r = Ok (fst (tags_run (keys_after h0) (map v_op h))) /\ s' = snd (run (visits_prog hash I m h) s)) /\
  Forall2 (fun r p => forall o, outcome p = Some o ->
     match o with
     | Ok outs => reads (keys_after (h0 ++ h)) (List.length (keys_after h0)) (map v_op r) outs
     | Exc e => e = ValueError /\ keys_after h0 <> keys_after (h0 ++ h)
     end) rs ps.
Proof. exact (live_readers hash K I h0 m s h rs sched w ps s'). Qed.
Print Assumptions C84_readers.

(** Turns taken alternately: both end, and the reader has seen "ee" come. *)
Example C84_example :
  reached ex_hash ex_any "i" ex_history ex_m lv_store /\
  Forall (plain_visit ex_any) lv_writer /\ removes_nothing lv_writer /\
  only_looks lv_reader /\ Forall (plain_visit ex_any) lv_reader /\
  lv_outcomes [lv_writer; lv_reader] (repeat 1 9 ++ repeat 0 28 ++ repeat 1 30 ++ repeat 0 60) =
    [ Some (Ok [OPos (Ok 3%Z); OPos (Ok 0%Z); OPos (Ok 4%Z)]);
      Some (Ok [OKeys ["c"; "b"; "d"]; OFound (Some 3%Z); OKeys ["c"; "b"; "d"; "ee"]; OFound (Some 2%Z); OFound None]) ].
Proof.
  split; [exact ex_reached|].
  split; [apply lv_plain; reflexivity|]. split; [repeat constructor|]. split; [repeat constructor|].
  split; [apply lv_plain; reflexivity|]. vm_compute. reflexivity.
Qed.

(** What readers would rather not see: a listing with a key that was never
    added; a key that is listed but not found; one that is found where
    another is; and ValueError, from a listing and from a search. *)
Theorem C84_atomic_refuted :
  exists hash K I h0 m s w rs,
    reached hash K I h0 m s /\ Forall (plain_visit K) [w] /\ removes_nothing [w] /\
    Forall (fun r => only_looks r /\ Forall (plain_visit K) r) [rs] /\
    let sees sched := nth_error (map outcome (fst (together [visits_prog hash I m [w]; visits_prog hash I m rs] sched s))) 1 in
    keys_after h0 = ["c"; "b"; "d"] /\ v_op w = IAdd (skey "ee") true /\ map v_op rs = [IUpdate; ICheck (skey "ee")] /\
    (exists sched, sees sched = Some (Some (Ok [OKeys ["c"; "b"; "d"; zeros 2]; OFound None]))) /\
    (exists sched, sees sched = Some (Some (Ok [OKeys ["c"; "b"; "d"; "ee"]; OFound None]))) /\
    (exists sched, sees sched = Some (Some (Ok [OKeys ["c"; "b"; "d"; "ee"]; OFound (Some 0%Z)]))) /\
    (exists sched, sees sched = Some (Some (Exc ValueError)) /\ ~ In 0 (skipn 4 sched)) /\
    (exists sched, sees sched = Some (Some (Exc ValueError)) /\ ~ In 1 (firstn 8 sched)).
Proof.
  exists ex_hash, ex_any, "i", ex_history, ex_m, lv_store, (mkVisit true 1 (IAdd (skey "ee") true)), [mkVisit true 1 IUpdate; mkVisit true 1 (ICheck (skey "ee"))].
  split; [exact ex_reached|].
  split; [apply lv_plain; reflexivity|]. split; [repeat constructor|].
  split; [constructor; [split; [repeat constructor|apply lv_plain; reflexivity]|constructor]|].
  cbv zeta. split; [reflexivity|]. split; [reflexivity|]. split; [reflexivity|].
  split; [exists (repeat 0 5 ++ repeat 1 40); vm_compute; reflexivity|].
  split; [exists (repeat 0 7 ++ repeat 1 40); vm_compute; reflexivity|].
  split; [exists (repeat 0 9 ++ repeat 1 40); vm_compute; reflexivity|].
  split; [exists (repeat 0 4 ++ repeat 1 40)|exists (repeat 0 8 ++ repeat 1 40)]; (split; [vm_compute; reflexivity|]); cbn; intuition discriminate.
Qed.
Print Assumptions C84_atomic_refuted.

(** Without [removes_nothing]: while another process removes "c", under its
    lock, a listing has "c" but not "d", which was there all the time. *)
Theorem C84_removal_refuted :
  exists hash K I h0 m s w r sched o,
    reached hash K I h0 m s /\ Forall (plain_visit K) [w] /\ v_nl w = false /\ v_op w = IRemove (skey "c") /\ v_op r = IUpdate /\
    keys_after h0 = ["c"; "b"; "d"] /\ keys_after (h0 ++ [w]) = ["d"; "b"] /\
    map outcome (fst (together [visits_prog hash I m [w]; visits_prog hash I m [r]] sched s)) = [o; Some (Ok [OKeys ["c"; "b"]])].
Proof.
  exists ex_hash, ex_any, "i", ex_history, ex_m, lv_store, (mkVisit false 9 (IRemove (skey "c"))), (mkVisit true 1 IUpdate),
    (repeat 1 7 ++ repeat 0 90 ++ repeat 1 40), (Some (Ok [OPos (Ok 0%Z)])).
  split; [exact ex_reached|].
  split; [apply lv_plain; reflexivity|].
  do 5 (split; [reflexivity|]). vm_compute. reflexivity.
Qed.
Print Assumptions C84_removal_refuted.

(** With two processes that add without the lock: both are told that their
    key is number 3, and one of the two is not listed afterwards. *)
Theorem C84_two_writers_refuted :
  exists hash K I h0 m s w1 w2 rs sched,
    reached hash K I h0 m s /\ Forall (plain_visit K) [w1; w2] /\
    v_op w1 = IAdd (skey "ee") true /\ v_op w2 = IAdd (skey "f") true /\ map v_op rs = [IUpdate; ICheck (skey "f")] /\
    map outcome (fst (together [visits_prog hash I m [w1]; visits_prog hash I m [w2]; visits_prog hash I m rs] sched s)) =
      [ Some (Ok [OPos (Ok 3%Z)]); Some (Ok [OPos (Ok 3%Z)]); Some (Ok [OKeys ["c"; "b"; "d"; "ee"]; OFound (Some 3%Z)]) ].
Proof.
  exists ex_hash, ex_any, "i", ex_history, ex_m, lv_store, (mkVisit true 1 (IAdd (skey "ee") true)), (mkVisit true 1 (IAdd (skey "f") true)),
    [mkVisit true 1 IUpdate; mkVisit true 1 (ICheck (skey "f"))], (repeat 0 2 ++ repeat 1 60 ++ repeat 0 40 ++ repeat 2 40).
  split; [exact ex_reached|].
  split; [apply lv_plain; reflexivity|].
  do 3 (split; [reflexivity|]). vm_compute. reflexivity.
Qed.
Print Assumptions C84_two_writers_refuted.
