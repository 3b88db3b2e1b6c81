(** Properties of a TagIndex that several processes add to under its lock
    while others read it without one (C102). *)
From Verif Require Import Crowd_Proofs Index_Props Live_Props Serial_Props.

(** The index of Index_Props.v, with keys "c", "b", "d".  Process 0 adds
    "ee", 1 adds "b" again, 2 adds "f", the others list the keys. *)
Definition cw_ops (i : nat) : iop :=
  match i with 0 => IAdd (skey "ee") true | 1 => IAdd (skey "b") false | 2 => IAdd (skey "f") false | _ => IUpdate end.
Definition cw_start : gconfig := g_start ex_hash "i" ex_m cw_ops sr_store.
(** Process 0 is through, 1 waits for its turn, 2 is half way in. *)
Definition cw_before : list nat := repeat 0 60 ++ repeat 2 20 ++ repeat 1 4.
Notation cw_first := (guarded_play 40 cw_before cw_start).
Definition cw_reader : list visit :=
  [ mkVisit true 1 IUpdate; mkVisit true 1 (ICheck (skey "f")); mkVisit true 1 IUpdate; mkVisit true 1 (ICheck (skey "ee")) ].
Definition cw_sched : list (nat + nat) :=
  repeat (inr 0) 17 ++ repeat (inl 2) 4 ++ repeat (inr 1) 22 ++ repeat (inl 2) 30 ++ repeat (inl 1) 40 ++ repeat (inr 0) 30 ++ repeat (inr 1) 30.
Notation cw_end := (crowd_play 40 cw_sched cw_first (map (visits_prog ex_hash "i" ex_m) [cw_reader; cw_reader])).

Lemma cw_plain i k : op_key (cw_ops i) = Some k -> plain_key ex_any k.
Proof. destruct i as [|[|[|i]]]; cbn; try discriminate; intros [= <-]; (split; [discriminate|split; [reflexivity|exact Logic.I]]). Qed.
Lemma cw_adds : none_removes cw_ops.
Proof. intros [|[|[|i]]]; exact Logic.I. Qed.

Lemma cw_outside j : 4 <= j -> ~ entering (users cw_first) j.
Proof.
  intro Hj. assert (Y : forall sched, Forall (fun i => i < 4) sched -> forall g, procs (users (guarded_play 40 sched g)) j = procs (users g) j).
  { induction 1 as [|i r Hi _ IH]; intro g; cbn [guarded_play]; [reflexivity|]. rewrite IH. apply turn_other. lia. }
  assert (F : Forall (fun i => i < 4) cw_before).
  { apply Forall_forall. intros i Hi. unfold cw_before in Hi. repeat rewrite in_app_iff in Hi. destruct Hi as [Hi|[Hi|Hi]]; apply repeat_spec in Hi; subst i; repeat constructor. }
  intros [p Hp]. rewrite (Y cw_before F cw_start) in Hp. discriminate Hp.
Qed.

(** ** C102 *)

(** Any number of processes, each adding a key (or looking) under the lock, in
    orderly interleavings; from some moment on any number of readers without
    a lock, their operations anywhere in between.  The readers see what
    [reads] says of an index that grows to the keys of the lock users, in the
    order in which these came to the guarded section; what the processes [l]
    added that were through at that moment is there for them from the start.
    Or they get ValueError, if something was added since. *)
Theorem C102_readers hash K I h0 m s k ops fuel n1 g1 l n rs g ps :
  reached hash K I h0 m s -> lock_used I k s -> (forall i key, op_key (ops i) = Some key -> plain_key K key) -> none_removes ops ->
  (k + Z.of_nat (n + n1) < 256 ^ 5)%Z -> (Z.of_nat (List.length h0 + (n + n1)) + 8 < 256 ^ 5)%Z ->
  rounds hash I fuel (orderly I) n1 (g_start hash I m ops s) g1 -> through g1 l ->
  Forall (fun r => only_looks r /\ Forall (plain_visit K) r) rs ->
  watched hash I fuel (orderly I) n g1 (map (visits_prog hash I m) rs) g ps ->
  let keys l := keys_by (keys_after h0) ops l in
  Forall2 (fun r p => forall o, outcome p = Some o ->
     match o with
     | Ok outs => reads (keys (order g)) (List.length (keys l)) (map v_op r) outs
     | Exc e => e = ValueError /\ keys l <> keys (order g)
     end) rs ps.
Proof. exact (crowd hash K I h0 m s k ops fuel n1 g1 l n rs g ps). Qed.
Print Assumptions C102_readers.

(** Readers change nothing for the lock users: these get the results of their
    operations done one after another (removals among them). *)
Theorem C102_writers hash K I h0 m s k ops fuel n rs g ps :
  reached hash K I h0 m s -> lock_used I k s -> (forall i key, op_key (ops i) = Some key -> plain_key K key) ->
  (k + Z.of_nat n < 256 ^ 5)%Z -> (Z.of_nat (List.length h0 + n) + 8 < 256 ^ 5)%Z ->
  Forall only_looks rs ->
  watched hash I fuel (orderly I) n (g_start hash I m ops s) (map (visits_prog hash I m) rs) g ps ->
  let keys l := keys_by (keys_after h0) ops l in
  NoDup (order g) /\ (forall i, In i (order g) <-> past_entry (users g) i) /\
  (forall l i r, order g = l ++ i :: r -> ~ inside (users g) i ->
     outcome (todo g i) = Some (Ok (fst (tags_step (keys l) (ops i))))) /\
  ((forall i, ~ inside (users g) i) -> shows hash K I m (shared (users g)) (keys (order g))) /\
  ((forall i, finished (users g) i \/ not_begun I (users g) i) ->
     free_lock I (k + Z.of_nat (List.length (order g))) (shared (users g))).
Proof. exact (crowd_writers hash K I h0 m s k ops fuel n rs g ps). Qed.
Print Assumptions C102_writers.

(** The first reader lists "ee", which was there before, and a NUL character
    where "f" will be; the second finds "f" at 0 at first.  Process 1 waits
    all the while. *)
Example C102_example :
  reached ex_hash ex_any "i" ex_history ex_m sr_store /\ lock_used "i" 5 sr_store /\
  (forall i k, op_key (cw_ops i) = Some k -> plain_key ex_any k) /\ none_removes cw_ops /\
  rounds ex_hash "i" 40 (orderly "i") (List.length cw_before) cw_start cw_first /\ through cw_first [0] /\
  Forall (fun r => only_looks r /\ Forall (plain_visit ex_any) r) [cw_reader; cw_reader] /\
  watched ex_hash "i" 40 (orderly "i") (List.length cw_sched) cw_first (map (visits_prog ex_hash "i" ex_m) [cw_reader; cw_reader]) (fst cw_end) (snd cw_end) /\
  order cw_first = [0; 2] /\ order (fst cw_end) = [0; 2; 1] /\
  keys_by (keys_after ex_history) cw_ops [0] = ["c"; "b"; "d"; "ee"] /\
  keys_by (keys_after ex_history) cw_ops [0; 2; 1] = ["c"; "b"; "d"; "ee"; "f"] /\
  sr_out (fst cw_end) = [Some (Ok (OPos (Ok 3%Z))); Some (Ok (OPos (Exc FileExistsError))); Some (Ok (OPos (Ok 4%Z))); None] /\
  map outcome (snd cw_end) =
    [ Some (Ok [OKeys ["c"; "b"; "d"; "ee"; zeros 1]; OFound None; OKeys ["c"; "b"; "d"; "ee"; "f"]; OFound (Some 3%Z)]);
      Some (Ok [OKeys ["c"; "b"; "d"; "ee"; "f"]; OFound (Some 0%Z); OKeys ["c"; "b"; "d"; "ee"; "f"]; OFound (Some 3%Z)]) ].
Proof.
  assert (Hn : forall g, match procs (users g) 0 with Inside _ => false | _ => true end = true -> ~ inside (users g) 0).
  { intros g Hg [x Hx]. rewrite Hx in Hg. discriminate. }
  split; [exact ex_reached|]. split; [exact sr_used|]. split; [exact cw_plain|]. split; [exact cw_adds|].
  split; [apply (guarded_tidy_rounds ex_hash "i" 4 40 (orderly_b "i")); [apply enforces_orderly|vm_compute; reflexivity|intros j _ [p Hp]; discriminate Hp]|].
  split; [split; [exists [2]; vm_compute; reflexivity|intros i [<-|[]]; apply Hn; vm_compute; reflexivity]|].
  split; [repeat (constructor; [split; [repeat constructor|apply lv_plain; reflexivity]|]); constructor|].
  split; [apply (crowd_tidy_watched ex_hash "i" 4 40 (orderly_b "i") (orderly "i") cw_sched); [apply enforces_orderly|vm_compute; reflexivity|exact cw_outside]|].
  vm_compute. repeat split; reflexivity.
Qed.
