(** Properties of a TagIndex that processes remove keys from under its lock
    while others read it without one (C106). *)
From Verif Require Import Shrink_Proofs Index_Props Live_Props Serial_Props.

(** The index of Index_Props.v, with keys "c", "b", "d".  Process 0 removes
    "c" (so "d" moves to its place), the others list the keys. *)
Definition sk_ops (i : nat) : iop := match i with 0 => IRemove (skey "c") | _ => IUpdate end.
Definition sk_start : gconfig := g_start ex_hash "i" ex_m sk_ops sr_store.
Definition sk_reader : list visit := [ mkVisit true 1 IUpdate ].
Definition sk_checker : list visit := [ mkVisit true 1 (ICheck (skey "c")) ].
Notation sk_end r sched := (crowd_play 40 sched sk_start [visits_prog ex_hash "i" ex_m r]).
(** The reader takes [n] steps after [w] steps of process 0, and the rest at
    the end. *)
Notation sk_sched w n := (repeat (inl 0) w ++ repeat (inr 0) n ++ repeat (inl 0) 60 ++ repeat (inr 0) 30).

Lemma sk_plain i k : op_key (sk_ops i) = Some k -> plain_key ex_any k.
Proof. destruct i as [|i]; cbn; try discriminate; intros [= <-]; (split; [discriminate|split; [reflexivity|exact Logic.I]]). Qed.
Lemma sk_none_adds : none_adds sk_ops.
Proof. intros [|i]; exact Logic.I. Qed.

Lemma sk_beside r sched p o : only_looks r -> Forall (plain_visit ex_any) r ->
  crowd_tidy 1 40 (orderly_b "i") sched sk_start [visits_prog ex_hash "i" ex_m r] = true ->
  snd (sk_end r sched) = [p] -> outcome p = Some o -> Nat.ltb (List.length sched) 200 = true ->
  beside (keys_after ex_history) sk_ops (fst (sk_end r sched)) r o.
Proof.
  intros L V T Hp Ho Hl. apply Nat.ltb_lt in Hl. assert (P : (256 ^ 5 = 1099511627776)%Z) by reflexivity.
  exists ex_hash, ex_any, "i", ex_history, ex_m, sr_store, 5%Z, 40, (List.length sched), p.
  split; [exact ex_reached|]. split; [exact sr_used|]. split; [exact sk_plain|].
  split; [rewrite P; lia|]. split; [rewrite P; cbn [ex_history List.length]; lia|]. split; [exact L|]. split; [exact V|].
  split; [rewrite <- Hp; apply (crowd_tidy_watched ex_hash "i" 1 40 (orderly_b "i") (orderly "i") sched); [apply enforces_orderly|exact T|intros j _ [q Hq]; discriminate Hq]|].
  split; [exact Ho|reflexivity].
Qed.
Lemma sk_looks : only_looks sk_reader /\ Forall (plain_visit ex_any) sk_reader.
Proof. split; [repeat constructor|apply lv_plain; reflexivity]. Qed.
Lemma sk_checks : only_looks sk_checker /\ Forall (plain_visit ex_any) sk_checker.
Proof. split; [repeat constructor|apply lv_plain; reflexivity]. Qed.

(** ** C106 *)

(** A reader beside processes that do anything in their guarded sections gets
    an answer to each question, or one of two exceptions; one that only lists
    keys never gets the second. *)
Theorem C106_ends ks0 ops g r o : beside ks0 ops g r o ->
  match o with
  | Ok outs => Forall2 fits_op r outs
  | Exc e => e = ValueError \/ e = FileNotFoundError /\ exists k, In (ICheck k) (map v_op r)
  end.
Proof. exact (beside_ends ks0 ops g r o). Qed.
Print Assumptions C106_ends.

(** A listing may lack a key that is in the index all the time, though nobody
    adds anything and one key is removed once. *)
Theorem C106_missed_refuted : exists ks0 ops g r l k,
  beside ks0 ops g r (Ok [OKeys l]) /\ none_adds ops /\ List.length (order g) = 1 /\
  always_there ks0 ops g k /\ ~ In k l.
Proof.
  exists (keys_after ex_history), sk_ops, (fst (sk_end sk_reader (sk_sched 0 5))), sk_reader, ["c"; "b"], "d".
  split; [eapply sk_beside; [apply sk_looks|apply sk_looks|vm_compute; reflexivity..]|].
  split; [exact sk_none_adds|]. assert (E : order (fst (sk_end sk_reader (sk_sched 0 5))) = [0]) by (vm_compute; reflexivity).
  split; [rewrite E; reflexivity|]. split.
  - intros l r El. rewrite E in El. clear E. destruct l as [|a [|b l]]; cbn in El; [|injection El as <- _|discriminate El]; vm_compute; auto.
  - cbn. intuition discriminate.
Qed.
Print Assumptions C106_missed_refuted.

(** It may give a key twice. *)
Theorem C106_twice_refuted : exists ks0 ops g r l,
  beside ks0 ops g r (Ok [OKeys l]) /\ none_adds ops /\ List.length (order g) = 1 /\ ~ NoDup l.
Proof.
  exists (keys_after ex_history), sk_ops, (fst (sk_end sk_reader (sk_sched 33 30))), sk_reader, ["d"; "b"; "d"].
  split; [eapply sk_beside; [apply sk_looks|apply sk_looks|vm_compute; reflexivity..]|].
  split; [exact sk_none_adds|]. split; [vm_compute; reflexivity|].
  intro H. inversion H as [|x l Hx _]. apply Hx. cbn. auto.
Qed.
Print Assumptions C106_twice_refuted.

(** It may be no state of the index: it has NULs where no key was added. *)
Theorem C106_state_refuted : exists ks0 ops g r l k,
  beside ks0 ops g r (Ok [OKeys l]) /\ none_adds ops /\ ~ once_so ks0 ops g l /\ In k l /\ ~ In k ks0.
Proof.
  exists (keys_after ex_history), sk_ops, (fst (sk_end sk_reader (sk_sched 30 30))), sk_reader, [zeros 1; "b"; "d"], (zeros 1).
  split; [eapply sk_beside; [apply sk_looks|apply sk_looks|vm_compute; reflexivity..]|].
  split; [exact sk_none_adds|]. assert (E : order (fst (sk_end sk_reader (sk_sched 30 30))) = [0]) by (vm_compute; reflexivity).
  split; [|split; [left; reflexivity|intros [H|[H|[H|[]]]]; discriminate H]].
  intros (l1 & r & El & Hl). rewrite E in El. clear E. destruct l1 as [|a [|b l1]]; cbn in El; [|injection El as <- _|discriminate El]; vm_compute in Hl; discriminate Hl.
Qed.
Print Assumptions C106_state_refuted.

(** Both exceptions of [C106_ends] happen: a listing may fail, and a check for
    a key that is being removed. *)
Theorem C106_fails_refuted : exists ks0 ops g1 g2 r1 r2,
  none_adds ops /\
  beside ks0 ops g1 r1 (Exc ValueError) /\ map v_op r1 = [IUpdate] /\
  beside ks0 ops g2 r2 (Exc FileNotFoundError) /\ map v_op r2 = [ICheck (skey "c")].
Proof.
  exists (keys_after ex_history), sk_ops, (fst (sk_end sk_reader (sk_sched 29 30))), (fst (sk_end sk_checker (sk_sched 0 2))), sk_reader, sk_checker.
  split; [exact sk_none_adds|].
  split; [eapply sk_beside; [apply sk_looks|apply sk_looks|vm_compute; reflexivity..]|]. split; [reflexivity|].
  split; [eapply sk_beside; [apply sk_checks|apply sk_checks|vm_compute; reflexivity..]|]. reflexivity.
Qed.
Print Assumptions C106_fails_refuted.

(** A reader that is lucky: all of its steps before "d" moves. *)
Example C106_example :
  beside (keys_after ex_history) sk_ops (fst (sk_end sk_reader (sk_sched 20 30))) sk_reader (Ok [OKeys ["c"; "b"; "d"]]) /\
  keys_after ex_history = ["c"; "b"; "d"] /\ keys_by (keys_after ex_history) sk_ops [0] = ["d"; "b"].
Proof.
  split; [eapply sk_beside; [apply sk_looks|apply sk_looks|vm_compute; reflexivity..]|]. split; vm_compute; reflexivity.
Qed.
