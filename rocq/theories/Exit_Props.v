(** What becomes of shared memory when processes end (C82). *)
From Verif Require Import Exit_Proofs.

(** If every process deactivates its tracker before it uses shared memory,
    every operation of every process comes out as if no process ever ended,
    and there is exactly what was created and not unlinked since. *)
Theorem C82_survive : forall b h, careful (fun _ => false) h ->
  fst (events_run (fresh_world b) h) = plain_run b h /\
  forall a, w_blocks (snd (events_run (fresh_world b) h)) a = last_made a (b a) h.
Proof. exact survive. Qed.
Print Assumptions C82_survive.

(** A process that never deactivates its tracker takes with it exactly the
    blocks it created or attached and did not unlink, whatever the others do. *)
Theorem C82_exit : forall b p h, never_deactivates p h ->
  let w := snd (events_run (fresh_world b) h) in
  forall a, w_blocks (snd (event_step w (EExit p))) a =
    w_blocks w a && negb (in_hand p a false (combine h (fst (events_run (fresh_world b) h)))).
Proof. exact exit_removes. Qed.
Print Assumptions C82_exit.

(** So looking at a block is enough to remove it. *)
Theorem C82_attach_refuted : forall w p a, t_register (w_procs w p) = Original -> w_blocks w a = true ->
  let r := events_run w [EAttach p a; EExit p] in
  fst r = [Ok tt; Ok tt] /\ w_blocks (snd r) a = false.
Proof. exact attach_exit. Qed.
Print Assumptions C82_attach_refuted.

(** Deactivating after the first use is too late: the tracker does not hear
    of the unlinking and removes a block that another process has since
    created under the same name. *)
Theorem C82_too_late_refuted : forall w p q a, q <> p ->
  t_register (w_procs w p) = Original -> t_register (w_procs w q) = Original -> w_blocks w a = true ->
  let r := events_run w [EAttach p a; EDeactivate p; EUnlink p a; ECreate q a; EExit p] in
  fst r = [Ok tt; Ok tt; Ok tt; Ok tt; Ok tt] /\ w_blocks (snd r) a = false.
Proof. exact too_late. Qed.
Print Assumptions C82_too_late_refuted.

(** A deactivated tracker cannot be used for anything else. *)
Theorem C82_other_types_refuted : forall t n rtype, rtype <> "shared_memory" ->
  exists t', deactivate "linux" t = Ok t' /\ register t' n rtype = Exc NameError /\ unregister t' n rtype = Exc NameError.
Proof. exact other_types. Qed.
Print Assumptions C82_other_types_refuted.

(** Deactivating does just that: the two functions are replaced, the cleanup of
    shared memory is taken away and no other, and what is registered stays so. *)
Theorem C82_deactivate : forall t t', NoDup (t_funcs t) -> deactivate "linux" t = Ok t' ->
  t_register t' = Fixed /\ t_unregister t' = Fixed /\ t_cache t' = t_cache t /\
  t_funcs t' = filter (fun k => negb (String.eqb k "shared_memory")) (t_funcs t).
Proof. exact deactivate_exact. Qed.
Print Assumptions C82_deactivate.
Example C82_deactivate_ex : exists t, deactivate "linux" (mkTracker Original Original ["noop"; "shared_memory"; "semaphore"] (fun _ _ => false)) = Ok t /\ t_funcs t = ["noop"; "semaphore"].
Proof. eexists. split; reflexivity. Qed.

(** Deactivating twice is deactivating once; on Windows it does nothing. *)
Theorem C82_twice : forall t t', NoDup (t_funcs t) -> deactivate "linux" t = Ok t' -> deactivate "linux" t' = Ok t'.
Proof. exact deactivate_twice. Qed.
Print Assumptions C82_twice.
Theorem C82_windows : forall t platform, platform = "win32" \/ platform = "cygwin" -> deactivate platform t = Ok t.
Proof. exact deactivate_windows. Qed.
Print Assumptions C82_windows.

Definition xx_history : list event :=
  [ EDeactivate 1; ECreate 1 "a"; EDeactivate 2; EAttach 2 "a"; ECreate 2 "b"; EExit 2; EAttach 1 "b"; EUnlink 3 "b";
    EAttach 1 "b"; EExit 1; EDeactivate 2; EAttach 2 "a"; ECreate 2 "a" ].
Example C82_ex :
  careful (fun _ => false) xx_history /\
  fst (events_run (fresh_world (fun _ => false)) xx_history) =
    [Ok tt; Ok tt; Ok tt; Ok tt; Ok tt; Ok tt; Ok tt; Ok tt; Exc FileNotFoundError; Ok tt; Ok tt; Ok tt; Exc FileExistsError] /\
  last_made "a" false xx_history = true /\ last_made "b" false xx_history = false /\
  (let h := [ECreate 1 "a"; ECreate 2 "b"; EAttach 1 "b"; ECreate 1 "c"; EUnlink 1 "c"; ECreate 2 "c"; EAttach 1 "d"] in
   never_deactivates 1 h /\
   let w := snd (events_run (fresh_world (fun _ => false)) h) in
   map (w_blocks w) ["a"; "b"; "c"; "d"] = [true; true; true; false] /\
   map (w_blocks (snd (event_step w (EExit 1)))) ["a"; "b"; "c"; "d"] = [false; false; true; false]) /\
  NoDup (t_funcs new_tracker) /\
  deactivate "linux" new_tracker = Ok (mkTracker Fixed Fixed ["noop"; "semaphore"] (fun _ _ => false)) /\
  (exists t, register new_tracker "x" "semaphore" = Ok t).
Proof.
  split; [cbn; tauto|]. split; [vm_compute; reflexivity|]. split; [reflexivity|]. split; [reflexivity|]. split; [|split; [|split; [reflexivity|eexists; reflexivity]]].
  - split; [|vm_compute; split; reflexivity]. intros e He. cbn in He.
    repeat (destruct He as [<-|He]; [repeat split; discriminate|]). destruct He.
  - repeat constructor; cbn; intuition discriminate.
Qed.
