(** C96: debug logging. *)
From Verif Require Export Debug_Wait Pad_Props Spin_Props.

Definition dx_here (i : nat) : string := ("t" ++ str_of_Z (Z.of_nat i))%string.
Definition dx_shown (e : exn) : string := "missing".
Definition dx_start : store := snd (px_run px_history).
Definition dx_pad (no_lockout : bool) : pad := pad_object "n" (next empty_store) no_lockout.
Definition dx_set (dir no_lockout : bool) (k : ikey) (v : string) : dprog unit :=
  d_np_set true dir dx_here dx_shown px_hash px_enc (fun v => v) 3 (dx_pad no_lockout) k v false true.
Definition dx_del (dir no_lockout : bool) (k : ikey) : dprog unit :=
  d_np_del true dir dx_here dx_shown px_hash 3 (dx_pad no_lockout) k.

(** Where the log can be written, or debug is off, everything is as without a log. *)
Theorem C96_logged_alike : forall debug dir here shown hash, dir = true \/ debug = false ->
  (forall fuel x k vg ok, agrees debug (d_tag_add debug dir here shown hash fuel x k vg ok) (tag_add hash fuel x k vg ok)) /\
  (forall fuel x k, agrees debug (d_tag_remove debug dir here shown hash fuel x k) (tag_remove hash fuel x k)) /\
  (forall J (jenc : J -> res bytes) fuel x k v ok,
     agrees debug (d_meta_add debug dir here shown hash jenc fuel x k v ok) (meta_add hash jenc fuel x k v ok)) /\
  (forall fuel x k, agrees debug (d_meta_remove debug dir here shown hash fuel x k) (meta_remove hash fuel x k)) /\
  (forall V (enc : V -> res bytes) vstr fuel p k v mg ok,
     agrees debug (d_np_set debug dir here shown hash enc vstr fuel p k v mg ok) (np_set hash enc fuel p k v mg ok)) /\
  (forall fuel p k, agrees debug (d_np_del debug dir here shown hash fuel p k) (np_del hash fuel p k)) /\
  (forall jenc itemsize fuel p k a ok,
     agrees debug (d_gp_set debug dir here shown hash jenc itemsize fuel p k a ok) (gp_set hash jenc itemsize fuel p k a ok)) /\
  (forall fuel p k, agrees debug (d_gp_del debug dir here shown hash fuel p k) (gp_del hash fuel p k)).
Proof. exact all_alike. Qed.
Print Assumptions C96_logged_alike.

(** What is written by one who has a Notepad for themself. *)
Theorem C96_lines : forall hash K P V (enc : V -> res bytes) dec isnone vstr here shown h s0 s,
  preached hash K P enc dec isnone h s0 s ->
  let now := pad_after enc isnone h in
  exists c, littered (pad_index P) c 0 s /\ (c <= 2 * Z.of_nat (List.length h))%Z /\
  (forall fuel k v w s', pad_key K k -> fuel <> 0 ->
     run (np_set hash enc fuel (pad_object P (next s0) false) k v false true) s = (Some (Ok tt), s') ->
     run (d_np_set true true here shown hash enc vstr fuel (pad_object P (next s0) false) k v false true w) s =
     (Some (Ok (logged here w (way_in (str_of_Z (c + 1)) ++ [("", add_text (map fst now) (ktext k))] ++ way_out (str_of_Z (c + 1)) ++
                               [("", ("set key=" ++ ktext k ++ " to " ++ vstr v)%string)]), Ok tt)), s')) /\
  (forall fuel k w s', pad_key K k -> fuel <> 0 ->
     run (np_del hash fuel (pad_object P (next s0) false) k) s = (Some (Ok tt), s') ->
     run (d_np_del true true here shown hash fuel (pad_object P (next s0) false) k w) s =
     (Some (Ok (logged here w (way_in (str_of_Z (c + 1)) ++ del_texts (map fst now) (ktext k) ++ way_out (str_of_Z (c + 1))), Ok tt)), s')).
Proof. intros. eapply reached_lines; eassumption. Qed.
Print Assumptions C96_lines.

Example C96_lines_ex :
  preached px_hash px_any "n" px_enc px_dec px_none px_history empty_store dx_start /\
  map fst (pad_after px_enc px_none px_history) = ["7"; "b"] /\
  fst (run (dx_set true false (skey "c") "3" ["x"]) dx_start) =
    Some (Ok (["x"; "t1,5,taking slot 5"; "t2,5,placed lock"; "t3,5,taking precedence"; "t4,,set 2 to c";
               "t5,5,entering cleanup"; "t6,5,set floor to 5"; "t7,5,released lock"; "t8,5,released marker";
               "t9,,set key=c to 3"], Ok tt)) /\
  fst (run (dx_set true false (skey "b") "4" []) dx_start) =
    Some (Ok (["t0,5,taking slot 5"; "t1,5,placed lock"; "t2,5,taking precedence"; "t3,,b already in index at 1";
               "t4,5,entering cleanup"; "t5,5,set floor to 5"; "t6,5,released lock"; "t7,5,released marker";
               "t8,,set key=b to 4"], Ok tt)) /\
  fst (run (dx_del true false (skey "7") ["x"]) dx_start) =
    Some (Ok (["x"; "t1,5,taking slot 5"; "t2,5,placed lock"; "t3,5,taking precedence";
               "t4,,overwrote block at position 0 with block at position 1 ";
               "t5,,deleted 7 at index slot 0 and decremented index counter";
               "t6,5,entering cleanup"; "t7,5,set floor to 5"; "t8,5,released lock"; "t9,5,released marker"], Ok tt)) /\
  fst (run (dx_set false false (skey "c") "3" ["x"]) dx_start) = Some (Ok (["x"], Exc FileNotFoundError)).
Proof. split; [exact px_reached|]. vm_compute. repeat split. Qed.

(** What is written by one who waits with a limit for one that never leaves. *)
Theorem C96_timeout_lines : forall here shown I ch c j n f sp m k s fuel w,
  wf s -> queued I ch c j s -> j < fuel -> rounds m sp <= fuel ->
  let me := (c + Z.of_nat j + 1)%Z in
  (c <= k)%Z -> nearest I k me s -> (k < me)%Z ->
  exists s', run (d_enter true true here shown fuel (idle I ch n f sp (Some m)) w) s =
    (Some (Ok (logged here w (timed_out (str_of_Z me) (str_of_Z k) (rounds m sp) (shown TimeoutError)), Exc TimeoutError)), s') /\
    wf s' /\ forall a, same_at s s' a.
Proof. exact timeout_lines. Qed.
Print Assumptions C96_timeout_lines.

(** A lock block in one's own slot is taken for one's own lock. *)
Theorem C96_found_lines : forall here I ch mh n f sp mx s fuel w, wf s -> names s (lock_address I n) <> None ->
  exists l, run (d_acquire true true here fuel (slotted I ch mh n f sp mx None) w) s =
    (Some (Ok (logged here w [(str_of_Z n, "already have lock")], Ok (l, Ok tt))), s) /\
    l_acquired l = true /\ l_lock l = None /\ l_number l = n.
Proof. exact found_lines. Qed.
Print Assumptions C96_found_lines.

Example C96_timeout_ex :
  wf spin_store /\ queued "L" 0 1 1 spin_store /\ nearest "L" 2 3 spin_store /\ rounds 1 0 = 2 /\
  fst (run (d_enter true true dx_here (fun _ => "timed out waiting for lock") 2 (idle "L" 0 0 0 0 (Some 1%Z)) []) spin_store) =
  Some (Ok (["t0,3,taking slot 3"; "t1,3,placed lock"; "t2,3,2 has precedence"; "t3,3,2 has precedence";
             "t4,3,failure (waiting timeout)"; "t5,3,crashing out: timed out waiting for lock";
             "t6,3,released lock"; "t7,3,released marker"], Exc TimeoutError)) /\
  names spin_store (lock_address "L" 2) <> None.
Proof.
  split; [apply C76_ex|]. split; [apply C76_ex|]. split; [split; [apply C76_ex|intros; lia]|]. split; [reflexivity|].
  split; [vm_compute; reflexivity|apply C76_ex].
Qed.

(** Where the directory is missing, debug is not only about the log. *)
Theorem C96_debug_only_logs_refuted :
  ~ (forall here shown hash V (enc : V -> res bytes) vstr fuel p k v mg ok,
       agrees true (d_np_set true false here shown hash enc vstr fuel p k v mg ok) (np_set hash enc fuel p k v mg ok)).
Proof.
  intro A. destruct (A dx_here dx_shown px_hash string px_enc (fun v => v) 3 (dx_pad false) (skey "c") "3" false true [] dx_start)
    as (new & _ & E). apply (f_equal fst) in E. revert E. vm_compute. discriminate.
Qed.
Print Assumptions C96_debug_only_logs_refuted.

(** Nothing that is to be done under the lock is done; a marker stays. *)
Theorem C96_no_directory_nothing_done : forall here shown A I c n s fuel (body : dprog A) w, wf s -> littered I c n s ->
  (c + Z.of_nat n + 1 < 256 ^ 5)%Z -> n < fuel ->
  exists s', run (d_with_lock true false here shown false fuel I body w) s = (Some (Ok (w, Exc FileNotFoundError)), s') /\
    wf s' /\ littered I c (S n) s' /\
    only_at (fun a => a = count_address I \/ a = marker_address I (c + Z.of_nat (S n))) s s'.
Proof. intros. now apply with_lock_fails. Qed.
Print Assumptions C96_no_directory_nothing_done.

(** Those without debug go past the markers, and leave them there. *)
Theorem C96_others_go_on : forall A I c n s fuel (body : prog A), wf s -> littered I c n s -> (c + Z.of_nat n + 1 < 256 ^ 5)%Z -> n < fuel ->
  exists s1, wf s1 /\ only_at (lock_names I) s s1 /\
    forall r s2, run body s1 = (Some r, s2) -> wf s2 -> (forall a, lock_names I a -> same_at s1 s2 a) ->
      exists s3, run (with_lock false fuel I body) s = (Some r, s3) /\ wf s3 /\
        only_at (lock_names I) s2 s3 /\ littered I (c + Z.of_nat n + 1) 0 s3 /\
        (forall i, (i <= c + Z.of_nat n)%Z -> names s3 (marker_address I i) = names s (marker_address I i)).
Proof. intros. now apply with_lock_past. Qed.
Print Assumptions C96_others_go_on.

(** The methods of a lock called directly: the lock is placed, and stays. *)
Theorem C96_acquire_fails : forall here I ch mh n f sp mx s fuel w, wf s -> names s (lock_address I n) = None ->
  exists s', run (d_acquire true false here fuel (slotted I ch mh n f sp mx None) w) s =
    (Some (Ok (w, Ok (slotted I ch mh n f sp mx (Some (mkHandle (lock_address I n) (next s))), Exc FileNotFoundError))), s') /\
    wf s' /\ names s' (lock_address I n) = Some (next s) /\ only_at (eq (lock_address I n)) s s'.
Proof. exact acquire_fails. Qed.
Print Assumptions C96_acquire_fails.
Theorem C96_check_fails : forall here I ch mh n f sp mx lk s w, wf s ->
  run (d_check_acquirement true false here (slotted I ch mh n f sp mx lk) w) s =
  (Some (Ok (w, Ok (slotted I ch mh n f sp mx lk, Exc FileNotFoundError))), s).
Proof. exact check_fails. Qed.
Print Assumptions C96_check_fails.
Example C96_acquire_ex : wf spin_store /\ names spin_store (lock_address "L" 3) = None.
Proof. split; [apply C76_ex|vm_compute; reflexivity]. Qed.

(** Any number of assignments leave all values as they are and one marker each. *)
Theorem C96_sets_fail : forall hash K P V (enc : V -> res bytes) dec isnone vstr here shown h s0 s,
  preached hash K P enc dec isnone h s0 s -> forall ats fuel w,
  Forall (fun a => pad_key K (fst (fst a))) ats ->
  (2 * Z.of_nat (List.length h) + Z.of_nat (List.length ats) < 256 ^ 5)%Z -> List.length ats <= fuel ->
  exists s' c,
    run (each (fun a => d_np_set true false here shown hash enc vstr fuel (pad_object P (next s0) false)
                          (fst (fst a)) (snd (fst a)) false (snd a)) ats w) s =
      (Some (Ok (w, Ok (map (fun _ => Exc FileNotFoundError) ats))), s') /\
    (forall nl, shows K dec isnone (pad_object P (next s0) nl) (pad_after enc isnone h) s') /\
    littered (pad_index P) c (List.length ats) s'.
Proof. intros. eapply reached_sets_fail; eassumption. Qed.
Print Assumptions C96_sets_fail.

(** A deletion reports a missing key either way: with the lock, the value is gone
    and the key is still listed; without one, the key is off the list as well,
    and whoever sets it again has a value that is never listed. *)
Theorem C96_deletes_fail : forall hash K P V (enc : V -> res bytes) dec isnone here shown h s0 s,
  preached hash K P enc dec isnone h s0 s -> forall fuel k w, pad_key K k -> fuel <> 0 ->
  let now := pad_after enc isnone h in
  let pad := pad_object P (next s0) in
  let del nl := run (d_np_del true false here shown hash fuel (pad nl) k w) s in
  match held (ktext k) now with
  | None => forall nl, del nl = (Some (Ok (w, Exc KeyError)), s)
  | Some _ =>
      (exists s' c, del false = (Some (Ok (w, Exc KeyError)), s') /\
         (forall nl, shows K dec isnone (pad nl) (put_entry (ktext k) (ktext k, None) now) s') /\
         littered (pad_index P) c 1 s') /\
      (exists s', del true = (Some (Ok (w, Exc KeyError)), s') /\
         (forall nl, shows K dec isnone (pad nl) (swap_entry (ktext k) now) s') /\
         forall nl fuel' v', fuel' <> 0 -> stable enc dec v' ->
           exists s2, run (np_set hash enc fuel' (pad nl) k v' false true) s' = (Some (Ok tt), s2) /\
             run (np_keys (pad nl)) s2 = (Some (Ok (swap_remove (ktext k) (map fst now))), s2) /\
             run (np_getitem dec isnone (pad nl) k) s2 = (Some (look isnone (Some (Some v'))), s2))
  end.
Proof.
  cbv zeta. intros. destruct (held (ktext k) (pad_after enc isnone h)) as [v|] eqn:E.
  - split; [eapply (reached_del_locked hash K P enc dec isnone)|eapply (reached_del_free hash K P enc dec isnone)]; eauto.
  - intro nl. eapply reached_del_absent; eassumption.
Qed.
Print Assumptions C96_deletes_fail.

(** Without the lock, an assignment puts a new key on the list, but no value. *)
Theorem C96_sets_fail_unlocked : forall hash K P V (enc : V -> res bytes) dec isnone vstr here shown h s0 s,
  preached hash K P enc dec isnone h s0 s -> forall fuel k v ok w, pad_key K k ->
  let now := pad_after enc isnone h in
  let set := run (d_np_set true false here shown hash enc vstr fuel (pad_object P (next s0) true) k v false ok w) s in
  match value_of (ktext k) now with
  | None => exists s', set = (Some (Ok (w, Exc FileNotFoundError)), s') /\
      forall nl, shows K dec isnone (pad_object P (next s0) nl) (now ++ [(ktext k, None)]) s'
  | Some _ => set = (Some (Ok (w, Exc (if ok then FileNotFoundError else KeyError))), s)
  end.
Proof. cbv zeta. intros. eapply reached_set_free; eassumption. Qed.
Print Assumptions C96_sets_fail_unlocked.

Example C96_fail_ex :
  preached px_hash px_any "n" px_enc px_dec px_none px_history empty_store dx_start /\
  let keys s := fst (run (np_keys (dx_pad false)) s) in
  let get k s := fst (run (np_getitem px_dec px_none (dx_pad false) (skey k)) s) in
  keys dx_start = Some (Ok ["7"; "b"]) /\ get "7" dx_start = Some (Ok "77") /\
  (let r := run (each (fun k => dx_set false false (skey k) "9") ["c"; "7"] []) dx_start in
   fst r = Some (Ok ([], Ok [Exc FileNotFoundError; Exc FileNotFoundError])) /\
   keys (snd r) = Some (Ok ["7"; "b"]) /\ get "7" (snd r) = Some (Ok "77") /\
   names dx_start (marker_address "n_index" 5) = None /\
   names (snd r) (marker_address "n_index" 5) <> None /\ names (snd r) (marker_address "n_index" 6) <> None /\
   (let r2 := run (np_set px_hash px_enc 2 (dx_pad false) (skey "d") "1" false true) (snd r) in fst r2 = None) /\
   let r3 := run (np_set px_hash px_enc 3 (dx_pad false) (skey "d") "1" false true) (snd r) in
   fst r3 = Some (Ok tt) /\ keys (snd r3) = Some (Ok ["7"; "b"; "d"]) /\ names (snd r3) (marker_address "n_index" 6) <> None) /\
  (let r := run (dx_del false false (skey "7") []) dx_start in
   fst r = Some (Ok ([], Exc KeyError)) /\ keys (snd r) = Some (Ok ["7"; "b"]) /\ get "7" (snd r) = Some (Exc FileNotFoundError)) /\
  (let r := run (dx_del false true (skey "7") []) dx_start in
   fst r = Some (Ok ([], Exc KeyError)) /\ keys (snd r) = Some (Ok ["b"]) /\
   let r2 := run (np_set px_hash px_enc 1 (dx_pad false) (skey "7") "8" false true) (snd r) in
   fst r2 = Some (Ok tt) /\ keys (snd r2) = Some (Ok ["b"]) /\ get "7" (snd r2) = Some (Ok "8")) /\
  (let r := run (dx_set false true (skey "c") "9" []) dx_start in
   fst r = Some (Ok ([], Exc FileNotFoundError)) /\ keys (snd r) = Some (Ok ["7"; "b"; "c"]) /\ get "c" (snd r) = Some (Exc FileNotFoundError)).
Proof. split; [exact px_reached|]. vm_compute. repeat split; discriminate. Qed.
