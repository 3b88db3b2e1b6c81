(** C98: reading and writing a block byte by byte. *)
From Verif Require Import Torn_Lemmas Pad_Props Conc_Props Reg_Props.

(** ** Locks *)

(** As C50, copying the lock's counter byte by byte, in any order and with the
    others going on between any two bytes, as long as the counter fits into
    one byte: never two inside. *)
Theorem C98_lock : forall name fuel k s n f i j,
  free_lock name k s -> (k + Z.of_nat n < 256)%Z ->
  byte_execution name fuel (orderly name) n (b_start name s) f ->
  inside (without_bytes f) i -> inside (without_bytes f) j -> i = j.
Proof. intros name fuel k s n f i j HF Hk HE. exact (byte_mutex name fuel k s n f HF Hk HE i j). Qed.
Print Assumptions C98_lock.

(** Nor is anything else different from C51: the slots are served in order,
    nobody fails, and in the end the lock is free. *)
Theorem C98_lock_order : forall name fuel k s n f,
  free_lock name k s -> (k + Z.of_nat n < 256)%Z ->
  byte_execution name fuel (orderly name) n (b_start name s) f ->
  b_served f = slots_from k (List.length (b_served f)) /\
  (forall i r, procs (without_bytes f) i = Finished r -> r = Ok tt) /\
  ((forall i, finished (without_bytes f) i \/ not_begun name (without_bytes f) i) ->
   free_lock name (k + Z.of_nat (List.length (b_served f))) (b_mem f)).
Proof. exact byte_order. Qed.
Print Assumptions C98_lock_order.

(** The turns of three processes: 0 comes in and 1 waits; 0 begins to write the
    counter, and after its first byte 2 comes; then 0 goes on, and the others
    after it. *)
Definition tx_plain (i n : nat) : list (nat * nat) := repeat (i, 0) n.
Definition tx_bytes (i : nat) (l : list nat) : list (nat * nat) := map (fun k => (i, k)) l.
Definition tx_come (i n : nat) : list (nat * nat) := tx_plain i 5 ++ tx_bytes i [0; 1; 2; 3; 4] ++ tx_plain i n.
Definition tx_sched : list (nat * nat) := tx_come 0 9 ++ tx_come 1 12 ++ tx_plain 0 2 ++ tx_come 2 9 ++ tx_bytes 0 [1; 2; 3; 4] ++ tx_plain 0 4.
Definition tx_later : list (nat * nat) :=
  tx_sched ++ tx_plain 1 6 ++ tx_bytes 1 [3; 4; 2] ++ tx_plain 2 7 ++ tx_bytes 1 [0; 1] ++ tx_plain 1 4 ++ tx_plain 2 9 ++ tx_bytes 2 [4; 3; 2; 1; 0] ++ tx_plain 2 4.
Definition tx_at (s : store) (l : list (nat * nat)) : bconfig := bplay 9 l (b_start "L" s).
(** A lock that has been taken 255 times. *)
Definition tx_full : store := snd (run (let! l := lock_init "L" in shm_write (l_count l) (le_digits 5 255)) empty_store).
Lemma tx_free : free_lock "L" 255 tx_full.
Proof.
  split; [|split; [lia|split; [vm_compute; reflexivity|]]].
  - destruct (lock_init_ok "L" 0 empty_store wf_empty) as (s' & ch & R & W & A & _).
    + split; [lia|]. split; [reflexivity|]. split; [reflexivity|]. left. auto.
    + unfold tx_full. rewrite run_bind, R.
      destruct (write_ok s' (count_address "L") ch (le_digits 5 0) (le_digits 5 255) W A eq_refl) as (s2 & R2 & W2 & _).
      cbn [l_count snd]. rewrite R2. exact W2.
  - split; intro n.
    + assert (H : marker_address "L" n <> count_address "L") by (adn hash0 "L"; try tauto).
      cbn. unfold upd_name. now rewrite eqb_ne.
    + assert (H : lock_address "L" n <> count_address "L") by (adn hash0 "L"; try tauto).
      cbn. unfold upd_name. now rewrite eqb_ne.
Qed.

Lemma tx_execution g R s l n : enforces g R -> btidy 3 9 g l (b_start "L" s) = true -> begun 9 l (b_start "L" s) = n -> byte_execution "L" 9 R n (b_start "L" s) (tx_at s l).
Proof. intros H1 H2 <-. apply (btidy_execution "L" 3 9 g R l H1 _ H2). intros j _ [p Hp]. discriminate Hp. Qed.
Example C98_lock_example :
  free_lock "L" 0 cx_store /\
  byte_execution "L" 9 (orderly "L") 3 (b_start "L" cx_store) (tx_at cx_store (tx_sched ++ tx_plain 1 3)) /\
  inside (without_bytes (tx_at cx_store (tx_sched ++ tx_plain 1 3))) 1 /\
  (exists p, procs (without_bytes (tx_at cx_store (tx_sched ++ tx_plain 1 3))) 2 = Waiting p) /\
  byte_execution "L" 9 (orderly "L") 3 (b_start "L" cx_store) (tx_at cx_store tx_later) /\
  map (fun i => procs (without_bytes (tx_at cx_store tx_later)) i) [0; 1; 2] = repeat (Finished (Ok tt)) 3 /\
  b_served (tx_at cx_store tx_later) = [1; 2; 3]%Z.
Proof.
  split; [exact cx_free|]. split; [|split; [|split; [|split; [|split]]]].
  - apply (tx_execution (orderly_b "L")); [apply enforces_orderly|vm_compute; reflexivity..].
  - eexists. vm_compute. reflexivity.
  - eexists. vm_compute. reflexivity.
  - apply (tx_execution (orderly_b "L")); [apply enforces_orderly|vm_compute; reflexivity..].
  - vm_compute. reflexivity.
  - vm_compute. reflexivity.
Qed.

(** When the counter goes from 255 to 256 two processes can be inside at once,
    although nobody moves while another is entering.  The bytes are copied in
    the order of their addresses: whoever looks at the counter after the first
    of them finds zero, and takes the first slot once more. *)
Theorem C98_lock_refuted :
  exists name fuel s n f, free_lock name 255 s /\ byte_execution name fuel uninterleaved n (b_start name s) f /\
    n = 3 /\ inside (without_bytes f) 1 /\ inside (without_bytes f) 2 /\ b_served f = [256; 1; 257]%Z.
Proof.
  exists "L", 9, tx_full, 3, (tx_at tx_full (tx_sched ++ tx_plain 1 3)). split; [exact tx_free|]. split; [|split; [reflexivity|split; [|split]]].
  - apply (tx_execution (fun _ => false)); [apply enforces_never|vm_compute; reflexivity..].
  - eexists. vm_compute. reflexivity.
  - eexists. vm_compute. reflexivity.
  - vm_compute. reflexivity.
Qed.
Print Assumptions C98_lock_refuted.

(** ** Stickies *)

(** As C97, copying byte by byte, if the encodings of one length differ in one
    byte only. *)
Theorem C98_register : forall (V : Type) (enc : V -> res bytes) dec isnone a v0 cache todo t N s,
  wf s -> stable enc dec v0 -> isnone v0 = false -> on_board enc a v0 s ->
  (forall i, ordinary_calls enc dec isnone (todo i)) ->
  t 0 = byte_beginning a cache todo s -> byte_happens enc dec isnone a t N ->
  forall p, one_byte enc p v0 (written v0 todo) ->
  exists ord, ord 0 = [] /\ (forall m, m < N -> exists more, ord (S m) = ord m ++ more) /\
    forall m, m <= N -> explains enc a v0 cache todo (ord m) (view (t m)).
Proof. exact @one_byte_register. Qed.
Print Assumptions C98_register.

(** Pickled, whole numbers that take one byte are like that. *)
Theorem C98_small_ints : forall limit v (pool : Z -> Prop),
  (0 <= v < 256)%Z -> (forall w, pool w -> (0 <= w < 256)%Z) ->
  one_byte (int_enc (S limit)) 3 v pool /\ forall w, pool w -> stable (int_enc (S limit)) (int_dec (S limit)) w.
Proof. exact small_ints. Qed.
Print Assumptions C98_small_ints.

(** Whatever the encodings, no byte is found that was not written at its place,
    and the length stays; nothing more can be said of what is there or read
    (see C98_register_refuted). *)
Theorem C98_mixture : forall (V : Type) (enc : V -> res bytes) dec isnone a v0 cache todo t N s,
  wf s -> stable enc dec v0 -> isnone v0 = false -> on_board enc a v0 s ->
  (forall i, ordinary_calls enc dec isnone (todo i)) ->
  t 0 = byte_beginning a cache todo s -> byte_happens enc dec isnone a t N ->
  forall m, m <= N ->
  (exists b, content (snd (t m)) a = Some b /\ String.length b = width enc v0 /\ mixture enc (written v0 todo) b) /\
  forall i x, In x (u_results (fst (view (t m)) i)) -> mixed_answer enc dec isnone (width enc v0) (written v0 todo) cache x.
Proof. intros V enc dec isnone a v0 cache todo t N s W Hv _ OB HO T0 HH. exact (mixing enc dec isnone a v0 cache todo t N s W Hv OB HO T0 HH). Qed.
Print Assumptions C98_mixture.

(** Numbers posted, stuck and read; 256 takes two bytes and is refused. *)
Definition ix_none (z : Z) : bool := false.
Definition ix_store : store := snd (run (note (int_enc 3) ix_none "x" 7%Z) empty_store).
Definition ix_todo (i : nat) : list (uop Z) :=
  match i with
  | 0 => [UStick 9%Z; URead false]
  | 1 => [URead true; URead true]
  | 2 => [UStick 256%Z; UStick 200%Z]
  | _ => []
  end.
Definition ix_sched : list (nat * nat) :=
  tx_plain 0 4 ++ tx_bytes 0 [4; 2] ++ tx_plain 2 6 ++ tx_plain 1 3 ++ tx_bytes 1 [3; 1] ++ tx_plain 2 4 ++ tx_bytes 2 [0; 1] ++ tx_bytes 0 [3; 0; 1] ++
  tx_bytes 1 [0; 2; 4] ++ tx_plain 1 4 ++ tx_bytes 1 [0; 1; 2] ++ tx_bytes 2 [3; 2; 4] ++ tx_bytes 1 [4; 3] ++ tx_plain 0 3 ++ tx_plain 1 1 ++ tx_plain 2 1.
Definition ix_trace (n : nat) : bconf Z := buturns (int_enc 3) (int_dec 3) ix_none (firstn n ix_sched) (byte_beginning "x" (fun _ => None) ix_todo ix_store).
Lemma buturns_snoc {V} enc dec isnone l i k : forall c : bconf V, buturns enc dec isnone (l ++ [(i, k)]) c = buturn enc dec isnone i k (buturns enc dec isnone l c).
Proof. induction l as [|[j kj] l IH]; intro c; cbn [app buturns]; [reflexivity|apply IH]. Qed.
Lemma ix_happens : byte_happens (int_enc 3) (int_dec 3) ix_none "x" ix_trace (List.length ix_sched).
Proof.
  intros n Hn. unfold ix_trace. destruct (nth_error ix_sched n) as [[i k]|] eqn:E; [|apply nth_error_None in E; lia].
  rewrite (firstn_snoc _ _ _ E), buturns_snoc. constructor.
Qed.
Example C98_register_example :
  wf ix_store /\ stable (int_enc 3) (int_dec 3) 7%Z /\ on_board (int_enc 3) "x" 7%Z ix_store /\
  (forall i, ordinary_calls (int_enc 3) (int_dec 3) ix_none (ix_todo i)) /\
  ix_trace 0 = byte_beginning "x" (fun _ => None) ix_todo ix_store /\ byte_happens (int_enc 3) (int_dec 3) ix_none "x" ix_trace (List.length ix_sched) /\
  one_byte (int_enc 3) 3 7%Z (written 7%Z ix_todo) /\
  map (fun i => u_results (fst (view (ix_trace (List.length ix_sched))) i)) [0; 1; 2] =
    [ [YDone (Ok tt); YRead (Some 9%Z)]; [YRead (Some 7%Z); YRead (Some 200%Z)]; [YDone (Exc ValueError); YDone (Ok tt)] ].
Proof.
  assert (St : forall z, In z [7; 9; 200; 256]%Z -> stable (int_enc 3) (int_dec 3) z).
  { intros z [<-|[<-|[<-|[<-|[]]]]]; (eexists; split; [vm_compute; reflexivity|]; split; [discriminate|vm_compute; reflexivity]). }
  assert (W : wf ix_store).
  { destruct (sop_rep (int_enc 3) (int_dec 3) ix_none "x" (mkBoard None (fun _ => None)) (fun _ => mkSticky "x" None) empty_store (SStick 0 7%Z) wf_empty eq_refl (fun _ => eq_refl)) as (ob & s' & R & W & _).
    { intros i v [= <- <-]. split; [apply St; cbn; auto|reflexivity]. }
    replace ix_store with (snd (run (sop_prog (int_enc 3) (int_dec 3) ix_none (fun _ => mkSticky "x" None) (SStick 0 7%Z)) empty_store)) by (vm_compute; reflexivity). rewrite R. exact W. }
  split; [exact W|]. split; [apply St; cbn; auto|]. split; [eexists; split; [vm_compute; reflexivity|vm_compute; reflexivity]|]. split.
  { intro i. destruct i as [|[|[|i]]]; repeat constructor; cbn; apply St; cbn; auto. }
  split; [reflexivity|]. split; [exact ix_happens|]. split; [|vm_compute; reflexivity].
  exists (int_form 7). split; [vm_compute; reflexivity|]. split; [cbn; lia|]. intros w e Hw Ew Le k Hk.
  assert (Hp : w = 7%Z \/ w = 9%Z \/ w = 256%Z \/ w = 200%Z).
  { destruct Hw as [->|[i Hi]]; [auto|]. destruct i as [|[|[|i]]]; cbn in Hi; try tauto; repeat (destruct Hi as [Hi|Hi]; try (injection Hi as <-; auto); try discriminate); easy. }
  destruct Hp as [->|[->|[->| ->]]]; vm_compute in Ew; injection Ew as <-; vm_compute in Le; try discriminate; destruct k as [|[|[|[|k]]]]; try reflexivity; easy.
Qed.

(** Two processes stick while a third reads, and reads again. *)
Definition tz_todo (i : nat) : list (uop string) :=
  match i with 0 => [UStick "two"] | 1 => [UStick "six"] | 2 => [URead true; URead true] | _ => [] end.
Definition tz_end (sched : list (nat * nat)) : bconf string :=
  buturns px_enc px_dec px_none sched (byte_beginning "x" (fun _ => None) tz_todo rx_store).
(** With texts there is no such register: a read during one stick gives half
    of it, and when two sticks have both succeeded neither of their values may
    be there, and every read from then on gives what nobody has stuck. *)
Theorem C98_register_refuted :
  (exists sched w, u_results (fst (view (tz_end sched)) 2) = [YRead (Some w)] /\ u_results (fst (view (tz_end sched)) 1) = [] /\
     u_now (fst (view (tz_end sched)) 1) = None /\ ~ written "one" tz_todo w) /\
  (exists sched w, map (fun i => u_results (fst (view (tz_end sched)) i)) [0; 1] = [[YDone (Ok tt)]; [YDone (Ok tt)]] /\
     content (snd (tz_end sched)) "x" = Some ("." ++ w)%string /\
     u_results (fst (view (tz_end sched)) 2) = [YRead (Some w); YRead (Some w)] /\ ~ written "one" tz_todo w).
Proof.
  assert (F : forall w, w <> "one" -> w <> "two" -> w <> "six" -> ~ written "one" tz_todo w).
  { intros w H1 H2 H3 [H|[i Hi]]; [easy|]. destruct i as [|[|[|i]]]; cbn in Hi; repeat (destruct Hi as [Hi|Hi]; try (injection Hi as <-; auto); try discriminate); easy. }
  split.
  - exists (tx_plain 0 4 ++ tx_bytes 0 [0; 1] ++ tx_plain 2 3 ++ tx_bytes 2 [0; 1; 2; 3] ++ tx_plain 2 1), "tne".
    split; [vm_compute; reflexivity|]. split; [vm_compute; reflexivity|]. split; [vm_compute; reflexivity|]. apply F; discriminate.
  - exists (tx_plain 0 4 ++ tx_bytes 0 [0; 1] ++ tx_plain 1 4 ++ tx_bytes 1 [0; 1; 2; 3] ++ tx_plain 1 1 ++ tx_bytes 0 [2; 3] ++ tx_plain 0 1 ++
      tx_plain 2 3 ++ tx_bytes 2 [0; 1; 2; 3] ++ tx_plain 2 1 ++ tx_plain 2 3 ++ tx_bytes 2 [0; 1; 2; 3] ++ tx_plain 2 1), "swo".
    split; [vm_compute; reflexivity|]. split; [vm_compute; reflexivity|]. split; [vm_compute; reflexivity|]. apply F; discriminate.
Qed.
Print Assumptions C98_register_refuted.
