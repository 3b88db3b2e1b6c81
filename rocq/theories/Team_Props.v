(** Several processes at one Notepad (C95). *)
From Verif Require Import Conc_Lemmas Team_Lemmas Team_Alone Done_Props Pad_Props Fair_Props.

(** Any processes set, delete or read entries of one Notepad at the same time,
    each under its own key as far as it writes.  As soon as one of them is
    through, its result is the one it would have had alone, and whoever looks
    finds under its key what it left there, whatever the others are in the
    middle of; keys nobody writes keep their values all the while.  (Those at
    the lock are orderly, as in C85.) *)
Theorem C95_seen_at_once : forall (V : Type) hash K P (enc : V -> res bytes) dec isnone h s0 s k pd ops is fuel,
  preached hash K P enc dec isnone h s0 s -> lock_used (pad_index P) k s -> run (notepad P false false) s = (Some (Ok pd), s) -> own_keys enc dec K ops ->
  forall n t, (k + Z.of_nat n < 256 ^ 5)%Z -> team_moves hash enc fuel pd ops is n (team_start hash dec isnone pd ops s) t ->
    (forall i x, over_with t i x -> x = fst (pad_step enc isnone (pad_after enc isnone h) (ops i)) /\
       forall key, pop_key (ops i) = Some key ->
         run (np_getitem dec isnone pd key) (board_of t) = (Some (look isnone (value_of (ktext key) (snd (pad_step enc isnone (pad_after enc isnone h) (ops i))))), board_of t)) /\
    (forall key, pad_key K key -> (forall i key', In i is -> writes (ops i) -> pop_key (ops i) = Some key' -> ktext key' <> ktext key) ->
       run (np_getitem dec isnone pd key) (board_of t) = (Some (look isnone (value_of (ktext key) (pad_after enc isnone h))), board_of t)).
Proof. exact @seen_at_once. Qed.
Print Assumptions C95_seen_at_once.

(** Once all of them are through: there is an order in which the results are
    those of the operations one after another, everybody who comes to the
    notepad from now on finds what that leaves, and the lock is free. *)
Theorem C95_together : forall (V : Type) hash K P (enc : V -> res bytes) dec isnone h s0 s k pd ops is fuel,
  preached hash K P enc dec isnone h s0 s -> lock_used (pad_index P) k s -> run (notepad P false false) s = (Some (Ok pd), s) -> own_keys enc dec K ops ->
  forall n t, NoDup is -> (k + Z.of_nat (n + List.length is) < 256 ^ 5)%Z -> team_moves hash enc fuel pd ops is n (team_start hash dec isnone pd ops s) t ->
    (forall i, In i is -> over t i) -> done_together hash enc dec isnone K P k (pad_after enc isnone h) ops is t.
Proof. exact @all_together. Qed.
Print Assumptions C95_together.

(** A schedule that goes through all of them often enough gets them all
    through. *)
Theorem C95_done : forall (V : Type) hash K P (enc : V -> res bytes) dec isnone h s0 s k pd ops is fuel,
  preached hash K P enc dec isnone h s0 s -> lock_used (pad_index P) k s -> run (notepad P false false) s = (Some (Ok pd), s) -> own_keys enc dec K ops ->
  forall bs t, NoDup is -> (k + Z.of_nat (List.length is) < 256 ^ 5)%Z -> (forall b, In b bs -> covers is b) ->
    enough_team (List.length is) <= List.length bs -> List.length (List.concat bs) < fuel ->
    team_turns hash enc fuel pd ops (List.concat bs) (team_start hash dec isnone pd ops s) t -> done_together hash enc dec isnone K P k (pad_after enc isnone h) ops is t.
Proof. exact @all_done_together. Qed.
Print Assumptions C95_done.

Theorem C95_fair : forall (V : Type) hash K P (enc : V -> res bytes) dec isnone h s0 s k pd ops is sigma,
  preached hash K P enc dec isnone h s0 s -> lock_used (pad_index P) k s -> run (notepad P false false) s = (Some (Ok pd), s) -> own_keys enc dec K ops ->
  NoDup is -> (k + Z.of_nat (List.length is) < 256 ^ 5)%Z -> fair is sigma ->
  exists T, forall T' fuel t, T <= T' -> T' < fuel -> team_turns hash enc fuel pd ops (first_turns T' sigma) (team_start hash dec isnone pd ops s) t ->
    done_together hash enc dec isnone K P k (pad_after enc isnone h) ops is t.
Proof. exact @fair_together. Qed.
Print Assumptions C95_fair.

(** One process alone comes to the result and the store of the sequential
    operation. *)
Theorem C95_alone : forall (V : Type) hash P (enc : V -> res bytes) dec isnone fuel pd ops i s x s',
  run (notepad P false false) s = (Some (Ok pd), s) -> ops i <> PClear ->
  run (pvisit_prog hash enc dec isnone P (mkPVisit false fuel (ops i))) s = (Some (Ok x), s') ->
  exists n, let t := team_play enc fuel pd ops (repeat i n) (team_start hash dec isnone pd ops s) in over_with t i x /\ board_of t = s'.
Proof. exact @alone_visit. Qed.
Print Assumptions C95_alone.

(** *** Four processes at the notepad of Pad_Props.v *)
Section Take.
  Context {V : Type} (hash : bytes -> string) (enc : V -> res bytes) (fuel n : nat) (p : pad) (ops : nat -> pop V).
  Notation name := (ix_name (p_index p)).
  Definition may (t : team V) (i : nat) : bool := match acts t i with Through => allowed n (orderly_b name) (users (guards t)) i | _ => Nat.ltb i n end.
  Definition must_stay (t : team V) (i : nat) : bool :=
    match acts t i with
    | Through => Nat.ltb i n && held_b name (procs (users (guards t)) i) && existsb (fun j => negb (Nat.eqb j i) && entering_b (procs (users (guards t)) j)) (seq 0 n)
    | _ => false
    end.
  (** Plays a schedule of processes below [n]; who has to stay does nothing. *)
  Fixpoint take_team (sched : list nat) (t : team V) : option (team V) :=
    match sched with
    | [] => Some t
    | i :: r => if may t i then take_team r (team_turn enc fuel p ops i t) else if must_stay t i then take_team r t else None
    end.
  Lemma take_other i (t : team V) j : j <> i -> entering (users (guards (team_turn enc fuel p ops i t))) j -> entering (users (guards t)) j.
  Proof.
    intro Hj. unfold team_turn. destruct (acts t i) as [q| |q].
    - destruct (prog_step q (board_of t)) as [[q' s]|]; cbn; auto. destruct (outcome q) as [[[x|]|e]|]; cbn; auto.
    - pose proof (turn_other fuel i (guards t) j Hj) as HT. destruct (procs (users (guards t)) i) as [q|l|q|q|l|q r|r]; cbn [guards]; auto.
      destruct r as [u|e]; [destruct (outcome (todo (guards t) i))|]; cbn [guards]; auto.
    - destruct (prog_step q (board_of t)) as [[q' s]|]; cbn; auto.
  Qed.
  Lemma may_ok t i : (forall j, n <= j -> ~ entering (users (guards t)) j) -> may t i = true -> i < n /\ (acts t i = Through -> orderly name (users (guards t)) i).
  Proof.
    intros HB HM. unfold may in HM. destruct (acts t i) eqn:Ea; [apply Nat.ltb_lt in HM; split; [exact HM|discriminate]| |apply Nat.ltb_lt in HM; split; [exact HM|discriminate]].
    destruct (allowed_ok n _ _ (users (guards t)) i (enforces_orderly name) HB HM). auto.
  Qed.
  Lemma take_turns_ok sched : forall t t', (forall j, n <= j -> ~ entering (users (guards t)) j) -> take_team sched t = Some t' -> team_turns hash enc fuel p ops sched t t'.
  Proof.
    induction sched as [|i r IH]; intros t t' HB HT; cbn [take_team] in HT; [injection HT as <-; constructor|]. destruct (may t i) eqn:EM.
    - destruct (may_ok t i HB EM) as [Hi HO]. apply turns_one; [exact HO|]. apply IH; [|exact HT]. intros j Hj He. apply (HB j Hj). eapply take_other; [|exact He]. lia.
    - destruct (must_stay t i) eqn:ES; [|discriminate]. unfold must_stay in ES. destruct (acts t i) eqn:Ea; try discriminate.
      apply andb_prop in ES as [EH EX]. apply andb_prop in EH as [EH1 EH2]. apply existsb_exists in EX as (j & _ & EX). apply andb_prop in EX as [E1 E2].
      apply turns_stay; [exact Ea| |apply IH; auto]. apply (held_ok name (users (guards t)) i j); [|destruct (procs (users (guards t)) j) eqn:Ej; try discriminate; now exists p0|exact EH2].
      apply negb_true_iff, Nat.eqb_neq in E1. exact E1.
  Qed.
  Lemma moves_more t1 i is t2 m : team_moves hash enc fuel p ops is m (team_turn enc fuel p ops i t1) t2 -> In i is ->
    (acts t1 i = Through -> orderly name (users (guards t1)) i) -> team_moves hash enc fuel p ops is (S m) t1 t2.
  Proof.
    intros HM Hi HO. remember (team_turn enc fuel p ops i t1) as t0 eqn:E0. induction HM as [t|m t t' j HM IH Hj HJ|m t t' s HM IH W Hs]; subst.
    - apply (moves_turn _ _ _ _ _ _ 0 t1 t1 i); [constructor|exact Hi|exact HO].
    - apply moves_turn; auto.
    - apply moves_env; auto.
  Qed.
  Lemma take_moves_ok sched : forall t t', (forall j, n <= j -> ~ entering (users (guards t)) j) -> take_team sched t = Some t' ->
    exists m, m <= List.length sched /\ team_moves hash enc fuel p ops (seq 0 n) m t t'.
  Proof.
    induction sched as [|i r IH]; intros t t' HB HT; cbn [take_team List.length] in *; [injection HT as <-; exists 0; split; [lia|constructor]|]. destruct (may t i) eqn:EM.
    - destruct (may_ok t i HB EM) as [Hi HO]. destruct (IH (team_turn enc fuel p ops i t) t') as (m & Hm & HM); [|exact HT|].
      + intros j Hj He. apply (HB j Hj). eapply take_other; [|exact He]. lia.
      + exists (S m). split; [lia|]. eapply moves_more; eauto. apply in_seq. lia.
    - destruct (must_stay t i); [|discriminate]. destruct (IH t t' HB HT) as (m & Hm & HM). exists m. split; [lia|exact HM].
  Qed.
End Take.

Definition tm_store : store := snd (px_run px_history).
Definition tm_pad : pad := mkPad "n" (mkIndex (pad_index "n") (mkHandle (pad_index "n") (next empty_store)) false).
(** One sets "x", one deletes "b", one reads "7", one sets what cannot be
    encoded; everybody else reads "z". *)
Definition tm_ops (i : nat) : pop string :=
  match i with 0 => PSet (skey "x") "5" false | 1 => PDel (skey "b") | 2 => PGet (okey "7") | 3 => PSet (skey "y") "bad" true | _ => PGetDefault (skey "z") end.
Definition tm_start : team string := team_start px_hash px_dec px_none tm_pad tm_ops tm_store.
Definition tm_outs (t : team string) : list (option (pout string)) := map (fun i => match acts t i with After (Ret x) => Some x | _ => None end) [0; 1; 2; 3].
Lemma tm_own : own_keys px_enc px_dec px_any tm_ops.
Proof.
  split; [|split].
  - intro i. destruct i as [|[|[|[|i]]]]; eexists; (split; [reflexivity|]); (split; [|reflexivity]); (split; [discriminate|]); split; try reflexivity; exact Logic.I.
  - intros. apply px_sound.
  - intros i j k k' Hn Hw E1 E2. destruct i as [|[|[|[|i]]]]; cbn in Hw; try contradiction; cbn in E1; injection E1 as <-;
      destruct j as [|[|[|[|j]]]]; cbn in E2; injection E2 as <-; try congruence; cbn; discriminate.
Qed.
Lemma tm_attached : run (notepad "n" false false) tm_store = (Some (Ok tm_pad), tm_store).
Proof. destruct (preached_rep _ _ _ _ _ _ _ _ _ px_reached) as (_ & W & _ & c & R & _). exact (notepad_attach _ _ _ _ _ _ _ _ false W R). Qed.
Lemma tm_used : lock_used (pad_index "n") 4 tm_store.
Proof. split; [lia|]. vm_compute. reflexivity. Qed.
Lemma tm_idle j : 4 <= j -> ~ entering (users (guards tm_start)) j.
Proof. intros _ [p Hp]. discriminate Hp. Qed.
Definition tm_round : list nat := [0; 1; 2; 3].
Definition tm_turns (fuel : nat) (sched : list nat) : option (team string) := take_team px_enc fuel 4 tm_pad tm_ops sched tm_start.
(** In the middle: process 0 is through, 1 has taken "b" off the index and is
    not yet through, 3 waits for the lock. *)
Definition tm_middle : option (team string) := tm_turns 400 (List.concat (repeat tm_round 45)).
Lemma tm_middle_moves t : tm_middle = Some t -> exists n, n <= List.length (List.concat (repeat tm_round 45)) /\ team_moves px_hash px_enc 400 tm_pad tm_ops tm_round n tm_start t.
Proof. apply take_moves_ok. exact tm_idle. Qed.
Example C95_example :
  preached px_hash px_any "n" px_enc px_dec px_none px_history empty_store tm_store /\ lock_used (pad_index "n") 4 tm_store /\
  run (notepad "n" false false) tm_store = (Some (Ok tm_pad), tm_store) /\ own_keys px_enc px_dec px_any tm_ops /\
  pad_after px_enc px_none px_history = [("7", Some "77"); ("b", Some "2")] /\
  (exists t n, team_moves px_hash px_enc 400 tm_pad tm_ops tm_round n tm_start t /\ n <= 180 /\
     tm_outs t = [Some (WDone (Ok tt)); None; Some (WGot (Ok "77")); None] /\
     fst (run (np_getitem px_dec px_none tm_pad (skey "x")) (board_of t)) = Some (Ok "5") /\
     fst (run (np_getitem px_dec px_none tm_pad (skey "b")) (board_of t)) = Some (Exc FileNotFoundError) /\
     fst (run (np_getitem px_dec px_none tm_pad (skey "7")) (board_of t)) = Some (Ok "77") /\
     fst (run (np_keys tm_pad) (board_of t)) = Some (Ok ["7"; "x"])).
Proof.
  split; [exact px_reached|]. split; [exact tm_used|]. split; [exact tm_attached|]. split; [exact tm_own|]. split; [vm_compute; reflexivity|].
  assert (E : match tm_middle with
    | Some t => tm_outs t = [Some (WDone (Ok tt)); None; Some (WGot (Ok "77")); None] /\
        fst (run (np_getitem px_dec px_none tm_pad (skey "x")) (board_of t)) = Some (Ok "5") /\
        fst (run (np_getitem px_dec px_none tm_pad (skey "b")) (board_of t)) = Some (Exc FileNotFoundError) /\
        fst (run (np_getitem px_dec px_none tm_pad (skey "7")) (board_of t)) = Some (Ok "77") /\
        fst (run (np_keys tm_pad) (board_of t)) = Some (Ok ["7"; "x"])
    | None => False
    end) by (vm_compute; repeat split; reflexivity).
  pose proof tm_middle_moves as HM. destruct tm_middle as [t|]; [|destruct E]. destruct (HM t eq_refl) as (n & Hn & HT).
  exists t, n. split; [exact HT|]. split; [exact Hn|exact E].
Qed.

Definition tm_blocks : list (list nat) := repeat tm_round (enough_team 4).
Definition tm_fuel : nat := S (List.length (List.concat tm_blocks)).
Definition tm_end : option (team string) := tm_turns tm_fuel (List.concat tm_blocks).
Lemma tm_end_turns t : tm_end = Some t -> team_turns px_hash px_enc tm_fuel tm_pad tm_ops (List.concat tm_blocks) tm_start t.
Proof. apply take_turns_ok. exact tm_idle. Qed.
Example C95_done_example :
  NoDup tm_round /\ (forall b, In b tm_blocks -> covers tm_round b) /\ enough_team (List.length tm_round) <= List.length tm_blocks /\
  List.length (List.concat tm_blocks) < tm_fuel /\
  (exists t, team_turns px_hash px_enc tm_fuel tm_pad tm_ops (List.concat tm_blocks) tm_start t /\
     tm_outs t = [Some (WDone (Ok tt)); Some (WDone (Ok tt)); Some (WGot (Ok "77")); Some (WDone (Exc TypeError))] /\
     fst (run (np_keys tm_pad) (board_of t)) = Some (Ok ["7"; "x"; "y"])) /\
  fair tm_round (fun t => Nat.modulo t 4).
Proof.
  split; [repeat constructor; cbn; intros X; repeat (destruct X as [X|X]; [discriminate X|]); exact X|].
  split; [intros b Hb; apply repeat_spec in Hb as ->; split; intros x Hx; exact Hx|].
  split; [unfold tm_blocks; rewrite repeat_length; apply le_n|]. split; [apply le_n|]. split.
  - assert (E : match tm_end with
      | Some t => tm_outs t = [Some (WDone (Ok tt)); Some (WDone (Ok tt)); Some (WGot (Ok "77")); Some (WDone (Exc TypeError))] /\
          fst (run (np_keys tm_pad) (board_of t)) = Some (Ok ["7"; "x"; "y"])
      | None => False
      end) by (vm_compute; split; reflexivity).
    pose proof tm_end_turns as HT. destruct tm_end as [t|]; [|destruct E]. exists t. split; [now apply HT|exact E].
  - split.
    + intro t. pose proof (Nat.mod_upper_bound t 4 ltac:(lia)). destruct (t mod 4) as [|[|[|[|n]]]]; cbn; auto; lia.
    + intros i Hi t. exists (4 * t + i). split; [lia|]. assert (i < 4) by (destruct Hi as [<-|[<-|[<-|[<-|[]]]]]; lia).
      rewrite Nat.add_comm, Nat.mul_comm, Nat.mod_add by lia. now apply Nat.mod_small.
Qed.
Example C95_alone_example :
  map (fun i => fst (run (pvisit_prog px_hash px_enc px_dec px_none "n" (mkPVisit false 3 (tm_ops i))) tm_store)) tm_round =
    map (fun x => Some (Ok x)) [WDone (Ok tt); WDone (Ok tt); WGot (Ok "77"); WDone (Exc TypeError)] /\
  map (fun i => match acts (team_play px_enc 3 tm_pad tm_ops (repeat i 80) tm_start) i with After (Ret x) => Some x | _ => None end) tm_round =
    map (fun x => Some x) [WDone (Ok tt); WDone (Ok tt); WGot (Ok "77"); WDone (Exc TypeError)].
Proof. vm_compute. auto. Qed.

(** Without keys of their own it is not so.  Two processes overwrite "7", both
    with exists_ok, never two at the lock at once: one of them is told that the
    key exists.  One after another, both would succeed in either order. *)
Definition tm_same (i : nat) : pop string :=
  match i with 0 => PSet (skey "7") "a" true | 1 => PSet (skey "7") "bb" true | _ => PGet (skey "7") end.
Definition tm_same_start : team string := team_start px_hash px_dec px_none tm_pad tm_same tm_store.
Definition tm_clash (sched : list nat) : option (team string) := take_team px_enc 400 4 tm_pad tm_same sched tm_same_start.
Lemma tm_clash_moves sched t : tm_clash sched = Some t -> exists n, n <= List.length sched /\ team_moves px_hash px_enc 400 tm_pad tm_same tm_round n tm_same_start t.
Proof. apply take_moves_ok. intros j _ [p Hp]. discriminate Hp. Qed.
Theorem C95_same_key_refuted :
  exists t n, n <= 200 /\ team_moves px_hash px_enc 400 tm_pad tm_same tm_round n tm_same_start t /\
    over_with t 0 (WDone (Exc KeyError)) /\ over_with t 1 (WDone (Ok tt)) /\
    forall l, Permutation l [0; 1] -> fst (pad_run px_enc px_none (pad_after px_enc px_none px_history) (map tm_same l)) = [WDone (Ok tt); WDone (Ok tt)].
Proof.
  pose (sched := repeat 0 31 ++ repeat 1 60 ++ repeat 0 20). pose (f := fun t : team string => match acts t 0, acts t 1 with After (Ret x), After (Ret y) => Some (x, y) | _, _ => None end).
  assert (E : match tm_clash sched with Some t => f t | None => None end = Some (WDone (Exc KeyError), WDone (Ok tt))) by (vm_compute; reflexivity).
  pose proof (tm_clash_moves sched) as HM. destruct (tm_clash sched) as [t|]; [|discriminate E]. destruct (HM t eq_refl) as (n & Hn & HT). exists t, n.
  split; [cbn in Hn; lia|]. split; [exact HT|]. unfold over_with. unfold f in E. destruct (acts t 0) as [q| |[x|e| |B o k]], (acts t 1) as [q'| |[y|e'| |B' o' k']]; try discriminate E.
  injection E as -> ->. split; [reflexivity|]. split; [reflexivity|]. intros l Hl. apply Permutation_sym, Permutation_length_2_inv in Hl as [->| ->]; vm_compute; reflexivity.
Qed.
Print Assumptions C95_same_key_refuted.

(** One overwrites "7" and another reads it: the reader may be told that there
    is no such file, or get a value nobody ever set. *)
Theorem C95_read_while_set_refuted :
  (exists t n, n <= 200 /\ team_moves px_hash px_enc 400 tm_pad tm_same tm_round n tm_same_start t /\ over_with t 2 (WGot (Exc FileNotFoundError))) /\
  (exists t n v, n <= 200 /\ team_moves px_hash px_enc 400 tm_pad tm_same tm_round n tm_same_start t /\ over_with t 2 (WGot (Ok v)) /\ v <> "77" /\ v <> "a" /\ v <> "bb").
Proof.
  pose (f := fun t : team string => match acts t 2 with After (Ret x) => Some x | _ => None end). split.
  - pose (sched := repeat 0 31 ++ repeat 2 10). assert (E : match tm_clash sched with Some t => f t | None => None end = Some (WGot (Exc FileNotFoundError))) by (vm_compute; reflexivity).
    pose proof (tm_clash_moves sched) as HM. destruct (tm_clash sched) as [t|]; [|discriminate E]. destruct (HM t eq_refl) as (n & Hn & HT). exists t, n.
    split; [cbn in Hn; lia|]. split; [exact HT|]. unfold over_with. unfold f in E. destruct (acts t 2) as [q| |[x|e| |B o k]]; try discriminate E. now injection E as ->.
  - pose (sched := repeat 0 33 ++ repeat 2 10). assert (E : match tm_clash sched with Some t => f t | None => None end = Some (WGot (Ok (String "000" "")))) by (vm_compute; reflexivity).
    pose proof (tm_clash_moves sched) as HM. destruct (tm_clash sched) as [t|]; [|discriminate E]. destruct (HM t eq_refl) as (n & Hn & HT). exists t, n, (String "000" "").
    split; [cbn in Hn; lia|]. split; [exact HT|]. unfold over_with. unfold f in E. destruct (acts t 2) as [q| |[x|e| |B o k]]; try discriminate E. injection E as ->.
    split; [reflexivity|]. split; [discriminate|]. split; discriminate.
Qed.
Print Assumptions C95_read_while_set_refuted.
