(** C97: Stickies in concurrent use are an atomic register. *)
From Verif Require Import Reg_Lemmas Pad_Props Conc_Props.

(** ** C97 *)

(** Any number of processes, each with an object at one address where a value
    is posted already, stick and read in any interleaving, with anything done
    to other blocks in between.  There is at every moment an order of the calls
    made so far that explains everything seen, and it only ever grows at its
    end.  A call is in it at the latest when it returns and not before it has
    begun, so calls that do not overlap keep their order. *)
Theorem C97_register : forall (V : Type) (enc : V -> res bytes) dec isnone a v0 cache todo who t N s,
  wf s -> stable enc dec v0 -> isnone v0 = false -> on_board enc a v0 s ->
  (forall i, ordinary_calls enc dec isnone (todo i)) ->
  t 0 = beginning a cache todo s -> happens enc dec isnone a who t N ->
  exists ord, ord 0 = [] /\ (forall m, m < N -> exists more, ord (S m) = ord m ++ more) /\
    forall m, m <= N -> explains enc a v0 cache todo (ord m) (t m).
Proof. exact @register. Qed.
Print Assumptions C97_register.

(** No call waits for anybody: six turns of its own are enough for each. *)
Theorem C97_wait_free : forall (V : Type) (enc : V -> res bytes) dec isnone a v0 cache todo who t N s,
  wf s -> stable enc dec v0 -> isnone v0 = false -> on_board enc a v0 s ->
  (forall i, ordinary_calls enc dec isnone (todo i)) ->
  t 0 = beginning a cache todo s -> happens enc dec isnone a who t N ->
  forall i, 6 * List.length (todo i) <= turns_of i who N ->
  u_now (fst (t N) i) = None /\ u_todo (fst (t N) i) = [] /\ List.length (u_results (fst (t N) i)) = List.length (todo i).
Proof. exact @wait_free. Qed.
Print Assumptions C97_wait_free.

(** With encodings of one length nothing is refused and nothing is read that
    was never stuck. *)
Theorem C97_sane_answers : forall (V : Type) (enc : V -> res bytes) dec isnone a v0 cache todo who t N s,
  wf s -> stable enc dec v0 -> isnone v0 = false -> on_board enc a v0 s ->
  (forall i, ordinary_calls enc dec isnone (todo i)) ->
  t 0 = beginning a cache todo s -> happens enc dec isnone a who t N ->
  forall m i x n, width enc v0 = n -> (forall i w, In (UStick w) (todo i) -> width enc w = n) ->
  m <= N -> In x (u_results (fst (t m) i)) -> sane_answer v0 cache todo x.
Proof. exact @sane. Qed.
Print Assumptions C97_sane_answers.

Definition rx_store : store := snd (run (note px_enc px_none "x" "one") empty_store).
Definition rx_todo (i : nat) : list (uop string) :=
  match i with
  | 0 => [UStick "two"; URead true]
  | 1 => [URead false; UStick "six"; URead false; URead true]
  | 2 => [UStick "four"; URead true]
  | _ => []
  end.
Definition rx_start : uconfig string := beginning "x" (fun _ => None) rx_todo rx_store.
Definition rx_sched : list nat :=
  [0; 0; 0; 0; 1; 1; 1; 1; 0; 2; 2; 2; 2; 1; 1; 1; 1; 1; 2; 0; 0; 0; 0; 0; 1; 0; 1; 1; 1; 1; 1; 1; 1; 1; 2; 2; 2; 2; 2; 2; 0].
Definition rx_trace (n : nat) : uconfig string := uturns px_enc px_dec px_none (firstn n rx_sched) rx_start.
Definition rx_who (n : nat) : option nat := nth_error rx_sched n.

Lemma uturns_snoc {V} enc dec isnone l i : forall c : uconfig V, uturns enc dec isnone (l ++ [i]) c = uturn enc dec isnone i (uturns enc dec isnone l c).
Proof. induction l as [|j l IH]; intro c; cbn [app uturns]; [reflexivity|apply IH]. Qed.
Lemma firstn_snoc {A} (l : list A) n x : nth_error l n = Some x -> firstn (S n) l = firstn n l ++ [x].
Proof.
  revert n. induction l as [|y l IH]; intros [|n] H; try discriminate; [injection H as <-; reflexivity|].
  change (y :: firstn (S n) l = y :: (firstn n l ++ [x])). f_equal. now apply IH.
Qed.
Lemma rx_happens : happens px_enc px_dec px_none "x" rx_who rx_trace (List.length rx_sched).
Proof.
  intros n Hn. unfold rx_who, rx_trace. destruct (nth_error rx_sched n) as [i|] eqn:E; [|apply nth_error_None in E; lia].
  rewrite (firstn_snoc _ _ _ E), uturns_snoc. constructor.
Qed.

Lemma idle_turns {V} enc dec isnone i l : forall c : uconfig V, u_now (fst c i) = None -> u_todo (fst c i) = [] ->
  ~ In i l -> fst (uturns enc dec isnone l c) i = fst c i.
Proof.
  induction l as [|j l IH]; intros c H1 H2 H3; cbn [uturns]; [reflexivity|].
  assert (E : fst (uturn enc dec isnone j c) i = fst c i).
  { unfold uturn. destruct (user_step enc dec isnone (fst c j) (snd c)) as [u s']. cbn [fst]. unfold set_user. destruct (Nat.eqb_spec i j) as [->|_]; [elim H3; now left|reflexivity]. }
  rewrite IH; rewrite ?E; auto. intro H. apply H3. now right.
Qed.
Lemma rx_idle i : 3 <= i -> u_results (fst (rx_trace (List.length rx_sched)) i) = [].
Proof.
  intro H. unfold rx_trace. rewrite firstn_all, idle_turns; [reflexivity|reflexivity| |].
  - destruct i as [|[|[|i]]]; [lia..|reflexivity].
  - intro Hi. assert (F : forallb (fun k => Nat.ltb k 3) rx_sched = true) by reflexivity. rewrite forallb_forall in F. specialize (F i Hi). apply Nat.ltb_lt in F. lia.
Qed.

(** Two overlapping sticks, a refused one, and reads during and after them;
    an order that explains the end. *)
Example C97_ex :
  wf rx_store /\ stable px_enc px_dec "one" /\ px_none "one" = false /\ on_board px_enc "x" "one" rx_store /\
  (forall i, ordinary_calls px_enc px_dec px_none (rx_todo i)) /\
  rx_trace 0 = rx_start /\ happens px_enc px_dec px_none "x" rx_who rx_trace (List.length rx_sched) /\
  map (fun i => u_results (fst (rx_trace (List.length rx_sched)) i)) [0; 1; 2] =
    [ [YDone (Ok tt); YRead (Some "two")];
      [YRead (Some "one"); YDone (Ok tt); YRead (Some "six"); YRead (Some "six")];
      [YDone (Exc ValueError); YRead (Some "six")] ] /\
  explains px_enc "x" "one" (fun _ => None) rx_todo [1; 0; 2; 0; 1; 1; 1; 2] (rx_trace (List.length rx_sched)) /\
  turns_of 0 rx_who (List.length rx_sched) = 12.
Proof.
  assert (Pl : forall v, String.eqb v "bad" = false -> px_none v = false -> stable px_enc px_dec v /\ px_none v = false).
  { intros v H1 H2. split; [|exact H2]. destruct (px_sound v) as [H|[e H]]; [exact H|]. unfold px_enc in H. rewrite H1 in H. discriminate. }
  assert (W : wf rx_store).
  { destruct (sop_rep px_enc px_dec px_none "x" (mkBoard None (fun _ => None)) (fun _ => mkSticky "x" None) empty_store (SStick 0 "one") wf_empty eq_refl (fun _ => eq_refl)) as (ob & s' & R & W & _).
    { intros i v [= <- <-]. now apply Pl. }
    replace rx_store with (snd (run (sop_prog px_enc px_dec px_none (fun _ => mkSticky "x" None) (SStick 0 "one")) empty_store)) by (vm_compute; reflexivity). rewrite R. exact W. }
  split; [exact W|]. split; [now apply Pl|]. split; [reflexivity|]. split; [eexists; split; [reflexivity|vm_compute; reflexivity]|]. split.
  { intro i. destruct i as [|[|[|i]]]; repeat constructor; cbn; now apply Pl. }
  split; [reflexivity|]. split; [exact rx_happens|]. split; [vm_compute; reflexivity|]. split; [|vm_compute; reflexivity].
  assert (E : board_run px_enc (mkBoard (Some "one") (fun _ => None)) (calls rx_todo [1; 0; 2; 0; 1; 1; 1; 2]) =
    ([YRead (Some "one"); YDone (Ok tt); YDone (Exc ValueError); YRead (Some "two"); YDone (Ok tt); YRead (Some "six"); YRead (Some "six"); YRead (Some "six")],
     snd (board_run px_enc (mkBoard (Some "one") (fun _ => None)) (calls rx_todo [1; 0; 2; 0; 1; 1; 1; 2])))) by reflexivity.
  unfold explains. rewrite E. split; [reflexivity|]. split; [exists "six"; split; [reflexivity|]; eexists; split; [reflexivity|vm_compute; reflexivity]|].
  intro i. cbv zeta. left. destruct i as [|[|[|i]]]; [vm_compute; reflexivity..|]. symmetry. apply rx_idle. lia.
Qed.

(** ** What the hypotheses are for *)

(** Two processes sticking where nothing is posted yet, a third reading. *)
Definition ry_todo (i : nat) : list (uop string) :=
  match i with 0 => [UStick "two"] | 1 => [UStick "six"] | 2 => [URead true] | _ => [] end.
Definition ry_end (sched : list nat) : uconfig string :=
  uturns px_enc px_dec px_none sched (beginning "x" (fun _ => None) ry_todo empty_store).
(** One closing meanwhile. *)
Definition rz_todo (i : nat) : list (uop string) :=
  match i with 0 => [UStick "two"] | 1 => [UClose] | _ => [] end.
Definition rz_end (sched : list nat) : uconfig string :=
  uturns px_enc px_dec px_none sched (beginning "x" (fun _ => None) rz_todo rx_store).

(** The first value is not posted atomically: a stick of the same length may
    be refused, a read may give what zeros decode to, or fail on a block of no length; and a
    value stuck while another closes is lost, though the stick succeeds. *)
Theorem C97_first_stick_refuted :
  (exists sched, u_results (fst (ry_end sched) 0) = [YDone (Ok tt)] /\ u_results (fst (ry_end sched) 1) = [YDone (Exc ValueError)] /\
     width px_enc "two" = width px_enc "six") /\
  (exists sched w, u_results (fst (ry_end sched) 2) = [YRead (Some w)] /\ w <> "two" /\ w <> "six") /\
  (exists sched, u_now (fst (ry_end sched) 2) = Some (Raise ValueError) /\ content (snd (ry_end sched)) "x" = Some "") /\
  (exists sched, u_results (fst (rz_end sched) 0) = [YDone (Ok tt)] /\ u_results (fst (rz_end sched) 1) = [YDone (Ok tt)] /\ names (snd (rz_end sched)) "x" = None).
Proof.
  split; [exists (repeat 0 2 ++ repeat 1 5 ++ repeat 0 5); repeat split; vm_compute; reflexivity|].
  split; [exists (repeat 0 4 ++ repeat 2 5); eexists; split; [vm_compute; reflexivity|split; discriminate]|].
  split; [exists (repeat 0 2 ++ repeat 2 4); split; vm_compute; reflexivity|].
  exists (repeat 0 4 ++ repeat 1 6 ++ repeat 0 3). repeat split; vm_compute; reflexivity.
Qed.
Print Assumptions C97_first_stick_refuted.
