(** C101: what a parent can do with a child process. *)
From Coq Require Import Lia.
From Verif Require Import Pipe_Proofs Tutil_Props.
Open Scope Z_scope.

(** ** C101: joining and receiving *)

(** If something is sent, the parent gets through, on every schedule, if it receives
    at most once and what is sent fits or it does not begin by joining; it has then
    received it if it was to. *)
Theorem C101_passes : forall obj (dumps : obj -> res (list byte_)) loads exn_obj cap r b, pickled dumps exn_obj r b -> forall l, 1 <= cap ->
  passes cap (size (frame b)) l ->
  surely (pstep dumps loads exn_obj cap (Some r)) (through (if (receives l =? 0)%nat then [] else [loads b])) (begun l).
Proof. exact @parent_passes. Qed.
Print Assumptions C101_passes.
(** Otherwise it does not, on any schedule. *)
Theorem C101_hangs : forall obj (dumps : obj -> res (list byte_)) loads exn_obj cap r b, pickled dumps exn_obj r b -> forall l, 1 <= cap ->
  ~ passes cap (size (frame b)) l -> surely (pstep dumps loads exn_obj cap (Some r)) not_through (begun l).
Proof. exact @parent_hangs. Qed.
Print Assumptions C101_hangs.
(** So receiving first always works, whatever the size. *)
Theorem C101_receive_first : forall obj (dumps : obj -> res (list byte_)) loads exn_obj cap r b, pickled dumps exn_obj r b -> 1 <= cap ->
  surely (pstep dumps loads exn_obj cap (Some r)) (through [loads b]) (begun [Recv; Join]).
Proof. intros. apply (parent_passes dumps loads exn_obj cap r b H [Recv; Join] H0). split; [cbn; lia|now right]. Qed.
Print Assumptions C101_receive_first.

(** If nothing is sent, it gets through just when it does not receive; the child
    ends. *)
Theorem C101_silent : forall obj (dumps : obj -> res (list byte_)) loads exn_obj cap r l, ~ (exists b, pickled dumps exn_obj r b) -> receives l = 0%nat ->
  surely (pstep dumps loads exn_obj cap (Some r)) (fun s => through [] s /\ p_ch s = Ended) (begun l).
Proof. exact @silent_passes. Qed.
Print Assumptions C101_silent.
Theorem C101_silent_hangs : forall obj (dumps : obj -> res (list byte_)) loads exn_obj cap r l, ~ (exists b, pickled dumps exn_obj r b) -> (0 < receives l)%nat ->
  surely (pstep dumps loads exn_obj cap (Some r)) (fun s => not_through s /\ p_ch s = Ended) (begun l).
Proof. exact @silent_hangs. Qed.
Print Assumptions C101_silent_hangs.
(** If the function does not return, neither does anything the parent waits for. *)
Theorem C101_endless : forall obj (dumps : obj -> res (list byte_)) loads exn_obj cap l, l <> [] ->
  surely (pstep dumps loads exn_obj cap None) not_through (begun l).
Proof. exact @endless_hangs. Qed.
Print Assumptions C101_endless.

(** With [block] True, then, the wrapper returns the result just when it fits. *)
Theorem C101_blocking : forall obj (dumps : obj -> res (list byte_)) loads exn_obj cap r b, pickled dumps exn_obj r b -> 1 <= cap ->
  (size (frame b) <= cap -> surely (pstep dumps loads exn_obj cap (Some r)) (through [loads b]) (begun (wrapper_acts (VAtom (KBool true))))) /\
  (cap < size (frame b) -> surely (pstep dumps loads exn_obj cap (Some r)) not_through (begun (wrapper_acts (VAtom (KBool true))))).
Proof.
  intros. split; intro F.
  - apply (parent_passes dumps loads exn_obj cap r b H [Join; Recv] H0). split; [cbn; lia|now left].
  - apply (parent_hangs dumps loads exn_obj cap r b H [Join; Recv] H0). intros [_ [G|G]]; [lia|exact G].
Qed.
Print Assumptions C101_blocking.
(** With [block] anything but True, also 1, the wrapper returns at once. *)
Theorem C101_wrapper : forall block, block <> VAtom (KBool true) -> wrapper_acts block = [] /\ forall obj, through [] (@begun obj (wrapper_acts block)).
Proof.
  intros block H. assert (E : wrapper_acts block = []) by (destruct block as [k| | |]; try reflexivity; destruct k as [|b| | | ]; try reflexivity; destruct b; [congruence|reflexivity]). split; [exact E|].
  intro obj. unfold through. rewrite E. reflexivity.
Qed.
Print Assumptions C101_wrapper.
(** ... and nobody receives: the child ends if what it sends fits, else it waits
    for ever, and whoever joins it too. *)
Theorem C101_child_ends : forall obj (dumps : obj -> res (list byte_)) loads exn_obj cap r b, pickled dumps exn_obj r b -> forall l, 1 <= cap ->
  receives l = 0%nat -> size (frame b) <= cap -> surely (pstep dumps loads exn_obj cap (Some r)) (fun s => p_ch s = Ended) (begun l).
Proof. exact @child_ends. Qed.
Print Assumptions C101_child_ends.
Theorem C101_child_waits : forall obj (dumps : obj -> res (list byte_)) loads exn_obj cap r b, pickled dumps exn_obj r b -> forall l, 1 <= cap ->
  receives l = 0%nat -> cap < size (frame b) ->
  surely (pstep dumps loads exn_obj cap (Some r)) (fun s => exists y, p_ch s = Sending y /\ y <> [] /\ p_pipe s ++ y = frame b) (begun l).
Proof. exact @child_blocks. Qed.
Print Assumptions C101_child_waits.

(** Closing the process after joining it (as the wrapper does) never fails. *)
Theorem C101_close : forall obj (dumps : obj -> res (list byte_)) loads exn_obj cap o l0 s l1 l2 rs,
  goes_to dumps loads exn_obj cap o (begun l0) s -> p_pa s = At l2 rs -> l0 = l1 ++ l2 -> In Join l1 -> closes s = Ok tt.
Proof. intros. unfold closes. erewrite joined_ended; eauto. Qed.
Print Assumptions C101_close.

(** Three bytes over a pipe of six: joining first hangs, receiving first does not. *)
Example C101_ex_six : pickled ex_dumps (@inr (list Z) exn) (Ok (inl [1; 2; 3])) [1; 2; 3] /\
  ~ passes 6 (size (frame [1; 2; 3])) (wrapper_acts (VAtom (KBool true))) /\ passes 7 (size (frame [1; 2; 3])) (wrapper_acts (VAtom (KBool true))) /\
  passes 6 (size (frame [1; 2; 3])) [Recv; Join] /\ wrapper_acts (VAtom (KInt 1)) = [].
Proof.
  split; [apply C67_fits|]. split; [intros [_ [H|H]]; [cbn in H; lia|exact H]|]. split; [split; [cbn; lia|left; cbn; lia]|]. split; [split; [cbn; lia|right; exact I]|reflexivity].
Qed.
Lemma ex_receives : exists s, goes_to ex_dumps ex_loads inr 7 (Some (Ok (inl [1]))) (begun [Recv]) s /\ p_pa s = At [] [Ok (inl [1])] /\ p_ch s = Sending [].
Proof.
  exists {| p_ch := Sending []; p_pipe := []; p_pa := At [] [Ok (inl [1])] |}. split; [|split; reflexivity].
  eapply Relation_Operators.rt1n_trans; [apply t_call; reflexivity|]. cbn [sent ex_dumps].
  eapply Relation_Operators.rt1n_trans; [exact (t_write ex_dumps ex_loads inr 7 _ [0; 0; 0; 1; 1] [] [] _ ltac:(discriminate) ltac:(cbn; lia))|].
  eapply Relation_Operators.rt1n_trans; [apply t_recv|].
  eapply Relation_Operators.rt1n_trans; [exact (t_read ex_dumps ex_loads inr 7 _ _ [0; 0; 0; 1] [1] [] _ _ ltac:(discriminate) ltac:(cbn; lia))|].
  eapply Relation_Operators.rt1n_trans; [exact (t_read ex_dumps ex_loads inr 7 _ _ [1] [] [0; 0; 0; 1] _ _ ltac:(discriminate) ltac:(cbn; lia))|].
  eapply Relation_Operators.rt1n_trans; [apply t_done; reflexivity|]. apply Relation_Operators.rt1n_refl.
Qed.
(** Having received is not enough to close: the child may not have ended yet. *)
Theorem C101_close_refuted : exists s rs, goes_to ex_dumps ex_loads inr 7 (Some (Ok (inl [1]))) (begun [Recv]) s /\ p_pa s = At [] rs /\ closes s = Exc ValueError.
Proof. destruct ex_receives as (s & G & A & E). exists s. eexists. split; [exact G|]. split; [exact A|]. unfold closes. now rewrite E. Qed.
Print Assumptions C101_close_refuted.
