(** When a parent gets through what it does with a child process. *)
From Verif Require Export Pipe_Model Tutil_Spec.
Open Scope Z_scope.

Definition receives (l : list act) : nat := List.length (filter (fun a => match a with Recv => true | Join => false end) l).
(** Something is sent that takes [n] bytes: received at most once, and not waited for
    before unless it fits. *)
Definition passes (cap n : Z) (l : list act) : Prop :=
  (receives l <= 1)%nat /\ (n <= cap \/ match l with Join :: _ => False | _ => True end).
(** The parent is through, having received these. *)
Definition through {obj} (rs : list (res obj)) (s : psystem obj) : Prop := p_pa s = At [] rs.
Definition not_through {obj} (s : psystem obj) : Prop := forall rs, p_pa s <> At [] rs.
