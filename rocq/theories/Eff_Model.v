(** Calls of Python functions that may have effects: a call takes the state of
    the world it runs in, and yields its result and the state afterwards.
    Nothing here comes from /repo.  Definitions only. *)
From Verif Require Export Py_Model.

Definition eff (W A : Type) : Type := W -> res A * W.

Definition eret {W A} (a : A) : eff W A := fun w => (Ok a, w).
Definition eraise {W A} (e : exn) : eff W A := fun w => (Exc e, w).
Definition eof {W A} (r : res A) : eff W A := fun w => (r, w).

(** [x = m; k(x)] *)
Definition ebind {W A B} (m : eff W A) (k : A -> eff W B) : eff W B :=
  fun w => match m w with
           | (Ok a, w') => k a w'
           | (Exc e, w') => (Exc e, w')
           end.

(** [try: return m; except BaseException as e: h(e)] *)
Definition ecatch {W A} (m : eff W A) (h : exn -> eff W A) : eff W A :=
  fun w => match m w with
           | (Ok a, w') => (Ok a, w')
           | (Exc e, w') => h e w'
           end.

Notation "x <~ m ;; k" := (ebind m (fun x => k))
  (at level 60, m at next level, right associativity) : py_scope.

(** A loop over a list collecting results, left to right. *)
Fixpoint emapM {W A B} (f : A -> eff W B) (l : list A) : eff W (list B) :=
  match l with
  | [] => eret []
  | x :: r => y <~ f x ;; ys <~ emapM f r ;; eret (y :: ys)
  end.

(** A loop over a list updating a value. *)
Fixpoint efoldM {W A S} (f : S -> A -> eff W S) (l : list A) (s : S) : eff W S :=
  match l with
  | [] => eret s
  | x :: r => s' <~ f s x ;; efoldM f r s'
  end.
