(** What func.py should do, stated without its code. *)
From Verif Require Export Func_Model.
From Verif Require Import Py_Facts.

(** A predicate evaluated without effect. *)
Definition pure_test {W A} (f : A -> eff W bool) (p : A -> bool) : Prop :=
  forall x w, f x w = (Ok (p x), w).

(** An equality test that is an equivalence on hashable elements. *)
Record eq_test {E} (eqb : E -> E -> bool) (hashable : E -> bool) : Prop := {
  eqt_refl : forall x, hashable x = true -> eqb x x = true;
  eqt_sym : forall x y, hashable x = true -> hashable y = true -> eqb x y = true -> eqb y x = true;
  eqt_trans : forall x y z, hashable x = true -> hashable y = true -> hashable z = true ->
    eqb x y = true -> eqb y z = true -> eqb x z = true }.

(** [x] is equal to an element of [l]. *)
Definition occurs {E} (eqb : E -> E -> bool) (x : E) (l : list E) : Prop :=
  exists y, In y l /\ eqb x y = true.

(** The elements an iterable yields when it is iterated over. *)
Definition elements {E} (i : iterable E) : list E :=
  match i with Again l | Once l => l end.
(** Can be iterated over twice. *)
Definition again {E} (i : iterable E) : Prop := exists l, i = Again l.
(** Every element can be hashed. *)
Definition all_hashable {E} (hashable : E -> bool) (its : list (iterable E)) : Prop :=
  forall i x, In i its -> In x (elements i) -> hashable x = true.

(** Length of the shortest of a family of lists. *)
Fixpoint shortest {A} (l : list A) (its : list (list A)) : nat :=
  match its with
  | [] => List.length l
  | m :: r => Nat.min (List.length l) (shortest m r)
  end.
(** The [i]-th row: the [i]-th elements of all lists. *)
Definition row {A} (d : A) (its : list (list A)) (i : nat) : list A := map (fun l => nth i l d) its.

(** What is left of the lists when [n] rounds have been made and one more was
    started: the lists up to the first one of length [n] lose one more
    element. *)
Fixpoint left_over {A} (n : nat) (its : list (list A)) : list (list A) :=
  match its with
  | [] => []
  | l :: r => if Nat.eqb (List.length l) n then [] :: map (skipn n) r
              else skipn (S n) l :: left_over n r
  end.
