(** What the dataframe helpers should do. *)
From Verif Require Export Frame_Model.
From Coq Require Export Permutation Sorted.
Open Scope nat_scope.

(** ** Lists *)

(** [l] without some of its members. *)
Inductive part {A} : list A -> list A -> Prop :=
| part_nil : part [] []
| part_keep x a l : part a l -> part (x :: a) (x :: l)
| part_skip x a l : part a l -> part a (x :: l).
(** The first member of each label. *)
Definition labelled {V} (k : key) (p : key * V) : bool := keqb (fst p) k.
Fixpoint distinct_labels (l : list key) : Prop :=
  match l with [] => True | k :: r => Forall (fun x => keqb x k = false) r /\ distinct_labels r end.
Definition firsts {V} (l a : list (key * V)) : Prop :=
  part a l /\ distinct_labels (map fst a) /\ (forall k, find (labelled k) a = find (labelled k) l).
(** Members that satisfy [P], and the others. *)
Inductive sorted_out {A} (P : A -> Prop) : list A -> list A -> list A -> Prop :=
| so_nil : sorted_out P [] [] []
| so_yes x l a b : P x -> sorted_out P l a b -> sorted_out P (x :: l) (x :: a) b
| so_no x l a b : ~ P x -> sorted_out P l a b -> sorted_out P (x :: l) a (x :: b).
(** Members dealt out by a list of booleans. *)
Inductive dealt {A} : list bool -> list A -> list A -> list A -> Prop :=
| de_nil : dealt [] [] [] []
| de_yes x p l a b : dealt p l a b -> dealt (true :: p) (x :: l) (x :: a) b
| de_no x p l a b : dealt p l a b -> dealt (false :: p) (x :: l) a (x :: b).

(** ** Frames *)

Section Cells.
  Context {cell : Type}.
  Context (isna : cell -> bool) (ceq : cell -> cell -> bool).
  Implicit Types (df : frame cell).

  (** Equality of cells: nulls are not equal to anything. *)
  Record cells := {
    c_refl : forall x, ceq x x = negb (isna x);
    c_sym : forall x y, ceq x y = ceq y x;
    c_trans : forall x y z, ceq x y = true -> ceq y z = true -> ceq x z = true
  }.

  Definition rectangular df : Prop := Forall (fun c => List.length (snd c) = List.length (labels df)) (columns df).
  Definition repeated (n : key) (l : list key) : Prop := List.length (filter (keqb n) l) >= 2.

  (** The cells that count are all equal. *)
  Definition counted (dropna : bool) (s : list cell) (v : cell) : Prop := In v s /\ (dropna = true -> isna v = false).
  Definition constant (dropna : bool) (s : list cell) : Prop :=
    forall x y, counted dropna s x -> counted dropna s y -> ceq x y = true.
  (** A column called like [c] (such as [c]) is constant. *)
  Definition constant_name (dropna : bool) (l : list (key * list cell)) (c : key * list cell) : Prop :=
    exists c', In c' l /\ keqb (fst c) (fst c') = true /\ constant dropna (snd c').

  (** Distinct rows without nulls. *)
  Definition full_row (r : list cell) : Prop := Forall (fun v => isna v = false) r.
  Definition same_row (a b : list cell) : Prop := Forall2 (fun x y => ceq x y = true) a b.
  Definition has_row (l : list (list cell)) (r : list cell) : Prop := exists r', In r' l /\ same_row r r'.
  (** The rows of some columns. *)
  Definition cells_at df (cols : list key) (i : nat) (r : list cell) : Prop :=
    Forall2 (fun n v => exists c, find (labelled n) (columns df) = Some c /\ nth_error (snd c) i = Some v) cols r.
  Definition is_row df (cols : list key) (r : list cell) : Prop := exists i, i < List.length (labels df) /\ cells_at df cols i r.
  Definition combination df (cols : list key) (r : list cell) : Prop :=
    full_row r /\ exists r', is_row df cols r' /\ same_row r r'.
  (** No two rows alike. *)
  Definition apart (l : list (list cell)) : Prop := ForallOrdPairs (fun a b => ~ same_row a b) l.
  (** isin: nulls are alike *)
  Definition among (v : cell) (l : list cell) : Prop := exists w, In w l /\ (ceq v w = true \/ (isna v = true /\ isna w = true)).
  Definition set_meaning (m : set_method) (p q : Prop) : Prop :=
    match m with
    | Difference => p /\ ~ q
    | Intersection => p /\ q
    | Union => p \/ q
    | SymmetricDifference => (p /\ ~ q) \/ (q /\ ~ p)
    | NoSuchMethod => False
    end.
End Cells.

(** The labels of an aggregated Series. *)
Section Labels.
  Context {L : Type} (lleb leqb : L -> L -> bool).
  Record total_order := {
    t_eq : forall a b, leqb a b = true <-> a = b;
    t_total : forall a b, lleb a b = true \/ lleb b a = true;
    t_trans : forall a b c, lleb a b = true -> lleb b c = true -> lleb a c = true;
    t_anti : forall a b, lleb a b = true -> lleb b a = true -> a = b
  }.
  Definition increasing : list L -> Prop := StronglySorted (fun a b => lleb a b = true /\ a <> b).
End Labels.

(** ** Types *)

(** The name starts with one of [typenames], or with "u" and one of them. *)
Definition starts (typenames : list string) (s : string) : Prop :=
  typenames = [] \/ exists t rest, In t typenames /\ s = (t ++ rest)%string.
Definition starts_u (typenames : list string) (s : string) : Prop :=
  starts typenames s \/ exists r, s = String "u" r /\ starts typenames r.

(** ** Lists in cells *)

(** The longest list. *)
Definition longest {cell} (ls : list (list cell)) (w : nat) : Prop :=
  (forall l, In l ls -> List.length l <= w) /\ (w = 0 \/ exists l, In l ls /\ List.length l = w).
Definition part_name (name : string) (i : nat) : string := (name ++ "_" ++ str_of_Z (Z.of_nat i))%string.
Definition called {V} (n : string) (c : string * V) : bool := String.eqb (fst c) n.
