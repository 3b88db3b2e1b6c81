(** What extract_constants does with lists in cells. *)
From Verif Require Export Cells_Model Frame_Spec.
Open Scope nat_scope.

Section Nested.
  Context {atom : Type}.
  Context (isna : atom -> bool) (ceq : atom -> atom -> bool).

  (** [s] begins, after nulls that do not count, with [v], and [n] of its cells
      count. *)
  Definition counts (dropna : bool) (c : ncell atom) : bool :=
    match c with NAtom a => negb (dropna && isna a) | NList _ => true end.
  Definition begins (dropna : bool) (s : list (ncell atom)) (v : ncell atom) (n : nat) : Prop :=
    exists a b, s = a ++ v :: b /\ Forall (fun c => counts dropna c = false) a /\ counts dropna v = true /\
      n = List.length (filter (counts dropna) s).

  (** The first cell that counts is a list of any other length than there are
      cells that count. *)
  Definition misfit (dropna : bool) (s : list (ncell atom)) : Prop :=
    exists l n, begins dropna s (NList l) n /\ List.length l <> n.

  (** No cell counts; or all that count are atoms equal to the first of
      them. *)
  Definition plainly_constant (dropna : bool) (s : list (ncell atom)) : Prop :=
    Forall (fun c => counts dropna c = false) s \/
    exists a n, begins dropna s (NAtom a) n /\
      forall c, In c s -> counts dropna c = true -> exists b, c = NAtom b /\ ceq b a = true.

  (** The series that are looked at. *)
  Definition series_of (h : how) (df : frame (ncell atom)) : list (key * list (ncell atom)) :=
    match h with HowColumns => rows_of df | _ => columns df end.
  (** A comparison by which nothing equals a list. *)
  Definition plain_eq (x v : ncell atom) : bool :=
    match x, v with NAtom b, NAtom a => ceq b a | _, _ => false end.
End Nested.
