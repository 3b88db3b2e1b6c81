(** Model of extract_constants in dustgoggles/pivot.py for frames in which some
    cells are lists, with its handler of TypeError.  Definitions only.

    A cell is an atom (as in Frame_Model.v: a parameter with its comparison) or
    a list of atoms.  The comparison of a Series is that of pandas 2
    (core/ops/array_ops.py comparison_op, _libs/ops.pyx scalar_compare and
    vec_compare).
    Simplifications: those of Frame_Model.v; lists do not hold lists; in the
    handler, columns have distinct names and atoms cannot be turned into tuples
    (text can). *)
From Verif Require Export Frame_Model.
Open Scope nat_scope.

Section Nested.
  Context {atom : Type}.
  Context (isna : atom -> bool) (ceq : atom -> atom -> bool).

  Inductive ncell := NAtom (a : atom) | NList (l : list atom).
  (** isna() of a Series: lists are not null. *)
  Definition nested_na (c : ncell) : bool := match c with NAtom a => isna a | NList _ => false end.
  (** ==, of a cell and an atom *)
  Definition equals_atom (a : atom) (c : ncell) : bool := match c with NAtom b => ceq b a | NList _ => false end.

  (** [series == v].  A list is taken for a column of values: its length must
      be that of the Series, and each cell is compared with the member at its
      place. *)
  Definition series_eq (s : list ncell) (v : ncell) : res (list bool) :=
    match v with
    | NAtom a => Ok (map (equals_atom a) s)
    | NList l =>
        if Nat.eqb (List.length s) (List.length l)
        then Ok (map (fun p => equals_atom (snd p) (fst p)) (combine s l))
        else Exc ValueError
    end.

  (** pivot.py:85-86 *)
  Definition constant_nested (dropna : bool) (s : list ncell) : res bool :=
    match (if dropna then filter (fun v => negb (nested_na v)) s else s) with
    | [] => Ok true
    | v :: r => b <- series_eq (v :: r) v ;; Ok (forallb (fun x => x) b)
    end.

  (** pivot.py:84-87: the labels found so far, and the exception that ended the
      loop. *)
  Fixpoint find_constants (dropna : bool) (l : list (key * list ncell)) (found : list key) : list key * option exn :=
    match l with
    | [] => (found, None)
    | (k, s) :: r =>
        match constant_nested dropna s with
        | Ok b => find_constants dropna r (if b : bool then found ++ [k] else found)
        | Exc e => (found, Some e)
        end
    end.

  (** pivot.py:92-98, for one column: tuples are compared as a whole. *)
  Definition tuple_eq (a b : list atom) : bool :=
    Nat.eqb (List.length a) (List.length b) && forallb (fun p => ceq (fst p) (snd p)) (combine a b).
  Definition constant_tuples (s : list ncell) : res bool :=
    match s with
    | [] => Exc IndexError
    | NList l :: _ =>
        ts <- mapM (fun c => match c with NList m => Ok m | NAtom _ => Exc TypeError end) s ;;
        Ok (forallb (tuple_eq l) ts)
    | NAtom a :: _ => Ok (forallb (equals_atom a) s)
    end.
  Fixpoint find_tuples (l : list (key * list ncell)) (found : list key) : res (list key) :=
    match l with
    | [] => Ok found
    | (k, s) :: r => b <- constant_tuples s ;; find_tuples r (if b : bool then found ++ [k] else found)
    end.

  (** pivot.py:59-109 extract_constants *)
  Definition extract_nested (df : frame ncell) (to_dict drop_constants : bool) (h : how) (dropna : bool)
      : res (@constants ncell * frame ncell) :=
    match h with
    | HowOther => Exc ValueError
    | _ =>
        let series := match h with HowColumns => rows_of df | _ => columns df end in
        found <- match find_constants dropna series [] with
                 | (found, None) => Ok found
                 | (found, Some TypeError) =>
                     match h with HowColumns => Exc NotImplementedError | _ => find_tuples (columns df) found end
                 | (_, Some e) => Exc e
                 end ;;
        let m := map (fun c => key_in (fst c) found) series in
        let parts :=
          match h with
          | HowColumns => (loc_rows df m, loc_rows df (map negb m))
          | _ => (loc_columns df m, loc_columns df (map negb m))
          end in
        c <- (if to_dict then d <- first_row_dict (fst parts) ;; Ok (AsDict d) else Ok (AsFrame (fst parts))) ;;
        Ok (c, if drop_constants then snd parts else df)
    end.
End Nested.
Arguments ncell : clear implicits.
