(** Model of dustgoggles/mosaic.py: parquet_metadata_records, read_between,
    sort_chunked.  Definitions only.

    A parquet file is its row groups, each with its rows and the metadata of
    each column.  Numbers are a parameter: exact ones and IEEE doubles are
    below.  Simplifications: reading, concatenating and writing tables of one
    schema do not fail; schema is given; sorting is stable with nulls last;
    what is printed is dropped (read_between never uses its argument
    [columns], which is where sort_chunked passes [verbose]); inline_processor
    has no effects.  The tables of metadata are in Summary_Model. *)
From Coq Require Import QArith SpecFloat.
From Verif Require Export Float_Model.
Open Scope nat_scope.

Section Mosaic.
  Context {num row : Type}.
  (** [a <= b] and [a < b], false if either is NaN. *)
  Context (leb ltb : num -> num -> bool).
  (** [a + 1] *)
  Context (add1 : num -> num).
  (** numpy.linspace, for at least one number. *)
  Context (linspace : num -> num -> nat -> list num).
  (** The value of the sorting column, None if null. *)
  Context (key_of : row -> option num).

  (** ** Files and their metadata *)

  (** Statistics of a column in a row group: min and max, None if there are no
      values. *)
  Record stats := { s_min : option num; s_max : option num }.
  (** A column's path, and its statistics if there are any. *)
  Record colmeta := { path : string; statistics : option stats }.
  Record group := { rows : list row; cols : list colmeta }.
  Definition file := list group.

  Record record := { r_path : string; r_min : option num; r_max : option num; row_group : nat; col_ix : nat }.

  (** mosaic.py:28-31: [record |= None] if there are no statistics. *)
  Definition record_of (f : file) (c g : nat) : res record :=
    match nth_error f g with
    | None => Exc IndexError
    | Some gr =>
        match nth_error (cols gr) c with
        | None => Exc IndexError
        | Some m =>
            match statistics m with
            | None => Exc TypeError
            | Some s => Ok {| r_path := path m; r_min := s_min s; r_max := s_max s; row_group := g; col_ix := c |}
            end
        end
    end.

  (** mosaic.py:22-32 parquet_metadata_records; num_columns is that of the
      schema. *)
  Definition parquet_metadata_records (num_columns : nat) (f : file) : res (list record) :=
    mapM (fun cg => record_of f (fst cg) (snd cg)) (list_prod (seq 0 num_columns) (seq 0 (List.length f))).

  (** ** mosaic.py:95-119 read_between *)

  (** [not ((rec["min"] > bounds[1]) or (rec["max"] < bounds[0]))] *)
  Definition in_bounds (lo hi : num) (r : record) : res bool :=
    match r_min r with
    | None => Exc TypeError
    | Some mn =>
        if ltb hi mn then Ok false
        else match r_max r with
             | None => Exc TypeError
             | Some mx => Ok (negb (ltb mx lo))
             end
    end.
  (** pac.filter keeps the rows where the condition is true, not null. *)
  Definition select (p : num -> bool) (l : list row) : list row :=
    filter (fun r => match key_of r with Some v => p v | None => false end) l.
  Definition read_bounded (f : file) (lo hi : num) (r : record) : res (list row) :=
    match nth_error f (row_group r) with
    | None => Exc IndexError
    | Some g => Ok (select (fun v => leb lo v) (select (fun v => ltb v hi) (rows g)))
    end.
  Definition read_between (f : file) (lo hi : num) (meta : list record) : res (option (list row)) :=
    bound <- filterM (in_bounds lo hi) meta ;;
    match bound with
    | [] => Ok None
    | _ => groups <- mapM (read_bounded f lo hi) bound ;; Ok (Some (List.concat groups))
    end.

  (** ** mosaic.py:122-173 sort_chunked *)

  Inductive direction := Ascending | Descending | OtherDirection.

  (** Table.sort_by: stable, nulls (and NaN) last. *)
  Definition before (d : direction) (a b : row) : bool :=
    match key_of a, key_of b with
    | Some x, Some y => match d with Descending => leb y x | _ => leb x y end
    | Some _, None => true
    | None, None => true
    | None, Some _ => false
    end.
  Fixpoint insert_row (d : direction) (a : row) (l : list row) : list row :=
    match l with
    | [] => [a]
    | b :: r => if before d a b then a :: l else b :: insert_row d a r
    end.
  Definition sort_by (d : direction) (l : list row) : res (list row) :=
    match d with
    | OtherDirection => Exc ValueError
    | _ => Ok (fold_right (insert_row d) [] l)
    end.

  (** The builtins max and min on a list of statistics: a None is compared, or
      ends up in linspace. *)
  Definition all_numbers (l : list (option num)) : res (list num) :=
    mapM (fun o => match o with Some v => Ok v | None => Exc TypeError end) l.
  Definition max_of (l : list (option num)) : res num :=
    match l with
    | [] => Exc ValueError
    | _ => vs <- all_numbers l ;;
           match vs with
           | [] => Exc ValueError
           | v :: r => Ok (fold_left (fun m x => if ltb m x then x else m) r v)
           end
    end.
  Definition min_of (l : list (option num)) : res num :=
    match l with
    | [] => Exc ValueError
    | _ => vs <- all_numbers l ;;
           match vs with
           | [] => Exc ValueError
           | v :: r => Ok (fold_left (fun m x => if ltb x m then x else m) r v)
           end
    end.

  (** more_itertools.windowed(l, 2): a single element is paired with None, and
      an empty list has no windows. *)
  Fixpoint windowed2 (l : list num) : list (num * num) :=
    match l with
    | a :: (b :: _) as r => (a, b) :: windowed2 r
    | _ => []
    end.
  (** [windows[-1] = (windows[-1][0], windows[-1][1] + 1)] *)
  Definition widen (ws : list (num * num)) : list (num * num) :=
    match rev ws with
    | (a, b) :: r => rev r ++ [(a, add1 b)]
    | [] => []
    end.
  (** mosaic.py:154-155 *)
  Definition make_windows (lo hi : num) (n_chunks : Z) : res (list (num * num)) :=
    if (n_chunks <? 0)%Z then Exc ValueError
    else if (n_chunks =? 0)%Z then Exc IndexError
    else if (n_chunks =? 1)%Z then Exc TypeError
    else Ok (widen (windowed2 (linspace lo hi (Z.to_nat n_chunks)))).

  (** The output file: the tables written, and whether it was closed. *)
  Record output := { tables : list (list row); closed : bool }.

  (** mosaic.py:157-171, the loop. *)
  Fixpoint write_windows (f : file) (meta : list record) (d : direction)
      (inline : option (list row -> res (list row))) (ws : list (num * num)) (out : list (list row))
      : res unit * list (list row) :=
    match ws with
    | [] => (Ok tt, out)
    | (lo, hi) :: r =>
        match read_between f lo hi meta with
        | Exc e => (Exc e, out)
        | Ok None | Ok (Some []) => write_windows f meta d inline r out
        | Ok (Some t) =>
            match (t' <- sort_by d t ;; match inline with Some p => p t' | None => Ok t' end) with
            | Exc e => (Exc e, out)
            | Ok t' => write_windows f meta d inline r (out ++ [t'])
            end
        end
    end.

  (** The file written, if it was opened at all. *)
  Definition sort_chunked (num_columns : nat) (f : file) (column : string) (d : direction)
      (inline : option (list row -> res (list row))) (n_chunks : Z) : res unit * option output :=
    match parquet_metadata_records num_columns f with
    | Exc e => (Exc e, None)
    | Ok recs =>
        let relevant := filter (fun r => String.eqb (r_path r) column) recs in
        match (mx <- max_of (map r_max relevant) ;; mn <- min_of (map r_min relevant) ;;
               make_windows mn mx n_chunks) with
        | Exc e => (Exc e, Some {| tables := []; closed := false |})
        | Ok ws =>
            let (r, out) := write_windows f relevant d inline ws [] in
            (r, Some {| tables := out; closed := true |})
        end
    end.
End Mosaic.

(** ** Numbers *)

(** Exact: the i-th of n numbers is lo + i (hi - lo) / (n - 1). *)
Definition q_linspace (lo hi : Q) (n : nat) : list Q :=
  map (fun i => lo + inject_Z (Z.of_nat i) * ((hi - lo) / inject_Z (Z.of_nat n - 1)))%Q (seq 0 n).
Definition q_add1 (a : Q) : Q := (a + 1)%Q.

(** Doubles, with the operations of numpy.linspace: arange(n) * step +
    start, with the last replaced by stop; arange(n) / div * delta + start if
    step is zero. *)
Definition f_add1 (a : spec_float) : spec_float := fadd a (f_of_Z 1).
Definition f_linspace (lo hi : spec_float) (n : nat) : list spec_float :=
  let div := f_of_Z (Z.of_nat n - 1) in
  let delta := fsub hi lo in
  let step := fdiv delta div in
  map (fun i =>
         if Nat.eqb (S i) n && Nat.ltb 1 n then hi
         else let x := f_of_Z (Z.of_nat i) in
              if SFeqb step (f_of_Z 0) then fadd (fmul (fdiv x div) delta) lo
              else fadd (fmul x step) lo)
      (seq 0 n).
