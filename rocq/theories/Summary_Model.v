(** Model of the tables of parquet metadata in dustgoggles/mosaic.py:
    parquet_metadata_records (with all fields), _flatten_meta_df,
    meta_record_df, meta_column_df.  Definitions only.

    Simplifications: cells are null, an int, text or some other value; an int
    or text is not equal to anything else; convert_dtypes keeps all values;
    sums of cells that are not ints are not modelled (here a TypeError); where
    a column is taken by name, only the first of that name is. *)
From Verif Require Export Frame_Model.
Open Scope nat_scope.

Section Summary.
  Context {X : Type} (naX : X -> bool) (eqX : X -> X -> bool).

  Inductive mcell := Na | Int (z : Z) | Txt (s : string) | Other (x : X).
  Definition misna (v : mcell) : bool := match v with Na => true | Other x => naX x | _ => false end.
  Definition mceq (v w : mcell) : bool :=
    match v, w with
    | Int a, Int b => Z.eqb a b
    | Txt a, Txt b => String.eqb a b
    | Other a, Other b => eqX a b
    | _, _ => false
    end.

  (** ** Files *)

  (** What to_dict() of a column in a row group gives: its fields, and its
      field "statistics", if there is one. *)
  Record chunk := { c_fields : dict mcell; c_stats : option (option (dict mcell)) }.
  (** mosaic.py:28-31 *)
  Definition chunk_record (c : chunk) (group_ix col_ix : nat) : res (dict mcell) :=
    record <- match c_stats c with
              | None => Ok (c_fields c)
              | Some None => Exc TypeError
              | Some (Some d) => Ok (dupdate (c_fields c) d)
              end ;;
    Ok (dupdate record [(KStr "row_group", Int (Z.of_nat group_ix)); (KStr "col_ix", Int (Z.of_nat col_ix))]).
  (** mosaic.py:22-32 parquet_metadata_records, for the row groups of a file. *)
  Definition metadata_records (num_columns : nat) (f : list (list chunk)) : res (list (dict mcell)) :=
    mapM (fun cg => match nth_error f (snd cg) with
                    | None => Exc IndexError
                    | Some g => match nth_error g (fst cg) with
                                | None => Exc IndexError
                                | Some c => chunk_record c (snd cg) (fst cg)
                                end
                    end)
      (list_prod (seq 0 num_columns) (seq 0 (List.length f))).

  (** ** pandas *)

  (** pd.DataFrame(records): a column for each key, in the order in which they
      come up; null where a record does not have it. *)
  Definition all_keys (recs : list (dict mcell)) : list key :=
    fold_left (fun seen r => seen ++ filter (fun k => negb (key_in k seen)) (dkeys r)) recs [].
  Definition at_key (k : key) (r : dict mcell) : mcell := match dget r k with Some v => v | None => Na end.
  Definition frame_of (recs : list (dict mcell)) : frame mcell :=
    {| labels := map (fun i => KInt (Z.of_nat i)) (seq 0 (List.length recs));
       columns := map (fun k => (k, map (at_key k) recs)) (all_keys recs) |}.
  (** df[name] *)
  Definition column (df : frame mcell) (n : key) : res (list mcell) :=
    match loc_name df n with [] => Exc KeyError | c :: _ => Ok (snd c) end.
  (** Series.unique() and Series.duplicated().any(): nulls are alike. *)
  Definition alike (v w : mcell) : bool := mceq v w || (misna v && misna w).
  Fixpoint unique (seen s : list mcell) : list mcell :=
    match s with
    | [] => []
    | v :: r => if existsb (alike v) seen then unique seen r else v :: unique (v :: seen) r
    end.
  Fixpoint any_duplicated (s : list mcell) : bool :=
    match s with [] => false | v :: r => existsb (alike v) r || any_duplicated r end.
  (** Series.sum() *)
  Fixpoint total (s : list mcell) : res Z :=
    match s with
    | [] => Ok 0%Z
    | Int z :: r => t <- total r ;; Ok (z + t)%Z
    | v :: r => if misna v then total r else Exc TypeError
    end.
  Fixpoint same_labels (a b : list key) : bool :=
    match a, b with
    | [], [] => true
    | x :: r, y :: t => keqb x y && same_labels r t
    | _, _ => false
    end.
  (** pd.concat(series, axis=1).T: if the labels are not all the same, they are
      put together, and labels that occur twice in a Series are an error. *)
  Definition concat_T (l : list (list (key * mcell))) : res (frame mcell) :=
    match l with
    | [] => Exc ValueError
    | s :: r =>
        let ls := map KInt (map Z.of_nat (seq 0 (List.length l))) in
        if forallb (fun t => same_labels (map fst s) (map fst t)) r
        then Ok {| labels := ls;
                   columns := map (fun jk => (snd jk, map (fun t => nth (fst jk) (map snd t) Na) l))
                                (combine (seq 0 (List.length s)) (map fst s)) |}
        else if existsb (fun t => existsb (fun b => b) (duplicated (map fst t))) l then Exc ValueError
        else Ok {| labels := ls; columns := map (fun k => (k, map (at_key k) l)) (all_keys l) |}
    end.
  (** df.rename(columns=d) *)
  Definition rename (d : list (string * string)) (df : frame mcell) : frame mcell :=
    {| labels := labels df;
       columns := map (fun c => (match find (fun p => keqb (fst c) (KStr (fst p))) d with Some p => KStr (snd p) | None => fst c end, snd c))
                    (columns df) |}.
  (** df.reindex(columns=names) *)
  Definition reindex (ns : list key) (df : frame mcell) : res (frame mcell) :=
    if existsb (fun b => b) (duplicated (names df)) then Exc ValueError
    else Ok {| labels := labels df;
               columns := map (fun n => (n, match loc_name df n with [] => map (fun _ => Na) (labels df) | c :: _ => snd c end)) ns |}.

  (** ** mosaic.py *)

  (** mosaic.py:12-19 *)
  Definition BRIEF_PQ_META_FIELDS : list string :=
    [ "physical_type"; "path_in_schema"; "compression"; "encodings"; "has_dictionary_page"; "col_ix" ].
  (** mosaic.py:46-48 *)
  Definition summed : list string := [ "num_values"; "total_compressed_size"; "total_uncompressed_size" ].

  (** mosaic.py:39-49, for one column. *)
  Definition column_series (meta_df : frame mcell) (paths : list mcell) (extended : bool) (col : mcell) : res (list (key * mcell)) :=
    let col_slice := loc_rows meta_df (map (fun v => mceq v col) paths) in
    ce <- extract_constants misna mceq col_slice true false HowRows true ;;
    let d := match fst ce with AsDict d => d | AsFrame _ => [] end in
    let constants :=
      if extended then d
      else keyfilter (fun k => existsb (fun f => keqb k (KStr f)) BRIEF_PQ_META_FIELDS) d in
    col_stats <- mapM (fun f => s <- column col_slice (KStr f) ;; t <- total s ;; Ok (KStr f, Int t)) summed ;;
    Ok (constants ++ col_stats).
  (** mosaic.py:35-50 _flatten_meta_df *)
  Definition flatten_meta_df (meta_df : frame mcell) (extended : bool) : res (frame mcell) :=
    paths <- column meta_df (KStr "path_in_schema") ;;
    col_series <- mapM (column_series meta_df paths extended) (unique [] paths) ;;
    concat_T col_series.

  (** mosaic.py:60-66 *)
  Definition renamed : list (string * string) :=
    [ ("physical_type", "type"); ("path_in_schema", "column"); ("has_dictionary_page", "dict_page");
      ("total_compressed_size", "comp_size"); ("total_uncompressed_size", "uncomp_size") ].
  (** mosaic.py:70-80 *)
  Definition brief_columns : list string :=
    [ "column"; "type"; "comp_size"; "uncomp_size"; "num_values"; "dict_page"; "encodings"; "compression"; "col_ix" ].
  (** mosaic.py:53-82 meta_record_df *)
  Definition meta_record_df (meta_records : list (dict mcell)) (extended : bool) : res (frame mcell) :=
    let meta_df := frame_of meta_records in
    paths <- column meta_df (KStr "path_in_schema") ;;
    meta_df <- (if any_duplicated paths then flatten_meta_df meta_df extended else Ok meta_df) ;;
    let meta_df := rename renamed meta_df in
    if extended then Ok meta_df else reindex (map KStr brief_columns) meta_df.

  (** A frame turned on its side: the names of its rows, and columns named by
      cells. *)
  Record sideways := { t_rows : list key; t_columns : list (mcell * list mcell) }.
  (** mosaic.py:85-91 meta_column_df *)
  Definition meta_column_df (num_columns : nat) (f : list (list chunk)) (extended : bool) : res sideways :=
    recs <- metadata_records num_columns f ;;
    metadata <- meta_record_df recs extended ;;
    ix <- column metadata (KStr "column") ;;
    Ok {| t_rows := names metadata;
          t_columns := combine ix (map (fun i => somes (row metadata i)) (seq 0 (List.length (labels metadata)))) |}.
End Summary.
Arguments mcell : clear implicits.
Arguments chunk : clear implicits.
Arguments sideways : clear implicits.
