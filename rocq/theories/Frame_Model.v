(** Model of the dataframe helpers in dustgoggles/pivot.py: dupe_df_block,
    check_and_drop_duplicate_columns, extract_constants, split_on,
    typed_columns, numeric_columns, junction, smash, unpack, unpack_column,
    unique_to_records, squeeze.  Definitions only.

    A frame is an index and named columns.  Cells are a parameter: whether they
    are null, whether two are equal (NaN is not), and their str().
    The pandas operations are those of pandas 2.
    Simplifications: labels are not tuples; cells are not lists (for extract_constants with lists, and
    its TypeError path, see Cells_Model.v); taking a row does not change the
    type of its cells; boolean Series are aligned with the frame; a boolean label of an
    index that is not boolean (a KeyError in .loc) is not told apart.
    itemize_numpy is in Item_Model.v, pdstr in Pdstr_Model.v. *)
From Verif Require Export Py_Model.
Open Scope nat_scope.

Section Frames.
  Context {cell : Type}.
  Context (isna : cell -> bool) (ceq : cell -> cell -> bool) (cstr : cell -> string).

  Record frame := { labels : list key; columns : list (key * list cell) }.

  (** ** pandas *)

  Definition key_in (k : key) (l : list key) : bool := existsb (keqb k) l.
  (** Index.duplicated(): whether an equal label comes before. *)
  Fixpoint dup_from (seen l : list key) : list bool :=
    match l with [] => [] | k :: r => key_in k seen :: dup_from (k :: seen) r end.
  Definition duplicated (l : list key) : list bool := dup_from [] l.
  (** Selection by a boolean mask. *)
  Definition mask {A} (m : list bool) (l : list A) : list A := map snd (filter fst (combine m l)).
  Definition names (df : frame) : list key := map fst (columns df).
  (** df.loc[:, name], df.loc[:, mask], df.loc[mask] *)
  Definition loc_name (df : frame) (n : key) : list (key * list cell) := filter (fun c => keqb (fst c) n) (columns df).
  Definition loc_columns (df : frame) (m : list bool) : frame := {| labels := labels df; columns := mask m (columns df) |}.
  Definition loc_rows (df : frame) (m : list bool) : frame :=
    {| labels := mask m (labels df); columns := map (fun c => (fst c, mask m (snd c))) (columns df) |}.
  (** The cells of row [i]; df.iterrows() *)
  Definition row (df : frame) (i : nat) : list (option cell) := map (fun c => nth_error (snd c) i) (columns df).
  Fixpoint somes {A} (l : list (option A)) : list A :=
    match l with [] => [] | Some x :: r => x :: somes r | None :: r => somes r end.
  (** df.iloc[0].to_dict() *)
  Definition first_row_dict (df : frame) : res (dict cell) :=
    match labels df with
    | [] => Exc IndexError
    | _ => Ok (dict_of (somes (map (fun c => option_map (pair (fst c)) (nth_error (snd c) 0)) (columns df))))
    end.

  (** ** pivot.py:44-56 check_and_drop_duplicate_columns *)

  Definition check_and_drop (df : frame) : res frame :=
    let extra := mask (duplicated (names df)) (names df) in
    match extra with
    | [] => Ok df
    | _ =>
        (* df.loc[:, column] == df.loc[:, column] *)
        if forallb (fun n => forallb (fun c => forallb (fun v => ceq v v) (snd c)) (loc_name df n)) extra
        then Ok (loc_columns df (map negb (duplicated (names df))))
        else Exc ValueError
    end.

  (** ** pivot.py:59-109 extract_constants *)

  Inductive how := HowRows | HowColumns | HowOther.
  (** pivot.py:85-86 *)
  Definition constant_series (dropna : bool) (s : list cell) : bool :=
    match (if dropna then filter (fun v => negb (isna v)) s else s) with
    | [] => true
    | v :: r => forallb (fun x => ceq x v) (v :: r)
    end.
  (** [constant_indices.loc[ix] = True] for each constant one sets all with the
      same label. *)
  Definition constant_flags (dropna : bool) (l : list (key * list cell)) : list bool :=
    let found := map fst (filter (fun c => constant_series dropna (snd c)) l) in
    map (fun c => key_in (fst c) found) l.
  Definition rows_of (df : frame) : list (key * list cell) :=
    map (fun i => (snd i, somes (row df (fst i)))) (combine (seq 0 (List.length (labels df))) (labels df)).

  Inductive constants := AsDict (d : dict cell) | AsFrame (df : frame).
  Definition extract_constants (df : frame) (to_dict drop_constants : bool) (h : how) (dropna : bool) : res (constants * frame) :=
    match h with
    | HowOther => Exc ValueError
    | _ =>
        let parts :=
          match h with
          | HowColumns => let m := constant_flags dropna (rows_of df) in (loc_rows df m, loc_rows df (map negb m))
          | _ => let m := constant_flags dropna (columns df) in (loc_columns df m, loc_columns df (map negb m))
          end in
        c <- (if to_dict then d <- first_row_dict (fst parts) ;; Ok (AsDict d) else Ok (AsFrame (fst parts))) ;;
        Ok (c, if drop_constants then snd parts else df)
    end.

  (** ** pivot.py:112-115 split_on *)

  Definition split_on (df : frame) (predicate : list bool) : frame * frame :=
    (loc_rows df predicate, loc_rows df (map negb predicate)).

  (** ** pivot.py:32-39 dupe_df_block *)

  Definition repeat_each {A} (n : nat) (l : list A) : list A := flat_map (fun x => repeat x n) l.
  Definition dupe_df_block (df : frame) (repeats : Z) : res frame :=
    if (repeats <? 0)%Z then Exc ValueError
    else let n := Z.to_nat repeats in
         Ok {| labels := map (fun i => KInt (Z.of_nat i)) (seq 0 (List.length (labels df) * n));
               columns := map (fun c => (fst c, repeat_each n (snd c))) (columns df) |}.

  (** ** pivot.py:335-358 squeeze *)

  (** A Series that is not boolean, without aggfunc: the first of each label. *)
  Definition squeeze_first {V} (s : list (key * V)) : list (key * V) := mask (map negb (duplicated (map fst s))) s.

  (** pivot.py:348-358: pivot_table.  Labels are sorted and null labels left
      out; so are those whose aggregate is null.  [agg] gets the values of a
      label in order.  An empty Series and names that collide are not modelled. *)
  Section Aggregate.
    Context {L V : Type} (lleb leqb : L -> L -> bool) (lnull : L -> bool) (vnull : V -> bool).
    Fixpoint insert_label (k : L) (l : list L) : list L :=
      match l with
      | [] => [k]
      | h :: r => if leqb k h then l else if lleb k h then k :: l else h :: insert_label k r
      end.
    Definition group_labels (s : list (L * V)) : list L :=
      fold_left (fun acc p => if lnull (fst p) then acc else insert_label (fst p) acc) s [].
    Definition values_at (s : list (L * V)) (k : L) : list V := map snd (filter (fun p => leqb (fst p) k) s).
    Definition squeeze_agg (agg : list V -> V) (s : list (L * V)) : list (L * V) :=
      filter (fun p => negb (vnull (snd p))) (map (fun k => (k, agg (values_at s k))) (group_labels s)).
  End Aggregate.
  (** Boolean Series: aggfunc is "any". *)
  Definition squeeze_bool {L} (lleb leqb : L -> L -> bool) (lnull : L -> bool) (s : list (L * bool)) : list (L * bool) :=
    squeeze_agg lleb leqb lnull (fun _ => false) (existsb (fun b => b)) s.

  (** ** pivot.py:292-295 junction *)

  Inductive set_method := Difference | Intersection | Union | SymmetricDifference | NoSuchMethod.
  (** Distinct rows without nulls, in some order; only membership matters. *)
  Fixpoint row_eqb (a b : list cell) : bool :=
    match a, b with
    | [], [] => true
    | x :: r, y :: t => ceq x y && row_eqb r t
    | _, _ => false
    end.
  Definition row_in (r : list cell) (l : list (list cell)) : bool := existsb (row_eqb r) l.
  Fixpoint distinct (l : list (list cell)) : list (list cell) :=
    match l with
    | [] => []
    | r :: t => let d := distinct t in if row_in r d then d else r :: d
    end.
  (** df[columns].value_counts().index.to_list(), up to order *)
  Definition value_keys (l : list (list cell)) : list (list cell) :=
    distinct (filter (fun r => forallb (fun v => negb (isna v)) r) l).
  Definition set_op (m : set_method) (a b : list (list cell)) : res (list (list cell)) :=
    match m with
    | Difference => Ok (filter (fun r => negb (row_in r b)) a)
    | Intersection => Ok (filter (fun r => row_in r b) a)
    | Union => Ok (a ++ filter (fun r => negb (row_in r a)) b)
    | SymmetricDifference => Ok (filter (fun r => negb (row_in r b)) a ++ filter (fun r => negb (row_in r a)) b)
    | NoSuchMethod => Exc AttributeError
    end.
  (** [df[list(columns)]] is a KeyError if a column is missing. *)
  Definition select_rows (df : frame) (cols : list key) : res (list (list cell)) :=
    sel <- mapM (fun n => match loc_name df n with [] => Exc KeyError | l => Ok l end) cols ;;
    let sub := {| labels := labels df; columns := List.concat sel |} in
    Ok (map (fun i => somes (row sub i)) (seq 0 (List.length (labels df)))).
  Definition junction (df1 df2 : frame) (cols : list key) (m : set_method) : res (list (list cell)) :=
    r1 <- select_rows df1 cols ;; r2 <- select_rows df2 cols ;;
    set_op m (value_keys r1) (value_keys r2).

  (** pivot.py:325-332 unique_to_records; [arrange] is the order value_counts
      puts them in. *)
  Definition unique_to_records (arrange : list (list cell) -> list (list cell)) (df : frame) (cols : list key) : res (list (dict cell)) :=
    r <- select_rows df cols ;;
    Ok (map (fun vs => dict_of (combine cols vs)) (arrange (value_keys r))).

  (** ** pivot.py:298-307 smash *)

  Definition join_strings (l : list string) : string :=
    match l with [] => "" | s :: r => fold_left (fun x y => (x ++ "_" ++ y)%string) r s end.
  (** isin: nulls are alike *)
  Definition cin (v : cell) (l : list cell) : bool := existsb (fun w => ceq v w || (isna v && isna w)) l.
  (** df.melt(by): for each other column, for each row; a ValueError if a column
      is called "value".  [vals]: rows with all of the [by] cells among them.
      Columns called "variable" or named twice in [by_] are not modelled. *)
  Definition smash (df : frame) (by_ : list key) (vals : option (list cell)) : res (list (string * cell)) :=
    sel <- mapM (fun n => match loc_name df n with [] => Exc KeyError | l => Ok l end) by_ ;;
    let by_cols := List.concat sel in
    let keep := map (fun i => match vals with
                              | None => true
                              | Some vs => forallb (fun v => cin v vs) (somes (row {| labels := labels df; columns := by_cols |} i))
                              end) (seq 0 (List.length (labels df))) in
    let others := filter (fun c => negb (key_in (fst c) by_)) (columns df) in
    let by_rows := mask keep (map (fun i => map cstr (somes (row {| labels := labels df; columns := by_cols |} i))) (seq 0 (List.length (labels df)))) in
    if key_in (KStr "value") (names df) then Exc ValueError else
    Ok (flat_map (fun c => map (fun p => (join_strings (fst p ++ [py_str (fst c)]), snd p)) (combine by_rows (mask keep (snd c)))) others).
End Frames.
Arguments frame : clear implicits.
Arguments AsDict {cell}. Arguments AsFrame {cell}.

(** ** pivot.py:130-145 typed_columns, numeric_columns *)

Section Typed.
  Context {column : Type}.
  (** str.lower(), ASCII *)
  Definition lower_char (c : ascii) : ascii :=
    let n := nat_of_ascii c in if Nat.leb 65 n && Nat.leb n 90 then ascii_of_nat (n + 32) else c.
  Fixpoint lower (s : string) : string :=
    match s with EmptyString => EmptyString | String c r => String (lower_char c) (lower r) end.
  (** re.match of alternatives that are plain text, at the start; an empty
      pattern matches. *)
  Definition matches (typenames : list string) (s : string) : bool :=
    match typenames with [] => true | _ => existsb (fun t => prefix t s) typenames end.
  Definition matches_u (typenames : list string) (s : string) : bool :=
    matches typenames s || match s with String "u" r => matches typenames r | _ => false end.

  (** A frame: named columns with the name of their type; or a Series with a
      numpy type. *)
  Record typed := { t_name : key; t_type : string; t_data : column }.
  (** [df[labels]]: all columns with each label in turn. *)
  Definition typed_columns (df : list typed) (typenames : list string) : list typed :=
    let pattern := map lower typenames in
    let labels := map t_name (filter (fun c => matches_u pattern (lower (t_type c))) df) in
    flat_map (fun n => filter (fun c => keqb (t_name c) n) df) labels.
  (** The Series, or an empty frame. *)
  Definition typed_series (s : typed) (typenames : list string) : option typed :=
    if matches (map lower typenames) (lower (t_type s)) then Some s else None.
  Definition numeric_columns (df : list typed) : list typed := typed_columns df ["int"; "float"].
End Typed.

(** ** pivot.py:310-322 unpack, unpack_column *)

Section Unpack.
  Context {cell : Type} (none : cell).
  (** A column of lists, None where null. *)
  Definition width (l : list (list cell)) : nat := fold_right Nat.max 0 (map (@List.length cell) l).
  Definition pad (n : nat) (l : list cell) : list cell := l ++ repeat none (n - List.length l).
  (** pivot.py:310-315: the index without nulls, and columns name_0, name_1, ... *)
  Definition unpack (name : string) (s : list (key * option (list cell))) : list key * list (string * list cell) :=
    let dropped := somes (map (fun p => option_map (pair (fst p)) (snd p)) s) in
    let n := width (map snd dropped) in
    (map fst dropped,
     map (fun i => ((name ++ "_" ++ str_of_Z (Z.of_nat i))%string, map (fun p => nth i (pad n (snd p)) none) dropped)) (seq 0 n)).
  (** pivot.py:318-322 unpack_column: the other columns, and the packed one.
      [.loc] writes into the argument, adding columns it lacks ([nan] elsewhere);
      values go to equal labels.  Labels are distinct. *)
  Context (nan : cell).
  Record packed := { p_index : list key; p_others : list (string * list cell); p_col : list (option (list cell)) }.
  Definition cell_at (ix : list key) (col : list cell) (k : key) : option cell :=
    option_map snd (find (fun p => keqb (fst p) k) (combine ix col)).
  Definition overwrite (ix : list key) (old : list cell) (uix : list key) (new : list cell) : list cell :=
    map (fun p => match cell_at uix new (fst p) with Some v => v | None => snd p end) (combine ix old).
  Fixpoint set_column (ix uix : list key) (name : string) (new : list cell) (l : list (string * list cell)) : list (string * list cell) :=
    match l with
    | [] => [(name, overwrite ix (repeat nan (List.length ix)) uix new)]
    | c :: r => if String.eqb (fst c) name then (name, overwrite ix (snd c) uix new) :: r else c :: set_column ix uix name new r
    end.
  (** The result (without the packed column), and the argument afterwards. *)
  Definition unpack_column (df : packed) (colname : string) : (list key * list (string * list cell)) * packed :=
    let u := unpack colname (combine (p_index df) (p_col df)) in
    let cols := fold_left (fun l c => set_column (p_index df) (fst u) (fst c) (snd c) l) (snd u) (p_others df) in
    ((p_index df, cols), {| p_index := p_index df; p_others := cols; p_col := p_col df |}).
End Unpack.
