(** C61-C63, C69-C72: the dataframe helpers in pivot.py. *)
From Coq Require Import Lia.
From Verif Require Import Frame_Unpack.
Open Scope nat_scope.

(** Cells for the examples: integers, and None for a null. *)
Definition ex_na (v : option Z) : bool := match v with None => true | _ => false end.
Definition ex_eq (a b : option Z) : bool := match a, b with Some x, Some y => Z.eqb x y | _, _ => false end.
Definition ex_str (v : option Z) : string := match v with Some z => str_of_Z z | None => "nan" end.
Example ex_cells : cells ex_na ex_eq.
Proof.
  constructor.
  - intros [x|]; [cbn; apply Z.eqb_refl|reflexivity].
  - intros [x|] [y|]; cbn; try reflexivity. apply Z.eqb_sym.
  - intros [x|] [y|] [z|]; cbn; try discriminate. rewrite !Z.eqb_eq. congruence.
Qed.
Definition ex_df : frame (option Z) :=
  {| labels := [KStr "r"; KStr "s"; KStr "t"];
     columns := [(KStr "a", [Some 1; Some 2; Some 1]%Z); (KStr "b", [Some 5; None; Some 5]%Z); (KStr "c", [None; None; Some 7]%Z)] |}.
Example ex_shaped : rectangular ex_df /\ distinct_labels (names ex_df) /\ labels ex_df <> [].
Proof. split; [repeat constructor|]. split; [cbn; repeat constructor|discriminate]. Qed.

(** ** C61: duplicate columns *)

Theorem C61_first_columns : forall cell (ceq : cell -> cell -> bool) df df', check_and_drop ceq df = Ok df' ->
  labels df' = labels df /\ firsts (columns df) (columns df').
Proof. exact @check_ok. Qed.
Print Assumptions C61_first_columns.

(** It raises exactly if a column with a repeated name has a null. *)
Theorem C61_raises_iff : forall cell isna (ceq : cell -> cell -> bool), cells isna ceq -> forall df e,
  check_and_drop ceq df = Exc e <->
  e = ValueError /\ exists c v, In c (columns df) /\ repeated (fst c) (names df) /\ In v (snd c) /\ isna v = true.
Proof. exact @check_raises. Qed.
Print Assumptions C61_raises_iff.

Theorem C61_distinct : forall cell (ceq : cell -> cell -> bool) df, distinct_labels (names df) -> check_and_drop ceq df = Ok df.
Proof. exact @check_distinct. Qed.
Print Assumptions C61_distinct.

(** Equal names with different values are not noticed. *)
Theorem C61_different_refuted : exists df df' a b : frame (option Z),
  columns df = columns a ++ columns b /\ names a = names b /\ columns a <> columns b /\ check_and_drop ex_eq df = Ok df' /\ columns df' = columns a.
Proof.
  exists {| labels := [KInt 0]; columns := [(KStr "x", [Some 1%Z]); (KStr "x", [Some 2%Z])] |},
         {| labels := [KInt 0]; columns := [(KStr "x", [Some 1%Z])] |},
         {| labels := [KInt 0]; columns := [(KStr "x", [Some 1%Z])] |},
         {| labels := [KInt 0]; columns := [(KStr "x", [Some 2%Z])] |}.
  split; [reflexivity|]. split; [reflexivity|]. split; [discriminate|]. split; reflexivity.
Qed.
Print Assumptions C61_different_refuted.

Example C61_first : check_and_drop ex_eq {| labels := [KInt 0]; columns := [(KStr "x", [Some 1%Z]); (KStr "y", [None]); (KStr "x", [Some 1%Z])] |} =
  Ok {| labels := [KInt 0]; columns := [(KStr "x", [Some 1%Z]); (KStr "y", [None])] |}.
Proof. reflexivity. Qed.
Example C61_null : check_and_drop ex_eq {| labels := [KInt 0]; columns := [(KStr "x", [None]); (KStr "x", [None])] |} = Exc ValueError.
Proof. reflexivity. Qed.

(** ** C62: extract_constants *)

(** how="rows", as frames: the columns with a constant one of their name. *)
Theorem C62_frames : forall cell isna (ceq : cell -> cell -> bool), cells isna ceq -> forall df drop dropna, exists a b,
  extract_constants isna ceq df false drop HowRows dropna = Ok (AsFrame a, if drop then b else df) /\
  labels a = labels df /\ labels b = labels df /\
  sorted_out (constant_name isna ceq dropna (columns df)) (columns df) (columns a) (columns b).
Proof. exact @constants_frames. Qed.
Print Assumptions C62_frames.

(** As a dict: each constant column with its first cell. *)
Theorem C62_dict : forall cell isna (ceq : cell -> cell -> bool), cells isna ceq -> forall df drop dropna,
  rectangular df -> labels df <> [] -> distinct_labels (names df) -> exists d cs vs,
  extract_constants isna ceq df true drop HowRows dropna = Ok (AsDict d, if drop then {| labels := labels df; columns := vs |} else df) /\
  sorted_out (fun c => constant isna ceq dropna (snd c)) (columns df) cs vs /\
  Forall2 (fun p c => fst p = fst c /\ nth_error (snd c) 0 = Some (snd p)) d cs.
Proof. exact @constants_dict. Qed.
Print Assumptions C62_dict.

(** A value that is not null is that of all cells that count. *)
Theorem C62_value : forall cell isna (ceq : cell -> cell -> bool), cells isna ceq -> forall dropna df k v d drop r,
  rectangular df -> distinct_labels (names df) -> extract_constants isna ceq df true drop HowRows dropna = Ok (AsDict d, r) ->
  In (k, v) d -> isna v = false ->
  exists s, In (k, s) (columns df) /\ constant isna ceq dropna s /\ (forall y, counted isna dropna s y -> ceq y v = true).
Proof. exact @constants_value. Qed.
Print Assumptions C62_value.

(** The value is null if the first cell is, whatever the constant. *)
Theorem C62_null_refuted : exists d r, extract_constants ex_na ex_eq ex_df true false HowRows true = Ok (AsDict d, r) /\
  In (KStr "c", None) d /\ In (KStr "c", [None; None; Some 7%Z]) (columns ex_df).
Proof. eexists _, _. split; [reflexivity|]. split; cbn; auto. Qed.
Print Assumptions C62_null_refuted.

Theorem C62_no_rows : forall cell isna (ceq : cell -> cell -> bool) df drop dropna, labels df = [] ->
  extract_constants isna ceq df true drop HowRows dropna = Exc IndexError.
Proof. exact @constants_no_rows. Qed.
Print Assumptions C62_no_rows.

Theorem C62_how : forall cell isna (ceq : cell -> cell -> bool) df to_dict drop dropna,
  extract_constants isna ceq df to_dict drop HowOther dropna = Exc ValueError.
Proof. exact @constants_how. Qed.
Print Assumptions C62_how.

(** how="columns": constant rows; as a dict, only the first of them, by column. *)
Theorem C62_columns : forall cell isna (ceq : cell -> cell -> bool), cells isna ceq -> forall df drop dropna, rectangular df -> exists a b,
  extract_constants isna ceq df false drop HowColumns dropna = Ok (AsFrame a, if drop then b else df) /\
  names a = names df /\ names b = names df /\
  sorted_out (constant_name isna ceq dropna (rows_of df)) (rows_of df) (rows_of a) (rows_of b).
Proof. exact @constants_columns. Qed.
Print Assumptions C62_columns.

Theorem C62_columns_dict : forall cell isna (ceq : cell -> cell -> bool), cells isna ceq -> forall df drop dropna,
  rectangular df -> distinct_labels (names df) -> exists a b,
  sorted_out (constant_name isna ceq dropna (rows_of df)) (rows_of df) (rows_of a) (rows_of b) /\
  extract_constants isna ceq df true drop HowColumns dropna =
    match rows_of a with
    | [] => Exc IndexError
    | r :: _ => Ok (AsDict (combine (names df) (snd r)), if drop then b else df)
    end.
Proof. exact @constants_columns_dict. Qed.
Print Assumptions C62_columns_dict.

(** So it is not a dict of the constant indices. *)
Theorem C62_columns_refuted : exists df d r, rectangular df /\ extract_constants ex_na ex_eq df true false HowColumns true = Ok (AsDict d, r) /\
  (forall i s, In (i, s) (rows_of df) -> constant ex_na ex_eq true s) /\ (forall i, In i (labels df) -> dget d i = None).
Proof.
  exists {| labels := [KStr "r"; KStr "s"]; columns := [(KStr "a", [Some 1; Some 2]%Z); (KStr "b", [Some 1; Some 2]%Z)] |}.
  eexists _, _. split; [repeat constructor|]. split; [reflexivity|]. split.
  - intros i s H. apply constant_ok; [exact ex_cells|]. cbn in H. repeat (destruct H as [H|H]; [injection H as <- <-; reflexivity|]). destruct H.
  - intros i H. cbn in H. repeat (destruct H as [<-|H]; [reflexivity|]). destruct H.
Qed.
Print Assumptions C62_columns_refuted.

Example C62_default : extract_constants ex_na ex_eq ex_df true true HowRows true =
  Ok (AsDict [(KStr "b", Some 5%Z); (KStr "c", None)], {| labels := labels ex_df; columns := [(KStr "a", [Some 1; Some 2; Some 1]%Z)] |}).
Proof. reflexivity. Qed.
Example C62_nulls_count : extract_constants ex_na ex_eq ex_df true true HowRows false = Ok (AsDict [], ex_df).
Proof. reflexivity. Qed.
Example C62_rows_ex : exists a b, extract_constants ex_na ex_eq ex_df false true HowColumns true = Ok (AsFrame a, b) /\
  labels a = [KStr "s"] /\ labels b = [KStr "r"; KStr "t"].
Proof. eexists _, _. split; [reflexivity|]. split; reflexivity. Qed.

(** ** C63: rows *)

Theorem C63_split_on : forall cell (df : frame cell) p, rectangular df -> List.length p = List.length (labels df) ->
  dealt p (rows_of df) (rows_of (fst (split_on df p))) (rows_of (snd (split_on df p))) /\
  names (fst (split_on df p)) = names df /\ names (snd (split_on df p)) = names df.
Proof. exact @split_ok. Qed.
Print Assumptions C63_split_on.

Theorem C63_dupe : forall cell (df : frame cell) n, rectangular df -> (0 <= n)%Z -> exists df', dupe_df_block df n = Ok df' /\
  rectangular df' /\ names df' = names df /\
  labels df' = map (fun i => KInt (Z.of_nat i)) (seq 0 (List.length (labels df) * Z.to_nat n)) /\
  forall i j, i < List.length (labels df) -> j < Z.to_nat n -> row df' (i * Z.to_nat n + j) = row df i.
Proof. exact @dupe_ok. Qed.
Print Assumptions C63_dupe.

Theorem C63_dupe_negative : forall cell (df : frame cell) n, (n < 0)%Z -> dupe_df_block df n = Exc ValueError.
Proof. exact @dupe_negative. Qed.
Print Assumptions C63_dupe_negative.

(** squeeze, not boolean: the first of each label. *)
Theorem C63_squeeze : forall V (s : list (key * V)), firsts s (squeeze_first s).
Proof. exact @firsts_ok. Qed.
Print Assumptions C63_squeeze.

(** Boolean: sorted labels, each true iff one is; null labels are lost. *)
Theorem C63_squeeze_bool : forall L lleb leqb (lnull : L -> bool), total_order lleb leqb -> forall s : list (L * bool),
  increasing lleb (map fst (squeeze_bool lleb leqb lnull s)) /\
  forall k v, In (k, v) (squeeze_bool lleb leqb lnull s) <->
    lnull k = false /\ (exists x, In (k, x) s) /\ (v = true <-> In (k, true) s).
Proof. exact @squeeze_bool_ok. Qed.
Print Assumptions C63_squeeze_bool.

(** Any aggregation: the values of a label in order; null results are lost. *)
Theorem C63_squeeze_aggregated : forall L V lleb leqb (lnull : L -> bool) (vnull : V -> bool), total_order lleb leqb -> forall agg s,
  increasing lleb (map fst (squeeze_agg lleb leqb lnull vnull agg s)) /\
  forall k v, In (k, v) (squeeze_agg lleb leqb lnull vnull agg s) <->
    lnull k = false /\ (exists x, In (k, x) s) /\ vnull v = false /\
    exists a b, sorted_out (fun p => fst p = k) s a b /\ v = agg (map snd a).
Proof. exact @squeeze_agg_ok. Qed.
Print Assumptions C63_squeeze_aggregated.

(** junction: the set operation on the combinations without nulls. *)
Theorem C63_junction : forall cell isna (ceq : cell -> cell -> bool), cells isna ceq -> forall df1 df2 cols m,
  rectangular df1 -> rectangular df2 -> distinct_labels (names df1) -> distinct_labels (names df2) ->
  Forall (fun n => key_in n (names df1) = true /\ key_in n (names df2) = true) cols -> m <> NoSuchMethod ->
  exists out, junction isna ceq df1 df2 cols m = Ok out /\ apart ceq out /\
    forall r, has_row ceq out r <-> set_meaning m (combination isna ceq df1 cols r) (combination isna ceq df2 cols r).
Proof. exact @junction_ok. Qed.
Print Assumptions C63_junction.

Theorem C63_junction_missing : forall cell isna (ceq : cell -> cell -> bool) df1 df2 cols m n, In n cols ->
  key_in n (names df1) = false \/ key_in n (names df2) = false -> junction isna ceq df1 df2 cols m = Exc KeyError.
Proof. exact @junction_missing. Qed.
Print Assumptions C63_junction_missing.

Example C63_split_ex : rows_of (fst (split_on ex_df [true; false; true])) =
  [(KStr "r", [Some 1; Some 5; None]%Z); (KStr "t", [Some 1; Some 5; Some 7]%Z)].
Proof. reflexivity. Qed.
Example C63_dupe_ex : exists df', dupe_df_block ex_df 2 = Ok df' /\ columns df' =
  [(KStr "a", [Some 1; Some 1; Some 2; Some 2; Some 1; Some 1]%Z);
   (KStr "b", [Some 5; Some 5; None; None; Some 5; Some 5]%Z);
   (KStr "c", [None; None; None; None; Some 7; Some 7]%Z)].
Proof. eexists. split; reflexivity. Qed.
Example C63_squeeze_ex : squeeze_first [(KInt 3, "a"); (KInt 1, "b"); (KInt 3, "c")] = [(KInt 3, "a"); (KInt 1, "b")].
Proof. reflexivity. Qed.
Example C63_order : total_order Z.leb Z.eqb.
Proof. constructor; intros; rewrite ?Z.eqb_eq, ?Z.leb_le in *; try reflexivity; lia. Qed.
Example C63_bool_ex : squeeze_bool Z.leb Z.eqb (fun _ => false) [(3, false); (1, false); (3, true)]%Z = [(1, false); (3, true)]%Z.
Proof. reflexivity. Qed.
Example C63_junction_ex : junction ex_na ex_eq ex_df
  {| labels := [KInt 0]; columns := [(KStr "b", [Some 5%Z]); (KStr "a", [Some 3%Z])] |} [KStr "a"; KStr "b"] Difference = Ok [[Some 1; Some 5]%Z].
Proof. reflexivity. Qed.

(** ** C69: typed_columns *)

(** Distinct names: the columns whose type starts so. *)
Theorem C69_typed_columns : forall column (df : list (@typed column)) typenames, distinct_labels (map t_name df) -> exists rest,
  sorted_out (fun c => starts_u (map lower typenames) (lower (t_type c))) df (typed_columns df typenames) rest.
Proof. exact @typed_ok. Qed.
Print Assumptions C69_typed_columns.

(** A Series: itself or nothing; "u" is not allowed for. *)
Theorem C69_series : forall column (s : @typed column) typenames,
  (typed_series s typenames = Some s <-> starts (map lower typenames) (lower (t_type s))) /\
  (typed_series s typenames = None <-> ~ starts (map lower typenames) (lower (t_type s))).
Proof. exact @series_ok. Qed.
Print Assumptions C69_series.

(** Unsigned integers are numeric in a frame but not as a Series. *)
Theorem C69_unsigned_refuted : exists s : @typed nat, numeric_columns [s] = [s] /\ typed_series s ["int"; "float"] = None.
Proof. exists {| t_name := KStr "a"; t_type := "uint8"; t_data := 0 |}. split; reflexivity. Qed.
Print Assumptions C69_unsigned_refuted.

(** Intervals count as integers. *)
Theorem C69_interval_refuted : exists s : @typed nat, t_type s = "interval[float64, right]" /\ typed_columns [s] ["int"] = [s].
Proof. exists {| t_name := KStr "a"; t_type := "interval[float64, right]"; t_data := 0 |}. split; reflexivity. Qed.
Print Assumptions C69_interval_refuted.

(** With a repeated name, columns of other types come along and columns are doubled. *)
Theorem C69_repeated_refuted : exists i j f : @typed nat, t_type i = "int64" /\ t_type j = "int64" /\ t_type f = "object" /\
  typed_columns [i; j; f] ["int"] = [i; j; f; i; j; f].
Proof.
  exists {| t_name := KStr "a"; t_type := "int64"; t_data := 0 |}, {| t_name := KStr "a"; t_type := "int64"; t_data := 1 |},
         {| t_name := KStr "a"; t_type := "object"; t_data := 2 |}. split; [reflexivity|]. split; [reflexivity|]. split; reflexivity.
Qed.
Print Assumptions C69_repeated_refuted.

Example C69_ex : map t_name (numeric_columns
  [{| t_name := KStr "a"; t_type := "object"; t_data := 0 |}; {| t_name := KStr "b"; t_type := "UInt8"; t_data := 1 |};
   {| t_name := KStr "c"; t_type := "float64"; t_data := 2 |}; {| t_name := KStr "d"; t_type := "bool"; t_data := 3 |}]) = [KStr "b"; KStr "c"].
Proof. reflexivity. Qed.

(** ** C70: smash *)

(** One value per other column and row, labelled with the [by] cells and the
    column's name. *)
Theorem C70_smash : forall cell isna (ceq : cell -> cell -> bool) cstr df by_,
  rectangular df -> distinct_labels (names df) -> Forall (fun n => key_in n (names df) = true) by_ ->
  key_in (KStr "value") (names df) = false -> exists out others rest,
  smash isna ceq cstr df by_ None = Ok out /\
  sorted_out (fun c => key_in (fst c) by_ = false) (columns df) others rest /\
  List.length out = List.length others * List.length (labels df) /\
  forall j i c, nth_error others j = Some c -> i < List.length (labels df) -> exists r v,
    cells_at df by_ i r /\ nth_error (snd c) i = Some v /\
    nth_error out (j * List.length (labels df) + i) = Some (String.concat "_" (map cstr r ++ [py_str (fst c)]), v).
Proof. exact @smash_ok. Qed.
Print Assumptions C70_smash.

(** With values: the rows all of whose [by] cells are among them. *)
Theorem C70_values : forall cell isna (ceq : cell -> cell -> bool) cstr df by_ vs,
  rectangular df -> distinct_labels (names df) -> Forall (fun n => key_in n (names df) = true) by_ -> exists m,
  List.length m = List.length (labels df) /\
  (forall i, i < List.length (labels df) -> exists r, cells_at df by_ i r /\ (nth i m false = true <-> Forall (fun v => among isna ceq v vs) r)) /\
  smash isna ceq cstr df by_ (Some vs) = smash isna ceq cstr (loc_rows df m) by_ None.
Proof. exact @smash_values. Qed.
Print Assumptions C70_values.

Theorem C70_missing : forall cell isna (ceq : cell -> cell -> bool) cstr df by_ vals n,
  In n by_ -> key_in n (names df) = false -> smash isna ceq cstr df by_ vals = Exc KeyError.
Proof. exact @smash_missing. Qed.
Print Assumptions C70_missing.

Theorem C70_value_column : forall cell isna (ceq : cell -> cell -> bool) cstr df by_ vals,
  rectangular df -> distinct_labels (names df) -> Forall (fun n => key_in n (names df) = true) by_ ->
  key_in (KStr "value") (names df) = true -> smash isna ceq cstr df by_ vals = Exc ValueError.
Proof. exact @smash_value. Qed.
Print Assumptions C70_value_column.

Example C70_ex : smash ex_na ex_eq ex_str ex_df [KStr "a"] None =
  Ok [("1_b", Some 5); ("2_b", None); ("1_b", Some 5); ("1_c", None); ("2_c", None); ("1_c", Some 7)]%Z.
Proof. reflexivity. Qed.
Example C70_values_ex : smash ex_na ex_eq ex_str ex_df [KStr "a"; KStr "b"] (Some [Some 1; Some 5]%Z) = Ok [("1_5_c", None); ("1_5_c", Some 7)]%Z.
Proof. reflexivity. Qed.

(** ** C71: unpack *)

(** A column per position up to the longest list, None where a list is shorter;
    nulls are left out. *)
Theorem C71_unpack : forall cell (none : cell) name s, exists kept rest ls,
  sorted_out (fun p => exists l, snd p = Some l) s kept rest /\ Forall2 (fun p l => snd p = Some l) kept ls /\
  fst (unpack none name s) = map fst kept /\
  longest ls (List.length (snd (unpack none name s))) /\
  forall i, i < List.length (snd (unpack none name s)) -> nth_error (snd (unpack none name s)) i = Some (part_name name i, map (fun l => nth i l none) ls).
Proof. exact @unpack_ok. Qed.
Print Assumptions C71_unpack.

(** The parts replace columns of that name or come last; rows with a null keep
    what they had, or nothing. *)
Theorem C71_unpack_column : forall cell (none nan : cell) df name w,
  distinct_labels (p_index df) -> List.length (p_col df) = List.length (p_index df) ->
  Forall (fun c => List.length (snd c) = List.length (p_index df)) (p_others df) ->
  (forall l, In (Some l) (p_col df) -> List.length l <= w) -> (w = 0 \/ exists l, In (Some l) (p_col df) /\ List.length l = w) ->
  let out := fst (unpack_column none nan df name) in
  fst out = p_index df /\
  map fst (snd out) = map fst (p_others df) ++ filter (fun n => negb (existsb (String.eqb n) (map fst (p_others df)))) (map (part_name name) (seq 0 w)) /\
  (forall k, (forall i, i < w -> k <> part_name name i) -> find (called k) (snd out) = find (called k) (p_others df)) /\
  (forall i, i < w -> exists col, find (called (part_name name i)) (snd out) = Some (part_name name i, col) /\
    forall j o, nth_error (p_col df) j = Some o ->
      nth_error col j = match o with
                        | Some l => Some (nth i l none)
                        | None => match find (called (part_name name i)) (p_others df) with Some c => nth_error (snd c) j | None => Some nan end
                        end).
Proof. exact @unpack_column_ok. Qed.
Print Assumptions C71_unpack_column.

(** The argument gets the same columns, and keeps the packed one. *)
Theorem C71_argument : forall cell (none nan : cell) df name,
  p_others (snd (unpack_column none nan df name)) = snd (fst (unpack_column none nan df name)) /\
  p_index (snd (unpack_column none nan df name)) = p_index df /\ p_col (snd (unpack_column none nan df name)) = p_col df.
Proof. exact @unpack_column_argument. Qed.
Print Assumptions C71_argument.

Theorem C71_argument_changed_refuted : exists df : @packed (option Z), p_others (snd (unpack_column None None df "x")) <> p_others df.
Proof. exists {| p_index := [KInt 0]; p_others := []; p_col := [Some [Some 1%Z]] |}. discriminate. Qed.
Print Assumptions C71_argument_changed_refuted.

Definition ex_packed : @packed (option Z) :=
  {| p_index := [KInt 4; KInt 9; KInt 2]; p_others := [("x_1", [Some 8; Some 8; Some 8]%Z)]; p_col := [Some [Some 1; Some 2]%Z; None; Some [Some 3]%Z] |}.
Example C71_hypotheses : distinct_labels (p_index ex_packed) /\ List.length (p_col ex_packed) = List.length (p_index ex_packed) /\
  Forall (fun c => List.length (snd c) = List.length (p_index ex_packed)) (p_others ex_packed) /\
  (forall l, In (Some l) (p_col ex_packed) -> List.length l <= 2) /\ (exists l, In (Some l) (p_col ex_packed) /\ List.length l = 2).
Proof.
  split; [cbn; repeat constructor|]. split; [reflexivity|]. split; [repeat constructor|]. split.
  - intros l H. cbn in H. repeat (destruct H as [H|H]; [try discriminate; injection H as <-; cbn; lia|]). destruct H.
  - eexists. split; [now left|reflexivity].
Qed.
Example C71_ex : fst (unpack_column None None ex_packed "x") =
  ([KInt 4; KInt 9; KInt 2], [("x_1", [Some 2; Some 8; None]%Z); ("x_0", [Some 1; None; Some 3]%Z)]).
Proof. reflexivity. Qed.

(** ** C72: unique_to_records *)

(** Each combination without nulls once. *)
Theorem C72_unique : forall cell isna (ceq : cell -> cell -> bool), cells isna ceq -> forall arrange df cols,
  (forall l, Permutation (arrange l) l) ->
  rectangular df -> distinct_labels (names df) -> distinct_labels cols -> Forall (fun n => key_in n (names df) = true) cols ->
  exists us, unique_to_records isna ceq arrange df cols = Ok (map (combine cols) us) /\ apart ceq us /\
    forall r, has_row ceq us r <-> combination isna ceq df cols r.
Proof. exact @unique_ok. Qed.
Print Assumptions C72_unique.

(** Rows with a null are lost. *)
Theorem C72_nulls_refuted : exists i, i < List.length (labels ex_df) /\ cells_at ex_df [KStr "b"] i [None] /\
  unique_to_records ex_na ex_eq (fun l => l) ex_df [KStr "b"] = Ok [[(KStr "b", Some 5%Z)]].
Proof. exists 1. split; [cbn; lia|]. split; [|reflexivity]. constructor; [|constructor]. eexists. split; reflexivity. Qed.
Print Assumptions C72_nulls_refuted.

Example C72_ex : unique_to_records ex_na ex_eq (fun l => l) ex_df [KStr "a"; KStr "b"] = Ok [[(KStr "a", Some 1%Z); (KStr "b", Some 5%Z)]].
Proof. reflexivity. Qed.
