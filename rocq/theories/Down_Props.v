(** C59, C60, C68: downcasting in pivot.py. *)
From Coq Require Import Lia QArith Qabs SpecFloat.
From Verif Require Import Down_Proofs.
Open Scope Z_scope.

(** ** C59: integers *)

(** Same values, unsigned exactly if none is negative, no narrower type of that
    kind holds them all, and never wider than before. *)
Theorem C59_int_downcast : forall src arr lib name, int_type src -> arr <> [] -> Forall (holds src) arr ->
  exists r, downcast_int src arr lib name = Ok r /\
    values r = arr /\ aerr r = 0 /\ rerr r = 0 /\ as_series r = series_of lib name /\
    kind_of (rtype r) = (if forallb (fun z => 0 <=? z) arr then UIntK else IntK) /\
    int_type (rtype r) /\ Forall (holds (rtype r)) arr /\ bits (rtype r) <= bits src /\
    forall n, In n depths -> n < bits (rtype r) -> ~ Forall (holds {| kind_of := kind_of (rtype r); bits := n |}) arr.
Proof. exact downcast_int_lemma. Qed.
Print Assumptions C59_int_downcast.

Theorem C59_empty : forall src lib name, downcast_int src [] lib name = Exc ValueError.
Proof. exact downcast_int_empty. Qed.
Print Assumptions C59_empty.

Example C59_hypotheses : int_type (Int 64) /\ [300; -1; 7] <> [] /\ Forall (holds (Int 64)) [300; -1; 7].
Proof.
  split; [exists 64; cbn; auto 10|]. split; [discriminate|]. repeat constructor; cbn; lia.
Qed.
Example C59_signed : downcast_int (Int 64) [300; -1; 7] Pandas (Some "t") =
  Ok {| rtype := Int 16; values := [300; -1; 7]; aerr := 0; rerr := 0; as_series := Some (Some "t") |}.
Proof. reflexivity. Qed.
Example C59_unsigned : downcast_int (Int 64) [255; 0] Numpy None = Ok {| rtype := UInt 8; values := [255; 0]; aerr := 0; rerr := 0; as_series := None |}.
Proof. reflexivity. Qed.
Example C59_largest : downcast_int (UInt 64) [2 ^ 64 - 1] Numpy None =
  Ok {| rtype := UInt 64; values := [2 ^ 64 - 1]; aerr := 0; rerr := 0; as_series := None |}.
Proof. reflexivity. Qed.

(** ** C60: floats *)

(** Any kind of number.  The first admissible type is used, with errors that
    bound those of every value; otherwise nothing changes.  It raises only if a
    value in range cannot be cast, or (nillable) a value is not finite and the
    first admissible type is an integer one. *)
Theorem C60_downcast : forall num good finite is_nan nonzero leb ltb sub div abs zero nan info_min info_max (cast : dtype -> num -> res num)
    w arr atol rtol lib nillable name,
  numbers_ok good finite is_nan nonzero leb ltb nan cast -> In w [16; 32; 64; 128] -> (nillable = true -> lib = Pandas) -> some_nonzero finite nonzero arr ->
  outcome finite nonzero leb ltb sub div abs info_min info_max cast zero w arr atol rtol lib name (order (forallb finite arr || nillable) w)
    (downcast_float finite is_nan nonzero leb ltb sub div abs zero nan info_min info_max cast w arr atol rtol lib nillable name).
Proof.
  intros num good finite is_nan nonzero leb ltb sub div abs zero nan info_min info_max cast w arr atol rtol lib nillable name ok.
  exact (downcast_lemma good finite is_nan nonzero leb ltb sub div abs zero nan info_min info_max cast ok w arr atol rtol lib nillable name).
Qed.
Print Assumptions C60_downcast.

(** Doubles are such numbers. *)
Theorem C60_doubles : forall arr atol rtol lib nillable name, (nillable = true -> lib = Pandas) -> some_nonzero f_finite f_nonzero arr ->
  outcome f_finite f_nonzero SFleb SFltb fsub fdiv SFabs f_info_min f_info_max f_cast (S754_zero false) 64 arr atol rtol lib name
    (order (forallb f_finite arr || nillable) 64) (f_downcast 64 arr atol rtol lib nillable name).
Proof.
  intros arr atol rtol lib nillable name. apply (C60_downcast spec_float f_good f_finite f_nan f_nonzero); [exact f_numbers|cbn; auto].
Qed.
Print Assumptions C60_doubles.

(** With exact arithmetic it never raises, and every value, zeros included,
    changes by at most atol and by at most rtol times itself. *)
Theorem C60_exact : forall round w arr atol rtol lib nillable name, (forall w x, x == 0 -> round w x == 0)%Q ->
  In w [16; 32; 64; 128] -> (nillable = true -> lib = Pandas) -> (exists v, In v arr /\ ~ v == 0)%Q ->
  exists r, q_downcast round w arr atol rtol lib nillable name = Ok (Dict r) /\ as_series r = series_of lib name /\
    ((rtype r = Float w /\ values r = arr /\ forall dt, In dt (order true w) -> ~ q_admissible round atol rtol dt arr) \/
     (q_first_admissible round atol rtol arr (order true w) (rtype r) /\
      Forall2 (fun v c => q_cast round (rtype r) v = Ok c /\ Qabs (v - c) <= atol /\ Qabs (v - c) <= rtol * Qabs v)%Q arr (values r))).
Proof. exact exact_lemma. Qed.
Print Assumptions C60_exact.

(** Nothing finite: unchanged. *)
Theorem C60_no_finite : forall num finite is_nan nonzero leb ltb sub div abs zero nan info_min info_max (cast : dtype -> num -> res num)
    w arr atol rtol lib nillable name, (nillable = true -> lib = Pandas) -> (forall v, In v arr -> finite v = false) ->
  downcast_float finite is_nan nonzero leb ltb sub div abs zero nan info_min info_max cast w arr atol rtol lib nillable name =
    Ok (Dict {| rtype := Float w; values := arr; aerr := zero; rerr := zero; as_series := series_of lib name |}).
Proof. exact @no_finite_lemma. Qed.
Print Assumptions C60_no_finite.

(** Only zeros: the narrowest type. *)
Theorem C60_zeros : forall num good finite is_nan nonzero leb ltb sub div abs zero nan info_min info_max (cast : dtype -> num -> res num)
    w arr atol rtol lib nillable name, numbers_ok good finite is_nan nonzero leb ltb nan cast -> (nillable = true -> lib = Pandas) ->
  arr <> [] -> all_finite finite arr -> all_zero finite nonzero arr ->
  exists l, downcast_float finite is_nan nonzero leb ltb sub div abs zero nan info_min info_max cast w arr atol rtol lib nillable name =
      Ok (Dict {| rtype := UInt 8; values := l; aerr := zero; rerr := zero; as_series := series_of lib name |}) /\
    Forall2 (fun v c => cast (UInt 8) v = Ok c) arr l.
Proof.
  intros num good finite is_nan nonzero leb ltb sub div abs zero nan info_min info_max cast w arr atol rtol lib nillable name ok.
  exact (zeros_lemma good finite is_nan nonzero leb ltb sub div abs zero nan info_min info_max cast ok w arr atol rtol lib nillable name).
Qed.
Print Assumptions C60_zeros.

(** Zeros and values that are not finite: not a dictionary but a plain array,
    for every such array; with nillable integers, a TypeError. *)
Theorem C60_zeros_nonfinite : forall num good finite is_nan nonzero leb ltb sub div abs zero nan info_min info_max (cast : dtype -> num -> res num)
    w arr atol rtol lib nillable name, numbers_ok good finite is_nan nonzero leb ltb nan cast -> (nillable = true -> lib = Pandas) ->
  ~ all_finite finite arr -> (exists v, In v arr /\ finite v = true) -> all_zero finite nonzero arr ->
  if nillable
  then downcast_float finite is_nan nonzero leb ltb sub div abs zero nan info_min info_max cast w arr atol rtol lib nillable name = Exc TypeError
  else exists l, downcast_float finite is_nan nonzero leb ltb sub div abs zero nan info_min info_max cast w arr atol rtol lib nillable name = Ok (Plain (Float 16) l) /\
         Forall2 (fun v c => cast (Float 16) v = Ok c) arr l.
Proof.
  intros num good finite is_nan nonzero leb ltb sub div abs zero nan info_min info_max cast w arr atol rtol lib nillable name ok.
  exact (zeros_nonfinite_lemma good finite is_nan nonzero leb ltb sub div abs zero nan info_min info_max cast ok w arr atol rtol lib nillable name).
Qed.
Print Assumptions C60_zeros_nonfinite.

Theorem C60_nillable_numpy : forall num finite is_nan nonzero leb ltb sub div abs zero nan info_min info_max (cast : dtype -> num -> res num) w arr atol rtol name,
  downcast_float finite is_nan nonzero leb ltb sub div abs zero nan info_min info_max cast w arr atol rtol Numpy true name = Exc TypeError.
Proof. exact @nillable_numpy. Qed.
Print Assumptions C60_nillable_numpy.

Definition dx (m e : Z) : spec_float := binary_normalize fprec femax m e false.
Definition dx_atol : spec_float := fdiv (dx 5 0) (dx 100000 0).
Definition dx_rtol : spec_float := fdiv (dx 1 0) (dx 1000000 0).
Example C60_hypotheses : numbers_ok f_good f_finite f_nan f_nonzero SFleb SFltb S754_nan f_cast /\ some_nonzero f_finite f_nonzero [dx 3 0; dx 0 0; S754_nan].
Proof. split; [exact f_numbers|]. exists (dx 3 0). split; [now left|]. split; reflexivity. Qed.
(** Integers, halves, a third, and a NaN. *)
Example C60_to_uint : f_downcast 64 [dx 3 0; dx 0 0; dx 200 0] dx_atol dx_rtol Numpy false None =
  Ok (Dict {| rtype := UInt 8; values := [dx 3 0; dx 0 0; dx 200 0]; aerr := dx 0 0; rerr := dx 0 0; as_series := None |}).
Proof. vm_compute. reflexivity. Qed.
Example C60_to_half : f_downcast 64 [dx 1 (-1); dx 0 0; dx (-200) 0] dx_atol dx_rtol Numpy false None =
  Ok (Dict {| rtype := Float 16; values := [dx 1 (-1); dx 0 0; dx (-200) 0]; aerr := dx 0 0; rerr := dx 0 0; as_series := None |}).
Proof. vm_compute. reflexivity. Qed.
Example C60_to_single : exists l ae re, f_downcast 64 [fdiv (dx 1 0) (dx 3 0); S754_nan] dx_atol dx_rtol Pandas false (Some "x") =
  Ok (Dict {| rtype := Float 32; values := l; aerr := ae; rerr := re; as_series := Some (Some "x") |}) /\ SFleb ae dx_atol = true /\ SFltb (dx 0 0) ae = true.
Proof. do 3 eexists. split; [vm_compute; reflexivity|]. split; vm_compute; reflexivity. Qed.
Example C60_unchanged : f_downcast 64 [fdiv (dx 1 0) (dx 3 0)] (dx 0 0) (dx 0 0) Numpy false None =
  Ok (Dict {| rtype := Float 64; values := [fdiv (dx 1 0) (dx 3 0)]; aerr := dx 0 0; rerr := dx 0 0; as_series := None |}).
Proof. vm_compute. reflexivity. Qed.
Example C60_nillable : f_downcast 64 [dx 7 0; S754_nan] dx_atol dx_rtol Pandas true None = Exc AttributeError.
Proof. vm_compute. reflexivity. Qed.
Example C60_zeros_example : f_downcast 64 [dx 0 0; S754_zero true] dx_atol dx_rtol Numpy false None =
  Ok (Dict {| rtype := UInt 8; values := [dx 0 0; dx 0 0]; aerr := dx 0 0; rerr := dx 0 0; as_series := None |}).
Proof. vm_compute. reflexivity. Qed.
Example C60_zeros_nonfinite_example : f_downcast 64 [dx 0 0; S754_nan] dx_atol dx_rtol Numpy false None = Ok (Plain (Float 16) [dx 0 0; S754_nan]).
Proof. vm_compute. reflexivity. Qed.
Example C60_no_finite_example : f_downcast 64 [S754_infinity true; S754_nan] dx_atol dx_rtol Numpy false None =
  Ok (Dict {| rtype := Float 64; values := [S754_infinity true; S754_nan]; aerr := dx 0 0; rerr := dx 0 0; as_series := None |}).
Proof. vm_compute. reflexivity. Qed.
Example C60_exact_example : q_downcast (fun _ x => x) 64 [7 # 2; 0; -3]%Q (1 # 1000) (1 # 1000) Numpy false None =
  Ok (Dict {| rtype := Float 16; values := [7 # 2; 0; -3]%Q; aerr := 0 # 4; rerr := 0 # 28; as_series := None |}).
Proof. vm_compute. reflexivity. Qed.
Example C60_exact_truncates : q_downcast (fun _ x => x) 64 [30001 # 10000; 0; -3]%Q (1 # 1000) (1 # 1000) Numpy false None =
  Ok (Dict {| rtype := Int 8; values := [3; 0; -3]%Q; aerr := (1 # 10000)%Q; rerr := (10000 # 300010000)%Q; as_series := None |}).
Proof. vm_compute. reflexivity. Qed.

(** The largest number of each float type: of those with so many binary digits
    and an exponent no larger than the type's, the largest. *)
Theorem C60_float_limits : forall w p emax, In (w, p, emax) [(16, 11, 16); (32, 24, 128); (64, 53, 1024)] ->
  (exists m e, 0 <= m < 2 ^ p /\ 0 <= e <= emax - p /\ float_max w = m * 2 ^ e) /\
  forall m e, 0 <= m < 2 ^ p -> 0 <= e <= emax - p -> m * 2 ^ e <= float_max w.
Proof. exact float_max_largest. Qed.
Print Assumptions C60_float_limits.
(** Truncating a double: toward zero, sign and all. *)
Theorem C60_truncation : forall s m e, f_trunc (S754_finite s m e) =
  Some (let v := if s : bool then Zneg m else Zpos m in if 0 <=? e then v * 2 ^ e else Z.quot v (2 ^ (- e))).
Proof. exact f_trunc_quot. Qed.
Print Assumptions C60_truncation.
Example C60_truncation_ex : f_trunc (S754_finite true 7 (-1)) = Some (-3) /\ f_trunc (S754_finite false 7 1) = Some 14.
Proof. split; reflexivity. Qed.

(** Doubles whose value is just beyond the largest 64-bit integer pass the check
    of bounds, and the cast raises; they could have been single precision. *)
Theorem C60_bounds_refuted : exists arr atol rtol, some_nonzero f_finite f_nonzero arr /\
  admissible f_finite f_nonzero SFleb SFltb fsub fdiv SFabs f_info_min f_info_max f_cast atol rtol (Float 32) arr /\
  f_downcast 64 arr atol rtol Numpy false None = Exc RuntimeWarning.
Proof.
  exists [dx 1 64], dx_atol, dx_rtol. split; [exists (dx 1 64); split; [now left|split; reflexivity]|]. split; [|vm_compute; reflexivity].
  split.
  - intros v [<-|[]] _. split; vm_compute; reflexivity.
  - intros v [<-|[]] _ _. eexists. split; [vm_compute; reflexivity|]. split; vm_compute; reflexivity.
Qed.
Print Assumptions C60_bounds_refuted.

(** ** C68: downcast_df *)

(** With a default index: the same index, names, order and number of rows, with
    each column recast. *)
Theorem C68_default_index : forall num finite is_nan nonzero leb ltb sub div abs zero nan info_min info_max (cast : dtype -> num -> res num)
    atol rtol nillable index cols l,
  cols <> [] -> frame_ok index cols -> (forall n c, In (n, c) cols -> column_ok c) ->
  index = range_index (List.length index) \/ (forall n c, In (n, c) cols -> numeric c = true) ->
  downcast_columns finite is_nan nonzero leb ltb sub div abs zero nan info_min info_max cast atol rtol nillable index cols = Ok l ->
  downcast_df finite is_nan nonzero leb ltb sub div abs zero nan info_min info_max cast atol rtol nillable index cols =
    Ok (range_index (List.length index), map (fun s => (fst s, map Some (cells (snd s)))) l) /\
  Forall2 (recast_as finite is_nan nonzero leb ltb sub div abs zero nan info_min info_max cast atol rtol nillable index) cols l.
Proof. exact @same_index. Qed.
Print Assumptions C68_default_index.

(** With any other index that has no label twice, and columns of both kinds:
    the rows are those of the old labels and of the default ones, and each
    column has its values under its own. *)
Theorem C68_joined : forall num finite is_nan nonzero leb ltb sub div abs zero nan info_min info_max (cast : dtype -> num -> res num)
    atol rtol nillable index cols l n1 c1 n2 c2,
  frame_ok index cols -> (forall n c, In (n, c) cols -> column_ok c) ->
  In (n1, c1) cols -> numeric c1 = true -> In (n2, c2) cols -> numeric c2 = false ->
  distinct index -> ~ same_labels index (range_index (List.length index)) ->
  downcast_columns finite is_nan nonzero leb ltb sub div abs zero nan info_min info_max cast atol rtol nillable index cols = Ok l ->
  exists ix out,
    downcast_df finite is_nan nonzero leb ltb sub div abs zero nan info_min info_max cast atol rtol nillable index cols = Ok (ix, out) /\
    distinct ix /\
    (forall k, has_label k ix <-> has_label k index \/ has_label k (range_index (List.length index))) /\
    Forall2 (fun s o => fst o = fst s /\ Forall2 (under_label (snd s)) ix (snd o)) l out.
Proof. exact @joined_labels. Qed.
Print Assumptions C68_joined.

(** With a label twice it raises; without columns too. *)
Theorem C68_repeated : forall num finite is_nan nonzero leb ltb sub div abs zero nan info_min info_max (cast : dtype -> num -> res num)
    atol rtol nillable index cols l n1 c1 n2 c2,
  frame_ok index cols -> (forall n c, In (n, c) cols -> column_ok c) ->
  In (n1, c1) cols -> numeric c1 = true -> In (n2, c2) cols -> numeric c2 = false -> ~ distinct index ->
  downcast_columns finite is_nan nonzero leb ltb sub div abs zero nan info_min info_max cast atol rtol nillable index cols = Ok l ->
  downcast_df finite is_nan nonzero leb ltb sub div abs zero nan info_min info_max cast atol rtol nillable index cols = Exc InvalidIndexError.
Proof. exact @repeated_labels. Qed.
Print Assumptions C68_repeated.
Theorem C68_no_columns : forall num finite is_nan nonzero leb ltb sub div abs zero nan info_min info_max (cast : dtype -> num -> res num)
    atol rtol nillable index,
  downcast_df finite is_nan nonzero leb ltb sub div abs zero nan info_min info_max cast atol rtol nillable index [] = Exc ValueError.
Proof. exact @no_columns. Qed.
Print Assumptions C68_no_columns.

(** A column of zeros with a value that is not finite makes it raise. *)
Theorem C68_zero_column : forall num good finite is_nan nonzero leb ltb sub div abs zero nan info_min info_max (cast : dtype -> num -> res num)
    atol rtol index cols n w arr, numbers_ok good finite is_nan nonzero leb ltb nan cast ->
  In (n, FloatCol w arr) cols -> ~ all_finite finite arr -> (exists v, In v arr /\ finite v = true) -> all_zero finite nonzero arr ->
  exists e, downcast_df finite is_nan nonzero leb ltb sub div abs zero nan info_min info_max cast atol rtol false index cols = Exc e.
Proof.
  intros num good finite is_nan nonzero leb ltb sub div abs zero nan info_min info_max cast atol rtol index cols n w arr ok.
  exact (zero_column good finite is_nan nonzero leb ltb sub div abs zero nan info_min info_max cast ok atol rtol index cols n w arr).
Qed.
Print Assumptions C68_zero_column.

Definition dx_cols : list (string * column) :=
  [("n", IntCol (Int 64) [300; 7]); ("x", FloatCol 64 [dx 1 (-1); dx 2 0]); ("s", OtherCol [KStr "a"; KStr "b"])].
Example C68_frame : dx_cols <> [] /\ frame_ok (range_index 2) dx_cols /\ (forall n c, In (n, c) dx_cols -> column_ok c).
Proof.
  split; [discriminate|]. split.
  - intros n c Hc. cbn [dx_cols In] in Hc. decompose [or] Hc; try contradiction; match goal with H : _ = _ |- _ => injection H as <- <- end; reflexivity.
  - intros n c Hc. cbn [dx_cols In] in Hc. decompose [or] Hc; try contradiction; match goal with H : _ = _ |- _ => injection H as <- <- end; try exact I.
    split; [exists 64; cbn; auto 10|]. split; [discriminate|]. repeat constructor; cbn; lia.
Qed.
Example C68_example : f_downcast_df dx_atol dx_rtol false (range_index 2) dx_cols =
  Ok ([KInt 0; KInt 1], [("n", [Some (ZCell 300); Some (ZCell 7)]); ("x", [Some (NumCell (dx 1 (-1))); Some (NumCell (dx 2 0))]);
                         ("s", [Some (KeyCell (KStr "a")); Some (KeyCell (KStr "b"))])]).
Proof. vm_compute. reflexivity. Qed.
(** Only numeric columns: the index is lost. *)
Example C68_index_lost : f_downcast_df dx_atol dx_rtol false [KStr "p"; KStr "q"] (firstn 2 dx_cols) =
  Ok ([KInt 0; KInt 1], [("n", [Some (ZCell 300); Some (ZCell 7)]); ("x", [Some (NumCell (dx 1 (-1))); Some (NumCell (dx 2 0))])]).
Proof. vm_compute. reflexivity. Qed.
Example C68_zero_column_example : f_downcast_df dx_atol dx_rtol false (range_index 2) [("z", FloatCol 64 [dx 0 0; S754_nan])] = Exc IndexError.
Proof. vm_compute. reflexivity. Qed.

Example C68_mixed :
  In ("n", IntCol (Int 64) [300; 7]) dx_cols /\ In ("s", OtherCol [KStr "a"; KStr "b"]) dx_cols /\
  distinct [KInt 1; KStr "q"] /\ ~ same_labels [KInt 1; KStr "q"] (range_index 2) /\ ~ distinct [KStr "q"; KStr "q"] /\
  f_downcast_df dx_atol dx_rtol false [KInt 1; KStr "q"] dx_cols =
    Ok ([KInt 0; KInt 1; KStr "q"],
        [("n", [Some (ZCell 300); Some (ZCell 7); None]); ("x", [Some (NumCell (dx 1 (-1))); Some (NumCell (dx 2 0)); None]);
         ("s", [None; Some (KeyCell (KStr "a")); Some (KeyCell (KStr "b"))])]) /\
  f_downcast_df dx_atol dx_rtol false [KStr "q"; KStr "q"] dx_cols = Exc InvalidIndexError.
Proof.
  split; [now left|]. split; [right; right; now left|]. split; [repeat constructor|]. split.
  - intro H. inversion H as [|? ? ? ? E _]. discriminate.
  - split; [|split; vm_compute; reflexivity]. intro H. inversion H as [|? ? F _]. inversion F as [|? ? E _]. discriminate.
Qed.

(** Mixed columns and another index: twice as many rows, and the values of a row
    are no longer together. *)
Theorem C68_index_refuted : exists index (cols : list (string * column)) ix out,
  cols <> [] /\ frame_ok index cols /\ (forall n c, In (n, c) cols -> column_ok c) /\
  f_downcast_df dx_atol dx_rtol false index cols = Ok (ix, out) /\
  List.length ix = (2 * List.length index)%nat /\
  out = [("n", [Some (ZCell 300); Some (ZCell 7); None; None]); ("x", [Some (NumCell (dx 1 (-1))); Some (NumCell (dx 2 0)); None; None]);
         ("s", [None; None; Some (KeyCell (KStr "a")); Some (KeyCell (KStr "b"))])].
Proof.
  exists [KInt 10; KInt 11], dx_cols. do 2 eexists. destruct C68_frame as (A & B & C). split; [exact A|]. split; [exact B|]. split; [exact C|].
  split; [vm_compute; reflexivity|]. split; vm_compute; reflexivity.
Qed.
Print Assumptions C68_index_refuted.
