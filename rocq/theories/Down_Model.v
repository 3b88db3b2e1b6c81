(** Model of downcasting in dustgoggles/pivot.py: check_in_dtype_bounds,
    _maybeseries, _downcast_int_array, downcast, downcast_df.  Definitions only.

    Simplifications: arrays are one-dimensional, of an integer type or of a
    float of 16, 32, 64 or 128 bits (bool, string, timedelta and void arrays
    are not modelled; complex, datetime and object ones raise).  What a float
    can be, how it is cast, subtracted and compared are parameters; doubles
    and exact numbers are below. *)
From Coq Require Import QArith Qabs SpecFloat.
From Verif Require Export Float_Model.
Open Scope Z_scope.

Inductive kind := UIntK | IntK | FloatK.
Definition is_float (k : kind) : bool := match k with FloatK => true | _ => false end.
(** np.dtype(f"{kind}{number}") *)
Record dtype := { kind_of : kind; bits : Z }.
Definition dtype_eqb (a b : dtype) : bool :=
  match kind_of a, kind_of b with
  | UIntK, UIntK | IntK, IntK | FloatK, FloatK => bits a =? bits b
  | _, _ => false
  end.

(** np.iinfo *)
Definition int_min (dt : dtype) : Z := match kind_of dt with IntK => - 2 ^ (bits dt - 1) | _ => 0 end.
Definition int_max (dt : dtype) : Z := match kind_of dt with IntK => 2 ^ (bits dt - 1) - 1 | _ => 2 ^ bits dt - 1 end.

Inductive library := Numpy | Pandas.

(** pivot.py:158-162 _maybeseries: the result has a type, values, errors, and is
    a Series with a name if asked for. *)
Record recast (V N : Type) := { rtype : dtype; values : list V; aerr : N; rerr : N; as_series : option (option string) }.
Arguments rtype {V N}. Arguments values {V N}. Arguments aerr {V N}. Arguments rerr {V N}. Arguments as_series {V N}.
Definition series_of (lib : library) (name : option string) : option (option string) :=
  match lib with Numpy => None | Pandas => Some name end.

(** ** Integers *)

(** astype between integer types wraps around. *)
Definition wrap (dt : dtype) (z : Z) : Z :=
  match kind_of dt with
  | IntK => (z + 2 ^ (bits dt - 1)) mod 2 ^ bits dt - 2 ^ (bits dt - 1)
  | _ => z mod 2 ^ bits dt
  end.
Definition maybe_int (src : dtype) (arr : list Z) (dt : dtype) (lib : library) (name : option string) : recast Z Z :=
  {| rtype := dt; values := (if dtype_eqb src dt then arr else map (wrap dt) arr); aerr := 0; rerr := 0; as_series := series_of lib name |}.

(** arr.min() and arr.max() of an array that is not empty *)
Definition zmin (l : list Z) : res Z := match l with [] => Exc ValueError | v :: r => Ok (fold_left Z.min r v) end.
Definition zmax (l : list Z) : res Z := match l with [] => Exc ValueError | v :: r => Ok (fold_left Z.max r v) end.

(** pivot.py:148-155 check_in_dtype_bounds, of integers *)
Definition int_in_bounds (amin amax : Z) (dt : dtype) : bool := (int_min dt <=? amin) && (amax <=? int_max dt).

(** pivot.py:172-177 *)
Fixpoint try_depths (src : dtype) (arr : list Z) (lib : library) (name : option string) (k : kind) (amin amax : Z) (depths : list Z)
    : res (recast Z Z) :=
  match depths with
  | [] => Exc TypeError
  | d :: r =>
      let dt := {| kind_of := k; bits := d |} in
      if int_in_bounds amin amax dt then Ok (maybe_int src arr dt lib name)
      else try_depths src arr lib name k amin amax r
  end.
(** pivot.py:165-177 _downcast_int_array *)
Definition downcast_int (src : dtype) (arr : list Z) (lib : library) (name : option string) : res (recast Z Z) :=
  amin <- zmin arr ;; amax <- zmax arr ;;
  try_depths src arr lib name (if 0 <=? amin then UIntK else IntK) amin amax [8; 16; 32; 64].

(** ** Floats *)

(** A RuntimeWarning, raised as an exception under simplefilter('error'). *)
Definition RuntimeWarning : exn := UserExn 1.

Section Floats.
  Context {num : Type}.
  Context (finite is_nan nonzero : num -> bool).
  Context (leb ltb : num -> num -> bool).
  Context (sub div : num -> num -> num) (abs : num -> num).
  Context (zero nan : num).
  (** The smallest and largest value of a type, as they are compared. *)
  Context (info_min info_max : dtype -> num).
  (** astype, seen as a number again; a finite value that does not fit into an
      integer type is an invalid value. *)
  Context (cast : dtype -> num -> res num).

  (** pivot.py:148-155 check_in_dtype_bounds *)
  Definition in_bounds (amin amax : num) (dt : dtype) : bool := leb (info_min dt) amin && leb amax (info_max dt).

  (** np.nanmax, and min and max of finite values *)
  Definition max_from (v : num) (l : list num) : num := fold_left (fun m x => if ltb m x then x else m) l v.
  Definition min_from (v : num) (l : list num) : num := fold_left (fun m x => if ltb x m then x else m) l v.
  Definition nanmax (l : list num) : num :=
    match filter (fun x => negb (is_nan x)) l with [] => nan | v :: r => max_from v r end.

  Definition map2 {A B C} (f : A -> B -> C) (l1 : list A) (l2 : list B) : list C :=
    map (fun p => f (fst p) (snd p)) (combine l1 l2).

  (** What downcast returns: a dictionary, or (pivot.py:212) a plain array. *)
  Inductive result := Dict (r : recast num num) | Plain (dt : dtype) (l : list num).

  Definition keep (w : Z) (arr : list num) (lib : library) (name : option string) : result :=
    Dict {| rtype := {| kind_of := FloatK; bits := w |}; values := arr; aerr := zero; rerr := zero; as_series := series_of lib name |}.
  Definition maybe_float (arr : list num) (dt : dtype) (lib : library) (name : option string) (ae re : num) : res result :=
    l <- mapM (cast dt) arr ;;
    Ok (Dict {| rtype := dt; values := l; aerr := ae; rerr := re; as_series := series_of lib name |}).

  (** pivot.py:216-245, the loop *)
  Fixpoint try_types (w : Z) (arr nz : list num) (amin amax atol rtol : num) (nonfinite nillable : bool)
      (lib : library) (name : option string) (l : list (kind * Z)) : res result :=
    match l with
    | [] => Exc TypeError
    | (k, n) :: r =>
        let next := try_types w arr nz amin amax atol rtol nonfinite nillable lib name r in
        if is_float k && (n =? w) then Ok (keep w arr lib name)
        else if negb (is_float k) && (n =? 128) then next
        else if negb (is_float k) && nonfinite && negb nillable then next
        else if is_float k && (n =? 8) then next
        else
          let dt := {| kind_of := k; bits := n |} in
          if negb (in_bounds amin amax dt) then next
          else
            c <- mapM (cast dt) nz ;;
            let offsets := map abs (map2 sub nz c) in
            let ae := nanmax (map abs offsets) in
            if ltb atol ae then next
            else
              let re := nanmax (map abs (map2 div offsets nz)) in
              if ltb rtol re then next
              else if negb (is_float k) && nonfinite then
                (* the name of the pandas type is made of a bound method *)
                Exc AttributeError
              else maybe_float arr dt lib name ae re
    end.

  Definition kinds_and_numbers : list (kind * Z) := list_prod [UIntK; IntK; FloatK] [8; 16; 32; 64; 128].

  (** pivot.py:180-245 downcast, of a float array of [w] bits *)
  Definition downcast_float (w : Z) (arr : list num) (atol rtol : num) (lib : library) (nillable : bool) (name : option string) : res result :=
    match nillable, lib with
    | true, Numpy => Exc TypeError
    | _, _ =>
        let fin := filter finite arr in
        match fin with
        | [] => Ok (keep w arr lib name)
        | v :: r =>
            let nonfinite := Nat.ltb (List.length fin) (List.length arr) in
            let nz := filter nonzero fin in
            match nz with
            | [] =>
                if negb nonfinite then maybe_float arr {| kind_of := UIntK; bits := 8 |} lib name zero zero
                else if negb nillable then
                  l <- mapM (cast {| kind_of := FloatK; bits := 16 |}) arr ;; Ok (Plain {| kind_of := FloatK; bits := 16 |} l)
                else (* numpy's astype with a pandas type *) Exc TypeError
            | _ => try_types w arr nz (min_from v r) (max_from v r) atol rtol nonfinite nillable lib name kinds_and_numbers
            end
        end
    end.

  (** ** pivot.py:248-266 downcast_df *)

  (** A column: integers, floats, something not numeric, or something numeric
      that downcast does not handle. *)
  Inductive column :=
  | IntCol (dt : dtype) (l : list Z)
  | FloatCol (w : Z) (l : list num)
  | OtherCol (l : list key)
  | UnhandledCol (l : list key).
  Inductive cell := ZCell (z : Z) | NumCell (x : num) | KeyCell (k : key).

  (** A Series: its index, its values, and its type if numeric. *)
  Record series := { index_of : list key; cells : list cell; ctype : option dtype }.
  (** RangeIndex(n) *)
  Definition range_index (n : nat) : list key := map (fun i => KInt (Z.of_nat i)) (seq 0 n).

  (** pivot.py:257-263.  [pd.Series(arr)] has a new index; [plain["recast"]] is
      an IndexError. *)
  Definition recast_column (atol rtol : num) (nillable : bool) (index : list key) (nc : string * column)
      : res (string * series) :=
    let (name, c) := nc in
    match c with
    | OtherCol l => Ok (name, {| index_of := index; cells := map KeyCell l; ctype := None |})
    | UnhandledCol _ => Exc TypeError
    | IntCol dt l =>
        r <- downcast_int dt l Pandas (Some name) ;;
        Ok (name, {| index_of := range_index (List.length l); cells := map ZCell (values r); ctype := Some (rtype r) |})
    | FloatCol w l =>
        r <- downcast_float w l atol rtol Pandas nillable (Some name) ;;
        match r with
        | Plain _ _ => Exc IndexError
        | Dict r => Ok (name, {| index_of := range_index (List.length l); cells := map NumCell (values r); ctype := Some (rtype r) |})
        end
    end.
  (** reassemble=False *)
  Definition downcast_columns (atol rtol : num) (nillable : bool) (index : list key) (cols : list (string * column))
      : res (list (string * series)) :=
    mapM (recast_column atol rtol nillable index) cols.

  (** pd.concat(axis=1): Series with the same index are put side by side;
      otherwise the indices are joined and every Series is looked up by label,
      which needs labels to be unique.  None is a missing value (types become
      wider where there is one, which is not modelled). *)
  Definition InvalidIndexError : exn := UserExn 2.
  Fixpoint keys_eqb (a b : list key) : bool :=
    match a, b with
    | [], [] => true
    | x :: r, y :: t => keqb x y && keys_eqb r t
    | _, _ => false
    end.
  Definition key_in (k : key) (l : list key) : bool := existsb (keqb k) l.
  Fixpoint unique (l : list key) : bool :=
    match l with [] => true | k :: r => negb (key_in k r) && unique r end.
  Definition union_keys (l : list key) : list key :=
    fold_left (fun acc k => if key_in k acc then acc else acc ++ [k]) l [].
  Fixpoint at_label (k : key) (index : list key) (l : list cell) : option cell :=
    match index, l with
    | x :: r, c :: t => if keqb x k then Some c else at_label k r t
    | _, _ => None
    end.
  Definition concat_series (l : list (string * series)) : res (list key * list (string * list (option cell))) :=
    match l with
    | [] => Exc ValueError
    | (_, s0) :: _ =>
        if forallb (fun s => keys_eqb (index_of (snd s)) (index_of s0)) l
        then Ok (index_of s0, map (fun s => (fst s, map Some (cells (snd s)))) l)
        else if forallb (fun s => unique (index_of (snd s))) l then
          let ix := union_keys (List.concat (map (fun s => index_of (snd s)) l)) in
          Ok (ix, map (fun s => (fst s, map (fun k => at_label k (index_of (snd s)) (cells (snd s))) ix)) l)
        else Exc InvalidIndexError
    end.
  (** reassemble=True *)
  Definition downcast_df (atol rtol : num) (nillable : bool) (index : list key) (cols : list (string * column))
      : res (list key * list (string * list (option cell))) :=
    l <- downcast_columns atol rtol nillable index cols ;; concat_series l.
End Floats.
Arguments Dict {num}. Arguments Plain {num}.
Arguments IntCol {num}. Arguments FloatCol {num}. Arguments OtherCol {num}. Arguments UnhandledCol {num}.
Arguments ZCell {num}. Arguments NumCell {num}. Arguments KeyCell {num}.

(** ** Exact numbers: integers by truncation, floats by any rounding *)

Definition q_trunc (x : Q) : Z := Z.quot (Qnum x) (Zpos (Qden x)).
Definition q_nonzero (x : Q) : bool := negb (Qeq_bool x 0).
Definition q_fits (dt : dtype) (z : Z) : bool := (int_min dt <=? z) && (z <=? int_max dt).
Definition q_cast (round : Z -> Q -> Q) (dt : dtype) (x : Q) : res Q :=
  match kind_of dt with
  | FloatK => Ok (round (bits dt) x)
  | _ => if q_fits dt (q_trunc x) then Ok (inject_Z (q_trunc x)) else Exc RuntimeWarning
  end.
(** The largest float16, float32 and float64, the others have no limit here. *)
Definition float_max (w : Z) : Z :=
  if w =? 16 then 65504 else if w =? 32 then 2 ^ 128 - 2 ^ 104 else 2 ^ 1024 - 2 ^ 971.
Definition q_info_max (dt : dtype) : Q := inject_Z (match kind_of dt with FloatK => float_max (bits dt) | _ => int_max dt end).
Definition q_info_min (dt : dtype) : Q := inject_Z (match kind_of dt with FloatK => - float_max (bits dt) | _ => int_min dt end).
Definition q_downcast (round : Z -> Q -> Q) :=
  downcast_float (fun _ : Q => true) (fun _ => false) q_nonzero Qle_bool q_ltb Qminus Qdiv Qabs.Qabs 0%Q 0%Q q_info_min q_info_max (q_cast round).

(** ** Doubles: arrays of 64 bits *)

Definition f_finite (x : spec_float) : bool := match x with S754_zero _ | S754_finite _ _ _ => true | _ => false end.
Definition f_nan (x : spec_float) : bool := match x with S754_nan => true | _ => false end.
Definition f_nonzero (x : spec_float) : bool := match x with S754_zero _ => false | _ => true end.
Definition f_trunc (x : spec_float) : option Z :=
  match x with
  | S754_zero _ => Some 0
  | S754_finite s m e =>
      let a := if 0 <=? e then Zpos m * 2 ^ e else Zpos m / 2 ^ (- e) in Some (if s then - a else a)
  | _ => None
  end.
(** Rounding to [p] bits and back. *)
Definition f_round (p em : Z) (x : spec_float) : spec_float :=
  match x with
  | S754_finite s m e =>
      match binary_normalize p em (if s then Zneg m else Zpos m) e s with
      | S754_finite s' m' e' => binary_normalize fprec femax (if s' then Zneg m' else Zpos m') e' s'
      | y => y
      end
  | _ => x
  end.
Definition f_cast (dt : dtype) (x : spec_float) : res spec_float :=
  match kind_of dt with
  | FloatK => Ok (if bits dt =? 16 then f_round 11 16 x else if bits dt =? 32 then f_round 24 128 x else x)
  | _ => match f_trunc x with
         | Some z => if q_fits dt z then Ok (f_of_Z z) else Exc RuntimeWarning
         | None => Exc RuntimeWarning
         end
  end.
(** The limits of a type are rounded to doubles. *)
Definition f_info_max (dt : dtype) : spec_float := f_of_Z (match kind_of dt with FloatK => float_max (bits dt) | _ => int_max dt end).
Definition f_info_min (dt : dtype) : spec_float := f_of_Z (match kind_of dt with FloatK => - float_max (bits dt) | _ => int_min dt end).
Definition f_downcast :=
  downcast_float f_finite f_nan f_nonzero SFleb SFltb fsub fdiv SFabs (S754_zero false) S754_nan f_info_min f_info_max f_cast.
Definition f_downcast_df :=
  downcast_df f_finite f_nan f_nonzero SFleb SFltb fsub fdiv SFabs (S754_zero false) S754_nan f_info_min f_info_max f_cast.
