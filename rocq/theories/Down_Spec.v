(** What the properties of downcasting mean.  Definitions only. *)
From Verif Require Export Down_Model Float_Spec.
Open Scope Z_scope.

Definition UInt (n : Z) : dtype := {| kind_of := UIntK; bits := n |}.
Definition Int (n : Z) : dtype := {| kind_of := IntK; bits := n |}.
Definition Float (n : Z) : dtype := {| kind_of := FloatK; bits := n |}.
Definition depths : list Z := [8; 16; 32; 64].

(** An integer type holds an integer. *)
Definition holds (dt : dtype) (z : Z) : Prop :=
  match kind_of dt with IntK => - 2 ^ (bits dt - 1) <= z < 2 ^ (bits dt - 1) | _ => 0 <= z < 2 ^ bits dt end.
Definition int_type (dt : dtype) : Prop := exists n, In n depths /\ (dt = UInt n \/ dt = Int n).

(** The types a float array may become, in order. *)
Definition order (ints : bool) (w : Z) : list dtype :=
  (if ints then map UInt depths ++ map Int depths else []) ++ map Float (filter (fun n => n <? w) [16; 32; 64; 128]).

Section Spec.
  Context {num : Type}.
  Context (good finite is_nan nonzero : num -> bool).
  Context (leb ltb : num -> num -> bool).
  Context (sub div : num -> num -> num) (abs : num -> num).
  Context (nan : num).
  Context (info_min info_max : dtype -> num).
  Context (cast : dtype -> num -> res num).

  (** What is assumed of the numbers: they are in order except NaN, finite ones
      are not NaN, and zeros, and anything to a float, can be cast. *)
  Definition numbers_ok : Prop :=
    ordered good leb ltb /\ (forall x, is_nan x = negb (good x)) /\ (forall x, finite x = true -> good x = true) /\
    (good nan = false \/ forall x, good x = true) /\
    (forall dt v, finite v && nonzero v = false -> (finite v = true /\ int_type dt \/ kind_of dt = FloatK) -> exists c, cast dt v = Ok c).

  Definition in_range (dt : dtype) (arr : list num) : Prop :=
    forall v, In v arr -> finite v = true -> leb (info_min dt) v = true /\ leb v (info_max dt) = true.
  (** Absolute and relative error, compared with a limit. *)
  Definition abs_within (tol : num) (v c : num) : Prop := ltb tol (abs (abs (sub v c))) = false.
  Definition rel_within (tol : num) (v c : num) : Prop := ltb tol (abs (div (abs (sub v c)) v)) = false.
  Definition admissible (atol rtol : num) (dt : dtype) (arr : list num) : Prop :=
    in_range dt arr /\
    forall v, In v arr -> finite v = true -> nonzero v = true ->
      exists c, cast dt v = Ok c /\ abs_within atol v c /\ rel_within rtol v c.

  (** What downcast does with the types in [l], for an array of [w] bits: the
      first admissible one is used, with errors that bound those of every
      value and are within the limits; if none is, the array is unchanged.  It
      raises only if a value in range cannot be cast, or if an integer type
      would have to hold a value that is not finite. *)
  Definition first_admissible (atol rtol : num) (arr : list num) (l : list dtype) (dt : dtype) : Prop :=
    exists before after, l = before ++ dt :: after /\ admissible atol rtol dt arr /\
      forall dt', In dt' before -> ~ admissible atol rtol dt' arr.
  Definition outcome (zero : num) (w : Z) (arr : list num) (atol rtol : num) (lib : library) (name : option string)
      (l : list dtype) (r : res (@result num)) : Prop :=
    match r with
    | Ok (Dict r) =>
        (r = {| rtype := Float w; values := arr; aerr := zero; rerr := zero; as_series := series_of lib name |} /\
         forall dt, In dt l -> ~ admissible atol rtol dt arr) \/
        (first_admissible atol rtol arr l (rtype r) /\ as_series r = series_of lib name /\
         Forall2 (fun v c => cast (rtype r) v = Ok c) arr (values r) /\
         (forall v c, In v arr -> finite v = true -> nonzero v = true -> cast (rtype r) v = Ok c ->
            abs_within (aerr r) v c /\ rel_within (rerr r) v c) /\
         ltb atol (aerr r) = false /\ ltb rtol (rerr r) = false /\
         (kind_of (rtype r) = FloatK \/ forall v, In v arr -> finite v = true))
    | Ok (Plain _ _) => False
    | Exc e =>
        (exists dt v, In dt l /\ In v arr /\ finite v = true /\ in_range dt arr /\ cast dt v = Exc e) \/
        (e = AttributeError /\ (exists v, In v arr /\ finite v = false) /\
         exists dt, first_admissible atol rtol arr l dt /\ kind_of dt <> FloatK)
    end.

  (** An array with a finite value that is not zero; one with a value that is
      not finite. *)
  Definition some_nonzero (arr : list num) : Prop := exists v, In v arr /\ finite v = true /\ nonzero v = true.
  Definition all_finite (arr : list num) : Prop := forall v, In v arr -> finite v = true.
  Definition all_zero (arr : list num) : Prop := forall v, In v arr -> finite v = true -> nonzero v = false.
End Spec.

(** The labels of a default index. *)
Definition default_index (n : nat) (index : list key) : Prop := index = map (fun i => KInt (Z.of_nat i)) (seq 0 n).

Section Frames.
  Context {num : Type}.
  Notation column := (@column num).
  Notation cell := (@cell num).

  Definition height (c : column) : nat :=
    match c with IntCol _ l => List.length l | FloatCol _ l => List.length l | OtherCol l => List.length l | UnhandledCol l => List.length l end.
  (** A frame: all columns are as long as the index. *)
  Definition frame_ok (index : list key) (cols : list (string * column)) : Prop :=
    forall n c, In (n, c) cols -> height c = List.length index.
  Definition numeric (c : column) : bool := match c with OtherCol _ => false | _ => true end.
End Frames.

(** Integer columns hold values of their type, and no numeric integer column is
    empty. *)
Definition column_ok {num : Type} (c : @column num) : Prop :=
  match c with IntCol dt l => int_type dt /\ l <> [] /\ Forall (holds dt) l | _ => True end.

(** Labels that are all different, and the same labels. *)
Definition distinct (l : list key) : Prop := ForallOrdPairs (fun a b => keqb a b = false) l.
Definition same_labels (a b : list key) : Prop := Forall2 (fun x y => keqb x y = true) a b.
Definition has_label (k : key) (l : list key) : Prop := exists k', In k' l /\ keqb k' k = true.
(** The value of a Series under a label, if it has one. *)
Definition under_label {num : Type} (s : @series num) (k : key) (v : option cell) : Prop :=
  (exists j k', nth_error (index_of s) j = Some k' /\ keqb k' k = true /\ v = nth_error (cells s) j) \/
  (v = None /\ ~ has_label k (index_of s)).

Section Recast.
  Context {num : Type}.
  Context (finite is_nan nonzero : num -> bool) (leb ltb : num -> num -> bool) (sub div : num -> num -> num) (abs : num -> num) (zero nan : num)
    (info_min info_max : dtype -> num) (cast : dtype -> num -> res num).
  Notation downcast_float := (downcast_float finite is_nan nonzero leb ltb sub div abs zero nan info_min info_max cast).
  (** What becomes of a column. *)
  Definition recast_as (atol rtol : num) (nillable : bool) (index : list key) (nc : string * @column num) (ns : string * @series num) : Prop :=
    fst ns = fst nc /\
    match snd nc with
    | OtherCol l => cells (snd ns) = map KeyCell l /\ ctype (snd ns) = None /\ index_of (snd ns) = index
    | IntCol dt l => exists dt', cells (snd ns) = map ZCell l /\ ctype (snd ns) = Some dt' /\ int_type dt' /\ Forall (holds dt') l /\
                       index_of (snd ns) = range_index (List.length l)
    | FloatCol w l => exists r, downcast_float w l atol rtol Pandas nillable (Some (fst nc)) = Ok (Dict r) /\
                        cells (snd ns) = map NumCell (values r) /\ ctype (snd ns) = Some (rtype r) /\ index_of (snd ns) = range_index (List.length l)
    | UnhandledCol _ => False
    end.
End Recast.
