(** Model of pdstr in dustgoggles/pivot.py and of the accessor [.str] of a
    Series.  Definitions only.

    The accessor is that of pandas 2 (core/strings/accessor.py,
    core/strings/object_array.py, _libs/lib.pyx infer_dtype).
    Simplifications: the cells of a Series are objects (dtype object); its
    labels do not matter; only methods that work cell by cell and return a
    Series ([extract], [split] with expand and [cat] do not); the dtype
    of the result is not modelled. *)
From Verif Require Export Py_Model.

(** A cell: missing (None, NaN), text, bytes, a truth value, an integer or a
    float, something else. *)
Inductive scell :=
| CMissing
| CText (s : string)
| CBytes (s : string)
| CBool (b : bool)
| CInt (z : Z)
| CFloat (n : Z)
| COther (n : nat).

(** ** pandas *)

(** lib.infer_dtype(values, skipna=True), as far as the accessor asks for it:
    the first cell decides what to look for in the others. *)
Inductive inferred := IEmpty | IString | IBytes | IBoolean | INumbers | IMixed | IMixedInteger.
Definition present (c : scell) : bool := match c with CMissing => false | _ => true end.
Definition is_text c := match c with CText _ => true | _ => false end.
Definition is_bytes c := match c with CBytes _ => true | _ => false end.
Definition is_bool c := match c with CBool _ => true | _ => false end.
Definition is_int c := match c with CInt _ => true | _ => false end.
Definition is_number c := match c with CInt _ | CFloat _ => true | _ => false end.
Definition infer_dtype (cells : list scell) : inferred :=
  let l := filter present cells in
  let mixed := if existsb is_int l then IMixedInteger else IMixed in
  match l with
  | [] => IEmpty
  | CInt _ :: _ => if forallb is_number l then INumbers else IMixedInteger
  | CFloat _ :: _ => if forallb is_number l then INumbers else mixed
  | CBool _ :: _ => if forallb is_bool l then IBoolean else mixed
  | CText _ :: _ => if forallb is_text l then IString else mixed
  | CBytes _ :: _ => if forallb is_bytes l then IBytes else mixed
  | _ :: _ => mixed
  end.

Section Accessor.
  (** The methods of the accessor: for a name, whether the arguments fit its
      signature, and what it does with a cell that is not missing. *)
  Context {args : Type}.
  Context (method : string -> option ((args -> bool) * (args -> scell -> res scell))).

  (** StringMethods._validate, on access to [.str] *)
  Definition accessor (cells : list scell) : res inferred :=
    match infer_dtype cells with
    | INumbers | IBoolean => Exc AttributeError
    | i => Ok i
    end.

  (** ObjectStringArrayMixin._str_map: [f] for all cells; if that raises
      TypeError or AttributeError, once more with cells where it does so
      missing in the result. *)
  Definition map_mask (f : scell -> res scell) (cells : list scell) : res (list scell) :=
    mapM (fun c => if present c then f c else Ok CMissing) cells.
  Definition fallback (f : scell -> res scell) (c : scell) : res scell :=
    match f c with
    | Exc TypeError | Exc AttributeError => Ok CMissing
    | r => r
    end.
  Definition str_map (f : scell -> res scell) (cells : list scell) : res (list scell) :=
    match map_mask f cells with
    | Exc TypeError | Exc AttributeError => map_mask (fallback f) cells
    | r => r
    end.

  (** [getattr(series.str, name)]; calling it with arguments: those of most
      methods are checked after the type (forbid_nonstring_types). *)
  Definition call_method (i : inferred) (m : (args -> bool) * (args -> scell -> res scell)) (a : args) (cells : list scell)
      : res (list scell) :=
    match i with
    | IBytes => Exc TypeError
    | _ => if fst m a then str_map (snd m a) cells else Exc TypeError
    end.

  (** pivot.py:118-127 pdstr: creating the function looks at nothing. *)
  Definition pdstr (name : string) (a : args) : list scell -> res (list scell) :=
    fun series =>
      i <- accessor series ;;
      match method name with
      | None => Exc AttributeError
      | Some m => call_method i m a series
      end.
End Accessor.
