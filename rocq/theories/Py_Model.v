(** Python values, exceptions and dictionaries used by all the pure models.
    Nothing here comes from /repo: it models the Python built-ins (CPython
    3.9+) that the code in /repo is written in.  No proofs in this file. *)
From Coq Require Export List ZArith NArith String Ascii Bool.
From Coq Require Import DecimalString DecimalZ.
Export ListNotations.
Open Scope string_scope.
Open Scope list_scope.

(** ** Exceptions *)

(** Python exception classes that the modelled code raises, catches or lets
    through.  [UserExn n] stands for any other subclass of [Exception];
    [UserBaseExn n] for any other subclass of [BaseException] that is not an
    [Exception]. *)
Inductive exn : Type :=
| KeyError | IndexError | TypeError | AttributeError | ValueError
| StopIteration | FileNotFoundError | FileExistsError | OverflowError
| NameError | NotImplementedError | RecursionError | TimeoutError
| UnpicklingError | OSError | AssertionError | UnicodeDecodeError
| SyntaxError | RuntimeError
| AlreadyLoadedError | UnreadyError
| UserExn (n : N)
| KeyboardInterrupt | SystemExit | UserBaseExn (n : N).

(** [except Exception] catches everything but these. *)
Definition is_Exception (e : exn) : bool :=
  match e with
  | KeyboardInterrupt | SystemExit | UserBaseExn _ => false
  | _ => true
  end.

(** Result of a Python call: a value or a raised exception. *)
Inductive res (A : Type) : Type :=
| Ok (a : A)
| Exc (e : exn).
Arguments Ok {A} a.
Arguments Exc {A} e.

Definition bind {A B} (r : res A) (f : A -> res B) : res B :=
  match r with Ok a => f a | Exc e => Exc e end.

Declare Scope py_scope.
Delimit Scope py_scope with py.
Notation "x <- r ;; k" := (bind r (fun x => k))
  (at level 60, r at next level, right associativity) : py_scope.
Open Scope py_scope.

(** Python list comprehension [f(x) for x in l]: left to right, stops at the
    first exception. *)
Fixpoint mapM {A B} (f : A -> res B) (l : list A) : res (list B) :=
  match l with
  | [] => Ok []
  | x :: r => y <- f x ;; ys <- mapM f r ;; Ok (y :: ys)
  end.

(** Python list comprehension [x for x in l if p(x)]. *)
Fixpoint filterM {A} (p : A -> res bool) (l : list A) : res (list A) :=
  match l with
  | [] => Ok []
  | x :: r =>
      b <- p x ;; ys <- filterM p r ;; Ok (if b : bool then x :: ys else ys)
  end.

(** A Python [for] loop updating a state. *)
Fixpoint foldM {A S} (f : S -> A -> res S) (l : list A) (s : S) : res S :=
  match l with
  | [] => Ok s
  | x :: r => s' <- f s x ;; foldM f r s'
  end.

(** ** Hashable atoms (dictionary keys) *)

(** [KOther s n]: any other hashable object; [s] is its [str()], equality is
    identity of the pair.  Floats equal to ints are not modelled. *)
Inductive key : Type :=
| KNone
| KBool (b : bool)
| KInt (z : Z)
| KStr (s : string)
| KOther (s : string) (n : N).

Definition key_eq_dec (a b : key) : {a = b} + {a <> b}.
Proof.
  decide equality; auto using bool_dec, Z.eq_dec, string_dec, N.eq_dec.
Defined.

(** Python equality of keys identifies True with 1 and False with 0. *)
Definition knorm (k : key) : key :=
  match k with
  | KBool b => KInt (if b then 1 else 0)
  | _ => k
  end.

Definition keqb (a b : key) : bool :=
  if key_eq_dec (knorm a) (knorm b) then true else false.

(** Decimal notation of an integer. *)
Definition str_of_Z (z : Z) : string := NilZero.string_of_int (Z.to_int z).

(** Python's [str()] on atoms. *)
Definition py_str (k : key) : string :=
  match k with
  | KNone => "None"
  | KBool true => "True"
  | KBool false => "False"
  | KInt z => str_of_Z z
  | KStr s => s
  | KOther s _ => s
  end.

(** [isinstance(k, int)] (bool is a subclass of int) and
    [isinstance(k, str)]. *)
Definition is_int (k : key) : bool :=
  match k with KInt _ | KBool _ => true | _ => false end.
Definition is_str (k : key) : bool :=
  match k with KStr _ => true | _ => false end.

(** ** Dictionaries: insertion-ordered association lists *)

Section Dict.
  Context {V : Type}.
  Definition dict := list (key * V).

  (** [d.get(k)] / [d[k]]. *)
  Fixpoint dget (d : dict) (k : key) : option V :=
    match d with
    | [] => None
    | (k', v) :: r => if keqb k' k then Some v else dget r k
    end.

  (** [k in d]. *)
  Definition dhas (d : dict) (k : key) : bool :=
    match dget d k with Some _ => true | None => false end.

  (** [d[k] = v]: an existing equal key keeps its position and its key
      object; a new key goes to the end. *)
  Fixpoint dset (d : dict) (k : key) (v : V) : dict :=
    match d with
    | [] => [(k, v)]
    | (k', v') :: r =>
        if keqb k' k then (k', v) :: r else (k', v') :: dset r k v
    end.

  (** [del d[k]] (no effect if absent). *)
  Fixpoint ddel (d : dict) (k : key) : dict :=
    match d with
    | [] => []
    | (k', v') :: r => if keqb k' k then r else (k', v') :: ddel r k
    end.

  Definition dkeys (d : dict) : list key := map fst d.
  Definition dvalues (d : dict) : list V := map snd d.

  (** [d1 | d2], [d1.update(d2)]. *)
  Definition dupdate (d1 d2 : dict) : dict :=
    fold_left (fun d kv => dset d (fst kv) (snd kv)) d2 d1.

  (** [{k: v for k, v in l}] and [dict(l)]. *)
  Definition dict_of (l : list (key * V)) : dict := dupdate [] l.

  (** cytoolz [keyfilter]. *)
  Definition keyfilter (p : key -> bool) (d : dict) : dict :=
    dict_of (filter (fun kv => p (fst kv)) d).

  (** Dictionaries as Python can build them: no two equal keys. *)
  Fixpoint wfd (d : dict) : bool :=
    match d with
    | [] => true
    | (k, _) :: r => negb (dhas r k) && wfd r
    end.
End Dict.
Arguments dict V : clear implicits.

(** ** Values: atoms, lists, tuples, mappings *)

(** Mapping classes: [dict], [OrderedDict], [NestingDict] (all subclasses of
    [dict]) and any other [Mapping] class that is not a [dict]. *)
Inductive cls : Type := CDict | COrdered | CNesting | CMap (n : N).

Inductive val : Type :=
| VAtom (k : key)
| VList (l : list val)
| VTup (l : list val)
| VDict (c : cls) (d : list (key * val)).

(** [isinstance(_, dict)] on mapping classes. *)
Definition is_dict_cls (c : cls) : bool :=
  match c with CMap _ => false | _ => true end.

(** [isinstance(v, mtypes)], for a set [mt] of accepted mapping classes. *)
Definition isinst (mt : cls -> bool) (v : val) : bool :=
  match v with VDict c _ => mt c | _ => false end.

(** [isinstance(v, Mapping)]. *)
Definition is_mapping (v : val) : bool :=
  match v with VDict _ _ => true | _ => false end.

(** Entries of a mapping. *)
Definition entries (v : val) : list (key * val) :=
  match v with VDict _ d => d | _ => [] end.

(** Every dictionary inside the value is one Python can build. *)
Fixpoint wfv (v : val) : bool :=
  match v with
  | VAtom _ => true
  | VList l => forallb wfv l
  | VTup l => forallb wfv l
  | VDict _ d => wfd d && forallb (fun kv => wfv (snd kv)) d
  end.

(** Nesting depth of mappings: 0 for a non-mapping. *)
Fixpoint depth (v : val) : nat :=
  match v with
  | VDict _ d => S (list_max (map (fun kv => depth (snd kv)) d))
  | _ => 0
  end.

(** Python [==] on values: dictionaries compare as sets of items and ignore
    the class; lists and tuples elementwise. *)
Fixpoint veqb (a b : val) {struct a} : bool :=
  match a, b with
  | VAtom k, VAtom k' => keqb k k'
  | VList l, VList l' =>
      (fix go l l' := match l, l' with
                      | [], [] => true
                      | x :: r, y :: r' => veqb x y && go r r'
                      | _, _ => false
                      end) l l'
  | VTup l, VTup l' =>
      (fix go l l' := match l, l' with
                      | [], [] => true
                      | x :: r, y :: r' => veqb x y && go r r'
                      | _, _ => false
                      end) l l'
  | VDict _ d, VDict _ d' =>
      Nat.eqb (List.length d) (List.length d') &&
      forallb (fun kv => match dget d' (fst kv) with
                         | Some w => veqb (snd kv) w
                         | None => false
                         end) d
  | _, _ => false
  end.
