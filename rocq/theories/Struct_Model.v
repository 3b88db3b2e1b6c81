(** Model of dustgoggles/structures.py (all but the pool classes, which are
    in Pool_Model.v).  Definitions only.

    Simplifications common to the file: values are trees (no two references to
    the same mutable object inside one value); functions that mutate their
    argument return the new value; [mtypes] is a boolean predicate on mapping
    classes; recursion that Python bounds only by its recursion limit takes a
    [fuel] argument, the remaining recursion depth, and raises RecursionError
    when it is used up. *)
From Verif Require Export Py_Model.

(** ** dig functions *)

(** A dig predicate: truthiness of [predicate(key, value)], or its
    exception. *)
Definition pred := key -> val -> res bool.

(** A reference passed to a dig function: a callable or a constant. *)
Inductive ref := RCall (p : pred) | RConst (v : val).

(** A [base_pred] (default [operator.eq]) is any callable on positional
    arguments. *)
Definition callable := list val -> res bool.

(** operator.eq as a callable. *)
Definition op_eq : callable := fun args =>
  match args with [a; b] => Ok (veqb a b) | _ => Exc TypeError end.

(** structures.py:173-177 keyonly, 180-184 valonly. *)
Definition keyonly (f : callable) : pred := fun k _ => f [VAtom k].
Definition valonly (f : callable) : pred := fun _ v => f [v].

(** structures.py:162-170 constant_to_dig_predicate.  [partial(default, x)]
    prepends [x]; an unknown [match] yields None, whose call raises
    TypeError. *)
Definition constant_to_dig_predicate (r : ref) (match_ : string)
    (default : callable) : pred :=
  match r with
  | RCall p => p
  | RConst c =>
      let partial := fun args => default (c :: args) in
      if string_dec match_ "key" then keyonly partial
      else if string_dec match_ "value" then valonly partial
      else if string_dec match_ "item" then fun k v => partial [VAtom k; v]
      else fun _ _ => Exc TypeError
  end.

(** The comprehension over [nests] of structures.py:192 fused with the
    comprehension at 201: apply [f] to the values of accepted classes, in
    order. *)
Definition mapM_nests {A} (mt : cls -> bool) (f : val -> res A) :=
  fix go (d : list (key * val)) : res (list A) :=
    match d with
    | [] => Ok []
    | (_, v) :: r =>
        if isinst mt v then a <- f v ;; b <- go r ;; Ok (a :: b) else go r
    end.

(** structures.py:187-194 _evaluate_diglevel (the level_items part) and
    197-203 dig_for_all.  [reduce(add, ...)] concatenates.  A non-mapping
    argument has no [.values()]. *)
Fixpoint dig_for_all (m : val) (p : pred) (mt : cls -> bool)
    : res (list (key * val)) :=
  match m with
  | VDict _ d =>
      level_items <- filterM (fun kv => p (fst kv) (snd kv)) d ;;
      nested <- mapM_nests mt (fun v => dig_for_all v p mt) d ;;
      Ok (level_items ++ List.concat nested)
  | _ => Exc AttributeError
  end.

(** structures.py:206-213 dig_all_wrapper; [element_ix] 0, 1, None are the
    projections fst, snd and identity. *)
Definition dig_all_wrapper {A} (m : val) (r : ref) (match_ : string)
    (bp : callable) (element_ix : key * val -> A) (mt : cls -> bool)
    : res (option (list A)) :=
  items <- dig_for_all m (constant_to_dig_predicate r match_ bp) mt ;;
  match items with
  | [] => Ok None
  | _ => Ok (Some (map element_ix items))
  end.

(** structures.py:216-225 dig_for_values, dig_for_keys, dig_for_items. *)
Definition dig_for_values m r match_ bp mt :=
  dig_all_wrapper m r match_ bp (@snd key val) mt.
Definition dig_for_keys m r match_ bp mt :=
  dig_all_wrapper m r match_ bp (@fst key val) mt.
Definition dig_for_items m r match_ bp mt :=
  dig_all_wrapper m r match_ bp (fun kv : key * val => kv) mt.

(** structures.py:237-243: the [while dug is None] loop over [nests]; the
    [except StopIteration] also swallows a StopIteration raised inside the
    recursive call. *)
Definition first_nests {A} (mt : cls -> bool) (f : val -> res (option A)) :=
  fix go (d : list (key * val)) : res (option A) :=
    match d with
    | [] => Ok None
    | (_, v) :: r =>
        if isinst mt v then
          match f v with
          | Ok (Some a) => Ok (Some a)
          | Ok None => go r
          | Exc StopIteration => Ok None
          | Exc e => Exc e
          end
        else go r
    end.

(** structures.py:228-243 dig_for. *)
Fixpoint dig_for (m : val) (p : pred) (mt : cls -> bool)
    : res (option (list (key * val))) :=
  match m with
  | VDict _ d =>
      level_items <- filterM (fun kv => p (fst kv) (snd kv)) d ;;
      match level_items with
      | _ :: _ => Ok (Some level_items)
      | [] => first_nests mt (fun v => dig_for v p mt) d
      end
  | _ => Exc AttributeError
  end.

(** structures.py:246-253 dig_wrapper; item[0] of an empty list would raise
    IndexError. *)
Definition dig_wrapper {A} (m : val) (r : ref) (match_ : string)
    (bp : callable) (element_ix : key * val -> A) (mt : cls -> bool)
    : res (option A) :=
  item <- dig_for m (constant_to_dig_predicate r match_ bp) mt ;;
  match item with
  | None => Ok None
  | Some (i :: _) => Ok (Some (element_ix i))
  | Some [] => Exc IndexError
  end.

(** structures.py:256-265 dig_for_value, dig_for_key, dig_for_item. *)
Definition dig_for_value m r match_ bp mt :=
  dig_wrapper m r match_ bp (@snd key val) mt.
Definition dig_for_key m r match_ bp mt :=
  dig_wrapper m r match_ bp (@fst key val) mt.
Definition dig_for_item m r match_ bp mt :=
  dig_wrapper m r match_ bp (fun kv : key * val => kv) mt.

(** The loop of structures.py:277-278 over the nested mappings: each is
    edited in place. *)
Definition edit_nests (mt : cls -> bool) (f : val -> res val) :=
  fix go (d : list (key * val)) : res (list (key * val)) :=
    match d with
    | [] => Ok []
    | (k, v) :: r =>
        v' <- (if isinst mt v then f v else Ok v) ;;
        r' <- go r ;; Ok ((k, v') :: r')
    end.

(** structures.py:268-279 dig_and_edit. *)
Fixpoint dig_and_edit (fuel : nat) (m : val) (filter_func : pred)
    (setter_func : key -> val -> res val) (mt : cls -> bool) : res val :=
  match fuel with
  | O => Exc RecursionError
  | S fuel' =>
      match m with
      | VDict c d =>
          matches <- filterM (fun kv => filter_func (fst kv) (snd kv)) d ;;
          d1 <- foldM (fun acc kv =>
                         nv <- setter_func (fst kv) (snd kv) ;;
                         Ok (dset acc (fst kv) nv)) matches d ;;
          d2 <- edit_nests mt
                  (fun v => dig_and_edit fuel' v filter_func setter_func mt)
                  d1 ;;
          Ok (VDict c d2)
      | _ => Exc AttributeError
      end
  end.

(** ** unnest *)

(** structures.py:49-51: the prefix built from the levels above an item. *)
Definition unnest_prefix (escape : string) (levels : list key) : string :=
  let prefix :=
    String.concat (escape ++ "_" ++ escape)%string (map py_str levels) in
  if Nat.ltb 0 (String.length prefix)
  then (escape ++ prefix ++ escape ++ "_")%string
  else prefix.

(** structures.py:46-59 _unnest on an accepted mapping.  Each element of the
    returned list stands for a one-entry dict. *)
Fixpoint unnest_ (nested : val) (mt : cls -> bool) (escape : string)
    (levels : list key) : list (key * val) :=
  match nested with
  | VDict _ d =>
      let prefix := unnest_prefix escape levels in
      flat_map
        (fun kv =>
           if isinst mt (snd kv)
           then unnest_ (snd kv) mt escape (levels ++ [fst kv])
           else [(KStr (prefix ++ py_str (fst kv))%string, snd kv)]) d
  | _ => []
  end.

(** structures.py:62-64 unnest; cytoolz.merge is successive dict update.  An
    argument that is a [dict] of a class not accepted is merged as it is
    (copied); any other argument is treated as rejected with TypeError
    (cytoolz.merge would also accept an iterable of dicts; not modelled). *)
Definition unnest (nested : val) (mt : cls -> bool) (escape : string)
    : res val :=
  match nested with
  | VDict c d =>
      if mt c then Ok (VDict CDict (dict_of (unnest_ nested mt escape [])))
      else if is_dict_cls c then Ok (VDict CDict (dict_of d))
      else Exc TypeError
  | _ => Exc TypeError
  end.

(** ** to_records *)

(** A level-name iterator: func.py:24-25 naturals() in a given position, or
    what is left of a list or tuple iterator.  Copying one (structures.py:37)
    gives an independent iterator, as for these iterator types in Python. *)
Inductive names := Naturals (next : Z) | Listed (l : list key).

(** [next(level_names)]. *)
Definition next_name (it : names) : res (key * names) :=
  match it with
  | Naturals n => Ok (KInt n, Naturals (n + 1))
  | Listed [] => Exc StopIteration
  | Listed (k :: r) => Ok (k, Listed r)
  end.

(** structures.py:26-43 to_records, with the iterator already made.  A
    category whose value is not a mapping has no [.values()].  [mapping |
    category_dict] keeps the class of [mapping] (only classes supporting [|]
    are considered). *)
Fixpoint to_records_ (nested : val) (acc : dict val) (level_names : names)
    : res (list val) :=
  match nested with
  | VDict _ d =>
      ln <- next_name level_names ;;
      let (level_name, rest) := ln in
      (fix go (d : list (key * val)) : res (list val) :=
         match d with
         | [] => Ok []
         | (category, mapping) :: r =>
             match mapping with
             | VDict c m =>
                 recs <-
                   (if forallb is_mapping (dvalues m) then
                      to_records_ mapping
                        (dset acc level_name (VAtom category)) rest
                    else
                      let category_dict :=
                        dupdate acc [(level_name, VAtom category)] in
                      Ok [VDict c (dupdate m category_dict)]) ;;
                 more <- go r ;; Ok (recs ++ more)
             | _ => Exc AttributeError
             end
         end) d
  | _ => Exc AttributeError
  end.

(** structures.py:26-31: default arguments. *)
Definition to_records (nested : val) (level_names : option (list key))
    : res (list val) :=
  to_records_ nested []
    (match level_names with None => Naturals 1 | Some l => Listed l end).

(** ** rmerge *)

(** mtypes=(dict, OrderedDict), structures.py:295. *)
Definition rmerge_default_mt : cls -> bool := is_dict_cls.

(** structures.py:295-312 rmerge.  [map1[k]], [map2[k]] on a missing key
    would raise KeyError.  The recursive call at 309 does not pass mtypes. *)
Fixpoint rmerge (fuel : nat) (map1 map2 : dict val) (mt : cls -> bool)
    : res (dict val) :=
  match fuel with
  | O => Exc RecursionError
  | S fuel' =>
      let only_in_one k := xorb (dhas map1 k) (dhas map2 k) in
      foldM (fun output kv =>
               let '(k, v) := kv in
               if only_in_one k then Ok (dset output k v)
               else
                 match dget map1 k, dget map2 k with
                 | Some a, Some b =>
                     if isinst mt a && isinst mt b then
                       m <- rmerge fuel' (entries a) (entries b)
                              rmerge_default_mt ;;
                       Ok (dset output k (VDict CDict m))
                     else Ok (dset output k b)
                 | _, _ => Exc KeyError
                 end)
            (map1 ++ map2) []
  end.

(** ** Small mapping helpers *)

(** structures.py:91-96 listify.  Strings are atoms here, so [Collection]
    and not [str] means list, tuple or mapping (whose list is its keys). *)
Definition listify (thing : val) : list val :=
  match thing with
  | VList l => l
  | VTup l => l
  | VDict _ d => map VAtom (dkeys d)
  | VAtom k => [VAtom k]
  end.

(** [enumerate(l)] starting at [i]. *)
Fixpoint enumerate_from {V} (i : Z) (l : list V) : list (key * V) :=
  match l with
  | [] => []
  | x :: r => (KInt i, x) :: enumerate_from (i + 1) r
  end.

(** structures.py:99-103 reindex_mapping ([zip(range(len(m)), m.values())];
    a non-mapping fails the assertion). *)
Definition reindex_mapping (m : val) : res (dict val) :=
  match m with
  | VDict _ d => Ok (dict_of (enumerate_from 0 (dvalues d)))
  | _ => Exc AssertionError
  end.

(** structures.py:106-111 enumerate_as_mapping.  A non-iterable argument
    raises TypeError (strings, which are iterable, are treated as
    non-iterable here). *)
Definition enumerate_as_mapping (s : val) : res val :=
  match s with
  | VAtom KNone => Ok (VDict CDict [])
  | VDict c d => Ok (VDict c d)
  | VList l | VTup l => Ok (VDict CDict (dict_of (enumerate_from 0 l)))
  | VAtom _ => Exc TypeError
  end.

(** structures.py:114-122 insert_after. *)
Definition insert_after {V} (new_key : key) (new_value : V) (prior_key : key)
    (mapping : dict V) : dict V :=
  fold_left
    (fun new_dict kv =>
       let '(k, v) := kv in
       let new_dict := dset new_dict k v in
       if keqb k prior_key then dset new_dict new_key new_value
       else new_dict)
    mapping [].

(** structures.py:125-133 get_from_all, on a mapping of mappings or a
    sequence of mappings; an element without [.get] raises AttributeError. *)
Definition get_from_all (k : key) (mappings : val) (default : val)
    : res (list val) :=
  let view := match mappings with
              | VDict _ d => dvalues d
              | VList l | VTup l => l
              | VAtom _ => []
              end in
  match mappings with
  | VAtom _ => Exc TypeError
  | _ => mapM (fun m => match m with
                        | VDict _ d =>
                            Ok (match dget d k with
                                | Some v => v | None => default end)
                        | _ => Exc AttributeError
                        end) view
  end.

(** structures.py:136-159.  The objects are abstract: [getitem] and
    [getattr] are the object's own behaviour; [getattr(o, k)] with a
    non-string name raises TypeError. *)
Section GetFrom.
  Context {obj : Type}.
  Variable getitem : obj -> key -> res obj.
  Variable getattr : obj -> string -> res obj.

  (** structures.py:136-144 getitemattr. *)
  Definition getitemattr (collection : obj) (k : key) : res obj :=
    match getitem collection k with
    | Ok v => Ok v
    | Exc KeyError | Exc IndexError | Exc TypeError =>
        match k with
        | KStr s => getattr collection s
        | _ => Exc TypeError
        end
    | Exc e => Exc e
    end.

  (** structures.py:147-159 get_from. *)
  Fixpoint get_from (collection : obj) (keys : list key) (default : obj)
      : res obj :=
    match keys with
    | [] => Ok collection
    | k :: r =>
        match getitemattr collection k with
        | Ok level => get_from level r default
        | Exc AttributeError => Ok default
        | Exc e => Exc e
        end
    end.
End GetFrom.

(** structures.py:284-292 separate_by.  [ref] returns an arbitrary value;
    only the object True ([is True]) counts. *)
Definition is_True (v : val) : bool :=
  match v with VAtom (KBool true) => true | _ => false end.

Definition separate_by {A} (collection : list A) (r : A -> res val)
    : res (list A * list A) :=
  foldM (fun hm item =>
           let '(hits, misses) := hm in
           b <- r item ;;
           if is_True b then Ok (hits ++ [item], misses)
           else Ok (hits, misses ++ [item]))
        collection ([], []).

(** ** NestingDict *)

(** defaultdict.__getitem__ with default_factory NestingDict
    (structures.py:67-76): reading a missing key of a NestingDict inserts and
    returns an empty NestingDict.  Returns the value and the dict
    afterwards.  Indexing a non-mapping is not modelled beyond raising
    TypeError. *)
Definition nd_getitem (m : val) (k : key) : res (val * val) :=
  match m with
  | VDict c d =>
      match dget d k, c with
      | Some v, _ => Ok (v, m)
      | None, CNesting =>
          Ok (VDict CNesting [], VDict CNesting (dset d k (VDict CNesting [])))
      | None, _ => Exc KeyError
      end
  | _ => Exc TypeError
  end.

(** [m[k] = v] *)
Definition nd_setitem (m : val) (k : key) (v : val) : res val :=
  match m with
  | VDict c d => Ok (VDict c (dset d k v))
  | _ => Exc TypeError
  end.

(** [m[k1][k2]...[kn]]: the value read and the tree afterwards (levels
    created on the way stay). *)
Fixpoint nd_get (m : val) (path : list key) : res (val * val) :=
  match path with
  | [] => Ok (m, m)
  | k :: r =>
      vm <- nd_getitem m k ;;
      let (child, m1) := vm in
      vc <- nd_get child r ;;
      let (v, child') := vc in
      m2 <- nd_setitem m1 k child' ;;
      Ok (v, m2)
  end.

(** [m[k1]...[kn-1][kn] = v]: the tree afterwards. *)
Fixpoint nd_set (m : val) (path : list key) (v : val) : res val :=
  match path with
  | [] => Exc TypeError
  | [k] => nd_setitem m k v
  | k :: r =>
      vm <- nd_getitem m k ;;
      let (child, m1) := vm in
      child' <- nd_set child r v ;;
      nd_setitem m1 k child'
  end.

(** structures.py:80-88 NestingDict.todict: dig_and_edit with
    [is_it(NestingDict)] and [dict], then [dict(...)] of the result.  Returns
    the new dict and the NestingDict as modified in place. *)
Definition is_nesting (v : val) : bool :=
  match v with VDict CNesting _ => true | _ => false end.

Definition to_plain (v : val) : val :=
  match v with VDict _ d => VDict CDict d | _ => v end.

Definition todict (fuel : nat) (self : val) : res (val * val) :=
  m <- dig_and_edit fuel self
         (fun _ v => Ok (is_nesting v)) (fun _ v => Ok (to_plain v))
         is_dict_cls ;;
  Ok (to_plain m, m).

(** ** HashDict *)

(** structures.py:315-337.  [equivalence] maps items to hashable values. *)
Record hashdict (A : Type) := mkHD
  { hd_dict : dict key; hd_reverse : dict A }.
Arguments mkHD {A}.
Arguments hd_dict {A}.
Arguments hd_reverse {A}.

(** structures.py:316-319 __init__ *)
Definition hd_empty {A} : hashdict A := mkHD [] [].

(** structures.py:321-325 __setitem__ *)
Definition hd_set {A} (hasher : A -> key) (h : hashdict A) (k : key)
    (item : A) : hashdict A :=
  let itemhash := hasher item in
  mkHD (dset (hd_dict h) k itemhash)
       (if dhas (hd_reverse h) itemhash then hd_reverse h
        else dset (hd_reverse h) itemhash item).

(** structures.py:327-328 __getitem__ *)
Definition hd_get {A} (h : hashdict A) (k : key) : res A :=
  match dget (hd_dict h) k with
  | None => Exc KeyError
  | Some hash =>
      match dget (hd_reverse h) hash with
      | None => Exc KeyError
      | Some item => Ok item
      end
  end.

(** structures.py:330-337 __str__ and __repr__ *)
Definition hd_str {A} (h : hashdict A) : string :=
  ("HashDict with " ++ str_of_Z (Z.of_nat (List.length (hd_dict h))) ++ " keys storing " ++
   str_of_Z (Z.of_nat (List.length (hd_reverse h))) ++ " unique values")%string.

(** Python's [hash] on ints (CPython, 64 bit): the default equivalence. *)
Definition py_int_hash (z : Z) : Z :=
  let m := (2 ^ 61 - 1)%Z in
  let h := (Z.sgn z * (Z.abs z mod m))%Z in
  if (h =? -1)%Z then (-2)%Z else h.
