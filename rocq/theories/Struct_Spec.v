(** Specification vocabulary for structures.py: what a reader of the English
    properties would write down.  Only the Python base model is used, none of
    the functions of Struct_Model.v. *)
From Verif Require Export Py_Model.

(** ** Where things are inside a nested mapping *)

(** [at_path mt m p v]: following the keys [p] (at least one) from mapping
    [m], through values of accepted classes, one finds the entry whose value
    is [v]. *)
Inductive at_path (mt : cls -> bool) : val -> list key -> val -> Prop :=
| ap_here m k v : In (k, v) (entries m) -> at_path mt m [k] v
| ap_down m k x p v :
    In (k, x) (entries m) -> isinst mt x = true -> at_path mt x p v ->
    at_path mt m (k :: p) v.

(** The entries of a nested mapping with their paths, in search order: those
    of a level first, then those of its nested mappings in turn. *)
Fixpoint located (mt : cls -> bool) (m : val) : list (list key * val) :=
  match m with
  | VDict _ d =>
      map (fun kv => ([fst kv], snd kv)) d ++
      flat_map
        (fun kv =>
           if isinst mt (snd kv)
           then map (fun pv => (fst kv :: fst pv, snd pv)) (located mt (snd kv))
           else []) d
  | _ => []
  end.

(** The (key, value) pair of a located entry. *)
Definition item_of (pv : list key * val) : key * val :=
  (last (fst pv) KNone, snd pv).

(** The items of [m] satisfying [p], in search order. *)
Definition matching (mt : cls -> bool) (p : key -> val -> bool) (m : val)
    : list (key * val) :=
  filter (fun kv => p (fst kv) (snd kv)) (map item_of (located mt m)).

(** None for an empty list. *)
Definition none_if_empty {A} (l : list A) : option (list A) :=
  match l with [] => None | _ => Some l end.

(** The mappings a search visits, in order: a mapping before those nested in
    it. *)
Fixpoint dig_levels (mt : cls -> bool) (m : val) : list (list (key * val)) :=
  match m with
  | VDict _ d =>
      d :: flat_map
             (fun kv => if isinst mt (snd kv) then dig_levels mt (snd kv) else [])
             d
  | _ => []
  end.

(** The first of the levels on which the predicate raises or accepts
    something decides; all entries of a level are tested before the next. *)
Fixpoint first_decided (pr : key -> val -> res bool)
    (levels : list (list (key * val))) : res (option (key * val)) :=
  match levels with
  | [] => Ok None
  | d :: r =>
      match filterM (fun kv => pr (fst kv) (snd kv)) d with
      | Exc e => Exc e
      | Ok (x :: _) => Ok (Some x)
      | Ok [] => first_decided pr r
      end
  end.

(** ** Editing *)

(** [Edited p s mt m m']: [m'] has the class and the keys of [m], in order;
    an entry satisfying [p] gets the value given by [s]; then values of
    accepted classes are edited in turn, all others stay. *)
Inductive Edited (p : key -> val -> bool) (s : key -> val -> val)
    (mt : cls -> bool) : val -> val -> Prop :=
| Ed c d d' :
    Forall2 (EditedEntry p s mt) d d' -> Edited p s mt (VDict c d) (VDict c d')
with EditedEntry (p : key -> val -> bool) (s : key -> val -> val)
    (mt : cls -> bool) : key * val -> key * val -> Prop :=
| Ed_leaf k v :
    isinst mt (if p k v then s k v else v) = false ->
    EditedEntry p s mt (k, v) (k, if p k v then s k v else v)
| Ed_nest k v w :
    isinst mt (if p k v then s k v else v) = true ->
    Edited p s mt (if p k v then s k v else v) w ->
    EditedEntry p s mt (k, v) (k, w).

(** ** Flattening *)

(** Leaves (values of classes not accepted) with their paths, in traversal
    order. *)
Fixpoint leaf_paths (mt : cls -> bool) (m : val) : list (list key * val) :=
  match m with
  | VDict _ d =>
      flat_map
        (fun kv =>
           if isinst mt (snd kv)
           then map (fun pv => (fst kv :: fst pv, snd pv))
                    (leaf_paths mt (snd kv))
           else [([fst kv], snd kv)]) d
  | _ => []
  end.

(** The flat key of a leaf: every level above it as escape-level-escape-"_",
    then the leaf's own key unescaped.  A single level above whose text is
    empty leaves no trace. *)
Fixpoint flat_key_ (e : string) (p : list key) : string :=
  match p with
  | [] => ""
  | [k] => py_str k
  | a :: r => (e ++ py_str a ++ e ++ "_" ++ flat_key_ e r)%string
  end.
Definition flat_key (e : string) (p : list key) : string :=
  match p with
  | [a; k] => if string_dec (py_str a) "" then py_str k else flat_key_ e p
  | _ => flat_key_ e p
  end.

(** The different keys in a list. *)
Fixpoint kinds (l : list key) : list key :=
  match l with
  | [] => []
  | k :: r => if existsb (fun j => keqb j k) r then kinds r else k :: kinds r
  end.

(** Last element of a list satisfying a test. *)
Definition last_such {A} (f : A -> bool) (l : list A) : option A :=
  find f (rev l).

(** Every key in the nested mapping is a string without the character
    [c]. *)
Definition str_without (c : ascii) (s : string) : bool :=
  forallb (fun x => negb (Ascii.eqb x c)) (list_ascii_of_string s).
Definition good_key (c : ascii) (k : key) : bool :=
  match k with
  | KStr s => str_without c s
  | _ => false
  end.
Fixpoint good_keys (mt : cls -> bool) (c : ascii) (m : val) : bool :=
  match m with
  | VDict _ d =>
      forallb (fun kv => good_key c (fst kv) &&
                         (if isinst mt (snd kv) then good_keys mt c (snd kv)
                          else true)) d
  | _ => true
  end.

(** The empty string at the top level is not the key of a nested mapping. *)
Definition no_blank_top (mt : cls -> bool) (m : val) : bool :=
  match m with
  | VDict _ d =>
      forallb (fun kv => negb (keqb (fst kv) (KStr "") && isinst mt (snd kv))) d
  | _ => true
  end.

(** ** Records *)

(** The leaf mappings of a mapping of mappings, with the categories leading
    to them: a mapping all of whose values are mappings is descended into. *)
Fixpoint record_leaves (m : val) : list (list key * val) :=
  match m with
  | VDict _ d =>
      flat_map
        (fun kv =>
           if forallb is_mapping (map snd (entries (snd kv)))
           then map (fun pv => (fst kv :: fst pv, snd pv))
                    (record_leaves (snd kv))
           else [([fst kv], snd kv)]) d
  | _ => []
  end.

(** Every category met is a mapping. *)
Fixpoint records_shape (m : val) : bool :=
  match m with
  | VDict _ d =>
      forallb (fun kv => is_mapping (snd kv) &&
                 (if forallb is_mapping (map snd (entries (snd kv)))
                  then records_shape (snd kv) else true)) d
  | _ => false
  end.

(** Number of levels that need a name. *)
Fixpoint record_levels (m : val) : nat :=
  match m with
  | VDict _ d =>
      S (list_max (map (fun kv =>
           if forallb is_mapping (map snd (entries (snd kv)))
           then record_levels (snd kv) else 0) d))
  | _ => 0
  end.

(** The value a record must hold for key [k]: the deepest category whose
    level is named [k], else the field of the leaf mapping. *)
Definition record_field (names path : list key) (leaf : val) (k : key)
    : option val :=
  match last_such (fun nc => keqb (fst nc) k) (combine names path) with
  | Some nc => Some (VAtom (snd nc))
  | None => dget (entries leaf) k
  end.

(** ** Merging *)

(** Recursive right-biased union; [deep] is the set of classes merged below
    the top level. *)
Fixpoint merged (deep : cls -> bool) (a b : val) {struct a} : val :=
  match a, b with
  | VDict _ d1, VDict _ d2 =>
      VDict CDict
        (map (fun kv =>
                (fst kv,
                 match dget d2 (fst kv) with
                 | None => snd kv
                 | Some w =>
                     if isinst deep (snd kv) && isinst deep w
                     then merged deep (snd kv) w else w
                 end)) d1
         ++ filter (fun kv => negb (dhas d1 (fst kv))) d2)
  | _, _ => b
  end.

(** The same with a separate set [mt] of classes merged at the top level. *)
Definition merged_with (mt : cls -> bool) (d1 d2 : list (key * val))
    : list (key * val) :=
  map (fun kv =>
         (fst kv,
          match dget d2 (fst kv) with
          | None => snd kv
          | Some w => if isinst mt (snd kv) && isinst mt w
                      then merged is_dict_cls (snd kv) w else w
          end)) d1
  ++ filter (fun kv => negb (dhas d1 (fst kv))) d2.

(** All mappings inside are plain dicts. *)
Fixpoint plain (v : val) : bool :=
  match v with
  | VDict c d =>
      match c with CDict => true | _ => false end
      && forallb (fun kv => plain (snd kv)) d
  | _ => true
  end.

(** Value found by following keys through mappings. *)
Fixpoint peek (m : val) (p : list key) : option val :=
  match p with
  | [] => Some m
  | k :: r => match m with
              | VDict _ d => match dget d k with
                             | Some v => peek v r
                             | None => None
                             end
              | _ => None
              end
  end.

(** No key holds a dict on one side and something else on the other. *)
Fixpoint compatible (a b : val) {struct a} : bool :=
  match a, b with
  | VDict c1 d1, VDict c2 d2 =>
      Bool.eqb (is_dict_cls c1) (is_dict_cls c2) &&
      forallb (fun kv => match dget d2 (fst kv) with
                         | None => true
                         | Some w => compatible (snd kv) w
                         end) d1
  | VDict c _, _ => negb (is_dict_cls c)
  | _, VDict c _ => negb (is_dict_cls c)
  | _, _ => true
  end.

(** ** NestingDict *)

(** All NestingDicts nested in dicts replaced by plain dicts. *)
Fixpoint plainified (v : val) : val :=
  match v with
  | VDict c d =>
      if is_dict_cls c
      then VDict (match c with CNesting => CDict | _ => c end)
             (map (fun kv => (fst kv, plainified (snd kv))) d)
      else v
  | _ => v
  end.

(** No NestingDict reachable through dicts. *)
Fixpoint no_nesting (v : val) : bool :=
  match v with
  | VDict c d =>
      match c with
      | CNesting => false
      | CMap _ => true
      | _ => forallb (fun kv => no_nesting (snd kv)) d
      end
  | _ => true
  end.

(** [p] can be assigned in [m]: every existing proper prefix is a
    NestingDict. *)
Fixpoint assignable (m : val) (p : list key) : bool :=
  match p with
  | [] => false
  | k :: r =>
      match m with
      | VDict CNesting d =>
          match r with
          | [] => true
          | _ => match dget d k with
                 | None => true
                 | Some v => assignable v r
                 end
          end
      | _ => false
      end
  end.

(** Neither path is a prefix of the other (up to Python key equality). *)
Fixpoint diverge (p q : list key) : bool :=
  match p, q with
  | a :: p', b :: q' => if keqb a b then diverge p' q' else true
  | _, _ => false
  end.
Fixpoint same_path (p q : list key) : bool :=
  match p, q with
  | [], [] => true
  | a :: p', b :: q' => keqb a b && same_path p' q'
  | _, _ => false
  end.

(** ** Following keys through objects *)

(** [reaches o ks v]: starting at [o], each key is found either as an item
    or, when item lookup fails with a lookup error and the key is a string,
    as an attribute; the last object found is [v]. *)
Definition lookup_error (e : exn) : bool :=
  match e with KeyError | IndexError | TypeError => true | _ => false end.

Inductive reaches {obj : Type} (getitem : obj -> key -> res obj)
    (getattr : obj -> string -> res obj) : obj -> list key -> obj -> Prop :=
| re_nil o : reaches getitem getattr o [] o
| re_item o k r v w :
    getitem o k = Ok v -> reaches getitem getattr v r w ->
    reaches getitem getattr o (k :: r) w
| re_attr o s r e v w :
    getitem o (KStr s) = Exc e -> lookup_error e = true ->
    getattr o s = Ok v -> reaches getitem getattr v r w ->
    reaches getitem getattr o (KStr s :: r) w.

(** Item lookup on nested mappings and sequences, with an arbitrary table of
    attributes. *)
Definition val_getitem (o : val) (k : key) : res val :=
  match o, k with
  | VDict _ d, _ => match dget d k with Some v => Ok v | None => Exc KeyError end
  | VList l, KInt z | VTup l, KInt z =>
      let n := Z.of_nat (List.length l) in
      let i := (if z <? 0 then z + n else z)%Z in
      if ((0 <=? i) && (i <? n))%Z
      then match nth_error l (Z.to_nat i) with Some v => Ok v | None => Exc IndexError end
      else Exc IndexError
  | _, _ => Exc TypeError
  end.
Definition val_getattr (attrs : val -> string -> option val) (o : val)
    (s : string) : res val :=
  match attrs o s with Some v => Ok v | None => Exc AttributeError end.

(** ** Partitions *)

(** [subseq a b]: [a] is [b] with some elements left out, in order. *)
Inductive subseq {A : Type} : list A -> list A -> Prop :=
| ss_nil : subseq [] []
| ss_take x a b : subseq a b -> subseq (x :: a) (x :: b)
| ss_skip x a b : subseq a b -> subseq a (x :: b).
