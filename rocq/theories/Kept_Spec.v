(** Python values as what they look like, for the default codec of Notepad and
    Sticky (C93).  How the objects of a process share their parts is left open. *)
From Verif Require Export Pad_Spec Pickle_Spec.

(** A value as a key. *)
Fixpoint tree_key (t : ptree) : option ktree :=
  match t with
  | TrAtom PNone => Some KtNone
  | TrAtom (PBool b) => Some (KtInt (if b then 1 else 0))
  | TrAtom (PInt z) => Some (KtInt z)
  | TrAtom PUnit => Some (KtTup [])
  | TrStr s => Some (KtStr s)
  | TrBytes b => Some (KtBytes b)
  | TrTup l => option_map KtTup (fold_right (fun k r => match k, r with Some a, Some b => Some (a :: b) | _, _ => None end) (Some []) (map tree_key l))
  | _ => None
  end.

(** None, booleans, integers, floats, text, bytes, lists, tuples (the empty one
    is [TrAtom PUnit]) and dictionaries with different keys. *)
Inductive value : ptree -> Prop :=
| va_atom v : (forall x, v <> PRef x) -> value (TrAtom v)
| va_str s : value (TrStr s)
| va_bytes b : value (TrBytes b)
| va_list l : Forall value l -> value (TrList l)
| va_tup l : l <> [] -> Forall value l -> value (TrTup l)
| va_dict d ks : Forall value (map fst d) -> Forall value (map snd d) ->
    map tree_key (map fst d) = map Some ks -> NoDup ks -> value (TrDict d).
(** Integers, floats and texts of a size that can be written. *)
Inductive small : ptree -> Prop :=
| sm_atom v : fits_pv v -> small (TrAtom v)
| sm_str s : (Z.of_nat (String.length s) < 2 ^ 62)%Z -> small (TrStr s)
| sm_bytes b : (Z.of_nat (String.length b) < 2 ^ 62)%Z -> small (TrBytes b)
| sm_list l : Forall small l -> small (TrList l)
| sm_tup l : Forall small l -> small (TrTup l)
| sm_dict d : Forall small (map fst d) -> Forall small (map snd d) -> small (TrDict d).
(** Levels of objects. *)
Fixpoint depth (t : ptree) : nat :=
  match t with
  | TrAtom _ => 0
  | TrStr _ | TrBytes _ | TrCut => 1
  | TrList l | TrTup l => S (fold_right Nat.max 0 (map depth l))
  | TrDict d => S (fold_right Nat.max 0 (map (fun kv => Nat.max (depth (fst kv)) (depth (snd kv))) d))
  end.

(** How many objects, if none is at two places. *)
Fixpoint objects (t : ptree) : nat :=
  match t with
  | TrAtom _ | TrCut => 0
  | TrStr _ | TrBytes _ => 1
  | TrList l | TrTup l => list_sum (map objects l) + 1
  | TrDict d => list_sum (map (fun kv => objects (fst kv) + objects (snd kv)) d) + 1
  end.

(** [lay t] are the objects that the value [t] consists of in the process that
    stores it.  The same object may be at several places. *)
Definition looks_right (limit : nat) (lay : ptree -> heap * pv) (t : ptree) : Prop :=
  shown limit (fst (lay t)) (snd (lay t)) = t.
Definition keep (limit : nat) (lay : ptree -> heap * pv) (t : ptree) : res bytes := pickle_encode limit (fst (lay t)) (snd (lay t)).
Definition take (limit : nat) (b : bytes) : res ptree := x <- pickle_decode limit b ;; Ok (shown limit (fst x) (snd x)).
Definition is_none (t : ptree) : bool := match t with TrAtom PNone => true | _ => false end.

(** Values as they should be, that do not take 2^64 bytes. *)
Definition storable (limit : nat) (lay : ptree -> heap * pv) (t : ptree) : Prop :=
  value t /\ looks_right limit lay t /\ forall b, keep limit lay t = Ok b -> short b.
(** Values that certainly can be encoded. *)
Definition modest (limit : nat) (lay : ptree -> heap * pv) (t : ptree) : Prop :=
  small t /\ depth t < limit /\ exists bound, (forall x, reaches (fst (lay t)) (snd (lay t)) x -> x < bound) /\ (Z.of_nat bound <= 2 ^ 32)%Z.

(** Objects of their own for every part: the parts come first.  [acc] are the
    objects there are already. *)
Fixpoint lay_from (t : ptree) (acc : list node) : pv * list node :=
  let lay_all := fix lay_all (l : list ptree) (acc : list node) : list pv * list node :=
    match l with
    | [] => ([], acc)
    | t :: r => let '(v, acc1) := lay_from t acc in let '(vs, acc2) := lay_all r acc1 in (v :: vs, acc2)
    end in
  let lay_items := fix lay_items (d : list (ptree * ptree)) (acc : list node) : list (pv * pv) * list node :=
    match d with
    | [] => ([], acc)
    | (a, b) :: r =>
        let '(k, acc1) := lay_from a acc in let '(v, acc2) := lay_from b acc1 in
        let '(kvs, acc3) := lay_items r acc2 in ((k, v) :: kvs, acc3)
    end in
  let place (n : node) (acc : list node) := (PRef (List.length acc), acc ++ [n]) in
  match t with
  | TrAtom v => (v, acc)
  | TrStr s => place (NStr s) acc
  | TrBytes b => place (NBytes b) acc
  | TrList l => let '(vs, acc1) := lay_all l acc in place (NList vs) acc1
  | TrTup l => let '(vs, acc1) := lay_all l acc in place (NTup vs) acc1
  | TrDict d => let '(kvs, acc1) := lay_items d acc in place (NDict kvs) acc1
  | TrCut => (PNone, acc)
  end.
Definition unshared (t : ptree) : heap * pv := let '(v, ns) := lay_from t [] in (fun x => nth_error ns x, v).

(** Visits with ordinary keys that store such values, None excepted. *)
Definition everyday (limit : nat) (lay : ptree -> heap * pv) (K : string -> Prop) (v : pvisit ptree) : Prop :=
  pv_fuel v <> 0 /\ (forall k, pop_key (pv_op v) = Some k -> pad_key K k) /\
  (forall k t ok, pv_op v = PSet k t ok -> storable limit lay t /\ modest limit lay t /\ is_none t = false).
Definition everyday_sop (limit : nat) (lay : ptree -> heap * pv) (o : sop ptree) : Prop :=
  forall i t, o = SStick i t -> storable limit lay t /\ modest limit lay t /\ is_none t = false.
(** Values whose encodings all have one length. *)
Definition uniform (t : ptree -> Prop) : Prop := exists n, forall limit lay x b, t x -> looks_right limit lay x -> keep limit lay x = Ok b -> String.length b = n.
Definition a_float (t : ptree) : Prop := exists bits, t = TrAtom (PFloat bits).
Definition a_bool (t : ptree) : Prop := exists b, t = TrAtom (PBool b).
Definition an_int_in (lo hi : Z) (t : ptree) : Prop := exists z, t = TrAtom (PInt z) /\ (lo <= z < hi)%Z.
