(** What a copy of a graph of objects is.  Nothing about bytes here. *)
From Verif Require Export Pickle_Model.

(** ** Graphs *)

Definition children (n : node) : list pv :=
  match n with
  | NStr _ | NBytes _ => []
  | NList l | NTup l => l
  | NDict d => map fst d ++ map snd d
  end.
Inductive reaches (h : heap) : pv -> nat -> Prop :=
| reaches_here x : reaches h (PRef x) x
| reaches_on x n w y : h x = Some n -> In w (children n) -> reaches h w y -> reaches h (PRef x) y.

(** What a key is as a value; [n] levels of tuples at most.  True is 1. *)
Inductive ktree : Type := KtNone | KtInt (z : Z) | KtStr (s : string) | KtBytes (b : bytes) | KtTup (l : list ktree).
Inductive as_key (h : heap) : nat -> pv -> ktree -> Prop :=
| ak_none n : as_key h n PNone KtNone
| ak_bool n (b : bool) : as_key h n (PBool b) (KtInt (if b then 1 else 0))
| ak_int n z : as_key h n (PInt z) (KtInt z)
| ak_unit n : as_key h n PUnit (KtTup [])
| ak_str n x s : h x = Some (NStr s) -> as_key h (S n) (PRef x) (KtStr s)
| ak_bytes n x b : h x = Some (NBytes b) -> as_key h (S n) (PRef x) (KtBytes b)
| ak_tup n x l ks : h x = Some (NTup l) -> Forall2 (as_key h n) l ks -> as_key h (S n) (PRef x) (KtTup ks).

(** Each object there is exists, the empty tuple is not among those with an
    identity, and dictionaries have different, hashable keys. *)
Definition proper (limit : nat) (h : heap) (v : pv) : Prop :=
  forall x, reaches h v x ->
    match h x with
    | None | Some (NTup []) => False
    | Some (NDict d) => exists ks, Forall2 (as_key h limit) (map fst d) ks /\ NoDup ks
    | Some _ => True
    end.

(** ** Copies *)

(** Same up to the references, which are paired by [R]. *)
Inductive same_pv (R : nat -> nat -> Prop) : pv -> pv -> Prop :=
| sp_none : same_pv R PNone PNone
| sp_bool b : same_pv R (PBool b) (PBool b)
| sp_int z : same_pv R (PInt z) (PInt z)
| sp_float z : same_pv R (PFloat z) (PFloat z)
| sp_unit : same_pv R PUnit PUnit
| sp_ref x y : R x y -> same_pv R (PRef x) (PRef y).
Inductive same_node (R : nat -> nat -> Prop) : node -> node -> Prop :=
| sn_str s : same_node R (NStr s) (NStr s)
| sn_bytes b : same_node R (NBytes b) (NBytes b)
| sn_list l l' : Forall2 (same_pv R) l l' -> same_node R (NList l) (NList l')
| sn_tup l l' : Forall2 (same_pv R) l l' -> same_node R (NTup l) (NTup l')
| sn_dict d d' : Forall2 (fun a b => same_pv R (fst a) (fst b) /\ same_pv R (snd a) (snd b)) d d' -> same_node R (NDict d) (NDict d').
(** The objects of the two can be paired one to one, such that paired objects
    have the same contents, item by item in the same order, where references
    in the one correspond to references to the paired object in the other:
    what was one object is one object, cycles are cycles. *)
Definition is_copy (h : heap) (v : pv) (h' : heap) (v' : pv) : Prop :=
  exists R : nat -> nat -> Prop,
    (forall x y z, R x y -> R x z -> y = z) /\ (forall x y z, R x z -> R y z -> x = y) /\
    (forall x y, R x y -> exists n n', h x = Some n /\ h' y = Some n' /\ same_node R n n') /\
    same_pv R v v'.

(** ** Values without identity *)

Inductive ptree : Type :=
| TrAtom (v : pv)
| TrStr (s : string)
| TrBytes (b : bytes)
| TrList (l : list ptree)
| TrTup (l : list ptree)
| TrDict (d : list (ptree * ptree))
| TrCut.
(** The first [n] levels of a value. *)
Fixpoint shown (n : nat) (h : heap) (v : pv) : ptree :=
  match v with
  | PRef x =>
      match n, h x with
      | S m, Some (NStr s) => TrStr s
      | S m, Some (NBytes b) => TrBytes b
      | S m, Some (NList l) => TrList (map (shown m h) l)
      | S m, Some (NTup l) => TrTup (map (shown m h) l)
      | S m, Some (NDict d) => TrDict (map (fun kv => (shown m h (fst kv), shown m h (snd kv))) d)
      | _, _ => TrCut
      end
  | _ => TrAtom v
  end.

(** At most [n] objects within each other. *)
Inductive nested (h : heap) : nat -> pv -> Prop :=
| ne_atom n v : (forall x, v <> PRef x) -> nested h n v
| ne_ref n x nd : h x = Some nd -> (forall w, In w (children nd) -> nested h n w) -> nested h (S n) (PRef x).
(** Integers of at most 2^30 bits, floats of 64, text and bytes of less than
    2^62 characters. *)
Definition fits_pv (v : pv) : Prop :=
  match v with
  | PInt z => (Z.log2 (Z.abs z) < 2 ^ 30)%Z
  | PFloat bits => (0 <= bits < 2 ^ 64)%Z
  | _ => True
  end.
Definition fits (h : heap) (v : pv) : Prop :=
  fits_pv v /\
  forall x n, reaches h v x -> h x = Some n ->
    (forall w, In w (children n) -> fits_pv w) /\
    match n with NStr s | NBytes s => (Z.of_nat (String.length s) < 2 ^ 62)%Z | _ => True end.

(** Fewer bytes than 64 bits can count. *)
Definition short (b : bytes) : Prop := (Z.of_nat (String.length b) < 2 ^ 64)%Z.
