(** Specification of a TagIndex: an insertion-ordered set in which the last
    key takes the place of a removed one. *)
From Verif Require Export Shm_Spec Index_Model.

(** Position of [k] in [ks]. *)
Fixpoint position (k : string) (ks : list string) : option Z :=
  match ks with
  | [] => None
  | x :: r =>
      if String.eqb x k then Some 0%Z
      else match position k r with Some i => Some (i + 1)%Z | None => None end
  end.

(** Put [z] in place of the first [k]. *)
Fixpoint put_in_place (k z : string) (ks : list string) : list string :=
  match ks with
  | [] => []
  | x :: r => if String.eqb x k then z :: r else x :: put_in_place k z r
  end.

(** Remove [k], filling its place with the last key. *)
Definition swap_remove (k : string) (ks : list string) : list string :=
  if String.eqb (last ks "") k then removelast ks
  else put_in_place k (last ks "") (removelast ks).

(** What one does with an index, and what one sees. *)
Inductive iop := IAdd (k : ikey) (exists_ok : bool) | IRemove (k : ikey) | ICheck (k : ikey) | IUpdate.
Inductive iout := OPos (r : res Z) | OFound (o : option Z) | OKeys (ks : list string).

Definition tags_step (ks : list string) (o : iop) : iout * list string :=
  match o with
  | IAdd k ok =>
      match position (ktext k) ks with
      | Some i => (OPos (if ok then Ok i else Exc FileExistsError), ks)
      | None => (OPos (Ok (Z.of_nat (List.length ks))), ks ++ [ktext k])
      end
  | IRemove k =>
      match position (ktext k) ks with
      | Some i => (OPos (Ok i), swap_remove (ktext k) ks)
      | None => (OPos (Exc KeyError), ks)
      end
  | ICheck k => (OFound (position (ktext k) ks), ks)
  | IUpdate => (OKeys ks, ks)
  end.
Fixpoint tags_run (ks : list string) (h : list iop) : list iout * list string :=
  match h with
  | [] => ([], ks)
  | o :: r =>
      let '(x, ks1) := tags_step ks o in
      let '(xs, ks2) := tags_run ks1 r in (x :: xs, ks2)
  end.

(** ** The same on the model *)

(** One operation by one process: its handle's lock mode, the number of times
    it is willing to look at the lock, and what it does. *)
Record visit := mkVisit { v_nl : bool; v_fuel : nat; v_op : iop }.

Definition visit_prog (hash : bytes -> string) (I : string) (m : handle) (v : visit) : prog iout :=
  let x := mkIndex I m (v_nl v) in
  match v_op v with
  | IAdd k ok =>
      ptry (tag_add hash (v_fuel v) x k false ok) (fun p => Ret (OPos (Ok p))) (fun e => Ret (OPos (Exc e)))
  | IRemove k =>
      ptry (tag_remove hash (v_fuel v) x k) (fun p => Ret (OPos (Ok p))) (fun e => Ret (OPos (Exc e)))
  | ICheck k => let! o := check hash x k in Ret (OFound o)
  | IUpdate => let! l := update x in Ret (OKeys l)
  end.
Fixpoint visits_prog (hash : bytes -> string) (I : string) (m : handle) (h : list visit) : prog (list iout) :=
  match h with
  | [] => Ret []
  | v :: r =>
      let! x := visit_prog hash I m v in
      let! xs := visits_prog hash I m r in Ret (x :: xs)
  end.

(** Key of an operation. *)
Definition op_key (o : iop) : option ikey :=
  match o with IAdd k _ | IRemove k | ICheck k => Some k | IUpdate => None end.

(** Non-empty keys, not bytes, among the texts [K]. *)
Definition plain_key (K : string -> Prop) (k : ikey) : Prop :=
  ktext k <> "" /\ kraw k = ktext k /\ K (ktext k).
Definition plain_visit (K : string -> Prop) (v : visit) : Prop :=
  v_fuel v <> 0 /\ forall k, op_key (v_op v) = Some k -> plain_key K k.

(** The hash does not collide on [K]. *)
Definition collision_free (hash : bytes -> string) (K : string -> Prop) : Prop :=
  forall a b, K a -> K b -> hash a = hash b -> a = b.

(** Names that belong to the lock of index [I]; to index [I]. *)
Definition lock_names (I : string) (a : string) : Prop :=
  a = count_address I \/ (exists n, a = marker_address I n) \/ (exists n, a = lock_address I n).
Definition index_names (hash : bytes -> string) (I : string) (a : string) : Prop :=
  a = I \/ (exists i, a = key_address I i) \/ (exists r, a = name_address hash I r) \/ lock_names I a.

(** No block of the given kind of name exists. *)
Definition vacant (A : string -> Prop) (s : store) : Prop := forall a, A a -> names s a = None.

(** ** Reachable indexes *)

(** Keys present after a history: those added and not removed since. *)
Definition keys_after (h : list visit) : list string := snd (tags_run [] (map v_op h)).
Fixpoint present (k : string) (p : bool) (h : list iop) : bool :=
  match h with
  | [] => p
  | IAdd k' _ :: r => present k (if String.eqb (ktext k') k then true else p) r
  | IRemove k' :: r => present k (if String.eqb (ktext k') k then false else p) r
  | _ :: r => present k p r
  end.

(** [s] is the shared memory after index [I] was created where none of its
    names were in use and then went through the history [h] of plain
    operations; its main block is [m]. *)
Definition reached (hash : bytes -> string) (K : string -> Prop) (I : string)
    (h : list visit) (m : handle) (s : store) : Prop :=
  collision_free hash K /\ Forall (plain_visit K) h /\
  (Z.of_nat (List.length h) + 8 < 256 ^ 5)%Z /\
  exists s0 nl r,
    wf s0 /\ vacant (index_names hash I) s0 /\ m = mkHandle I (next s0) /\
    run (let! x := tag_index I true nl in visits_prog hash I (ix_mem x) h) s0 = (Some (Ok r), s).

(** What a survivor sees: the listing and the position of [k]. *)
Definition sees (hash : bytes -> string) (x : index) (k : string) (s : store)
    : option (res (list string)) * option (res (option Z)) :=
  (fst (run (update x) s), fst (run (check hash x (skey k)) s)).

(** What can be seen of an index with keys [ks] after a crash while adding
    the new key [k]: before, half-made key block, zeroed key, no name block,
    half-made name block, zeroed name block, after. *)
Definition add_views (ks : list string) (k : string) : list (option (res (list string)) * option (res (option Z))) :=
  [ (Some (Ok ks), Some (Ok None));
    (Some (Exc ValueError), Some (Ok None));
    (Some (Ok (ks ++ [zeros (String.length k)])), Some (Ok None));
    (Some (Ok (ks ++ [k])), Some (Ok None));
    (Some (Ok (ks ++ [k])), Some (Exc ValueError));
    (Some (Ok (ks ++ [k])), Some (Ok (Some 0%Z)));
    (Some (Ok (ks ++ [k])), Some (Ok (Some (Z.of_nat (List.length ks))))) ].

(** The same while removing [k] from position [i]. *)
Definition remove_views (ks : list string) (k : string) (i : Z) : list (option (res (list string)) * option (res (option Z))) :=
  let z := last ks "" in
  let l := removelast ks in
  if String.eqb z k then
    [ (Some (Ok ks), Some (Ok (Some i))); (Some (Ok l), Some (Ok (Some i))); (Some (Ok l), Some (Ok None)) ]
  else
    [ (Some (Ok ks), Some (Ok (Some i)));
      (Some (Ok (filter (fun x => negb (String.eqb x k)) ks)), Some (Ok (Some i)));
      (Some (Exc ValueError), Some (Ok (Some i)));
      (Some (Ok (put_in_place k (zeros (String.length z)) l ++ [z])), Some (Ok (Some i)));
      (Some (Ok (put_in_place k z l ++ [z])), Some (Ok (Some i)));
      (Some (Ok (put_in_place k z l)), Some (Ok (Some i)));
      (Some (Ok (put_in_place k z l)), Some (Ok None)) ].
