(** Specification of a MetaTagIndex: an insertion-ordered dict in which the
    last entry takes the place of a removed one. *)
From Verif Require Export Index_Spec.

Section Meta.
  Context {J : Type}.

  (** Replace the entry of [k] by [e]. *)
  Fixpoint put_entry (k : string) (e : string * J) (l : list (string * J)) : list (string * J) :=
    match l with
    | [] => []
    | x :: r => if String.eqb (fst x) k then e :: r else x :: put_entry k e r
    end.
  Definition swap_entry (k : string) (l : list (string * J)) : list (string * J) :=
    match rev l with
    | [] => []
    | e :: r => if String.eqb (fst e) k then rev r else put_entry k e (rev r)
    end.
  Definition value_of (k : string) (l : list (string * J)) : option J :=
    match find (fun e => String.eqb (fst e) k) l with Some e => Some (snd e) | None => None end.

  Inductive mop := MAdd (k : ikey) (v : option J) (exists_ok : bool) | MRemove (k : ikey) | MGet (k : ikey) | MItems.
  Inductive mout := QPos (r : res Z) | QGot (r : res bytes) | QItems (l : list (string * option J)).
End Meta.
Arguments mop : clear implicits. Arguments mout : clear implicits.

Section Meta.
  Context {J : Type}.
  Notation entries := (list (string * option J)).

  (** The value of [k] after an add: the new one, if there is one. *)
  Definition newer (v old : option J) : option J := match v with Some _ => v | None => old end.
  Definition held (k : string) (l : entries) : option J :=
    match value_of k l with Some v => v | None => None end.
  (** The value of the last entry. *)
  Definition last_held (l : entries) : option J :=
    match rev l with e :: _ => snd e | [] => None end.

  (** [enc] is the encoding of a value.  A key may have no value; [strict]
      tells whether removing one can raise although it succeeds. *)
  Definition meta_step (strict : bool) (enc : J -> res bytes) (l : entries) (o : mop J) : mout J * entries :=
    match o with
    | MAdd k v ok =>
        match position (ktext k) (map fst l) with
        | Some i => if ok then (QPos (Ok i), put_entry (ktext k) (ktext k, newer v (held (ktext k) l)) l)
                    else (QPos (Exc FileExistsError), l)
        | None => (QPos (Ok (Z.of_nat (List.length l))), l ++ [(ktext k, v)])
        end
    | MRemove k =>
        match position (ktext k) (map fst l) with
        | Some i =>
            (QPos (match strict, held (ktext k) l, last_held l with
                   | true, None, None => Exc FileNotFoundError
                   | _, _, _ => Ok i
                   end), swap_entry (ktext k) l)
        | None => (QPos (Exc KeyError), l)
        end
    | MGet k =>
        (QGot (match value_of (ktext k) l with
               | Some (Some v) => enc v
               | Some None => Exc FileNotFoundError
               | None => Exc KeyError
               end), l)
    | MItems => (QItems l, l)
    end.
  Fixpoint meta_run (strict : bool) (enc : J -> res bytes) (l : entries) (h : list (mop J)) : list (mout J) * entries :=
    match h with
    | [] => ([], l)
    | o :: r =>
        let '(x, l1) := meta_step strict enc l o in
        let '(xs, l2) := meta_run strict enc l1 r in (x :: xs, l2)
    end.

  Record mvisit := mkMVisit { mv_nl : bool; mv_fuel : nat; mv_op : mop J }.

  Definition mvisit_prog (hash : bytes -> string) (enc : J -> res bytes) (dec : bytes -> res J)
      (I : string) (m : handle) (v : mvisit) : prog (mout J) :=
    let x := mkIndex I m (mv_nl v) in
    match mv_op v with
    | MAdd k w ok =>
        ptry (meta_add hash enc (mv_fuel v) x k w ok) (fun p => Ret (QPos (Ok p))) (fun e => Ret (QPos (Exc e)))
    | MRemove k =>
        ptry (meta_remove hash (mv_fuel v) x k) (fun p => Ret (QPos (Ok p))) (fun e => Ret (QPos (Exc e)))
    | MGet k => ptry (meta_getitem hash x k) (fun b => Ret (QGot (Ok b))) (fun e => Ret (QGot (Exc e)))
    | MItems => let! l := meta_items dec x in Ret (QItems l)
    end.
  Fixpoint mvisits_prog (hash : bytes -> string) (enc : J -> res bytes) (dec : bytes -> res J)
      (I : string) (m : handle) (h : list mvisit) : prog (list (mout J)) :=
    match h with
    | [] => Ret []
    | v :: r =>
        let! x := mvisit_prog hash enc dec I m v in
        let! xs := mvisits_prog hash enc dec I m r in Ret (x :: xs)
    end.

  Definition mop_key (o : mop J) : option ikey :=
    match o with MAdd k _ _ | MRemove k | MGet k => Some k | MItems => None end.

  (** A value that survives encoding to something non-empty and back. *)
  Definition stable (enc : J -> res bytes) (dec : bytes -> res J) (v : J) : Prop :=
    exists b, enc v = Ok b /\ b <> "" /\ dec b = Ok v.

  (** Plain keys and stable values; removals only through handles without
      lockout (see C42). *)
  Definition plain_mvisit (enc : J -> res bytes) (dec : bytes -> res J) (K : string -> Prop) (v : mvisit) : Prop :=
    mv_fuel v <> 0 /\ (forall k, mop_key (mv_op v) = Some k -> plain_key K k) /\
    (forall k w ok, mv_op v = MAdd k (Some w) ok -> stable enc dec w) /\
    (forall k, mv_op v = MRemove k -> mv_nl v = true).
End Meta.
Arguments mvisit : clear implicits.

(** Names of a MetaTagIndex. *)
Definition meta_names (hash : bytes -> string) (I : string) (a : string) : Prop :=
  index_names hash I a \/ exists i, a = val_address I i.

(** What a history leaves of [k]: [Some v] if it is present, with the last
    value given since it was added. *)
Fixpoint meta_after {J} (k : string) (p : option (option J)) (h : list (mop J)) : option (option J) :=
  match h with
  | [] => p
  | MAdd k' v ok :: r =>
      meta_after k (if String.eqb (ktext k') k
                    then match p with Some w => if ok then Some (newer v w) else Some w | None => Some v end
                    else p) r
  | MRemove k' :: r => meta_after k (if String.eqb (ktext k') k then None else p) r
  | _ :: r => meta_after k p r
  end.

(** Entries after a history. *)
Definition entries_after {J} (enc : J -> res bytes) (h : list (mvisit J)) : list (string * option J) :=
  snd (meta_run true enc [] (map mv_op h)).

(** Every key is added with a value. *)
Definition valued {J} (o : mop J) : Prop := forall k ok, o <> MAdd k None ok.

(** [s] is the shared memory after MetaTagIndex [I] was created where none of
    its names were in use and went through the history [h]. *)
Definition mreached {J} (hash : bytes -> string) (K : string -> Prop) (I : string)
    (enc : J -> res bytes) (dec : bytes -> res J) (h : list (mvisit J)) (m : handle) (s : store) : Prop :=
  collision_free hash K /\ Forall (plain_mvisit enc dec K) h /\
  (Z.of_nat (List.length h) + 8 < 256 ^ 5)%Z /\
  exists s0 nl r,
    wf s0 /\ vacant (meta_names hash I) s0 /\ m = mkHandle I (next s0) /\
    run (let! x := meta_index I true nl in mvisits_prog hash enc dec I (ix_mem x) h) s0 = (Some (Ok r), s).
