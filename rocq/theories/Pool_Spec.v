(** What a pooled map should yield, stated without its code. *)
From Verif Require Export Pool_Model.

Section PoolSpec.
  Context {A V : Type}.

  (** The key of the [i]-th record: its own or [i]. *)
  Definition position_key (i : Z) (r : argrec A) : key :=
    match r_key r with Some k => k | None => KInt i end.

  (** The arguments of the last record with key [k]; the first record has
      position [i]. *)
  Fixpoint last_for (i : Z) (recs : list (argrec A)) (k : key) : option A :=
    match recs with
    | [] => None
    | r :: rest =>
        match last_for (i + 1) rest k with
        | Some a => Some a
        | None => if keqb (position_key i r) k then Some (r_args r) else None
        end
    end.

  (** The distinct keys in order of first appearance. *)
  Fixpoint first_keys (seen : list key) (ks : list key) : list key :=
    match ks with
    | [] => []
    | k :: r => if existsb (fun k' => keqb k' k) seen then first_keys seen r
                else k :: first_keys (seen ++ [k]) r
    end.
  Fixpoint all_keys (i : Z) (recs : list (argrec A)) : list key :=
    match recs with
    | [] => []
    | r :: rest => position_key i r :: all_keys (i + 1) rest
    end.

  (** Exception instances as values: [exn_val e] is the value that is the
      exception [e], and only Exceptions count. *)
  Record exn_values (as_exn : V -> option exn) (exn_val : exn -> V) : Prop := {
    ev_back : forall v e, as_exn v = Some e -> exn_val e = v /\ is_Exception e = true;
    ev_forth : forall e, is_Exception e = true -> as_exn (exn_val e) = Some e }.

  (** A call's result as a value. *)
  Definition as_value (exn_val : exn -> V) (r : res V) : V :=
    match r with Ok v => v | Exc e => exn_val e end.

  (** Every call of the records returns / returns or raises an Exception. *)
  Definition none_raises (func : A -> res V) (recs : list (argrec A)) : Prop :=
    forall r, In r recs -> exists v, func (r_args r) = Ok v.
  Definition ordinary {R} (c : res R) : Prop :=
    match c with Ok _ => True | Exc e => is_Exception e = true end.
  Definition none_interrupts (func : A -> res V) (recs : list (argrec A)) : Prop :=
    forall r, In r recs -> ordinary (func (r_args r)).

  (** The exception of the first call of a chunk that raises. *)
  Fixpoint first_failure (func : A -> res V) (chunk : list (argrec A)) : option exn :=
    match chunk with
    | [] => None
    | r :: rest => match func (r_args r) with Exc e => Some e | Ok _ => first_failure func rest end
    end.
  (** The outcome of a chunked map: the results of the chunks without a
      failing call, and one exception under "chunk_i" for each other chunk. *)
  Definition chunked_outcome (exn_val : exn -> V) (func : A -> res V) (chunks : list (nat * list (argrec A))) : dict V :=
    fold_left
      (fun out ic =>
         match first_failure func (snd ic) with
         | None => dupdate out (map (fun r => (key_of r, as_value exn_val (func (r_args r)))) (snd ic))
         | Some e => dset out (chunk_key (fst ic)) (exn_val e)
         end) chunks [].

  (** The schedule ends every call that was submitted. *)
  Definition call_keys (cs : @calls V) : list key :=
    match cs with CallsByKey l => map fst l | CallsByChunk l => map fst l end.
  Definition covers (cs : @calls V) (sched : list key) : Prop :=
    forall k, In k (call_keys cs) -> exists k', In k' sched /\ keqb k' k = true.
  (** The exception of the first call that is ended by something that is not
      an Exception. *)
  Fixpoint first_interrupt (func : A -> res V) (recs : list (argrec A)) : option exn :=
    match recs with
    | [] => None
    | r :: rest =>
        match func (r_args r) with
        | Exc e => if is_Exception e then first_interrupt func rest else Some e
        | Ok _ => first_interrupt func rest
        end
    end.

  (** Keys of records: pairwise different, and none of the form chunk_i. *)
  Definition good_keys (recs : list (argrec A)) : Prop :=
    (forall i j a b, nth_error (complete 0 recs) i = Some a -> nth_error (complete 0 recs) j = Some b ->
       keqb (key_of a) (key_of b) = true -> i = j) /\
    forall a i, In a (complete 0 recs) -> keqb (chunk_key i) (key_of a) = false.

  (** The numbered chunks. *)
  Definition chunks_of (n : nat) (recs : list (argrec A)) : list (nat * list (argrec A)) :=
    combine (seq 0 n) (divide n (complete 0 recs)).
End PoolSpec.
