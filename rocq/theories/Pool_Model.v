(** Model of MaybeResult, MaybePool, _chunkwrap and map_into_pool
    (dustgoggles/structures.py:340-469).  Definitions only.

    Simplifications: a call is a function of its arguments only (pooled calls
    run in other processes and cannot share state); functions, arguments and
    results can be pickled and come back equal; no record object occurs twice
    in a list of records; workers are not killed from outside.

    A pooled call that raises something that is not an Exception
    (SystemExit, KeyboardInterrupt) ends its worker without a result: its
    AsyncResult never becomes ready. *)
From Verif Require Export Func_Model.

Section Pool.
  (** Argument tuples with keyword arguments, and values. *)
  Context {A V : Type}.
  (** Values that are Exception instances, and an exception as a value. *)
  Variable as_exn : V -> option exn.
  Variable exn_val : exn -> V.

  (** A record: its "key" if given, and its "args" and "kwargs" (with the
      defaults of structures.py:377-378 already filled in). *)
  Record argrec := mkRec { r_key : option key; r_args : A }.

  (** An object with get() and ready(): a MaybeResult (structures.py:340-357)
      or an AsyncResult, whose outcome is [None] until it is ready. *)
  Inductive result (R : Type) :=
  | Maybe (value : res R)
  | Async (outcome : option (res R)).
  Arguments Maybe {R} value.
  Arguments Async {R} outcome.

  (** structures.py:341-347 MaybeResult.__init__: the exception it lets
      through, or the object. *)
  Definition maybe_result {R} (call : res R) : res (result R) :=
    match call with
    | Ok v => Ok (Maybe (Ok v))
    | Exc e => if is_Exception e then Ok (Maybe (Exc e)) else Exc e
    end.

  (** structures.py:349-352 MaybeResult.get: a value that is an Exception
      instance is raised; AsyncResult.get raises what the call raised.
      [None]: blocks for ever.  [exn_of] tells which values are Exception
      instances. *)
  Definition get_result {R} (exn_of : R -> option exn) (r : result R) : option (res R) :=
    match r with
    | Maybe (Ok v) => Some (match exn_of v with Some e => Exc e | None => Ok v end)
    | Maybe (Exc e) => Some (Exc e)
    | Async o => o
    end.
  (** structures.py:354-356 ready. *)
  Definition ready_result {R} (r : result R) : bool :=
    match r with Maybe _ => true | Async (Some _) => true | Async None => false end.

  (** structures.py:375-378: the loop that completes the records. *)
  Fixpoint complete (i : Z) (recs : list argrec) : list argrec :=
    match recs with
    | [] => []
    | r :: rest =>
        {| r_key := Some (match r_key r with Some k => k | None => KInt i end); r_args := r_args r |}
        :: complete (i + 1) rest
    end.
  Definition key_of (r : argrec) : key := match r_key r with Some k => k | None => KNone end.

  (** structures.py:360-364 _chunkwrap. *)
  Definition chunkwrap (func : A -> res V) (chunk : list argrec) : res (dict V) :=
    l <- mapM (fun r => v <- func (r_args r) ;; Ok (key_of r, v)) chunk ;; Ok (dict_of l).

  (** more_itertools.divide(n, seq) for n >= 1. *)
  Fixpoint divide_from {B} (count : nat) (q r : nat) (l : list B) : list (list B) :=
    match count with
    | O => []
    | S c =>
        let size := match r with O => q | S _ => S q end in
        firstn size l :: divide_from c q (pred r) (skipn size l)
    end.
  Definition divide {B} (n : nat) (l : list B) : list (list B) :=
    divide_from n (List.length l / n) (List.length l mod n) l.

  (** self.results: by key, or by chunk (structures.py:379-390). *)
  Inductive results :=
  | ByKey (d : dict (result V))
  | ByChunk (d : dict (result (dict V))).

  (** self.pool with self.threads: [None] or the number of workers. *)
  Definition pool := option nat.

  (** structures.py:367-372 __init__; Pool(0) raises ValueError. *)
  Definition maybe_pool (threads : option nat) : res pool :=
    match threads with Some O => Exc ValueError | t => Ok t end.

  (** structures.py:392-397 apply. *)
  Definition apply_ {R} (p : pool) (call : res R) : res (result R) :=
    match p with
    | None => maybe_result call
    | Some _ => Ok (Async None)
    end.

  Definition chunk_key (i : nat) : key := KStr ("chunk_" ++ str_of_Z (Z.of_nat i))%string.

  (** What each submitted call will come to, by key or by chunk. *)
  Inductive calls :=
  | CallsByKey (l : list (key * res V))
  | CallsByChunk (l : list (key * res (dict V))).

  (** structures.py:374-390 map: which calls are made.  [argrecs] may be an
      iterator, used up by the loop at 375. *)
  Definition submitted (func : A -> res V) (argrecs : iterable argrec) (p : pool) (as_chunks : bool) : calls :=
    let recs := complete 0 (match snd (drain argrecs) with Again l | Once l => l end) in
    match as_chunks, p with
    | true, Some n =>
        CallsByChunk (map (fun ic => (chunk_key (fst ic), chunkwrap func (snd ic)))
                          (combine (seq 0 n) (divide n recs)))
    | _, _ => CallsByKey (map (fun r => (key_of r, func (r_args r))) recs)
    end.

  (** structures.py:374-390 map. *)
  Definition pool_map (func : A -> res V) (argrecs : iterable argrec) (p : pool) (as_chunks : bool) : res results :=
    match submitted func argrecs p as_chunks with
    | CallsByKey l =>
        rs <- mapM (fun kc => r <- apply_ p (snd kc) ;; Ok (fst kc, r)) l ;; Ok (ByKey (dict_of rs))
    | CallsByChunk l =>
        rs <- mapM (fun kc => r <- apply_ p (snd kc) ;; Ok (fst kc, r)) l ;; Ok (ByChunk (dict_of rs))
    end.

  (** ** Workers *)

  (** A call that has a result to deliver. *)
  Definition delivers {R} (c : res R) : option (res R) :=
    match c with
    | Ok v => Some (Ok v)
    | Exc e => if is_Exception e then Some (Exc e) else None
    end.

  (** The AsyncResult under key [k] receives the result of its call, which is
      that of the last call submitted under [k] (an earlier AsyncResult under
      that key is no longer in self.results). *)
  Definition deliver {R} (d : dict (result R)) (k : key) (l : list (key * res R)) : dict (result R) :=
    match dget d k, dget (dict_of l) k with
    | Some (Async None), Some c => dset d k (Async (delivers c))
    | _, _ => d
    end.

  (** The call submitted under key [k] ends. *)
  Definition finish (cs : calls) (rs : results) (k : key) : results :=
    match rs, cs with
    | ByKey d, CallsByKey l => ByKey (deliver d k l)
    | ByChunk d, CallsByChunk l => ByChunk (deliver d k l)
    | _, _ => rs
    end.
  (** Calls end in the order given by [sched]. *)
  Definition work (cs : calls) (sched : list key) (rs : results) : results := fold_left (finish cs) sched rs.

  (** ** Reading results *)

  (** structures.py:409-423 get with raise_exc; [None]: blocks for ever.
      A non-Exception cannot come out of v.get() (see [delivers],
      [maybe_result]). *)
  Fixpoint get_loop {R} (exn_of : R -> option exn) (store : dict V -> key -> R -> dict V) (raise_exc : bool)
      (d : list (key * result R)) (output : dict V) : option (res (dict V)) :=
    match d with
    | [] => Some (Ok output)
    | (k, r) :: rest =>
        match get_result exn_of r with
        | None => None
        | Some (Ok v) => get_loop exn_of store raise_exc rest (store output k v)
        | Some (Exc e) =>
            if raise_exc then Some (Exc e)
            else get_loop exn_of store raise_exc rest (dset output k (exn_val e))
        end
    end.
  Definition pool_get (rs : results) (raise_exc : bool) : option (res (dict V)) :=
    match rs with
    | ByKey d => get_loop as_exn (fun out k v => dset out k v) raise_exc d []
    | ByChunk d => get_loop (fun _ => None) (fun out _ v => dupdate out v) raise_exc d []
    end.

  (** structures.py:425-441 n_ready, n_results, n_running, results_ready,
      ready; at one moment. *)
  Definition flags (rs : results) : dict bool :=
    match rs with
    | ByKey d => map (fun kr => (fst kr, ready_result (snd kr))) d
    | ByChunk d => map (fun kr => (fst kr, ready_result (snd kr))) d
    end.
  Definition results_ready (rs : results) : dict bool := dict_of (flags rs).
  Definition n_ready (rs : results) : Z := Z.of_nat (List.length (filter snd (flags rs))).
  Definition n_results (rs : results) : Z := Z.of_nat (List.length (flags rs)).
  Definition n_running (rs : results) : Z := n_results rs - n_ready rs.
  Definition pool_ready (rs : results) : bool := forallb snd (flags rs).

  (** structures.py:425-427, 437-441: the flags are read one after another,
      and calls can end between two reads: [gaps] are the calls that end just
      before each read, from flag [i] on. *)
  Fixpoint slow_flags (cs : calls) (gaps : list (list key)) (rs : results) (i : nat) : list bool :=
    match gaps with
    | [] => []
    | g :: r =>
        let rs' := work cs g rs in
        nth i (map snd (flags rs')) false :: slow_flags cs r rs' (S i)
    end.

  (** structures.py:443-446 terminate *)
  Definition terminate (rs : results) : results := ByKey [].

  (** Pool.join() after close(): returns when every call submitted has
      delivered, also one whose AsyncResult was replaced under its key. *)
  Definition all_deliver (cs : calls) : bool :=
    match cs with
    | CallsByKey l => forallb (fun kc => match delivers (snd kc) with Some _ => true | None => false end) l
    | CallsByChunk l => forallb (fun kc => match delivers (snd kc) with Some _ => true | None => false end) l
    end.

  (** structures.py:449-467 map_into_pool.  Calls end in the order [sched]
      until join() returns; [None]: it never returns. *)
  Definition filter_out (filter_exc : bool) (d : dict V) : dict V :=
    if filter_exc
    then dict_of (filter (fun kv => match as_exn (snd kv) with Some _ => false | None => true end) d)
    else d.
  Definition map_into_pool (func : A -> res V) (argrecs : iterable argrec) (threads : option nat)
      (filter_exc as_chunks : bool) (sched : list key) : option (res (dict V)) :=
    match maybe_pool threads with
    | Exc e => Some (Exc e)
    | Ok p =>
        match pool_map func argrecs p as_chunks with
        | Exc e => Some (Exc e)
        | Ok rs0 =>
            let cs := submitted func argrecs p as_chunks in
            let rs := work cs sched rs0 in
            if pool_ready rs && all_deliver cs then
              match pool_get rs false with
              | Some (Ok d) => Some (Ok (filter_out filter_exc d))
              | r => r
              end
            else None
        end
    end.
End Pool.
Arguments argrec : clear implicits.
Arguments Maybe {R} value.
Arguments Async {R} outcome.
