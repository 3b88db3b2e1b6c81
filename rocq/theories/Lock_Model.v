(** Model of SlidingLock and FakeLock (dustgoggles/codex/implements.py:129-256)
    as sequential programs over shared memory.  Definitions only.  Debug
    logging is off (with it: Debug_Model). *)
From Verif Require Export Shm_Model.

(** Addresses used by a lock called [name] (implements.py:161, 193, 215,
    202). *)
Definition count_address (name : string) : string := (name ++ "_count")%string.
Definition marker_address (name : string) (n : Z) : string :=
  (name ++ "_" ++ str_of_Z n)%string.
Definition lock_address (name : string) (n : Z) : string :=
  (name ++ "_" ++ str_of_Z n ++ "_lock")%string.

(** implements.py:158-169: the attributes of a SlidingLock. *)
Record lockst := mkLock {
  l_name : string;
  l_count : handle;
  l_number : Z;
  l_floor : Z;                  (* None before _renumber, then an int *)
  l_marker : option handle;
  l_lock : option handle;
  l_acquired : bool;
  l_spins : Z;
  l_max_spins : option Z
}.

Definition lock_init (name : string) : prog lockst :=
  let! count := open_block (count_address name) 5 true false in
  Ret {| l_name := name; l_count := count; l_number := 0; l_floor := 0;
         l_marker := None; l_lock := None; l_acquired := false;
         l_spins := 0; l_max_spins := None |}.

(** implements.py:190-196: the marker loop, from slot [number] up. *)
Fixpoint take_marker (fuel : nat) (name : string) (number : Z)
    : prog (Z * handle) :=
  match fuel with
  | O => Stuck
  | S f =>
      ptry (shm_create (marker_address name number) 1)
        (fun h => Ret (number, h))
        (fun e => match e with
                  | FileExistsError => take_marker f name (number + 1)
                  | _ => Raise e
                  end)
  end.

(** implements.py:187-198 _renumber. *)
Definition renumber (fuel : nat) (l : lockst) : prog lockst :=
  let! b := shm_read (l_count l) in
  let floor := from_bytes b in
  match l_marker l with
  | Some h =>
      Ret {| l_name := l_name l; l_count := l_count l;
             l_number := floor + 1; l_floor := floor; l_marker := Some h;
             l_lock := l_lock l; l_acquired := l_acquired l;
             l_spins := l_spins l; l_max_spins := l_max_spins l |}
  | None =>
      let! nh := take_marker fuel (l_name l) (floor + 1) in
      Ret {| l_name := l_name l; l_count := l_count l;
             l_number := fst nh; l_floor := floor; l_marker := Some (snd nh);
             l_lock := l_lock l; l_acquired := l_acquired l;
             l_spins := l_spins l; l_max_spins := l_max_spins l |}
  end.

(** implements.py:201: reversed(range(floor, number)). *)
Fixpoint count_down (n : nat) (floor : Z) : list Z :=
  match n with
  | O => []
  | S m => (floor + Z.of_nat m)%Z :: count_down m floor
  end.

(** implements.py:201-202: is any earlier slot locked? *)
Fixpoint any_locked (name : string) (ns : list Z) : prog bool :=
  match ns with
  | [] => Ret false
  | n :: r =>
      let! b := exists_block (lock_address name n) in
      if b : bool then Ret true else any_locked name r
  end.

Definition set_acquired (l : lockst) (b : bool) : lockst :=
  {| l_name := l_name l; l_count := l_count l; l_number := l_number l;
     l_floor := l_floor l; l_marker := l_marker l; l_lock := l_lock l;
     l_acquired := b; l_spins := l_spins l; l_max_spins := l_max_spins l |}.
Definition set_lock (l : lockst) (h : handle) : lockst :=
  {| l_name := l_name l; l_count := l_count l; l_number := l_number l;
     l_floor := l_floor l; l_marker := l_marker l; l_lock := Some h;
     l_acquired := l_acquired l; l_spins := l_spins l;
     l_max_spins := l_max_spins l |}.
Definition add_spin (l : lockst) : lockst :=
  {| l_name := l_name l; l_count := l_count l; l_number := l_number l;
     l_floor := l_floor l; l_marker := l_marker l; l_lock := l_lock l;
     l_acquired := l_acquired l; l_spins := l_spins l + 1;
     l_max_spins := l_max_spins l |}.

(** implements.py:200-210 _check_acquirement with 226-233 wait: the lock
    object afterwards and either the returned bool or the exception. *)
Definition check_acquirement (l : lockst) : prog (lockst * res bool) :=
  let! blocked :=
    any_locked (l_name l)
      (count_down (Z.to_nat (l_number l - l_floor l)) (l_floor l)) in
  if blocked : bool then
    let l' := add_spin l in
    match l_max_spins l' with
    | Some m => if (m <? l_spins l')%Z then Ret (l', Exc TimeoutError)
                else Ret (l', Ok false)
    | None => Ret (l', Ok false)
    end
  else Ret (l, Ok true).

(** implements.py:223-224: the waiting loop. *)
Fixpoint acquire_loop (fuel : nat) (l : lockst) : prog (lockst * res unit) :=
  if l_acquired l then Ret (l, Ok tt)
  else match fuel with
       | O => Stuck
       | S f =>
           let! lr := check_acquirement l in
           match snd lr with
           | Ok b => acquire_loop f (set_acquired (fst lr) b)
           | Exc e => Ret (fst lr, Exc e)
           end
       end.

(** implements.py:212-224 acquire. *)
Definition acquire (fuel : nat) (l : lockst) : prog (lockst * res unit) :=
  ptry (shm_create (lock_address (l_name l) (l_number l)) 1)
    (fun h => acquire_loop fuel (set_lock l h))
    (fun e => match e with
              | FileExistsError => acquire_loop fuel (set_acquired l true)
              | _ => Ret (l, Exc e)
              end).

(** implements.py:241-246 for one of lock, marker. *)
Definition release_block (o : option handle) : prog unit :=
  match o with None => Ret tt | Some h => shm_unlink h end.

(** implements.py:235-249 release. *)
Definition release (l : lockst) : prog lockst :=
  (if l_acquired l
   then let! b := of_res (to_bytes 5 (l_number l)) in shm_write (l_count l) b
   else Ret tt) >>>
  release_block (l_lock l) >>>
  release_block (l_marker l) >>>
  Ret {| l_name := l_name l; l_count := l_count l; l_number := l_number l;
         l_floor := l_floor l; l_marker := None; l_lock := None;
         l_acquired := false; l_spins := l_spins l;
         l_max_spins := l_max_spins l |}.

(** implements.py:171-180 __enter__. *)
Definition enter (fuel : nat) (l : lockst) : prog lockst :=
  let fail (l : lockst) (e : exn) : prog lockst :=
    if is_Exception e then release l >>> Raise e else Raise e in
  ptry (renumber fuel l)
    (fun l1 =>
       let! lr := acquire fuel l1 in
       match snd lr with
       | Ok _ => Ret (fst lr)
       | Exc e => fail (fst lr) e
       end)
    (fail l).

(** [with lock_class(name, debug): body] as written in implements.py:442, 483,
    571, 585; FakeLock (129-151) does nothing.  The exception of the body is
    re-raised after release; an exception in release replaces it. *)
Definition with_lock {A} (no_lockout : bool) (fuel : nat) (name : string)
    (body : prog A) : prog A :=
  if no_lockout then body
  else
    let! l0 := lock_init name in
    let! l := enter fuel l0 in
    ptry body
      (fun a => release l >>> Ret a)
      (fun e => release l >>> Raise e).

(** implements.py:251-256 close: deletes the blocks of the object that can
    be deleted. *)
Definition close_obj (o : option handle) : prog unit :=
  match o with
  | None => Ret tt
  | Some h =>
      ptry (delete_block (hname h) false) Ret
        (fun e => match e with
                  | FileNotFoundError | TypeError | AttributeError => Ret tt
                  | _ => Raise e
                  end)
  end.
Definition lock_close (l : lockst) : prog unit :=
  close_obj (l_lock l) >>> close_obj (Some (l_count l)) >>>
  close_obj (l_marker l).
