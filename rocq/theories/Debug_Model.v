(** Model of the code of dustgoggles/codex/implements.py with debug=True: the
    log of implements.py:106-114 and the calls of it in SlidingLock, the
    indexes, Notepad.  Definitions only.

    With the log left out these are the definitions of Lock_Model, Index_Model
    and Pad_Model; what never logs is used from there.  The log is the list of
    its lines.  Whether "../holding" is a directory that can be written to does
    not change during a call, and every message can be encoded in the encoding
    of the file. *)
From Verif Require Export Pad_Model.

(** A call: from the lines of the log to those afterwards and what it returned
    or raised.  What was logged stays logged when something is raised. *)
Definition dprog (A : Type) : Type := list string -> prog (list string * res A).
Definition dret {A} (a : A) : dprog A := fun w => Ret (w, Ok a).
Definition draise {A} (e : exn) : dprog A := fun w => Ret (w, Exc e).
(** A call of something that does not log. *)
Definition silent {A} (p : prog A) : dprog A :=
  fun w => ptry p (fun a => Ret (w, Ok a)) (fun e => Ret (w, Exc e)).
(** [try: x = m; except e: h(e); else: k(x)]. *)
Definition dtry {A B} (m : dprog A) (k : A -> dprog B) (h : exn -> dprog B) : dprog B :=
  fun w => let! r := m w in match snd r with Ok a => k a (fst r) | Exc e => h e (fst r) end.
Definition dbind {A B} (m : dprog A) (k : A -> dprog B) : dprog B := dtry m k draise.

Declare Scope dprog_scope.
Delimit Scope dprog_scope with dprog.
Notation "'do!' x := p 'in' k" := (dbind p (fun x => k))
  (at level 200, x name, p at level 100, k at level 200, right associativity) : dprog_scope.
Notation "p ;>> k" := (dbind p (fun _ => k))
  (at level 61, right associativity) : dprog_scope.
Open Scope dprog_scope.

Section Debug.
  (** The argument debug; whether "../holding" is there; implements.py:108-109
      here, when the log has so many lines; [f"{ex}"]. *)
  Variables (debug dir : bool) (here : nat -> string) (shown : exn -> string).

  (** implements.py:112-114 log. *)
  Definition log (message : string) : dprog unit :=
    fun w => if dir then Ret (w ++ [message], Ok tt) else Ret (w, Exc FileNotFoundError).
  (** [if getattr(self, "debug") is True: log(f"{here()},{number},{text}")] *)
  Definition say (number text : string) : dprog unit :=
    fun w => if debug then log (here (List.length w) ++ "," ++ number ++ "," ++ text)%string w else Ret (w, Ok tt).
  Definition own (l : lockst) : string := str_of_Z (l_number l).

  (** ** SlidingLock *)

  (** implements.py:187-198 _renumber: the object afterwards and the outcome. *)
  Definition d_renumber (fuel : nat) (l : lockst) : dprog (lockst * res unit) :=
    dtry (silent (renumber fuel l))
      (fun l1 => dtry (say (own l1) ("taking slot " ++ own l1))
                   (fun _ => dret (l1, Ok tt)) (fun e => dret (l1, Exc e)))
      (fun e => dret (l, Exc e)).

  (** implements.py:201-202: the last of the earlier slots that is locked. *)
  Fixpoint first_locked (name : string) (ns : list Z) : prog (option Z) :=
    match ns with
    | [] => Ret None
    | n :: r =>
        let! b := exists_block (lock_address name n) in
        if b : bool then Ret (Some n) else first_locked name r
    end.

  (** implements.py:226-233 wait: what it raises, if anything. *)
  Definition d_wait (l : lockst) : dprog (lockst * res unit) :=
    let l' := add_spin l in
    match l_max_spins l' with
    | Some m =>
        if (m <? l_spins l')%Z
        then dtry (say (own l') "failure (waiting timeout)") (fun _ => dret (l', Exc TimeoutError)) (fun e => dret (l', Exc e))
        else dret (l', Ok tt)
    | None => dret (l', Ok tt)
    end.

  (** implements.py:200-210 _check_acquirement. *)
  Definition d_check_acquirement (l : lockst) : dprog (lockst * res bool) :=
    do! blocked := silent (first_locked (l_name l) (count_down (Z.to_nat (l_number l - l_floor l)) (l_floor l))) in
    match blocked with
    | Some n =>
        dtry (say (own l) (str_of_Z n ++ " has precedence"))
          (fun _ => do! lr := d_wait l in dret (fst lr, match snd lr with Ok _ => Ok false | Exc e => Exc e end))
          (fun e => dret (l, Exc e))
    | None => dtry (say (own l) "taking precedence") (fun _ => dret (l, Ok true)) (fun e => dret (l, Exc e))
    end.

  (** implements.py:223-224. *)
  Fixpoint d_acquire_loop (fuel : nat) (l : lockst) : dprog (lockst * res unit) :=
    if l_acquired l then dret (l, Ok tt)
    else match fuel with
         | O => silent Stuck
         | S f =>
             do! lr := d_check_acquirement l in
             match snd lr with
             | Ok b => d_acquire_loop f (set_acquired (fst lr) b)
             | Exc e => dret (fst lr, Exc e)
             end
         end.

  (** implements.py:212-224 acquire.  A FileExistsError can only come from the
      creation: the log raises FileNotFoundError, if anything. *)
  Definition d_acquire (fuel : nat) (l : lockst) : dprog (lockst * res unit) :=
    dtry (silent (shm_create (lock_address (l_name l) (l_number l)) 1))
      (fun h => dtry (say (own l) "placed lock")
                  (fun _ => d_acquire_loop fuel (set_lock l h)) (fun e => dret (set_lock l h, Exc e)))
      (fun e => match e with
                | FileExistsError =>
                    dtry (say (own l) "already have lock")
                      (fun _ => d_acquire_loop fuel (set_acquired l true)) (fun e' => dret (l, Exc e'))
                | _ => dret (l, Exc e)
                end).

  (** implements.py:241-249 for one of lock, marker. *)
  Definition d_release_block (l : lockst) (thing : string) (o : option handle) : dprog unit :=
    match o with
    | None => dret tt
    | Some h => silent (shm_unlink h) ;>> say (own l) ("released " ++ thing)
    end.

  (** implements.py:235-250 release. *)
  Definition d_release (l : lockst) : dprog lockst :=
    (if l_acquired l
     then silent (let! b := of_res (to_bytes 5 (l_number l)) in shm_write (l_count l) b) ;>>
          say (own l) ("set floor to " ++ own l)
     else dret tt) ;>>
    d_release_block l "lock" (l_lock l) ;>>
    d_release_block l "marker" (l_marker l) ;>>
    dret {| l_name := l_name l; l_count := l_count l; l_number := l_number l;
            l_floor := l_floor l; l_marker := None; l_lock := None;
            l_acquired := false; l_spins := l_spins l;
            l_max_spins := l_max_spins l |}.

  (** implements.py:171-180 __enter__. *)
  Definition d_enter (fuel : nat) (l : lockst) : dprog lockst :=
    let fail (l : lockst) (e : exn) : dprog lockst :=
      if is_Exception e then say (own l) ("crashing out: " ++ shown e) ;>> d_release l ;>> draise e else draise e in
    do! l1 := d_renumber fuel l in
    match snd l1 with
    | Ok _ =>
        do! lr := d_acquire fuel (fst l1) in
        match snd lr with Ok _ => dret (fst lr) | Exc e => fail (fst lr) e end
    | Exc e => fail (fst l1) e
    end.

  (** implements.py:182-185 __exit__, and [with lock_class(name, debug): body]
      as written in implements.py:442, 483, 571, 585. *)
  Definition d_exit (l : lockst) : dprog lockst := say (own l) "entering cleanup" ;>> d_release l.
  Definition d_with_lock {A} (no_lockout : bool) (fuel : nat) (name : string) (body : dprog A) : dprog A :=
    if no_lockout then body
    else
      do! l0 := silent (lock_init name) in
      do! l := d_enter fuel l0 in
      dtry body
        (fun a => d_exit l ;>> dret a)
        (fun e => d_exit l ;>> draise e).

  (** ** TagIndex *)
  Variable hash : bytes -> string.

  (** implements.py:413-437 _add. *)
  Definition d_add (x : index) (k : ikey) (exists_ok : bool) : dprog Z :=
    do! found := silent (check hash x k) in
    match found with
    | Some p =>
        if exists_ok
        then say "" (ktext k ++ " already in index at " ++ str_of_Z p) ;>> dret p
        else draise FileExistsError
    | None =>
        do! length := silent (update_length x) in
        silent
          (let! new_length := of_res (to_bytes 8 (length + 1)) in
           shm_write (ix_mem x) new_length >>>
           let! keyblock :=
             open_block (key_address (ix_name x) length) (String.length (ktext k)) true true in
           shm_write keyblock (ktext k) >>>
           let! position := of_res (to_bytes 8 length) in
           let! nameblock := open_block (name_address hash (ix_name x) (kraw k)) 8 true false in
           shm_write nameblock position) ;>>
        say "" ("set " ++ str_of_Z length ++ " to " ++ ktext k) ;>>
        dret length
    end.

  (** implements.py:445-480 _delitem, with self.length. *)
  Definition d_delitem (x : index) (k : ikey) : dprog (Z * Z) :=
    do! found := silent (check hash x k) in
    match found with
    | None => draise KeyError
    | Some found_at =>
        do! length := silent (update_length x) in
        (if (found_at =? length - 1)%Z
         then silent (delete_block (key_address (ix_name x) found_at) false) ;>>
              say "" ("deleted block at position " ++ str_of_Z found_at)
         else
           silent
             (let! lastblock := shm_attach (key_address (ix_name x) (length - 1)) in
              let! lastkey := shm_read lastblock in
              let! moved :=
                open_block (key_address (ix_name x) found_at) (String.length lastkey) true true in
              shm_write moved lastkey >>>
              let! nameblock := shm_attach (name_address hash (ix_name x) lastkey) in
              let! p := of_res (to_bytes 8 found_at) in
              shm_write nameblock p >>>
              shm_unlink lastblock) ;>>
           say "" ("overwrote block at position " ++ str_of_Z found_at ++
                   " with block at position " ++ str_of_Z (length - 1) ++ " ")) ;>>
        silent
          (delete_block (name_address hash (ix_name x) (kraw k)) false >>>
           let! new_length := of_res (to_bytes 8 (length - 1)) in
           shm_write (ix_mem x) new_length) ;>>
        say "" ("deleted " ++ ktext k ++ " at index slot " ++ str_of_Z found_at ++ " and decremented index counter") ;>>
        dret (found_at, length)
    end.

  (** implements.py:439-443 add, 482-484 __delitem__, 313-315 remove. *)
  Definition d_tag_add (fuel : nat) (x : index) (k : ikey) (value_given exists_ok : bool) : dprog Z :=
    if value_given then draise ValueError
    else d_with_lock (ix_no_lockout x) fuel (ix_name x) (d_add x k exists_ok).
  Definition d_tag_del (fuel : nat) (x : index) (k : ikey) : dprog (Z * Z) :=
    d_with_lock (ix_no_lockout x) fuel (ix_name x) (d_delitem x k).
  Definition d_tag_remove (fuel : nat) (x : index) (k : ikey) : dprog Z :=
    do! r := d_tag_del fuel x k in dret (fst r).

  (** ** MetaTagIndex *)

  (** implements.py:570-575 add. *)
  Definition d_meta_add {J} (jenc : J -> res bytes) (fuel : nat) (x : index) (k : ikey) (value : option J)
      (exists_ok : bool) : dprog Z :=
    d_with_lock (ix_no_lockout x) fuel (ix_name x)
      (do! writehead := d_add x k exists_ok in
       silent (match value with
               | None => Ret tt
               | Some v => memorize jenc v (val_address (ix_name x) writehead) true >>> Ret tt
               end) ;>>
       dret writehead).
  (** implements.py:584-600 __delitem__. *)
  Definition d_meta_remove (fuel : nat) (x : index) (k : ikey) : dprog Z :=
    d_with_lock (ix_no_lockout x) fuel (ix_name x)
      (do! r := d_tag_del fuel x k in
       let found_at := fst r in
       let length := snd r in
       let last := val_address (ix_name x) (length - 1) in
       silent
         (let! gone :=
            (if (found_at =? length - 1)%Z then Ret true
             else let! b := exists_block last in Ret (negb b)) in
          (if gone : bool
           then delete_block (val_address (ix_name x) found_at) true
           else
             let! b := exists_block last in
             if b : bool then
               let! valblock := shm_attach last in
               let! valbytes := shm_read valblock in
               let! moved :=
                 open_block (val_address (ix_name x) found_at) (String.length valbytes) true true in
               shm_write moved valbytes >>> delete_block last false
             else Ret tt)) ;>>
       dret found_at).

  (** ** Notepad and GridPaper *)

  (** implements.py:761-773 __setitem__; [str(value)]. *)
  Definition d_np_set {V} (enc : V -> res bytes) (vstr : V -> string) (fuel : nat) (p : pad) (k : ikey) (v : V)
      (meta_given exists_ok : bool) : dprog unit :=
    if kisstr k && starts_index (ktext k) then draise KeyError
    else
      dtry (d_tag_add fuel (p_index p) k meta_given exists_ok ;>>
            silent (memorize enc v (pad_address (p_prefix p) (ktext k)) exists_ok) ;>>
            say "" ("set key=" ++ ktext k ++ " to " ++ vstr v))
        (fun _ => dret tt)
        (fun e => match e with FileExistsError => draise KeyError | _ => draise e end).
  (** implements.py:778-785 __delitem__. *)
  Definition d_np_del (fuel : nat) (p : pad) (k : ikey) : dprog unit :=
    if reserved_name k then draise KeyError
    else
      dtry (silent (delete_block (pad_address (p_prefix p) (ktext k)) false) ;>>
            d_tag_remove fuel (p_index p) k)
        (fun _ => dret tt)
        (fun e => match e with FileNotFoundError => draise KeyError | _ => draise e end).
  (** implements.py:865-881 GridPaper.__setitem__. *)
  Definition d_gp_set (jenc : ameta -> res bytes) (itemsize : string -> nat) (fuel : nat) (p : pad) (k : ikey) (a : arr)
      (exists_ok : bool) : dprog unit :=
    if kisstr k && starts_index (ktext k) then draise KeyError
    else
      do! md :=
        silent (ptry (memorize_array itemsize a (pad_address (p_prefix p) (ktext k)) exists_ok) Ret
                  (fun e => match e with FileExistsError => Raise KeyError | _ => Raise e end)) in
      d_meta_add jenc fuel (p_index p) k (Some md) true ;>> dret tt.
  (** implements.py:902-913 GridPaper.__delitem__. *)
  Definition d_gp_del (fuel : nat) (p : pad) (k : ikey) : dprog unit :=
    if reserved_name k then draise KeyError
    else
      dtry (silent (delete_block (pad_address (p_prefix p) (ktext k)) false) ;>>
            d_meta_remove fuel (p_index p) k)
        (fun _ => dret tt)
        (fun e => match e with FileNotFoundError => draise KeyError | _ => draise e end).
End Debug.
