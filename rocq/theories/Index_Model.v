(** Model of TagIndex and MetaTagIndex
    (dustgoggles/codex/implements.py:259-600).  Definitions only.

    Simplifications: text is represented by its UTF-8 bytes, so [str.encode]
    and [bytes.decode] are the identity (every key block holds encoded text or
    zeros); debug logging is off (with it: Debug_Model); [cache] and [length] attributes are passed
    explicitly (every method that uses them sets them first). *)
From Verif Require Export Lock_Model.

(** A key object: [str(key)], the bytes that are hashed for it
    ([key] itself if it is bytes, else [str(key).encode()]) and whether it is
    a str. *)
Record ikey := mkKey { ktext : string; kraw : string; kisstr : bool }.

(** A str key; a key of any other type that is not bytes; a bytes key. *)
Definition skey (s : string) : ikey := mkKey s s true.
Definition okey (s : string) : ikey := mkKey s s false.
Definition bkey (repr raw : string) : ikey := mkKey repr raw false.

(** implements.py:380-381 key_address, 531-532 val_address. *)
Definition key_address (name : string) (ix : Z) : string :=
  (name ++ "_key_" ++ str_of_Z ix)%string.
Definition val_address (name : string) (ix : Z) : string :=
  (name ++ "_val_" ++ str_of_Z ix)%string.

(** An index object: its name, its [memory] handle, its lock class. *)
Record index := mkIndex {
  ix_name : string; ix_mem : handle; ix_no_lockout : bool }.

Section Index.
  (** HASHER(key).hexdigest(), implements.py:126, 377. *)
  Variable hash : bytes -> string.

  (** implements.py:374-378 hash_address. *)
  Definition name_address (name : string) (raw : bytes) : string :=
    (name ++ "_name_" ++ hash raw)%string.

  (** implements.py:265-286, 343-372 TagIndex(name, create, ...,
      no_lockout). *)
  Definition tag_index (name : string) (create no_lockout : bool)
      : prog index :=
    let! missing :=
      (if create then Ret false
       else let! b := exists_block name in Ret (negb b)) in
    if missing : bool then Raise FileNotFoundError
    else
      let! m := (if create then shm_create name 8 else shm_attach name) in
      Ret {| ix_name := name; ix_mem := m; ix_no_lockout := no_lockout |}.

  (** implements.py:383-389 update_length. *)
  Definition update_length (x : index) : prog Z :=
    let! b := shm_read (ix_mem x) in Ret (from_bytes b).

  (** implements.py:397-401 check, on the hashed bytes. *)
  Definition check_raw (x : index) (raw : bytes) : prog (option Z) :=
    let! b := exists_block (name_address (ix_name x) raw) in
    if b : bool then
      let! h := shm_attach (name_address (ix_name x) raw) in
      let! v := shm_read h in Ret (Some (from_bytes v))
    else Ret None.
  Definition check (x : index) (k : ikey) : prog (option Z) :=
    check_raw x (kraw k).

  (** implements.py:403-411 _enumerate_keys and 391-395 update, from index
      [ix] on. *)
  Fixpoint keys_from (x : index) (n : nat) (ix : Z) : prog (list string) :=
    match n with
    | O => Ret []
    | S m =>
        let! o :=
          ptry (let! h := shm_attach (key_address (ix_name x) ix) in
                shm_read h)
            (fun b => Ret (Some b))
            (fun e => match e with
                      | FileNotFoundError => Ret None
                      | _ => Raise e
                      end) in
        let! r := keys_from x m (ix + 1) in
        Ret (match o with Some b => b :: r | None => r end)
    end.
  Definition update (x : index) : prog (list string) :=
    let! n := update_length x in keys_from x (Z.to_nat n) 0.

  (** implements.py:413-437 _add. *)
  Definition _add (x : index) (k : ikey) (exists_ok : bool) : prog Z :=
    let! found := check x k in
    match found with
    | Some p => if exists_ok then Ret p else Raise FileExistsError
    | None =>
        let! length := update_length x in
        let! new_length := of_res (to_bytes 8 (length + 1)) in
        shm_write (ix_mem x) new_length >>>
        let! keyblock :=
          open_block (key_address (ix_name x) length)
            (String.length (ktext k)) true true in
        shm_write keyblock (ktext k) >>>
        let! position := of_res (to_bytes 8 length) in
        let! nameblock :=
          open_block (name_address (ix_name x) (kraw k)) 8 true false in
        shm_write nameblock position >>>
        Ret length
    end.

  (** implements.py:445-480 _delitem; also returns [self.length] as it is
      afterwards. *)
  Definition _delitem (x : index) (k : ikey) : prog (Z * Z) :=
    let! found := check x k in
    match found with
    | None => Raise KeyError
    | Some found_at =>
        let! length := update_length x in
        (if (found_at =? length - 1)%Z
         then delete_block (key_address (ix_name x) found_at) false
         else
           let! lastblock := shm_attach (key_address (ix_name x) (length - 1)) in
           let! lastkey := shm_read lastblock in
           let! moved :=
             open_block (key_address (ix_name x) found_at)
               (String.length lastkey) true true in
           shm_write moved lastkey >>>
           let! nameblock := shm_attach (name_address (ix_name x) lastkey) in
           let! p := of_res (to_bytes 8 found_at) in
           shm_write nameblock p >>>
           shm_unlink lastblock) >>>
        delete_block (name_address (ix_name x) (kraw k)) false >>>
        let! new_length := of_res (to_bytes 8 (length - 1)) in
        shm_write (ix_mem x) new_length >>>
        Ret (found_at, length)
    end.

  (** implements.py:439-443 TagIndex.add (value given or not). *)
  Definition tag_add (fuel : nat) (x : index) (k : ikey) (value_given : bool)
      (exists_ok : bool) : prog Z :=
    if value_given then Raise ValueError
    else with_lock (ix_no_lockout x) fuel (ix_name x) (_add x k exists_ok).

  (** implements.py:482-484 TagIndex.__delitem__, 313-315 remove. *)
  Definition tag_del_ (fuel : nat) (x : index) (k : ikey) : prog (Z * Z) :=
    with_lock (ix_no_lockout x) fuel (ix_name x) (_delitem x k).
  Definition tag_remove (fuel : nat) (x : index) (k : ikey) : prog Z :=
    let! r := tag_del_ fuel x k in Ret (fst r).

  (** implements.py:486-493 TagIndex.close. *)
  Definition tag_close (x : index) : prog unit :=
    shm_unlink (ix_mem x) >>>
    let! b := exists_block (count_address (ix_name x)) in
    if b : bool then
      let! h := shm_attach (count_address (ix_name x)) in shm_unlink h
    else Ret tt.

  (** ** MetaTagIndex *)

  Section Meta.
    (** The JSON codec, codecs.py:14-30, for values of type [J]; [None] as a
        value means "no value". *)
    Context {J : Type} (jenc : J -> res bytes) (jdec : bytes -> res J).

    (** implements.py:503-529. *)
    Definition meta_index (name : string) (create no_lockout : bool)
        : prog index :=
      let! x := tag_index name create no_lockout in
      if create then
        let! m := shm_attach name in
        Ret {| ix_name := name; ix_mem := m; ix_no_lockout := no_lockout |}
      else Ret x.

    (** implements.py:534-536 _load_key, 538-542 _load_value. *)
    Definition load_key (x : index) (ix : Z) : prog string :=
      let! h := shm_attach (key_address (ix_name x) ix) in shm_read h.
    Definition load_value (x : index) (ix : Z) : prog (option J) :=
      ptry (remember jdec (val_address (ix_name x) ix))
        (fun v => Ret (Some v))
        (fun e => match e with
                  | FileNotFoundError => Ret None
                  | _ => Raise e
                  end).

    (** implements.py:544-568 _enumerate, keys, values, items. *)
    Fixpoint load_from {B} (load : Z -> prog B) (n : nat) (ix : Z)
        : prog (list B) :=
      match n with
      | O => Ret []
      | S m => let! b := load ix in
               let! r := load_from load m (ix + 1) in Ret (b :: r)
      end.
    Definition meta_keys (x : index) : prog (list string) :=
      let! n := update_length x in load_from (load_key x) (Z.to_nat n) 0.
    Definition meta_values (x : index) : prog (list (option J)) :=
      let! n := update_length x in load_from (load_value x) (Z.to_nat n) 0.
    Definition meta_items (x : index) : prog (list (string * option J)) :=
      let! n := update_length x in
      load_from (fun ix => let! k := load_key x ix in
                           let! v := load_value x ix in Ret (k, v))
        (Z.to_nat n) 0.

    (** implements.py:570-575 add. *)
    Definition meta_add (fuel : nat) (x : index) (k : ikey) (value : option J)
        (exists_ok : bool) : prog Z :=
      with_lock (ix_no_lockout x) fuel (ix_name x)
        (let! writehead := _add x k exists_ok in
         (match value with
          | None => Ret tt
          | Some v =>
              memorize jenc v (val_address (ix_name x) writehead) true >>>
              Ret tt
          end) >>>
         Ret writehead).

    (** implements.py:577-582 __getitem__. *)
    Definition meta_getitem (x : index) (k : ikey) : prog bytes :=
      let! found := check x k in
      match found with
      | None => Raise KeyError
      | Some p => let! h := shm_attach (val_address (ix_name x) p) in
                  shm_read h
      end.

    (** implements.py:584-600 __delitem__.  Note the nested lock. *)
    Definition meta_remove (fuel : nat) (x : index) (k : ikey) : prog Z :=
      with_lock (ix_no_lockout x) fuel (ix_name x)
        (let! r := tag_del_ fuel x k in
         let found_at := fst r in
         let length := snd r in
         let last := val_address (ix_name x) (length - 1) in
         let! gone :=
           (if (found_at =? length - 1)%Z then Ret true
            else let! b := exists_block last in Ret (negb b)) in
         (if gone : bool
          then delete_block (val_address (ix_name x) found_at) true
          else
            let! b := exists_block last in
            if b : bool then
              let! valblock := shm_attach last in
              let! valbytes := shm_read valblock in
              let! moved :=
                open_block (val_address (ix_name x) found_at)
                  (String.length valbytes) true true in
              shm_write moved valbytes >>> delete_block last false
            else Ret tt) >>>
         Ret found_at).
  End Meta.
End Index.
