(** Model of Notepad, GridPaper and Sticky
    (dustgoggles/codex/implements.py:603-1004) and of the numpy mnemonic
    (dustgoggles/codex/codecs.py:114-165).  Definitions only.

    Simplifications: prefixes and addresses are given as text; debug logging
    (with it: Debug_Model) and cleanup at exit are off; files written by dump are in Dump_Model; a
    numpy array is its shape, dtype string and C-order bytes, without object
    dtypes; filling part of a block is a read of the whole block followed by
    a write of the whole block. *)
From Verif Require Export Index_Model.

(** implements.py:631-632: the name of the index of a notepad. *)
Definition pad_index (P : string) : string := (P ++ "_index")%string.
(** implements.py:652-653 address. *)
Definition pad_address (P : string) (k : string) : string := (P ++ "_" ++ k)%string.

Definition starts_index (k : string) : bool := prefix "index" k.

(** A notepad object: its prefix and its index. *)
Record pad := mkPad { p_prefix : string; p_index : index }.

(** Loops: [for k in ks: body(k)]. *)
Fixpoint for_each {A} (body : A -> prog unit) (ks : list A) : prog unit :=
  match ks with
  | [] => Ret tt
  | k :: r => body k >>> for_each body r
  end.
Fixpoint for_list {A B} (body : A -> prog B) (ks : list A) : prog (list B) :=
  match ks with
  | [] => Ret []
  | k :: r => let! b := body k in let! l := for_list body r in Ret (b :: l)
  end.

(** implements.py:779-780, 903-904: is the key one of "index" and
    "index_lock"?  A key that is not a str equals neither. *)
Definition reserved_name (k : ikey) : bool :=
  kisstr k && (String.eqb (ktext k) "index" || String.eqb (ktext k) "index_lock").

Section Notepad.
  Variable hash : bytes -> string.
  (** The codec, and which value is None. *)
  Context {V : Type} (enc : V -> res bytes) (dec : bytes -> res V) (isnone : V -> bool).

  (** implements.py:604-647, 725-747 Notepad(prefix, create, ...,
      no_lockout). *)
  Definition notepad (P : string) (create no_lockout : bool) : prog pad :=
    let! x := tag_index (pad_index P) create no_lockout in
    Ret {| p_prefix := P; p_index := x |}.

  (** implements.py:749-753 __getitem__ with fetch=True. *)
  Definition np_getitem (p : pad) (k : ikey) : prog V :=
    let! v := remember dec (pad_address (p_prefix p) (ktext k)) in
    if isnone v then Raise KeyError else Ret v.

  (** implements.py:755-759 get with fetch=True; [None] is the default. *)
  Definition np_get (p : pad) (k : ikey) : prog (option V) :=
    ptry (np_getitem p k) (fun v => Ret (Some v))
      (fun e => match e with KeyError => Ret None | _ => Raise e end).

  (** implements.py:649-650 get_raw. *)
  Definition np_get_raw (p : pad) (k : ikey) : prog bytes :=
    fetch_block_bytes (pad_address (p_prefix p) (ktext k)).

  (** implements.py:761-773 __setitem__, 775-776 set. *)
  Definition np_set (fuel : nat) (p : pad) (k : ikey) (v : V) (meta_given exists_ok : bool) : prog unit :=
    if kisstr k && starts_index (ktext k) then Raise KeyError
    else
      ptry (tag_add hash fuel (p_index p) k meta_given exists_ok >>>
            memorize enc v (pad_address (p_prefix p) (ktext k)) exists_ok)
        (fun _ => Ret tt)
        (fun e => match e with FileExistsError => Raise KeyError | _ => Raise e end).

  (** implements.py:778-785 __delitem__. *)
  Definition np_del (fuel : nat) (p : pad) (k : ikey) : prog unit :=
    if reserved_name k then Raise KeyError
    else
      ptry (delete_block (pad_address (p_prefix p) (ktext k)) false >>>
            tag_remove hash fuel (p_index p) k)
        (fun _ => Ret tt)
        (fun e => match e with FileNotFoundError => Raise KeyError | _ => Raise e end).

  (** implements.py:655-656 update_index, 674-675 keys. *)
  Definition np_keys (p : pad) : prog (list string) := update (p_index p).

  (** implements.py:694-697 iteritems, consumed at once. *)
  Definition np_items (p : pad) : prog (list (string * V)) :=
    let! ks := np_keys p in
    for_list (fun k => let! v := np_getitem p (skey k) in Ret (k, v)) ks.

  (** implements.py:814-816 clear. *)
  Definition np_clear (fuel : nat) (p : pad) : prog unit :=
    let! ks := np_keys p in for_each (fun k => np_del fuel p (skey k)) ks.

  (** implements.py:802-812 close with dump=False (nothing in it raises
      AttributeError). *)
  Definition np_close (fuel : nat) (p : pad) : prog unit :=
    let! ks := np_keys p in
    for_each (fun k => np_del fuel p (skey k)) ks >>> tag_close (p_index p).
End Notepad.

(** ** GridPaper *)

(** A numpy array. *)
Record arr := mkArr { a_shape : list nat; a_dtype : string; a_data : bytes }.
(** The metadata dict of codecs.py:141-146 without its unused "size". *)
Record ameta := mkMeta { am_name : string; am_dtype : string; am_shape : list nat }.

Definition take (n : nat) (b : bytes) : bytes := substring 0 n b.
Definition drop (n : nat) (b : bytes) : bytes := substring n (String.length b - n) b.

Section Grid.
  Variable hash : bytes -> string.
  (** The JSON codec of the index and numpy's item size of a dtype. *)
  Variables (jenc : ameta -> res bytes) (jdec : bytes -> res ameta) (itemsize : string -> nat).

  (** array.size * array.itemsize *)
  Definition nbytes (dt : string) (shape : list nat) : nat := fold_right Nat.mul 1 shape * itemsize dt.

  (** codecs.py:128-149 memorize_array.  [exists_ok] is passed as the
      [create] of open_block. *)
  Definition memorize_array (a : arr) (address : string) (exists_ok : bool) : prog ameta :=
    let n := nbytes (a_dtype a) (a_shape a) in
    let! block := open_block address n exists_ok false in
    let! buf := shm_read block in
    if Nat.ltb (String.length buf) n then Raise TypeError      (* buffer is too small *)
    else match a_shape a with
         | [] => Raise IndexError                               (* array[:] of a 0-d array *)
         | _ =>
             shm_write block (a_data a ++ drop n buf)%string >>>
             Ret {| am_name := address; am_dtype := a_dtype a; am_shape := a_shape a |}
         end.

  (** codecs.py:151-163 remember_array with fetch=True. *)
  Definition remember_array (metadata_json : bytes) : prog arr :=
    let! md := of_res (jdec metadata_json) in
    let! block := shm_attach (am_name md) in
    let n := nbytes (am_dtype md) (am_shape md) in
    let! buf := shm_read block in
    if Nat.ltb (String.length buf) n then Raise TypeError
    else Ret {| a_shape := am_shape md; a_dtype := am_dtype md; a_data := take n buf |}.

  (** implements.py:604-647, 827-848 GridPaper(prefix, create, ..., no_lockout). *)
  Definition gridpaper (P : string) (create no_lockout : bool) : prog pad :=
    let! x := meta_index (pad_index P) create no_lockout in
    Ret {| p_prefix := P; p_index := x |}.

  (** implements.py:850-857 __getitem__ with fetch=True. *)
  Definition gp_getitem (p : pad) (k : ikey) : prog arr :=
    ptry (let! md := meta_getitem hash (p_index p) k in remember_array md) Ret
      (fun e => match e with FileNotFoundError => Raise KeyError | _ => Raise e end).
  (** implements.py:859-863 get with fetch=True. *)
  Definition gp_get (p : pad) (k : ikey) : prog (option arr) :=
    ptry (gp_getitem p k) (fun a => Ret (Some a))
      (fun e => match e with KeyError => Ret None | _ => Raise e end).
  (** implements.py:850-857 __getitem__ with fetch=False: remember_array
      returns a bare SharedMemory, which cannot be unpacked into two. *)
  Definition gp_getitem_block (p : pad) (k : ikey) : prog arr :=
    ptry (let! j := meta_getitem hash (p_index p) k in
          let! md := of_res (jdec j) in
          shm_attach (am_name md) >>> Raise TypeError) Ret
      (fun e => match e with FileNotFoundError => Raise KeyError | _ => Raise e end).

  (** implements.py:865-881 __setitem__, 886-887 set. *)
  Definition gp_set (fuel : nat) (p : pad) (k : ikey) (a : arr) (exists_ok : bool) : prog unit :=
    if kisstr k && starts_index (ktext k) then Raise KeyError
    else
      let! md :=
        ptry (memorize_array a (pad_address (p_prefix p) (ktext k)) exists_ok) Ret
          (fun e => match e with FileExistsError => Raise KeyError | _ => Raise e end) in
      meta_add hash jenc fuel (p_index p) k (Some md) true >>> Ret tt.

  (** implements.py:902-913 __delitem__.  No block in _open_blocks has the
      key as its name, since block names are addresses. *)
  Definition gp_del (fuel : nat) (p : pad) (k : ikey) : prog unit :=
    if reserved_name k then Raise KeyError
    else
      ptry (delete_block (pad_address (p_prefix p) (ktext k)) false >>>
            meta_remove hash fuel (p_index p) k)
        (fun _ => Ret tt)
        (fun e => match e with FileNotFoundError => Raise KeyError | _ => Raise e end).

  (** implements.py:655-656, 674-675. *)
  Definition gp_keys (p : pad) : prog (list string) := update (p_index p).

  (** implements.py:694-697 iteritems, consumed at once. *)
  Definition gp_items (p : pad) : prog (list (string * arr)) :=
    let! ks := gp_keys p in
    for_list (fun k => let! a := gp_getitem p (skey k) in Ret (k, a)) ks.

  (** implements.py:915-921 close with dump=False. *)
  Definition gp_close (fuel : nat) (p : pad) : prog unit :=
    let! ks := gp_keys p in
    for_each (fun k => gp_del fuel p (skey k)) ks >>> tag_close (p_index p).

  (** implements.py:923-925 clear: update_index() returns a list, which has no
      keys(). *)
  Definition gp_clear (p : pad) : prog unit := gp_keys p >>> Raise AttributeError.
End Grid.

(** ** Sticky *)

Section Sticky.
  Context {V : Type} (enc : V -> res bytes) (dec : bytes -> res V) (isnone : V -> bool).

  (** A Sticky object: its address and cached value, [None] if that is None
      (implements.py:937-947). *)
  Record sticky := mkSticky { st_address : string; st_cached : option V }.
  Definition cached (v : V) : option V := if isnone v then None else Some v.

  (** implements.py:987-992 stick: the object afterwards. *)
  Definition stick (k : sticky) (v : V) : prog sticky :=
    let! encoded := of_res (enc v) in
    let! block := open_block (st_address k) (String.length encoded) true false in
    shm_write block encoded >>>
    Ret {| st_address := st_address k; st_cached := cached v |}.

  (** implements.py:949-966 note with an address; also gives the object when
      sticking fails (it is then never returned, but the block may exist). *)
  Definition note (a : string) (v : V) : prog sticky :=
    stick {| st_address := a; st_cached := cached v |} v.

  (** implements.py:968-977 read: what is returned, [None] for None, and the
      object afterwards. *)
  Definition sticky_read (k : sticky) (reread : bool) : prog (option V * sticky) :=
    let fetch :=
      let! block :=
        ptry (shm_attach (st_address k)) (fun h => Ret (Some h))
          (fun e => match e with FileNotFoundError => Ret None | _ => Raise e end) in
      match block with
      | None => Ret (None, k)
      | Some h =>
          let! b := shm_read h in
          let! v := of_res (dec b) in
          Ret (cached v, {| st_address := st_address k; st_cached := cached v |})
      end in
    match st_cached k with
    | Some v => if reread then fetch else Ret (Some v, k)
    | None => fetch
    end.

  (** implements.py:979-985 close, pull. *)
  Definition sticky_close (k : sticky) : prog unit :=
    let! h := shm_attach (st_address k) in shm_unlink h.
End Sticky.
Arguments sticky : clear implicits.
