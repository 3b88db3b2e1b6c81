(** Model of POSIX shared memory as seen through
    multiprocessing.shared_memory.SharedMemory, of
    dustgoggles/codex/memutilz.py and of the generic mnemonic of
    dustgoggles/codex/codecs.py.  Definitions only.

    Not modelled: closing of file descriptors and mappings, running out of
    memory, file permissions, names that shm_open rejects (embedded '/', too
    long), torn reads and writes (a whole-buffer read or write is one step),
    Windows.  (The resource tracker is in Exit_Model.) *)
From Verif Require Export Py_Model.

(** ** The store *)

(** A byte string; Coq's [ascii] is a byte. *)
Notation bytes := string (only parsing).

(** Names in /dev/shm point to inodes; inodes hold bytes.  A handle keeps its
    inode alive after the name is unlinked, so [mem] never shrinks. *)
Record store := mkStore {
  names : string -> option N;
  mem : N -> option bytes;
  next : N
}.

Definition empty_store : store :=
  {| names := fun _ => None; mem := fun _ => None; next := 0 |}.

Definition upd_name (f : string -> option N) (a : string) (v : option N) :=
  fun x => if String.eqb x a then v else f x.
Definition upd_mem (f : N -> option bytes) (i : N) (v : bytes) :=
  fun j => if N.eqb j i then Some v else f j.

Definition zeros (n : nat) : bytes := string_of_list_ascii (repeat zero n).

(** ** Primitive operations *)

(** Each is one atomic step of the operating system (or, for [ORead] and
    [OWrite], one copy from or to the mapping). *)
Inductive op : Type -> Type :=
| OCreate (a : string) : op N        (* shm_open(a, O_CREAT|O_EXCL|O_RDWR) *)
| OTrunc (i : N) (size : nat) : op unit  (* ftruncate of a fresh inode *)
| OOpen (a : string) : op N          (* shm_open(a, O_RDWR) *)
| OAttach (i : N) : op unit          (* fstat + mmap of the whole file *)
| OUnlink (a : string) : op unit     (* shm_unlink(a) *)
| ORead (i : N) : op bytes           (* block.buf.tobytes() *)
| OWrite (i : N) (b : bytes) : op unit.  (* block.buf[:] = b *)

Definition step {B} (o : op B) (s : store) : res B * store :=
  match o in op B return res B * store with
  | OCreate a =>
      match names s a with
      | Some _ => (Exc FileExistsError, s)
      | None => (Ok (next s),
                 {| names := upd_name (names s) a (Some (next s));
                    mem := upd_mem (mem s) (next s) "";
                    next := N.succ (next s) |})
      end
  | OTrunc i size =>
      (Ok tt, {| names := names s; mem := upd_mem (mem s) i (zeros size);
                 next := next s |})
  | OOpen a =>
      match names s a with
      | Some i => (Ok i, s)
      | None => (Exc FileNotFoundError, s)
      end
  | OAttach i =>
      match mem s i with
      | Some (String _ _) => (Ok tt, s)
      | _ => (Exc ValueError, s)       (* cannot mmap an empty file *)
      end
  | OUnlink a =>
      match names s a with
      | Some _ => (Ok tt, {| names := upd_name (names s) a None;
                             mem := mem s; next := next s |})
      | None => (Exc FileNotFoundError, s)
      end
  | ORead i =>
      match mem s i with
      | Some b => (Ok b, s)
      | None => (Exc ValueError, s)
      end
  | OWrite i b =>
      match mem s i with
      | Some b' =>
          if Nat.eqb (String.length b) (String.length b')
          then (Ok tt, {| names := names s; mem := upd_mem (mem s) i b;
                          next := next s |})
          else (Exc ValueError, s)     (* structures differ *)
      | None => (Exc ValueError, s)
      end
  end.

(** ** Programs *)

(** [Stuck]: the fuel given to an unbounded loop ran out. *)
Inductive prog (A : Type) : Type :=
| Ret (a : A)
| Raise (e : exn)
| Stuck
| Do {B} (o : op B) (k : res B -> prog A).
Arguments Ret {A} a.
Arguments Raise {A} e.
Arguments Stuck {A}.
Arguments Do {A B} o k.

(** [try: x = p; except e: h(e); else: k(x)]. *)
Fixpoint ptry {A B} (p : prog A) (k : A -> prog B) (h : exn -> prog B)
    : prog B :=
  match p with
  | Ret a => k a
  | Raise e => h e
  | Stuck => Stuck
  | Do o f => Do o (fun r => ptry (f r) k h)
  end.

Definition pbind {A B} (p : prog A) (k : A -> prog B) : prog B :=
  ptry p k (fun e => Raise e).

Definition of_res {A} (r : res A) : prog A :=
  match r with Ok a => Ret a | Exc e => Raise e end.

Definition prim {B} (o : op B) : prog B := Do o of_res.

Declare Scope prog_scope.
Delimit Scope prog_scope with prog.
Notation "'let!' x := p 'in' k" := (pbind p (fun x => k))
  (at level 200, x name, p at level 100, k at level 200, right associativity)
  : prog_scope.
Notation "p >>> k" := (pbind p (fun _ => k))
  (at level 61, right associativity) : prog_scope.
Open Scope prog_scope.

(** Sequential execution, nobody else running.  [None]: out of fuel. *)
Fixpoint run {A} (p : prog A) (s : store) : option (res A) * store :=
  match p with
  | Ret a => (Some (Ok a), s)
  | Raise e => (Some (Exc e), s)
  | Stuck => (None, s)
  | Do o k => let '(r, s') := step o s in run (k r) s'
  end.

(** Crash semantics: the store when the process is killed just before its
    [n]-th primitive operation (or after its last one). *)
Fixpoint crash {A} (n : nat) (p : prog A) (s : store) : store :=
  match n, p with
  | S m, Do o k => let '(r, s') := step o s in crash m (k r) s'
  | _, _ => s
  end.

(** ** SharedMemory objects *)

(** A SharedMemory object: the name it was opened under and its inode. *)
Record handle := mkHandle { hname : string; hid : N }.

(** SharedMemory(a, create=True, size=n). *)
Definition shm_create (a : string) (size : nat) : prog handle :=
  match size with
  | O => Raise ValueError
  | _ => let! i := prim (OCreate a) in
         prim (OTrunc i size) >>> prim (OAttach i) >>>
         Ret {| hname := a; hid := i |}
  end.

(** SharedMemory(a). *)
Definition shm_attach (a : string) : prog handle :=
  let! i := prim (OOpen a) in
  prim (OAttach i) >>> Ret {| hname := a; hid := i |}.

(** block.unlink(): by name, whatever the name points to now. *)
Definition shm_unlink (h : handle) : prog unit := prim (OUnlink (hname h)).

(** block.buf.tobytes(), block.buf[:] = b. *)
Definition shm_read (h : handle) : prog bytes := prim (ORead (hid h)).
Definition shm_write (h : handle) (b : bytes) : prog unit :=
  prim (OWrite (hid h) b).

(** ** memutilz.py *)

(** memutilz.py:5-19 open_block. *)
Definition open_block (a : string) (size : nat) (create overwrite : bool)
    : prog handle :=
  ptry (if create then shm_create a size else shm_attach a)
    Ret
    (fun e =>
       match e with
       | FileExistsError =>
           if overwrite
           then let! old := shm_attach a in
                shm_unlink old >>> shm_create a size
           else shm_attach a
       | _ => Raise e
       end).

(** memutilz.py:22-27 fetch_block_bytes. *)
Definition fetch_block_bytes (a : string) : prog bytes :=
  let! h := shm_attach a in shm_read h.

(** memutilz.py:30-42 exists_block.  The only ValueError SharedMemory(a) can
    raise in the model is the one about empty files. *)
Definition exists_block (a : string) : prog bool :=
  ptry (shm_attach a)
    (fun _ => Ret true)
    (fun e => match e with
              | FileNotFoundError => Ret false
              | ValueError => Ret true
              | _ => Raise e
              end).

(** memutilz.py:46-54 delete_block. *)
Definition delete_block (a : string) (missing_ok : bool) : prog unit :=
  ptry (let! h := shm_attach a in shm_unlink h)
    Ret
    (fun e => match e with
              | FileExistsError => if missing_ok then Ret tt else Raise e
              | _ => Raise e
              end).

(** ** Fixed-width little-endian integers *)

(** [n.to_bytes(w, "little")] *)
Fixpoint le_digits (w : nat) (n : Z) : bytes :=
  match w with
  | O => ""
  | S w' => String (ascii_of_N (Z.to_N (n mod 256))) (le_digits w' (n / 256))
  end.
Definition to_bytes (w : nat) (n : Z) : res bytes :=
  if ((0 <=? n) && (n <? 256 ^ Z.of_nat w))%Z then Ok (le_digits w n)
  else Exc OverflowError.

(** [int.from_bytes(b, "little")] *)
Fixpoint from_bytes (b : bytes) : Z :=
  match b with
  | "" => 0
  | String c r => Z.of_N (N_of_ascii c) + 256 * from_bytes r
  end.

(** ** The generic mnemonic *)

Section Mnemonic.
  Context {V : Type}.

  (** codecs.py:77-95 memorize. *)
  Definition memorize (encode : V -> res bytes) (value : V) (address : string)
      (exists_ok : bool) : prog string :=
    let! occupied :=
      (if exists_ok then Ret false else exists_block address) in
    if occupied then Raise FileExistsError
    else
      let! encoded := of_res (encode value) in
      let! block := open_block address (String.length encoded) true true in
      shm_write block encoded >>> Ret address.

  (** codecs.py:97-109 remember with fetch=True. *)
  Definition remember (decode : bytes -> res V) (address : string) : prog V :=
    let! b := fetch_block_bytes address in of_res (decode b).

  (** codecs.py:107-108 remember with fetch=False. *)
  Definition remember_block (address : string) : prog handle :=
    shm_attach address.
End Mnemonic.
