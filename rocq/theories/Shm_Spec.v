(** Specification vocabulary for shared memory: what is at a name. *)
From Verif Require Export Shm_Model.

(** The bytes found at an address, None if nothing is there.  A block that
    was created but not yet given a size is [Some ""]. *)
Definition content (s : store) (a : string) : option bytes :=
  match names s a with Some i => mem s i | None => None end.

(** Stores an operating system can be in: distinct names point to distinct
    inodes, named inodes exist, inode numbers are not reused. *)
Definition wf (s : store) : Prop :=
  (forall a b i, names s a = Some i -> names s b = Some i -> a = b) /\
  (forall a i, names s a = Some i -> mem s i <> None) /\
  (forall i, (next s <= i)%N -> mem s i = None).

(** Nothing changed at [a]: same inode, same bytes. *)
Definition same_at (s s' : store) (a : string) : Prop :=
  names s' a = names s a /\
  forall i, names s a = Some i -> mem s' i = mem s i.

(** Nothing changed except possibly at the addresses in [A]. *)
Definition only_at (A : string -> Prop) (s s' : store) : Prop :=
  forall a, ~ A a -> same_at s s' a.

(** ** Other users of shared memory *)

(** Anything a program can do at an address through the helpers. *)
Inductive cmd (V : Type) : Type :=
| CMemorize (a : string) (v : V) (exists_ok : bool)
| CRemember (a : string)
| COpen (a : string) (size : nat) (create overwrite : bool)
| CWrite (a : string) (b : bytes)
| CDelete (a : string) (missing_ok : bool)
| CExists (a : string).
Arguments CMemorize {V}. Arguments CRemember {V}. Arguments COpen {V}.
Arguments CWrite {V}. Arguments CDelete {V}. Arguments CExists {V}.

Definition cmd_address {V} (c : cmd V) : string :=
  match c with
  | CMemorize a _ _ | CRemember a | COpen a _ _ _ | CWrite a _ | CDelete a _
  | CExists a => a
  end.

Definition cmd_prog {V} (encode : V -> res bytes) (decode : bytes -> res V)
    (c : cmd V) : prog unit :=
  match c with
  | CMemorize a v ok => memorize encode v a ok >>> Ret tt
  | CRemember a => remember decode a >>> Ret tt
  | COpen a size create ow => open_block a size create ow >>> Ret tt
  | CWrite a b => let! h := shm_attach a in shm_write h b
  | CDelete a mo => delete_block a mo
  | CExists a => exists_block a >>> Ret tt
  end.

(** The store after running the commands one after another, whatever their
    outcomes. *)
Definition after_cmds {V} (encode : V -> res bytes) (decode : bytes -> res V)
    (cs : list (cmd V)) (s : store) : store :=
  fold_left (fun s c => snd (run (cmd_prog encode decode c) s)) cs s.
