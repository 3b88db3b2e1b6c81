(** Model of dustgoggles/test_utils/core.py: [piped] and [wrap_piped].
    Definitions only.

    The processes are forked; a connection is a queue of bytes holding at most
    [cap].  The parent keeps both ends open, so receiving never sees the end of
    the data: with nothing to receive it waits.  Failures to start a process are
    not modelled. *)
From Verif Require Export Py_Model.
From Coq Require Export Relations.
Open Scope Z_scope.

Definition byte_ := Z.

(** multiprocessing/connection.py Connection._send_bytes: the length in four bytes
    (with more than 0x7fffffff bytes: -1 and the length in eight), then the
    message. *)
Fixpoint big_endian (k : nat) (n : Z) : list byte_ :=
  match k with O => [] | S k => big_endian k (n / 256) ++ [n mod 256] end.
Definition of_bytes (l : list byte_) : Z := fold_left (fun a b => a * 256 + b) l 0.
Definition size (l : list byte_) : Z := Z.of_nat (List.length l).
Definition header (n : Z) : list byte_ :=
  if n <=? 2147483647 then big_endian 4 n else big_endian 4 4294967295 ++ big_endian 8 n.
Definition frame (message : list byte_) : list byte_ := header (size message) ++ message.
(** Connection._recv_bytes: how many more bytes it waits for, having got [got];
    and the message in it, if it has all. *)
Definition wanted (got : list byte_) : Z :=
  if size got <? 4 then 4 - size got
  else if of_bytes (firstn 4 got) =? 4294967295 then
    if size got <? 12 then 12 - size got
    else 12 + of_bytes (firstn 8 (skipn 4 got)) - size got
  else 4 + of_bytes (firstn 4 got) - size got.
Definition message_of (got : list byte_) : list byte_ :=
  if of_bytes (firstn 4 got) =? 4294967295 then skipn 12 got else skipn 4 got.

Section Piped.
  Context {obj : Type}.
  (** Pickling and unpickling, an exception as an object, the size of a pipe. *)
  Context (dumps : obj -> res (list byte_)) (loads : list byte_ -> res obj) (exn_obj : exn -> obj) (cap : Z).

  (** What the function called does; [None]: it does not return. *)
  Definition outcome := option (res obj).

  (** core.py:67-77 piped, sendback: what the child sends, if anything.  An object that
      cannot be pickled, or whose size does not fit in eight bytes, ends it with a
      traceback. *)
  Definition sent (o : res obj) : option (list byte_) :=
    match (match o with
           | Ok v => Some v
           | Exc e => if is_Exception e then Some (exn_obj e) else None
           end) with
    | Some v => match dumps v with Ok b => if size b <? 18446744073709551616 then Some (frame b) else None | Exc _ => None end
    | None => None
    end.

  (** The child: calling the function, sending what remains, ended. *)
  Inductive child := Calling | Sending (rest : list byte_) | Ended.
  (** The parent: waiting for the child, receiving, done. *)
  Inductive parent := Joining | Receiving (got : list byte_) | Done (r : res obj).
  Record system := { ch : child; pipe : list byte_; pa : parent }.
  Definition started : system := {| ch := Calling; pipe := []; pa := Joining |}.

  (** core.py:80-92 wrap_piped, get_results_from_child_process with [block is True]: join,
      then recv; writing and reading move any number of bytes that fit. *)
  Inductive step (o : outcome) : system -> system -> Prop :=
  | s_call b r p : o = Some r -> step o {| ch := Calling; pipe := b; pa := p |}
      {| ch := match sent r with Some m => Sending m | None => Ended end; pipe := b; pa := p |}
  | s_write x y b p : x <> [] -> size (b ++ x) <= cap ->
      step o {| ch := Sending (x ++ y); pipe := b; pa := p |} {| ch := Sending y; pipe := b ++ x; pa := p |}
  | s_sent b p : step o {| ch := Sending []; pipe := b; pa := p |} {| ch := Ended; pipe := b; pa := p |}
  | s_join b : step o {| ch := Ended; pipe := b; pa := Joining |} {| ch := Ended; pipe := b; pa := Receiving [] |}
  | s_read c x y g : x <> [] -> size x <= wanted g ->
      step o {| ch := c; pipe := x ++ y; pa := Receiving g |} {| ch := c; pipe := y; pa := Receiving (g ++ x) |}
  | s_done c b g : wanted g = 0 ->
      step o {| ch := c; pipe := b; pa := Receiving g |} {| ch := c; pipe := b; pa := Done (loads (message_of g)) |}.

  Definition gets_to (o : outcome) : system -> system -> Prop := clos_refl_trans_1n _ (step o).
End Piped.
Arguments child : clear implicits.
Arguments parent : clear implicits.
Arguments system : clear implicits.
