(** Model of dustgoggles/test_utils/core.py: [piped] on its own, and [wrap_piped] with
    any [block].  Definitions only.

    As in Tutil_Model, a connection is a queue of at most [cap] bytes whose ends
    are never closed: the frame of get_results_from_child_process is on the stack of
    the forked child too, which so holds both ends until it ends, whatever the
    parent does with its own. *)
From Verif Require Export Tutil_Model.
Open Scope Z_scope.

(** What the parent does with the process and its end of the pipe. *)
Inductive act := Join | Recv.

(** core.py:80-92 wrap_piped, get_results_from_child_process: what is done before
    it returns.  Only [True] itself makes it wait, not 1 or anything else that is
    true.  ([proc.close()] is [closes].) *)
Definition wrapper_acts (block : val) : list act :=
  match block with VAtom (KBool true) => [Join; Recv] | _ => [] end.

Section Parent.
  Context {obj : Type}.
  Context (dumps : obj -> res (list byte_)) (loads : list byte_ -> res obj) (exn_obj : exn -> obj) (cap : Z).

  (** The parent: what it has still to do, with what it received so far; in the
      second case it is receiving, and has got some bytes. *)
  Inductive pstate := At (l : list act) (rs : list (res obj)) | Getting (g : list byte_) (l : list act) (rs : list (res obj)).
  Record psystem := { p_ch : child; p_pipe : list byte_; p_pa : pstate }.
  Definition begun (l : list act) : psystem := {| p_ch := Calling; p_pipe := []; p_pa := At l [] |}.

  (** core.py:67-77 piped, sendback in the child; Process.join and Connection.recv in the
      parent. *)
  Inductive pstep (o : outcome) : psystem -> psystem -> Prop :=
  | t_call b r p : o = Some r -> pstep o {| p_ch := Calling; p_pipe := b; p_pa := p |}
      {| p_ch := match sent dumps exn_obj r with Some m => Sending m | None => Ended end; p_pipe := b; p_pa := p |}
  | t_write x y b p : x <> [] -> size (b ++ x) <= cap ->
      pstep o {| p_ch := Sending (x ++ y); p_pipe := b; p_pa := p |} {| p_ch := Sending y; p_pipe := b ++ x; p_pa := p |}
  | t_sent b p : pstep o {| p_ch := Sending []; p_pipe := b; p_pa := p |} {| p_ch := Ended; p_pipe := b; p_pa := p |}
  | t_join b l rs : pstep o {| p_ch := Ended; p_pipe := b; p_pa := At (Join :: l) rs |} {| p_ch := Ended; p_pipe := b; p_pa := At l rs |}
  | t_recv c b l rs : pstep o {| p_ch := c; p_pipe := b; p_pa := At (Recv :: l) rs |} {| p_ch := c; p_pipe := b; p_pa := Getting [] l rs |}
  | t_read c x y g l rs : x <> [] -> size x <= wanted g ->
      pstep o {| p_ch := c; p_pipe := x ++ y; p_pa := Getting g l rs |} {| p_ch := c; p_pipe := y; p_pa := Getting (g ++ x) l rs |}
  | t_done c b g l rs : wanted g = 0 ->
      pstep o {| p_ch := c; p_pipe := b; p_pa := Getting g l rs |} {| p_ch := c; p_pipe := b; p_pa := At l (rs ++ [loads (message_of g)]) |}.
  Definition goes_to (o : outcome) : psystem -> psystem -> Prop := clos_refl_trans_1n _ (pstep o).

  (** core.py:89 [proc.close()] (multiprocessing/process.py BaseProcess.close): a
      process that has not ended is a ValueError. *)
  Definition closes (s : psystem) : res unit := match p_ch s with Ended => Ok tt | _ => Exc ValueError end.
End Parent.
Arguments pstate : clear implicits.
Arguments psystem : clear implicits.
