(** Model of Composition objects that are called, and so can be steps of other
    compositions (dustgoggles/composition.py).  Definitions only.

    Simplification: what a call does to the composition's own record is
    dropped.  A call changes nothing there unless the composition has sends
    into its own steps (C88_steady). *)
From Verif Require Export Comp_Model.

Section Nest.
  Context {V W : Type}.
  Context (none : V) (trace : exn -> string * list frame).
  Notation comp := (@comp V W).
  Notation step := (@step V W).
  Notation func := (@func V W).

  (** composition.py:287 __call__(self, *args, **kwargs) and 243
      execute(self, signal=None, **special_kwargs): the signal for given
      arguments.  The base class ignores the other keywords
      (composition.py:265-272 _bind_special_runtime_kwargs). *)
  Definition signal_of (args : list V) (kw : dict V) : res V :=
    if dhas kw (KStr "self") then Exc TypeError
    else match args with
         | [] => Ok match dget kw (KStr "signal") with Some x => x | None => none end
         | [x] => if dhas kw (KStr "signal") then Exc TypeError else Ok x
         | _ => Exc TypeError
         end.

  (** composition.py:287-288 __call__. *)
  Definition called (c : comp) : func :=
    fun args kw w =>
      match signal_of args kw with
      | Exc e => (Exc e, w)
      | Ok x => let (r, s) := execute none trace x (c, w) in (r, snd s)
      end.

  (** A composition as a step: it has no attribute "func" and no "__name__". *)
  Definition as_step (str : string) (c : comp) : step := Plain None str (called c).
End Nest.

(** composition.py:262-263 iter. *)
Definition iter {W : Type} : eff W unit := eraise NotImplementedError.

(** composition.py:274-285 __str__ and __repr__, for the reprs of the
    attributes it has. *)
Definition attr_line (attr : string) (r : option string) : string :=
  match r with
  | None => ""
  | Some r => attr ++ ":" ++ String "010" (r ++ String "010" "")
  end%string.
Definition comp_str (steps sends inserts : option string) : string :=
  let me_string := (attr_line "steps" steps ++ attr_line "sends" sends ++ attr_line "inserts" inserts)%string in
  if String.eqb me_string "" then "empty Composition" else me_string.
