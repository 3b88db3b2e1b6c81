(** Model of digsource (dustgoggles/dynamic.py).  Definitions only.

    Simplification: [inspect.getsource] is a parameter for functions that come
    from files and for objects of other kinds; the "__wrapped__" attributes it
    follows are not modelled. *)
From Verif Require Export Dyn_Model.

Section Dig.
  Context {G : Type}.
  (** [inspect.getsource] of the functions given to from_function. *)
  Context (given_source : N -> res string).

  (** What digsource looks at: functions, methods, other objects with an
      attribute "func", None, anything else with what [getsource] does. *)
  Inductive pyobj := PFun (f : @pyfun G) | PMeth (f : @pyfun G) | PHas (func : pyobj) | PNone | POther (s : res string).

  (** [inspect.getsource]: code compiled from a string has the file name "". *)
  Definition getsource (o : pyobj) : res string :=
    match o with
    | PFun (Made _ _) | PMeth (Made _ _) => Exc OSError
    | PFun (Given n _ _ _) | PMeth (Given n _ _ _) => given_source n
    | PHas _ | PNone => Exc TypeError
    | POther s => s
    end.

  (** dynamic.py:24-34 digsource. *)
  Definition digsource (o : pyobj) : res string :=
    match o with
    | PFun _ | PMeth _ => getsource o
    | PHas f => getsource f
    | PNone | POther _ => Exc TypeError
    end.

  (** A Dynamic always has the attribute, of the class if not its own
      (dynamic.py:192). *)
  Definition as_obj (d : @dyn G) : pyobj := PHas match rd (func d) with Some f => PFun f | None => PNone end.

  (** dynamic.py:164-170 __str__ and __repr__, for the str of a signature. *)
  Definition dyn_str (sig : @pyfun G -> string) (d : @dyn G) : string :=
    match rd (func d) with None => "Dynamic" | Some f => ("Dynamic " ++ sig f)%string end.
End Dig.
