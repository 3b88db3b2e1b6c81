(** What property C90 of digsource means.  Definitions only. *)
From Verif Require Export Dyn_Spec Dig_Model.

Section Spec.
  Context {G KW V W : Type}.
  Context (none : V) (globals : G) (compiler : string -> res pcode) (trace : exn -> string * list frame).
  Context (run : @pyfun G -> list V -> KW -> eff W V).
  Notation do_op := (do_op none globals compiler trace run).

  (** No definition and no unload in a history. *)
  Fixpoint kept (l : list (@op G KW V)) (s : @dyn G * W) : bool :=
    match l with
    | [] => true
    | o :: r =>
        let (y, s') := do_op o s in
        negb (clears o y) && negb (defines globals compiler trace o s y) && kept r s'
    end.
End Spec.
