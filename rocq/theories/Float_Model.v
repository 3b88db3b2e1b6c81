(** Numbers: exact ones, and IEEE 754 doubles as the standard library's
    specification of them (SpecFloat, no axioms).  Definitions only; nothing
    here comes from /repo. *)
From Coq Require Import QArith SpecFloat.
From Verif Require Export Py_Model.
Open Scope nat_scope.

Definition q_ltb (a b : Q) : bool := negb (Qle_bool b a).

Definition fprec := 53%Z.
Definition femax := 1024%Z.
Definition f_of_Z (z : Z) : spec_float := binary_normalize fprec femax z 0 false.
Definition fadd := SFadd fprec femax.
Definition fsub := SFsub fprec femax.
Definition fmul := SFmul fprec femax.
Definition fdiv := SFdiv fprec femax.
