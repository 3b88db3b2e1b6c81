(** What is assumed of numbers.  Definitions only. *)
From Coq Require Import SpecFloat.
From Verif Require Export Float_Model.

(** Numbers that are not NaN are in order, and NaN compares false. *)
Definition ordered {num : Type} (good : num -> bool) (leb ltb : num -> num -> bool) : Prop :=
  (forall a b, good a = true -> good b = true -> leb a b = true \/ leb b a = true) /\
  (forall a b c, leb a b = true -> leb b c = true -> leb a c = true) /\
  (forall a b, leb a b = true -> good a = true /\ good b = true) /\
  (forall a b, ltb a b = good a && good b && negb (leb b a)).

(** Doubles that are not NaN. *)
Definition f_good (x : SpecFloat.spec_float) : bool :=
  match x with SpecFloat.S754_nan => false | _ => true end.
