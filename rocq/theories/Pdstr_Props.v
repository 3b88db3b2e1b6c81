(** Properties of pdstr (C104). *)
From Verif Require Import Pdstr_Proofs.

(** Methods for the examples: [upper] (of "a" only) takes no arguments, [at]
    one: a position, beyond which there is an IndexError. *)
Definition pd_method (name : string) : option ((list nat -> bool) * (list nat -> scell -> res scell)) :=
  if String.eqb name "upper" then
    Some (fun a => Nat.eqb (List.length a) 0, fun _ c => match c with CText "a" => Ok (CText "A") | CText s => Ok (CText s) | CBytes s => Ok (CBytes s) | _ => Exc AttributeError end)
  else if String.eqb name "at" then
    Some (fun a => Nat.eqb (List.length a) 1, fun a c => match c with
      | CText s => match String.get (hd 0%nat a) s with Some x => Ok (CText (String x "")) | None => Exc IndexError end
      | _ => Exc TypeError end)
  else None.

(** ** C104 *)

(** The function made by pdstr returns for exactly the Series that hold
    neither only numbers nor only truth values nor only bytes, with a method
    there is, arguments that fit it, and no cell that raises anything but
    TypeError and AttributeError; each cell of the result comes from the cell
    at its place. *)
Theorem C104_cells {args} (method : string -> option ((args -> bool) * (args -> scell -> res scell))) name a cells ds :
  pdstr method name a cells = Ok ds <->
  ~ only is_number cells /\ ~ only is_bool cells /\ ~ only is_bytes cells /\
  exists fits f, method name = Some (fits, f) /\ fits a = true /\ Forall2 (cell_to (f a)) cells ds.
Proof. exact (pdstr_ok method name a cells ds). Qed.
Print Assumptions C104_cells.

(** How it fails: what is wrong with the Series comes before what is wrong
    with the name, and that before the arguments. *)
Theorem C104_fails {args} (method : string -> option ((args -> bool) * (args -> scell -> res scell))) name a cells :
  (only is_number cells \/ only is_bool cells \/ method name = None -> pdstr method name a cells = Exc AttributeError) /\
  (~ only is_number cells -> ~ only is_bool cells -> forall fits f, method name = Some (fits, f) ->
     only is_bytes cells \/ fits a = false -> pdstr method name a cells = Exc TypeError) /\
  (forall e, pdstr method name a cells = Exc e ->
     e = AttributeError \/ e = TypeError \/ exists fits f c, method name = Some (fits, f) /\ In c cells /\ cell_raises (f a) e c).
Proof.
  exact (conj (proj1 (pdstr_cases method name a cells))
    (conj (fun N1 N2 fits f M => proj1 (proj2 (pdstr_cases method name a cells) N1 N2 fits f M)) (pdstr_exc method name a cells))).
Qed.
Print Assumptions C104_fails.

(** Series one after another. *)
Theorem C104_concat {args} (method : string -> option ((args -> bool) * (args -> scell -> res scell))) name a c1 c2 d1 d2 :
  pdstr method name a c1 = Ok d1 -> pdstr method name a c2 = Ok d2 -> pdstr method name a (c1 ++ c2) = Ok (d1 ++ d2).
Proof. exact (pdstr_app method name a c1 c2 d1 d2). Qed.
Print Assumptions C104_concat.

(** A part of a Series need not do what the whole does: numbers beside text
    become missing, without text they are an error. *)
Theorem C104_parts_refuted : ~ forall name a c1 c2 ds, pdstr pd_method name a (c1 ++ c2) = Ok ds -> exists d1, pdstr pd_method name a c1 = Ok d1.
Proof.
  intro H. destruct (H "upper"%string [] [CInt 1] [CText "a"] [CMissing; CText "A"] eq_refl) as [d1 E]. discriminate E.
Qed.
Print Assumptions C104_parts_refuted.

Example C104_example :
  pdstr pd_method "upper" [] [CText "a"; CInt 5; CMissing; CBytes "x"; CBool true] = Ok [CText "A"; CMissing; CMissing; CBytes "x"; CMissing] /\
  pdstr pd_method "upper" [] [CMissing; CInt 5; CFloat 2] = Exc AttributeError /\
  pdstr pd_method "upper" [] [CBool true; CInt 5] = Ok [CMissing; CMissing] /\
  pdstr pd_method "upper" [] [CMissing; CMissing] = Ok [CMissing; CMissing] /\
  pdstr pd_method "upper" [] [CBytes "x"] = Exc TypeError /\
  pdstr pd_method "upper" [1] [CText "a"] = Exc TypeError /\
  pdstr pd_method "nothing" [1] [CBytes "a"] = Exc AttributeError /\
  pdstr pd_method "at" [1] [CText "ab"; CFloat 3] = Ok [CText "b"; CMissing] /\
  pdstr pd_method "at" [1] [CText "ab"; CFloat 3; CText "c"] = Exc IndexError /\
  (~ only is_number [CText "a"; CInt 5] /\ only is_number [CMissing; CInt 5; CFloat 2] /\ only is_bytes [CBytes "x"]).
Proof.
  repeat split; try (vm_compute; reflexivity).
  - intros [_ H]. discriminate (H (CText "a") (or_introl eq_refl) ltac:(discriminate)).
  - exists (CInt 5). split; [right; left; reflexivity|discriminate].
  - intros c [<-|[<-|[<-|[]]]]; cbn; congruence.
  - exists (CBytes "x"). split; [left; reflexivity|discriminate].
  - intros c [<-|[]] _. reflexivity.
Qed.
