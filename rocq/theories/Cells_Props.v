(** Properties of extract_constants with lists in cells (C105). *)
From Verif Require Import Cells_Proofs Frame_Props.
Open Scope nat_scope.

(** Frames for the examples: atoms as in Frame_Props.v, three rows. *)
Definition ne (z : Z) : ncell (option Z) := NAtom (Some z).
Definition nl (l : list Z) : ncell (option Z) := NList (map Some l).
Definition ne_df (s : list (ncell (option Z))) : frame (ncell (option Z)) :=
  {| labels := [KStr "r"; KStr "s"; KStr "t"]; columns := [(KStr "a", [ne 1; ne 1; ne 1]); (KStr "b", s)] |}.

(** ** C105 *)

(** A series whose first cell that counts is a list makes the whole call a
    ValueError, unless the list is just as long as the series. *)
Theorem C105_misfit : forall atom isna (ceq : atom -> atom -> bool) df to_dict drop h dropna, h <> HowOther ->
  (exists c, In c (series_of h df) /\ misfit isna dropna (snd c)) ->
  extract_nested isna ceq df to_dict drop h dropna = Exc ValueError.
Proof. exact @nested_misfit. Qed.
Print Assumptions C105_misfit.

(** Otherwise it is extract_constants (C62) with a comparison by which nothing
    equals a list. *)
Theorem C105_plain : forall atom isna (ceq : atom -> atom -> bool) df to_dict drop h dropna,
  (forall c, In c (series_of h df) -> ~ misfit isna dropna (snd c)) ->
  extract_nested isna ceq df to_dict drop h dropna = extract_constants (nested_na isna) (plain_eq ceq) df to_dict drop h dropna.
Proof. exact @nested_plain. Qed.
Print Assumptions C105_plain.

(** So for how="rows" the columns are split into those in which only atoms
    count, all equal to the first, and the others. *)
Theorem C105_frames : forall atom isna (ceq : atom -> atom -> bool) df drop dropna, distinct_labels (names df) ->
  (forall c, In c (columns df) -> ~ misfit isna dropna (snd c)) -> exists a b,
  extract_nested isna ceq df false drop HowRows dropna = Ok (AsFrame a, if drop then b else df) /\
  labels a = labels df /\ labels b = labels df /\
  sorted_out (fun c => plainly_constant isna ceq dropna (snd c)) (columns df) (columns a) (columns b).
Proof. exact @nested_frames. Qed.
Print Assumptions C105_frames.

(** A series beginning with a list is never among the constants. *)
Theorem C105_never : forall atom isna (ceq : atom -> atom -> bool) dropna s l n,
  begins isna dropna s (NList l) n -> ~ plainly_constant isna ceq dropna s.
Proof. exact @lists_never. Qed.
Print Assumptions C105_never.

(** The handler of TypeError is never reached: neither its NotImplementedError
    nor a TypeError is ever raised. *)
Theorem C105_raises : forall atom isna (ceq : atom -> atom -> bool) df to_dict drop h dropna e,
  extract_nested isna ceq df to_dict drop h dropna = Exc e -> e = ValueError \/ e = IndexError.
Proof. exact @nested_raises. Qed.
Print Assumptions C105_raises.

(** It would have found columns of equal lists. *)
Theorem C105_handler : forall atom (ceq : atom -> atom -> bool) l ls, constant_tuples ceq (map NList (l :: ls)) = Ok true <->
  Forall (fun m => Forall2 (fun x y => ceq x y = true) l m) (l :: ls).
Proof. exact @handler_iff. Qed.
Print Assumptions C105_handler.

(** That columns of equal lists are found is not so: with two members in three
    rows the call fails, with three it takes the column for a variable. *)
Theorem C105_lists_refuted : ~ forall l n, l <> [] -> (forall x, In x l -> ex_na x = false) ->
  exists d r, extract_nested ex_na ex_eq {| labels := map KInt (map Z.of_nat (seq 0 (S n))); columns := [(KStr "b", repeat (NList l) (S n))] |}
    true false HowRows true = Ok (AsDict d, r) /\ dget d (KStr "b") = Some (NList l).
Proof.
  intro H. destruct (H [Some 1%Z] 1) as (d & r & E & _); [discriminate|intros x [<-|[]]; reflexivity|]. discriminate E.
Qed.
Print Assumptions C105_lists_refuted.

Example C105_example :
  extract_nested ex_na ex_eq (ne_df [nl [7; 8]; nl [7; 8]; nl [7; 8]]%Z) true false HowRows true = Exc ValueError /\
  extract_nested ex_na ex_eq (ne_df [nl [7; 8; 9]; nl [7; 8; 9]; nl [7; 8; 9]]%Z) true false HowRows true =
    Ok (AsDict [(KStr "a", ne 1)], ne_df [nl [7; 8; 9]; nl [7; 8; 9]; nl [7; 8; 9]]%Z) /\
  extract_nested ex_na ex_eq (ne_df [NAtom None; nl [7; 8]; ne 5]%Z) true false HowRows true =
    Ok (AsDict [(KStr "a", ne 1)], ne_df [NAtom None; nl [7; 8]; ne 5]%Z) /\
  extract_nested ex_na ex_eq (ne_df [NAtom None; nl [7; 8]; ne 5]%Z) true false HowRows false =
    Ok (AsDict [(KStr "a", ne 1)], ne_df [NAtom None; nl [7; 8]; ne 5]%Z) /\
  extract_nested ex_na ex_eq (ne_df [ne 2; nl [7]; ne 1]%Z) false true HowColumns true =
    Ok (AsFrame {| labels := [KStr "t"]; columns := [(KStr "a", [ne 1]); (KStr "b", [ne 1])] |},
        {| labels := [KStr "r"; KStr "s"]; columns := [(KStr "a", [ne 1; ne 1]); (KStr "b", [ne 2; nl [7]])] |})%Z /\
  extract_nested ex_na ex_eq {| labels := [KStr "r"]; columns := [(KStr "b", [nl [5]%Z])] |} false false HowRows true =
    Ok (AsFrame {| labels := [KStr "r"]; columns := [] |}, {| labels := [KStr "r"]; columns := [(KStr "b", [nl [5]%Z])] |}) /\
  misfit ex_na true [NAtom None; nl [7; 8; 9]; ne 5]%Z /\ ~ misfit ex_na true [ne 5; nl [7]]%Z.
Proof.
  repeat split; try (vm_compute; reflexivity).
  - exists (map Some [7; 8; 9]%Z), 2. split; [|discriminate]. exists [NAtom None], [ne 5]. repeat split. constructor; [reflexivity|constructor].
  - intros (l & n & B & _). apply begins_iff in B. destruct B as (r & E & _). discriminate E.
Qed.
