(** What the tables of parquet metadata should say. *)
From Verif Require Export Frame_Spec Summary_Model.
Open Scope nat_scope.

(** Each thing once, where it first comes up. *)
Fixpoint first_seen (l : list string) : list string :=
  match l with [] => [] | x :: r => x :: filter (fun y => negb (String.eqb y x)) (first_seen r) end.

Section Tables.
  Context {X : Type} (naX : X -> bool) (eqX : X -> X -> bool).
  Notation cell := (mcell X).
  Notation record := (dict cell).

  (** A field of a record, null if it is not there. *)
  Definition field (f : string) (r : record) : cell := match dget r (KStr f) with Some v => v | None => Na end.
  Definition path_of (r : record) : string := match field "path_in_schema" r with Txt p => p | _ => "" end.
  (** The field of the records of one column, one for each row group. *)
  Definition values (recs : list record) (p f : string) : list cell :=
    map (field f) (filter (fun r => String.eqb (path_of r) p) recs).

  Definition sizes : list string := [ "num_values"; "total_compressed_size"; "total_uncompressed_size" ].
  Fixpoint sum_of (l : list cell) : Z :=
    match l with [] => 0%Z | Int z :: r => (z + sum_of r)%Z | _ :: r => sum_of r end.
  Definition all_equal (l : list cell) : Prop := constant (misna naX) (mceq eqX) true l.

  (** [v] sums up the field [f] of the column [p]: its total, if it is a size;
      else its value in the first row group, if all row groups where it is not
      null agree; else null. *)
  Inductive sums_up (recs : list record) (p f : string) : cell -> Prop :=
  | su_total : In f sizes -> sums_up recs p f (Int (sum_of (values recs p f)))
  | su_equal v l : ~ In f sizes -> values recs p f = v :: l -> all_equal (v :: l) -> sums_up recs p f v
  | su_varied : ~ In f sizes -> ~ all_equal (values recs p f) -> sums_up recs p f Na.

  (** Names of columns of the tables, and the fields they come from. *)
  Definition given_names : list (string * string) :=
    [ ("physical_type", "type"); ("path_in_schema", "column"); ("has_dictionary_page", "dict_page");
      ("total_compressed_size", "comp_size"); ("total_uncompressed_size", "uncomp_size") ].
  Definition given_name (f : string) : string :=
    match find (fun p => String.eqb (fst p) f) given_names with Some p => snd p | None => f end.
  Definition brief_fields : list string :=
    [ "path_in_schema"; "physical_type"; "total_compressed_size"; "total_uncompressed_size"; "num_values";
      "has_dictionary_page"; "encodings"; "compression"; "col_ix" ].

  (** Records as there are in parquet files. *)
  Record proper (r : record) : Prop := {
    pr_dict : wfd r = true;
    pr_text : forall k, In k (dkeys r) -> exists f, k = KStr f;
    pr_path : exists p, dget r (KStr "path_in_schema") = Some (Txt p);
    pr_sizes : forall f, In f sizes -> exists z, dget r (KStr f) = Some (Int z);
    pr_names : forall f, In f (map snd given_names) -> dget r (KStr f) = None
  }.
  Definition paths (recs : list record) : list string := first_seen (map path_of recs).

  (** The table has one column of the name of the field, which sums it up. *)
  Definition tells (df : frame cell) (recs : list record) (f : string) : Prop :=
    exists col, loc_name df (KStr (given_name f)) = [(KStr (given_name f), col)] /\
                Forall2 (fun p v => sums_up recs p f v) (paths recs) col.

  (** A field of records of [p] that some record has, with the same value in
      all row groups. *)
  Definition agreed (recs : list record) (p f : string) : Prop :=
    (exists r, In r recs /\ dget r (KStr f) <> None) /\ all_equal (values recs p f).

  (** Whose fields win. *)
  Definition merged (c : chunk X) (d : record) (g i : nat) (r : record) : Prop :=
    forall f, dget r (KStr f) =
      if String.eqb f "row_group" then Some (Int (Z.of_nat g))
      else if String.eqb f "col_ix" then Some (Int (Z.of_nat i))
      else match dget d (KStr f) with Some v => Some v | None => dget (c_fields c) (KStr f) end.
  (** [r] is the record of the [i]th column in the [g]th row group. *)
  Definition record_of_chunk (f : list (list (chunk X))) (i g : nat) (r : record) : Prop :=
    exists row c d, nth_error f g = Some row /\ nth_error row i = Some c /\ c_stats c = Some (Some d) /\ merged c d g i r.
End Tables.
