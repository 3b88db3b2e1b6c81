(** Properties of the tables of parquet metadata (C81). *)
From Verif Require Import Summary_Proofs.
Open Scope nat_scope.

(** The cells of the examples: no other values. *)
Definition sx_na (x : Empty_set) : bool := match x with end.
Definition sx_eq (x y : Empty_set) : bool := match x with end.
Lemma sx_cells : cells sx_na sx_eq.
Proof. split; intros []. Qed.
(** Two columns in two row groups. *)
Definition sx_chunk (p : string) (n z : Z) (enc : string) : chunk Empty_set :=
  {| c_fields := [ (KStr "physical_type", Txt "INT64"); (KStr "num_values", Int 100); (KStr "path_in_schema", Txt p);
                   (KStr "compression", Txt "SNAPPY"); (KStr "encodings", Txt enc); (KStr "has_dictionary_page", Int 1);
                   (KStr "total_compressed_size", Int z); (KStr "total_uncompressed_size", Int (2 * z)) ];
     c_stats := Some (Some [ (KStr "min", Int n); (KStr "num_values", Int n) ]) |}.
Definition sx_file : list (list (chunk Empty_set)) :=
  [ [ sx_chunk "a" 90 10 "RLE"; sx_chunk "b" 80 11 "RLE" ]; [ sx_chunk "a" 95 12 "RLE"; sx_chunk "b" 85 13 "PLAIN" ] ].
(** The same, but the first column has the same number of values twice. *)
Definition sx_even : list (list (chunk Empty_set)) :=
  [ [ sx_chunk "a" 90 10 "RLE"; sx_chunk "b" 80 11 "RLE" ]; [ sx_chunk "a" 90 12 "RLE"; sx_chunk "b" 85 13 "PLAIN" ] ].
Definition sx_records (f : list (list (chunk Empty_set))) : list (dict (mcell Empty_set)) :=
  match metadata_records 2 f with Ok l => l | Exc _ => [] end.
Lemma sx_proper f : In f [sx_file; sx_even] -> Forall (@proper Empty_set) (sx_records f) /\ sx_records f <> [].
Proof.
  intro H. split; [|cbn in H; destruct H as [<-|[<-|[]]]; vm_compute; discriminate].
  apply Forall_forall. intros r Hr. cbn in H. destruct H as [<-|[<-|[]]]; cbn in Hr; repeat (destruct Hr as [<-|Hr]).
  all: try (destruct Hr). all: split.
  all: try reflexivity. all: try (eexists; reflexivity).
  all: intros x Hx; cbn in Hx; repeat (destruct Hx as [<-|Hx]; [solve [eexists; reflexivity|reflexivity]|]); destruct Hx.
Qed.

(** ** C81 *)

(** The records of a file: one for each column and row group, by column; the
    fields of the statistics win over those of the column. *)
Theorem C81_records : forall (X : Type) nc (f : list (list (chunk X))),
  (forall i g, i < nc -> g < List.length f -> exists row c, nth_error f g = Some row /\ nth_error row i = Some c /\
     wfd (c_fields c) = true /\ exists d, c_stats c = Some (Some d) /\ wfd d = true) ->
  exists recs, metadata_records nc f = Ok recs /\
    Forall2 (fun ig r => record_of_chunk f (fst ig) (snd ig) r) (list_prod (seq 0 nc) (seq 0 (List.length f))) recs.
Proof. exact @records_ok. Qed.
Print Assumptions C81_records.

(** The brief table has one row for each column and sums up its nine fields. *)
Theorem C81_brief : forall (X : Type) (naX : X -> bool) eqX, cells naX eqX -> forall recs, Forall (@proper X) recs -> recs <> [] ->
  exists df, meta_record_df naX eqX recs false = Ok df /\
    names df = map KStr ["column"; "type"; "comp_size"; "uncomp_size"; "num_values"; "dict_page"; "encodings"; "compression"; "col_ix"] /\
    List.length (labels df) = List.length (paths recs) /\
    forall f, In f brief_fields -> tells naX eqX df recs f.
Proof.
  intros X naX eqX HX recs Hr Hn. exists (brief_table naX eqX recs). split; [now apply brief_ok|]. split; [reflexivity|].
  split; [cbn; unfold ranked; now rewrite !map_length, seq_length|]. intros f Hf. now apply brief_tells.
Qed.
Print Assumptions C81_brief.

(** The same on its side, for a file. *)
Theorem C81_file : forall (X : Type) (naX : X -> bool) eqX, cells naX eqX -> forall recs, Forall (@proper X) recs -> recs <> [] ->
  forall nc f, metadata_records nc f = Ok recs -> exists t, meta_column_df naX eqX nc f false = Ok t /\
    t_rows t = map KStr ["column"; "type"; "comp_size"; "uncomp_size"; "num_values"; "dict_page"; "encodings"; "compression"; "col_ix"] /\
    Forall2 (fun p c => fst c = Txt p /\ Forall2 (fun f v => sums_up naX eqX recs p f v) brief_fields (snd c)) (paths recs) (t_columns t).
Proof. exact @sideways_ok. Qed.
Print Assumptions C81_file.

(** The extended table of a file with one row group has all fields. *)
Theorem C81_extended_single : forall (X : Type) (naX : X -> bool) eqX, cells naX eqX -> forall recs, Forall (@proper X) recs -> recs <> [] ->
  NoDup (map (@path_of X) recs) -> exists df, meta_record_df naX eqX recs true = Ok df /\
    (forall f, (exists r, In r recs /\ dget r (KStr f) <> None) -> tells naX eqX df recs f) /\
    (forall n, In n (names df) -> exists f r, n = KStr (given_name f) /\ In r recs /\ dget r (KStr f) <> None).
Proof. exact @extended_single. Qed.
Print Assumptions C81_extended_single.

(** With several, it has the sizes and the fields on which the row groups of
    some column agree, as long as they never agree on a size. *)
Theorem C81_extended : forall (X : Type) (naX : X -> bool) eqX, cells naX eqX -> forall recs, Forall (@proper X) recs -> recs <> [] ->
  (forall p f, In p (paths recs) -> In f sizes -> ~ all_equal naX eqX (values recs p f)) ->
  exists df, meta_record_df naX eqX recs true = Ok df /\
    (forall f, In f sizes \/ (exists p, In p (paths recs) /\ agreed naX eqX recs p f) -> tells naX eqX df recs f) /\
    (forall n, In n (names df) -> exists f, n = KStr (given_name f) /\ (In f sizes \/ exists p, In p (paths recs) /\ agreed naX eqX recs p f)).
Proof. exact @extended_ok. Qed.
Print Assumptions C81_extended.

(** There is no extended table if they agree on a size for one column and
    not for another. *)
Theorem C81_extended_refuted : forall (X : Type) (naX : X -> bool) eqX, cells naX eqX -> forall recs, Forall (@proper X) recs -> recs <> [] ->
  forall p q f, In p (paths recs) -> In q (paths recs) -> In f sizes ->
  all_equal naX eqX (values recs p f) -> ~ all_equal naX eqX (values recs q f) -> meta_record_df naX eqX recs true = Exc ValueError.
Proof. exact @extended_error. Qed.
Print Assumptions C81_extended_refuted.

(** Nor is there any table of a file without row groups, or with a column
    without statistics. *)
Theorem C81_no_groups_refuted : forall (X : Type) (naX : X -> bool) eqX nc f ext, f = [] ->
  meta_column_df naX eqX nc f ext = Exc KeyError.
Proof. exact @no_groups. Qed.
Print Assumptions C81_no_groups_refuted.

Theorem C81_no_statistics_refuted : forall (X : Type) (naX : X -> bool) eqX nc (f : list (list (chunk X))) ext,
  (forall i g, i < nc -> g < List.length f -> exists row c, nth_error f g = Some row /\ nth_error row i = Some c /\ True) ->
  (exists i g, i < nc /\ g < List.length f /\ exists row c, nth_error f g = Some row /\ nth_error row i = Some c /\ c_stats c = Some None) ->
  meta_column_df naX eqX nc f ext = Exc TypeError.
Proof. exact @records_fail. Qed.
Print Assumptions C81_no_statistics_refuted.

(** Two row groups; "encodings" of "b" differ; the sums are those of the
    values that are not null. *)
Example C81_ex :
  Forall (@proper Empty_set) (sx_records sx_file) /\ sx_records sx_file <> [] /\ metadata_records 2 sx_file = Ok (sx_records sx_file) /\
  paths (sx_records sx_file) = ["a"; "b"] /\
  meta_column_df sx_na sx_eq 2 sx_file false =
    Ok {| t_rows := map KStr ["column"; "type"; "comp_size"; "uncomp_size"; "num_values"; "dict_page"; "encodings"; "compression"; "col_ix"];
          t_columns := [ (Txt "a", [Txt "a"; Txt "INT64"; Int 22; Int 44; Int 185; Int 1; Txt "RLE"; Txt "SNAPPY"; Int 0]);
                         (Txt "b", [Txt "b"; Txt "INT64"; Int 24; Int 48; Int 165; Int 1; Na; Txt "SNAPPY"; Int 1]) ] |}.
Proof. destruct (sx_proper sx_file (or_introl eq_refl)) as [P N]. split; [exact P|]. split; [exact N|]. vm_compute. repeat split. Qed.

Example C81_extended_ex :
  (forall p f, In p (paths (sx_records sx_file)) -> In f sizes -> ~ all_equal sx_na sx_eq (values (sx_records sx_file) p f)) /\
  (exists df, meta_record_df sx_na sx_eq (sx_records sx_file) true = Ok df /\ names df =
     map KStr ["type"; "column"; "compression"; "encodings"; "dict_page"; "col_ix"; "num_values"; "comp_size"; "uncomp_size"]) /\
  all_equal sx_na sx_eq (values (sx_records sx_even) "a" "num_values") /\
  ~ all_equal sx_na sx_eq (values (sx_records sx_even) "b" "num_values") /\
  meta_record_df sx_na sx_eq (sx_records sx_even) true = Exc ValueError.
Proof.
  assert (A : forall f p g, all_equal sx_na sx_eq (values (sx_records f) p g) <-> agree sx_na sx_eq (sx_records f) p g = true)
    by (intros f p g; symmetry; apply agree_ok; exact sx_cells).
  split; [|split; [eexists; split; reflexivity|]].
  - intros p f Hp Hf. rewrite A. cbn in Hp, Hf. destruct Hp as [<-|[<-|[]]], Hf as [<-|[<-|[<-|[]]]]; vm_compute; discriminate.
  - rewrite !A. vm_compute. repeat split. discriminate.
Qed.
