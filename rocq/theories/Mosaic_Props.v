(** C57 and C58: mosaic.py. *)
From Coq Require Import Sorted Permutation QArith SpecFloat Lia.
From Verif Require Import Mosaic_Proofs.
Open Scope nat_scope.

(** ** C57: sort_chunked *)

(** Exact numbers, any file with correct statistics, at least two chunks: every
    row whose key is not null is written exactly once, in non-empty sorted
    tables; in ascending order the whole output is sorted. *)
Theorem C57_sort_chunked : forall (row : Type) (key_of : row -> option Q) ncols c column f d n,
  d <> OtherDirection -> sound_file (fun _ => true) Qle_bool key_of ncols c column f -> (2 <= n)%Z ->
  exists ts,
    sort_chunked Qle_bool q_ltb q_add1 q_linspace key_of ncols f column d None n = (Ok tt, Some {| tables := ts; closed := true |}) /\
    Permutation (List.concat ts) (filter (sortable (fun _ => true) key_of) (all_rows f)) /\
    (forall t, In t ts -> t <> [] /\ StronglySorted (key_le Qle_bool key_of d) t) /\
    (d = Ascending -> StronglySorted (key_le Qle_bool key_of Ascending) (List.concat ts)).
Proof. exact sort_chunked_q. Qed.
Print Assumptions C57_sort_chunked.

(** Any kind of number, doubles for instance: it is enough that the edges are
    in order and cover everything. *)
Theorem C57_numbers : forall (num row : Type) good leb ltb add1 linspace (key_of : row -> option num) ncols c column f d n,
  ordered good leb ltb -> d <> OtherDirection -> sound_file good leb key_of ncols c column f -> (2 <= n)%Z ->
  (forall mn mx, has_min column f mn -> has_max column f mx -> leb mn mx = true ->
     covers leb ltb add1 (linspace mn mx (Z.to_nat n)) mn mx) ->
  exists ts,
    sort_chunked leb ltb add1 linspace key_of ncols f column d None n = (Ok tt, Some {| tables := ts; closed := true |}) /\
    Permutation (List.concat ts) (filter (sortable good key_of) (all_rows f)) /\
    (forall t, In t ts -> t <> [] /\ StronglySorted (key_le leb key_of d) t) /\
    (d = Ascending -> StronglySorted (key_le leb key_of Ascending) (List.concat ts)).
Proof. exact sort_chunked_any. Qed.
Print Assumptions C57_numbers.

(** Doubles are such numbers. *)
Theorem C57_doubles : forall (row : Type) (key_of : row -> option spec_float) ncols c column f d n,
  d <> OtherDirection -> sound_file f_good SFleb key_of ncols c column f -> (2 <= n)%Z ->
  (forall mn mx, has_min column f mn -> has_max column f mx -> SFleb mn mx = true ->
     covers SFleb SFltb f_add1 (f_linspace mn mx (Z.to_nat n)) mn mx) ->
  exists ts,
    sort_chunked SFleb SFltb f_add1 f_linspace key_of ncols f column d None n = (Ok tt, Some {| tables := ts; closed := true |}) /\
    Permutation (List.concat ts) (filter (sortable f_good key_of) (all_rows f)) /\
    (forall t, In t ts -> t <> [] /\ StronglySorted (key_le SFleb key_of d) t) /\
    (d = Ascending -> StronglySorted (key_le SFleb key_of Ascending) (List.concat ts)).
Proof. exact sort_chunked_f. Qed.
Print Assumptions C57_doubles.

(** With an inline processor, the tables written are what it makes of the same
    tables, up to the first it raises on; the file is closed. *)
Theorem C57_processor : forall (row : Type) (key_of : row -> option Q) ncols c column f d n p,
  d <> OtherDirection -> sound_file (fun _ => true) Qle_bool key_of ncols c column f -> (2 <= n)%Z ->
  exists ts,
    sort_chunked Qle_bool q_ltb q_add1 q_linspace key_of ncols f column d None n = (Ok tt, Some {| tables := ts; closed := true |}) /\
    sort_chunked Qle_bool q_ltb q_add1 q_linspace key_of ncols f column d (Some p) n =
      (fst (until p ts), Some {| tables := snd (until p ts); closed := true |}).
Proof. exact processor_q. Qed.
Print Assumptions C57_processor.

(** With fewer than two chunks it raises, and the file it has opened is neither
    written nor closed. *)
Theorem C57_few_chunks : forall (row : Type) (key_of : row -> option Q) ncols c column f d p n,
  sound_file (fun _ => true) Qle_bool key_of ncols c column f -> (n < 2)%Z ->
  exists e, sort_chunked Qle_bool q_ltb q_add1 q_linspace key_of ncols f column d p n = (Exc e, Some {| tables := []; closed := false |}).
Proof. exact few_chunks_q. Qed.
Print Assumptions C57_few_chunks.

(** With a direction other than the two it raises, and writes nothing, unless
    there is nothing to sort; the file is closed. *)
Theorem C57_other_direction : forall (row : Type) (key_of : row -> option Q) ncols c column f p n,
  sound_file (fun _ => true) Qle_bool key_of ncols c column f -> (2 <= n)%Z ->
  sort_chunked Qle_bool q_ltb q_add1 q_linspace key_of ncols f column OtherDirection p n =
    (if existsb (sortable (fun _ => true) key_of) (all_rows f) then Exc ValueError else Ok tt, Some {| tables := []; closed := true |}).
Proof. exact other_direction. Qed.
Print Assumptions C57_other_direction.

(** The last of the edges between windows of doubles is the maximum exactly,
    whatever the rounding. *)
Theorem C57_last_edge : forall lo hi n d, 2 <= n ->
  List.length (f_linspace lo hi n) = n /\ last (f_linspace lo hi n) d = hi.
Proof. exact f_edges. Qed.
Print Assumptions C57_last_edge.

(** Records are by column, then by row group; those of the sorting column are
    one for each row group, in order. *)
Theorem C57_records : forall (num row : Type) good leb (key_of : row -> option num) ncols c column f,
  sound_file good leb key_of ncols c column f ->
  exists recs, parquet_metadata_records ncols f = Ok recs /\
    map (fun r => (col_ix r, row_group r)) recs = list_prod (seq 0 ncols) (seq 0 (List.length f)) /\
    map (@row_group num) (filter (fun r => String.eqb (r_path r) column) recs) = seq 0 (List.length f).
Proof. exact records_lemma. Qed.
Print Assumptions C57_records.

(** If any column of any row group has no statistics (not only the one to sort
    by), nothing is sorted: it raises before a file is opened. *)
Theorem C57_no_statistics : forall (num row : Type) leb ltb add1 linspace (key_of : row -> option num) ncols f column d p n g m,
  (forall gr, In gr f -> List.length (cols gr) = ncols) -> In g f -> In m (cols g) -> statistics m = None ->
  sort_chunked leb ltb add1 linspace key_of ncols f column d p n = (Exc TypeError, None).
Proof. exact @no_statistics. Qed.
Print Assumptions C57_no_statistics.
(** If a row group has only nulls in the sorting column, so that its statistics
    have no min and max, it raises, and the file it has opened is neither written
    nor closed. *)
Theorem C57_no_bounds : forall (num row : Type) leb ltb add1 linspace (key_of : row -> option num) ncols f column d p n recs r,
  parquet_metadata_records ncols f = Ok recs -> In r recs -> r_path r = column -> r_min r = None \/ r_max r = None ->
  sort_chunked leb ltb add1 linspace key_of ncols f column d p n = (Exc TypeError, Some {| tables := []; closed := false |}).
Proof. exact @no_bounds. Qed.
Print Assumptions C57_no_bounds.

Definition mx_row := (nat * option Q)%type.
Definition mx_group (ks : list mx_row) (mn mx : Q) : group :=
  {| rows := ks;
     cols := [{| path := "id"; statistics := Some {| s_min := Some 0%Q; s_max := Some 9%Q |} |};
              {| path := "t"; statistics := Some {| s_min := Some mn; s_max := Some mx |} |}] |}.
Definition mx_file : file :=
  [mx_group [(0, Some 7%Q); (1, Some 2%Q); (2, None); (3, Some 2%Q)] 2 7;
   mx_group [(4, Some 5%Q); (5, Some 10%Q)] 5 10; mx_group [(6, Some 1%Q)] 1 1].
Example mx_sound : sound_file (fun _ => true) Qle_bool (@snd nat (option Q)) 2 1 "t" mx_file.
Proof.
  split; [discriminate|].
  assert (G : forall ks mn mx, Qle_bool mn mx = true -> bounds (fun _ => true) Qle_bool snd mn mx ks ->
    sound_group (fun _ => true) Qle_bool (@snd nat (option Q)) 2 1 "t" (mx_group ks mn mx)).
  { intros ks mn mx L B. split; [reflexivity|]. split.
    - intros m Hm. cbn in Hm. decompose [or] Hm; subst; try discriminate; contradiction.
    - exists {| s_min := Some mn; s_max := Some mx |}, mn, mx. do 4 (split; [reflexivity || assumption|]). split; [exact B|].
      intros [|[|c']] m E; cbn in E; [injection E as <-; discriminate|reflexivity|destruct c'; discriminate]. }
  intros g Hg. cbn in Hg. decompose [or] Hg; subst; try contradiction; apply G; try reflexivity;
    (split; [reflexivity|]; split; [reflexivity|]; intros r v Hr Ev _; cbn in Hr; decompose [or] Hr; subst; cbn in Ev; try contradiction; try discriminate; injection Ev as <-; split; reflexivity).
Qed.
Example C57_example :
  sort_chunked Qle_bool q_ltb q_add1 q_linspace snd 2 mx_file "t" Ascending None 4 =
    (Ok tt, Some {| tables := [[(6, Some 1%Q); (1, Some 2%Q); (3, Some 2%Q)]; [(4, Some 5%Q)]; [(0, Some 7%Q); (5, Some 10%Q)]]; closed := true |}).
Proof. reflexivity. Qed.
Definition mx_bare : @group Q mx_row :=
  {| rows := [(7, Some 3%Q)]; cols := [{| path := "id"; statistics := None |}; {| path := "t"; statistics := Some {| s_min := Some 3%Q; s_max := Some 3%Q |} |}] |}.
Example C57_no_statistics_example : (forall gr, In gr (mx_file ++ [mx_bare]) -> List.length (cols gr) = 2) /\
  In mx_bare (mx_file ++ [mx_bare]) /\ (exists m, In m (cols mx_bare) /\ statistics m = None) /\
  sort_chunked Qle_bool q_ltb q_add1 q_linspace snd 2 (mx_file ++ [mx_bare]) "t" Ascending None 4 = (Exc TypeError, None).
Proof.
  split; [intros gr H; cbn in H; decompose [or] H; subst; try contradiction; reflexivity|]. split; [cbn; auto|].
  split; [eexists; split; [left; reflexivity|reflexivity]|reflexivity].
Qed.
Definition mx_nulls : @group Q mx_row :=
  {| rows := [(7, None)]; cols := [{| path := "id"; statistics := Some {| s_min := Some 7%Q; s_max := Some 7%Q |} |};
       {| path := "t"; statistics := Some {| s_min := None; s_max := None |} |}] |}.
Example C57_no_bounds_example : exists recs r, parquet_metadata_records 2 (mx_file ++ [mx_nulls]) = Ok recs /\ In r recs /\ r_path r = "t" /\ r_max r = None /\
  sort_chunked Qle_bool q_ltb q_add1 q_linspace snd 2 (mx_file ++ [mx_nulls]) "t" Ascending None 4 = (Exc TypeError, Some {| tables := []; closed := false |}).
Proof. eexists _, _. split; [reflexivity|]. split; [do 7 right; left; reflexivity|]. repeat split. Qed.
Example C57_records_example :
  exists recs, parquet_metadata_records 2 mx_file = Ok recs /\
    map (fun r => (col_ix r, row_group r)) recs = [(0, 0); (0, 1); (0, 2); (1, 0); (1, 1); (1, 2)].
Proof. eexists. split; reflexivity. Qed.
Example C57_processor_example :
  let p := fun t : list mx_row => if Nat.eqb (List.length t) 1 then Exc ValueError else Ok (rev t) in
  sort_chunked Qle_bool q_ltb q_add1 q_linspace snd 2 mx_file "t" Ascending (Some p) 4 =
    (Exc ValueError, Some {| tables := [[(3, Some 2%Q); (1, Some 2%Q); (6, Some 1%Q)]]; closed := true |}).
Proof. reflexivity. Qed.
Example C57_few_chunks_example :
  sort_chunked Qle_bool q_ltb q_add1 q_linspace snd 2 mx_file "t" Ascending None 1 =
    (Exc TypeError, Some {| tables := []; closed := false |}).
Proof. reflexivity. Qed.

Example C57_other_direction_example :
  sort_chunked Qle_bool q_ltb q_add1 q_linspace snd 2 mx_file "t" OtherDirection None 4 = (Exc ValueError, Some {| tables := []; closed := true |}).
Proof. reflexivity. Qed.
Example C57_last_edge_example : last (f_linspace (f_of_Z 0) (f_of_Z 1) 50) (f_of_Z 7) = f_of_Z 1.
Proof. vm_compute. reflexivity. Qed.

(** In descending order the tables are sorted but the windows still ascend. *)
Theorem C57_descending_refuted : exists (f : @file Q mx_row) ts,
  sound_file (fun _ => true) Qle_bool (@snd nat (option Q)) 2 1 "t" f /\
  sort_chunked Qle_bool q_ltb q_add1 q_linspace snd 2 f "t" Descending None 4 = (Ok tt, Some {| tables := ts; closed := true |}) /\
  ~ StronglySorted (key_le Qle_bool snd Descending) (List.concat ts).
Proof.
  exists mx_file. eexists. split; [exact mx_sound|]. split; [vm_compute; reflexivity|]. cbn [List.concat app]. intro S.
  apply StronglySorted_inv in S. destruct S as [_ S]. rewrite Forall_forall in S.
  assert (K : key_le Qle_bool (@snd nat (option Q)) Descending (1, Some 2%Q) (0, Some 7%Q)) by (apply S; cbn; auto 10).
  destruct K as (x & y & Ex & Ey & L). cbn [snd] in Ex, Ey. injection Ex as <-. injection Ey as <-. discriminate.
Qed.
Print Assumptions C57_descending_refuted.

(** Doubles: 0, 1 and 2, in two row groups. *)
Definition fx_row := (nat * option spec_float)%type.
Definition fx_group (ks : list fx_row) (mn mx : spec_float) : group :=
  {| rows := ks; cols := [{| path := "t"; statistics := Some {| s_min := Some mn; s_max := Some mx |} |}] |}.
Definition fx_file (lo hi : spec_float) : file :=
  [fx_group [(0, Some hi); (1, Some S754_nan)] hi hi;
   fx_group [(2, Some (f_of_Z 1)); (3, Some lo); (4, Some (f_of_Z 1))] lo (f_of_Z 1)].
Lemma fx_sound lo hi : SFleb hi hi = true -> SFleb lo lo = true -> SFleb lo (f_of_Z 1) = true ->
  sound_file f_good SFleb (@snd nat (option spec_float)) 1 0 "t" (fx_file lo hi).
Proof.
  intros Hh Hl Hl1. assert (Gl : f_good lo = true) by (destruct lo; [reflexivity|reflexivity|discriminate|reflexivity]).
  assert (Gh : f_good hi = true) by (destruct hi; [reflexivity|reflexivity|discriminate|reflexivity]). split; [discriminate|].
  assert (G : forall ks mn mx, SFleb mn mx = true -> bounds f_good SFleb snd mn mx ks ->
    sound_group f_good SFleb (@snd nat (option spec_float)) 1 0 "t" (fx_group ks mn mx)).
  { intros ks mn mx L B. split; [reflexivity|]. split.
    - intros m [<-|[]]. discriminate.
    - exists {| s_min := Some mn; s_max := Some mx |}, mn, mx. do 4 (split; [reflexivity || assumption|]). split; [exact B|].
      intros [|c'] m E; cbn in E; [reflexivity|destruct c'; discriminate]. }
  intros g [<-|[<-|[]]]; apply G; try assumption.
  - split; [exact Gh|]. split; [exact Gh|]. intros r v [<-|[<-|[]]] Ev Gv; cbn in Ev; injection Ev as <-; [now split|discriminate].
  - split; [exact Gl|]. split; [reflexivity|]. intros r v [<-|[<-|[<-|[]]]] Ev Gv; cbn [snd] in Ev; injection Ev as <-; now split.
Qed.
Example C57_doubles_covers : forall mn mx, has_min "t" (fx_file (f_of_Z 0) (f_of_Z 2)) mn -> has_max "t" (fx_file (f_of_Z 0) (f_of_Z 2)) mx -> SFleb mn mx = true ->
  covers SFleb SFltb f_add1 (f_linspace mn mx (Z.to_nat 3)) mn mx.
Proof.
  intros mn mx (g & m & s & Hg & Hm & _ & Es & E1) (g' & m' & s' & Hg' & Hm' & _ & Es' & E1') L.
  destruct Hg as [<-|[<-|[]]]; destruct Hm as [<-|[]]; cbn [statistics] in Es; injection Es as <-; cbn [s_min] in E1; injection E1 as <-;
  destruct Hg' as [<-|[<-|[]]]; destruct Hm' as [<-|[]]; cbn [statistics] in Es'; injection Es' as <-; cbn [s_max] in E1'; injection E1' as <-;
  try (vm_compute in L; discriminate);
  match goal with |- covers _ _ _ ?es _ _ => let l := eval vm_compute in es in replace es with l by (vm_compute; reflexivity) end;
  eexists; eexists; (split; [reflexivity|]); (split; [discriminate|]); (split; [vm_compute; reflexivity|]);
  (split; [repeat constructor; vm_compute; reflexivity|]); split; vm_compute; reflexivity.
Qed.
Example C57_doubles_example :
  sort_chunked SFleb SFltb f_add1 f_linspace snd 1 (fx_file (f_of_Z 0) (f_of_Z 2)) "t" Ascending None 3 =
    (Ok tt, Some {| tables := [[(3, Some (f_of_Z 0))]; [(2, Some (f_of_Z 1)); (4, Some (f_of_Z 1)); (0, Some (f_of_Z 2))]]; closed := true |}).
Proof. vm_compute. reflexivity. Qed.

(** When the maximum plus one rounds to the maximum, the rows with the greatest
    key are lost. *)
Theorem C57_rounding_refuted : exists (f : @file spec_float fx_row) ts,
  sound_file f_good SFleb (@snd nat (option spec_float)) 1 0 "t" f /\
  sort_chunked SFleb SFltb f_add1 f_linspace snd 1 f "t" Ascending None 3 = (Ok tt, Some {| tables := ts; closed := true |}) /\
  ~ Permutation (List.concat ts) (filter (sortable f_good snd) (all_rows f)).
Proof.
  exists (fx_file (f_of_Z 0) (f_of_Z (2 ^ 53))). eexists. split; [now apply fx_sound|]. split; [vm_compute; reflexivity|].
  intro P. apply Permutation_length in P. vm_compute in P. discriminate.
Qed.
Print Assumptions C57_rounding_refuted.

(** The largest double and its opposite: when the range overflows, every row
    is lost. *)
Definition fx_big (s : bool) : spec_float := S754_finite s (2 ^ 53 - 1) 971.
Theorem C57_overflow_refuted : exists (f : @file spec_float fx_row),
  sound_file f_good SFleb (@snd nat (option spec_float)) 1 0 "t" f /\ filter (sortable f_good snd) (all_rows f) <> [] /\
  sort_chunked SFleb SFltb f_add1 f_linspace snd 1 f "t" Ascending None 2 = (Ok tt, Some {| tables := []; closed := true |}).
Proof.
  exists (fx_file (fx_big true) (fx_big false)). split; [now apply fx_sound|]. split; [discriminate|vm_compute; reflexivity].
Qed.
Print Assumptions C57_overflow_refuted.

(** ** C58: read_between *)

(** The rows in [lo, hi), in file order; None exactly if no row group's [min,
    max] meets [lo, hi], and then there are no such rows. *)
Theorem C58_read_between : forall (num row : Type) good leb ltb (key_of : row -> option num) lo hi f meta,
  ordered good leb ltb -> (forall r, In r meta -> sound good leb key_of f r) ->
  exists o, read_between leb ltb key_of f lo hi meta = Ok o /\
    match o with
    | None => (forall r, In r meta -> apart ltb lo hi r) /\ filter (in_interval leb ltb key_of lo hi) (rows_at f meta) = []
    | Some t => ~ (forall r, In r meta -> apart ltb lo hi r) /\ t = filter (in_interval leb ltb key_of lo hi) (rows_at f meta)
    end.
Proof. exact read_any. Qed.
Print Assumptions C58_read_between.

Definition mx_meta : list record :=
  [{| r_path := "t"; r_min := Some 2%Q; r_max := Some 7%Q; row_group := 0; col_ix := 1 |};
   {| r_path := "t"; r_min := Some 5%Q; r_max := Some 10%Q; row_group := 1; col_ix := 1 |};
   {| r_path := "t"; r_min := Some 1%Q; r_max := Some 1%Q; row_group := 2; col_ix := 1 |}].
Example C58_ordered : ordered (fun _ => true) Qle_bool q_ltb.
Proof. exact q_ordered. Qed.
Example C58_sound : forall r, In r mx_meta -> sound (fun _ => true) Qle_bool snd mx_file r.
Proof.
  intros r Hr. cbn in Hr. decompose [or] Hr; subst; try contradiction; (eexists; eexists; eexists; split; [reflexivity|]; split; [reflexivity|]; split; [reflexivity|];
    split; [reflexivity|]; split; [reflexivity|]; intros r v Hr' Ev _; cbn in Hr'; decompose [or] Hr'; subst; cbn in Ev; try contradiction; try discriminate; injection Ev as <-; split; reflexivity).
Qed.
Example C58_example : read_between Qle_bool q_ltb snd mx_file 2%Q 7%Q mx_meta = Ok (Some [(1, Some 2%Q); (3, Some 2%Q); (4, Some 5%Q)]).
Proof. reflexivity. Qed.
(** A range no row group overlaps, and one that is merely empty. *)
Example C58_none : read_between Qle_bool q_ltb snd mx_file 20%Q 30%Q mx_meta = Ok None.
Proof. reflexivity. Qed.
Example C58_empty : read_between Qle_bool q_ltb snd mx_file 8%Q 9%Q mx_meta = Ok (Some []).
Proof. reflexivity. Qed.
