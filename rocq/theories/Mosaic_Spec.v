(** What the properties C57 and C58 of mosaic.py mean.  Definitions only. *)
From Coq Require Import Sorted Permutation.
From Verif Require Export Mosaic_Model Float_Spec.

Section Spec.
  Context {num row : Type}.
  Context (good : num -> bool) (leb ltb : num -> num -> bool) (add1 : num -> num).
  Context (key_of : row -> option num).
  Notation file := (@file num row).
  Notation record := (@record num).

  Definition in_interval (lo hi : num) (r : row) : bool :=
    match key_of r with Some v => leb lo v && ltb v hi | None => false end.
  (** Rows with a key that is neither null nor NaN. *)
  Definition sortable (r : row) : bool := match key_of r with Some v => good v | None => false end.

  (** The statistics of a row group are bounds for its rows. *)
  Definition bounds (mn mx : num) (l : list row) : Prop :=
    good mn = true /\ good mx = true /\
    forall r v, In r l -> key_of r = Some v -> good v = true -> leb mn v = true /\ leb v mx = true.
  Definition sound (f : file) (r : record) : Prop :=
    exists g mn mx, nth_error f (row_group r) = Some g /\ r_min r = Some mn /\ r_max r = Some mx /\ bounds mn mx (rows g).
  Definition rows_at (f : file) (meta : list record) : list row :=
    flat_map (fun r => match nth_error f (row_group r) with Some g => rows g | None => [] end) meta.
  (** [lo, hi] has nothing in common with a record's [min, max]. *)
  Definition apart (lo hi : num) (r : record) : Prop :=
    exists mn mx, r_min r = Some mn /\ r_max r = Some mx /\ (ltb hi mn = true \/ ltb mx lo = true).

  (** A file whose metadata are complete and correct: every row group has
      [ncols] columns with statistics, exactly one of them the sorting column,
      and its statistics are bounds. *)
  Definition sound_group (ncols c : nat) (column : string) (g : @group num row) : Prop :=
    List.length (cols g) = ncols /\
    (forall m, In m (cols g) -> statistics m <> None) /\
    exists s mn mx, nth_error (cols g) c = Some {| path := column; statistics := Some s |} /\
      s_min s = Some mn /\ s_max s = Some mx /\ leb mn mx = true /\ bounds mn mx (rows g) /\
      forall c' m, nth_error (cols g) c' = Some m -> path m = column -> c' = c.
  Definition sound_file (ncols c : nat) (column : string) (f : file) : Prop :=
    f <> [] /\ forall g, In g f -> sound_group ncols c column g.
  Definition all_rows (f : file) : list row := flat_map rows f.
  (** The extreme statistics of the sorting column. *)
  Definition has_min (column : string) (f : file) (v : num) : Prop :=
    exists g m s, In g f /\ In m (cols g) /\ path m = column /\ statistics m = Some s /\ s_min s = Some v.
  Definition has_max (column : string) (f : file) (v : num) : Prop :=
    exists g m s, In g f /\ In m (cols g) /\ path m = column /\ statistics m = Some s /\ s_max s = Some v.

  (** Window edges that cover everything from [lo] to [hi]. *)
  Definition covers (es : list num) (lo hi : num) : Prop :=
    exists e0 r, es = e0 :: r /\ r <> [] /\ leb e0 lo = true /\ StronglySorted (fun a b => leb a b = true) es /\
      ltb hi (add1 (last es e0)) = true /\ leb (last es e0) (add1 (last es e0)) = true.

  Definition key_le (d : direction) (a b : row) : Prop :=
    exists x y, key_of a = Some x /\ key_of b = Some y /\
      match d with Descending => leb y x = true | _ => leb x y = true end.

  (** Tables processed one after the other, until one raises. *)
  Fixpoint until (p : list row -> res (list row)) (ts : list (list row)) : res unit * list (list row) :=
    match ts with
    | [] => (Ok tt, [])
    | t :: r => match p t with
                | Exc e => (Exc e, [])
                | Ok t' => let (x, out) := until p r in (x, t' :: out)
                end
    end.
End Spec.
