(** What itemize_numpy is to do with numpy's scalars: the calendar, instants,
    and which scalars become something json.dumps accepts. *)
From Verif Require Export Item_Model.
Open Scope Z_scope.

(** ** The calendar *)

Definition leap_year (y : Z) : Prop := (4 | y)%Z /\ (~ (100 | y)%Z \/ (400 | y)%Z).
Definition days_in_month (y m : Z) (l : Z) : Prop :=
  (m = 2 /\ (leap_year y /\ l = 29 \/ ~ leap_year y /\ l = 28)) \/
  (In m [4; 6; 9; 11] /\ l = 30) \/ (In m [1; 3; 5; 7; 8; 10; 12] /\ l = 31).
Definition calendar_date (t : Z * Z * Z) : Prop :=
  let '(y, m, d) := t in exists l, days_in_month y m l /\ 1 <= d <= l.

(** [t'] is the day after [t]. *)
Definition day_after (t t' : Z * Z * Z) : Prop :=
  let '(y, m, d) := t in
  exists l, days_in_month y m l /\
    (d < l /\ t' = (y, m, d + 1) \/
     d = l /\ (m < 12 /\ t' = (y, m + 1, 1) \/ m = 12 /\ t' = (y + 1, 1, 1))).

(** [f n] is the date [n] days after 1 January 1970, or before it. *)
Definition counts_days (f : Z -> Z * Z * Z) : Prop :=
  f 0 = (1970, 1, 1) /\ forall n, calendar_date (f n) /\ day_after (f n) (f (n + 1)).

(** ** Instants *)

(** The day on which a year begins, counted from 1 January 1970: 365 days a
    year, and one more every 4 years but not every 100 unless every 400. *)
Definition year_begins (y : Z) : Z :=
  365 * (y - 1970) + ((y - 1) / 4 - (y - 1) / 100 + (y - 1) / 400) - 477.
Definition day_number (t : Z * Z * Z) (n : Z) : Prop :=
  exists f, counts_days f /\ f n = t.

(** How many microseconds a unit has. *)
Inductive lasts : tunit -> Z -> Prop :=
| lasts_us : lasts Uus 1
| lasts_ms : lasts Ums 1000
| lasts_s : lasts Us 1000000
| lasts_m : lasts Um 60000000
| lasts_h : lasts Uh 3600000000
| lasts_D : lasts UD 86400000000
| lasts_W : lasts UW 604800000000.

(** [at_micros v t]: the date or datetime [v] begins [t] microseconds after
    1970 did. *)
Inductive at_micros : pyval -> Z -> Prop :=
| at_date y m d n : day_number (y, m, d) n -> at_micros (PDate y m d) (n * 86400000000)
| at_datetime y m d n h mi s us : day_number (y, m, d) n ->
    0 <= h < 24 -> 0 <= mi < 60 -> 0 <= s < 60 -> 0 <= us < 1000000 ->
    at_micros (PDatetime y m d h mi s us) (n * 86400000000 + h * 3600000000 + mi * 60000000 + s * 1000000 + us).

(** From the beginning of year 1 to the end of year 9999. *)
Definition python_years (t : Z) : Prop :=
  year_begins 1 * 86400000000 <= t < year_begins 10000 * 86400000000.

(** Units that itemize_numpy turns into a date, a datetime or a timedelta. *)
Definition coarse (u : tunit) : Prop := ~ In u [Uns; Ups; Ufs; Uas; UGeneric].
(** The month with number [t] (of 1970's first month: 0) is in these years. *)
Definition python_time (u : tunit) (t : Z) : Prop :=
  match u with
  | UY => 1 <= 1970 + t <= 9999
  | UM => 12 <= 1970 * 12 + t < 120000
  | _ => forall l, lasts u l -> python_years (t * l)
  end.

(** ** Scalars *)

Fixpoint extended_inside (x : scalar) : Prop :=
  match x with
  | NLongdouble _ | NClongdouble _ _ => True
  | NRecord fs => (fix any (l : list (string * scalar)) : Prop :=
                     match l with [] => False | (_, y) :: r => extended_inside y \/ any r end) fs
  | _ => False
  end.
Fixpoint numpy_inside (v : pyval) : Prop :=
  match v with
  | PNumpy _ => True
  | PTuple l | PList l => (fix any (l : list pyval) : Prop :=
                             match l with [] => False | y :: r => numpy_inside y \/ any r end) l
  | PDict l => (fix any (l : list (string * pyval)) : Prop :=
                  match l with [] => False | (_, y) :: r => numpy_inside y \/ any r end) l
  | _ => False
  end.

(** The document that stands for a scalar. *)
Inductive stands_for : scalar -> doc -> Prop :=
| sf_bool b : stands_for (NBool b) (DBool b)
| sf_int s b z : stands_for (NInt s b z) (DInt z)
| sf_float w x : stands_for (NFloat w x) (DFloat x)
| sf_str s : stands_for (NStr s) (DStr s)
| sf_nat u k : stands_for (NDatetime u k None) DNull
| sf_nad u k : stands_for (NTimedelta u k None) DNull
| sf_generic k n : stands_for (NDatetime UGeneric k n) DNull
| sf_fine u k n : In u [Uns; Ups; Ufs; Uas] -> stands_for (NDatetime u k (Some n)) (DInt n)
| sf_far u k n : coarse u -> ~ python_time u (n * k) -> stands_for (NDatetime u k (Some n)) (DInt n)
| sf_delta u k n : In u [UY; UM; Uns; Ups; Ufs; Uas; UGeneric] -> stands_for (NTimedelta u k (Some n)) (DInt n)
| sf_long u k n l : lasts u l -> ~ (-999999999 * 86400000000 <= n * k * l < 1000000000 * 86400000000) ->
    stands_for (NTimedelta u k (Some n)) (DInt n)
| sf_record fs ds : Forall2 (fun f d => stands_for (snd f) d) fs ds -> stands_for (NRecord fs) (DArr ds).
