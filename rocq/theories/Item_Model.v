(** Model of itemize_numpy in dustgoggles/pivot.py, of the scalars of numpy it
    is given, and of what json.dumps accepts.  Definitions only.

    The conversions are those of numpy (core/src/multiarray/arraytypes.c.src,
    datetime.c) and of Python's json/encoder.py.
    Simplifications: a float is its value (a mantissa and a power of 2); text
    and bytes do not end in NULs (numpy drops these when a scalar leaves an
    array); the fields of records are not arrays; counts of time do not
    overflow 64 bits; dicts have text as keys. *)
From Verif Require Export Py_Model.
Open Scope Z_scope.

(** ** numpy *)

Inductive tunit := UY | UM | UW | UD | Uh | Um | Us | Ums | Uus | Uns | Ups | Ufs | Uas | UGeneric.
Inductive number := Fin (m e : Z) | Inf (negative : bool) | NaN.
Inductive width := Half | Single | Double.

(** np.generic: its instances.  [NDatetime u k (Some n)] is [n] times [k]
    units [u] after the beginning of 1970; [None] is NaT. *)
Inductive scalar :=
| NBool (b : bool)
| NInt (signed : bool) (bits : nat) (z : Z)
| NFloat (w : width) (x : number)
| NLongdouble (x : number)
| NComplex (w : width) (re im : number)
| NClongdouble (re im : number)
| NStr (s : string)
| NBytes (s : string)
| NVoid (s : string)
| NDatetime (u : tunit) (k : Z) (n : option Z)
| NTimedelta (u : tunit) (k : Z) (n : option Z)
| NRecord (fields : list (string * scalar)).

(** Objects of Python, as far as they matter here. *)
Inductive pyval :=
| PNone
| PBool (b : bool)
| PInt (z : Z)
| PFloat (x : number)
| PComplex (re im : number)
| PStr (s : string)
| PBytes (s : string)
| PDate (y m d : Z)
| PDatetime (y m d h mi s us : Z)
| PTimedelta (days s us : Z)
| PTuple (l : list pyval)
| PList (l : list pyval)
| PDict (l : list (string * pyval))
| PNumpy (x : scalar).

(** datetime.c is_leapyear, _days_per_month_table *)
Definition is_leap (y : Z) : bool :=
  (Z.land y 3 =? 0) && (negb (y mod 100 =? 0) || (y mod 400 =? 0)).
Definition month_table (leap : bool) : list Z :=
  [31; if leap then 29 else 28; 31; 30; 31; 30; 31; 31; 30; 31; 30; 31].

(** datetime.c days_to_yearsdays: the year and the day in it. *)
Definition cycle_days : Z := 400 * 365 + 100 - 4 + 1.
Definition year_in_cycle (days : Z) : Z * Z :=
  if 366 <=? days then
    let y := 100 * ((days - 1) / (100 * 365 + 25 - 1)) in
    let days := (days - 1) mod (100 * 365 + 25 - 1) in
    if 365 <=? days then
      let y := y + 4 * ((days + 1) / (4 * 365 + 1)) in
      let days := (days + 1) mod (4 * 365 + 1) in
      if 366 <=? days then (y + (days - 1) / 365, (days - 1) mod 365) else (y, days)
    else (y, days)
  else (0, days).
Definition year_of_days (n : Z) : Z * Z :=
  let days := n - (365 * 30 + 7) in
  let '(y, d) := year_in_cycle (days mod cycle_days) in
  (400 * (days / cycle_days) + y + 2000, d).

(** datetime.c set_datetimestruct_days: the month and the day in it. *)
Fixpoint month_of_days (table : list Z) (m : Z) (days : Z) : Z * Z :=
  match table with
  | [] => (m, days + 1)
  | l :: r => if days <? l then (m, days + 1) else month_of_days r (m + 1) (days - l)
  end.
Definition civil (n : Z) : Z * Z * Z :=
  let '(y, days) := year_of_days n in
  let '(m, d) := month_of_days (month_table (is_leap y)) 1 days in
  (y, m, d).

(** Units of at most a day: how many are in a day, and their microseconds. *)
Definition per_day (u : tunit) : Z :=
  match u with
  | Uh => 24 | Um => 24 * 60 | Us => 24 * 60 * 60
  | Ums => 24 * 60 * 60 * 1000 | Uus => 24 * 60 * 60 * 1000 * 1000 | _ => 1
  end.
Definition micros_per_day : Z := 24 * 60 * 60 * 1000 * 1000.
(** NPY_FR_us and coarser; NPY_FR_D and coarser *)
Definition to_micros (u : tunit) : bool :=
  match u with Uns | Ups | Ufs | Uas | UGeneric => false | _ => true end.
Definition whole_days (u : tunit) : bool :=
  match u with UY | UM | UW | UD => true | _ => false end.

(** datetime.c NpyDatetime_ConvertDatetime64ToDatetimeStruct: the date and the
    microseconds of the day. *)
Definition broken_down (u : tunit) (t : Z) : Z * Z * Z * Z :=
  match u with
  | UY => (1970 + t, 1, 1, 0)
  | UM => (1970 + t / 12, t mod 12 + 1, 1, 0)
  | UW => (civil (t * 7), 0)
  | _ => (civil (t / per_day u), (t mod per_day u) * (micros_per_day / per_day u))
  end.

(** datetime.c convert_datetime_to_pyobject *)
Definition item_datetime (u : tunit) (k : Z) (n : option Z) : pyval :=
  match n, u with
  | None, _ | _, UGeneric => PNone
  | Some n, _ =>
      if to_micros u then
        let '(y, m, d, us) := broken_down u (n * k) in
        if (y <? 1) || (9999 <? y) then PInt n
        else if whole_days u then PDate y m d
        else PDatetime y m d (us / 3600000000) (us / 60000000 mod 60) (us / 1000000 mod 60) (us mod 1000000)
      else PInt n
  end.

(** datetime.c convert_timedelta_to_pyobject *)
Definition item_timedelta (u : tunit) (k : Z) (n : option Z) : pyval :=
  match n, u with
  | None, _ => PNone
  | Some n, (UY | UM) => PInt n
  | Some n, _ =>
      if to_micros u then
        let t := n * k * (match u with UW => 7 | _ => 1 end) in
        let days := t / per_day u in
        let us := (t mod per_day u) * (micros_per_day / per_day u) in
        if (days <? -999999999) || (999999999 <? days) then PInt n
        else PTimedelta days (us / 1000000) (us mod 1000000)
      else PInt n
  end.

(** The getitem functions of the types: what [.item()] returns.  There is no
    longer float in Python, so that a longdouble remains one. *)
Fixpoint item (x : scalar) : pyval :=
  match x with
  | NBool b => PBool b
  | NInt _ _ z => PInt z
  | NFloat _ f => PFloat f
  | NLongdouble _ | NClongdouble _ _ => PNumpy x
  | NComplex _ a b => PComplex a b
  | NStr s => PStr s
  | NBytes s | NVoid s => PBytes s
  | NDatetime u k n => item_datetime u k n
  | NTimedelta u k n => item_timedelta u k n
  | NRecord fs => PTuple (map (fun f => item (snd f)) fs)
  end.

(** pivot.py:22-29 itemize_numpy *)
Definition itemize_numpy (v : pyval) : pyval :=
  match v with
  | PNumpy x => item x
  | _ => v
  end.

(** ** json.dumps *)

Inductive doc :=
| DNull
| DBool (b : bool)
| DInt (z : Z)
| DFloat (x : number)
| DStr (s : string)
| DArr (l : list doc)
| DObj (l : list (string * doc)).

(** JSONEncoder.iterencode and default: np.float64 is a subclass of float and
    np.str_ one of str. *)
Fixpoint encode (v : pyval) : res doc :=
  match v with
  | PNone => Ok DNull
  | PBool b => Ok (DBool b)
  | PInt z => Ok (DInt z)
  | PFloat x | PNumpy (NFloat Double x) => Ok (DFloat x)
  | PStr s | PNumpy (NStr s) => Ok (DStr s)
  | PTuple l | PList l =>
      l' <- (fix go l := match l with
                         | [] => Ok []
                         | x :: r => y <- encode x ;; ys <- go r ;; Ok (y :: ys)
                         end) l ;; Ok (DArr l')
  | PDict l =>
      l' <- (fix go l := match l with
                         | [] => Ok []
                         | (k, x) :: r => y <- encode x ;; ys <- go r ;; Ok ((k, y) :: ys)
                         end) l ;; Ok (DObj l')
  | _ => Exc TypeError
  end.
