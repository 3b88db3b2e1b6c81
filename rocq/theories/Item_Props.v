(** Properties of itemize_numpy (C103). *)
From Verif Require Import Item_Proofs.
Open Scope Z_scope.

(** ** C103 *)

(** json.dumps accepts the result for exactly the scalars that have a document
    standing for them: truth values, integers, floats and text by their own
    value; dates and durations only where Python has no such date or
    duration; records of these. *)
Theorem C103_json x d : encode (itemize_numpy (PNumpy x)) = Ok d <-> stands_for x d.
Proof. exact (item_stands x d). Qed.
Print Assumptions C103_json.

(** For the others json.dumps raises TypeError and nothing else. *)
Theorem C103_refused v e : encode v = Exc e -> e = TypeError.
Proof. exact (encode_type v e). Qed.
Print Assumptions C103_refused.

(** What json.dumps accepted before it accepts afterwards, with the same
    result. *)
Theorem C103_kept v d : encode v = Ok d -> encode (itemize_numpy v) = Ok d.
Proof. exact (encode_kept v d). Qed.
Print Assumptions C103_kept.

(** Nothing of numpy is left, at any depth of a record, but long doubles. *)
Theorem C103_plain x : numpy_inside (itemize_numpy (PNumpy x)) <-> extended_inside x.
Proof. exact (item_plain x). Qed.
Print Assumptions C103_plain.

Theorem C103_twice v : itemize_numpy (itemize_numpy v) = itemize_numpy v.
Proof. exact (itemize_twice v). Qed.
Print Assumptions C103_twice.

(** numpy's arithmetic of days is the Gregorian calendar, without limit in
    either direction, and there is only one such calendar. *)
Theorem C103_calendar : counts_days civil /\ forall f, counts_days f -> forall n, f n = civil n.
Proof. exact (conj civil_counts (fun f F n => counts_unique f civil F civil_counts n)). Qed.
Print Assumptions C103_calendar.

(** A date in the years 1 to 9999 becomes a date or datetime of the same
    instant; any other becomes its count of units. *)
Theorem C103_instant u l k n : lasts u l ->
  (python_years (n * k * l) -> at_micros (itemize_numpy (PNumpy (NDatetime u k (Some n)))) (n * k * l)) /\
  (~ python_years (n * k * l) -> itemize_numpy (PNumpy (NDatetime u k (Some n))) = PInt n).
Proof. exact (item_at u l k n). Qed.
Print Assumptions C103_instant.

(** A date or datetime is one instant. *)
Theorem C103_one_instant v t t' : at_micros v t -> at_micros v t' -> t = t'.
Proof. exact (at_inj v t t'). Qed.
Print Assumptions C103_one_instant.

(** Months, which have no fixed length. *)
Theorem C103_months k n : python_time UM (n * k) ->
  exists y m, itemize_numpy (PNumpy (NDatetime UM k (Some n))) = PDate y m 1 /\ 1 <= m <= 12 /\ n * k = 12 * (y - 1970) + (m - 1).
Proof. exact (item_months k n). Qed.
Print Assumptions C103_months.
Theorem C103_years k n : python_time UY (n * k) -> itemize_numpy (PNumpy (NDatetime UY k (Some n))) = PDate (1970 + n * k) 1 1.
Proof. exact (item_years k n). Qed.
Print Assumptions C103_years.

(** A duration becomes a timedelta of the same length, if Python has one. *)
Theorem C103_duration u l k n : lasts u l ->
  (-999999999 * 86400000000 <= n * k * l < 1000000000 * 86400000000 ->
   exists d s us, itemize_numpy (PNumpy (NTimedelta u k (Some n))) = PTimedelta d s us /\
     n * k * l = d * 86400000000 + s * 1000000 + us /\ 0 <= s < 86400 /\ 0 <= us < 1000000) /\
  (~ (-999999999 * 86400000000 <= n * k * l < 1000000000 * 86400000000) ->
   itemize_numpy (PNumpy (NTimedelta u k (Some n))) = PInt n).
Proof. exact (item_length u l k n). Qed.
Print Assumptions C103_duration.

(** That every scalar becomes an object of Python is not so. *)
Theorem C103_python_refuted : ~ forall x, ~ numpy_inside (itemize_numpy (PNumpy x)).
Proof. intro H. apply (H (NLongdouble (Fin 1 0))). exact Logic.I. Qed.
Print Assumptions C103_python_refuted.

(** Nor that json.dumps accepts the result for every object all of whose parts
    are numpy's integers: those inside a list stay as they are. *)
Theorem C103_inside_refuted : ~ forall l, encode (itemize_numpy (PList (map (fun z => PNumpy (NInt true 64 z)) l))) <> Exc TypeError.
Proof. intro H. exact (H [0] eq_refl). Qed.
Print Assumptions C103_inside_refuted.

(** Nor that different instants remain different: a nanosecond and a
    picosecond become the same integer. *)
Theorem C103_unit_refuted : ~ forall u k n u' k' n',
  itemize_numpy (PNumpy (NDatetime u k (Some n))) = itemize_numpy (PNumpy (NDatetime u' k' (Some n'))) -> (u, k, n) = (u', k', n').
Proof. intro H. discriminate (H Uns 1 7 Ups 1 7 eq_refl). Qed.
Print Assumptions C103_unit_refuted.

(** A record of an integer, a float, a date too late for Python and a missing
    date; 29 February 2000 and the second before 1970; a day in the year 0. *)
Definition it_record : scalar :=
  NRecord [ ("n", NInt true 64 (-3)); ("x", NFloat Half (Fin 3 (-1))); ("t", NDatetime UD 1 (Some 3000000)); ("m", NDatetime Uns 1 None) ]%string.
Example C103_example :
  stands_for it_record (DArr [DInt (-3); DFloat (Fin 3 (-1)); DInt 3000000; DNull]) /\
  encode (PNumpy it_record) = Exc TypeError /\
  encode (itemize_numpy (PNumpy it_record)) = Ok (DArr [DInt (-3); DFloat (Fin 3 (-1)); DInt 3000000; DNull]) /\
  itemize_numpy (PNumpy (NDatetime UD 1 (Some 11016))) = PDate 2000 2 29 /\
  itemize_numpy (PNumpy (NDatetime Us 1 (Some (-1)))) = PDatetime 1969 12 31 23 59 59 0 /\
  itemize_numpy (PNumpy (NDatetime UW 1 (Some (-110000)))) = PInt (-110000) /\
  itemize_numpy (PNumpy (NTimedelta Ums 10 (Some (-1)))) = PTimedelta (-1) 86399 990000 /\
  (python_years (-1 * 1 * 1000000) /\ lasts Us 1000000) /\
  ~ python_years (-110000 * 1 * 604800000000) /\
  (extended_inside (NRecord [("a", NBool true); ("b", NLongdouble NaN)]%string) /\ ~ extended_inside it_record) /\
  encode (PNumpy (NFloat Double (Fin 1 1))) = Ok (DFloat (Fin 1 1)).
Proof.
  split; [apply C103_json; vm_compute; reflexivity|]. repeat split; try (vm_compute; reflexivity); try (vm_compute; discriminate).
  - constructor.
  - intros [A _]. vm_compute in A. apply A. reflexivity.
  - cbn. tauto.
  - cbn. tauto.
Qed.
