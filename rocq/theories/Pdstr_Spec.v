(** What a function made by pdstr does to a Series, cell by cell. *)
From Verif Require Export Pdstr_Model.

(** The Series holds something, and only truth values, or only numbers. *)
Definition only (p : scell -> bool) (cells : list scell) : Prop :=
  (exists c, In c cells /\ c <> CMissing) /\ forall c, In c cells -> c <> CMissing -> p c = true.

(** [f] takes the cell [c] to [d]. *)
Inductive cell_to (f : scell -> res scell) : scell -> scell -> Prop :=
| to_missing : cell_to f CMissing CMissing
| to_value c d : c <> CMissing -> f c = Ok d -> cell_to f c d
| to_failed c e : c <> CMissing -> f c = Exc e -> e = TypeError \/ e = AttributeError -> cell_to f c CMissing.
(** [f] fails on [c] in some other way. *)
Definition cell_raises (f : scell -> res scell) (e : exn) (c : scell) : Prop :=
  c <> CMissing /\ f c = Exc e /\ e <> TypeError /\ e <> AttributeError.
