(** What a reader without a lock may see of a TagIndex while others remove
    keys from it under its lock. *)
From Verif Require Export Crowd_Spec.

(** [beside ks0 ops g r o]: on an index with the keys [ks0], whose lock works,
    processes do [ops] (any operations with keys that are no trouble) in
    guarded sections in an orderly interleaving that ends in [g], and a reader
    without a lock that looks as [r] says meanwhile ends with [o]. *)
Definition beside (ks0 : list string) (ops : nat -> iop) (g : gconfig) (r : list visit) (o : res (list iout)) : Prop :=
  exists hash K I h0 m s k fuel n p,
    reached hash K I h0 m s /\ lock_used I k s /\ (forall i key, op_key (ops i) = Some key -> plain_key K key) /\
    (k + Z.of_nat n < 256 ^ 5)%Z /\ (Z.of_nat (List.length h0 + n) + 8 < 256 ^ 5)%Z /\
    only_looks r /\ Forall (plain_visit K) r /\
    watched hash I fuel (orderly I) n (g_start hash I m ops s) [visits_prog hash I m r] g [p] /\
    outcome p = Some o /\ ks0 = keys_after h0.

(** The key is in the index at the start and after every operation. *)
Definition always_there (ks0 : list string) (ops : nat -> iop) (g : gconfig) (k : string) : Prop :=
  forall l r, order g = l ++ r -> In k (keys_by ks0 ops l).

(** Nobody adds anything. *)
Definition none_adds (ops : nat -> iop) : Prop :=
  forall i, match ops i with IAdd _ _ => False | _ => True end.

(** The keys [l] are those of the index at the start or after some
    operations. *)
Definition once_so (ks0 : list string) (ops : nat -> iop) (g : gconfig) (l : list string) : Prop :=
  exists l1 r, order g = l1 ++ r /\ l = keys_by ks0 ops l1.

(** Answers that fit the questions: keys for a listing, a place or nothing for
    a check. *)
Definition fits_op (v : visit) (a : iout) : Prop :=
  match v_op v, a with
  | IUpdate, OKeys _ | ICheck _, OFound _ => True
  | _, _ => False
  end.
