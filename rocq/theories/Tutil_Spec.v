(** What a call in a child process should do. *)
From Verif Require Export Tutil_Model.
Open Scope Z_scope.

Section Runs.
  Context {S : Type} (step : S -> S -> Prop).
  (** Every way of going on from [s] gets, in finitely many steps, to a state from
      which none goes on, and that is [P]. *)
  Inductive ends_in (P : S -> Prop) : S -> Prop :=
  | ends s : (forall t, step s t -> ends_in P t) -> (P s \/ exists t, step s t) -> ends_in P s.
  Definition stuck (s : S) : Prop := forall t, ~ step s t.
  (** As [ends_in], with nothing left to do. *)
  Definition surely (P : S -> Prop) (s : S) : Prop := ends_in (fun s => P s /\ stuck s) s.
End Runs.

Section Spec.
  Context {obj : Type} (dumps : obj -> res (list byte_)) (exn_obj : exn -> obj).
  (** The object to be sent: the value returned, or the Exception raised. *)
  Definition to_send (r : res obj) (v : obj) : Prop :=
    r = Ok v \/ exists e, r = Exc e /\ is_Exception e = true /\ v = exn_obj e.
  (** The bytes of its pickle, if there is one (of less than 2^64 bytes). *)
  Definition pickled (r : res obj) (b : list byte_) : Prop := exists v, to_send r v /\ dumps v = Ok b /\ size b < 2 ^ 64.
  (** Bytes used in front for the length. *)
  Definition prefix_size (b : list byte_) : Z := if size b <=? 2147483647 then 4 else 12.
End Spec.
