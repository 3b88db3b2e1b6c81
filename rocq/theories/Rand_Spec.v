(** What random nested dictionaries should be. *)
From Verif Require Export Rand_Model Struct_Spec.

Section Spec.
  Context {R T : Type} (randval : T -> eff R val) (hash : val -> res key).
  (** Values that can come from some types, and keys. *)
  Definition from_types (types : list T) (v : val) : Prop := exists t r r', In t types /\ randval t r = (Ok v, r').
  Definition key_from (types : list T) (k : key) : Prop := exists v, from_types types v /\ hash v = Ok k.
  (** An assignment of such a value along a path of such keys, not too long. *)
  Definition entry_ok (maxdepth : nat) (types keytypes : list T) (e : list key * val) : Prop :=
    1 <= List.length (fst e) <= maxdepth /\ Forall (key_from keytypes) (fst e) /\ from_types types (snd e).
  (** Generators of plain values. *)
  Definition plain_values (types : list T) : Prop := forall v, from_types types v -> is_mapping v = false /\ wfv v = true.
End Spec.

(** Values that are not mappings, at any depth. *)
Fixpoint leaf_count (v : val) : nat :=
  match v with VDict _ d => list_sum (map (fun kv => leaf_count (snd kv)) d) | _ => 1 end.
(** No mapping in it is empty. *)
Fixpoint inner_full (v : val) : bool :=
  match v with
  | VDict _ d => forallb (fun kv => match snd kv with VDict _ [] => false | _ => true end && inner_full (snd kv)) d
  | _ => true
  end.
