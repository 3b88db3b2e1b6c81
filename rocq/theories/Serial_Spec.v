(** What it means that guarded operations happen one after another. *)
From Verif Require Export Serial_Model Conc_Spec.

(** [rounds hash name fuel R n g g']: [n] moves lead from [g] to [g'].  A move
    is a turn of some process that [R] allows, or anything whatsoever done to
    the store that leaves the blocks of the index alone (reading them for
    instance). *)
Inductive rounds (hash : bytes -> string) (name : string) (fuel : nat) (R : config -> nat -> Prop) : nat -> gconfig -> gconfig -> Prop :=
| rounds_none g : rounds hash name fuel R 0 g g
| rounds_turn n g g' i : rounds hash name fuel R n g g' -> R (users g') i ->
    rounds hash name fuel R (S n) g (guarded_turn fuel i g')
| rounds_env n g g' s : rounds hash name fuel R n g g' -> wf s ->
    (forall a, index_names hash name a -> same_at (shared (users g')) s a) ->
    rounds hash name fuel R (S n) g (mkG (mkConfig (procs (users g')) s (served (users g'))) (todo g') (order g')).

(** The lock of index [I] has been used before: its counter block exists and
    says [k]. *)
Definition lock_used (I : string) (k : Z) (s : store) : Prop :=
  (0 <= k)%Z /\ content s (count_address I) = Some (le_digits 5 k).

(** Has come to the guarded section. *)
Definition past_entry (c : config) (i : nat) : Prop :=
  match procs c i with Inside _ | Leaving _ _ | Finished _ => True | _ => False end.

(** The keys after the operations of the processes [l], one after another. *)
Definition keys_by (ks : list string) (ops : nat -> iop) (l : list nat) : list string :=
  snd (tags_run ks (map ops l)).

(** Whoever looks at the index sees exactly the keys [ks]. *)
Definition shows (hash : bytes -> string) (K : string -> Prop) (I : string) (m : handle) (s : store) (ks : list string) : Prop :=
  forall nl, run (update (mkIndex I m nl)) s = (Some (Ok ks), s) /\
    forall k, K k -> run (check hash (mkIndex I m nl) (skey k)) s = (Some (Ok (position k ks)), s).
