(** Specification of shared memory across processes that end. *)
From Verif Require Export Exit_Model.

(** Blocks as they are without any tracker: what there is depends on
    creations and unlinkings only. *)
Definition plain_step (b : string -> bool) (e : event) : res unit * (string -> bool) :=
  match e with
  | ECreate _ a => if b a then (Exc FileExistsError, b) else (Ok tt, set_block b a true)
  | EAttach _ a => (if b a then Ok tt else Exc FileNotFoundError, b)
  | EUnlink _ a => if b a then (Ok tt, set_block b a false) else (Exc FileNotFoundError, b)
  | _ => (Ok tt, b)
  end.
Fixpoint plain_run (b : string -> bool) (h : list event) : list (res unit) :=
  match h with
  | [] => []
  | e :: r => let '(x, b1) := plain_step b e in x :: plain_run b1 r
  end.
(** Is [a] there: was it last created or unlinked? *)
Fixpoint last_made (a : string) (p : bool) (h : list event) : bool :=
  match h with
  | [] => p
  | ECreate _ b :: r => last_made a (if String.eqb a b then true else p) r
  | EUnlink _ b :: r => last_made a (if String.eqb a b then false else p) r
  | _ :: r => last_made a p r
  end.

Definition set_flag (f : nat -> bool) (p : nat) (b : bool) : nat -> bool := fun q => if Nat.eqb q p then b else f q.
(** Every process deactivates its tracker before it creates or attaches
    anything; nobody talks to the tracker otherwise. *)
Fixpoint careful (d : nat -> bool) (h : list event) : Prop :=
  match h with
  | [] => True
  | (ECreate p _ | EAttach p _) :: r => d p = true /\ careful d r
  | EDeactivate p :: r => careful (set_flag d p true) r
  | EExit p :: r => careful (set_flag d p false) r
  | (ERegister _ _ _ | EUnregister _ _ _) :: r => False
  | EUnlink _ _ :: r => careful d r
  end.

(** What process [p] has created or attached and not unlinked since it
    started, given how each of its attempts came out. *)
Fixpoint in_hand (p : nat) (a : string) (b : bool) (h : list (event * res unit)) : bool :=
  match h with
  | [] => b
  | (ECreate q x, Ok _) :: r | (EAttach q x, Ok _) :: r => in_hand p a (if Nat.eqb q p && String.eqb x a then true else b) r
  | (EUnlink q x, Ok _) :: r => in_hand p a (if Nat.eqb q p && String.eqb x a then false else b) r
  | (EExit q, _) :: r => in_hand p a (if Nat.eqb q p then false else b) r
  | _ :: r => in_hand p a b r
  end.
(** [p] never deactivates its tracker and leaves it alone. *)
Definition never_deactivates (p : nat) (h : list event) : Prop :=
  forall e, In e h -> e <> EDeactivate p /\ (forall n t, e <> ERegister p n t /\ e <> EUnregister p n t).

(** All processes are new. *)
Definition fresh_world (b : string -> bool) : world := mkWorld b (fun _ => new_tracker).
