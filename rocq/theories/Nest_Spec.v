(** What the properties C88 and C89 of compositions mean.  Definitions only. *)
From Verif Require Export Comp_Spec Nest_Model.

Section Spec.
  Context {V W : Type}.
  Context (none : V) (trace : exn -> string * list frame).
  Notation world := (@world V W).
  Notation step := (@step V W).
  Notation send := (@send V W).
  Notation comp := (@comp V W).
  Notation act := (@act V W).

  (** ** Compositions in compositions *)

  (** A composition of steps and nothing else. *)
  Definition only_steps (c : comp) : Prop :=
    wfd (steps c) = true /\ bare c /\ ctracker c = None.

  (** The functions at the bottom of a step, in the order they are called: a
      function is its own, a composition has those of its steps. *)
  Inductive bottom : step -> list step -> Prop :=
  | bottom_self s : bottom s [s]
  | bottom_comp str c l : only_steps c -> optional c = false -> steps c <> [] -> bottoms (dvalues (steps c)) l ->
      bottom (as_step none trace str c) l
  with bottoms : list step -> list step -> Prop :=
  | bottoms_nil : bottoms [] []
  | bottoms_cons s r a b : bottom s a -> bottoms r b -> bottoms (s :: r) (a ++ b).

  (** No sends into its own steps. *)
  Definition steady (c : comp) : Prop :=
    forall k d t, In k (dkeys (steps c)) -> In d (sends_of c k) -> starget d <> TStep t.

  (** ** Trackers *)

  (** Worlds that differ at most in trackers. *)
  Definition but_trackers (w w' : world) : Prop := objs w = objs w' /\ user w = user w'.
  (** What neither looks at trackers nor, as far as others can see, at
      anything that depends on them. *)
  Definition blind {A} (m : act A) : Prop :=
    forall w w', but_trackers w w' -> fst (m w) = fst (m w') /\ but_trackers (snd (m w)) (snd (m w')).
  Definition blind_step (s : step) : Prop :=
    match s with
    | Plain _ _ f => forall args kw, blind (f args kw)
    | Part _ _ p => forall args kw, blind (p_func p args kw)
    end.
  Definition blind_send (d : send) : Prop :=
    match pipe d with Some p => forall v, blind (p v) | None => True end /\
    match starget d with TWriter f => forall v, blind (f v) | _ => True end.
End Spec.
