(** What the properties C23-C30 of composition.py mean.  Definitions only. *)
From Coq Require Import Sorted.
From Verif Require Export Comp_Model.

Section Spec.
  Context {V W : Type}.
  Notation world := (@world V W).
  Notation func := (@func V W).
  Notation step := (@step V W).
  Notation send := (@send V W).
  Notation comp := (@comp V W).
  Notation act := (@act V W).

  (** ** Pipelines *)

  (** The composition after something that changes at most inserts. *)
  Definition same_shape (c c' : comp) : Prop := c' = with_inserts c (inserts c').

  (** Functions of one argument in a row: the outputs, the exception that
      stopped it, the world at the end. *)
  Fixpoint flow (fs : list (V -> act V)) (x : V) (w : world) : list V * option exn * world :=
    match fs with
    | [] => ([], None, w)
    | f :: r =>
        match f x w with
        | (Ok y, w') => let '(ys, e, w'') := flow r y w' in (y :: ys, e, w'')
        | (Exc e, w') => ([], Some e, w')
        end
    end.

  (** What a step raises, as seen by the caller of a generator. *)
  Definition surfaced (e : exn) : exn := match e with StopIteration => RuntimeError | _ => e end.

  (** The values of the first [n] calls of [next] on a generator, fewer if it
      ends or raises. *)
  Fixpoint pull (n : nat) (g : @gen V) (s : comp * world) : list V * option exn * (comp * world) :=
    match n with
    | O => ([], None, s)
    | S m =>
        match gnext g s with
        | (Ok (Some (y, g')), s') => let '(ys, e, s'') := pull m g' s' in (y :: ys, e, s'')
        | (Ok None, s') => ([], None, s')
        | (Exc e, s') => ([], Some e, s')
        end
    end.

  (** [step(x)] for a function, [partial(f, *a, **k)(x)], and for a step that
      only has an attribute func, [step.func(x)]. *)
  Definition applied (s : step) (x : V) : act V :=
    match s with
    | Plain _ _ f => f [x] []
    | Part _ _ p =>
        p_func p (match p_args p with Some a => a | None => [] end ++ [x])
                 (match p_keywords p with Some k => k | None => [] end)
    end.

  (** What [execute] returns, for the outputs of the completed steps and the
      exception that stopped them. *)
  Definition outcome (none : V) (opt : bool) (ys : list V) (e : option exn) : res V :=
    match e with
    | None => Ok (last ys none)
    | Some ex => if is_Exception ex && opt then Ok none else Exc ex
    end.

  (** ** Inserts *)

  Definition inserts_at (c : comp) (k : key) : dict V :=
    match dget (inserts c) k with Some d => d | None => [] end.
  Definition sends_of (c : comp) (k : key) : list send :=
    match dget (sends c) k with Some l => l | None => [] end.

  Definition bare (c : comp) : Prop := forall k, In k (dkeys (steps c)) -> inserts_at c k = [] /\ sends_of c k = [].

  (** The positional arguments of a call, for the values [pv] fixed at some
      positions and the signal [x]: the signal takes the first free position
      from 0 on, and the values follow each other in order of position. *)
  Definition placed (pv : Z -> option V) (x : V) (l : list V) : Prop :=
    exists p sorted,
      (0 <= p)%Z /\ pv p = None /\ (forall q, (0 <= q < p)%Z -> pv q <> None) /\
      StronglySorted (fun a b => (fst a < fst b)%Z) sorted /\
      (forall z v, In (z, v) sorted <-> (z = p /\ v = x) \/ pv z = Some v) /\
      l = map snd sorted.

  (** Positions fixed by inserts, and those baked into a partial. *)
  Definition by_insert (d : dict V) (z : Z) : option V := dget d (KInt z).
  Definition by_partial (a : list V) (d : dict V) (z : Z) : option V :=
    match dget d (KInt z) with
    | Some v => Some v
    | None => if (z <? 0)%Z then None else nth_error a (Z.to_nat z)
    end.

  (** ** Sends *)

  (** One send after the other, until one raises. *)
  Fixpoint run_sends (l : list send) (x : V) (s : comp * world) : res unit * (comp * world) :=
    match l with
    | [] => (Ok tt, s)
    | d :: r => match perform_send x d s with (Ok _, s') => run_sends r x s' | (Exc e, s') => (Exc e, s') end
    end.

  (** Sends into steps are without pipes. *)
  Definition unpiped (d : send) : Prop := forall t, starget d = TStep t -> pipe d = None.

  (** Sends into inserts of the composition, from the steps [ks], in order:
      target step and key. *)
  Definition wire (s : send) : list (key * key) :=
    match starget s with TStep t => [(t, pointer s)] | _ => [] end.
  Definition wires (c : comp) (ks : list key) : list (key * key) :=
    flat_map (fun k => flat_map wire (sends_of c k)) ks.
  (** ... with the outputs they carry, if there are no pipes. *)
  Definition carried (c : comp) (kys : list (key * V)) : list (key * key * V) :=
    flat_map (fun ky => map (fun tp => (tp, snd ky)) (flat_map wire (sends_of c (fst ky)))) kys.

  (** The value a list of values sent leaves in a step's insert: the last one
      sent there, or else what was there. *)
  Definition last_sent (l : list (key * key * V)) (t k : key) (old : option V) : option V :=
    fold_left (fun acc e => let '(t', k', v) := e in if keqb t' t && keqb k' k then Some v else acc) l old.

  (** Sends go from a step to a strictly later one. *)
  Definition forward (c : comp) : Prop :=
    forall a k b s t, dkeys (steps c) = a ++ k :: b -> In s (sends_of c k) -> starget s = TStep t ->
      forall k', In k' (a ++ [k]) -> keqb t k' = false.

  (** Something whose outcome does not depend on the world, and that does not
      touch lists and dictionaries. *)
  Definition pure {A} (m : act A) : Prop :=
    exists r, forall w, fst (m w) = r /\ objs (snd (m w)) = objs w.
  Definition pure_step (s : step) : Prop :=
    match s with
    | Plain _ _ f => forall args kw, pure (f args kw)
    | Part _ _ p => forall args kw, pure (p_func p args kw)
    end.
  Definition pure_send (s : send) : Prop :=
    match pipe s with Some p => forall v, pure (p v) | None => True end /\
    match starget s with TWriter f => forall v, pure (f v) | _ => True end.
  (** Sends to items of lists are to items they have. *)
  Definition in_range (o : list (@obj V)) (s : send) : Prop :=
    match starget s with
    | TRef r =>
        match nth_error o r with
        | Some (OList l) =>
            pointer s = KNone \/
            exists i, kint (pointer s) = Some i /\ (- Z.of_nat (List.length l) <= i < Z.of_nat (List.length l))%Z
        | Some (ODict _) => True
        | None => False
        end
    | _ => True
    end.

  Definition pure_at (c : comp) (ks : list key) : Prop :=
    (forall k f, In k ks -> dget (steps c) k = Some f -> pure_step f) /\
    (forall k d, In k ks -> In d (sends_of c k) -> pure_send d).
  Definition ranged_at (c : comp) (ks : list key) (w : world) : Prop :=
    forall k d, In k ks -> In d (sends_of c k) -> in_range (objs w) d.

  (** ** Captures and tracking *)

  (** What does not touch an object, a tracker. *)
  Definition spares_obj {A} (r : nat) (m : act A) : Prop :=
    forall w o, nth_error (objs w) r = Some o -> nth_error (objs (snd (m w))) r = Some o.
  Definition spares_trk {A} (i : nat) (m : act A) : Prop :=
    forall w t, nth_error (trks w) i = Some t -> nth_error (trks (snd (m w))) i = Some t.
  Definition step_spares (P : forall A, act A -> Prop) (s : step) : Prop :=
    match s with
    | Plain _ _ f => forall args kw, P _ (f args kw)
    | Part _ _ p => forall args kw, P _ (p_func p args kw)
    end.
  Definition send_spares (P : forall A, act A -> Prop) (s : send) : Prop :=
    match pipe s with Some p => forall v, P _ (p v) | None => True end /\
    match starget s with TWriter f => forall v, P _ (f v) | _ => True end.
  (** Not a send to object [r]. *)
  Definition elsewhere (r : nat) (s : send) : Prop :=
    match starget s with TRef r' => r' <> r | _ => True end.

  Definition capture (r : nat) : send := {| pipe := None; starget := TRef r; pointer := KInt 0 |}.
  Definition track_send (none : V) (i : nat) (k : key) (f : step) : send :=
    {| pipe := Some (_track_factory none (Real i) k f); starget := TNone; pointer := KNone |}.
  (** The step named [k] does not touch tracker [i]; among its sends there is
      one tracking it, followed by [post]; the others do not touch tracker
      [i]. *)
  Definition tracked (none : V) (i : nat) (c : comp) (k : key) (f : step) (post : list send) : Prop :=
    step_spares (fun A m => spares_trk i m) f /\
    exists pre, sends_of c k = pre ++ track_send none i k f :: post /\
      forall d, In d (pre ++ post) -> send_spares (fun A m => spares_trk i m) d.

  (** A tracker with records appended. *)
  Definition with_records (t : tracker) (recs : list (dict mval)) : tracker :=
    upd_history t (history t ++ recs) (counter t + Z.of_nat (List.length recs)).

  (** The record of a step, and of an exception. *)
  Definition step_record (meta : dict mval) (s : step) (k : key) (n : Z) : dict mval :=
    dupdate (dupdate (dict_of [(KStr "target", MStr (target_of s)); (KStr "caller", MStr "track");
                               (KStr "lineno", MInt 294); (KStr "trackcount", MInt n)]) meta)
            [(KStr "step", MAtom k)].
  Definition error_record (meta : dict mval) (s : step) (report : dict mval) (n : Z) : dict mval :=
    dupdate (dupdate (dict_of [(KStr "target", MStr (target_of s)); (KStr "caller", MStr "execute");
                               (KStr "lineno", MInt 254); (KStr "trackcount", MInt n)]) meta) report.
  Fixpoint step_records (meta : dict mval) (ks : list (key * step)) (n : Z) : list (dict mval) :=
    match ks with
    | [] => []
    | (k, s) :: r => step_record meta s k n :: step_records meta r (n + 1)
    end.

  (** ** Names of steps *)

  Definition default_name (c : comp) : key := KInt (Z.of_nat (List.length (steps c)) + 1).
  Definition step_name (c : comp) (name : key) : key := match name with KNone => default_name c | _ => name end.
  (** Steps added one after the other, without names. *)
  Fixpoint add_defaults (none : V) (fs : list step) (s : comp * world) : comp * world :=
    match fs with [] => s | f :: r => add_defaults none r (snd (add_step none f KNone s)) end.
  (** Inserts and sends are the same under the old name of each step and its
      number, and there are no sends into steps. *)
  Definition position_proof (c : comp) : Prop :=
    forall i k, nth_error (dkeys (steps c)) i = Some k ->
      inserts_at c (KInt (Z.of_nat i)) = inserts_at c k /\ sends_of c (KInt (Z.of_nat i)) = sends_of c k /\
      flat_map wire (sends_of c k) = [].
End Spec.
