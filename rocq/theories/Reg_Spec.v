(** Specification of the concurrent use of Stickies: an atomic register. *)
From Verif Require Export Reg_Model.

Section Register.
  Context {V : Type} (enc : V -> res bytes) (dec : bytes -> res V) (isnone : V -> bool).
  Variable a : string.

  (** A turn of somebody, or something is done to other blocks. *)
  Inductive moves : option nat -> uconfig V -> uconfig V -> Prop :=
  | moves_turn i c : moves (Some i) c (uturn enc dec isnone i c)
  | moves_else us s s' : wf s' -> same_at s s' a -> moves None (us, s) (us, s').
  (** What happens, up to moment [N]: [t n] is how things are at moment [n],
      [who n] has the turn then. *)
  Definition happens (who : nat -> option nat) (t : nat -> uconfig V) (N : nat) : Prop :=
    forall n, n < N -> moves (who n) (t n) (t (S n)).
  Definition turns_of (i : nat) (who : nat -> option nat) (N : nat) : nat :=
    List.length (filter (fun n => match who n with Some j => Nat.eqb j i | None => false end) (seq 0 N)).

  (** The address has the encoding of [v]. *)
  Definition on_board (v : V) (s : store) : Prop := exists b, enc v = Ok b /\ content s a = Some b.

  (** Everyone is about to begin, with what they have cached. *)
  Definition beginning (cache : nat -> option V) (todo : nat -> list (uop V)) (s : store) : uconfig V :=
    (fun i => mkUser (mkSticky a (cache i)) None (todo i) [], s).

  (** Calls one at a time, in the [order] in which processes are named. *)
  Definition named (i : nat) (o : uop V) : sop V :=
    match o with UStick v => SStick i v | URead r => SRead i r | UClose => SClose i end.
  Definition drop_first (todo : nat -> list (uop V)) (i : nat) (j : nat) : list (uop V) :=
    if Nat.eqb j i then tl (todo j) else todo j.
  Fixpoint calls (todo : nat -> list (uop V)) (order : list nat) : list (sop V) :=
    match order with
    | [] => []
    | i :: r =>
        match todo i with
        | o :: _ => named i o :: calls (drop_first todo i) r
        | [] => calls todo r
        end
    end.
  (** What process [i] was told. *)
  Definition told (i : nat) (order : list nat) (outs : list (sout V)) : list (sout V) :=
    map snd (filter (fun p => Nat.eqb (fst p) i) (combine order outs)).

  (** The calls made one at a time in this [order], from value [v] at the
      address, explain all that can be seen at [c]: every process has been told
      what it would be told then, except perhaps for its last call, which it
      is still in; and the address has the value that would be there. *)
  Definition explains (v : V) (cache : nat -> option V) (todo : nat -> list (uop V)) (order : list nat) (c : uconfig V) : Prop :=
    let '(outs, b) := board_run enc (mkBoard (Some v) cache) (calls todo order) in
    List.length outs = List.length order /\
    (exists w, b_shared b = Some w /\ on_board w (snd c)) /\
    forall i, let u := fst c i in
      told i order outs = u_results u \/
      (u_now u <> None /\ exists x, told i order outs = u_results u ++ [x]).

  (** Sticking and reading, of values that survive the codec and are not None. *)
  Definition ordinary_calls (l : list (uop V)) : Prop :=
    Forall (fun o => match o with UStick v => stable enc dec v /\ isnone v = false | URead _ => True | UClose => False end) l.

  (** Something one may be told when no value is refused: that it was stuck, or
      a value that was there, was cached, or is stuck by someone. *)
  Definition sane_answer (v : V) (cache : nat -> option V) (todo : nat -> list (uop V)) (x : sout V) : Prop :=
    match x with
    | YDone r => r = Ok tt
    | YRead None => False
    | YRead (Some w) => w = v \/ (exists i, cache i = Some w) \/ exists i, In (UStick w) (todo i)
    end.
End Register.
