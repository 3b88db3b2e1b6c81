(** Specification vocabulary for copying byte by byte. *)
From Verif Require Export Torn_Model Conc_Spec Reg_Spec Pickle_Model.

(** ** Locks *)

(** The same without the bytes under way; Conc_Spec's [inside], [entering],
    [orderly] and so on speak about this. *)
Definition without_bytes (f : bconfig) : config := mkConfig (fun i => fst (b_procs f i)) (b_mem f) (b_served f).

(** As [execution]; [n] counts how many have begun to enter. *)
Definition begins (c : config) (i : nat) : nat := match procs c i with Ready _ => 1 | _ => 0 end.
Inductive byte_execution (name : string) (fuel : nat) (R : config -> nat -> Prop) : nat -> bconfig -> bconfig -> Prop :=
| bexec_none f : byte_execution name fuel R 0 f f
| bexec_go n f f' i k : byte_execution name fuel R n f f' -> R (without_bytes f') i ->
    byte_execution name fuel R (begins (without_bytes f') i + n) f (bgo fuel i k f')
| bexec_env n f f' s : byte_execution name fuel R n f f' -> wf s ->
    (forall a, lock_names name a -> same_at (b_mem f') s a) ->
    byte_execution name fuel R n f (mkBConfig (b_procs f') s (b_served f')).

(** A schedule given by a list of turns. *)
Fixpoint bplay (fuel : nat) (sched : list (nat * nat)) (f : bconfig) : bconfig :=
  match sched with [] => f | (i, k) :: r => bplay fuel r (bgo fuel i k f) end.

(** ** Stickies *)
Section Register.
  Context {V : Type} (enc : V -> res bytes) (dec : bytes -> res V) (isnone : V -> bool).
  Variable a : string.

  (** As Reg_Spec's [moves], [happens] and [beginning]. *)
  Inductive byte_moves : bconf V -> bconf V -> Prop :=
  | bmoves_turn i k c : byte_moves c (buturn enc dec isnone i k c)
  | bmoves_else us s s' : wf s' -> same_at s s' a -> byte_moves (us, s) (us, s').
  Definition byte_happens (t : nat -> bconf V) (N : nat) : Prop := forall n, n < N -> byte_moves (t n) (t (S n)).
  Definition byte_beginning (cache : nat -> option V) (todo : nat -> list (uop V)) (s : store) : bconf V :=
    (fun i => (mkUser (mkSticky a (cache i)) None (todo i) [], []), s).
  (** Without the bytes under way. *)
  Definition view (c : bconf V) : uconfig V := (fun i => fst (fst c i), snd c).

  (** What was there and what is stuck. *)
  Definition written (v : V) (todo : nat -> list (uop V)) (w : V) : Prop := w = v \/ exists i, In (UStick w) (todo i).
  (** Every byte is a byte of the encoding of one of the values, at its place. *)
  Definition mixture (pool : V -> Prop) (b : bytes) : Prop :=
    forall k c, String.get k b = Some c ->
    exists w e, pool w /\ enc w = Ok e /\ String.length e = String.length b /\ String.get k e = Some c.
  (** The encodings as long as that of [v] are like it but for byte [p]. *)
  Definition one_byte (p : nat) (v : V) (pool : V -> Prop) : Prop :=
    exists b, enc v = Ok b /\ p < String.length b /\
    forall w e, pool w -> enc w = Ok e -> String.length e = String.length b -> forall k, k <> p -> String.get k e = String.get k b.
  (** What one may be told when bytes get mixed; [n] is the length of the block. *)
  Definition mixed_answer (n : nat) (pool : V -> Prop) (cache : nat -> option V) (x : sout V) : Prop :=
    match x with
    | YDone r => r = Ok tt \/ r = Exc ValueError
    | YRead (Some w) => pool w \/ (exists i, cache i = Some w) \/ exists b, String.length b = n /\ mixture pool b /\ dec b = Ok w
    | YRead None => exists b w, String.length b = n /\ mixture pool b /\ dec b = Ok w /\ isnone w = true
    end.
End Register.

(** ** Whole numbers, pickled (codecs.py:50-64) *)
Definition int_enc (limit : nat) (z : Z) : res bytes := pickle_encode limit (fun _ => None) (PInt z).
Definition int_dec (limit : nat) (b : bytes) : res Z :=
  match pickle_decode limit b with Ok (_, PInt z) => Ok z | Ok _ => Exc TypeError | Exc e => Exc e end.
