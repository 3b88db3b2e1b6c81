(** Specification of what debug=True may change. *)
From Verif Require Export Pad_Spec Debug_Model.

(** [m] does to the shared memory what [p] does and has the outcome of [p]; it
    adds lines to the log, none if [debug] is off. *)
Definition agrees {A} (debug : bool) (m : dprog A) (p : prog A) : Prop :=
  forall w s, exists new, (debug = false -> new = []) /\
    run (m w) s =
    match run p s with
    | (Some r, s') => (Some (Ok (w ++ new, r)), s')
    | (None, s') => (None, s')
    end.

(** The lock of [I]: nobody holds it, its counter is [c], and the first [n] slots
    after it are taken by markers that nobody will remove.  Slots up to [c]
    are past. *)
Definition littered (I : string) (c : Z) (n : nat) (s : store) : Prop :=
  (0 <= c)%Z /\
  (forall i, (c < i)%Z -> names s (marker_address I i) <> None <-> (i <= c + Z.of_nat n)%Z) /\
  (forall i, names s (lock_address I i) = None) /\
  ((names s (count_address I) = None /\ c = 0%Z) \/
   (content s (count_address I) = Some (le_digits 5 c) /\ (c < 256 ^ 5)%Z)).

(** One call after another, whatever each of them raises. *)
Fixpoint each {A B} (f : A -> dprog B) (l : list A) : dprog (list (res B)) :=
  match l with
  | [] => dret []
  | a :: r =>
      dtry (f a)
        (fun b => do! bs := each f r in dret (Ok b :: bs))
        (fun e => do! bs := each f r in dret (Exc e :: bs))
  end.

(** What can be seen of a Notepad object [p] are the entries [l]. *)
Definition shows {V} (K : string -> Prop) (dec : bytes -> res V) (isnone : V -> bool) (p : pad)
    (l : list (string * option V)) (s : store) : Prop :=
  run (np_keys p) s = (Some (Ok (map fst l)), s) /\
  forall k, pad_key K k -> run (np_getitem dec isnone p k) s = (Some (look isnone (value_of (ktext k) l)), s).

(** The Notepad object with prefix [P] whose index is in block [m]. *)
Definition pad_object (P : string) (m : N) (no_lockout : bool) : pad :=
  mkPad P (mkIndex (pad_index P) (mkHandle (pad_index P) m) no_lockout).

(** The log after lines saying [texts] (with the numbers of those that write
    them) are added to [w]. *)
Fixpoint stamped (here : nat -> string) (at_line : nat) (texts : list (string * string)) : list string :=
  match texts with
  | [] => []
  | (n, t) :: r => (here at_line ++ "," ++ n ++ "," ++ t)%string :: stamped here (S at_line) r
  end.
Definition logged (here : nat -> string) (w : list string) (texts : list (string * string)) : list string :=
  w ++ stamped here (List.length w) texts.

(** What slot [n] of a lock says on the way in and out. *)
Definition way_in (n : string) : list (string * string) :=
  [(n, "taking slot " ++ n); (n, "placed lock"); (n, "taking precedence")]%string.
Definition way_out (n : string) : list (string * string) :=
  [(n, "entering cleanup"); (n, "set floor to " ++ n); (n, "released lock"); (n, "released marker")]%string.

(** What is said when [k] goes on and off the list [ks]. *)
Definition add_text (ks : list string) (k : string) : string :=
  match position k ks with
  | Some i => k ++ " already in index at " ++ str_of_Z i
  | None => "set " ++ str_of_Z (Z.of_nat (List.length ks)) ++ " to " ++ k
  end%string.
Definition del_texts (ks : list string) (k : string) : list (string * string) :=
  match position k ks with
  | Some i =>
      let last := (Z.of_nat (List.length ks) - 1)%Z in
      [("", if (i =? last)%Z then "deleted block at position " ++ str_of_Z i
            else "overwrote block at position " ++ str_of_Z i ++ " with block at position " ++ str_of_Z last ++ " ");
       ("", "deleted " ++ k ++ " at index slot " ++ str_of_Z i ++ " and decremented index counter")]
  | None => []
  end%string.

(** [k] is the last slot before [n] where a lock is placed. *)
Definition nearest (I : string) (k n : Z) (s : store) : Prop :=
  names s (lock_address I k) <> None /\ forall i, (k < i < n)%Z -> names s (lock_address I i) = None.
(** What slot [n] says that gives up waiting for [k] after so many rounds. *)
Definition timed_out (n k : string) (rounds : nat) (reason : string) : list (string * string) :=
  [(n, "taking slot " ++ n); (n, "placed lock")]%string ++ repeat (n, k ++ " has precedence")%string rounds ++
  [(n, "failure (waiting timeout)"); (n, "crashing out: " ++ reason); (n, "released lock"); (n, "released marker")]%string.
