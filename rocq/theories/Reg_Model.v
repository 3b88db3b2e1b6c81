(** Several processes using Stickies at one address at once: each has an object
    and calls its methods one after another.  Definitions only.

    The methods are those of Pad_Model; processes take turns at the primitive
    operations of Shm_Model.v. *)
From Verif Require Export Pad_Spec Conc_Model.

Section Users.
  Context {V : Type} (enc : V -> res bytes) (dec : bytes -> res V) (isnone : V -> bool).

  (** Calls of implements.py:987-992 stick, 968-977 read, 979-985 close. *)
  Inductive uop := UStick (v : V) | URead (reread : bool) | UClose.
  Definition uop_prog (k : sticky V) (o : uop) : prog (sout V * sticky V) :=
    match o with
    | UStick v =>
        let! r := done (stick enc isnone k v) in
        Ret (match r with Ok k' => (YDone (Ok tt), k') | Exc e => (YDone (Exc e), k) end)
    | URead reread =>
        let! r := sticky_read dec isnone k reread in Ret (YRead (fst r), snd r)
    | UClose => let! r := done (sticky_close k) in Ret (YDone r, k)
    end.

  (** A process: its object, the call it is in, the calls it still has to make,
      and what the others have returned. *)
  Record user := mkUser {
    u_obj : sticky V;
    u_now : option (prog (sout V * sticky V));
    u_todo : list uop;
    u_results : list (sout V)
  }.

  (** One turn: a call begins, or does one operation, or returns.  A call that
      raises (a read that cannot decode) is the end of the process. *)
  Definition user_step (u : user) (s : store) : user * store :=
    match u_now u with
    | None =>
        match u_todo u with
        | [] => (u, s)
        | o :: r => (mkUser (u_obj u) (Some (uop_prog (u_obj u) o)) r (u_results u), s)
        end
    | Some (Ret (x, k)) => (mkUser k None (u_todo u) (u_results u ++ [x]), s)
    | Some p =>
        match prog_step p s with
        | Some (p', s') => (mkUser (u_obj u) (Some p') (u_todo u) (u_results u), s')
        | None => (u, s)
        end
    end.

  Definition uconfig := ((nat -> user) * store)%type.
  Definition set_user (us : nat -> user) (i : nat) (u : user) (j : nat) : user := if Nat.eqb j i then u else us j.
  Definition uturn (i : nat) (c : uconfig) : uconfig :=
    let '(u, s) := user_step (fst c i) (snd c) in (set_user (fst c) i u, s).
  Fixpoint uturns (sched : list nat) (c : uconfig) : uconfig :=
    match sched with [] => c | i :: r => uturns r (uturn i c) end.
End Users.
Arguments uop : clear implicits. Arguments user : clear implicits. Arguments uconfig : clear implicits.
