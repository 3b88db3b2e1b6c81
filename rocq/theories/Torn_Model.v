(** Shared memory byte by byte: reading and writing the bytes of a block takes
    one turn for each byte, in any order, with other processes' turns in
    between.  Definitions only.

    implements.py:188 count.buf.tobytes(), 237 count.buf[:] = ..., 975, 991 and
    memutilz.py:27, codecs.py:95 copy a block of bytes; nothing makes that one
    step.  All else is as in Shm_Model.v, Conc_Model.v and Reg_Model.v. *)
From Verif Require Export Conc_Model Reg_Model.

(** The bytes copied so far, with their places. *)
Definition copied := list (nat * ascii).
Fixpoint byte_at (k : nat) (got : copied) : option ascii :=
  match got with [] => None | (j, c) :: r => if Nat.eqb j k then Some c else byte_at k r end.
(** Bytes [k], [k+1], ... of [n] bytes copied. *)
Fixpoint assemble (n k : nat) (got : copied) : bytes :=
  match n with
  | 0 => ""
  | S n => String (match byte_at k got with Some c => c | None => zero end) (assemble n (S k) got)
  end.
Fixpoint set_byte (k : nat) (c : ascii) (b : bytes) : bytes :=
  match b, k with
  | "", _ => ""
  | String _ r, 0 => String c r
  | String x r, S k => String x (set_byte k c r)
  end.

(** One turn of an operation of which [got] is done, copying byte [k] if bytes
    are copied.  Shm_Model.v's step says what happens otherwise. *)
Inductive copying (B : Type) :=
| Whole                                   (* not a matter of bytes *)
| Already                                 (* byte [k] was copied before, or does not exist *)
| Part (got : copied) (s : store)
| Last (r : res B) (s : store).
Arguments Whole {B}. Arguments Already {B}. Arguments Part {B}. Arguments Last {B}.

Definition copy {B} (o : op B) (got : copied) (k : nat) (s : store) : copying B :=
  match o in op B return copying B with
  | ORead i =>
      match mem s i with
      | Some (String _ _ as b) =>
          match String.get k b, byte_at k got with
          | Some c, None =>
              let got' := (k, c) :: got in
              if Nat.eqb (List.length got') (String.length b) then Last (Ok (assemble (String.length b) 0 got')) s else Part got' s
          | _, _ => Already
          end
      | _ => Whole
      end
  | OWrite i w =>
      match mem s i with
      | Some (String _ _ as b) =>
          if Nat.eqb (String.length w) (String.length b) then
            match String.get k w, byte_at k got with
            | Some c, None =>
                let got' := (k, c) :: got in
                let s' := {| names := names s; mem := upd_mem (mem s) i (set_byte k c b); next := next s |} in
                if Nat.eqb (List.length got') (String.length b) then Last (Ok tt) s' else Part got' s'
            | _, _ => Already
            end
          else Whole
      | _ => Whole
      end
  | _ => Whole
  end.

Definition byte_step {A} (p : prog A) (got : copied) (k : nat) (s : store) : option (prog A * copied * store) :=
  match p with
  | Do o kk =>
      match copy o got k s with
      | Whole => let '(r, s') := step o s in Some (kk r, [], s')
      | Already => Some (p, got, s)
      | Part got' s' => Some (p, got', s')
      | Last r s' => Some (kk r, [], s')
      end
  | _ => None
  end.

(** ** Users of one lock: as Conc_Model's [stage_step], [go]. *)
Definition byte_stage (fuel : nat) (st : stage) (got : copied) (k : nat) (s : store) : option (stage * copied * store * option Z) :=
  match st with
  | Starting (Do _ _ as p) => match byte_step p got k s with Some (p', g, s') => Some (Starting p', g, s', None) | None => None end
  | Entering (Do _ _ as p) => match byte_step p got k s with Some (p', g, s') => Some (Entering p', g, s', None) | None => None end
  | Waiting (Do _ _ as p) => match byte_step p got k s with Some (p', g, s') => Some (Waiting p', g, s', None) | None => None end
  | Leaving (Do _ _ as p) r => match byte_step p got k s with Some (p', g, s') => Some (Leaving p' r, g, s', None) | None => None end
  | _ => match stage_step fuel st s with Some (st', s', o) => Some (st', [], s', o) | None => None end
  end.

Record bconfig := mkBConfig { b_procs : nat -> stage * copied; b_mem : store; b_served : list Z }.
Definition set_bproc (f : nat -> stage * copied) (i : nat) (x : stage * copied) (j : nat) : stage * copied :=
  if Nat.eqb j i then x else f j.
(** Process [i] has a turn; [k] says which byte it copies. *)
Definition bgo (fuel : nat) (i k : nat) (c : bconfig) : bconfig :=
  match byte_stage fuel (fst (b_procs c i)) (snd (b_procs c i)) k (b_mem c) with
  | Some (st, g, s, o) =>
      mkBConfig (set_bproc (b_procs c) i (st, g)) s (match o with Some n => b_served c ++ [n] | None => b_served c end)
  | None => c
  end.
Definition b_start (name : string) (s : store) : bconfig := mkBConfig (fun _ => (Starting (lock_init name), [])) s [].

(** ** Users of Stickies: as Reg_Model's [user_step], [uturn]. *)
Section Users.
  Context {V : Type} (enc : V -> res bytes) (dec : bytes -> res V) (isnone : V -> bool).
  Definition byte_user (u : user V) (got : copied) (k : nat) (s : store) : user V * copied * store :=
    match u_now u with
    | Some (Do _ _ as p) =>
        match byte_step p got k s with
        | Some (p', g, s') => (mkUser (u_obj u) (Some p') (u_todo u) (u_results u), g, s')
        | None => (u, got, s)
        end
    | _ => let '(u', s') := user_step enc dec isnone u s in (u', [], s')
    end.
  Definition bconf := ((nat -> user V * copied) * store)%type.
  Definition buturn (i k : nat) (c : bconf) : bconf :=
    let '(u, g, s) := byte_user (fst (fst c i)) (snd (fst c i)) k (snd c) in
    ((fun j => if Nat.eqb j i then (u, g) else fst c j), s).
  Fixpoint buturns (sched : list (nat * nat)) (c : bconf) : bconf :=
    match sched with [] => c | (i, k) :: r => buturns r (buturn i k c) end.
End Users.
Arguments bconf : clear implicits.
