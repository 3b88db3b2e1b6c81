(** Model of dustgoggles/composition.py.  Definitions only.

    Simplifications: steps, pipes and writers are arbitrary effectful
    functions on the world (lists, dictionaries, trackers and anything else),
    but do not call methods of the composition they belong to; mappings given
    to the constructor are not shared with anything else; the values of
    [sends] are lists; pointers are None, ints, strings and other hashables
    (no slices); special_kwargs, which the base class ignores, are dropped. *)
From Verif Require Export Eff_Model Track_Model.

(** structures.py:106-111 enumerate_as_mapping, on None, a sequence, a
    mapping. *)
Inductive source (A : Type) := SNone | SSeq (l : list A) | SMap (d : dict A).
Arguments SNone {A}.
Arguments SSeq {A} l.
Arguments SMap {A} d.
Fixpoint number_from {A} (i : Z) (l : list A) : dict A :=
  match l with [] => [] | x :: r => (KInt i, x) :: number_from (i + 1) r end.
Definition as_mapping {A} (s : source A) : dict A :=
  match s with SNone => [] | SSeq l => dict_of (number_from 0 l) | SMap d => d end.

Section Composition.
  Context {V W : Type}.
  (** Python's None. *)
  Context (none : V).
  (** [f"{type(ex)}: {ex}"] and the traceback of an exception. *)
  Context (trace : exn -> string * list frame).

  (** ** The world *)

  Inductive obj := OList (l : list V) | ODict (d : dict V).
  (** Lists and dictionaries by reference, trackers by reference, the rest. *)
  Record world := { objs : list obj; trks : list tracker; user : W }.
  Definition act (A : Type) := eff world A.
  (** A call with positional and keyword arguments. *)
  Definition func := list V -> dict V -> act V.

  Definition with_objs w o := {| objs := o; trks := trks w; user := user w |}.
  Definition with_trks w t := {| objs := objs w; trks := t; user := user w |}.
  Definition alloc (o : obj) : act nat := fun w => (Ok (List.length (objs w)), with_objs w (objs w ++ [o])).

  (** ** Steps, sends, compositions *)

  (** A step with an attribute "func" (functools.partial, Dynamic, ...), and
      its attributes "args" and "keywords" if it has them. *)
  Record part := { p_args : option (list V); p_keywords : option (dict V); p_func : func }.
  Inductive step := Plain (name : option string) (str : string) (f : func)
                  | Part (name : option string) (str : string) (p : part).
  Definition s_name (s : step) := match s with Plain n _ _ | Part n _ _ => n end.
  Definition s_str (s : step) := match s with Plain _ s _ | Part _ s _ => s end.

  (** Send targets: none, a str or int (a step name), a list or dict, an
      object with a write method, anything else. *)
  Inductive target := TNone | TStep (k : key) | TRef (r : nat) | TWriter (w : V -> act unit) | TOther.
  Record send := { pipe : option (V -> act V); starget : target; pointer : key }.

  (** A tracker: a TrivialTracker or a Tracker. *)
  Inductive tkind := Trivial | Real (i : nat).

  Record comp := {
    steps : dict step;
    sends : dict (list send);
    inserts : dict (dict V);
    ctracker : option tkind;
    optional : bool;
    cname : string;
    captures : option (dict nat)
  }.
  Definition st : Type := comp * world.

  Definition with_steps c s := {| steps := s; sends := sends c; inserts := inserts c; ctracker := ctracker c;
    optional := optional c; cname := cname c; captures := captures c |}.
  Definition with_sends c s := {| steps := steps c; sends := s; inserts := inserts c; ctracker := ctracker c;
    optional := optional c; cname := cname c; captures := captures c |}.
  Definition with_inserts c s := {| steps := steps c; sends := sends c; inserts := s; ctracker := ctracker c;
    optional := optional c; cname := cname c; captures := captures c |}.
  Definition with_tracker c s := {| steps := steps c; sends := sends c; inserts := inserts c; ctracker := s;
    optional := optional c; cname := cname c; captures := captures c |}.
  Definition with_captures c s := {| steps := steps c; sends := sends c; inserts := inserts c; ctracker := ctracker c;
    optional := optional c; cname := cname c; captures := s |}.

  Definition lift {A} (m : act A) : eff st A := fun s => let (r, w) := m (snd s) in (r, (fst s, w)).
  Definition get : eff st comp := fun s => (Ok (fst s), s).
  Definition put (c : comp) : eff st unit := fun s => (Ok tt, (c, snd s)).

  (** ** Trackers *)

  (** A call of a method of a tracker; those of TrivialTracker do nothing
      (tracker.py:10-24). *)
  Definition on_trk (k : tkind) (f : tracker -> tracker) : act unit :=
    fun w => match k with
             | Trivial => (Ok tt, w)
             | Real i => match nth_error (trks w) i with
                         | Some t => (Ok tt, with_trks w (set_nth (trks w) i (f t)))
                         | None => (Ok tt, w)
                         end
             end.
  (** tracker.py:51-54: the name a step is tracked under. *)
  Definition target_of (s : step) : string := match s_name s with Some n => n | None => s_str s end.

  (** composition.py:291-296 _track_factory. *)
  Definition _track_factory (k : tkind) (name : key) (s : step) : V -> act V :=
    fun _ => u <~ on_trk k (track (target_of s) "track" 294 [(KStr "step", MAtom name)]) ;; eret none.

  (** ** Building *)

  (** composition.py:139-159 add_send. *)
  Definition add_send (name : key) (p : option (V -> act V)) (t : target) (ptr : key) : eff st unit :=
    match t, p with
    | TNone, None => eraise ValueError
    | _, _ =>
        c <~ get ;;
        let old := match dget (sends c) name with Some l => l | None => [] end in
        put (with_sends c (dset (sends c) name (old ++ [{| pipe := p; starget := t; pointer := ptr |}])))
    end.

  (** composition.py:161-177 add_insert. *)
  Definition add_insert (name k : key) (v : V) : eff st unit :=
    c <~ get ;;
    let old := match dget (inserts c) name with Some d => d | None => [] end in
    put (with_inserts c (dset (inserts c) name (dset old k v))).

  (** composition.py:77-83 _add_track_send. *)
  Definition _add_track_send (name : key) : eff st unit :=
    c <~ get ;;
    match ctracker c with
    | None => eret tt
    | Some k =>
        match dget (steps c) name with
        | None => eraise KeyError
        | Some s => add_send name (Some (_track_factory k name s)) TNone KNone
        end
    end.

  (** composition.py:73-75 _add_track_sends. *)
  Definition _add_track_sends : eff st unit :=
    c <~ get ;; efoldM (fun _ k => _add_track_send k) (dkeys (steps c)) tt.

  (** cytoolz.identity *)
  Definition identity : step :=
    Plain (Some "identity") "<function identity>"
      (fun args kw => match args, kw with [x], [] => eret x | _, _ => eraise TypeError end).

  (** composition.py:21-49 __init__: the composition, and the world after
      assigning tracker.name. *)
  Definition construct (ss : source step) (sn : source (list send)) (ins : source (dict V))
      (name : option string) (t : option tkind) (opt : bool) (w : world) : res unit * st :=
    let nm := match name with Some n => n | None => "untitled Composition" end in
    let w' := match t with
              | Some k => snd (on_trk k (fun t => upd_name t (KStr nm)) w)
              | None => w
              end in
    let ss := match ss with SNone => SSeq [identity] | _ => ss end in
    let c := {| steps := as_mapping ss; sends := as_mapping sn; inserts := as_mapping ins;
                ctracker := t; optional := opt; cname := nm; captures := None |} in
    match t with
    | Some _ => _add_track_sends (c, w')
    | None => (Ok tt, (c, w'))
    end.

  (** composition.py:51-55 track, with Tracker() (tracker.py:30-43). *)
  Definition start_tracking (outdir now : string) : eff st unit :=
    c <~ get ;;
    match ctracker c with
    | Some _ => eret tt
    | None =>
        i <~ lift (fun w => (Ok (List.length (trks w)),
                             with_trks w (trks w ++ [new_tracker KNone "" outdir now]))) ;;
        u <~ put (with_tracker c (Some (Real i))) ;;
        _add_track_sends
    end.

  (** composition.py:57-60 _check_for_step. *)
  Definition _check_for_step (c : comp) (name : key) : res step :=
    match dget (steps c) name with Some s => Ok s | None => Exc KeyError end.

  (** composition.py:62-71 add_step. *)
  Definition add_step (s : step) (name : key) : eff st unit :=
    c <~ get ;;
    let name := match name with KNone => KInt (Z.of_nat (List.length (steps c)) + 1) | _ => name end in
    u <~ put (with_steps c (dset (steps c) name s)) ;;
    _add_track_send name.

  (** composition.py:85-86 reindex. *)
  Definition reindex : eff st unit :=
    c <~ get ;; put (with_steps c (dict_of (number_from 0 (dvalues (steps c))))).

  (** composition.py:88-102 index, insert_index, send_index, function_names. *)
  Definition index (c : comp) : list key := dkeys (steps c).
  Definition insert_index (c : comp) : list key := dkeys (inserts c).
  Definition send_index (c : comp) : list key := dkeys (sends c).
  Definition function_names (c : comp) : res (list string) :=
    mapM (fun s => match s_name s with Some n => Ok n | None => Exc AttributeError end) (dvalues (steps c)).

  (** composition.py:129-137 add_capture. *)
  Definition add_capture (name : key) (t : option nat) : eff st unit :=
    r <~ match t with Some r => eret r | None => lift (alloc (OList [none])) end ;;
    add_send name None (TRef r) (KInt 0).

  (** composition.py:123-127 add_captures. *)
  Definition add_captures : eff st unit :=
    c <~ get ;;
    refs <~ emapM (fun k => r <~ lift (alloc (OList [none])) ;; eret (k, r)) (dkeys (steps c)) ;;
    let caps := dict_of refs in
    u <~ put (with_captures c (Some caps)) ;;
    efoldM (fun _ kr => add_capture (fst kr) (Some (snd kr))) caps tt.

  (** ** Running *)

  (** [l[i] = x] *)
  Definition list_set (l : list V) (i : Z) (x : V) : res (list V) :=
    let n := Z.of_nat (List.length l) in
    let j := if (i <? 0)%Z then (i + n)%Z else i in
    if ((0 <=? j) && (j <? n))%Z then Ok (set_nth l (Z.to_nat j) x) else Exc IndexError.

  (** The int a key is, if it is one. *)
  Definition kint (k : key) : option Z :=
    match k with KInt z => Some z | KBool true => Some 1%Z | KBool false => Some 0%Z | _ => None end.

  (** composition.py:183-194 place_into. *)
  Definition place_into (x : V) (t : target) (ptr : key) : eff st unit :=
    match t with
    | TStep k => add_insert k ptr x
    | TRef r =>
        lift (fun w =>
          match nth_error (objs w) r with
          | Some (OList l) =>
              match ptr with
              | KNone => (Ok tt, with_objs w (set_nth (objs w) r (OList (l ++ [x]))))
              | _ =>
                  match kint ptr with
                  | None => (Exc TypeError, w)
                  | Some i =>
                      match list_set l i x with
                      | Ok l' => (Ok tt, with_objs w (set_nth (objs w) r (OList l')))
                      | Exc e => (Exc e, w)
                      end
                  end
              end
          | Some (ODict d) => (Ok tt, with_objs w (set_nth (objs w) r (ODict (dset d ptr x))))
          | None => (Ok tt, w)
          end)
    | TWriter f => lift (f x)
    | TNone | TOther => eret tt
    end.

  (** composition.py:104-121 _perform_sends: one send, all of them. *)
  Definition perform_send (state : V) (s : send) : eff st unit :=
    match starget s with
    | TNone =>
        match pipe s with
        | None => eret tt
        | Some p => y <~ lift (p state) ;; eret tt
        end
    | t =>
        match pipe s with
        | None => place_into state t (pointer s)
        | Some p => y <~ lift (p state) ;; place_into y t (pointer s)
        end
    end.
  Definition _perform_sends (name : key) (state : V) : eff st unit :=
    c <~ get ;;
    match dget (sends c) name with
    | None => eret tt
    | Some buses => efoldM (fun _ s => perform_send state s) buses tt
    end.

  (** [sorted] on int keys. *)
  Definition kz (k : key) : Z := match kint k with Some z => z | None => 0%Z end.
  Fixpoint insert_key (k : key) (l : list key) : list key :=
    match l with
    | [] => [k]
    | x :: r => if (kz k <=? kz x)%Z then k :: l else x :: insert_key k r
    end.
  Definition sort_keys (l : list key) : list key := fold_right insert_key [] l.

  (** [first(filter(lambda i: i - 1 not in args.keys(), naturals())) - 1]:
      the search ends after at most len(args) + 1 numbers. *)
  Fixpoint opening (fuel : nat) (i : Z) (args : dict V) : Z :=
    match fuel with
    | O => i
    | S f => if dhas args (KInt i) then opening f (i + 1) args else i
    end.

  (** composition.py:196-204 _flow_signal. *)
  Definition _flow_signal (state : V) (args : dict V) : res (list V) :=
    let args' := dset args (KInt (opening (List.length args) 0 args)) state in
    mapM (fun k => match dget args' k with Some v => Ok v | None => Exc KeyError end) (sort_keys (dkeys args')).

  (** composition.py:206-215 _call_partial_step. *)
  Definition _call_partial_step (state : V) (p : part) (args kwargs : dict V) : act V :=
    let args := match p_args p with
                | Some a => dupdate (dict_of (number_from 0 a)) args
                | None => args
                end in
    let kwargs := match p_keywords p with Some k => dupdate k kwargs | None => kwargs end in
    if Nat.eqb (List.length args) 0 then p_func p [state] kwargs
    else l <~ eof (_flow_signal state args) ;; p_func p l kwargs.

  (** composition.py:217-228 call_step. *)
  Definition call_step (c : comp) (name : key) (state : V) : act V :=
    match dget (steps c) name with
    | None => eraise KeyError
    | Some s =>
        let (args, kwargs) :=
          match dget (inserts c) name with
          | None => ([], [])
          | Some d => (keyfilter is_int d, keyfilter is_str d)
          end in
        match s with
        | Part _ _ p => _call_partial_step state p args kwargs
        | Plain _ _ f =>
            if Nat.eqb (List.length args) 0 then f [state] kwargs
            else l <~ eof (_flow_signal state args) ;; f l kwargs
        end
    end.

  (** composition.py:230-234 _do_step. *)
  Definition _do_step (name : key) (state : V) : eff st V :=
    c <~ get ;;
    state' <~ lift (call_step c name state) ;;
    u <~ _perform_sends name state' ;;
    eret state'.

  (** composition.py:236-241 itercall, a generator: the names still to come
      and the state; [next] yields a value or ends. *)
  (** A StopIteration that leaves the body of a generator becomes a
      RuntimeError (PEP 479). *)
  Definition from_body (e : exn) : exn := match e with StopIteration => RuntimeError | _ => e end.
  Record gen := { todo : list key; gstate : V }.
  Definition itercall (c : comp) (signal : V) : gen := {| todo := dkeys (steps c); gstate := signal |}.
  Definition gnext (g : gen) : eff st (option (V * gen)) :=
    match todo g with
    | [] => eret None
    | k :: r => y <~ ecatch (_do_step k (gstate g)) (fun e => eraise (from_body e)) ;;
                eret (Some (y, {| todo := r; gstate := y |}))
    end.

  (** Everything a generator yields, and the exception it ends with, if any. *)
  Fixpoint exhaust (ks : list key) (x : V) (s : st) : list V * option exn * st :=
    match ks with
    | [] => ([], None, s)
    | k :: r =>
        match _do_step k x s with
        | (Ok y, s') => let '(ys, e, s'') := exhaust r y s' in (y :: ys, e, s'')
        | (Exc e, s') => ([], Some (from_body e), s')
        end
    end.

  (** composition.py:243-260 execute.  [step_ix] is one less than the number
      of values yielded. *)
  Definition execute (signal : V) : eff st V :=
    fun s =>
      let g := itercall (fst s) signal in
      let '(ys, e, s') := exhaust (todo g) (gstate g) s in
      match e with
      | None => (Ok (last ys none), s')
      | Some ex =>
          if is_Exception ex then
            let step_ix := (Z.of_nat (List.length ys) - 1)%Z in
            let c := fst s' in
            match
              match ctracker c with
              | None => (Ok tt, s')
              | Some k =>
                  (n <~ eof match nth_error (dkeys (steps c)) (Z.to_nat (step_ix + 1)) with
                            | Some n => Ok n
                            | None => Exc IndexError
                            end ;;
                   f <~ eof (_check_for_step c n) ;;
                   lift (on_trk k (track (target_of f) "execute" 254
                                     (exc_report (fst (trace ex)) (snd (trace ex)))))) s'
              end
            with
            | (Exc e', s'') => (Exc e', s'')
            | (Ok _, s'') => if optional c then (Ok none, s'') else (Exc ex, s'')
            end
          else (Exc ex, s')
      end.

  (** A history of executions, each with its own signal. *)
  Fixpoint executions (xs : list V) (s : st) : list (res V) * st :=
    match xs with
    | [] => ([], s)
    | x :: r => let (y, s') := execute x s in let (ys, s'') := executions r s' in (y :: ys, s'')
    end.
End Composition.
