(** What the properties C54-C56 of dynamic.py mean.  Definitions only. *)
From Verif Require Export Dyn_Model.

(** How many code objects there are among some constants. *)
Definition codes (l : list (option pcode)) : nat :=
  List.length (filter (fun o => match o with Some _ => true | None => false end) l).

Section Spec.
  Context {G KW V W : Type}.
  Context (none : V) (globals : G) (compiler : string -> res pcode) (trace : exn -> string * list frame).
  Context (run : @pyfun G -> list V -> KW -> eff W V).
  Notation dyn := (@dyn G).
  Notation error := (@error G).
  Notation op := (@op G KW V).
  Notation do_op := (do_op none globals compiler trace run).
  Notation load := (load globals compiler trace).

  Definition loaded (d : dyn) : bool := is_set (rd (func d)).
  Definition compiled (d : dyn) : bool := is_set (rd (code d)).
  Definition ok {A} (r : res A) : bool := match r with Ok _ => true | Exc _ => false end.

  (** The attributes that the methods of a Dynamic leave alone. *)
  Definition same_settings (d d' : dyn) : Prop :=
    source d' = source d /\ globals_ d' = globals_ d /\ optional d' = optional d /\ lazy d' = lazy d /\
    load_on_call d' = load_on_call d.

  (** ** Definitions *)

  (** The operation defined the function: a load or define that did not
      raise, or a call that had to load and could. *)
  Definition defines (o : op) (s : dyn * W) (y : res V) : bool :=
    match o with
    | OLoad _ | ODefine _ => ok y
    | OCall _ _ _ =>
        negb (loaded (fst s)) && match load_on_call (fst s) with FTrue => true | _ => false end &&
        ok (fst (load FFalse s))
    | _ => false
    end.
  Definition clears (o : op) (y : res V) : bool := match o with OUnload => ok y | _ => false end.
  (** Whether there was a definition after the last unload; [b] says what
      happened before. *)
  Fixpoint defined (l : list op) (s : dyn * W) (b : bool) : bool :=
    match l with
    | [] => b
    | o :: r =>
        let (y, s') := do_op o s in
        defined r s' (if clears o y then false else if defines o s y then true else b)
    end.

  (** Whether there ever was one. *)
  Fixpoint ever_defined (l : list op) (s : dyn * W) (b : bool) : bool :=
    match l with
    | [] => b
    | o :: r => let (y, s') := do_op o s in ever_defined r s' (b || defines o s y)
    end.

  (** The globals functions get. *)
  Definition globals_of (d : dyn) : G := match globals_ d with Some g => g | None => globals end.

  (** ** Errors *)

  Definition compile_error (e : exn) : error :=
    {| e_report := exc_report (fst (trace e)) (snd (trace e)); e_func := None; e_category := Compile |}.
  Definition call_error (f : pyfun) (e : exn) : error :=
    {| e_report := exc_report (fst (trace e)) (snd (trace e)); e_func := Some f; e_category := Call |}.

  (** Failures of compilation, and of optional calls. *)
  Definition compile_faults (d : dyn) (recompile : flag) : list error :=
    match recompile, compiled d with
    | FFalse, true => []
    | _, _ => match compile_source compiler (source d) with
              | Exc e => if is_Exception e then [compile_error e] else []
              | Ok _ => []
              end
    end.
  Definition load_faults (d : dyn) (reload : flag) : list error :=
    match reload, loaded d with FFalse, true => [] | _, _ => compile_faults d reload end.
  Definition is_optional (d : dyn) (o : flag) : bool :=
    match (match o with FNone => optional d | _ => o end) with FFalse => false | _ => true end.
  Definition run_faults (d : dyn) (w : W) (o : flag) (args : list V) (kw : KW) : list error :=
    match rd (func d) with
    | Some f => if is_optional d o then
                  match fst (run f args kw w) with
                  | Exc e => if is_Exception e then [call_error f e] else []
                  | Ok _ => []
                  end
                else []
    | None => []
    end.
  Definition faults (o : op) (s : dyn * W) : list error :=
    let (d, w) := s in
    match o with
    | OLoad f => load_faults d f
    | OCompile f => compile_faults d f
    | OCall o args kw =>
        if loaded d then run_faults d w o args kw
        else match load_on_call d with
             | FTrue => load_faults d FFalse ++ run_faults (fst (snd (load FFalse s))) w o args kw
             | _ => []
             end
    | _ => []
    end.
  (** Those since the last unload; [acc] are those before the history. *)
  Fixpoint faults_since (l : list op) (s : dyn * W) (acc : list error) : list error :=
    match l with
    | [] => acc
    | o :: r => let (y, s') := do_op o s in faults_since r s' (if clears o y then [] else acc ++ faults o s)
    end.

  Definition is_call (e : error) : bool := match e_category e with Call => true | Compile => false end.
  Definition is_compile (e : error) : bool := match e_category e with Call => false | Compile => true end.

  (** What is left after unload: the settings. *)
  Definition blank (d d' : dyn) : Prop :=
    same_settings d d' /\ rd (code d') = None /\ rd (func d') = None /\ errors d' = [] /\
    call_fail d' = false /\ compile_fail d' = false.

  (** ** Dynamics as they are built *)

  (** A Dynamic that came out of its constructor or of from_function, in the
      world [w]. *)
  Inductive built : dyn * W -> Prop :=
  | built_init src g opt lzy loc w d w' :
      construct globals compiler trace src g opt lzy loc w = (Ok d, w') -> built (d, w')
  | built_from f f_call src g opt lzy loc w d w' :
      from_function globals compiler trace f f_call src g opt lzy loc w = (Ok d, w') -> built (d, w').
End Spec.
