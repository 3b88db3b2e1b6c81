(** Model of dustgoggles/dynamic.py.  Definitions only.  (exc_report is in
    Track_Model, dontcare in Func_Model.)

    Simplifications: compile is a function of the source; the function does
    not use the Dynamic that holds it, and nobody writes to its attributes
    other than source, globals_, optional and load_on_call; signature and
    __name__ of functions do not fail; positional and keyword arguments are
    as in Func_Model.  (digsource and __str__ are in Dig_Model.) *)
From Verif Require Export Func_Model Track_Model.

(** The values that code compares by identity with True, False and None. *)
Inductive flag := FTrue | FFalse | FNone | FOther.

(** An attribute of an instance, which may be missing; then the attribute of
    the class, None, is read instead (dynamic.py:192). *)
Inductive attr (A : Type) := Unset | Here (o : option A).
Arguments Unset {A}.
Arguments Here {A} o.
Definition rd {A} (a : attr A) : option A := match a with Unset => None | Here o => o end.
Definition is_set {A} (o : option A) : bool := match o with Some _ => true | None => false end.

(** Code objects: an identity, co_name, whether they have free variables, and
    co_consts, with None for constants that are not code. *)
Inductive pcode := PCode (n : N) (name : string) (closure : bool) (consts : list (option pcode)).
Definition c_name (c : pcode) : string := match c with PCode _ n _ _ => n end.
Definition c_closure (c : pcode) : bool := match c with PCode _ _ b _ => b end.
Definition c_consts (c : pcode) : list (option pcode) := match c with PCode _ _ _ l => l end.

(** dynamic.py:37-38 get_codechild; cytoolz.nth. *)
Definition get_codechild (c : pcode) (ix : Z) : res pcode :=
  if (ix <? 0)%Z then Exc ValueError
  else match nth_error (flat_map (fun o => match o with Some c => [c] | None => [] end) (c_consts c)) (Z.to_nat ix) with
       | Some c => Ok c
       | None => Exc StopIteration
       end.

Section Dynamic.
  (** Dictionaries of globals, keyword arguments, values, the world. *)
  Context {G KW V W : Type}.
  Context (none : V).
  (** The module's own globals. *)
  Context (globals : G).
  (** The builtin [compile(source, "", "exec")]. *)
  Context (compiler : string -> res pcode).
  (** [f"{type(ex)}: {ex}"] and the traceback of an exception. *)
  Context (trace : exn -> string * list frame).

  (** Functions: made from code and globals, or given to from_function with
      their __name__, __code__ and __globals__. *)
  Inductive pyfun := Made (c : pcode) (g : G) | Given (n : N) (name : string) (c : pcode) (g : G).
  Definition fun_name (f : pyfun) : string := match f with Made c _ => c_name c | Given _ n _ _ => n end.
  (** Calling one. *)
  Context (run : pyfun -> list V -> KW -> eff W V).

  (** dynamic.py:48-49 compile_source. *)
  Definition compile_source (source : option string) : res pcode :=
    match source with
    | None => Exc TypeError
    | Some s => c <- compiler s ;; get_codechild c 0
    end.

  (** dynamic.py:52-54 define. *)
  Definition define (c : option pcode) (g : option G) : res pyfun :=
    let g := match g with Some g => g | None => globals end in
    match c with
    | None => Exc TypeError
    | Some c => if c_closure c then Exc TypeError else Ok (Made c g)
    end.

  (** ** dynamic.py:80-192 Dynamic *)

  Inductive category := Compile | Call.
  Record error := { e_report : dict mval; e_func : option pyfun; e_category : category }.
  (** __signature__: the empty one of the class, None, or that of a function. *)
  Inductive sigval := SigEmpty | SigNone | SigOf (f : pyfun).

  Record dyn := {
    source : option string;
    globals_ : option G;
    code : attr pcode;
    func : attr pyfun;
    errors : list error;
    optional : flag;
    lazy : flag;
    load_on_call : flag;
    call_fail : bool;
    compile_fail : bool;
    dname : string;
    dsig : sigval
  }.

  Definition set_source d x := {| source := x; globals_ := globals_ d; code := code d; func := func d; errors := errors d;
    optional := optional d; lazy := lazy d; load_on_call := load_on_call d; call_fail := call_fail d;
    compile_fail := compile_fail d; dname := dname d; dsig := dsig d |}.
  Definition set_globals d x := {| source := source d; globals_ := x; code := code d; func := func d; errors := errors d;
    optional := optional d; lazy := lazy d; load_on_call := load_on_call d; call_fail := call_fail d;
    compile_fail := compile_fail d; dname := dname d; dsig := dsig d |}.
  Definition set_optional d x := {| source := source d; globals_ := globals_ d; code := code d; func := func d;
    errors := errors d; optional := x; lazy := lazy d; load_on_call := load_on_call d; call_fail := call_fail d;
    compile_fail := compile_fail d; dname := dname d; dsig := dsig d |}.
  Definition set_load_on_call d x := {| source := source d; globals_ := globals_ d; code := code d; func := func d;
    errors := errors d; optional := optional d; lazy := lazy d; load_on_call := x; call_fail := call_fail d;
    compile_fail := compile_fail d; dname := dname d; dsig := dsig d |}.
  Definition set_code d x := {| source := source d; globals_ := globals_ d; code := x; func := func d;
    errors := errors d; optional := optional d; lazy := lazy d; load_on_call := load_on_call d; call_fail := call_fail d;
    compile_fail := compile_fail d; dname := dname d; dsig := dsig d |}.
  Definition set_func d x n s := {| source := source d; globals_ := globals_ d; code := code d; func := x;
    errors := errors d; optional := optional d; lazy := lazy d; load_on_call := load_on_call d; call_fail := call_fail d;
    compile_fail := compile_fail d; dname := n; dsig := s |}.
  Definition set_errors d x cf kf := {| source := source d; globals_ := globals_ d; code := code d; func := func d;
    errors := x; optional := optional d; lazy := lazy d; load_on_call := load_on_call d; call_fail := cf;
    compile_fail := kf; dname := dname d; dsig := dsig d |}.

  Definition st : Type := dyn * W.
  Definition get : eff st dyn := fun s => (Ok (fst s), s).
  Definition put (d : dyn) : eff st unit := fun s => (Ok tt, (d, snd s)).
  Definition lift {A} (m : eff W A) : eff st A := fun s => let (r, w) := m (snd s) in (r, (fst s, w)).
  Definition report_of (e : exn) : dict mval := exc_report (fst (trace e)) (snd (trace e)).

  (** dynamic.py:118-127 Dynamic.compile_source. *)
  Definition compile_source_method (recompile : flag) : eff st unit :=
    d <~ get ;;
    match recompile, is_set (rd (code d)) with
    | FFalse, true => eraise AlreadyLoadedError
    | _, _ =>
        match compile_source (source d) with
        | Ok c => put (set_code d (Here (Some c)))
        | Exc e =>
            match e with
            | KeyboardInterrupt => eraise e
            | _ =>
                if is_Exception e then
                  put (set_errors d (errors d ++ [{| e_report := report_of e; e_func := None; e_category := Compile |}])
                         (call_fail d) true)
                else eraise e
            end
        end
    end.

  (** dynamic.py:129-134 Dynamic.define. *)
  Definition define_method (redefine : flag) : eff st unit :=
    d <~ get ;;
    match is_set (rd (func d)), redefine with
    | true, FFalse | true, FNone | true, FOther => eraise AlreadyLoadedError
    | _, _ =>
        f <~ eof (define (rd (code d)) (globals_ d)) ;;
        put (set_func d (Here (Some f)) (fun_name f) (SigOf f))
    end.

  (** dynamic.py:112-116 load. *)
  Definition load (reload : flag) : eff st unit :=
    d <~ get ;;
    match reload, is_set (rd (func d)) with
    | FFalse, true => eraise AlreadyLoadedError
    | _, _ => u <~ compile_source_method reload ;; define_method reload
    end.

  (** dynamic.py:136-141 unload: [del] of an attribute that the instance does
      not have raises AttributeError. *)
  Definition unload : eff st unit :=
    d <~ get ;;
    match code d with
    | Unset => eraise AttributeError
    | Here _ =>
        u <~ put (set_code d Unset) ;;
        match func d with
        | Unset => eraise AttributeError
        | Here _ =>
            put (set_errors (set_func (set_code d (Here None)) (Here None) "Dynamic" SigNone) [] false false)
        end
    end.

  (** dynamic.py:143-148 _maybe_load_on_call. *)
  Definition _maybe_load_on_call (reload : flag) : eff st unit :=
    d <~ get ;;
    if is_set (rd (func d)) then eret tt
    else match load_on_call d with
         | FTrue => load reload
         | _ => eraise UnreadyError
         end.

  (** [self.func( *args, **kwargs)] *)
  Definition call_func (args : list V) (kw : KW) : eff st V :=
    d <~ get ;;
    match rd (func d) with
    | Some f => lift (run f args kw)
    | None => eraise TypeError
    end.

  (** dynamic.py:160-162, the finally clause. *)
  Definition finally_call_fail (s : st) : st :=
    let d := fst s in
    match rev (errors d) with
    | e :: _ => match e_category e with
                | Call => (set_errors d (errors d) true (compile_fail d), snd s)
                | Compile => s
                end
    | [] => s
    end.

  (** dynamic.py:150-162 __call__. *)
  Definition call (_optional : flag) (args : list V) (kw : KW) : eff st V :=
    u <~ _maybe_load_on_call FFalse ;;
    d <~ get ;;
    match match _optional with FNone => optional d | o => o end with
    | FFalse => call_func args kw
    | _ => fun s =>
        let (r, s') :=
          dontcare none call_func
            (fun e => eret (report_of e))
            (fun r => d <~ get ;;
               put (set_errors d (errors d ++ [{| e_report := r; e_func := rd (func d); e_category := Call |}])
                      (call_fail d) (compile_fail d)))
            args kw s
        in (r, finally_call_fail s')
    end.

  (** dynamic.py:85-106 __init__, on the attributes set by from_function, if
      any. *)
  Definition init (code : attr pcode) (func : attr pyfun) (name : string) (sig : sigval)
      (src : option string) (g : option G) (opt lzy loc : flag) : eff W dyn :=
    let d := {| source := src; globals_ := g; code := code; func := func; errors := []; optional := opt;
                lazy := lzy; load_on_call := loc; call_fail := false; compile_fail := false;
                dname := name; dsig := sig |} in
    fun w =>
      match lzy with
      | FFalse =>
          match load FFalse (d, w) with
          | (Ok _, (d', w')) => (Ok d', w')
          | (Exc AlreadyLoadedError, (d', w')) => (Ok d', w')
          | (Exc e, (_, w')) => (Exc e, w')
          end
      | _ => (Ok d, w)
      end.
  Definition construct := init Unset Unset "<unloaded Dynamic>" SigEmpty.

  (** A callable given to from_function: [getsource] of it, and the function
      it is, unless it lacks __code__ or __globals__. *)
  Record callable := { g_source : res string; g_fun : option (N * string * pcode * G) }.

  (** dynamic.py:172-189 from_function, of a callable and its __call__. *)
  Definition from_function (f f_call : callable)
      (src : option string) (g : option G) (opt lzy loc : flag) : eff W dyn :=
    match match g_source f with Exc TypeError => (f_call, g_source f_call) | s => (f, s) end with
    | (_, Exc e) => eraise e
    | (f, Ok _) =>
        match g_fun f with
        | None => eraise AttributeError
        | Some (n, name, c, gl) =>
            let h := Given n name c gl in
            init (Here (Some c)) (Here (Some h)) name (SigOf h) src g opt lzy loc
        end
    end.

  (** ** Histories *)

  Inductive op :=
  | OLoad (reload : flag) | OCompile (recompile : flag) | ODefine (redefine : flag) | OUnload
  | OCall (opt : flag) (args : list V) (kw : KW)
  | OSource (s : option string) | OGlobals (g : option G) | OOptional (f : flag) | OLoadOnCall (f : flag).

  (** The value of a call, and None for everything else. *)
  Definition do_op (o : op) : eff st V :=
    match o with
    | OLoad f => u <~ load f ;; eret none
    | OCompile f => u <~ compile_source_method f ;; eret none
    | ODefine f => u <~ define_method f ;; eret none
    | OUnload => u <~ unload ;; eret none
    | OCall f args kw => call f args kw
    | OSource x => d <~ get ;; u <~ put (set_source d x) ;; eret none
    | OGlobals x => d <~ get ;; u <~ put (set_globals d x) ;; eret none
    | OOptional x => d <~ get ;; u <~ put (set_optional d x) ;; eret none
    | OLoadOnCall x => d <~ get ;; u <~ put (set_load_on_call d x) ;; eret none
    end.
  Fixpoint do_ops (l : list op) (s : st) : list (res V) * st :=
    match l with
    | [] => ([], s)
    | o :: r => let (y, s') := do_op o s in let (ys, s'') := do_ops r s' in (y :: ys, s'')
    end.
End Dynamic.
