(** C54-C56: Dynamic (dynamic.py). *)
From Verif Require Export Dyn_Lemmas.

(** ** Sources for the examples: "good" defines f, "other" defines g, "empty"
    defines nothing, anything else is a SyntaxError *)

Definition code_f := PCode 1 "f" false [].
Definition code_g := PCode 2 "g" false [None].
Definition ex_compiler (s : string) : res pcode :=
  if String.eqb s "good" then Ok (PCode 0 "<module>" false [None; Some code_f; Some code_g])
  else if String.eqb s "other" then Ok (PCode 0 "<module>" false [Some code_g])
  else if String.eqb s "empty" then Ok (PCode 0 "<module>" false [None])
  else Exc SyntaxError.
(** The world counts calls; f adds one to its argument and fails on 0, g
    raises SystemExit; globals are numbers that functions add to results. *)
Definition ex_run (f : @pyfun Z) (args : list Z) (kw : unit) : eff nat Z :=
  fun n => (match f, args with
            | Made (PCode 1 _ _ _) g, [x] => if (x =? 0)%Z then Exc ValueError else Ok (x + 1 + g)%Z
            | Given _ _ _ g, [x] => Ok (x * g)%Z
            | Made (PCode 2 _ _ _) _, _ => Exc SystemExit
            | _, _ => Exc TypeError
            end, S n).
Definition ex_trace (e : exn) : string * list frame := ("error", []).
Definition ex_ops := do_ops (-1)%Z 0%Z ex_compiler ex_trace ex_run.
Definition ex_construct (src : string) (opt lzy loc : flag) : dyn * nat :=
  match construct (W := nat) 0%Z ex_compiler ex_trace (Some src) None opt lzy loc 0 with
  | (Ok d, w) => (d, w)
  | (Exc _, w) => ({| source := None; globals_ := None; code := Unset; func := Unset; errors := []; optional := FNone;
                      lazy := FNone; load_on_call := FNone; call_fail := false; compile_fail := false; dname := ""; dsig := SigNone |}, w)
  end.
Definition ex := ex_construct "good" FTrue FTrue FTrue.
Lemma ex_built : built 0%Z ex_compiler ex_trace ex.
Proof. apply (built_init _ _ _ (Some "good") None FTrue FTrue FTrue 0 (fst ex) 0). reflexivity. Qed.

(** ** C54 *)

(** A Dynamic has a function iff there was a definition after the last
    unload, whatever the history. *)
Theorem C54_history {G KW V W} (none : V) (globals : G) compiler trace (run : pyfun -> list V -> KW -> eff W V) s l :
  built globals compiler trace s ->
  loaded (fst (snd (do_ops none globals compiler trace run l s))) =
    defined none globals compiler trace run l s (loaded (fst s)).
Proof. exact (history_lemma none globals compiler trace run s l). Qed.
Print Assumptions C54_history.

(** Then its name and signature are those of the function. *)
Theorem C54_name {G KW V W} (none : V) (globals : G) compiler trace (run : pyfun -> list V -> KW -> eff W V) s l :
  built globals compiler trace s ->
  let d := fst (snd (do_ops none globals compiler trace run l s)) in
  match rd (func d) with
  | Some f => dsig d = SigOf f /\ dname d = fun_name f
  | None => dsig d = SigEmpty \/ dsig d = SigNone
  end.
Proof. exact (name_lemma none globals compiler trace run s l). Qed.
Print Assumptions C54_name.

(** Loading, defining or compiling twice raises and changes nothing. *)
Theorem C54_twice {G W} (globals : G) compiler trace (d : @dyn G) (w : W) f :
  (loaded d = true -> load globals compiler trace FFalse (d, w) = (Exc AlreadyLoadedError, (d, w))) /\
  (loaded d = true -> f <> FTrue -> define_method globals f (d, w) = (Exc AlreadyLoadedError, (d, w))) /\
  (compiled d = true -> compile_source_method compiler trace FFalse (d, w) = (Exc AlreadyLoadedError, (d, w))) /\
  (compiled d = true -> load globals compiler trace FFalse (d, w) = (Exc AlreadyLoadedError, (d, w))).
Proof. exact (twice_lemma globals compiler trace d w f). Qed.
Print Assumptions C54_twice.

(** What a load does, when it works ... *)
Theorem C54_load {G W} (globals : G) compiler trace f (d : @dyn G) (w : W) u d' w' :
  load globals compiler trace f (d, w) = (Ok u, (d', w')) ->
  w' = w /\ same_settings d d' /\ (loaded d = true -> f = FTrue) /\
  exists c, rd (code d') = Some c /\ rd (func d') = Some (Made c (globals_of globals d)) /\
    dname d' = c_name c /\ dsig d' = SigOf (Made c (globals_of globals d)) /\
    (compile_source compiler (source d) = Ok c \/
     (exists e, compile_source compiler (source d) = Exc e /\ is_Exception e = true) /\ rd (code d) = Some c).
Proof. exact (load_lemma globals compiler trace f d w u d' w'). Qed.
Print Assumptions C54_load.
(** ... as it does for source that compiles ... *)
Theorem C54_load_works {G W} (globals : G) compiler trace f (d : @dyn G) (w : W) c :
  loaded d = false -> compiled d = false -> compile_source compiler (source d) = Ok c -> c_closure c = false ->
  exists d', load globals compiler trace f (d, w) = (Ok tt, (d', w)) /\ rd (func d') = Some (Made c (globals_of globals d)).
Proof. exact (load_works globals compiler trace f d w c). Qed.
Print Assumptions C54_load_works.
(** ... and when it fails: the function stays what it was. *)
Theorem C54_load_fails {G W} (globals : G) compiler trace f (d : @dyn G) (w : W) e d' w' :
  load globals compiler trace f (d, w) = (Exc e, (d', w')) ->
  w' = w /\ same_settings d d' /\ func d' = func d /\ dname d' = dname d /\ dsig d' = dsig d.
Proof. exact (load_fails globals compiler trace f d w e d' w'). Qed.
Print Assumptions C54_load_fails.

(** Calling a Dynamic that is not loaded loads it, or raises UnreadyError. *)
Theorem C54_call {G KW V W} (none : V) (globals : G) compiler trace (run : pyfun -> list V -> KW -> eff W V) o args kw d w :
  loaded d = false ->
  call none globals compiler trace run o args kw (d, w) =
    match load_on_call d with
    | FTrue => match load globals compiler trace FFalse (d, w) with
               | (Ok _, s') => call none globals compiler trace run o args kw s'
               | (Exc e, s') => (Exc e, s')
               end
    | _ => (Exc UnreadyError, (d, w))
    end.
Proof. exact (call_lemma none globals compiler trace run o args kw d w). Qed.
Print Assumptions C54_call.

(** unload forgets everything but the settings, if there ever was a
    definition; else it raises AttributeError, having deleted any code. *)
Theorem C54_unload {G KW V W} (none : V) (globals : G) compiler trace (run : pyfun -> list V -> KW -> eff W V) s l :
  built globals compiler trace s ->
  let (d, w) := snd (do_ops none globals compiler trace run l s) in
  if ever_defined none globals compiler trace run l s (loaded (fst s))
  then exists d', unload (d, w) = (Ok tt, (d', w)) /\ blank d d'
  else exists d', unload (d, w) = (Exc AttributeError, (d', w)) /\ d' = set_code d Unset.
Proof. exact (unload_lemma none globals compiler trace run s l). Qed.
Print Assumptions C54_unload.

Definition hist : list (@op Z unit Z) :=
  [OUnload; OCall FNone [4%Z] tt; OLoad FFalse; OUnload; OUnload; OCompile FFalse; OCall FNone [4%Z] tt; ODefine FNone;
   OLoadOnCall FFalse; OUnload; OCall FNone [4%Z] tt; OLoad FTrue; OCall FNone [5%Z] tt].
Example C54_history_ex :
  fst (ex_ops hist ex) =
    [Exc AttributeError; Ok 5; Exc AlreadyLoadedError; Ok (-1); Ok (-1); Ok (-1); Exc AlreadyLoadedError; Ok (-1);
     Ok (-1); Ok (-1); Exc UnreadyError; Ok (-1); Ok 6]%Z /\
  loaded (fst (snd (ex_ops hist ex))) = true /\ loaded (fst (snd (ex_ops (firstn 11 hist) ex))) = false /\
  dname (fst (snd (ex_ops hist ex))) = "f" /\ dname (fst (snd (ex_ops (firstn 11 hist) ex))) = "Dynamic" /\
  built 0%Z ex_compiler ex_trace ex.
Proof. split; [reflexivity|]. do 4 (split; [reflexivity|]). apply ex_built. Qed.
Example C54_twice_ex : loaded (fst (ex_construct "good" FFalse FFalse FTrue)) = true /\
  fst (load 0%Z ex_compiler ex_trace FFalse (ex_construct "good" FFalse FFalse FTrue)) = Exc AlreadyLoadedError.
Proof. split; reflexivity. Qed.
Example C54_load_ex : loaded (fst ex) = false /\ compiled (fst ex) = false /\
  compile_source ex_compiler (source (fst ex)) = Ok code_f /\
  rd (func (fst (snd (load 0%Z ex_compiler ex_trace FFalse ex)))) = Some (Made code_f 0%Z).
Proof. repeat split; reflexivity. Qed.

(** A failing load may change the code: a true value that is not True lets
    load compile but not define. *)
Theorem C54_truthy_refuted :
  ~ forall f (d : @dyn Z) (w : nat) e s', load 0%Z ex_compiler ex_trace f (d, w) = (Exc e, s') -> s' = (d, w).
Proof.
  intro H. set (s := ex_construct "good" FFalse FFalse FTrue). destruct s as [d w] eqn:E.
  specialize (H FOther (set_source d (Some "other")) w AlreadyLoadedError).
  assert (K : forall s', load 0%Z ex_compiler ex_trace FOther (set_source d (Some "other"), w) = (Exc AlreadyLoadedError, s') ->
              rd (code (fst s')) = Some code_f).
  { intros s' L. rewrite (H s' L). injection E as <- <-. reflexivity. }
  injection E as <- <-. specialize (K _ eq_refl). discriminate.
Qed.
Print Assumptions C54_truthy_refuted.

(** ** C55 *)

(** errors holds one record for each failed compilation and failed optional
    call since the last unload, in order; call_fail and compile_fail say
    whether there are any. *)
Theorem C55_errors {G KW V W} (none : V) (globals : G) compiler trace (run : pyfun -> list V -> KW -> eff W V) s l :
  built globals compiler trace s ->
  let d := fst (snd (do_ops none globals compiler trace run l s)) in
  errors d = faults_since none globals compiler trace run l s (errors (fst s)) /\
  call_fail d = existsb is_call (errors d) /\ compile_fail d = existsb is_compile (errors d).
Proof. exact (faults_lemma none globals compiler trace run s l). Qed.
Print Assumptions C55_errors.
(** There are none to begin with. *)
Theorem C55_initially {G W} (globals : G) compiler trace src g opt loc (w : W) d w' :
  construct globals compiler trace src g opt FFalse loc w = (Ok d, w') -> errors d = [].
Proof. exact (built_errors globals compiler trace src g opt loc w d w'). Qed.
Print Assumptions C55_initially.

(** Calls of a loaded Dynamic: what the function does; optional ones return
    None instead of raising an Exception, and record it. *)
Theorem C55_call {G KW V W} (none : V) (globals : G) compiler trace (run : pyfun -> list V -> KW -> eff W V) s l o args kw :
  built globals compiler trace s ->
  let (d, w) := snd (do_ops none globals compiler trace run l s) in
  forall g, rd (func d) = Some g ->
  call none globals compiler trace run o args kw (d, w) =
    match run g args kw w with
    | (Ok v, w') => (Ok v, (d, w'))
    | (Exc e, w') =>
        if is_optional d o && is_Exception e
        then (Ok none, (set_errors d (errors d ++ [call_error trace g e]) true (compile_fail d), w'))
        else (Exc e, (d, w'))
    end.
Proof. exact (optional_lemma none globals compiler trace run s l o args kw). Qed.
Print Assumptions C55_call.

Definition hist2 : list (@op Z unit Z) :=
  [OCall FNone [0%Z] tt; OCall FFalse [0%Z] tt; OCall FTrue [1%Z] tt; OSource (Some "bad"); OLoad FTrue;
   OCall FNone [] tt; OSource (Some "other"); OLoad FTrue; OCall FNone [] tt].
Example C55_ex :
  fst (ex_ops hist2 ex) = [Ok (-1); Exc ValueError; Ok 2; Ok (-1); Ok (-1); Ok (-1); Ok (-1); Ok (-1); Exc SystemExit]%Z /\
  map e_category (errors (fst (snd (ex_ops hist2 ex)))) = [Call; Compile; Call] /\
  call_fail (fst (snd (ex_ops hist2 ex))) = true /\ compile_fail (fst (snd (ex_ops hist2 ex))) = true /\
  errors (fst (snd (ex_ops (hist2 ++ [OUnload]) ex))) = [] /\ snd (snd (ex_ops hist2 ex)) = 5.
Proof. repeat split; reflexivity. Qed.
Example C55_call_ex : rd (func (fst (snd (ex_ops [OLoad FFalse] ex)))) = Some (Made code_f 0%Z) /\
  is_optional (fst (snd (ex_ops [OLoad FFalse] ex))) FNone = true /\ fst (ex_run (Made code_f 0%Z) [0%Z] tt 0) = Exc ValueError.
Proof. repeat split; reflexivity. Qed.

(** ** C56 *)

(** Source that does not compile, or defines nothing: the constructor raises
    TypeError, also if optional; unless it is lazy. *)
Theorem C56_construct {G W} (globals : G) compiler trace src g opt loc (w : W) e :
  compile_source compiler src = Exc e -> is_Exception e = true ->
  fst (construct globals compiler trace src g opt FFalse loc w) = Exc TypeError /\
  forall lzy, lzy <> FFalse -> exists d, construct globals compiler trace src g opt lzy loc w = (Ok d, w) /\
    errors d = [] /\ loaded d = false /\ compiled d = false /\ source d = src /\ load_on_call d = loc.
Proof. exact (bad_init_lemma globals compiler trace src g opt loc w e). Qed.
Print Assumptions C56_construct.

(** The code object used is the first among the constants of the module's;
    others could be had by number. *)
Theorem C56_codechild c ix : match get_codechild c ix with
  | Ok d => exists a b, c_consts c = a ++ Some d :: b /\ Z.of_nat (codes a) = ix
  | Exc e => (ix < 0)%Z /\ e = ValueError \/ (Z.of_nat (codes (c_consts c)) <= ix)%Z /\ e = StopIteration
  end.
Proof. exact (codechild_lemma c ix). Qed.
Print Assumptions C56_codechild.

(** Then each call, optional or not, records the error and raises TypeError. *)
Theorem C56_calls {G KW V W} (none : V) (globals : G) compiler trace (run : pyfun -> list V -> KW -> eff W V) n o args kw d w e :
  compile_source compiler (source d) = Exc e -> is_Exception e = true ->
  loaded d = false -> compiled d = false -> load_on_call d = FTrue ->
  let '(ys, (d', w')) := do_ops none globals compiler trace run (repeat (OCall o args kw) n) (d, w) in
  ys = repeat (Exc TypeError) n /\ w' = w /\ errors d' = errors d ++ repeat (compile_error trace e) n /\ loaded d' = false.
Proof. exact (bad_calls_lemma none globals compiler trace run n o args kw d w e). Qed.
Print Assumptions C56_calls.

(** Reloading with such source works, with the old code. *)
Theorem C56_reload {G W} (globals : G) compiler trace (d : @dyn G) (w : W) e g c :
  compile_source compiler (source d) = Exc e -> is_Exception e = true ->
  rd (func d) = Some g -> rd (code d) = Some c -> c_closure c = false ->
  exists d', load globals compiler trace FTrue (d, w) = (Ok tt, (d', w)) /\
    rd (func d') = Some (Made c (globals_of globals d)) /\
    errors d' = errors d ++ [compile_error trace e] /\ compile_fail d' = true.
Proof. exact (reload_lemma globals compiler trace d w e g c). Qed.
Print Assumptions C56_reload.

(** from_function wraps the function itself; source and globals are those
    given to the constructor, not those of the function. *)
Theorem C56_from_function {G W} (globals : G) compiler trace f fc n name c gl s0 src g opt lzy loc (w : W) :
  (g_source f = Ok s0 /\ g_fun f = Some (n, name, c, gl)) \/
  (g_source f = Exc TypeError /\ g_source fc = Ok s0 /\ g_fun fc = Some (n, name, c, gl)) ->
  exists d, from_function globals compiler trace f fc src g opt lzy loc w = (Ok d, w) /\
    rd (func d) = Some (Given n name c gl) /\ rd (code d) = Some c /\ errors d = [] /\
    source d = src /\ globals_ d = g.
Proof. exact (from_lemma globals compiler trace f fc n name c gl s0 src g opt lzy loc w). Qed.
Print Assumptions C56_from_function.

(** Without source, reloading runs the same code with the globals of the
    Dynamic, or raises TypeError if the code has free variables; and once
    unloaded, calls raise TypeError. *)
Theorem C56_no_source {G KW V W} (none : V) (globals : G) compiler trace (run : pyfun -> list V -> KW -> eff W V) d w c :
  source d = None -> rd (code d) = Some c -> loaded d = true ->
  (if c_closure c then fst (load globals compiler trace FTrue (d, w)) = Exc TypeError
   else exists d', load globals compiler trace FTrue (d, w) = (Ok tt, (d', w)) /\
          rd (func d') = Some (Made c (globals_of globals d))) /\
  exists d', unload (d, w) = (Ok tt, (d', w)) /\
    forall o args kw, load_on_call d = FTrue ->
      fst (call none globals compiler trace run o args kw (d', w)) = Exc TypeError.
Proof. exact (no_source_lemma none globals compiler trace run d w c). Qed.
Print Assumptions C56_no_source.

Example C56_construct_ex : compile_source ex_compiler (Some "bad") = Exc SyntaxError /\
  compile_source ex_compiler (Some "empty") = Exc StopIteration /\
  fst (construct (W := nat) 0%Z ex_compiler ex_trace (Some "bad") None FTrue FFalse FTrue 0) = Exc TypeError.
Proof. repeat split; reflexivity. Qed.
Example C56_codechild_ex :
  let f n := PCode 0 n false [] in let c := PCode 0 "m" false [None; Some (f "a"); None; Some (f "b")] in
  get_codechild c 1 = Ok (f "b") /\ get_codechild c 2 = Exc StopIteration /\ get_codechild c (-1) = Exc ValueError.
Proof. repeat split; reflexivity. Qed.
Example C56_calls_ex : let s := ex_construct "bad" FTrue FTrue FTrue in
  loaded (fst s) = false /\ compiled (fst s) = false /\ load_on_call (fst s) = FTrue /\
  fst (ex_ops [OCall FNone [4%Z] tt; OCall FTrue [4%Z] tt; OSource (Some "good"); OCall FTrue [4%Z] tt] s) =
    [Exc TypeError; Exc TypeError; Ok (-1); Ok 5]%Z.
Proof. repeat split; reflexivity. Qed.
(** A function with global 10 that multiplies by it. *)
Definition given : @callable Z := {| g_source := Ok "def h(x): ..."; g_fun := Some (9%N, "h", code_f, 10%Z) |}.
Example C56_from_function_ex :
  match from_function (W := nat) 0%Z ex_compiler ex_trace given given None None FFalse FFalse FTrue 0 with
  | (Ok d, w) =>
      source d = None /\ globals_ d = None /\
      fst (ex_ops [OCall FNone [4%Z] tt; OLoad FTrue; OCall FNone [4%Z] tt; OUnload; OCall FNone [4%Z] tt] (d, w)) =
        [Ok 40; Ok (-1); Ok 5; Ok (-1); Exc TypeError]%Z
  | _ => False
  end.
Proof. repeat split; reflexivity. Qed.
