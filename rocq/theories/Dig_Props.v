(** C90: digsource (dynamic.py). *)
From Verif Require Export Dig_Proofs.
From Verif Require Import Dyn_Props.

(** ** C90 *)

(** The source of a Dynamic, whatever its history: that of the function it was
    made from, until there is a definition or an unload; from then on there is
    none. *)
Theorem C90_dynamic {G KW V W} (none : V) (globals : G) compiler trace (run : pyfun -> list V -> KW -> eff W V) given_source s l :
  built globals compiler trace s ->
  let d := fst (snd (do_ops none globals compiler trace run l s)) in
  digsource given_source (as_obj d) =
    if loaded d
    then if kept none globals compiler trace run l s then digsource given_source (as_obj (fst s)) else Exc OSError
    else Exc TypeError.
Proof. exact (dig_lemma none globals compiler trace run given_source s l). Qed.
Print Assumptions C90_dynamic.
Theorem C90_from_function {G W} (globals : G) compiler trace given_source f fc n name c gl src0 src g opt lzy loc (w : W) d w' :
  g_source f = Ok src0 -> g_fun f = Some (n, name, c, gl) ->
  from_function globals compiler trace f fc src g opt lzy loc w = (Ok d, w') ->
  digsource given_source (as_obj d) = given_source n.
Proof. exact (dig_from globals compiler trace given_source f fc n name c gl src0 src g opt lzy loc w d w'). Qed.
Print Assumptions C90_from_function.

(** A Dynamic made from source never shows it. *)
Theorem C90_never {G KW V W} (none : V) (globals : G) compiler trace (run : pyfun -> list V -> KW -> eff W V) given_source
    src g opt lzy loc w d w' l r :
  construct globals compiler trace src g opt lzy loc w = (Ok d, w') ->
  digsource given_source (as_obj (fst (snd (do_ops none globals compiler trace run l (d, w'))))) <> Ok r.
Proof. exact (dig_never none globals compiler trace run given_source src g opt lzy loc w d w' l r). Qed.
Print Assumptions C90_never.

(** Other objects: functions and methods show theirs, objects with a func that
    of the func, one level deep; everything else raises TypeError. *)
Theorem C90_objects {G} given_source (o : @pyobj G) s : digsource given_source o = Ok s ->
  (exists f, (o = PFun f \/ o = PMeth f \/ o = PHas (PFun f) \/ o = PHas (PMeth f)) /\
     exists n name c g, f = Given n name c g /\ given_source n = Ok s) \/
  o = PHas (POther (Ok s)).
Proof.
  destruct o as [f|f|o| |r]; cbn; try discriminate.
  - destruct f as [c g|n m c g]; [discriminate|]. intro H. left. exists (Given n m c g). split; [now left|]. now exists n, m, c, g.
  - destruct f as [c g|n m c g]; [discriminate|]. intro H. left. exists (Given n m c g). split; [now right; left|]. now exists n, m, c, g.
  - destruct o as [f|f|o| |r]; cbn; try discriminate.
    + destruct f as [c g|n m c g]; [discriminate|]. intro H. left. exists (Given n m c g). split; [now right; right; left|]. now exists n, m, c, g.
    + destruct f as [c g|n m c g]; [discriminate|]. intro H. left. exists (Given n m c g). split; [now right; right; right|]. now exists n, m, c, g.
    + intros ->. now right.
Qed.
Print Assumptions C90_objects.

(** Text that is the name of the class alone means that there is no function;
    otherwise the name is followed by the signature of the one it would call. *)
Theorem C90_str {G} sig (d : @dyn G) :
  (dyn_str sig d = "Dynamic" <-> loaded d = false) /\
  forall f, rd (func d) = Some f -> dyn_str sig d = ("Dynamic" ++ " " ++ sig f)%string.
Proof.
  unfold dyn_str, loaded. destruct (rd (func d)); cbn; split.
  - split; discriminate.
  - now intros f [= ->].
  - split; reflexivity.
  - discriminate.
Qed.
Print Assumptions C90_str.

Definition ex_sources (n : N) : res string := match n with 9%N => Ok "def h(x): ..." | _ => Exc OSError end.
Example C90_dynamic_ex :
  match from_function (W := nat) 0%Z ex_compiler ex_trace given given (Some "good") None FFalse FFalse FTrue 0 with
  | (Ok d, w) =>
      let after l := digsource ex_sources (as_obj (fst (snd (ex_ops l (d, w))))) in
      let kept_ l := kept (-1)%Z 0%Z ex_compiler ex_trace ex_run l (d, w) in
      built 0%Z ex_compiler ex_trace (d, w) /\
      after [] = Ok "def h(x): ..." /\
      kept_ [OCall FNone [4%Z] tt; OCompile FTrue; OLoad FFalse] = true /\
      after [OCall FNone [4%Z] tt; OCompile FTrue; OLoad FFalse] = Ok "def h(x): ..." /\
      after [OLoad FTrue] = Exc OSError /\ after [OUnload] = Exc TypeError /\ after [OUnload; OCall FNone [4%Z] tt] = Exc OSError
  | _ => False
  end.
Proof. split; [apply (built_from 0%Z ex_compiler ex_trace given given (Some "good") None FFalse FFalse FTrue 0); reflexivity|]. repeat split; reflexivity. Qed.
Example C90_from_function_ex : g_source given = Ok "def h(x): ..." /\ g_fun given = Some (9%N, "h", code_f, 10%Z).
Proof. split; reflexivity. Qed.
Example C90_never_ex :
  let s := ex_construct "good" FFalse FFalse FTrue in
  loaded (fst s) = true /\ digsource ex_sources (as_obj (fst s)) = Exc OSError.
Proof. split; reflexivity. Qed.
Example C90_str_ex : dyn_str (fun _ => "(x)") (fst (ex_construct "good" FFalse FFalse FTrue)) = "Dynamic (x)" /\
  dyn_str (fun _ => "(x)") (fst (ex_construct "good" FFalse FTrue FTrue)) = "Dynamic".
Proof. split; reflexivity. Qed.
Example C90_objects_ex : digsource ex_sources (PHas (PFun (Given 9 "h" code_f 10%Z))) = Ok "def h(x): ..." /\
  digsource ex_sources (PHas (PHas (PFun (Given 9 "h" code_f 10%Z)))) = Exc TypeError.
Proof. split; reflexivity. Qed.

(** Its docstring has digsource "work on objects like Dynamic": it does not, for
    one that was loaded from its source. *)
Theorem C90_docstring_refuted :
  ~ forall (d : @dyn Z) (w : nat) src, construct 0%Z ex_compiler ex_trace (Some src) None FFalse FFalse FTrue 0 = (Ok d, w) ->
      digsource ex_sources (as_obj d) = Ok src.
Proof. intro H. specialize (H _ _ "good" eq_refl). discriminate. Qed.
Print Assumptions C90_docstring_refuted.
