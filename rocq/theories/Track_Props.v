(** Theorems C31-C33 about tracker.py. *)
From Verif Require Import Track_Lemmas Py_Facts.

(** ** C31: the log file is always a JSON array of all dumps *)

(** For any trackers, sharing files or not, and any json.dumps. *)
Theorem C31_array dumps s ds os :
  wfd (fs s) = true -> files_are (fs s) ds -> no_crash os -> all_ok (fst (trun dumps os s)) ->
  files_are (fs (snd (trun dumps os s))) (docs_since ds (events dumps os s)).
Proof. exact (trun_files dumps os s ds). Qed.
Print Assumptions C31_array.

(** From no files: what is at each path. *)
Theorem C31_from_nothing dumps ts os :
  no_crash os ->
  let out := trun dumps os {| trackers := ts; fs := [] |} in
  all_ok (fst out) ->
  forall p, dget (fs (snd out)) (KStr p) =
    match docs_since (fun _ => []) (events dumps os {| trackers := ts; fs := [] |}) p with
    | [] => None
    | ds => Some (array ds)
    end.
Proof. exact (log_files dumps ts os). Qed.
Print Assumptions C31_from_nothing.

(** Read as JSON it gives the documents. *)
Theorem C31_readable ts os p s :
  no_crash os ->
  let out := trun json_dumps os {| trackers := ts; fs := [] |} in
  all_ok (fst out) -> dget (fs (snd out)) (KStr p) = Some s ->
  exists js, read_log read_value s = Some js /\
    map (print 0) js = docs_since (fun _ => []) (events json_dumps os {| trackers := ts; fs := [] |}) p.
Proof. exact (log_readable ts os p s). Qed.
Print Assumptions C31_readable.

(** A dump succeeds as soon as json.dumps does. *)
Theorem C31_succeeds dumps now t f ds doc :
  files_are f ds -> dumps (document (stamped now t)) = Ok doc -> fst (fst (dump dumps now t f)) = Ok tt.
Proof. exact (dump_succeeds dumps now t f ds doc). Qed.
Print Assumptions C31_succeeds.

Theorem C31_paused dumps now t f : paused t = true -> dump dumps now t f = (Ok tt, t, f).
Proof. unfold dump. now intros ->. Qed.
Print Assumptions C31_paused.

(** The document of a dump: the name given at construction (not one assigned
    later), the time of construction, the time of the dump, and last the
    history; always into the same file. *)
Theorem C31_document dumps os ts f name ident outdir init now :
  let s := {| trackers := ts ++ [new_tracker name ident outdir init]; fs := f |} in
  exists t, nth_error (trackers (snd (trun dumps os s))) (List.length ts) = Some t /\
    outpath t = outpath (new_tracker name ident outdir init) /\
    document (stamped now t) =
      [(KStr "name", JVal (MAtom name)); (KStr "init_timestamp", JVal (MStr init));
       (KStr "write_timestamp", JVal (MStr now)); (KStr "history", JHistory (history t))].
Proof. exact (dumped dumps os ts f name ident outdir init now). Qed.
Print Assumptions C31_document.

(** Trackers with identifiers without underscores share a file of a directory
    only if identifiers and names agree; with an underscore in an identifier,
    or without an identifier, they may share one though both differ. *)
Theorem C31_paths n1 i1 n2 i2 outdir now1 now2 : i1 <> ""%string -> i2 <> ""%string ->
  no_underscore i1 -> no_underscore i2 ->
  outpath (new_tracker n1 i1 outdir now1) = outpath (new_tracker n2 i2 outdir now2) -> i1 = i2 /\ py_str n1 = py_str n2.
Proof. exact (paths_lemma n1 i1 n2 i2 outdir now1 now2). Qed.
Print Assumptions C31_paths.
Theorem C31_paths_refuted : exists n1 i1 n2 i2 i3 n3, i1 <> i2 /\ i1 <> i3 /\ py_str n1 <> py_str n2 /\ i2 = ""%string /\ i3 <> ""%string /\
  outpath (new_tracker n1 i1 "d" "t") = outpath (new_tracker n2 i2 "d" "t") /\
  outpath (new_tracker n1 i1 "d" "t") = outpath (new_tracker n3 i3 "d" "t").
Proof.
  exists (KStr "x_y"), "a"%string, (KStr "a_x_y"), ""%string, "a_x"%string, (KStr "y").
  repeat split; try discriminate; reflexivity.
Qed.
Print Assumptions C31_paths_refuted.
Example C31_paths_ex : no_underscore "job" /\ no_underscore "jo" /\
  outpath (new_tracker (KStr "bn") "jo" "logs" "t0") = "logs/jo_bn.json"%string /\
  outpath (new_tracker (KStr "n") "job" "logs" "t0") = "logs/job_n.json"%string.
Proof. repeat split; discriminate. Qed.

(** Control characters and others that are not ASCII are escaped, with lower case
    digits. *)
Example C31_escape_ex : quoted (String "031" (String "255" "a")) = """\u001f\u00ffa"""%string /\ quoted """"%string = """\"""""%string.
Proof. split; reflexivity. Qed.

(** The reader reads exactly what json.dumps wrote. *)
Theorem C31_json_round_trip d doc rest :
  json_dumps d = Ok doc -> exists j, json_dict json_jval d = Ok j /\ read_value (doc ++ rest) = Some (j, rest).
Proof.
  intro H. destruct (dumps_denotes _ _ H) as (j & A & B). exists j. split; [exact A|].
  exact (rd_reads _ _ json_reader _ _ rest B).
Qed.
Print Assumptions C31_json_round_trip.

Definition ex_ops : list top :=
  [TTrack 0 "f" "main" 3 [(KStr "step", MAtom (KInt 1))]; TDump 0 "t1"; TName 0 (KStr "other");
   TTrack 0 "g" "main" 4 []; TPause 0 true; TDump 0 "t2"; TPause 0 false; TDump 1 "t3"; TDump 0 "t4"].
Definition ex_trackers := [new_tracker (KStr "a") "" "logs" "t0"; new_tracker (KStr "a") "" "logs" "t0"].
Definition ex_start := {| trackers := ex_trackers; fs := [] |}.
Example C31_ex :
  no_crash ex_ops /\ all_ok (fst (trun json_dumps ex_ops ex_start)) /\
  List.length (docs_since (fun _ => []) (events json_dumps ex_ops ex_start) "logs/a.json") = 3 /\
  match dget (fs (snd (trun json_dumps ex_ops ex_start))) (KStr "logs/a.json") with
  | Some s => read_log read_value s = Some
      [JObj [("name", JStr "a"); ("init_timestamp", JStr "t0"); ("write_timestamp", JStr "t1");
             ("history", JArr [JObj [("target", JStr "f"); ("caller", JStr "main"); ("lineno", JInt 3);
                                     ("trackcount", JInt 1); ("step", JInt 1)]])];
       JObj [("name", JStr "a"); ("init_timestamp", JStr "t0"); ("write_timestamp", JStr "t3"); ("history", JArr [])];
       JObj [("name", JStr "a"); ("init_timestamp", JStr "t0"); ("write_timestamp", JStr "t4");
             ("history", JArr [JObj [("target", JStr "f"); ("caller", JStr "main"); ("lineno", JInt 3);
                                     ("trackcount", JInt 1); ("step", JInt 1)];
                               JObj [("target", JStr "g"); ("caller", JStr "main"); ("lineno", JInt 4);
                                     ("trackcount", JInt 2)]])]]%string
  | None => False
  end.
Proof.
  split; [|split; [|split]].
  - intros o H. repeat (destruct H as [<-|H]; [exact I|]). destruct H.
  - vm_compute. repeat constructor.
  - vm_compute. reflexivity.
  - vm_compute. reflexivity.
Qed.

(** ** C32: what a failed or interrupted dump leaves behind *)

(** json.dumps raises: the closing bracket is lost. *)
Theorem C32_failed_dump dumps now t f ds e :
  files_are f ds -> paused t = false -> dumps (document (stamped now t)) = Exc e ->
  dump dumps now t f =
    (Exc e, stamped now t,
     dset f (KStr (outpath t))
       match ds (outpath t) with [] => "[" | d => ("[" ++ String.concat sep d ++ sep)%string end).
Proof. exact (dump_fails dumps now t f ds e). Qed.
Print Assumptions C32_failed_dump.

(** From then on the log cannot be read, whatever is dumped, until it is
    cleared. *)
Theorem C32_never_recovers f ds e now t js os ts :
  wfd f = true -> files_are f ds -> paused t = false ->
  json_dumps (document (stamped now t)) = Exc e -> Forall2 is_document (ds (outpath t)) js ->
  let s := {| trackers := ts; fs := snd (dump json_dumps now t f) |} in
  never_cleared json_dumps (outpath t) os s ->
  exists x, dget (fs (snd (trun json_dumps os s))) (KStr (outpath t)) = Some x /\ read_log read_value x = None.
Proof. exact (failure_lasts f ds e now t js os ts). Qed.
Print Assumptions C32_never_recovers.

(** A dump cut short by the end of the process: what is left... *)
Theorem C32_crash dumps n now t f ds doc :
  files_are f ds -> paused t = false -> dumps (document (stamped now t)) = Ok doc ->
  crashed_dump dumps n now t f =
    match ds (outpath t) with
    | [] => dset f (KStr (outpath t)) (substring 0 n ("[" ++ doc ++ "]"))
    | d => match n with
           | O => dset f (KStr (outpath t)) (array d)
           | _ => dset f (KStr (outpath t))
                    ("[" ++ String.concat sep d ++ substring 0 n (sep ++ doc ++ "]"))%string
           end
    end.
Proof. exact (crash_content dumps n now t f ds doc). Qed.
Print Assumptions C32_crash.

(** ... cannot be read, unless nothing or everything was written. *)
Theorem C32_crash_unreadable f ds now t js doc n :
  files_are f ds -> paused t = false -> json_dumps (document (stamped now t)) = Ok doc ->
  Forall2 is_document (ds (outpath t)) js ->
  0 < n -> n <= match ds (outpath t) with [] => 1 | _ => 2 end + String.length doc ->
  exists s, dget (crashed_dump json_dumps n now t f) (KStr (outpath t)) = Some s /\ read_log read_value s = None.
Proof. exact (crash_lost f ds now t js doc n). Qed.
Print Assumptions C32_crash_unreadable.
Theorem C32_crash_before dumps now t f ds doc :
  files_are f ds -> paused t = false -> dumps (document (stamped now t)) = Ok doc ->
  dget (crashed_dump dumps 0 now t f) (KStr (outpath t)) =
  match ds (outpath t) with [] => Some ""%string | d => Some (array d) end.
Proof. exact (crash_none dumps now t f ds doc). Qed.
Print Assumptions C32_crash_before.
Theorem C32_crash_after dumps now t f ds doc n :
  files_are f ds -> paused t = false -> dumps (document (stamped now t)) = Ok doc -> String.length doc + 3 <= n ->
  crashed_dump dumps n now t f = snd (dump dumps now t f).
Proof. exact (crash_all dumps now t f ds doc n). Qed.
Print Assumptions C32_crash_after.

(** After an empty file is left behind every dump raises OSError. *)
Theorem C32_empty_file dumps now t f :
  paused t = false -> dget f (KStr (outpath t)) = Some ""%string ->
  dump dumps now t f = (Exc OSError, stamped now t, f).
Proof. exact (dump_empty dumps now t f). Qed.
Print Assumptions C32_empty_file.

(** clear starts over. *)
Theorem C32_clear_recovers t f : wfd f = true ->
  dget (snd (clear t f)) (KStr (outpath t)) = None /\ history (fst (clear t f)) = [] /\ counter (fst (clear t f)) = 1%Z.
Proof. intro H. cbn. rewrite dget_ddel by exact H. now rewrite keqb_refl. Qed.
Print Assumptions C32_clear_recovers.

(** So the property as one would like it is false. *)
Theorem C32_refuted :
  exists os, no_crash os /\
    match fst (trun json_dumps os ex_start), dget (fs (snd (trun json_dumps os ex_start))) (KStr "logs/a.json") with
    | [Ok _; Ok _; Exc e; Ok _; Ok _], Some s => e = TypeError /\ read_log read_value s = None
    | _, _ => False
    end.
Proof.
  exists [TDump 0 "t1"; TTrack 0 "f" "main" 3 [(KStr "x", MObj 7)]; TDump 0 "t2"; TSetMetadata 0 []; TDump 1 "t3"].
  split; [|vm_compute; auto]. intros o H. repeat (destruct H as [<-|H]; [exact I|]). destruct H.
Qed.
Print Assumptions C32_refuted.

Definition ex_bad := track "f" "main" 3 [(KStr "x", MObj 7)] (new_tracker (KStr "a") "" "logs" "t0").
Example C32_ex :
  json_dumps (document (stamped "t2" ex_bad)) = Exc TypeError /\
  (exists doc, json_dumps (document (stamped "t2" (hd ex_bad ex_trackers))) = Ok doc /\
    Forall2 is_document [doc] [match json_dict json_jval (document (stamped "t2" (hd ex_bad ex_trackers))) with
                               | Ok j => j | Exc _ => JNull end] /\
    files_are [(KStr "logs/a.json", array [doc])] (fun p => if String.eqb p "logs/a.json" then [doc] else [])) /\
  never_cleared json_dumps "logs/a.json" [TDump 0 "t5"; TTrack 1 "f" "g" 1 []; TDump 1 "t6"]
    {| trackers := ex_trackers; fs := [] |}.
Proof.
  split; [vm_compute; reflexivity|]. split.
  - eexists. split; [vm_compute; reflexivity|]. split.
    + constructor; [|constructor]. split; [eexists; vm_compute; reflexivity|vm_compute; reflexivity].
    + intro p. cbn [dget]. destruct (String.eqb_spec p "logs/a.json") as [->|N]; [reflexivity|].
      destruct (keqb _ _) eqn:E; [apply keqb_str in E; congruence|reflexivity].
  - cbn. tauto.
Qed.

(** ** C33: history numbering and metadata precedence *)

(** For every tracker, after any operations on any trackers: one record per
    call of track since the last clear, in order; what each record says. *)
Theorem C33_history dumps os ts f name ident outdir init :
  let s := {| trackers := ts ++ [new_tracker name ident outdir init]; fs := f |} in
  let calls := calls_since (flat_map (hevent_of (List.length ts)) os) in
  exists t, nth_error (trackers (snd (trun dumps os s))) (List.length ts) = Some t /\
    List.length (history t) = List.length calls /\
    forall i call r, nth_error calls i = Some call -> nth_error (history t) i = Some r ->
      forall k, dget r k = record_field call (Z.of_nat i + 1) k.
Proof. exact (numbered dumps os ts f name ident outdir init). Qed.
Print Assumptions C33_history.

Theorem C33_clear t f :
  history (fst (clear t f)) = [] /\ (forall k v, In (k, v) (document (fst (clear t f))) -> forall h, v = JHistory h -> h = []) /\
  metadata (fst (clear t f)) = metadata t.
Proof.
  split; [reflexivity|]. split; [|reflexivity]. intros k v H h ->. unfold document in H. apply in_map_iff in H.
  destruct H as ([k' l] & E & _). cbn in E. destruct l; cbn in E; congruence.
Qed.
Print Assumptions C33_clear.

Example C33_ex :
  let os := [TSetMetadata 1 [(KStr "run", MInt 5); (KStr "caller", MStr "me")]; TTrack 0 "zero" "m" 0 [];
             TTrack 1 "f" "main" 3 []; TClear 1; TTrack 1 "g" "main" 4 [(KStr "run", MInt 6)];
             TTrack 1 "h" "main" 5 [(KStr "trackcount", MInt 99)]; TDump 1 "t"] in
  match nth_error (trackers (snd (trun json_dumps os ex_start))) 1 with
  | Some t => history t =
      [[(KStr "target", MStr "g"); (KStr "caller", MStr "me"); (KStr "lineno", MInt 4); (KStr "trackcount", MInt 1);
        (KStr "run", MInt 6)];
       [(KStr "target", MStr "h"); (KStr "caller", MStr "me"); (KStr "lineno", MInt 5); (KStr "trackcount", MInt 99);
        (KStr "run", MInt 5)]]
  | None => False
  end.
Proof. vm_compute. reflexivity. Qed.

(** What exc_report says about an exception: one entry per traceback entry in
    each list, in order. *)
Theorem C33_exc_report shown tb :
  exc_report shown tb =
  [(KStr "exception", MStr shown);
   (KStr "lineno", MList (map (fun f => MInt (f_line f)) tb));
   (KStr "name", MList (map (fun f => MStr match f_module f with
                                           | Some m => (m ++ "." ++ f_code f)%string
                                           | None => f_code f
                                           end) tb));
   (KStr "filename", MList (map (fun f => MStr (f_file f)) tb))].
Proof. exact (exc_report_spec shown tb). Qed.
Print Assumptions C33_exc_report.
