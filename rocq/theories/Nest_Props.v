(** C88, C89: compositions as steps of compositions, and trackers
    (composition.py, tracker.py). *)
From Coq Require Import Lia.
From Verif Require Export Nest_Proofs.
From Verif Require Import Comp_Props.

(** ** C88 *)

(** Nesting does not matter: a composition whose steps are compositions, and so
    on, does what the composition of the functions at the bottom does. *)
Theorem C88_flat {V W} (none : V) trace (c c' : @comp V W) w x :
  only_steps c -> only_steps c' -> optional c' = optional c ->
  bottoms none trace (dvalues (steps c)) (dvalues (steps c')) ->
  fst (execute none trace x (c, w)) = fst (execute none trace x (c', w)) /\
  snd (snd (execute none trace x (c, w))) = snd (snd (execute none trace x (c', w))).
Proof. exact (flat_lemma none trace c c' w x). Qed.
Print Assumptions C88_flat.

(** As a step of any composition, an optional one that fails sends None on,
    with what its steps did before. *)
Theorem C88_step {V W} (none : V) trace str (c : @comp V W) x w : only_steps c ->
  applied (as_step none trace str c) x w =
    let '(ys, e, w') := flow (map applied (dvalues (steps c))) x w in
    (outcome none (optional c) ys (option_map surfaced e), w').
Proof. exact (applied_comp none trace str c x w). Qed.
Print Assumptions C88_step.

(** Called without arguments it is given None, whatever the other keywords;
    called with one, or with signal=, that. *)
Theorem C88_signal {V W} (none : V) trace (c : @comp V W) x kw w :
  dget kw (KStr "self") = None ->
  (dget kw (KStr "signal") = None ->
     called none trace c [] kw w = called none trace c [none] [] w /\ called none trace c [x] kw w = called none trace c [x] [] w) /\
  (dget kw (KStr "signal") = Some x -> called none trace c [] kw w = called none trace c [x] [] w).
Proof. exact (signal_lemma none trace c x kw w). Qed.
Print Assumptions C88_signal.

(** Inserts for a step that is a composition: one at a position, "signal" or
    "self" make it fail before it does anything; the others are ignored. *)
Theorem C88_inserts {V W} (none : V) trace (c : @comp V W) k x str ci w :
  wfd (inserts_at c k) = true -> dget (steps c) k = Some (as_step none trace str ci) ->
  ((exists z, dget (inserts_at c k) (KInt z) <> None) \/
     dget (inserts_at c k) (KStr "signal") <> None \/ dget (inserts_at c k) (KStr "self") <> None ->
   call_step c k x w = (Exc TypeError, w)) /\
  (~ ((exists z, dget (inserts_at c k) (KInt z) <> None) \/
     dget (inserts_at c k) (KStr "signal") <> None \/ dget (inserts_at c k) (KStr "self") <> None) ->
   call_step c k x w = applied (as_step none trace str ci) x w).
Proof. exact (arguments_lemma none trace c k x str ci w). Qed.
Print Assumptions C88_inserts.

(** A composition without sends into its own steps is the same after a call. *)
Theorem C88_steady {V W} (none : V) trace (c : @comp V W) w x :
  wfd (steps c) = true -> steady c -> fst (snd (execute none trace x (c, w))) = c.
Proof. exact (steady_lemma none trace c w x). Qed.
Print Assumptions C88_steady.

(** Only something with none of the three attributes calls itself empty. *)
Theorem C88_str a b c : comp_str a b c = "empty Composition" <-> a = None /\ b = None /\ c = None.
Proof. exact (str_lemma a b c). Qed.
Print Assumptions C88_str.

Definition sub (c : zcomp) : zstep := as_step none trace "steps: ..." c.
Definition inner : zcomp := mk [(KStr "p", Twice); (KStr "q", Plus)] [] [].
Definition middle : zcomp := mk [(KInt 0, sub inner); (KInt 1, Partial)] [] [].
Definition outer : zcomp := mk [(KInt 0, Plus); (KInt 1, sub middle); (KInt 2, sub inner)] [] [].
Definition flat : zcomp := mk (number_from 0 [Plus; Twice; Plus; Partial; Twice; Plus]) [] [].
Lemma no_more_bare (ss : dict zstep) : wfd ss = true -> only_steps (mk ss [] []).
Proof. intro H. split; [exact H|]. split; [|reflexivity]. intros k _. now split. Qed.
Example C88_flat_ex : only_steps outer /\ only_steps flat /\
  bottoms none trace (dvalues (steps outer)) (dvalues (steps flat)) /\
  fst (exec 4 (outer, w0)) = Exc ValueError /\ fst (exec 4 (flat, w0)) = Exc ValueError /\
  fst (exec 4 (middle, w0)) = Ok 348%Z.
Proof.
  split; [now apply no_more_bare|]. split; [now apply no_more_bare|]. split; [|repeat split; reflexivity].
  assert (I : bottom none trace (sub inner) [Twice; Plus]).
  { apply bottom_comp; [now apply no_more_bare|reflexivity|discriminate|].
    apply (bottoms_cons none trace Twice [Plus] [Twice] [Plus]); [constructor|].
    apply (bottoms_cons none trace Plus [] [Plus] []); constructor. }
  assert (M : bottom none trace (sub middle) [Twice; Plus; Partial]).
  { apply bottom_comp; [now apply no_more_bare|reflexivity|discriminate|].
    apply (bottoms_cons none trace (sub inner) [Partial] [Twice; Plus] [Partial]); [exact I|].
    apply (bottoms_cons none trace Partial [] [Partial] []); constructor. }
  apply (bottoms_cons none trace Plus [sub middle; sub inner] [Plus] [Twice; Plus; Partial; Twice; Plus]); [constructor|].
  apply (bottoms_cons none trace (sub middle) [sub inner] [Twice; Plus; Partial] [Twice; Plus]); [exact M|].
  apply (bottoms_cons none trace (sub inner) [] [Twice; Plus] []); [exact I|constructor].
Qed.

Definition shaky : zcomp :=
  {| steps := [(KInt 0, Plus); (KInt 1, Plus)]; sends := []; inserts := []; ctracker := None; optional := true;
     cname := "shaky"; captures := None |}.
Example C88_step_ex : only_steps shaky /\ applied (sub shaky) 7%Z w0 = (Ok 7%Z, w0) /\
  applied (sub shaky) 120%Z w0 = (Ok none, w0).
Proof. split; [|split; reflexivity]. split; [reflexivity|]. split; [|reflexivity]. intros k _. now split. Qed.

Example C88_signal_ex : let kw := [(KStr "k", 3%Z)] in dget kw (KStr "self") = None /\ dget kw (KStr "signal") = None /\
  fst (called none trace inner [] kw w0) = fst (called none trace inner [none] [] w0) /\ fst (called none trace inner [5%Z] kw w0) = Ok 10%Z /\
  fst (called none trace inner [] [(KStr "signal", 5%Z)] w0) = Ok 10%Z.
Proof. cbv zeta. repeat split; reflexivity. Qed.
Definition fed (d : dict Z) : zcomp := mk [(KInt 0, sub inner)] [] [(KInt 0, d)].
Example C88_inserts_ex :
  call_step (fed [(KStr "k", 3%Z)]) (KInt 0) 5%Z w0 = (Ok 10%Z, w0) /\
  call_step (fed [(KInt 0, 3%Z)]) (KInt 0) 5%Z w0 = (Exc TypeError, w0) /\
  call_step (fed [(KInt 7, 3%Z)]) (KInt 0) 5%Z w0 = (Exc TypeError, w0) /\
  call_step (fed [(KStr "signal", 3%Z)]) (KInt 0) 5%Z w0 = (Exc TypeError, w0).
Proof. repeat split; reflexivity. Qed.

Definition logging : zcomp :=
  mk [(KInt 0, Plus)] [(KInt 0, [{| pipe := None; starget := TWriter write; pointer := KNone |}])] [].
Example C88_steady_ex : wfd (steps logging) = true /\ steady logging /\ user (snd (snd (exec 3 (logging, w0)))) = [3]%Z.
Proof.
  split; [reflexivity|]. split; [|reflexivity]. intros k d t [<-|[]] [<-|[]]. discriminate.
Qed.
Example C88_str_ex : comp_str (Some "{0: f}") (Some "{}") (Some "{}") =
  ("steps:" ++ String "010" ("{0: f}" ++ String "010" ("sends:" ++ String "010" ("{}" ++ String "010"
    ("inserts:" ++ String "010" ("{}" ++ String "010" ""))))))%string.
Proof. reflexivity. Qed.

(** A composition of no steps is not neutral: it makes None of anything.
    (Composition() has the step identity, and is.) *)
Theorem C88_empty_refuted :
  ~ forall (ss : list zstep) (a b : list zstep) x w, ss = a ++ sub (mk [] [] []) :: b ->
      fst (exec x (mk (number_from 0 ss) [] [], w)) = fst (exec x (mk (number_from 0 (a ++ b)) [] [], w)).
Proof.
  intro H. specialize (H [Plus; sub (mk [] [] []); Twice] [Plus] [Twice] 5%Z w0 eq_refl). discriminate.
Qed.
Print Assumptions C88_empty_refuted.
Theorem C88_neutral {V W} (none : V) trace str name w (c : @comp V W) w' x v :
  construct none SNone SNone SNone name None false w = (Ok tt, (c, w')) ->
  applied (as_step none trace str c) x v = (Ok x, v).
Proof. intro H. injection H as <- <-. reflexivity. Qed.
Print Assumptions C88_neutral.
Example C88_neutral_ex : exists (c : zcomp), construct none SNone SNone SNone None None false w0 = (Ok tt, (c, w0)) /\
  fst (exec 5 (mk [(KInt 0, Plus); (KInt 1, sub c); (KInt 2, Twice)] [] [], w0)) = Ok 10%Z.
Proof. eexists. split; reflexivity. Qed.

(** ** C89 *)

(** A tracker changes nothing but trackers, for steps and sends that do not look
    at trackers: executions have the same results and effects ... *)
Theorem C89_tracker {V W} (none : V) trace t ss sn ins name opt (w : @world V W) c w0 c' w0' xs :
  wfd (as_mapping (match ss with SNone => SSeq [@identity V W] | _ => ss end)) = true ->
  (forall k f, In (k, f) (as_mapping ss) -> blind_step f) ->
  (forall k l d, dget (as_mapping sn) k = Some l -> In d l -> blind_send d) ->
  construct none ss sn ins name None opt w = (Ok tt, (c, w0)) ->
  construct none ss sn ins name (Some t) opt w = (Ok tt, (c', w0')) ->
  fst (executions none trace xs (c, w0)) = fst (executions none trace xs (c', w0')) /\
  but_trackers (snd (snd (executions none trace xs (c, w0)))) (snd (snd (executions none trace xs (c', w0')))) /\
  inserts (fst (snd (executions none trace xs (c', w0')))) = inserts (fst (snd (executions none trace xs (c, w0)))).
Proof. exact (tracker_lemma none trace t ss sn ins name opt w c w0 c' w0' xs). Qed.
Print Assumptions C89_tracker.

(** ... also from track() on. *)
Theorem C89_track {V W} (none : V) trace outdir now (c : @comp V W) w c' w' xs :
  wfd (steps c) = true -> ctracker c = None ->
  (forall k f, In (k, f) (steps c) -> blind_step f) ->
  (forall k d, In k (dkeys (steps c)) -> In d (sends_of c k) -> blind_send d) ->
  start_tracking none outdir now (c, w) = (Ok tt, (c', w')) ->
  fst (executions none trace xs (c, w)) = fst (executions none trace xs (c', w')) /\
  but_trackers (snd (snd (executions none trace xs (c, w)))) (snd (snd (executions none trace xs (c', w')))) /\
  inserts (fst (snd (executions none trace xs (c', w')))) = inserts (fst (snd (executions none trace xs (c, w)))).
Proof. exact (started_lemma none trace outdir now c w c' w' xs). Qed.
Print Assumptions C89_track.

(** A TrivialTracker changes nothing at all, whatever the steps do. *)
Theorem C89_trivial {V W} (none : V) trace ss sn ins name opt (w : @world V W) c w0 c' w0' xs :
  wfd (as_mapping (match ss with SNone => SSeq [@identity V W] | _ => ss end)) = true ->
  construct none ss sn ins name None opt w = (Ok tt, (c, w0)) ->
  construct none ss sn ins name (Some Trivial) opt w = (Ok tt, (c', w0')) ->
  fst (executions none trace xs (c, w0)) = fst (executions none trace xs (c', w0')) /\
  snd (snd (executions none trace xs (c, w0))) = snd (snd (executions none trace xs (c', w0'))) /\
  inserts (fst (snd (executions none trace xs (c', w0')))) = inserts (fst (snd (executions none trace xs (c, w0)))).
Proof. exact (trivial_lemma none trace ss sn ins name opt w c w0 c' w0' xs). Qed.
Print Assumptions C89_trivial.

(** Steps that write to a log and fail, with and without a tracker; a step that
    counts what is tracked sees the difference. *)
Definition ss2 : source zstep := SSeq [Plus; Twice].
Definition sn2 : source (list zsend) := SMap [(KInt 1, [{| pipe := None; starget := TWriter write; pointer := KNone |}; into (KInt 0) (KStr "k")])].
Lemma ss2_blind k f : In (k, f) (as_mapping ss2) -> blind_step f.
Proof.
  intros [[= <- <-]|[[= <- <-]|[]]]; intros args kw v v' H.
  - unfold plus. destruct (100 <=? _)%Z; now split.
  - destruct args as [|a [|b r]]; now split.
Qed.
Lemma sn2_blind k l d : dget (as_mapping sn2) k = Some l -> In d l -> blind_send d.
Proof.
  cbn [as_mapping sn2 dget]. destruct (keqb (KInt 1) k); [|discriminate]. intros [= <-] [<-|[<-|[]]]; split; cbn; try exact I.
  intros v x y [A B]. split; [reflexivity|]. split; [exact A|]. cbn. now rewrite B.
Qed.
Definition un (t : option tkind) (ss : source zstep) := snd (construct (V := Z) (W := list Z) none ss sn2 SNone None t false wt).
Definition runs (xs : list Z) s := executions (V := Z) (W := list Z) none trace xs s.
Example C89_tracker_ex : fst (runs [3; 4; 95; 1]%Z (un None ss2)) = [Ok 6; Ok 20; Exc ValueError; Ok 42]%Z /\
  fst (runs [3; 4; 95; 1]%Z (un (Some (Real 0)) ss2)) = [Ok 6; Ok 20; Exc ValueError; Ok 42]%Z /\
  user (snd (snd (runs [3; 4; 95; 1]%Z (un (Some (Real 0)) ss2)))) = [6; 20; 42]%Z /\
  map (fun t => List.length (history t)) (trks (snd (snd (runs [3; 4; 95; 1]%Z (un (Some (Real 0)) ss2))))) = [7] /\
  map (fun t => List.length (history t)) (trks (snd (snd (runs [3; 4; 95; 1]%Z (un None ss2))))) = [0].
Proof. repeat split; reflexivity. Qed.
Example C89_track_ex : exists c' w', start_tracking none "." "now" (un None ss2) = (Ok tt, (c', w')) /\
  fst (runs [3; 4; 95; 1]%Z (c', w')) = [Ok 6; Ok 20; Exc ValueError; Ok 42]%Z /\
  map (fun t => List.length (history t)) (trks (snd (snd (runs [3; 4; 95; 1]%Z (c', w'))))) = [0; 7].
Proof. eexists. eexists. repeat split; reflexivity. Qed.
Definition counting : zstep := Plain (Some "counting") "<function counting>"
  (fun _ _ w => (Ok (fold_right Z.add 0%Z (map (fun t => Z.of_nat (List.length (history t))) (trks w))), w)).
Example C89_trivial_ex : fst (runs [5; 5]%Z (un (Some Trivial) (SSeq [counting]))) = [Ok 0; Ok 0]%Z /\
  fst (runs [5; 5]%Z (un None (SSeq [counting]))) = [Ok 0; Ok 0]%Z /\
  fst (runs [5; 5]%Z (un (Some (Real 0)) (SSeq [counting]))) = [Ok 0; Ok 1]%Z.
Proof. repeat split; reflexivity. Qed.
