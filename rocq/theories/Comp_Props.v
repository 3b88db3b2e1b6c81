(** C23-C30: Composition (composition.py). *)
From Coq Require Import Lia.
From Verif Require Export Comp_Lemmas.

(** ** A small world for the examples: numbers, and a log of writes *)

Notation zstep := (@step Z (list Z)).
Notation zcomp := (@comp Z (list Z)).
Notation zworld := (@world Z (list Z)).
Notation zsend := (@send Z (list Z)).
Definition none : Z := (-1)%Z.
Definition trace (_ : exn) : string * list frame := ("<class 'ValueError'>: too big", []).
(** All arguments and the keyword "k", if there, added up; ValueError from
    100 on. *)
Definition plus (args : list Z) (kw : dict Z) : @act Z (list Z) Z :=
  let n := (fold_right Z.add 0 args + match dget kw (KStr "k") with Some v => v | None => 0 end)%Z in
  if (100 <=? n)%Z then eraise ValueError else eret n.
Definition Plus : zstep := Plain (Some "plus") "<function plus>" plus.
(** The arguments as digits: their order matters. *)
Definition digits (args : list Z) (kw : dict Z) : @act Z (list Z) Z := eret (fold_left (fun n d => 10 * n + d)%Z args 0%Z).
Definition Digits : zstep := Plain (Some "digits") "<function digits>" digits.
Definition Partial : zstep := Part None "functools.partial" {| p_args := Some [3; 4]%Z; p_keywords := Some [(KStr "k", 7%Z)]; p_func := digits |}.
Definition Twice : zstep := Plain (Some "twice") "<function twice>" (fun args _ => match args with [x] => eret (2 * x)%Z | _ => eraise TypeError end).
Definition Ten : zstep := Plain (Some "ten") "<function ten>" (fun _ _ => eret 10%Z).
Definition w0 : zworld := {| objs := []; trks := []; user := [] |}.
Definition mk (ss : dict zstep) (sn : dict (list zsend)) (ins : dict (dict Z)) : zcomp :=
  {| steps := ss; sends := sn; inserts := ins; ctracker := None; optional := false; cname := "c"; captures := None |}.
Definition into (t p : key) : zsend := {| pipe := None; starget := TStep t; pointer := p |}.
Definition write (v : Z) : @act Z (list Z) unit := fun w => (Ok tt, {| objs := objs w; trks := trks w; user := user w ++ [v] |}).
Definition exec (x : Z) := @execute Z (list Z) none trace x.

Lemma plus_pure args kw : pure (plus args kw).
Proof.
  unfold plus. destruct (100 <=? _)%Z; [now exists (Exc ValueError)|].
  eexists (Ok _). intro w. split; reflexivity.
Qed.
Lemma plus_spares_obj r : step_spares (fun A m => spares_obj r m) Plus.
Proof. intros args kw w o H. unfold plus. now destruct (100 <=? _)%Z. Qed.
Lemma plus_spares_trk i : step_spares (fun A m => spares_trk i m) Plus.
Proof. intros args kw w o H. unfold plus. now destruct (100 <=? _)%Z. Qed.
Lemma Ten_spares i : step_spares (fun A m => spares_trk i m) Ten.
Proof. intros args kw w o H. exact H. Qed.

(** ** C23 *)

(** Without inserts and sends, the result is that of the steps applied one
    after the other to the signal; nothing else happens. *)
Theorem C23_pipeline {V W} (none : V) trace (c : @comp V W) w x : wfd (steps c) = true -> bare c ->
  let '(ys, e, w') := flow (map applied (dvalues (steps c))) x w in
  fst (execute none trace x (c, w)) = outcome none (optional c) ys (option_map surfaced e) /\
  fst (snd (execute none trace x (c, w))) = c /\
  (ctracker c = None -> snd (snd (execute none trace x (c, w))) = w').
Proof. exact (pipeline_lemma none trace c w x). Qed.
Print Assumptions C23_pipeline.

(** The first [n] values of itercall are the outputs of the first [n] steps,
    and asking for them runs no other step. *)
Theorem C23_generator {V W} (c : @comp V W) w x n : wfd (steps c) = true -> bare c ->
  pull n (itercall c x) (c, w) =
    let '(ys, e, w') := flow (firstn n (map applied (dvalues (steps c)))) x w in (ys, option_map surfaced e, (c, w')).
Proof. exact (generator_lemma c w x n). Qed.
Print Assumptions C23_generator.

Theorem C23_empty {V W} (none : V) trace (c : @comp V W) w x :
  steps c = [] -> execute none trace x (c, w) = (Ok none, (c, w)).
Proof. exact (empty_lemma none trace c w x). Qed.
Print Assumptions C23_empty.

Definition pipe3 : zcomp := mk [(KStr "a", Plus); (KStr "b", Twice); (KInt 2, Partial)] [] [].
Lemma pipe3_bare : wfd (steps pipe3) = true /\ bare pipe3.
Proof. split; [reflexivity|]. intros k [<-|[<-|[<-|[]]]]; split; reflexivity. Qed.
Example C23_pipeline_ex : wfd (steps pipe3) = true /\ bare pipe3 /\
  fst (exec 4 (pipe3, w0)) = Ok 348%Z /\ fst (exec 120 (pipe3, w0)) = Exc ValueError /\
  fst (flow (map applied (dvalues (steps pipe3))) 4%Z w0) = ([4; 8; 348]%Z, None).
Proof. split; [reflexivity|]. split; [apply pipe3_bare|]. repeat split; reflexivity. Qed.
(** A StopIteration of a step comes out of the generator as a RuntimeError. *)
Definition Dry : zstep := Plain (Some "dry") "<function dry>" (fun _ _ => eraise StopIteration).
Example C23_stop_ex : fst (exec 4 (mk [(KInt 0, Plus); (KInt 1, Dry)] [] [], w0)) = Exc RuntimeError.
Proof. reflexivity. Qed.
Example C23_generator_ex : fst (pull 2 (itercall pipe3 4%Z) (pipe3, w0)) = ([4; 8]%Z, None).
Proof. reflexivity. Qed.
Example C23_empty_ex : exec 4 (mk [] [] [], w0) = (Ok none, (mk [] [] [], w0)).
Proof. reflexivity. Qed.

(** ** C24 *)

(** A step is called with the values inserted at int keys and the signal in
    the first free position, and with the values inserted at string keys. *)
Theorem C24_positions {V W} (c : @comp V W) k x n s f :
  wfd (inserts_at c k) = true -> dget (steps c) k = Some (Plain n s f) ->
  exists l, placed (by_insert (inserts_at c k)) x l /\
    call_step c k x = f l (filter (fun kv => is_str (fst kv)) (inserts_at c k)).
Proof. exact (call_plain_lemma c k x n s f). Qed.
Print Assumptions C24_positions.

(** There is only one such list of arguments. *)
Theorem C24_unique {V} (pv : Z -> option V) x l l' : placed pv x l -> placed pv x l' -> l = l'.
Proof. exact (placed_unique pv x l l'). Qed.
Print Assumptions C24_unique.

(** Calling a step does not change inserts; only sends into steps do. *)
Theorem C24_unchanged {V W} (c : @comp V W) w k x r c' w' : _do_step k x (c, w) = (r, (c', w')) ->
  (forall d, In d (sends_of c k) -> wire d = []) -> forall t, inserts_at c' t = inserts_at c t.
Proof. exact (calls_keep_inserts c w k x r c' w'). Qed.
Print Assumptions C24_unchanged.

(** Positions -1, 0, 1, 5 taken: the signal goes to 2. *)
Definition gaps : zcomp :=
  mk [(KStr "d", Digits)] [] [(KStr "d", [(KInt 5, 9); (KInt 0, 1); (KBool true, 2); (KStr "k", 8); (KInt (-1), 7)]%Z)].
Example C24_positions_ex : wfd (inserts_at gaps (KStr "d")) = true /\
  fst (call_step gaps (KStr "d") 3%Z w0) = Ok 71239%Z /\
  placed (by_insert (inserts_at gaps (KStr "d"))) 3%Z [7; 1; 2; 3; 9]%Z.
Proof.
  split; [reflexivity|]. split; [reflexivity|].
  destruct (C24_positions gaps (KStr "d") 3%Z _ _ digits eq_refl eq_refl) as (l & H & E).
  assert (E' := f_equal (fun m => fst (m w0)) E). cbn in E'. destruct (flow_placed [(KInt 5, 9); (KInt 0, 1); (KBool true, 2); (KInt (-1), 7)]%Z 3%Z eq_refl) as (l' & A & B).
  { intros k [<-|[<-|[<-|[<-|[]]]]]; reflexivity. }
  injection A as <-. eapply placed_ext; [|exact B]. intro z. unfold by_insert. change (inserts_at gaps (KStr "d")) with
    [(KInt 5, 9); (KInt 0, 1); (KBool true, 2); (KStr "k", 8); (KInt (-1), 7)]%Z. cbn [dget].
  repeat match goal with |- context [keqb (KStr "k") ?x] => change (keqb (KStr "k") x) with false end. reflexivity.
Qed.
Example C24_unchanged_ex : inserts (fst (snd (_do_step (KStr "d") 3%Z (gaps, w0)))) = inserts gaps /\
  fst (_do_step (KStr "d") 3%Z (gaps, w0)) = Ok 71239%Z.
Proof. split; reflexivity. Qed.

(** ** C25 *)

(** A partial: inserts override the arguments baked into it. *)
Theorem C25_overrides {V W} (c : @comp V W) k x n s p :
  wfd (inserts_at c k) = true -> dget (steps c) k = Some (Part n s p) ->
  exists l,
    placed (by_partial (match p_args p with Some a => a | None => [] end) (inserts_at c k)) x l /\
    call_step c k x =
      p_func p l (match p_keywords p with
                  | Some kw => dupdate kw (filter (fun kv => is_str (fst kv)) (inserts_at c k))
                  | None => filter (fun kv => is_str (fst kv)) (inserts_at c k)
                  end).
Proof. exact (call_part_lemma c k x n s p). Qed.
Print Assumptions C25_overrides.

(** Without inserts, [partial(f, *a, **k)] is called as [f( *a, x, **k)]. *)
Theorem C25_bare {V W} (c : @comp V W) k x n s f a kw : inserts_at c k = [] ->
  dget (steps c) k = Some (Part n s {| p_args := Some a; p_keywords := Some kw; p_func := f |}) ->
  call_step c k x = f (a ++ [x]) kw.
Proof. exact (call_applied c k x (Part n s {| p_args := Some a; p_keywords := Some kw; p_func := f |})). Qed.
Print Assumptions C25_bare.

Example C25_overrides_ex :
  let c := mk [(KStr "p", Partial)] [] [(KStr "p", [(KInt 1, 8); (KStr "k", 1)]%Z)] in
  wfd (inserts_at c (KStr "p")) = true /\ fst (call_step c (KStr "p") 5%Z w0) = Ok 385%Z.
Proof. split; reflexivity. Qed.
Example C25_bare_ex : inserts_at pipe3 (KInt 2) = [] /\ fst (call_step pipe3 (KInt 2) 5%Z w0) = Ok 345%Z.
Proof. split; reflexivity. Qed.

(** ** C26 *)

(** A step's output goes through its sends one after the other, before the
    step is done; the first send that raises makes the step raise. *)
Theorem C26_step {V W} (c : @comp V W) w k x :
  _do_step k x (c, w) =
    match call_step c k x w with
    | (Ok y, w') =>
        match run_sends (sends_of c k) y (c, w') with (Ok _, s') => (Ok y, s') | (Exc e, s') => (Exc e, s') end
    | (Exc e, w') => (Exc e, (c, w'))
    end.
Proof. exact (do_step_run k x c w). Qed.
Print Assumptions C26_step.

(** A pipe is called once; what it returns is delivered instead. *)
Theorem C26_pipe {V W} (d : @send V W) p x c w : pipe d = Some p ->
  perform_send x d (c, w) =
    match p x w with
    | (Ok y, w') => perform_send y {| pipe := None; starget := starget d; pointer := pointer d |} (c, w')
    | (Exc e, w') => (Exc e, (c, w'))
    end.
Proof. exact (send_pipe_lemma d p x c w). Qed.
Print Assumptions C26_pipe.

(** To a step: an insert there, and no other change. *)
Theorem C26_insert {V W} (d : @send V W) t x c w : starget d = TStep t -> pipe d = None ->
  exists c', perform_send x d (c, w) = (Ok tt, (c', w)) /\ same_shape c c' /\
    forall t' k', dget (inserts_at c' t') k' =
      if keqb t t' && keqb (pointer d) k' then Some x else dget (inserts_at c t') k'.
Proof. exact (send_insert_lemma d t x c w). Qed.
Print Assumptions C26_insert.

(** To a list: appended, or assigned to an item it has. *)
Theorem C26_list {V W} (d : @send V W) r l x c w :
  starget d = TRef r -> pipe d = None -> nth_error (objs w) r = Some (OList l) ->
  perform_send x d (c, w) =
    match pointer d with
    | KNone => (Ok tt, (c, with_objs w (set_nth (objs w) r (OList (l ++ [x])))))
    | p => match kint p with
           | None => (Exc TypeError, (c, w))
           | Some i =>
               if (i <? - Z.of_nat (List.length l))%Z || (Z.of_nat (List.length l) <=? i)%Z
               then (Exc IndexError, (c, w))
               else (Ok tt, (c, with_objs w (set_nth (objs w) r (OList
                      (set_nth l (Z.to_nat (if i <? 0 then Z.of_nat (List.length l) + i else i)%Z) x)))))
           end
    end.
Proof. exact (send_list_lemma d r l x c w). Qed.
Print Assumptions C26_list.

(** To a dictionary, a writer, anything else. *)
Theorem C26_dict {V W} (d : @send V W) r m x c w :
  starget d = TRef r -> pipe d = None -> nth_error (objs w) r = Some (ODict m) ->
  perform_send x d (c, w) = (Ok tt, (c, with_objs w (set_nth (objs w) r (ODict (dset m (pointer d) x))))).
Proof. exact (send_dict_lemma d r m x c w). Qed.
Print Assumptions C26_dict.
Theorem C26_writer {V W} (d : @send V W) f x c w : starget d = TWriter f -> pipe d = None ->
  perform_send x d (c, w) = (fst (f x w), (c, snd (f x w))).
Proof. exact (send_writer_lemma d f x c w). Qed.
Print Assumptions C26_writer.
Theorem C26_nowhere {V W} (d : @send V W) x c w : starget d = TNone \/ starget d = TOther -> pipe d = None ->
  perform_send x d (c, w) = (Ok tt, (c, w)).
Proof. exact (send_nowhere_lemma d x c w). Qed.
Print Assumptions C26_nowhere.

(** When a step runs, every send of the steps before it in this execution has
    been delivered: its inserts are the last values sent to it, or what they
    were before. *)
Theorem C26_in_time {V W} (c : @comp V W) w x pre k post ys c1 w1 : dkeys (steps c) = pre ++ k :: post ->
  pull (List.length pre) (itercall c x) (c, w) = (ys, None, (c1, w1)) ->
  same_shape c c1 /\ List.length ys = List.length pre /\
  pull (S (List.length pre)) (itercall c x) (c, w) =
    (match _do_step k (last ys x) (c1, w1) with
     | (Ok y, s') => (ys ++ [y], None, s')
     | (Exc e, s') => (ys, Some (surfaced e), s')
     end) /\
  exists sent, map fst sent = wires c pre /\
    ((forall k' d, In k' pre -> In d (sends_of c k') -> unpiped d) -> sent = carried c (combine pre ys)) /\
    forall t p, dget (inserts_at c1 t) p = last_sent sent t p (dget (inserts_at c t) p).
Proof. exact (in_time_lemma c w x pre k post ys c1 w1). Qed.
Print Assumptions C26_in_time.

(** The first step's output is added again by the third. *)
Definition sending : zcomp :=
  mk [(KInt 0, Plus); (KInt 1, Twice); (KInt 2, Plus)]
     [(KInt 0, [into (KInt 2) (KStr "k"); {| pipe := None; starget := TWriter write; pointer := KNone |}]);
      (KInt 1, [{| pipe := None; starget := TRef 0; pointer := KNone |};
                {| pipe := Some (fun v => eret (v + 1)%Z); starget := TRef 0; pointer := KInt 0 |};
                {| pipe := None; starget := TRef 1; pointer := KStr "x" |}])] [].
Definition w1 : zworld := {| objs := [OList []; ODict []]; trks := []; user := [] |}.
Example C26_in_time_ex :
  dkeys (steps sending) = [KInt 0; KInt 1] ++ KInt 2 :: [] /\
  fst (pull 2 (itercall sending 5%Z) (sending, w1)) = ([5; 10]%Z, None) /\
  fst (exec 5 (sending, w1)) = Ok 15%Z /\
  objs (snd (snd (exec 5 (sending, w1)))) = [OList [11]%Z; ODict [(KStr "x", 10%Z)]] /\
  user (snd (snd (exec 5 (sending, w1)))) = [5]%Z.
Proof. repeat split; reflexivity. Qed.
Example C26_step_ex : fst (_do_step (KInt 0) 5%Z (sending, w1)) = Ok 5%Z /\
  inserts_at (fst (snd (_do_step (KInt 0) 5%Z (sending, w1)))) (KInt 2) = [(KStr "k", 5%Z)].
Proof. split; reflexivity. Qed.
Example C26_insert_ex : starget (into (KInt 2) (KStr "k")) = TStep (KInt 2) /\
  inserts (fst (snd (perform_send 5%Z (into (KInt 2) (KStr "k")) (sending, w1)))) = [(KInt 2, [(KStr "k", 5%Z)])].
Proof. split; reflexivity. Qed.
Example C26_list_ex : fst (perform_send 5%Z {| pipe := None; starget := TRef 0; pointer := KInt 0 |} (sending, w1)) = Exc IndexError /\
  fst (perform_send 5%Z {| pipe := None; starget := TRef 0; pointer := KStr "a" |} (sending, w1)) = Exc TypeError.
Proof. split; reflexivity. Qed.

(** ** C27 *)

(** Executions do not influence each other, if steps, pipes and writers are
    pure, sends into steps go to later steps, and sends to items of lists are
    to items they have. *)
Theorem C27_forward {V W} (none : V) trace (c : @comp V W) w xs x :
  wfd (steps c) = true -> (forall t, wfd (inserts_at c t) = true) ->
  pure_at c (dkeys (steps c)) -> ranged_at c (dkeys (steps c)) w -> forward c ->
  fst (execute none trace x (snd (executions none trace xs (c, w)))) = fst (execute none trace x (c, w)).
Proof. exact (indep_lemma none trace c w xs x). Qed.
Print Assumptions C27_forward.

(** A failing execution in between: the insert left behind is overwritten. *)
Definition fwd : zcomp := mk [(KInt 0, Plus); (KInt 1, Plus); (KInt 2, Plus)]
  [(KInt 0, [into (KInt 2) (KStr "k"); {| pipe := None; starget := TRef 0; pointer := KNone |}])] [].
Example C27_forward_ex : wfd (steps fwd) = true /\ (forall t, wfd (inserts_at fwd t) = true) /\
  pure_at fwd (dkeys (steps fwd)) /\ ranged_at fwd (dkeys (steps fwd)) w1 /\ forward fwd /\
  fst (executions none trace [60; 1]%Z (fwd, w1)) = [Exc ValueError; Ok 2%Z] /\
  fst (exec 3 (fwd, w1)) = Ok 6%Z.
Proof.
  split; [reflexivity|]. split; [reflexivity|]. split.
  { split.
    - intros k f [<-|[<-|[<-|[]]]] H; injection H as <-; exact plus_pure.
    - intros k d [<-|[<-|[<-|[]]]] H; try contradiction. destruct H as [<-|[<-|[]]]; repeat split. }
  split.
  { intros k d [<-|[<-|[<-|[]]]] H; try contradiction. destruct H as [<-|[<-|[]]]; cbn; auto. }
  split.
  { intros a k b d t H Hd Ht k' Hk'.
    destruct a as [|a0 [|a1 [|a2 a]]]; try (injection H; intros; subst; contradiction).
    - injection H as <- _. destruct Hd as [<-|[<-|[]]]; [|discriminate]. injection Ht as <-. destruct Hk' as [<-|[]]. reflexivity.
    - injection H. intros E _ _ _. destruct a; discriminate. }
  split; reflexivity.
Qed.

(** With a send back to an earlier step, or the same one, they do. *)
Definition feedback : zcomp := mk [(KInt 0, Plus)] [(KInt 0, [into (KInt 0) (KStr "k")])] [].
Theorem C27_feedback_refuted :
  ~ forall (c : zcomp) w xs x, wfd (steps c) = true -> (forall t, wfd (inserts_at c t) = true) ->
      pure_at c (dkeys (steps c)) -> ranged_at c (dkeys (steps c)) w ->
      fst (exec x (snd (executions none trace xs (c, w)))) = fst (exec x (c, w)).
Proof.
  intro H. assert (E := H feedback w0 [1]%Z 1%Z eq_refl (fun _ => eq_refl)).
  enough (fst (exec 1 (snd (executions none trace [1]%Z (feedback, w0)))) = fst (exec 1 (feedback, w0))) by discriminate.
  apply E.
  - split; [intros k f [<-|[]] G; injection G as <-; exact plus_pure|].
    intros k d [<-|[]] G. destruct G as [<-|[]]. repeat split.
  - intros k d [<-|[]] G. destruct G as [<-|[]]. exact I.
Qed.
Print Assumptions C27_feedback_refuted.
Example C27_feedback_ex : fst (executions none trace [1; 1; 1]%Z (feedback, w0)) = [Ok 1; Ok 2; Ok 3]%Z.
Proof. reflexivity. Qed.

(** ** C28 *)

(** After add_captures, any executions and then one more: each capture holds
    the output of its step in the last execution, if the step was completed
    then, and otherwise what it held before. *)
Theorem C28_captures {V W} (none : V) trace (c : @comp V W) w c1 w1 xs c2 w2 x ys e s3 : wfd (steps c) = true ->
  (forall k f r, In k (dkeys (steps c)) -> dget (steps c) k = Some f -> List.length (objs w) <= r ->
    step_spares (fun A m => spares_obj r m) f) ->
  (forall k d r, In k (dkeys (steps c)) -> In d (sends_of c k) -> List.length (objs w) <= r ->
    send_spares (fun A m => spares_obj r m) d /\ elsewhere r d) ->
  add_captures none (c, w) = (Ok tt, (c1, w1)) ->
  snd (executions none trace xs (c1, w1)) = (c2, w2) ->
  pull (List.length (steps c)) (itercall c2 x) (c2, w2) = (ys, e, s3) ->
  exists caps, captures c2 = Some caps /\ dkeys caps = dkeys (steps c) /\
    fst (execute none trace x (c2, w2)) = outcome none (optional c) ys e /\
    (e = None -> List.length ys = List.length (steps c)) /\
    forall i k r, nth_error caps i = Some (k, r) -> exists old,
      nth_error (objs w2) r = Some (OList [old]) /\
      nth_error (objs (snd (snd (execute none trace x (c2, w2))))) r =
        Some (OList [match nth_error ys i with Some y => y | None => old end]).
Proof. exact (captures_lemma none trace c w c1 w1 xs c2 w2 x ys e s3). Qed.
Print Assumptions C28_captures.

(** add_captures always works. *)
Theorem C28_add_captures {V W} (none : V) (c : @comp V W) w : wfd (steps c) = true ->
  exists c1, add_captures none (c, w) =
    (Ok tt, (c1, with_objs w (objs w ++ repeat (OList [none]) (List.length (steps c))))) /\
    steps c1 = steps c /\ inserts c1 = inserts c.
Proof. exact (add_captures_lemma none c w). Qed.
Print Assumptions C28_add_captures.

Definition caught := snd (add_captures none (fwd, w1)).
Example C28_captures_ex :
  (forall k f r, In k (dkeys (steps fwd)) -> dget (steps fwd) k = Some f -> List.length (objs w1) <= r ->
    step_spares (fun A m => spares_obj r m) f) /\
  (forall k d r, In k (dkeys (steps fwd)) -> In d (sends_of fwd k) -> List.length (objs w1) <= r ->
    send_spares (fun A m => spares_obj r m) d /\ elsewhere r d) /\
  objs (snd (snd (executions none trace [3; 60]%Z caught))) =
    [OList [3; 60]; ODict []; OList [60]; OList [60]; OList [6]]%Z /\
  fst (executions none trace [3; 60]%Z caught) = [Ok 6%Z; Exc ValueError].
Proof.
  split.
  { intros k f r [<-|[<-|[<-|[]]]] H _; injection H as <-; apply plus_spares_obj. }
  split.
  { intros k d r [<-|[<-|[<-|[]]]] H Hr; try contradiction. destruct H as [<-|[<-|[]]]; cbn in *; repeat split; lia. }
  split; reflexivity.
Qed.

(** ** C29 *)

(** A tracked execution appends one record for each completed step, in order,
    and then one for the step that raised an Exception.  (If the tracking send
    of a step is followed by other sends, one of these may raise after the
    step has been recorded.) *)
Theorem C29_tracked {V W} (none : V) trace i (c : @comp V W) w x ys e s' t post :
  wfd (steps c) = true -> ctracker c = Some (Real i) ->
  (forall k f, In (k, f) (steps c) -> tracked none i c k f (post k)) -> nth_error (trks w) i = Some t ->
  pull (List.length (steps c)) (itercall c x) (c, w) = (ys, e, s') ->
  exists m, List.length ys <= m <= S (List.length ys) /\ (e = None -> m = List.length (steps c)) /\
    ((forall k, In k (dkeys (steps c)) -> post k = []) -> m = List.length ys) /\
    let done := step_records (metadata t) (firstn m (steps c)) (counter t) in
    nth_error (trks (snd (snd (execute none trace x (c, w))))) i =
      Some (with_records t
        (match e with
         | Some ex =>
             if is_Exception ex then
               match nth_error (steps c) (List.length ys) with
               | Some (_, f) => done ++ [error_record (metadata t) f (exc_report (fst (trace ex)) (snd (trace ex)))
                                           (counter t + Z.of_nat m)]
               | None => done
               end
             else done
         | None => done
         end)).
Proof. exact (tracked_execute_lemma none trace i c w x ys e s' t post). Qed.
Print Assumptions C29_tracked.

(** Compositions are tracked from their construction on ... *)
Theorem C29_construct {V W} (none : V) ss sn ins name i opt (w : @world V W) :
  wfd (as_mapping (match ss with SNone => SSeq [@identity V W] | _ => ss end)) = true ->
  (forall k f, In (k, f) (as_mapping (match ss with SNone => SSeq [@identity V W] | _ => ss end)) ->
     step_spares (fun A m => spares_trk i m) f) ->
  (forall k l d, dget (as_mapping sn) k = Some l -> In d l -> send_spares (fun A m => spares_trk i m) d) ->
  exists c w', construct none ss sn ins name (Some (Real i)) opt w = (Ok tt, (c, w')) /\
    wfd (steps c) = true /\ ctracker c = Some (Real i) /\
    steps c = as_mapping (match ss with SNone => SSeq [identity] | _ => ss end) /\
    forall k f, In (k, f) (steps c) -> tracked none i c k f [].
Proof. exact (construct_tracked_lemma none ss sn ins name i opt w). Qed.
Print Assumptions C29_construct.

(** ... or from track() on, by a new tracker that nothing else has; on a tracked
    composition track() does nothing ... *)
Theorem C29_track {V W} (none : V) outdir now (c : @comp V W) w : wfd (steps c) = true -> ctracker c = None ->
  (forall k f, In (k, f) (steps c) -> step_spares (fun A m => spares_trk (List.length (trks w)) m) f) ->
  (forall k d, In d (sends_of c k) -> send_spares (fun A m => spares_trk (List.length (trks w)) m) d) ->
  exists c', start_tracking none outdir now (c, w) =
      (Ok tt, (c', with_trks w (trks w ++ [new_tracker KNone "" outdir now]))) /\
    steps c' = steps c /\ inserts c' = inserts c /\ ctracker c' = Some (Real (List.length (trks w))) /\
    forall k f, In (k, f) (steps c') -> tracked none (List.length (trks w)) c' k f [].
Proof. exact (start_tracking_lemma none outdir now c w). Qed.
Print Assumptions C29_track.
Theorem C29_track_twice {V W} (none : V) outdir now (c : @comp V W) w :
  ctracker c <> None -> start_tracking none outdir now (c, w) = (Ok tt, (c, w)).
Proof.
  intro H. unfold start_tracking, ebind, Comp_Model.get. cbn. destruct (ctracker c); [reflexivity|contradiction].
Qed.
Print Assumptions C29_track_twice.

(** ... and stay so as steps with new names and sends are added. *)
Theorem C29_add_step {V W} (none : V) i (c : @comp V W) w f name c' w' :
  wfd (steps c) = true -> ctracker c = Some (Real i) ->
  (forall k g, In (k, g) (steps c) -> exists post, tracked none i c k g post) ->
  dget (steps c) (step_name c name) = None ->
  step_spares (fun A m => spares_trk i m) f ->
  (forall d, In d (sends_of c (step_name c name)) -> send_spares (fun A m => spares_trk i m) d) ->
  add_step none f name (c, w) = (Ok tt, (c', w')) ->
  w' = w /\ wfd (steps c') = true /\ ctracker c' = Some (Real i) /\
  (forall k g, In (k, g) (steps c') -> exists post, tracked none i c' k g post) /\
  ((forall k g, In (k, g) (steps c) -> tracked none i c k g []) ->
   (forall k g, In (k, g) (steps c') -> tracked none i c' k g [])).
Proof. exact (add_step_tracked_lemma none i c w f name c' w'). Qed.
Print Assumptions C29_add_step.
Theorem C29_add_send {V W} (none : V) i (c : @comp V W) w n p t ptr c' w' :
  (forall k g, In (k, g) (steps c) -> exists post, tracked none i c k g post) ->
  send_spares (fun A m => spares_trk i m) {| pipe := p; starget := t; pointer := ptr |} ->
  add_send n p t ptr (c, w) = (Ok tt, (c', w')) ->
  w' = w /\ steps c' = steps c /\ forall k g, In (k, g) (steps c') -> exists post, tracked none i c' k g post.
Proof. exact (add_send_tracked_lemma none i c w n p t ptr c' w'). Qed.
Print Assumptions C29_add_send.

Definition wt : zworld := {| objs := []; trks := [new_tracker KNone "" "." "now"]; user := [] |}.
Definition twosteps := snd (construct (V := Z) (W := list Z) none (SSeq [Plus; Plus]) SNone (SMap [(KInt 1, [(KStr "k", 50%Z)])]) None (Some (Real 0)) false wt).
Definition records (s : zcomp * zworld) : list (list mval) :=
  match trks (snd s) with
  | [t] => map (fun r => flat_map (fun k => match dget r (KStr k) with Some v => [v] | None => [] end) ["target"; "caller"; "step"]) (history t)
  | _ => []
  end.
Example C29_tracked_ex :
  (forall k f, In (k, f) (steps (fst twosteps)) -> tracked none 0 (fst twosteps) k f []) /\
  fst (exec 1 twosteps) = Ok 51%Z /\ fst (exec 50 twosteps) = Exc ValueError /\
  records (snd (exec 1 twosteps)) =
    [[MStr "plus"; MStr "track"; MAtom (KInt 0)]; [MStr "plus"; MStr "track"; MAtom (KInt 1)]] /\
  records (snd (exec 50 twosteps)) =
    [[MStr "plus"; MStr "track"; MAtom (KInt 0)]; [MStr "plus"; MStr "execute"]].
Proof.
  split.
  { intros k f [H|[H|[]]]; injection H as <- <-; (split; [apply plus_spares_trk|]; exists []; split; [reflexivity|contradiction]). }
  repeat split; reflexivity.
Qed.

Definition later := snd (start_tracking none "." "now"
  (snd (construct (V := Z) (W := list Z) none (SSeq [Plus; Plus]) SNone (SMap [(KInt 1, [(KStr "k", 50%Z)])]) None None false
          {| objs := []; trks := []; user := [] |}))).
Example C29_track_ex :
  (forall k f, In (k, f) (steps (fst later)) -> tracked none 0 (fst later) k f []) /\
  records (snd (exec 1 later)) =
    [[MStr "plus"; MStr "track"; MAtom (KInt 0)]; [MStr "plus"; MStr "track"; MAtom (KInt 1)]] /\
  ctracker (fst later) <> None /\ snd (start_tracking none "." "then" later) = later.
Proof.
  split.
  { intros k f [H|[H|[]]]; injection H as <- <-; (split; [apply plus_spares_trk|]; exists []; split; [reflexivity|contradiction]). }
  repeat split; discriminate.
Qed.

(** A step that is replaced keeps its old record besides the new one. *)
Definition replaced := snd (add_step none Ten (KInt 1) twosteps).
Theorem C29_replaced_refuted :
  ~ forall (c : zcomp) w f name c' w' x v s'' t t',
      (forall k g, In (k, g) (steps c) -> tracked none 0 c k g []) -> step_spares (fun A m => spares_trk 0 m) f ->
      add_step none f name (c, w) = (Ok tt, (c', w')) -> exec x (c', w') = (Ok v, s'') ->
      nth_error (trks w') 0 = Some t -> nth_error (trks (snd s'')) 0 = Some t' ->
      List.length (history t') = List.length (history t) + List.length (steps c').
Proof.
  intro H.
  assert (E : add_step none Ten (KInt 1) twosteps = (Ok tt, (fst replaced, snd replaced))) by reflexivity.
  destruct twosteps as [c w] eqn:Et.
  specialize (H c w Ten (KInt 1) (fst replaced) (snd replaced) 1%Z 10%Z (snd (exec 1 replaced))).
  assert (K := proj1 C29_tracked_ex). rewrite Et in K. specialize (H _ _ K (Ten_spares 0) E eq_refl eq_refl eq_refl).
  discriminate.
Qed.
Print Assumptions C29_replaced_refuted.
Example C29_replaced_ex : records (snd (exec 1 replaced)) =
  [[MStr "plus"; MStr "track"; MAtom (KInt 0)]; [MStr "plus"; MStr "track"; MAtom (KInt 1)]; [MStr "ten"; MStr "track"; MAtom (KInt 1)]].
Proof. reflexivity. Qed.

(** ** C30 *)

(** add_step appends a step with a new name, or without a name if no step has
    the number len + 1 for a name; else it replaces the step in place. *)
Theorem C30_add_step {V W} (none : V) f name (c : @comp V W) w :
  exists c', add_step none f name (c, w) = (Ok tt, (c', w)) /\
    inserts c' = inserts c /\ ctracker c' = ctracker c /\ optional c' = optional c /\
    (ctracker c = None -> sends c' = sends c) /\
    (dget (steps c) (step_name c name) = None -> steps c' = steps c ++ [(step_name c name, f)]) /\
    (forall a k g b, steps c = a ++ (k, g) :: b -> wfd (steps c) = true -> keqb k (step_name c name) = true ->
       steps c' = a ++ (k, f) :: b).
Proof. exact (add_step_lemma none f name c w). Qed.
Print Assumptions C30_add_step.

(** The names listed are those of the steps, in order; a step without one, such
    as a partial, makes it raise. *)
Theorem C30_names {V W} (c : @comp V W) : match function_names c with
  | Ok l => map s_name (dvalues (steps c)) = map Some l
  | Exc e => e = AttributeError /\ exists s, In s (dvalues (steps c)) /\ s_name s = None
  end.
Proof. exact (names_lemma c). Qed.
Print Assumptions C30_names.

(** Steps built from a sequence: those added without a name follow. *)
Theorem C30_sequence {V W} (none : V) l fs (c : @comp V W) w : steps c = as_mapping (SSeq l) ->
  dvalues (steps (fst (add_defaults none fs (c, w)))) = l ++ fs.
Proof. exact (sequence_lemma none l fs c w). Qed.
Print Assumptions C30_sequence.

(** The same for any steps with numbers up to their number. *)
Theorem C30_numbered {V W} (none : V) fs (c : @comp V W) w :
  (forall k, In k (dkeys (steps c)) -> exists z, k = KInt z /\ (z <= Z.of_nat (List.length (steps c)))%Z) ->
  dvalues (steps (fst (add_defaults none fs (c, w)))) = dvalues (steps c) ++ fs.
Proof. exact (add_defaults_lemma none fs c w). Qed.
Print Assumptions C30_numbered.

(** reindex renames the steps to 0, ..., n - 1 and keeps their order.  What
    execute does is the same if inserts and sends are, under old names and
    numbers. *)
Theorem C30_reindex {V W} (none : V) trace (c : @comp V W) w :
  exists c', reindex (c, w) = (Ok tt, (c', w)) /\
    c' = with_steps c (steps c') /\
    Comp_Model.index c' = map (fun n => KInt (Z.of_nat n)) (seq 0 (List.length (steps c))) /\
    dvalues (steps c') = dvalues (steps c) /\
    (wfd (steps c) = true -> position_proof c -> forall x,
       fst (execute none trace x (c', w)) = fst (execute none trace x (c, w)) /\
       snd (snd (execute none trace x (c', w))) = snd (snd (execute none trace x (c, w)))).
Proof. exact (reindex_lemma none trace c w). Qed.
Print Assumptions C30_reindex.

(** A step named 2 alone is replaced by one without a name. *)
Theorem C30_default_refuted :
  ~ forall f (c : zcomp) w, wfd (steps c) = true ->
      dvalues (steps (fst (snd (add_step none f KNone (c, w))))) = dvalues (steps c) ++ [f].
Proof. intro H. specialize (H Twice (mk [(KInt 2, Plus)] [] []) w0 eq_refl). discriminate. Qed.
Print Assumptions C30_default_refuted.

(** Inserts are not renamed: they do not apply any more, or to other steps. *)
Theorem C30_reindex_refuted :
  ~ forall (c : zcomp) w x, wfd (steps c) = true ->
      fst (exec x (snd (reindex (c, w)))) = fst (exec x (c, w)).
Proof. intro H. specialize (H (mk [(KStr "a", Plus)] [] [(KStr "a", [(KStr "k", 5%Z)])]) w0 1%Z eq_refl). discriminate. Qed.
Print Assumptions C30_reindex_refuted.

Example C30_add_step_ex :
  step_name pipe3 KNone = KInt 4 /\ dget (steps pipe3) (KInt 4) = None /\
  dkeys (steps (fst (snd (add_step none Ten KNone (pipe3, w0))))) = [KStr "a"; KStr "b"; KInt 2; KInt 4] /\
  dkeys (steps (fst (snd (add_step none Ten (KStr "b") (pipe3, w0))))) = [KStr "a"; KStr "b"; KInt 2] /\
  fst (exec 4 (snd (add_step none Ten KNone (pipe3, w0)))) = Ok 10%Z /\
  fst (exec 4 (snd (add_step none Ten (KStr "b") (pipe3, w0)))) = Ok 350%Z.
Proof. repeat split; reflexivity. Qed.
Example C30_names_ex : function_names (mk [(KStr "a", Plus); (KInt 0, Twice)] [] []) = Ok ["plus"; "twice"]%string /\
  function_names (mk [(KStr "a", Plus); (KInt 0, Plain None "<partial>" plus)] [] []) = Exc AttributeError.
Proof. split; reflexivity. Qed.
Example C30_sequence_ex : steps (mk (as_mapping (SSeq [Plus; Twice])) [] []) = as_mapping (SSeq [Plus; Twice]) /\
  dkeys (steps (fst (add_defaults none [Ten; Plus] (mk (as_mapping (SSeq [Plus; Twice])) [] [], w0)))) = [KInt 0; KInt 1; KInt 3; KInt 4].
Proof. split; reflexivity. Qed.
Example C30_reindex_ex : position_proof pipe3 /\
  fst (exec 4 (snd (reindex (pipe3, w0)))) = Ok 348%Z /\
  Comp_Model.index (fst (snd (reindex (pipe3, w0)))) = [KInt 0; KInt 1; KInt 2].
Proof. split; [|split; reflexivity]. intros [|[|[|i]]] k H; try (injection H as <-; repeat split; reflexivity). destruct i; discriminate. Qed.
