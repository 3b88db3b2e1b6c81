(** Proofs about the execution of compositions (composition.py). *)
From Coq Require Import Lia.
From Verif Require Export Comp_Calls.
From Verif Require Import Py_Facts Pool_Proofs Track_Proofs.

Section Run.
  Context {V W : Type}.
  Context (none : V) (trace : exn -> string * list frame).
  Notation world := (@world V W).
  Notation step := (@step V W).
  Notation send := (@send V W).
  Notation comp := (@comp V W).
  Notation st := (@st V W).
  Implicit Types (c : comp) (w : world) (x y : V) (s : st).

  (** ** Only the inserts of a composition change *)

  Lemma shape_refl c : same_shape c c.
  Proof. destruct c. reflexivity. Qed.
  Lemma shape_trans a b c : same_shape a b -> same_shape b c -> same_shape a c.
  Proof. unfold same_shape. intros -> H. rewrite H. reflexivity. Qed.
  Lemma shape_steps c c' : same_shape c c' -> steps c' = steps c.
  Proof. intros ->. reflexivity. Qed.
  Lemma shape_sends c c' k : same_shape c c' -> sends_of c' k = sends_of c k.
  Proof. intros ->. reflexivity. Qed.
  Lemma shape_tracker c c' : same_shape c c' -> ctracker c' = ctracker c.
  Proof. intros ->. reflexivity. Qed.
  Lemma shape_optional c c' : same_shape c c' -> optional c' = optional c.
  Proof. intros ->. reflexivity. Qed.
  Lemma shape_wires c c' ks : same_shape c c' -> wires c' ks = wires c ks.
  Proof. intros ->. reflexivity. Qed.

  Lemma lift_run {A} (m : act A) s : lift m s = (fst (m (snd s)), (fst s, snd (m (snd s)))).
  Proof. unfold lift. now destruct (m (snd s)). Qed.

  Lemma place_into_shape x t p s : same_shape (fst s) (fst (snd (place_into x t p s))).
  Proof.
    destruct t; cbn [place_into]; try apply shape_refl; try (rewrite lift_run; apply shape_refl).
    reflexivity.
  Qed.
  Lemma perform_send_shape x d s : same_shape (fst s) (fst (snd (perform_send x d s))).
  Proof.
    unfold perform_send. destruct (starget d) eqn:T, (pipe d) as [p|]; try apply shape_refl; try apply place_into_shape;
      unfold ebind; rewrite lift_run; destruct (p x (snd s)) as [[y|e] w']; cbn [fst snd]; try apply shape_refl;
      apply (place_into_shape y _ (pointer d) (fst s, w')).
  Qed.

  (** ** Sends, one after the other *)

  Lemma run_sends_fold l x : forall s, efoldM (fun _ d => perform_send x d) l tt s = run_sends l x s.
  Proof.
    induction l as [|d l IH]; intro s; [reflexivity|]. cbn [efoldM run_sends]. unfold ebind.
    destruct (perform_send x d s) as [[[]|e] s']; [apply IH|reflexivity].
  Qed.
  Lemma perform_sends_run k x s : _perform_sends k x s = run_sends (sends_of (fst s) k) x s.
  Proof.
    unfold _perform_sends, ebind, Comp_Model.get, sends_of. destruct (dget (sends (fst s)) k); [apply run_sends_fold|reflexivity].
  Qed.
  Lemma run_sends_shape l x : forall s, same_shape (fst s) (fst (snd (run_sends l x s))).
  Proof.
    induction l as [|d l IH]; intro s; [apply shape_refl|]. cbn [run_sends].
    pose proof (perform_send_shape x d s) as H. destruct (perform_send x d s) as [[u|e] s']; [|exact H].
    eapply shape_trans; [exact H|apply IH].
  Qed.
  Lemma run_sends_app a b x : forall s, run_sends (a ++ b) x s =
    match run_sends a x s with (Ok _, s') => run_sends b x s' | (Exc e, s') => (Exc e, s') end.
  Proof.
    induction a as [|d a IH]; intro s; [reflexivity|]. cbn [app run_sends].
    destruct (perform_send x d s) as [[u|e] s']; [apply IH|reflexivity].
  Qed.

  (** ** Steps *)

  Lemma do_step_run k x c w :
    _do_step k x (c, w) =
    match call_step c k x w with
    | (Ok y, w') =>
        match run_sends (sends_of c k) y (c, w') with (Ok _, s') => (Ok y, s') | (Exc e, s') => (Exc e, s') end
    | (Exc e, w') => (Exc e, (c, w'))
    end.
  Proof.
    unfold _do_step, ebind, Comp_Model.get, eret. cbn [fst snd]. rewrite lift_run. cbn [fst snd].
    destruct (call_step c k x w) as [[y|e] w']; [|reflexivity]. cbn [fst snd]. rewrite perform_sends_run. cbn [fst].
    destruct (run_sends (sends_of c k) y (c, w')) as [[u|e] s']; reflexivity.
  Qed.
  Lemma do_step_shape k x s : same_shape (fst s) (fst (snd (_do_step k x s))).
  Proof.
    destruct s as [c w]. rewrite do_step_run. destruct (call_step c k x w) as [[y|e] w']; [|apply shape_refl].
    pose proof (run_sends_shape (sends_of c k) y (c, w')) as H.
    destruct (run_sends (sends_of c k) y (c, w')) as [[u|e] s']; exact H.
  Qed.
  Lemma exhaust_shape ks : forall x s ys e s', exhaust ks x s = (ys, e, s') -> same_shape (fst s) (fst s').
  Proof.
    induction ks as [|k ks IH]; intros x s ys e s'; cbn [exhaust].
    - intro H. injection H as <- <- <-. apply shape_refl.
    - pose proof (do_step_shape k x s) as H. destruct (_do_step k x s) as [[y|e1] s1]; cbn [snd] in H.
      + destruct (exhaust ks y s1) as [[ys' e'] s2] eqn:E. intro K. injection K as <- <- <-.
        eapply shape_trans; [exact H|eapply IH, E].
      + intro K. injection K as <- <- <-. exact H.
  Qed.
  Lemma exhaust_length ks : forall x s ys e s', exhaust ks x s = (ys, e, s') ->
    match e with None => List.length ys = List.length ks | Some _ => List.length ys < List.length ks end.
  Proof.
    induction ks as [|k ks IH]; intros x s ys e s'; cbn [exhaust].
    - intro H. injection H as <- <- <-. reflexivity.
    - destruct (_do_step k x s) as [[y|e1] s1].
      + destruct (exhaust ks y s1) as [[ys' e'] s2] eqn:E. intro K. injection K as <- <- <-.
        apply IH in E. destruct e'; cbn; lia.
      + intro K. injection K as <- <- <-. cbn. lia.
  Qed.
  Lemma exhaust_app a b : forall x s,
    exhaust (a ++ b) x s =
    match exhaust a x s with
    | (ys, None, s') => let '(zs, e, s'') := exhaust b (last ys x) s' in (ys ++ zs, e, s'')
    | (ys, Some e, s') => (ys, Some e, s')
    end.
  Proof.
    induction a as [|k a IH]; intros x s; cbn [app exhaust].
    - cbn [last]. destruct (exhaust b x s) as [[zs e] s']. reflexivity.
    - destruct (_do_step k x s) as [[y|e] s1]; [|reflexivity]. rewrite IH.
      destruct (exhaust a y s1) as [[ys [e|]] s2]; [reflexivity|].
      replace (last (y :: ys) x) with (last ys y).
      + destruct (exhaust b (last ys y) s2) as [[zs e] s3]. reflexivity.
      + destruct ys as [|z ys] using rev_ind; [reflexivity|]. rewrite app_comm_cons, !last_last. reflexivity.
  Qed.

  Lemma nth_key_step c n k : wfd (steps c) = true -> nth_error (dkeys (steps c)) n = Some k ->
    exists f, dget (steps c) k = Some f /\ nth_error (steps c) n = Some (k, f).
  Proof.
    intros Hw H. unfold dkeys in H. rewrite nth_error_map in H.
    destruct (nth_error (steps c) n) as [[k' f]|] eqn:E; [|discriminate]. injection H as <-.
    exists f. split; [|reflexivity]. apply wfd_In_dget; [exact Hw|]. eapply nth_error_In, E.
  Qed.

  (** The world after the error record. *)
  Definition after_error (c : comp) (ys : list V) (ex : exn) (w : world) : world :=
    if is_Exception ex then
      match ctracker c, nth_error (steps c) (List.length ys) with
      | Some k, Some (_, f) =>
          snd (on_trk k (track (target_of f) "execute" 254 (exc_report (fst (trace ex)) (snd (trace ex)))) w)
      | _, _ => w
      end
    else w.

  Lemma on_trk_ok k f w : on_trk k f w = (Ok tt, snd (on_trk k f w)).
  Proof. destruct k as [|i]; [reflexivity|]. cbn. now destruct (nth_error (trks w) i). Qed.
  Lemma on_trk_objs k f w : objs (snd (on_trk k f w)) = objs w.
  Proof. destruct k as [|i]; [reflexivity|]. cbn. now destruct (nth_error (trks w) i). Qed.

  Lemma execute_run x c w ys e c' w' : wfd (steps c) = true ->
    exhaust (dkeys (steps c)) x (c, w) = (ys, e, (c', w')) ->
    execute none trace x (c, w) =
      (outcome none (optional c) ys e, (c', match e with None => w' | Some ex => after_error c ys ex w' end)).
  Proof.
    intros Hw H. unfold execute, itercall. cbn [todo gstate fst]. rewrite H.
    pose proof (exhaust_shape _ _ _ _ _ _ H) as Hs. pose proof (exhaust_length _ _ _ _ _ _ H) as Hl.
    cbn [fst snd] in *. destruct e as [ex|]; [|reflexivity]. unfold after_error. cbn [outcome].
    destruct (is_Exception ex); [|reflexivity]. rewrite (shape_tracker _ _ Hs), (shape_optional _ _ Hs).
    cbn [andb].
    destruct (ctracker c) as [k|].
    - replace (Z.to_nat (Z.of_nat (List.length ys) - 1 + 1)) with (List.length ys) by lia.
      rewrite (shape_steps _ _ Hs).
      destruct (nth_error (dkeys (steps c)) (List.length ys)) as [n|] eqn:En.
      + destruct (nth_key_step c _ _ Hw En) as (f & F1 & F2). rewrite F2.
        unfold ebind, eof, _check_for_step. rewrite (shape_steps _ _ Hs), F1, lift_run. cbn [fst snd].
        rewrite on_trk_ok. cbn [fst snd]. now destruct (optional c).
      + apply nth_error_None in En. unfold dkeys in En, Hl. rewrite map_length in *. lia.
    - now destruct (optional c).
  Qed.

  Lemma execute_shape x s : wfd (steps (fst s)) = true -> same_shape (fst s) (fst (snd (execute none trace x s))).
  Proof.
    destruct s as [c w]. intro Hw. destruct (exhaust (dkeys (steps c)) x (c, w)) as [[ys e] [c' w']] eqn:E.
    rewrite (execute_run x c w _ _ _ _ Hw E). exact (exhaust_shape _ _ _ _ _ _ E).
  Qed.
  Lemma executions_shape xs : forall s, wfd (steps (fst s)) = true ->
    same_shape (fst s) (fst (snd (executions none trace xs s))).
  Proof.
    induction xs as [|x xs IH]; intros s Hw; [apply shape_refl|]. cbn [executions].
    pose proof (execute_shape x s Hw) as H. destruct (execute none trace x s) as [r s1]. cbn [snd] in H.
    specialize (IH s1). rewrite (shape_steps _ _ H) in IH. specialize (IH Hw).
    destruct (executions none trace xs s1) as [ys s2]. eapply shape_trans; [exact H|exact IH].
  Qed.

  (** ** Generators *)

  Lemma pull_exhaust n : forall ks x s, pull n {| todo := ks; gstate := x |} s = exhaust (firstn n ks) x s.
  Proof.
    induction n as [|n IH]; intros ks x s; [reflexivity|]. destruct ks as [|k ks]; [reflexivity|].
    cbn [pull firstn exhaust]. unfold gnext. cbn [todo gstate]. unfold ebind, ecatch, eret.
    destruct (_do_step k x s) as [[y|e] s']; [|reflexivity]. rewrite IH. reflexivity.
  Qed.

  (** ** Bare pipelines *)

  Lemma exhaust_flow c (l : dict step) : (forall k f, In (k, f) l -> dget (steps c) k = Some f) ->
    (forall k, In k (dkeys l) -> inserts_at c k = [] /\ sends_of c k = []) ->
    forall x w, exhaust (dkeys l) x (c, w) =
      let '(ys, e, w') := flow (map applied (dvalues l)) x w in (ys, option_map surfaced e, (c, w')).
  Proof.
    induction l as [|[k f] l IH]; intros Hs Hb x w; [reflexivity|].
    cbn [dkeys dvalues map fst snd exhaust flow]. fold (dkeys l). fold (dvalues l).
    rewrite do_step_run. destruct (Hb k (or_introl eq_refl)) as [Hi Hn].
    rewrite (call_applied c k x f Hi (Hs k f (or_introl eq_refl))), Hn. cbn [run_sends].
    destruct (applied f x w) as [[y|e] w']; [|reflexivity].
    rewrite IH; [|intros; apply Hs; now right|intros; apply Hb; now right].
    destruct (flow (map applied (dvalues l)) y w') as [[ys e] w'']. reflexivity.
  Qed.
End Run.
