(** Proofs about compositions as steps, and about tracked compositions. *)
From Coq Require Import Lia.
From Verif Require Export Nest_Spec Comp_Lemmas.
From Verif Require Import Py_Facts.

Scheme bottom_ind' := Induction for bottom Sort Prop
  with bottoms_ind' := Induction for bottoms Sort Prop.
Combined Scheme bottom_both from bottom_ind', bottoms_ind'.

Section Nest.
  Context {V W : Type}.
  Context (none : V) (trace : exn -> string * list frame).
  Notation world := (@world V W).
  Notation step := (@step V W).
  Notation send := (@send V W).
  Notation comp := (@comp V W).
  Implicit Types (c : comp) (w : world) (x y : V).

  (** ** Calls *)

  Lemma only_execute c w x : only_steps c ->
    execute none trace x (c, w) =
      let '(ys, e, w') := flow (map applied (dvalues (steps c))) x w in
      (outcome none (optional c) ys (option_map surfaced e), (c, w')).
  Proof.
    intros (Hw & Hb & Ht). rewrite (flow_execute none trace c w x Hw Hb).
    destruct (flow (map applied (dvalues (steps c))) x w) as [[ys e] w']. repeat f_equal.
    destruct e as [ex|]; [|reflexivity]. cbn [option_map]. unfold after_error. rewrite Ht.
    now destruct (is_Exception (surfaced ex)).
  Qed.

  Lemma applied_comp str c x w : only_steps c ->
    applied (as_step none trace str c) x w =
      let '(ys, e, w') := flow (map applied (dvalues (steps c))) x w in
      (outcome none (optional c) ys (option_map surfaced e), w').
  Proof.
    intro H. cbn [applied as_step]. unfold called. cbn [signal_of dhas dget].
    change (signal_of none [x] []) with (Ok x). cbn iota. rewrite (only_execute c w x H).
    destruct (flow (map applied (dvalues (steps c))) x w) as [[ys e] w']. reflexivity.
  Qed.

  Lemma flow_app (a b : list (V -> act V)) : forall x w,
    flow (a ++ b) x w =
      match flow a x w with
      | (ys, None, w') => let '(zs, e, w'') := flow b (last ys x) w' in (ys ++ zs, e, w'')
      | (ys, Some e, w') => (ys, Some e, w')
      end.
  Proof.
    induction a as [|f a IH]; intros x w; cbn [app flow].
    - cbn [last]. destruct (flow b x w) as [[zs e] w']. reflexivity.
    - destruct (f x w) as [[y|e] w1]; [|reflexivity]. rewrite IH.
      destruct (flow a y w1) as [[ys [e|]] w2]; [reflexivity|].
      replace (last (y :: ys) x) with (last ys y).
      + destruct (flow b (last ys y) w2) as [[zs e] w3]. reflexivity.
      + destruct ys as [|z ys] using rev_ind; [reflexivity|]. rewrite app_comm_cons, !last_last. reflexivity.
  Qed.
  Lemma flow_length (l : list (V -> act V)) : forall x w ys w', flow l x w = (ys, None, w') -> List.length ys = List.length l.
  Proof.
    induction l as [|f l IH]; intros x w ys w'; cbn [flow]; [now intros [= <- _]|].
    destruct (f x w) as [[y|e] w1]; [|discriminate]. destruct (flow l y w1) as [[zs e] w2] eqn:E.
    intros [= <- -> <-]. cbn. f_equal. eapply IH, E.
  Qed.
  Lemma last_any (l : list V) a b : l <> [] -> last l a = last l b.
  Proof. destruct l as [|z l] using rev_ind; [contradiction|]. now rewrite !last_last. Qed.
  Lemma last_app (a b : list V) x : last (a ++ b) x = last b (last a x).
  Proof. destruct b as [|z b] using rev_ind; [now rewrite app_nil_r|]. now rewrite app_assoc, !last_last. Qed.
  Lemma last_cons (b : list V) y x : last (y :: b) x = last b y.
  Proof. exact (last_app [y] b x). Qed.
  Lemma surfaced_twice e : surfaced (surfaced e) = surfaced e.
  Proof. now destruct e. Qed.

  (** Outputs at the end and exceptions, as a caller of the composition sees
      them. *)
  Definition seen (x : V) (r : list V * option exn * world) : res V * world :=
    let '(ys, e, w') := r in
    (match e with None => Ok (last ys x) | Some ex => Exc (surfaced ex) end, w').
  Definition seen1 (r : res V * world) : res V * world :=
    (match fst r with Ok y => Ok y | Exc ex => Exc (surfaced ex) end, snd r).

  Lemma bottom_run :
    (forall s l, bottom none trace s l -> l <> [] /\
       forall x w, seen1 (applied s x w) = seen x (flow (map applied l) x w)) /\
    (forall ss l, bottoms none trace ss l -> List.length ss <= List.length l /\
       forall x w, seen x (flow (map applied ss) x w) = seen x (flow (map applied l) x w)).
  Proof.
    apply (bottom_both V W none trace
      (fun s l _ => l <> [] /\ forall x w, seen1 (applied s x w) = seen x (flow (map applied l) x w))
      (fun ss l _ => List.length ss <= List.length l /\
         forall x w, seen x (flow (map applied ss) x w) = seen x (flow (map applied l) x w))).
    - intro s. split; [discriminate|]. intros x w. cbn [map flow]. destruct (applied s x w) as [[y|e] w']; reflexivity.
    - intros str c l Hc Ho Hn _ [Hl IH].
      assert (Hl0 : l <> []).
      { intros ->. apply Hn. destruct (steps c); [reflexivity|]. cbn in Hl. lia. }
      split; [exact Hl0|]. intros x w. rewrite <- IH, (applied_comp str c x w Hc), Ho.
      destruct (flow (map applied (dvalues (steps c))) x w) as [[ys [e|]] w'] eqn:E; unfold seen1, seen; cbn [fst snd option_map outcome].
      + rewrite andb_false_r, surfaced_twice. reflexivity.
      + f_equal. f_equal. apply last_any. intros ->. apply flow_length in E. rewrite map_length in E.
        apply Hn. now destruct (steps c).
    - split; [reflexivity|]. reflexivity.
    - intros s r a b _ [Ha IHa] _ [Hb IHb]. split.
      + rewrite app_length. destruct a; [contradiction|]. cbn. lia.
      + intros x w. rewrite map_app, flow_app. cbn [map flow]. specialize (IHa x w).
        destruct (flow (map applied a) x w) as [[ys [e|]] w1] eqn:E; cbn [seen] in IHa; unfold seen1 in IHa.
        * destruct (applied s x w) as [[y|e'] w2]; cbn [fst snd] in IHa; [discriminate|]. exact IHa.
        * destruct (applied s x w) as [[y|e'] w2]; cbn [fst snd] in IHa; [|discriminate].
          injection IHa as -> <-.
          assert (Hys : ys <> []). { intros ->. apply flow_length in E. destruct a; [contradiction|discriminate]. }
          specialize (IHb (last ys x) w2).
          destruct (flow (map applied r) (last ys x) w2) as [[zs [e1|]] w3], (flow (map applied b) (last ys x) w2) as [[us [e2|]] w4];
            cbn [seen] in *; try discriminate; [exact IHb|]. injection IHb as H1 ->. f_equal. f_equal.
          now rewrite last_cons, last_app, H1.
  Qed.

  Lemma flat_lemma c c' w x : only_steps c -> only_steps c' -> optional c' = optional c ->
    bottoms none trace (dvalues (steps c)) (dvalues (steps c')) ->
    fst (execute none trace x (c, w)) = fst (execute none trace x (c', w)) /\
    snd (snd (execute none trace x (c, w))) = snd (snd (execute none trace x (c', w))).
  Proof.
    intros Hc Hc' Ho H. rewrite (only_execute c w x Hc), (only_execute c' w x Hc'), Ho.
    destruct (proj2 bottom_run _ _ H) as [Hl E]. specialize (E x w).
    destruct (flow (map applied (dvalues (steps c))) x w) as [[ys [e|]] w1] eqn:E1,
      (flow (map applied (dvalues (steps c'))) x w) as [[zs [e'|]] w2] eqn:E2; cbn [seen] in E; try discriminate.
    - injection E as E ->. cbn [option_map outcome fst snd]. now rewrite E.
    - injection E as E ->. cbn [option_map outcome fst snd]. split; [|reflexivity]. f_equal.
      apply flow_length in E1. apply flow_length in E2. rewrite map_length in E1, E2.
      inversion H as [A B|s r a b Hs Hr A B].
      + rewrite <- A in E1. rewrite <- B in E2. cbn in E1, E2. destruct ys; [|discriminate]. destruct zs; [reflexivity|discriminate].
      + rewrite (last_any ys none x), (last_any zs none x); [exact E| |].
        * intros ->. rewrite <- B in E2. destruct (proj1 bottom_run _ _ Hs) as [Ha _]. destruct a; [contradiction|discriminate].
        * intros ->. rewrite <- A in E1. discriminate.
  Qed.

  (** ** Inserts into a composition *)

  Lemma arguments_lemma c k x str ci w : wfd (inserts_at c k) = true ->
    dget (steps c) k = Some (as_step none trace str ci) ->
    ((exists z, dget (inserts_at c k) (KInt z) <> None) \/
       dget (inserts_at c k) (KStr "signal") <> None \/ dget (inserts_at c k) (KStr "self") <> None ->
     call_step c k x w = (Exc TypeError, w)) /\
    (~ ((exists z, dget (inserts_at c k) (KInt z) <> None) \/
       dget (inserts_at c k) (KStr "signal") <> None \/ dget (inserts_at c k) (KStr "self") <> None) ->
     call_step c k x w = applied (as_step none trace str ci) x w).
  Proof.
    intros Hw Hs. destruct (call_plain_lemma c k x _ _ _ Hw Hs) as (l & Hl & ->).
    set (d := inserts_at c k) in *.
    assert (K : forall n, dget (filter (fun kv => is_str (fst kv)) d) (KStr n) = dget d (KStr n)).
    { intro n. now rewrite dget_filter by exact keqb_is_str. }
    destruct Hl as (p & sorted & Hp0 & Hp & _ & Hst & Hin & ->). unfold called, signal_of, dhas. rewrite !K.
    assert (Hx : In (p, x) sorted) by (apply Hin; now left).
    split; intro H.
    - destruct (dget d (KStr "self")) eqn:Es; [reflexivity|]. destruct H as [[z Hz]|[H|H]]; [| |contradiction].
      + destruct (dget d (KInt z)) as [v|] eqn:Ez; [|contradiction].
        assert (Hv : In (z, v) sorted) by (apply Hin; right; exact Ez).
        assert (z <> p) by (intros ->; unfold by_insert in Hp; congruence).
        destruct sorted as [|a [|b r]]; [contradiction| |reflexivity].
        destruct Hx as [->|[]], Hv as [[= <- _]|[]]. contradiction.
      + destruct (dget d (KStr "signal")); [|contradiction].
        destruct sorted as [|a [|b r]]; [contradiction|reflexivity|reflexivity].
    - assert (Hone : sorted = [(p, x)]).
      { assert (A : forall zv, In zv sorted -> zv = (p, x)).
        { intros [z v] Hzv. apply Hin in Hzv. destruct Hzv as [[-> ->]|Hzv]; [reflexivity|].
          exfalso. apply H. left. exists z. unfold by_insert in Hzv. rewrite Hzv. discriminate. }
        destruct sorted as [|a [|b r]]; [contradiction|now rewrite (A a (or_introl eq_refl))|].
        exfalso. inversion Hst as [|a' r' _ Hf]; subst. inversion Hf as [|b' r' Hab]; subst.
        rewrite (A a (or_introl eq_refl)), (A b (or_intror (or_introl eq_refl))) in Hab. cbn in Hab. lia. }
      rewrite Hone. cbn [map snd].
      destruct (dget d (KStr "self")) eqn:Es; [exfalso; apply H; right; right; fold d; congruence|].
      destruct (dget d (KStr "signal")) eqn:Eg; [exfalso; apply H; right; left; fold d; congruence|]. reflexivity.
  Qed.

  (** ** Calls keep the composition *)

  Lemma steady_send x (d : send) s : (forall t, starget d <> TStep t) -> fst (snd (perform_send x d s)) = fst s.
  Proof.
    intro H. unfold perform_send. destruct (starget d) as [|t|r|f|] eqn:T; [| exfalso; exact (H t eq_refl) | | |];
      destruct (pipe d) as [p|]; try reflexivity; cbn [place_into]; unfold ebind; rewrite ?lift_run; try reflexivity;
      destruct (p x (snd s)) as [[y|e] w']; cbn [fst snd]; rewrite ?lift_run; reflexivity.
  Qed.
  Lemma steady_sends (l : list send) x : (forall d t, In d l -> starget d <> TStep t) -> forall s, fst (snd (run_sends l x s)) = fst s.
  Proof.
    induction l as [|d l IH]; intros H s; [reflexivity|]. cbn [run_sends].
    pose proof (steady_send x d s (fun t => H d t (or_introl eq_refl))) as A.
    destruct (perform_send x d s) as [[u|e] s']; cbn [snd] in A; [|exact A]. rewrite <- A. apply IH. intros; apply H; now right.
  Qed.
  Lemma steady_exhaust c ks : (forall k d t, In k ks -> In d (sends_of c k) -> starget d <> TStep t) ->
    forall x w, fst (snd (exhaust ks x (c, w))) = c.
  Proof.
    induction ks as [|k ks IH]; intros H x w; [reflexivity|]. cbn [exhaust]. rewrite do_step_run.
    destruct (call_step c k x w) as [[y|e] w']; [|reflexivity].
    pose proof (steady_sends (sends_of c k) y (fun d t => H k d t (or_introl eq_refl)) (c, w')) as A.
    destruct (run_sends (sends_of c k) y (c, w')) as [[u|e] [c1 w1]]; cbn [fst snd] in A; subst c1; [|reflexivity].
    specialize (IH (fun k' d t Hk => H k' d t (or_intror Hk)) y w1). destruct (exhaust ks y (c, w1)) as [[ys e] s']. exact IH.
  Qed.
  Lemma steady_lemma c w x : wfd (steps c) = true -> steady c -> fst (snd (execute none trace x (c, w))) = c.
  Proof.
    intros Hw H. pose proof (steady_exhaust c (dkeys (steps c)) H x w) as A.
    destruct (exhaust (dkeys (steps c)) x (c, w)) as [[ys e] [c' w']] eqn:E. cbn [fst snd] in A. subst c'.
    rewrite (execute_run none trace x c w _ _ _ _ Hw E). reflexivity.
  Qed.
End Nest.

Section Sim.
  Context {V W : Type}.
  Context (none : V) (trace : exn -> string * list frame) (t0 : tkind).
  Notation world := (@world V W).
  Notation step := (@step V W).
  Notation send := (@send V W).
  Notation comp := (@comp V W).
  Implicit Types (c : comp) (w : world) (x y : V).

  (** Worlds that are the same but for what tracking with [t0] changes. *)
  Context (sim : world -> world -> Prop).
  Hypothesis sim_objs : forall w w', sim w w' -> objs w = objs w'.
  Hypothesis sim_with : forall w w' o, sim w w' -> sim (with_objs w o) (with_objs w' o).
  Hypothesis sim_trk : forall f w w', sim w w' -> sim w (snd (on_trk t0 f w')).

  Definition same_run {A} (m : act A) : Prop :=
    forall w w', sim w w' -> fst (m w) = fst (m w') /\ sim (snd (m w)) (snd (m w')).
  Definition same_step (f : step) : Prop :=
    match f with
    | Plain _ _ f => forall args kw, same_run (f args kw)
    | Part _ _ p => forall args kw, same_run (p_func p args kw)
    end.
  Definition same_send (d : send) : Prop :=
    match pipe d with Some p => forall v, same_run (p v) | None => True end /\
    match starget d with TWriter f => forall v, same_run (f v) | _ => True end.

  (** The second composition also tracks. *)
  Record pair (c c' : comp) : Prop := {
    pr_steps : steps c' = steps c;
    pr_inserts : inserts c' = inserts c;
    pr_optional : optional c' = optional c;
    pr_none : ctracker c = None;
    pr_tracker : ctracker c' = Some t0;
    pr_sends : forall k f, In (k, f) (steps c) -> exists l, sends_of c' k = sends_of c k ++ map (fun kf => tsend none t0 (fst kf) (snd kf)) l
  }.
  Lemma pair_inserts c c' i : pair c c' -> pair (with_inserts c i) (with_inserts c' i).
  Proof. intros []. split; try assumption; reflexivity. Qed.

  (** The same outcome, in matching worlds and compositions. *)
  Definition match_out {A} (c c' : comp) (r r' : res A * (comp * world)) : Prop :=
    fst r = fst r' /\ sim (snd (snd r)) (snd (snd r')) /\
    exists i, fst (snd r) = with_inserts c i /\ fst (snd r') = with_inserts c' i.

  Lemma same_inserts c : c = with_inserts c (inserts c).
  Proof. now destruct c. Qed.
  Lemma stay {A} (r : res A) c c' w w' : pair c c' -> sim w w' -> match_out c c' (r, (c, w)) (r, (c', w')).
  Proof.
    intros Hp H. split; [reflexivity|]. split; [exact H|]. exists (inserts c). split; [apply same_inserts|].
    cbn. rewrite <- (pr_inserts _ _ Hp). apply same_inserts.
  Qed.
  Lemma lift_same {A} (m : act A) c c' w w' : pair c c' -> same_run m -> sim w w' ->
    match_out c c' (lift m (c, w)) (lift m (c', w')).
  Proof.
    intros Hp Hm H. rewrite !lift_run. cbn [fst snd]. destruct (Hm w w' H) as [-> B].
    now apply stay.
  Qed.
  Lemma place_same x t p c c' w w' : pair c c' ->
    match t with TWriter f => forall v, same_run (f v) | _ => True end -> sim w w' ->
    match_out c c' (place_into x t p (c, w)) (place_into x t p (c', w')).
  Proof.
    intros Hp Ht H. destruct t as [|k|r|f|]; cbn [place_into].
    - now apply stay.
    - unfold add_insert, ebind, Comp_Model.get, put. cbn [fst snd]. rewrite (pr_inserts _ _ Hp).
      split; [reflexivity|]. split; [exact H|]. eexists. split; reflexivity.
    - apply lift_same; [exact Hp| |exact H]. intros v v' Hv. rewrite <- (sim_objs _ _ Hv).
      destruct (nth_error (objs v) r) as [[l|d]|]; [|split; [reflexivity|now apply sim_with]|now split].
      destruct p; try (split; [reflexivity|now apply sim_with]);
        (destruct (kint _) as [i|]; [|now split]; destruct (list_set l i x); [split; [reflexivity|now apply sim_with]|now split]).
    - apply lift_same; [exact Hp|exact (Ht x)|exact H].
    - now apply stay.
  Qed.
  Lemma send_same x d c c' w w' : pair c c' -> same_send d -> sim w w' ->
    match_out c c' (perform_send x d (c, w)) (perform_send x d (c', w')).
  Proof.
    intros Hp [Hd Ht] H. rewrite !send_place. destruct (pipe d) as [p|].
    - destruct (Hd x w w' H) as [E F]. cbn [fst snd] in *.
      destruct (p x w) as [[y|e] v], (p x w') as [[y'|e'] v']; try discriminate; injection E as ->.
      + destruct (starget d); now apply place_same.
      + now apply stay.
    - destruct (starget d); now apply place_same.
  Qed.

  Lemma match_more {A} c c' i (r r' : res A * (comp * world)) :
    match_out (with_inserts c i) (with_inserts c' i) r r' -> match_out c c' r r'.
  Proof. intros (E & F & j & G & K). split; [exact E|]. split; [exact F|]. exists j. now rewrite G, K. Qed.

  Lemma sends_same l x : forall c c' w w', pair c c' -> (forall d, In d l -> same_send d) -> sim w w' ->
    match_out c c' (run_sends l x (c, w)) (run_sends l x (c', w')).
  Proof.
    induction l as [|d l IH]; intros c c' w w' Hp Hd H; [now apply stay|]. cbn [run_sends].
    pose proof (send_same x d c c' w w' Hp (Hd d (or_introl eq_refl)) H) as (E & F & i & G & K).
    destruct (perform_send x d (c, w)) as [[u|e] [c1 w1]], (perform_send x d (c', w')) as [[u'|e'] [c1' w1']];
      cbn [fst snd] in *; try discriminate; subst c1 c1'.
    - apply (match_more c c' i). apply IH; [now apply pair_inserts|intros; apply Hd; now right|exact F].
    - injection E as ->. split; [reflexivity|]. split; [exact F|]. now exists i.
  Qed.
  Lemma tsends_quiet l x c : forall w w', sim w w' ->
    exists w'', run_sends (map (fun kf => tsend none t0 (fst kf) (snd kf)) l) x (c, w') = (Ok tt, (c, w'')) /\ sim w w''.
  Proof.
    induction l as [|[k f] l IH]; intros w w' H; [now exists w'|]. cbn [map run_sends].
    rewrite send_place. cbn [tsend pipe starget pointer fst snd]. unfold _track_factory, ebind. rewrite on_trk_ok.
    cbn [place_into fst snd]. unfold eret. apply IH. now apply sim_trk.
  Qed.

  Lemma pair_call c c' k x : pair c c' -> call_step c' k x = call_step c k x.
  Proof. intros []. unfold call_step. now rewrite pr_steps0, pr_inserts0. Qed.
  Lemma call_same c k x : (forall k f, In (k, f) (steps c) -> same_step f) -> dget (steps c) k <> None -> same_run (call_step c k x).
  Proof.
    intros Hs Hk. unfold call_step. destruct (dget (steps c) k) as [f|] eqn:E; [|contradiction].
    destruct (dget_In _ _ _ E) as (k' & Hin & _). specialize (Hs _ _ Hin).
    destruct (match dget (inserts c) k with Some d => _ | None => _ end) as [args kw].
    destruct f as [n s f|n s p]; cbn [same_step] in Hs.
    - destruct (Nat.eqb (List.length args) 0); [apply Hs|]. destruct (_flow_signal x args) as [l|e]; [exact (Hs l kw)|].
      intros w w' H. now split.
    - unfold _call_partial_step. cbv zeta. destruct (Nat.eqb (List.length _) 0); [apply Hs|].
      destruct (_flow_signal _ _) as [l|e]; [exact (Hs l _)|]. intros w w' H. now split.
  Qed.

  Lemma step_same k x c c' w w' : pair c c' -> (forall k f, In (k, f) (steps c) -> same_step f) ->
    (forall d, In d (sends_of c k) -> same_send d) -> (exists f, In (k, f) (steps c)) -> wfd (steps c) = true -> sim w w' ->
    match_out c c' (_do_step k x (c, w)) (_do_step k x (c', w')).
  Proof.
    intros Hp Hs Hd [f Hf] Hw H. rewrite !do_step_run, (pair_call c c' k x Hp).
    assert (Hk : dget (steps c) k <> None) by (rewrite (wfd_In_dget _ _ _ Hw Hf); discriminate).
    destruct (call_same c k x Hs Hk w w' H) as [E F].
    destruct (call_step c k x w) as [[y|e] v], (call_step c k x w') as [[y'|e'] v']; cbn [fst snd] in *; try discriminate; injection E as ->.
    - destruct (pr_sends _ _ Hp k f Hf) as [l ->]. rewrite run_sends_app.
      pose proof (sends_same (sends_of c k) y' c c' v v' Hp Hd F) as (E & G & i & K & L).
      destruct (run_sends (sends_of c k) y' (c, v)) as [[u|e] [c1 w1]], (run_sends (sends_of c k) y' (c', v')) as [[u'|e'] [c1' w1']];
        cbn [fst snd] in *; try discriminate; subst c1 c1'.
      + destruct (tsends_quiet l y' (with_inserts c' i) w1 w1' G) as (w2 & -> & Q).
        split; [reflexivity|]. split; [exact Q|]. now exists i.
      + injection E as ->. split; [reflexivity|]. split; [exact G|]. now exists i.
    - now apply stay.
  Qed.

  Lemma exhaust_same ks : forall x c c' w w', pair c c' -> wfd (steps c) = true ->
    (forall k f, In (k, f) (steps c) -> same_step f) ->
    (forall k d, In k ks -> In d (sends_of c k) -> same_send d) ->
    (forall k, In k ks -> exists f, In (k, f) (steps c)) -> sim w w' ->
    let r := exhaust ks x (c, w) in let r' := exhaust ks x (c', w') in
    fst r = fst r' /\ sim (snd (snd r)) (snd (snd r')) /\
    exists i, fst (snd r) = with_inserts c i /\ fst (snd r') = with_inserts c' i.
  Proof.
    induction ks as [|k ks IH]; intros x c c' w w' Hp Hw Hs Hd Hk H; cbn [exhaust].
    - destruct (stay (Ok tt) c c' w w' Hp H) as (A & B & C). cbn [fst snd] in *. auto.
    - pose proof (step_same k x c c' w w' Hp Hs (fun d => Hd k d (or_introl eq_refl)) (Hk k (or_introl eq_refl)) Hw H) as (E & F & i & G & K).
      destruct (_do_step k x (c, w)) as [[y|e] [c1 w1]], (_do_step k x (c', w')) as [[y'|e'] [c1' w1']];
        cbn [fst snd] in *; try discriminate; subst c1 c1'; injection E as ->.
      + specialize (IH y' (with_inserts c i) (with_inserts c' i) w1 w1' (pair_inserts c c' i Hp) Hw Hs
          (fun k' d Hin => Hd k' d (or_intror Hin)) (fun k' Hin => Hk k' (or_intror Hin)) F).
        cbv zeta in IH. destruct IH as (E & G & j & K & L).
        destruct (exhaust ks y' (with_inserts c i, w1)) as [[ys e] s1], (exhaust ks y' (with_inserts c' i, w1')) as [[ys' e'] s1'].
        cbn [fst snd] in *. injection E as -> ->. split; [reflexivity|]. split; [exact G|]. exists j. now rewrite K, L.
      + cbn [fst snd]. split; [reflexivity|]. split; [exact F|]. now exists i.
  Qed.

  Definition calm (c : comp) : Prop :=
    (forall k f, In (k, f) (steps c) -> same_step f) /\
    (forall k d, In k (dkeys (steps c)) -> In d (sends_of c k) -> same_send d).

  Lemma execute_same x c c' w w' : pair c c' -> wfd (steps c) = true -> calm c -> sim w w' ->
    match_out c c' (execute none trace x (c, w)) (execute none trace x (c', w')).
  Proof.
    intros Hp Hw [Hs Hd] H.
    pose proof (exhaust_same (dkeys (steps c)) x c c' w w' Hp Hw Hs Hd) as A. cbv zeta in A.
    destruct A as (E & F & i & G & K).
    { intros k Hk. apply in_map_iff in Hk. destruct Hk as ([k' f] & <- & Hk). now exists f. }
    { exact H. }
    destruct (exhaust (dkeys (steps c)) x (c, w)) as [[ys e] [c1 w1]] eqn:E1, (exhaust (dkeys (steps c)) x (c', w')) as [[ys' e'] [c1' w1']] eqn:E2.
    cbn [fst snd] in *. injection E as <- <-. subst c1 c1'.
    rewrite (execute_run none trace x c w _ _ _ _ Hw E1).
    assert (S' := pr_steps _ _ Hp). rewrite <- S' in E2.
    rewrite (execute_run none trace x c' w' _ _ _ _ (eq_ind_r (fun z => wfd z = true) Hw S') E2), (pr_optional _ _ Hp).
    split; [reflexivity|]. cbn [fst snd]. split; [|now exists i].
    destruct e as [ex|]; [|exact F]. unfold after_error. rewrite (pr_none _ _ Hp), (pr_tracker _ _ Hp), S'.
    destruct (is_Exception ex); [|exact F]. destruct (nth_error (steps c) (List.length ys)) as [[k f]|]; [|exact F].
    now apply sim_trk.
  Qed.

  Lemma executions_same xs : forall c c' w w', pair c c' -> wfd (steps c) = true -> calm c -> sim w w' ->
    fst (executions none trace xs (c, w)) = fst (executions none trace xs (c', w')) /\
    sim (snd (snd (executions none trace xs (c, w)))) (snd (snd (executions none trace xs (c', w')))) /\
    inserts (fst (snd (executions none trace xs (c', w')))) = inserts (fst (snd (executions none trace xs (c, w)))).
  Proof.
    induction xs as [|x xs IH]; intros c c' w w' Hp Hw Hc H; cbn [executions].
    - split; [reflexivity|]. split; [exact H|apply Hp].
    - destruct (execute_same x c c' w w' Hp Hw Hc H) as (E & F & i & G & K).
      destruct (execute none trace x (c, w)) as [r [c1 w1]], (execute none trace x (c', w')) as [r' [c1' w1']].
      cbn [fst snd] in *. subst r' c1 c1'.
      destruct (IH (with_inserts c i) (with_inserts c' i) w1 w1' (pair_inserts c c' i Hp) Hw Hc F) as (A & B & C).
      destruct (executions none trace xs (with_inserts c i, w1)) as [ys s1], (executions none trace xs (with_inserts c' i, w1')) as [ys' s1'].
      cbn [fst snd] in *. now subst.
  Qed.

  (** ** Building *)

  Lemma construct_pair ss sn ins name opt w c w1 c' w1' :
    wfd (as_mapping (match ss with SNone => SSeq [@identity V W] | _ => ss end)) = true ->
    construct none ss sn ins name None opt w = (Ok tt, (c, w1)) ->
    construct none ss sn ins name (Some t0) opt w = (Ok tt, (c', w1')) -> sim w w ->
    pair c c' /\ wfd (steps c) = true /\ sim w1 w1' /\ w1 = w /\
    steps c = as_mapping (match ss with SNone => SSeq [identity] | _ => ss end) /\ sends c = as_mapping sn.
  Proof.
    intros Hw A B H. cbn in A. injection A as <- <-.
    destruct (construct_tracks none ss sn ins name t0 opt w Hw) as (c2 & E & B1 & B2 & B3 & B4 & B5 & B6).
    rewrite E in B. injection B as <- <-.
    split; [|split; [exact Hw|split; [now apply sim_trk|split; [reflexivity|split; reflexivity]]]].
    split; cbn [steps inserts optional ctracker]; try assumption; try reflexivity.
    intros k f Hin. exists [(k, f)]. cbn [map fst snd]. rewrite (B6 k f) by now rewrite B4. reflexivity.
  Qed.
End Sim.

Section Tracked.
  Context {V W : Type}.
  Context (none : V) (trace : exn -> string * list frame).
  Notation world := (@world V W).
  Notation step := (@step V W).
  Notation send := (@send V W).

  Lemma but_objs (w w' : world) : but_trackers w w' -> objs w = objs w'.
  Proof. now intros []. Qed.
  Lemma but_with (w w' : world) o : but_trackers w w' -> but_trackers (with_objs w o) (with_objs w' o).
  Proof. intros [A B]. split; [reflexivity|exact B]. Qed.
  Lemma but_trk t f (w w' : world) : but_trackers w w' -> but_trackers w (snd (on_trk t f w')).
  Proof. intros [A B]. destruct t as [|i]; [now split|]. cbn. destruct (nth_error (trks w') i); now split. Qed.

  Lemma tracker_lemma t ss sn ins name opt (w : world) c w0 c' w0' xs :
    wfd (as_mapping (match ss with SNone => SSeq [@identity V W] | _ => ss end)) = true ->
    (forall k f, In (k, f) (as_mapping ss) -> blind_step f) ->
    (forall k l d, dget (as_mapping sn) k = Some l -> In d l -> blind_send d) ->
    construct none ss sn ins name None opt w = (Ok tt, (c, w0)) ->
    construct none ss sn ins name (Some t) opt w = (Ok tt, (c', w0')) ->
    fst (executions none trace xs (c, w0)) = fst (executions none trace xs (c', w0')) /\
    but_trackers (snd (snd (executions none trace xs (c, w0)))) (snd (snd (executions none trace xs (c', w0')))) /\
    inserts (fst (snd (executions none trace xs (c', w0')))) = inserts (fst (snd (executions none trace xs (c, w0)))).
  Proof.
    intros Hw Hf Hd A B.
    destruct (construct_pair none t but_trackers (but_trk t) ss sn ins name opt w c w0 c' w0' Hw A B) as (P & Q & R & S & T & U); [now split|].
    apply (executions_same none trace t but_trackers but_objs but_with (but_trk t)); [exact P|exact Q| |exact R].
    split.
    - intros k f Hin. rewrite T in Hin. destruct ss as [|l|d]; [|exact (Hf k f Hin)|exact (Hf k f Hin)].
      destruct Hin as [[= <- <-]|[]]. intros args kw v v' Hv. destruct args as [|a [|b r]], kw; now split.
    - intros k d _ Hin. unfold sends_of in Hin. rewrite U in Hin.
      destruct (dget (as_mapping sn) k) as [l|] eqn:G; [|contradiction]. exact (Hd k l d G Hin).
  Qed.

  Lemma trivial_lemma ss sn ins name opt (w : world) c w0 c' w0' xs :
    wfd (as_mapping (match ss with SNone => SSeq [@identity V W] | _ => ss end)) = true ->
    construct none ss sn ins name None opt w = (Ok tt, (c, w0)) ->
    construct none ss sn ins name (Some Trivial) opt w = (Ok tt, (c', w0')) ->
    fst (executions none trace xs (c, w0)) = fst (executions none trace xs (c', w0')) /\
    snd (snd (executions none trace xs (c, w0))) = snd (snd (executions none trace xs (c', w0'))) /\
    inserts (fst (snd (executions none trace xs (c', w0')))) = inserts (fst (snd (executions none trace xs (c, w0)))).
  Proof.
    intros Hw A B.
    assert (Ht : forall f (w w' : world), w = w' -> w = snd (on_trk Trivial f w')) by (intros f v v' ->; reflexivity).
    destruct (construct_pair none Trivial eq Ht ss sn ins name opt w c w0 c' w0' Hw A B eq_refl) as (P & Q & R & S & T & U).
    apply (executions_same none trace Trivial eq); [now intros v v' ->|now intros v v' o ->|exact Ht|exact P|exact Q| |exact R].
    split.
    - intros k f _. destruct f; intros args kw v v' ->; now split.
    - intros k d _ _. split; [destruct (pipe d)|destruct (starget d)]; try exact I; intros x v v' ->; now split.
  Qed.

  Lemma start_pair outdir now (c : @comp V W) w c' w' : wfd (steps c) = true -> ctracker c = None ->
    start_tracking none outdir now (c, w) = (Ok tt, (c', w')) ->
    pair none (Real (List.length (trks w))) c c' /\ but_trackers w w'.
  Proof.
    intros Hw Hc H. unfold start_tracking, _add_track_sends in H.
    unfold ebind at 1, Comp_Model.get at 1 in H. cbn [fst] in H. rewrite Hc in H.
    unfold ebind at 1, lift at 1 in H. cbn [fst snd] in H. unfold ebind at 1, put at 1 in H. cbn [fst snd] in H.
    unfold ebind at 1, Comp_Model.get at 1 in H. cbn [fst] in H.
    set (w1 := with_trks w _) in H. set (c1 := with_tracker c _) in H.
    destruct (track_sends_loop none (Real (List.length (trks w))) (dkeys (steps c1)) c1 w1) as (c2 & E & A1 & A2 & A3).
    { reflexivity. }
    { intros k Hin. apply in_map_iff in Hin. destruct Hin as ([k' v] & <- & Hin).
      change (dget (steps c) k' <> None). rewrite (wfd_In_dget _ _ _ Hw Hin). discriminate. }
    { exists (steps c). split; [reflexivity|exact Hw]. }
    rewrite E in H. injection H as <- <-. split; [|now split].
    split; try (rewrite A1; reflexivity); [exact Hc|]. intros k f Hin. exists [(k, f)]. cbn [map fst snd].
    rewrite (A2 k f); [reflexivity|exact (in_map fst _ _ Hin)|now apply wfd_In_dget].
  Qed.

  Lemma started_lemma outdir now (c : @comp V W) w c' w' xs : wfd (steps c) = true -> ctracker c = None ->
    (forall k f, In (k, f) (steps c) -> blind_step f) ->
    (forall k d, In k (dkeys (steps c)) -> In d (sends_of c k) -> blind_send d) ->
    start_tracking none outdir now (c, w) = (Ok tt, (c', w')) ->
    fst (executions none trace xs (c, w)) = fst (executions none trace xs (c', w')) /\
    but_trackers (snd (snd (executions none trace xs (c, w)))) (snd (snd (executions none trace xs (c', w')))) /\
    inserts (fst (snd (executions none trace xs (c', w')))) = inserts (fst (snd (executions none trace xs (c, w)))).
  Proof.
    intros Hw Hc Hf Hd H. destruct (start_pair outdir now c w c' w' Hw Hc H) as [P Q].
    apply (executions_same none trace _ but_trackers but_objs but_with (but_trk _)) with (1 := P); [exact Hw| |exact Q].
    split; [exact Hf|exact Hd].
  Qed.
End Tracked.

Lemma str_lemma a b c : comp_str a b c = "empty Composition" <-> a = None /\ b = None /\ c = None.
Proof.
  split; [|now intros (-> & -> & ->)]. unfold comp_str.
  destruct a as [a|]; [intro H; discriminate H|]. destruct b as [b|]; [intro H; discriminate H|].
  destruct c as [c|]; [intro H; discriminate H|]. now repeat split.
Qed.

Lemma signal_lemma {V W} (none : V) trace (c : @comp V W) x kw w :
  dget kw (KStr "self") = None ->
  (dget kw (KStr "signal") = None ->
     called none trace c [] kw w = called none trace c [none] [] w /\ called none trace c [x] kw w = called none trace c [x] [] w) /\
  (dget kw (KStr "signal") = Some x -> called none trace c [] kw w = called none trace c [x] [] w).
Proof. intro H. unfold called, signal_of, dhas. rewrite H. split; [intro E|intro E]; rewrite E; cbn; auto. Qed.
