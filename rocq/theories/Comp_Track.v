(** Tracked executions, adding and renaming steps (composition.py). *)
From Coq Require Import Lia.
From Verif Require Export Comp_Watch.
From Verif Require Import Py_Facts Pool_Proofs Track_Proofs.

Section Tracking.
  Context {V W : Type}.
  Context (none : V) (trace : exn -> string * list frame).
  Notation world := (@world V W).
  Notation step := (@step V W).
  Notation send := (@send V W).
  Notation comp := (@comp V W).
  Notation st := (@st V W).
  Implicit Types (c : comp) (w : world) (x y : V) (s : st).

  Definition at_trk (i : nat) (w : world) : option tracker := nth_error (trks w) i.

  Lemma step_spares_trk i f : step_spares (fun A m => spares_trk i m) f -> step_keeps (at_trk i) f.
  Proof. now destruct f. Qed.
  Lemma send_spares_trk i d : send_spares (fun A m => spares_trk i m) d -> send_keeps (at_trk i) d.
  Proof.
    intros [Hp Ht]. apply send_keeps_intro; [exact Hp|]. intros x s o H.
    destruct (starget d) as [|k|r'|f|]; cbn [place_into]; try exact H.
    - rewrite lift_run. cbn [snd].
      destruct (nth_error (objs (snd s)) r') as [[l|m]|]; [| |exact H]; [|exact H].
      assert (B : forall q, at_trk i (snd (match kint q with
            | None => (Exc TypeError, snd s)
            | Some i => match list_set l i x with
                        | Ok l' => (Ok tt, with_objs (snd s) (set_nth (objs (snd s)) r' (OList l')))
                        | Exc e => (Exc e, snd s)
                        end end)) = Some o).
      { intro q. destruct (kint q); [|exact H]. destruct (list_set l z x); exact H. }
      destruct (pointer d); try apply B. exact H.
    - rewrite lift_run. cbn [snd]. now apply Ht.
  Qed.

  Lemma with_records_nil t : with_records t [] = t.
  Proof. unfold with_records. cbn. rewrite app_nil_r, Z.add_0_r. now destruct t. Qed.
  Lemma with_records_app t a b : with_records (with_records t a) b = with_records t (a ++ b).
  Proof.
    unfold with_records, upd_history. cbn. f_equal; [now rewrite app_assoc|]. rewrite app_length. lia.
  Qed.
  Lemma track_records tgt cl ln md t : track tgt cl ln md t =
    with_records t [dupdate (dupdate (dict_of [(KStr "target", MStr tgt); (KStr "caller", MStr cl);
                (KStr "lineno", MInt ln); (KStr "trackcount", MInt (counter t))]) (metadata t)) md].
  Proof. reflexivity. Qed.

  Lemma on_trk_run i f w t : at_trk i w = Some t -> at_trk i (snd (on_trk (Real i) f w)) = Some (f t).
  Proof.
    unfold at_trk. intro H. cbn. rewrite H. cbn. now rewrite nth_set_nth, Nat.eqb_refl, H.
  Qed.
  Lemma track_send_run i k f x c w t : at_trk i w = Some t ->
    exists w', perform_send x (track_send none i k f) (c, w) = (Ok tt, (c, w')) /\
      at_trk i w' = Some (with_records t [step_record (metadata t) f k (counter t)]).
  Proof.
    intro H. rewrite send_place. cbn [track_send pipe starget pointer]. unfold _track_factory, ebind. cbn [snd fst].
    rewrite on_trk_ok. eexists. split; [reflexivity|]. now rewrite (on_trk_run _ _ _ _ H).
  Qed.

  (** The sends of a step: among them, one that tracks it. *)
  Definition tracked_by (i : nat) (c : comp) (k : key) (f : step) (post : list send) : Prop :=
    step_keeps (at_trk i) f /\
    exists pre, sends_of c k = pre ++ track_send none i k f :: post /\
      forall d, In d (pre ++ post) -> send_keeps (at_trk i) d.

  Lemma run_track i k f pre post x c w t : (forall d, In d (pre ++ post) -> send_keeps (at_trk i) d) ->
    at_trk i w = Some t ->
    match run_sends (pre ++ track_send none i k f :: post) x (c, w) with
    | (Ok _, s') => at_trk i (snd s') = Some (with_records t [step_record (metadata t) f k (counter t)])
    | (Exc _, s') => at_trk i (snd s') = Some t \/
                     post <> [] /\ at_trk i (snd s') = Some (with_records t [step_record (metadata t) f k (counter t)])
    end.
  Proof.
    intros Hk H. rewrite run_sends_app.
    assert (H1 := keeps_sends (at_trk i) pre x (fun d Hd => Hk d (in_or_app _ _ _ (or_introl Hd))) (c, w) _ H).
    destruct (run_sends pre x (c, w)) as [[u|e] [c1 w1]]; cbn [snd] in H1; [|now left]. cbn [run_sends].
    destruct (track_send_run i k f x c1 w1 t H1) as (w2 & -> & H2).
    assert (H3 := keeps_sends (at_trk i) post x (fun d Hd => Hk d (in_or_app _ _ _ (or_intror Hd))) (c1, w2) _ H2).
    destruct post as [|d post]; [exact H3|].
    destruct (run_sends (d :: post) x (c1, w2)) as [[u'|e] s']; [exact H3|]. right. split; [discriminate|exact H3].
  Qed.

  Lemma step_records_length meta l : forall n, List.length (step_records (V := V) (W := W) meta l n) = List.length l.
  Proof. induction l as [|[k f] l IH]; intro n; [reflexivity|]. cbn. now rewrite IH. Qed.

  Lemma exhaust_tracked i (l : dict step) : forall c w x ys e c' w' t post,
    (forall k f, In (k, f) l -> dget (steps c) k = Some f /\ tracked_by i c k f (post k)) ->
    exhaust (dkeys l) x (c, w) = (ys, e, (c', w')) -> at_trk i w = Some t ->
    exists m, List.length ys <= m <= S (List.length ys) /\ m <= List.length l /\ (e = None -> m = List.length ys) /\
      ((forall k, In k (dkeys l) -> post k = []) -> m = List.length ys) /\
      at_trk i w' = Some (with_records t (step_records (metadata t) (firstn m l) (counter t))).
  Proof.
    induction l as [|[k f] l IH]; intros c w x ys e c' w' t post Hl E Ht; cbn [dkeys map exhaust fst] in E.
    - injection E as <- <- <- <-. exists 0. cbn. rewrite with_records_nil. repeat split; auto.
    - fold (dkeys l) in E. destruct (Hl k f (or_introl eq_refl)) as (Hg & Hkeep & pre & Hs & Hpp). rewrite do_step_run in E.
      assert (H1 : Comp_Watch.keeps (at_trk i) (call_step c k x)).
      { apply keeps_call. intros f' G. rewrite Hg in G. injection G as <-. exact Hkeep. }
      specialize (H1 w t Ht). destruct (call_step c k x w) as [[y|e1] w1]; cbn [snd] in H1.
      2: { injection E as <- <- <- <-. exists 0. cbn [firstn step_records List.length]. rewrite with_records_nil.
           repeat split; auto; lia. }
      pose proof (run_sends_shape (sends_of c k) y (c, w1)) as Hsh.
      pose proof (run_track i k f pre (post k) y c w1 t Hpp H1) as H2. rewrite Hs in E, Hsh.
      destruct (run_sends (pre ++ track_send none i k f :: post k) y (c, w1)) as [[u|e1] [c2 w2]]; cbn [fst snd] in *.
      + destruct (exhaust (dkeys l) y (c2, w2)) as [[ys2 e2] [c3 w3]] eqn:E2. injection E as <- <- <- <-.
        destruct (IH c2 w2 y ys2 e2 c3 w3 (with_records t [step_record (metadata t) f k (counter t)]) post) as (m & M1 & M2 & M3 & M4 & M5); [|exact E2|exact H2|].
        { intros k' f' Hin. destruct (Hl k' f' (or_intror Hin)) as (G1 & G2 & G3).
          split; [now rewrite (shape_steps _ _ Hsh)|]. split; [exact G2|]. now rewrite (shape_sends _ _ _ Hsh). }
        exists (S m). cbn [List.length firstn step_records]. split; [lia|]. split; [lia|].
        split; [intro; rewrite M3; auto|]. split.
        * intro Hp. rewrite M4; [reflexivity|]. intros k' Hk'. apply Hp. now right.
        * rewrite M5, with_records_app. cbn. reflexivity.
      + injection E as <- <- <- <-. destruct H2 as [H2|[Hp H2]].
        * exists 0. cbn [firstn step_records List.length]. rewrite with_records_nil. repeat split; auto; lia.
        * exists 1. cbn [firstn step_records List.length]. split; [lia|]. split; [lia|]. split; [discriminate|]. split.
          -- intro K. exfalso. apply Hp, K. now left.
          -- exact H2.
  Qed.

  Lemma after_error_trk i c ys ex w t : ctracker c = Some (Real i) -> at_trk i w = Some t ->
    List.length ys < List.length (steps c) ->
    exists k f, nth_error (steps c) (List.length ys) = Some (k, f) /\
      at_trk i (after_error trace c ys ex w) =
        Some (with_records t (if is_Exception ex
                              then [error_record (metadata t) f (exc_report (fst (trace ex)) (snd (trace ex))) (counter t)]
                              else [])).
  Proof.
    intros Hc Ht Hl. destruct (nth_error (steps c) (List.length ys)) as [[k f]|] eqn:E.
    - exists k, f. split; [reflexivity|]. unfold after_error. rewrite Hc, E. destruct (is_Exception ex).
      + now rewrite (on_trk_run _ _ _ _ Ht).
      + now rewrite with_records_nil.
    - apply nth_error_None in E. lia.
  Qed.

  (** A tracked execution. *)
  Lemma tracked_lemma i c w x ys e s' t post : wfd (steps c) = true -> ctracker c = Some (Real i) ->
    (forall k f, In (k, f) (steps c) -> tracked_by i c k f (post k)) -> at_trk i w = Some t ->
    pull (List.length (steps c)) (itercall c x) (c, w) = (ys, e, s') ->
    exists m, List.length ys <= m <= S (List.length ys) /\ (e = None -> m = List.length (steps c)) /\
      ((forall k, In k (dkeys (steps c)) -> post k = []) -> m = List.length ys) /\
      let done := step_records (metadata t) (firstn m (steps c)) (counter t) in
      at_trk i (snd (snd (execute none trace x (c, w)))) =
        Some (with_records t
          (match e with
           | Some ex =>
               if is_Exception ex then
                 match nth_error (steps c) (List.length ys) with
                 | Some (_, f) => done ++ [error_record (metadata t) f (exc_report (fst (trace ex)) (snd (trace ex)))
                                             (counter t + Z.of_nat m)]
                 | None => done
                 end
               else done
           | None => done
           end)).
  Proof.
    intros Hw Hc Ht H Hy. unfold itercall in Hy. rewrite pull_exhaust in Hy.
    replace (List.length (steps c)) with (List.length (dkeys (steps c))) in Hy by (unfold dkeys; apply map_length).
    rewrite firstn_all in Hy. destruct s' as [c' w'].
    destruct (exhaust_tracked i (steps c) c w x ys e c' w' t post) as (m & M1 & M2 & M3 & M4 & M5); [|exact Hy|exact H|].
    { intros k f Hin. split; [now apply wfd_In_dget|now apply Ht]. }
    exists m. split; [exact M1|]. split.
    { intros ->. rewrite (M3 eq_refl). apply exhaust_length in Hy. rewrite Hy. unfold dkeys. apply map_length. }
    split; [exact M4|]. cbv zeta. rewrite (execute_run none trace x c w _ _ _ _ Hw Hy). cbn [snd].
    destruct e as [ex|]; [|exact M5].
    pose proof (exhaust_length _ _ _ _ _ _ Hy) as Hl. cbn in Hl. unfold dkeys in Hl. rewrite map_length in Hl.
    destruct (after_error_trk i c ys ex w' _ Hc M5 Hl) as (k & f & -> & ->). rewrite with_records_app.
    destruct (is_Exception ex); [|now rewrite app_nil_r].
    cbn [metadata with_records upd_history counter]. rewrite step_records_length, firstn_length, Nat.min_l by exact M2.
    reflexivity.
  Qed.

  (** ** Building tracked compositions *)

  Definition tsend (t : tkind) (k : key) (f : step) : send :=
    {| pipe := Some (_track_factory none t k f); starget := TNone; pointer := KNone |}.

  Lemma track_sends_loop t ks : forall c w, ctracker c = Some t ->
    (forall k, In k ks -> dget (steps c) k <> None) ->
    (exists ps : dict step, dkeys ps = ks /\ wfd ps = true) ->
    exists c', efoldM (fun _ k => _add_track_send none k) ks tt (c, w) = (Ok tt, (c', w)) /\
      c' = with_sends c (sends c') /\
      (forall k f, In k ks -> dget (steps c) k = Some f -> sends_of c' k = sends_of c k ++ [tsend t k f]) /\
      (forall k, (forall k', In k' ks -> keqb k' k = false) -> sends_of c' k = sends_of c k).
  Proof.
    induction ks as [|k ks IH]; intros c w Hc Hk Hnd.
    - exists c. split; [reflexivity|]. split; [now destruct c|]. split; [contradiction|reflexivity].
    - destruct Hnd as (ps & Hp1 & Hp2). destruct ps as [|[k0 s0] ps]; [discriminate|].
      injection Hp1 as -> Hp1. apply wfd_cons in Hp2. destruct Hp2 as [Hp3 Hp2].
      assert (Hne : forall k', In k' ks -> keqb k' k = false).
      { intros k' Hin. rewrite <- Hp1 in Hin. apply in_map_iff in Hin. destruct Hin as ([k'' v] & <- & Hin).
        rewrite dget_none_iff in Hp3. exact (Hp3 _ _ Hin). }
      cbn [efoldM]. unfold ebind at 1. unfold _add_track_send at 1, ebind at 1, Comp_Model.get at 1. cbn [fst].
      rewrite Hc. destruct (dget (steps c) k) as [f|] eqn:G; [|exfalso; now apply (Hk k (or_introl eq_refl))].
      destruct (add_send_run k (Some (_track_factory none t k f)) TNone KNone c w) as (c1 & -> & A1 & A2); [discriminate|].
      assert (S1 : steps c1 = steps c) by (rewrite A1; reflexivity).
      assert (T1 : ctracker c1 = ctracker c) by (rewrite A1; reflexivity).
      destruct (IH c1 w) as (c2 & -> & B1 & B2 & B3).
      { now rewrite T1. }
      { intros k' Hin. rewrite S1. apply Hk. now right. }
      { eauto. }
      exists c2. split; [reflexivity|]. split; [rewrite B1, A1; reflexivity|]. split.
      + intros k' f' [<-|Hin] G'.
        * rewrite B3 by exact Hne. rewrite A2, keqb_refl. rewrite G in G'. injection G' as <-. reflexivity.
        * rewrite (B2 k' f' Hin) by now rewrite S1. rewrite A2, keqb_sym, (Hne k' Hin). reflexivity.
      + intros k' H. rewrite B3 by (intros; apply H; now right). rewrite A2, (H k (or_introl eq_refl)). reflexivity.
  Qed.

  Lemma construct_tracks ss sn ins name t opt w :
    wfd (as_mapping (match ss with SNone => SSeq [@identity V W] | _ => ss end)) = true ->
    exists c, construct none ss sn ins name (Some t) opt w =
                (Ok tt, (c, snd (on_trk t (fun t => upd_name t (KStr (cname c))) w))) /\
      wfd (steps c) = true /\ ctracker c = Some t /\ optional c = opt /\
      steps c = as_mapping (match ss with SNone => SSeq [identity] | _ => ss end) /\ inserts c = as_mapping ins /\
      forall k f, In (k, f) (steps c) ->
        sends_of c k = match dget (as_mapping sn) k with Some l => l | None => [] end ++ [tsend t k f].
  Proof.
    intro Hw. unfold construct, _add_track_sends. set (nm := match name with Some n => n | None => _ end).
    set (ss' := match ss with SNone => _ | _ => ss end) in *.
    set (c0 := {| steps := as_mapping ss'; sends := _; inserts := _; ctracker := _; optional := _; cname := _; captures := _ |}).
    unfold ebind at 1, Comp_Model.get at 1. cbn [fst].
    destruct (track_sends_loop t (dkeys (steps c0)) c0 (snd (on_trk t (fun t => upd_name t (KStr nm)) w))) as (c & E & A1 & A2 & A3).
    { reflexivity. }
    { intros k Hin. apply in_map_iff in Hin. destruct Hin as ([k' v] & <- & Hin).
      change (dget (as_mapping ss') k' <> None). rewrite (wfd_In_dget _ _ _ Hw Hin). discriminate. }
    { exists (steps c0). split; [reflexivity|exact Hw]. }
    exists c. assert (S1 : steps c = steps c0) by (rewrite A1; reflexivity).
    assert (N1 : cname c = nm) by (rewrite A1; reflexivity).
    rewrite N1. split; [exact E|]. rewrite S1. split; [exact Hw|].
    split; [rewrite A1; reflexivity|]. split; [rewrite A1; reflexivity|]. split; [reflexivity|].
    split; [rewrite A1; reflexivity|]. intros k f Hin. rewrite (A2 k f).
    - reflexivity.
    - apply (in_map fst) in Hin. exact Hin.
    - now apply wfd_In_dget.
  Qed.

  Lemma construct_tracked ss sn ins name i opt w :
    wfd (as_mapping (match ss with SNone => SSeq [@identity V W] | _ => ss end)) = true ->
    exists c, construct none ss sn ins name (Some (Real i)) opt w =
                (Ok tt, (c, snd (on_trk (Real i) (fun t => upd_name t (KStr (cname c))) w))) /\
      wfd (steps c) = true /\ ctracker c = Some (Real i) /\ optional c = opt /\
      steps c = as_mapping (match ss with SNone => SSeq [identity] | _ => ss end) /\ inserts c = as_mapping ins /\
      forall k f, In (k, f) (steps c) ->
        sends_of c k = match dget (as_mapping sn) k with Some l => l | None => [] end ++ [track_send none i k f].
  Proof. exact (construct_tracks ss sn ins name (Real i) opt w). Qed.

  (** ** add_step *)

  Lemma add_step_run f name c w : exists c', add_step none f name (c, w) = (Ok tt, (c', w)) /\
    steps c' = dset (steps c) (step_name c name) f /\
    c' = with_sends (with_steps c (steps c')) (sends c') /\
    (forall k, sends_of c' k =
      match ctracker c with
      | Some kd => if keqb (step_name c name) k
                   then sends_of c k ++ [{| pipe := Some (_track_factory none kd (step_name c name) f);
                                            starget := TNone; pointer := KNone |}]
                   else sends_of c k
      | None => sends_of c k
      end).
  Proof.
    unfold add_step, ebind at 1, Comp_Model.get at 1. cbn [fst snd]. fold (default_name c). fold (step_name c name).
    unfold ebind at 1, put at 1. cbn [fst snd].
    unfold _add_track_send, ebind, Comp_Model.get. cbn [fst snd ctracker with_steps steps].
    destruct (ctracker c) as [kd|] eqn:Hc.
    - rewrite dget_dset_eq.
      destruct (add_send_run (step_name c name) (Some (_track_factory none kd (step_name c name) f)) TNone KNone
                  (with_steps c (dset (steps c) (step_name c name) f)) w) as (c1 & -> & A1 & A2); [discriminate|].
      exists c1. split; [reflexivity|]. assert (S1 : steps c1 = dset (steps c) (step_name c name) f) by (rewrite A1; reflexivity).
      split; [exact S1|]. split; [rewrite S1; exact A1|]. exact A2.
    - eexists. split; [reflexivity|]. split; [reflexivity|]. split; [now destruct c|]. reflexivity.
  Qed.

  (** Names after building from a sequence and default add_steps: no clash. *)
  Lemma default_fresh c : (forall k, In k (dkeys (steps c)) -> exists z, k = KInt z /\ (z <= Z.of_nat (List.length (steps c)))%Z) ->
    dget (steps c) (default_name c) = None.
  Proof.
    intro H. apply dget_none_iff. intros k v Hin. apply (in_map fst) in Hin. destruct (H k Hin) as (z & -> & Hz).
    destruct (keqb (KInt z) (default_name c)) eqn:E; [|reflexivity]. apply keqb_int in E. lia.
  Qed.

  (** ** reindex *)

  Lemma reindex_run c w : reindex (c, w) = (Ok tt, (with_steps c (number_from 0 (dvalues (steps c))), w)).
  Proof. unfold reindex, ebind, Comp_Model.get, put. cbn [fst snd]. now rewrite dict_of_number. Qed.
  Lemma dvalues_number {A} (l : list A) i : dvalues (number_from i l) = l.
  Proof. revert i. induction l as [|a l IH]; intro i; [reflexivity|]. cbn. f_equal. apply IH. Qed.
  Lemma dkeys_number {A} (l : list A) : forall i, dkeys (number_from i l) = map (fun n => KInt (i + Z.of_nat n)) (seq 0 (List.length l)).
  Proof.
    induction l as [|a l IH]; intro i; [reflexivity|]. cbn [number_from dkeys map fst List.length seq].
    fold (dkeys (number_from (i + 1) l)). rewrite IH, <- seq_shift, map_map, Z.add_0_r. f_equal.
    apply map_ext. intro n. f_equal. lia.
  Qed.

  (** The same steps under other names, without inserts and sends. *)
  Lemma flow_execute c w x : wfd (steps c) = true -> bare c ->
    execute none trace x (c, w) =
      (let '(ys, e, w') := flow (map applied (dvalues (steps c))) x w in
       (outcome none (optional c) ys (option_map surfaced e), (c, match option_map surfaced e with None => w' | Some ex => after_error trace c ys ex w' end))).
  Proof.
    intros Hw Hb. assert (E := exhaust_flow c (steps c) (fun k f => wfd_In_dget _ _ _ Hw) Hb x w).
    destruct (flow (map applied (dvalues (steps c))) x w) as [[ys e] w'].
    exact (execute_run none trace x c w _ _ _ _ Hw E).
  Qed.
End Tracking.
