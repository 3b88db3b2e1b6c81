(** The properties of composition.py, before they get their names. *)
From Coq Require Import Lia.
From Verif Require Export Comp_Track.
From Verif Require Import Py_Facts Pool_Proofs Track_Proofs.

Section Lemmas.
  Context {V W : Type}.
  Context (none : V) (trace : exn -> string * list frame).
  Notation world := (@world V W).
  Notation step := (@step V W).
  Notation send := (@send V W).
  Notation comp := (@comp V W).
  Notation st := (@st V W).
  Implicit Types (c : comp) (w : world) (x y : V) (s : st).

  (** ** C23 *)

  Lemma keys_length c : List.length (dkeys (steps c)) = List.length (steps c).
  Proof. unfold dkeys. apply map_length. Qed.

  Lemma pipeline_lemma c w x : wfd (steps c) = true -> bare c ->
    let '(ys, e, w') := flow (map applied (dvalues (steps c))) x w in
    fst (execute none trace x (c, w)) = outcome none (optional c) ys (option_map surfaced e) /\
    fst (snd (execute none trace x (c, w))) = c /\
    (ctracker c = None -> snd (snd (execute none trace x (c, w))) = w').
  Proof.
    intros Hw Hb. rewrite (flow_execute none trace c w x Hw Hb).
    destruct (flow (map applied (dvalues (steps c))) x w) as [[ys e] w']. cbn [fst snd].
    split; [reflexivity|]. split; [reflexivity|]. intro Hc. destruct e as [ex|]; [|reflexivity].
    cbn [option_map]. unfold after_error. rewrite Hc. now destruct (is_Exception (surfaced ex)).
  Qed.

  Lemma dkeys_firstn {A} n (d : dict A) : firstn n (dkeys d) = dkeys (firstn n d).
  Proof. unfold dkeys. apply firstn_map. Qed.
  Lemma In_firstn' {A} (a : A) n l : In a (firstn n l) -> In a l.
  Proof. revert n. induction l as [|b l IH]; intros [|n] H; try contradiction. destruct H; [now left|right; eauto]. Qed.
  Lemma generator_lemma c w x n : wfd (steps c) = true -> bare c ->
    pull n (itercall c x) (c, w) =
      let '(ys, e, w') := flow (firstn n (map applied (dvalues (steps c)))) x w in (ys, option_map surfaced e, (c, w')).
  Proof.
    intros Hw Hb. unfold itercall. rewrite pull_exhaust, dkeys_firstn, firstn_map.
    replace (firstn n (dvalues (steps c))) with (dvalues (firstn n (steps c))) by (unfold dvalues; now rewrite firstn_map).
    apply exhaust_flow.
    - intros k f H. apply wfd_In_dget; [exact Hw|]. now apply In_firstn' in H.
    - intros k H. apply Hb. rewrite <- dkeys_firstn in H. now apply In_firstn' in H.
  Qed.
  Lemma empty_lemma c w x : steps c = [] -> execute none trace x (c, w) = (Ok none, (c, w)).
  Proof. intro H. unfold execute, itercall. cbn [fst todo gstate]. rewrite H. reflexivity. Qed.

  (** ** C24 *)

  Lemma calls_keep_inserts c w k x r c' w' : _do_step k x (c, w) = (r, (c', w')) ->
    (forall d, In d (sends_of c k) -> wire d = []) -> forall t, inserts_at c' t = inserts_at c t.
  Proof.
    intros H Hd t. destruct (do_step_sent _ _ _ _ _ H) as (sent & rest & A & _ & B & _). cbn [fst] in *.
    rewrite B. replace (flat_map wire (sends_of c k)) with (@nil (key * key)) in A.
    - destruct sent; [reflexivity|discriminate].
    - symmetry. clear - Hd. induction (sends_of c k) as [|d l IH]; [reflexivity|]. cbn [flat_map].
      rewrite (Hd d (or_introl eq_refl)). apply IH. intros; apply Hd; now right.
  Qed.

  (** ** C26 *)

  Lemma send_insert_lemma d t x c w : starget d = TStep t -> pipe d = None ->
    exists c', perform_send x d (c, w) = (Ok tt, (c', w)) /\ same_shape c c' /\
      forall t' k', dget (inserts_at c' t') k' =
        if keqb t t' && keqb (pointer d) k' then Some x else dget (inserts_at c t') k'.
  Proof.
    intros Ht Hp. rewrite send_place, Hp, Ht. cbn [place_into].
    destruct (add_insert_run t (pointer d) x c w) as (c' & E & S & I). exists c'. split; [exact E|]. split; [exact S|].
    intros t' k'. rewrite I, dget_last_sent. reflexivity.
  Qed.
  Lemma send_pipe_lemma d p x c w : pipe d = Some p ->
    perform_send x d (c, w) =
      match p x w with
      | (Ok y, w') => perform_send y {| pipe := None; starget := starget d; pointer := pointer d |} (c, w')
      | (Exc e, w') => (Exc e, (c, w'))
      end.
  Proof.
    intro H. rewrite send_place, H. cbn [fst snd]. destruct (p x w) as [[y|e] w']; [|reflexivity].
    rewrite send_place. reflexivity.
  Qed.
  Lemma send_list_lemma d r l x c w : starget d = TRef r -> pipe d = None -> nth_error (objs w) r = Some (OList l) ->
    perform_send x d (c, w) =
      match pointer d with
      | KNone => (Ok tt, (c, with_objs w (set_nth (objs w) r (OList (l ++ [x])))))
      | p => match kint p with
             | None => (Exc TypeError, (c, w))
             | Some i =>
                 if (i <? - Z.of_nat (List.length l))%Z || (Z.of_nat (List.length l) <=? i)%Z
                 then (Exc IndexError, (c, w))
                 else (Ok tt, (c, with_objs w (set_nth (objs w) r (OList
                        (set_nth l (Z.to_nat (if i <? 0 then Z.of_nat (List.length l) + i else i)%Z) x)))))
             end
      end.
  Proof.
    intros Ht Hp Hr. rewrite send_place, Hp, Ht. cbn [place_into]. rewrite lift_run. cbn [fst snd]. rewrite Hr.
    assert (A : forall p, (fst match kint p with
        | None => (Exc TypeError, w)
        | Some i => match list_set l i x with
                    | Ok l' => (Ok tt, with_objs w (set_nth (objs w) r (OList l')))
                    | Exc e => (Exc e, w)
                    end
        end, (c, snd match kint p with
        | None => (Exc TypeError, w)
        | Some i => match list_set l i x with
                    | Ok l' => (Ok tt, with_objs w (set_nth (objs w) r (OList l')))
                    | Exc e => (Exc e, w)
                    end
        end)) = match kint p with
             | None => (Exc TypeError, (c, w))
             | Some i =>
                 if (i <? - Z.of_nat (List.length l))%Z || (Z.of_nat (List.length l) <=? i)%Z
                 then (Exc IndexError, (c, w))
                 else (Ok tt, (c, with_objs w (set_nth (objs w) r (OList
                        (set_nth l (Z.to_nat (if i <? 0 then Z.of_nat (List.length l) + i else i)%Z) x)))))
             end).
    { intro p. destruct (kint p) as [i|]; [|reflexivity]. unfold list_set.
      destruct (Z.ltb_spec i (- Z.of_nat (List.length l))), (Z.leb_spec (Z.of_nat (List.length l)) i), (Z.ltb_spec i 0); cbn [orb]; try lia;
        try (replace ((0 <=? _) && (_ <? _))%Z with false; [reflexivity|symmetry; apply andb_false_iff;
             rewrite Z.leb_gt, Z.ltb_ge; lia]);
        (replace ((0 <=? _) && (_ <? _))%Z with true; [rewrite ?(Z.add_comm i); reflexivity|symmetry; apply andb_true_iff;
             rewrite Z.leb_le, Z.ltb_lt; lia]). }
    destruct (pointer d); try apply A. reflexivity.
  Qed.
  Lemma send_dict_lemma d r m x c w : starget d = TRef r -> pipe d = None -> nth_error (objs w) r = Some (ODict m) ->
    perform_send x d (c, w) = (Ok tt, (c, with_objs w (set_nth (objs w) r (ODict (dset m (pointer d) x))))).
  Proof.
    intros Ht Hp Hr. rewrite send_place, Hp, Ht. cbn [place_into]. rewrite lift_run. cbn [fst snd]. now rewrite Hr.
  Qed.
  Lemma send_writer_lemma d f x c w : starget d = TWriter f -> pipe d = None ->
    perform_send x d (c, w) = (fst (f x w), (c, snd (f x w))).
  Proof. intros Ht Hp. rewrite send_place, Hp, Ht. cbn [place_into]. now rewrite lift_run. Qed.
  Lemma send_nowhere_lemma d x c w : starget d = TNone \/ starget d = TOther -> pipe d = None ->
    perform_send x d (c, w) = (Ok tt, (c, w)).
  Proof. intros [Ht|Ht] Hp; rewrite send_place, Hp, Ht; reflexivity. Qed.

  Lemma in_time_lemma c w x pre k post ys c1 w1 : dkeys (steps c) = pre ++ k :: post ->
    pull (List.length pre) (itercall c x) (c, w) = (ys, None, (c1, w1)) ->
    same_shape c c1 /\ List.length ys = List.length pre /\
    pull (S (List.length pre)) (itercall c x) (c, w) =
      (match _do_step k (last ys x) (c1, w1) with
       | (Ok y, s') => (ys ++ [y], None, s')
       | (Exc e, s') => (ys, Some (surfaced e), s')
       end) /\
    exists sent, map fst sent = wires c pre /\
      ((forall k' d, In k' pre -> In d (sends_of c k') -> unpiped d) -> sent = carried c (combine pre ys)) /\
      forall t p, dget (inserts_at c1 t) p = last_sent sent t p (dget (inserts_at c t) p).
  Proof.
    intros Hk H. unfold itercall in *. rewrite pull_exhaust in *. rewrite Hk in *.
    rewrite firstn_app, Nat.sub_diag, firstn_all, firstn_O, app_nil_r in H.
    pose proof (exhaust_shape _ _ _ _ _ _ H) as Hs. pose proof (exhaust_length _ _ _ _ _ _ H) as Hl. cbn [fst] in Hs.
    split; [exact Hs|]. split; [exact Hl|]. split.
    - replace (firstn (S (List.length pre)) (pre ++ k :: post)) with (pre ++ [k]).
      + rewrite exhaust_app, H. cbn [exhaust]. destruct (_do_step k (last ys x) (c1, w1)) as [[y|e] s']; [reflexivity|].
        now rewrite app_nil_r.
      + rewrite firstn_app, firstn_all2 by lia. f_equal. replace (S (List.length pre) - List.length pre) with 1 by lia. reflexivity.
    - destruct (exhaust_sent _ _ _ _ _ _ H) as (sent & rest & A1 & A2 & A3 & A4). cbn [fst] in *.
      rewrite (A2 eq_refl), app_nil_r in A1. exists sent. split; [now symmetry|]. split.
      + intro Hu. now apply A4.
      + intros t p. rewrite A3. apply dget_last_sent.
  Qed.

  (** ** C29 *)

  Lemma tracked_keeps i c k f post : tracked none i c k f post -> tracked_by none i c k f post.
  Proof.
    intros [A (pre & B & C)]. split; [now apply step_spares_trk|]. exists pre. split; [exact B|].
    intros d Hd. now apply send_spares_trk, C.
  Qed.
  Lemma tracked_execute_lemma i c w x ys e s' t post : wfd (steps c) = true -> ctracker c = Some (Real i) ->
    (forall k f, In (k, f) (steps c) -> tracked none i c k f (post k)) -> nth_error (trks w) i = Some t ->
    pull (List.length (steps c)) (itercall c x) (c, w) = (ys, e, s') ->
    exists m, List.length ys <= m <= S (List.length ys) /\ (e = None -> m = List.length (steps c)) /\
      ((forall k, In k (dkeys (steps c)) -> post k = []) -> m = List.length ys) /\
      let done := step_records (metadata t) (firstn m (steps c)) (counter t) in
      nth_error (trks (snd (snd (execute none trace x (c, w))))) i =
        Some (with_records t
          (match e with
           | Some ex =>
               if is_Exception ex then
                 match nth_error (steps c) (List.length ys) with
                 | Some (_, f) => done ++ [error_record (metadata t) f (exc_report (fst (trace ex)) (snd (trace ex)))
                                             (counter t + Z.of_nat m)]
                 | None => done
                 end
               else done
           | None => done
           end)).
  Proof.
    intros Hw Hc Ht H Hy. apply (tracked_lemma none trace i c w x ys e s' t post Hw Hc); auto.
    intros k f Hin. now apply tracked_keeps, Ht.
  Qed.

  Lemma construct_tracked_lemma ss sn ins name i opt w :
    wfd (as_mapping (match ss with SNone => SSeq [@identity V W] | _ => ss end)) = true ->
    (forall k f, In (k, f) (as_mapping (match ss with SNone => SSeq [@identity V W] | _ => ss end)) ->
       step_spares (fun A m => spares_trk i m) f) ->
    (forall k l d, dget (as_mapping sn) k = Some l -> In d l -> send_spares (fun A m => spares_trk i m) d) ->
    exists c w', construct none ss sn ins name (Some (Real i)) opt w = (Ok tt, (c, w')) /\
      wfd (steps c) = true /\ ctracker c = Some (Real i) /\
      steps c = as_mapping (match ss with SNone => SSeq [identity] | _ => ss end) /\
      forall k f, In (k, f) (steps c) -> tracked none i c k f [].
  Proof.
    intros Hw Hf Hd. destruct (construct_tracked none ss sn ins name i opt w Hw) as (c & E & A1 & A2 & A3 & A4 & A5 & A6).
    exists c. eexists. split; [exact E|]. split; [exact A1|]. split; [exact A2|]. split; [exact A4|].
    intros k f Hin. split; [apply (Hf k); now rewrite <- A4|].
    exists (match dget (as_mapping sn) k with Some l => l | None => [] end). split; [now apply A6|].
    intros d H. rewrite app_nil_r in H. destruct (dget (as_mapping sn) k) as [l|] eqn:G; [|contradiction].
    exact (Hd k l d G H).
  Qed.

  Lemma start_tracking_lemma outdir now c w : wfd (steps c) = true -> ctracker c = None ->
    (forall k f, In (k, f) (steps c) -> step_spares (fun A m => spares_trk (List.length (trks w)) m) f) ->
    (forall k d, In d (sends_of c k) -> send_spares (fun A m => spares_trk (List.length (trks w)) m) d) ->
    exists c', start_tracking none outdir now (c, w) =
        (Ok tt, (c', with_trks w (trks w ++ [new_tracker KNone "" outdir now]))) /\
      steps c' = steps c /\ inserts c' = inserts c /\ ctracker c' = Some (Real (List.length (trks w))) /\
      forall k f, In (k, f) (steps c') -> tracked none (List.length (trks w)) c' k f [].
  Proof.
    intros Hw Hc Hf Hd. unfold start_tracking, _add_track_sends.
    unfold ebind at 1, Comp_Model.get at 1. cbn [fst]. rewrite Hc.
    unfold ebind at 1, lift at 1. cbn [fst snd]. unfold ebind at 1, put at 1. cbn [fst snd].
    unfold ebind at 1, Comp_Model.get at 1. cbn [fst].
    set (w1 := with_trks w _). set (c1 := with_tracker c _).
    destruct (track_sends_loop none (Real (List.length (trks w))) (dkeys (steps c1)) c1 w1) as (c' & E & A1 & A2 & A3).
    { reflexivity. }
    { intros k Hin. apply in_map_iff in Hin. destruct Hin as ([k' v] & <- & Hin).
      change (dget (steps c) k' <> None). rewrite (wfd_In_dget _ _ _ Hw Hin). discriminate. }
    { exists (steps c). split; [reflexivity|exact Hw]. }
    exists c'. split; [exact E|]. assert (S1 : steps c' = steps c) by (rewrite A1; reflexivity).
    split; [exact S1|]. split; [rewrite A1; reflexivity|]. split; [rewrite A1; reflexivity|].
    intros k f Hin. rewrite S1 in Hin. split; [exact (Hf k f Hin)|]. exists (sends_of c k). split.
    - apply A2; [exact (in_map fst _ _ Hin)|now apply wfd_In_dget].
    - intros d H. rewrite app_nil_r in H. exact (Hd k d H).
  Qed.

  Lemma add_step_tracked_lemma i c w f name c' w' : wfd (steps c) = true -> ctracker c = Some (Real i) ->
    (forall k g, In (k, g) (steps c) -> exists post, tracked none i c k g post) ->
    dget (steps c) (step_name c name) = None ->
    step_spares (fun A m => spares_trk i m) f ->
    (forall d, In d (sends_of c (step_name c name)) -> send_spares (fun A m => spares_trk i m) d) ->
    add_step none f name (c, w) = (Ok tt, (c', w')) ->
    w' = w /\ wfd (steps c') = true /\ ctracker c' = Some (Real i) /\
    (forall k g, In (k, g) (steps c') -> exists post, tracked none i c' k g post) /\
    ((forall k g, In (k, g) (steps c) -> tracked none i c k g []) ->
     (forall k g, In (k, g) (steps c') -> tracked none i c' k g [])).
  Proof.
    intros Hw Hc Ht Hn Hf Hd E. destruct (add_step_run none f name c w) as (c1 & E1 & A1 & A2 & A3).
    rewrite E in E1. injection E1 as <- <-. split; [reflexivity|].
    split; [rewrite A1; now apply wfd_dset|]. split; [rewrite A2; exact Hc|].
    set (n := step_name c name) in *. rewrite Hc in A3.
    assert (G : forall k g (P : list send -> Prop), P [] -> In (k, g) (steps c') ->
      (In (k, g) (steps c) -> exists post, P post /\ tracked none i c k g post) ->
      exists post, P post /\ tracked none i c' k g post).
    { intros k g P P0 Hin Hold. rewrite A1, (dset_notin _ _ _ Hn) in Hin. apply in_app_iff in Hin.
      destruct Hin as [Hin|[Hin|[]]].
      - destruct (Hold Hin) as (post & P1 & T1 & pre & T2 & T3). exists post. split; [exact P1|]. split; [exact T1|].
        exists pre. split; [|exact T3]. rewrite A3.
        assert (keqb n k = false) as ->; [|exact T2].
        rewrite keqb_sym. rewrite dget_none_iff in Hn. exact (Hn k g Hin).
      - injection Hin as <- <-. exists []. split; [exact P0|]. split; [exact Hf|]. exists (sends_of c n).
        split; [now rewrite A3, keqb_refl|]. intros d H. rewrite app_nil_r in H. now apply Hd. }
    split.
    - intros k g Hin. destruct (G k g (fun _ => True) I Hin) as (post & _ & T); [|eauto].
      intro H. destruct (Ht k g H) as (post & T). eauto.
    - intros Ht' k g Hin. destruct (G k g (fun p => p = []) eq_refl Hin) as (post & -> & T); [|exact T].
      intro H. exists []. split; [reflexivity|]. now apply Ht'.
  Qed.

  Lemma add_send_tracked_lemma i c w n p t ptr c' w' :
    (forall k g, In (k, g) (steps c) -> exists post, tracked none i c k g post) ->
    send_spares (fun A m => spares_trk i m) {| pipe := p; starget := t; pointer := ptr |} ->
    add_send n p t ptr (c, w) = (Ok tt, (c', w')) ->
    w' = w /\ steps c' = steps c /\ forall k g, In (k, g) (steps c') -> exists post, tracked none i c' k g post.
  Proof.
    intros Ht Hd E. assert (Hn : t = TNone -> p <> None) by (intros -> ->; discriminate).
    destruct (add_send_run n p t ptr c w Hn) as (c1 & E1 & A1 & A2). rewrite E in E1. injection E1 as <- <-.
    split; [reflexivity|]. assert (S : steps c' = steps c) by (rewrite A1; reflexivity). split; [exact S|].
    intros k g Hin. rewrite S in Hin. destruct (Ht k g Hin) as (post & T1 & pre & T2 & T3).
    destruct (keqb n k) eqn:Ek.
    - exists (post ++ [{| pipe := p; starget := t; pointer := ptr |}]). split; [exact T1|]. exists pre.
      split; [now rewrite A2, Ek, T2, <- app_assoc|]. intros d H. rewrite app_assoc in H. apply in_app_iff in H.
      destruct H as [H|[<-|[]]]; [now apply T3|exact Hd].
    - exists post. split; [exact T1|]. exists pre. split; [now rewrite A2, Ek|exact T3].
  Qed.

  (** ** C30 *)

  Lemma add_step_lemma f name c w : exists c', add_step none f name (c, w) = (Ok tt, (c', w)) /\
    inserts c' = inserts c /\ ctracker c' = ctracker c /\ optional c' = optional c /\
    (ctracker c = None -> sends c' = sends c) /\
    (dget (steps c) (step_name c name) = None -> steps c' = steps c ++ [(step_name c name, f)]) /\
    (forall a k g b, steps c = a ++ (k, g) :: b -> wfd (steps c) = true -> keqb k (step_name c name) = true ->
       steps c' = a ++ (k, f) :: b).
  Proof.
    destruct (add_step_run none f name c w) as (c' & E & A1 & A2 & A3). exists c'. split; [exact E|].
    split; [rewrite A2; reflexivity|]. split; [rewrite A2; reflexivity|]. split; [rewrite A2; reflexivity|]. split.
    { intro Hc. unfold add_step, ebind, Comp_Model.get, put, _add_track_send in E. cbn [fst snd] in E.
      unfold ebind, Comp_Model.get in E. cbn [fst snd ctracker with_steps] in E. rewrite Hc in E. injection E as <-. reflexivity. }
    split; [intro H; rewrite A1; now apply dset_notin|].
    intros a k g b Hs Hw Hk. rewrite A1, Hs. rewrite Hs in Hw. clear - Hw Hk.
    induction a as [|[k' g'] a IH]; cbn [app dset].
    - now rewrite Hk.
    - cbn [app] in Hw. apply wfd_cons in Hw. destruct Hw as [H1 H2].
      destruct (keqb k' (step_name c name)) eqn:E.
      + exfalso. rewrite dget_none_iff in H1. assert (keqb k k' = true); [|rewrite (H1 k g) in H; [discriminate|]].
        * apply (keqb_trans _ (step_name c name)); [exact Hk|]. now rewrite keqb_sym.
        * apply in_app_iff. right. now left.
      + f_equal. now apply IH.
  Qed.

  Lemma add_defaults_lemma fs : forall c w,
    (forall k, In k (dkeys (steps c)) -> exists z, k = KInt z /\ (z <= Z.of_nat (List.length (steps c)))%Z) ->
    dvalues (steps (fst (add_defaults none fs (c, w)))) = dvalues (steps c) ++ fs.
  Proof.
    induction fs as [|f fs IH]; intros c w H; cbn [add_defaults]; [now rewrite app_nil_r|].
    destruct (add_step_lemma f KNone c w) as (c' & -> & _ & _ & _ & _ & A & _). cbn [snd].
    specialize (A (default_fresh c H)). rewrite IH.
    - rewrite A. unfold dvalues. rewrite map_app, <- app_assoc. reflexivity.
    - intros k Hk. rewrite A in *. unfold dkeys in Hk. rewrite map_app in Hk. apply in_app_iff in Hk.
      rewrite app_length. cbn [List.length]. destruct Hk as [Hk|[<-|[]]].
      + destruct (H k Hk) as (z & -> & Hz). exists z. split; [reflexivity|lia].
      + exists (Z.of_nat (List.length (steps c)) + 1)%Z. split; [reflexivity|lia].
  Qed.
  Lemma sequence_names (l : list step) : forall k, In k (dkeys (number_from 0 l)) ->
    exists z, k = KInt z /\ (z <= Z.of_nat (List.length (number_from 0 l)))%Z.
  Proof.
    intros k Hk. rewrite dkeys_number in Hk. apply in_map_iff in Hk. destruct Hk as (n & <- & Hn). apply in_seq in Hn.
    assert (List.length (number_from 0 l) = List.length l) as ->.
    { rewrite <- (map_length fst). fold (dkeys (number_from 0 l)). rewrite dkeys_number, map_length, seq_length. reflexivity. }
    eexists. split; [reflexivity|]. lia.
  Qed.

  Lemma wire_nil_step d : wire d = @nil (key * key) -> forall t, starget (V := V) (W := W) d <> TStep t.
  Proof. unfold wire. intros H t E. rewrite E in H. discriminate. Qed.

  (** Steps under other names, with the same inserts and sends. *)
  Lemma rename_exhaust (l1 l2 : dict step) : dvalues l1 = dvalues l2 ->
    forall c1 c2 w x, inserts c1 = inserts c2 -> sends c1 = sends c2 ->
    (forall i k1 f1 k2 f2, nth_error l1 i = Some (k1, f1) -> nth_error l2 i = Some (k2, f2) ->
       inserts_at c1 k1 = inserts_at c1 k2 /\ sends_of c1 k1 = sends_of c1 k2 /\ flat_map wire (sends_of c1 k1) = []) ->
    (forall k f, In (k, f) l1 -> dget (steps c1) k = Some f) -> (forall k f, In (k, f) l2 -> dget (steps c2) k = Some f) ->
    match exhaust (dkeys l1) x (c1, w), exhaust (dkeys l2) x (c2, w) with
    | (ys1, e1, (c1', w1)), (ys2, e2, (c2', w2)) => ys1 = ys2 /\ e1 = e2 /\ w1 = w2 /\ c1' = c1 /\ c2' = c2
    end.
  Proof.
    revert l2. induction l1 as [|[k1 f1] l1 IH]; intros [|[k2 f2] l2] E c1 c2 w x Hi Hs H H1 H2; try discriminate.
    - cbn. auto.
    - cbn [dvalues map snd] in E. injection E as <- E. destruct (H 0 k1 f1 k2 f1 eq_refl eq_refl) as (A1 & A2 & A3).
      cbn [dkeys map fst exhaust]. fold (dkeys l1). fold (dkeys l2). rewrite !do_step_run.
      assert (Ec : call_step c2 k2 x = call_step c1 k1 x).
      { unfold call_step. rewrite (H1 k1 f1 (or_introl eq_refl)), (H2 k2 f1 (or_introl eq_refl)), !call_inserts.
        replace (inserts_at c2 k2) with (inserts_at c1 k1); [reflexivity|]. rewrite A1. unfold inserts_at. now rewrite Hi. }
      rewrite Ec. destruct (call_step c1 k1 x w) as [[y|e] w1]; [|auto].
      assert (Es : sends_of c2 k2 = sends_of c1 k1) by (rewrite A2; unfold sends_of; now rewrite Hs).
      rewrite Es.
      assert (G : forall l, flat_map wire l = [] -> forall w,
        exists r w', run_sends l y (c1, w) = (r, (c1, w')) /\ run_sends l y (c2, w) = (r, (c2, w'))).
      { induction l as [|d l IHl]; intros Hl w'; [exists (Ok tt), w'; auto|]. cbn [flat_map] in Hl.
        apply app_eq_nil in Hl. destruct Hl as [Hd Hl]. cbn [run_sends].
        assert (P : forall w, exists r w', perform_send y d (c1, w) = (r, (c1, w')) /\ perform_send y d (c2, w) = (r, (c2, w'))).
        { clear - Hd. intro w. rewrite !send_place. cbn [fst snd].
          assert (Q : forall v u, exists r w', place_into v (starget d) (pointer d) (c1, u) = (r, (c1, w')) /\
                                       place_into v (starget d) (pointer d) (c2, u) = (r, (c2, w'))).
          { intros v u. pose proof (wire_nil_step d Hd) as N. destruct (starget d) as [|t|r|f|]; try (now destruct (N t));
              cbn [place_into]; rewrite ?lift_run; cbn [fst snd]; eauto; unfold eret; eauto. }
          destruct (pipe d) as [p|]; [|apply Q]. destruct (p y w) as [[v|e] w']; [apply Q|eauto]. }
        destruct (P w') as (r & w'' & -> & ->). destruct r as [[]|e]; [apply IHl; exact Hl|eauto]. }
      destruct (G (sends_of c1 k1) A3 w1) as (r & w2 & -> & ->). destruct r as [u|e]; [|auto].
      specialize (IH l2 E c1 c2 w2 y Hi Hs).
      assert (IH' := IH (fun i => H (S i)) (fun k f Hin => H1 k f (or_intror Hin)) (fun k f Hin => H2 k f (or_intror Hin))).
      destruct (exhaust (dkeys l1) y (c1, w2)) as [[ys1 e1] [c1' w1']], (exhaust (dkeys l2) y (c2, w2)) as [[ys2 e2] [c2' w2']].
      destruct IH' as (-> & -> & -> & -> & ->). auto.
  Qed.

  Lemma nth_number {A} (l : list A) : forall i n, nth_error (number_from i l) n =
    match nth_error l n with Some a => Some (KInt (i + Z.of_nat n), a) | None => None end.
  Proof.
    induction l as [|a l IH]; intros i [|n]; try reflexivity; cbn [number_from nth_error].
    - now rewrite Z.add_0_r.
    - rewrite IH. replace (i + 1 + Z.of_nat n)%Z with (i + Z.of_nat (S n))%Z by lia. reflexivity.
  Qed.

  Lemma reindex_lemma c w : exists c', reindex (c, w) = (Ok tt, (c', w)) /\
    c' = with_steps c (steps c') /\
    Comp_Model.index c' = map (fun n => KInt (Z.of_nat n)) (seq 0 (List.length (steps c))) /\
    dvalues (steps c') = dvalues (steps c) /\
    (wfd (steps c) = true -> position_proof c -> forall x,
       fst (execute none trace x (c', w)) = fst (execute none trace x (c, w)) /\
       snd (snd (execute none trace x (c', w))) = snd (snd (execute none trace x (c, w)))).
  Proof.
    rewrite reindex_run. eexists. split; [reflexivity|]. split; [reflexivity|]. cbn [steps with_steps].
    unfold Comp_Model.index. cbn [steps with_steps].
    assert (L : List.length (dvalues (steps c)) = List.length (steps c)) by apply map_length.
    split; [rewrite dkeys_number, L; reflexivity|]. split; [apply dvalues_number|].
    intros Hw Hp x. set (c' := with_steps c (number_from 0 (dvalues (steps c)))).
    assert (Hw' : wfd (steps c') = true) by apply wfd_number_from.
    assert (R := rename_exhaust (steps c) (steps c') (eq_sym (dvalues_number _ 0)) c c' w x eq_refl eq_refl).
    specialize (fun H => R H (fun k f => wfd_In_dget _ _ _ Hw) (fun k f => wfd_In_dget _ _ _ Hw')).
    destruct (exhaust (dkeys (steps c)) x (c, w)) as [[ys e] [c1 w1]] eqn:E1.
    destruct (exhaust (dkeys (steps c')) x (c', w)) as [[ys' e'] [c2 w2]] eqn:E2.
    destruct R as (<- & <- & <- & -> & ->).
    { intros i k1 f1 k2 f2 N1 N2. cbn [c' steps with_steps] in N2. rewrite nth_number in N2.
      destruct (nth_error (dvalues (steps c)) i); [|discriminate]. injection N2 as <- _.
      destruct (Hp i k1) as (P1 & P2 & P3); [unfold dkeys; now rewrite nth_error_map, N1|].
      cbn in *. auto. }
    rewrite (execute_run none trace x c w _ _ _ _ Hw E1), (execute_run none trace x c' w _ _ _ _ Hw' E2). cbn [fst snd].
    split; [reflexivity|]. destruct e as [ex|]; [|reflexivity]. unfold after_error.
    destruct (is_Exception ex); [|reflexivity]. cbn [c' ctracker with_steps steps]. destruct (ctracker c); [|reflexivity].
    rewrite nth_number. unfold dvalues. rewrite nth_error_map. destruct (nth_error (steps c) (List.length ys)) as [[n f]|]; reflexivity.
  Qed.

  Lemma sequence_lemma (l fs : list step) c w : steps c = as_mapping (SSeq l) ->
    dvalues (steps (fst (add_defaults none fs (c, w)))) = l ++ fs.
  Proof.
    intro H. cbn [as_mapping] in H. rewrite dict_of_number in H.
    rewrite add_defaults_lemma; rewrite H; [f_equal; apply dvalues_number|]. apply sequence_names.
  Qed.

  Lemma add_captures_lemma c w : wfd (steps c) = true ->
    exists c1, add_captures none (c, w) =
      (Ok tt, (c1, with_objs w (objs w ++ repeat (OList [none]) (List.length (steps c))))) /\
      steps c1 = steps c /\ inserts c1 = inserts c.
  Proof.
    intro H. destruct (add_captures_run none c w H) as (c1 & E & A & _). exists c1. split; [exact E|].
    rewrite A. split; reflexivity.
  Qed.
End Lemmas.

Lemma names_lemma {V W} (c : @comp V W) : match function_names c with
  | Ok l => map s_name (dvalues (steps c)) = map Some l
  | Exc e => e = AttributeError /\ exists s, In s (dvalues (steps c)) /\ s_name s = None
  end.
Proof.
  unfold function_names. induction (dvalues (steps c)) as [|s l IH]; cbn [mapM map]; [reflexivity|].
  destruct (s_name s) as [n|] eqn:E; cbn [bind].
  - destruct (mapM _ l) as [ns|e]; cbn [bind map].
    + now rewrite IH.
    + destruct IH as (-> & s' & H1 & H2). split; [reflexivity|]. exists s'. split; [now right|exact H2].
  - split; [reflexivity|]. exists s. split; [now left|exact E].
Qed.
