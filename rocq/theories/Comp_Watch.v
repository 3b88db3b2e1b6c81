(** Captures and tracking of compositions (composition.py). *)
From Coq Require Import Lia.
From Verif Require Export Comp_Indep.
From Verif Require Import Py_Facts Pool_Proofs Track_Proofs.

Section Watch.
  Context {V W : Type}.
  Context (none : V) (trace : exn -> string * list frame).
  Notation world := (@world V W).
  Notation step := (@step V W).
  Notation send := (@send V W).
  Notation comp := (@comp V W).
  Notation st := (@st V W).
  Notation obj := (@obj V).
  Implicit Types (c : comp) (w : world) (x y : V) (s : st).

  (** ** Something in the world that a call leaves alone *)

  Section View.
    Context {X : Type} (view : world -> option X).
    Definition keeps {A} (m : @act V W A) : Prop := forall w o, view w = Some o -> view (snd (m w)) = Some o.
    Definition step_keeps (f : step) : Prop :=
      match f with
      | Plain _ _ f => forall args kw, keeps (f args kw)
      | Part _ _ p => forall args kw, keeps (p_func p args kw)
      end.
    Definition send_keeps (d : send) : Prop :=
      forall x s o, view (snd s) = Some o -> view (snd (snd (perform_send x d s))) = Some o.

    Lemma keeps_raise {A} e : keeps (eraise e : @act V W A).
    Proof. intros w o H. exact H. Qed.
    Lemma keeps_call c k x : (forall f, dget (steps c) k = Some f -> step_keeps f) -> keeps (call_step c k x).
    Proof.
      intro H. unfold call_step. destruct (dget (steps c) k) as [f|]; [|apply keeps_raise].
      specialize (H f eq_refl). rewrite call_inserts.
      assert (B : forall (r : res (list V)) (g : list V -> @act V W V), (forall l, keeps (g l)) -> keeps (ebind (eof r) g)).
      { intros [l|e] g Hg; [apply Hg|apply keeps_raise]. }
      destruct f as [n str f|n str p]; cbn [step_keeps] in H.
      - destruct (Nat.eqb _ _); [apply H|]. apply B. intro. apply H.
      - unfold _call_partial_step. destruct (Nat.eqb _ _); [apply H|]. apply B. intro. apply H.
    Qed.
    Lemma keeps_sends l x : (forall d, In d l -> send_keeps d) ->
      forall s o, view (snd s) = Some o -> view (snd (snd (run_sends l x s))) = Some o.
    Proof.
      induction l as [|d l IH]; intros Hk s o H; [exact H|]. cbn [run_sends].
      pose proof (Hk d (or_introl eq_refl) x s o H) as H'.
      destruct (perform_send x d s) as [[u|e] s']; [|exact H']. apply IH; [intros; apply Hk; now right|exact H'].
    Qed.
    Lemma keeps_do_step c k x w o : (forall f, dget (steps c) k = Some f -> step_keeps f) ->
      (forall d, In d (sends_of c k) -> send_keeps d) ->
      view w = Some o -> view (snd (snd (_do_step k x (c, w)))) = Some o.
    Proof.
      intros Hf Hd H. rewrite do_step_run. pose proof (keeps_call c k x Hf w o H) as H1.
      destruct (call_step c k x w) as [[y|e] w']; [|exact H1]. cbn [snd] in H1.
      pose proof (keeps_sends (sends_of c k) y Hd (c, w') o H1) as H2.
      destruct (run_sends (sends_of c k) y (c, w')) as [[u|e] s']; exact H2.
    Qed.
    Lemma keeps_exhaust ks : forall c x w o,
      (forall k f, In k ks -> dget (steps c) k = Some f -> step_keeps f) ->
      (forall k d, In k ks -> In d (sends_of c k) -> send_keeps d) ->
      view w = Some o -> view (snd (snd (exhaust ks x (c, w)))) = Some o.
    Proof.
      induction ks as [|k ks IH]; intros c x w o Hf Hd H; [exact H|]. cbn [exhaust].
      pose proof (keeps_do_step c k x w o (fun f => Hf k f (or_introl eq_refl)) (fun d => Hd k d (or_introl eq_refl)) H) as H1.
      pose proof (do_step_shape k x (c, w)) as Hs.
      destruct (_do_step k x (c, w)) as [[y|e] [c' w']]; cbn [fst snd] in *; [|exact H1].
      assert (H2 : view (snd (snd (exhaust ks y (c', w')))) = Some o).
      { apply IH; [intros k' f Hk; rewrite (shape_steps _ _ Hs); apply Hf; now right|
                   intros k' d Hk; rewrite (shape_sends _ _ _ Hs); apply Hd; now right|exact H1]. }
      destruct (exhaust ks y (c', w')) as [[ys e] s'']. exact H2.
    Qed.

    (** A send keeps the view if its pipe and its target do. *)
    Lemma send_keeps_intro d :
      match pipe d with Some p => forall v, keeps (p v) | None => True end ->
      (forall x s o, view (snd s) = Some o -> view (snd (snd (place_into x (starget d) (pointer d) s))) = Some o) ->
      send_keeps d.
    Proof.
      intros Hp Ht x s o H. rewrite send_place. destruct (pipe d) as [p|]; [|now apply Ht].
      specialize (Hp x (snd s) o H). destruct (p x (snd s)) as [[y|e] w']; cbn [fst snd] in *; [|exact Hp].
      exact (Ht y (fst s, w') o Hp).
    Qed.
  End View.

  (** ** Captures *)

  Definition at_obj (r : nat) (w : world) : option obj := nth_error (objs w) r.

  Lemma step_spares_keeps r f : step_spares (fun A m => spares_obj r m) f -> step_keeps (at_obj r) f.
  Proof. now destruct f. Qed.
  Lemma send_spares_keeps r d : send_spares (fun A m => spares_obj r m) d -> elsewhere r d -> send_keeps (at_obj r) d.
  Proof.
    intros [Hp Ht] He. apply send_keeps_intro; [exact Hp|]. intros x s o H. unfold elsewhere in He.
    destruct (starget d) as [|k|r'|f|]; cbn [place_into]; try exact H.
    - rewrite lift_run. cbn [snd].
      assert (A : forall b, at_obj r (with_objs (snd s) (set_nth (objs (snd s)) r' b)) = Some o).
      { intro b. unfold at_obj. cbn. rewrite nth_set_nth. destruct (Nat.eqb_spec r' r); [contradiction|exact H]. }
      destruct (nth_error (objs (snd s)) r') as [[l|m]|]; [| |exact H]; [|apply A].
      assert (B : forall q, at_obj r (snd (match kint q with
            | None => (Exc TypeError, snd s)
            | Some i => match list_set l i x with
                        | Ok l' => (Ok tt, with_objs (snd s) (set_nth (objs (snd s)) r' (OList l')))
                        | Exc e => (Exc e, snd s)
                        end end)) = Some o).
      { intro q. destruct (kint q); [|exact H]. destruct (list_set l z x); [apply A|exact H]. }
      destruct (pointer d); try apply B. apply A.
    - rewrite lift_run. cbn [snd]. now apply Ht.
  Qed.

  Lemma capture_run r x c w v : at_obj r w = Some (OList [v]) ->
    exists w', perform_send x (capture r) (c, w) = (Ok tt, (c, w')) /\ at_obj r w' = Some (OList [x]).
  Proof.
    intro H. rewrite send_place. cbn [capture pipe starget pointer place_into]. rewrite lift_run. cbn [snd fst].
    unfold at_obj in H. rewrite H. cbn [kint]. cbn. eexists. split; [reflexivity|].
    unfold at_obj. cbn. now rewrite nth_set_nth, Nat.eqb_refl, H.
  Qed.

  Lemma run_capture r pre post x c w v : (forall d, In d (pre ++ post) -> send_keeps (at_obj r) d) ->
    at_obj r w = Some (OList [v]) ->
    match run_sends (pre ++ capture r :: post) x (c, w) with
    | (Ok _, s') => at_obj r (snd s') = Some (OList [x])
    | (Exc _, s') => at_obj r (snd s') = Some (OList [v]) \/
                     post <> [] /\ at_obj r (snd s') = Some (OList [x])
    end.
  Proof.
    intros Hk H. rewrite run_sends_app.
    assert (H1 := keeps_sends (at_obj r) pre x (fun d Hd => Hk d (in_or_app _ _ _ (or_introl Hd))) (c, w) _ H).
    destruct (run_sends pre x (c, w)) as [[u|e] [c1 w1]]; cbn [snd] in H1; [|now left]. cbn [run_sends].
    destruct (capture_run r x c1 w1 v H1) as (w2 & -> & H2).
    assert (H3 := keeps_sends (at_obj r) post x (fun d Hd => Hk d (in_or_app _ _ _ (or_intror Hd))) (c1, w2) _ H2).
    destruct post as [|d post]; [exact H3|].
    destruct (run_sends (d :: post) x (c1, w2)) as [[u'|e] s']; [exact H3|]. right. split; [discriminate|exact H3].
  Qed.

  (** One execution, seen from the capture of one step. *)
  Lemma capture_lemma c w a k b r pre post v x ys e c' w' :
    exhaust (a ++ k :: b) x (c, w) = (ys, e, (c', w')) ->
    sends_of c k = pre ++ capture r :: post ->
    (forall d, In d (pre ++ post) -> send_keeps (at_obj r) d) ->
    (forall k' f, In k' (a ++ k :: b) -> dget (steps c) k' = Some f -> step_keeps (at_obj r) f) ->
    (forall k' d, In k' (a ++ b) -> In d (sends_of c k') -> send_keeps (at_obj r) d) ->
    at_obj r w = Some (OList [v]) ->
    (List.length ys < List.length a -> at_obj r w' = Some (OList [v])) /\
    (List.length ys = List.length a -> at_obj r w' = Some (OList [v]) \/
                                       post <> [] /\ exists y, at_obj r w' = Some (OList [y])) /\
    (List.length a < List.length ys -> exists y, nth_error ys (List.length a) = Some y /\ at_obj r w' = Some (OList [y])).
  Proof.
    intros E Hk Hpp Hf Hd H. rewrite exhaust_app in E.
    assert (Ha : forall k', In k' a -> In k' (a ++ k :: b)) by (intros; apply in_app_iff; now left).
    assert (H1 := keeps_exhaust (at_obj r) a c x w _ (fun k' f Hk' => Hf k' f (Ha k' Hk'))
      (fun k' d Hk' => Hd k' d (in_or_app _ _ _ (or_introl Hk'))) H).
    destruct (exhaust a x (c, w)) as [[ys1 e1] [c1 w1]] eqn:E1. cbn [snd] in H1.
    pose proof (exhaust_shape _ _ _ _ _ _ E1) as Hs1. pose proof (exhaust_length _ _ _ _ _ _ E1) as Hl1. cbn [fst] in Hs1.
    destruct e1 as [e1|].
    { injection E as <- <- <- <-. repeat split; try lia. intros _. exact H1. }
    cbn [exhaust] in E. rewrite do_step_run in E.
    assert (H2 : keeps (at_obj r) (call_step c1 k (last ys1 x))).
    { apply keeps_call. intros f. rewrite (shape_steps _ _ Hs1). apply Hf. apply in_app_iff. right. now left. }
    specialize (H2 w1 _ H1). destruct (call_step c1 k (last ys1 x) w1) as [[y|e2] w2]; cbn [snd] in H2.
    2: { injection E as <- <- <- <-. rewrite app_nil_r. repeat split; try lia. intros _. now left. }
    pose proof (run_sends_shape (sends_of c1 k) y (c1, w2)) as Hs2.
    rewrite (shape_sends _ _ k Hs1), Hk in E, Hs2.
    pose proof (run_capture r pre post y c1 w2 v Hpp H2) as H3.
    destruct (run_sends (pre ++ capture r :: post) y (c1, w2)) as [[u|e2] [c2 w3]]; cbn [fst snd] in *.
    - destruct (exhaust b y (c2, w3)) as [[ys2 e2] [c3 w4]] eqn:E2. injection E as <- <- <- <-.
      rewrite app_length. cbn [List.length]. split; [lia|]. split; [lia|]. intros _. exists y.
      split; [rewrite nth_error_app2, Hl1, Nat.sub_diag by lia; reflexivity|].
      pose proof (shape_trans _ _ _ Hs1 Hs2) as Hs.
      assert (H4 := keeps_exhaust (at_obj r) b c2 y w3 (OList [y])). rewrite E2 in H4. cbn [snd] in H4. apply H4.
      + intros k' f Hk'. rewrite (shape_steps _ _ Hs). apply Hf. apply in_app_iff. right. now right.
      + intros k' d Hk'. rewrite (shape_sends _ _ _ Hs). apply Hd. apply in_app_iff. now right.
      + exact H3.
    - injection E as <- <- <- <-. rewrite app_nil_r. repeat split; try lia. intros _.
      destruct H3 as [H3|[H3 H3']]; [now left|]. right. split; [exact H3|]. now exists y.
  Qed.

  (** ** add_captures *)

  Lemma alloc_run (o : obj) c w : lift (alloc o) (c, w) = (Ok (List.length (objs w)), (c, with_objs w (objs w ++ [o]))).
  Proof. reflexivity. Qed.
  Lemma alloc_loop (ks : list key) : forall c w,
    emapM (fun k => r <~ lift (alloc (OList [none])) ;; eret (k, r)) ks (c, w) =
    (Ok (combine ks (seq (List.length (objs w)) (List.length ks))),
     (c, with_objs w (objs w ++ repeat (OList [none]) (List.length ks)))).
  Proof.
    induction ks as [|k ks IH]; intros c w; cbn [emapM List.length seq combine repeat].
    - unfold eret. rewrite app_nil_r. now destruct w.
    - unfold ebind at 1 2. rewrite alloc_run. unfold eret at 1, ebind at 1. rewrite IH. cbn [objs with_objs trks user].
      rewrite app_length. cbn [List.length]. rewrite Nat.add_1_r, <- app_assoc. reflexivity.
  Qed.

  Lemma add_send_run name p t ptr c w : (t = TNone -> p <> None) ->
    exists c', add_send name p t ptr (c, w) = (Ok tt, (c', w)) /\
      c' = with_sends c (sends c') /\
      forall k, sends_of c' k = if keqb name k then sends_of c k ++ [{| pipe := p; starget := t; pointer := ptr |}]
                                else sends_of c k.
  Proof.
    intro H.
    assert (E : add_send name p t ptr (c, w) =
      (Ok tt, (with_sends c (dset (sends c) name (sends_of c name ++ [{| pipe := p; starget := t; pointer := ptr |}])), w))).
    { destruct t, p; try reflexivity. now destruct (H eq_refl). }
    rewrite E. eexists. split; [reflexivity|]. split; [reflexivity|]. intro k. unfold sends_of at 1.
    cbn [sends with_sends]. rewrite dget_dset. destruct (keqb name k) eqn:Ek; [|reflexivity].
    unfold sends_of. now rewrite (dget_keqb _ _ _ Ek).
  Qed.

  Definition cap_of (caps : dict nat) (k : key) : list send :=
    match dget caps k with Some r => [capture r] | None => [] end.

  Lemma cap_loop (caps : dict nat) : wfd caps = true -> forall c w, exists c',
    efoldM (fun _ kr => add_capture none (fst kr) (Some (snd kr))) caps tt (c, w) = (Ok tt, (c', w)) /\
    c' = with_sends c (sends c') /\ forall k, sends_of c' k = sends_of c k ++ cap_of caps k.
  Proof.
    induction caps as [|[k0 r] caps IH]; intros Hw c w.
    - exists c. split; [reflexivity|]. split; [now destruct c|]. intro k. now rewrite app_nil_r.
    - apply wfd_cons in Hw. destruct Hw as [H1 H2]. cbn [efoldM fst snd]. unfold ebind at 1.
      unfold add_capture at 1, ebind at 1, eret at 1.
      destruct (add_send_run k0 None (TRef r) (KInt 0) c w) as (c1 & -> & A1 & A2); [discriminate|].
      destruct (IH H2 c1 w) as (c2 & -> & B1 & B2). exists c2. split; [reflexivity|]. split.
      + rewrite B1, A1. reflexivity.
      + intro k. rewrite B2, A2. unfold cap_of. cbn [dget]. destruct (keqb k0 k) eqn:E; [|reflexivity].
        rewrite <- (dget_keqb _ _ _ E), H1, <- app_assoc. reflexivity.
  Qed.

  Lemma dkeys_combine {A} (ks : list key) (l : list A) : List.length ks = List.length l -> dkeys (combine ks l) = ks.
  Proof.
    revert l. induction ks as [|k ks IH]; intros [|a l] H; try discriminate; [reflexivity|].
    cbn. f_equal. apply IH. now injection H.
  Qed.
  Lemma wfd_of_keys {A B} (d : dict A) (d' : dict B) : dkeys d = dkeys d' -> wfd d = true -> wfd d' = true.
  Proof.
    revert d'. induction d as [|[k v] d IH]; intros [|[k' v'] d'] E H; try discriminate; [reflexivity|].
    cbn [dkeys map fst] in E. injection E as <- E. apply wfd_cons in H. destruct H as [H1 H2]. apply wfd_cons.
    split; [|now apply IH]. apply dget_none_iff. intros a b Hin. rewrite dget_none_iff in H1.
    assert (In a (dkeys d)) as Ha by (unfold dkeys; rewrite E; apply (in_map fst) in Hin; exact Hin).
    apply in_map_iff in Ha. destruct Ha as ([a' b'] & <- & Ha). exact (H1 _ _ Ha).
  Qed.

  Lemma add_captures_run c w : wfd (steps c) = true ->
    let n := List.length (steps c) in
    let caps := combine (dkeys (steps c)) (seq (List.length (objs w)) n) in
    exists c', add_captures none (c, w) = (Ok tt, (c', with_objs w (objs w ++ repeat (OList [none]) n))) /\
      c' = with_captures (with_sends c (sends c')) (Some caps) /\ wfd caps = true /\
      forall k, sends_of c' k = sends_of c k ++ cap_of caps k.
  Proof.
    intros Hw n caps. unfold add_captures. unfold ebind at 1, Comp_Model.get at 1. cbn [fst snd].
    unfold ebind at 1. rewrite alloc_loop. cbv zeta.
    assert (L : List.length (dkeys (steps c)) = n) by (unfold dkeys; apply map_length).
    rewrite L. fold caps.
    assert (Hc : wfd caps = true).
    { eapply wfd_of_keys; [|exact Hw]. unfold caps. rewrite dkeys_combine; [reflexivity|]. now rewrite seq_length. }
    rewrite (dict_of_wfd _ Hc). unfold ebind at 1, put at 1. cbn [fst snd].
    destruct (cap_loop caps Hc (with_captures c (Some caps)) (with_objs w (objs w ++ repeat (OList [none]) n))) as (c' & E & A1 & A2).
    exists c'. split; [exact E|]. split; [rewrite A1; reflexivity|]. split; [exact Hc|]. exact A2.
  Qed.

  (** ** Histories *)

  (** One capture among a list of them, in a composition of that shape. *)
  Lemma nth_split_keys {A} (d : dict A) i k v : nth_error d i = Some (k, v) ->
    exists a b, d = a ++ (k, v) :: b /\ List.length a = i.
  Proof. intro H. destruct (nth_error_split d i H) as (a & b & -> & L). eauto. Qed.

  Section Captured.
    Context (c0 : comp) (caps : dict nat).
    Context (Hw : wfd (steps c0) = true) (Hk : dkeys caps = dkeys (steps c0)) (Hn : NoDup (map snd caps)).
    Context (Hf : forall k f r, In k (dkeys (steps c0)) -> dget (steps c0) k = Some f -> In r (map snd caps) ->
      step_spares (fun A m => spares_obj r m) f).
    Context (users : key -> list send).
    Context (Hd : forall k d r, In k (dkeys (steps c0)) -> In d (users k) -> In r (map snd caps) ->
      send_spares (fun A m => spares_obj r m) d /\ elsewhere r d).
    Context (Hs : forall k, In k (dkeys (steps c0)) -> sends_of c0 k = users k ++ cap_of caps k).

    Lemma one_capture c w x ys e c' w' i k r v : same_shape c0 c ->
      exhaust (dkeys (steps c)) x (c, w) = (ys, e, (c', w')) ->
      nth_error caps i = Some (k, r) -> at_obj r w = Some (OList [v]) ->
      at_obj r w' = Some (OList [match nth_error ys i with Some y => y | None => v end]).
    Proof.
      intros Hsh E Hi Hv. destruct (nth_split_keys caps i k r Hi) as (a & b & Hab & La).
      assert (Hwc : wfd caps = true) by (eapply wfd_of_keys; [symmetry; exact Hk|exact Hw]).
      assert (Hkeys : dkeys (steps c) = dkeys a ++ k :: dkeys b).
      { rewrite (shape_steps _ _ Hsh), <- Hk, Hab. unfold dkeys. now rewrite map_app. }
      rewrite Hkeys in E.
      assert (Hin : forall k', In k' (dkeys a ++ k :: dkeys b) -> In k' (dkeys (steps c0))).
      { intros k' H. now rewrite <- (shape_steps _ _ Hsh), Hkeys. }
      assert (Hr : In r (map snd caps)).
      { rewrite Hab, map_app. apply in_app_iff. right. now left. }
      assert (Hspare : forall k' d, In k' (dkeys a ++ k :: dkeys b) -> In d (users k') -> send_keeps (at_obj r) d).
      { intros k' d Hk' Hd'. destruct (Hd k' d r (Hin k' Hk') Hd' Hr). now apply send_spares_keeps. }
      assert (Hcap : forall k' r', In (k', r') caps -> dget caps k' = Some r') by (intros; now apply wfd_In_dget).
      assert (Hmid : In k (dkeys a ++ k :: dkeys b)) by (apply in_app_iff; right; now left).
      destruct (capture_lemma c w (dkeys a) k (dkeys b) r (users k) [] v x ys e c' w' E) as (A & B & C).
      - rewrite (shape_sends _ _ _ Hsh), (Hs k (Hin k Hmid)). unfold cap_of. rewrite (Hcap k r); [reflexivity|].
        rewrite Hab. apply in_app_iff. right. now left.
      - intros d H. rewrite app_nil_r in H. exact (Hspare k d Hmid H).
      - intros k' f Hk'. rewrite (shape_steps _ _ Hsh). intro G. apply step_spares_keeps.
        apply (Hf k' f r (Hin k' Hk') G Hr).
      - intros k' d Hk' H. assert (Hk2 : In k' (dkeys a ++ k :: dkeys b)).
        { apply in_app_iff in Hk'. apply in_app_iff. destruct Hk'; [now left|right; now right]. }
        rewrite (shape_sends _ _ _ Hsh), (Hs k' (Hin k' Hk2)) in H.
        apply in_app_iff in H. destruct H as [H|H]; [exact (Hspare k' d Hk2 H)|].
        assert (exists r', In (k', r') (a ++ b)) as (r' & Hr').
        { apply in_app_iff in Hk'. destruct Hk' as [Hk'|Hk']; apply in_map_iff in Hk';
            destruct Hk' as ([k'' r'] & <- & H'); exists r'; apply in_app_iff; [now left|now right]. }
        unfold cap_of in H. rewrite (Hcap k' r') in H.
        2: { rewrite Hab. apply in_app_iff in Hr'. apply in_app_iff. destruct Hr'; [now left|right; now right]. }
        destruct H as [<-|[]]. apply send_spares_keeps; [split; exact I|]. cbn. intros ->.
        rewrite Hab, map_app in Hn. cbn [map snd] in Hn. apply NoDup_remove_2 in Hn. apply Hn.
        rewrite <- map_app. apply (in_map snd) in Hr'. exact Hr'.
      - exact Hv.
      - assert (La' : List.length (dkeys a) = i) by (unfold dkeys; now rewrite map_length).
        rewrite La' in *. destruct (Nat.lt_trichotomy (List.length ys) i) as [L|[L|L]].
        + rewrite (proj2 (nth_error_None ys i)) by lia. exact (A L).
        + rewrite (proj2 (nth_error_None ys i)) by lia. destruct (B L) as [B'|[B' _]]; [exact B'|congruence].
        + destruct (C L) as (y & -> & Hy). exact Hy.
    Qed.

    Lemma history_capture xs : forall c w c' w' i k r v, same_shape c0 c ->
      snd (executions none trace xs (c, w)) = (c', w') ->
      nth_error caps i = Some (k, r) -> at_obj r w = Some (OList [v]) ->
      exists v', at_obj r w' = Some (OList [v']).
    Proof.
      induction xs as [|x xs IH]; intros c w c' w' i k r v Hsh E Hi Hv; cbn [executions] in E.
      - injection E as <- <-. eauto.
      - assert (Hwc : wfd (steps c) = true) by now rewrite (shape_steps _ _ Hsh).
        destruct (exhaust (dkeys (steps c)) x (c, w)) as [[ys e] [c1 w1]] eqn:E1.
        rewrite (execute_run none trace x c w _ _ _ _ Hwc E1) in E.
        pose proof (exhaust_shape _ _ _ _ _ _ E1) as Hs1. cbn [fst] in Hs1.
        pose proof (one_capture c w x ys e c1 w1 i k r v Hsh E1 Hi Hv) as H1.
        set (w1' := match e with Some ex => _ | None => w1 end) in E.
        assert (H2 : at_obj r w1' = at_obj r w1).
        { unfold w1', at_obj. destruct e; [now rewrite after_error_objs|reflexivity]. }
        destruct (executions none trace xs (c1, w1')) as [rs s'] eqn:E2. cbn [snd] in E. subst s'.
        eapply (IH c1 w1' c' w' i k r); [eapply shape_trans; eauto|now rewrite E2|exact Hi|].
        rewrite H2. exact H1.
    Qed.
  End Captured.

  Lemma captures_lemma c w c1 w1 xs c2 w2 x ys e s3 : wfd (steps c) = true ->
    (forall k f r, In k (dkeys (steps c)) -> dget (steps c) k = Some f -> List.length (objs w) <= r ->
      step_spares (fun A m => spares_obj r m) f) ->
    (forall k d r, In k (dkeys (steps c)) -> In d (sends_of c k) -> List.length (objs w) <= r ->
      send_spares (fun A m => spares_obj r m) d /\ elsewhere r d) ->
    add_captures none (c, w) = (Ok tt, (c1, w1)) ->
    snd (executions none trace xs (c1, w1)) = (c2, w2) ->
    pull (List.length (steps c)) (itercall c2 x) (c2, w2) = (ys, e, s3) ->
    exists caps, captures c2 = Some caps /\ dkeys caps = dkeys (steps c) /\
      fst (execute none trace x (c2, w2)) = outcome none (optional c) ys e /\
      (e = None -> List.length ys = List.length (steps c)) /\
      forall i k r, nth_error caps i = Some (k, r) -> exists old,
        nth_error (objs w2) r = Some (OList [old]) /\
        nth_error (objs (snd (snd (execute none trace x (c2, w2))))) r =
          Some (OList [match nth_error ys i with Some y => y | None => old end]).
  Proof.
    intros Hw Hf Hd Ha Hx Hy.
    destruct (add_captures_run c w Hw) as (c1' & E & A1 & A2 & A3). rewrite Ha in E. injection E as <- ->.
    set (caps := combine (dkeys (steps c)) (seq (List.length (objs w)) (List.length (steps c)))) in *.
    assert (Hst : steps c1 = steps c) by (rewrite A1; reflexivity).
    assert (Hw1 : wfd (steps c1) = true) by now rewrite Hst.
    pose proof (executions_shape none trace xs (c1, with_objs w (objs w ++ repeat (OList [none]) (List.length (steps c)))) Hw1) as Hsh.
    rewrite Hx in Hsh. cbn [fst] in Hsh.
    assert (L : List.length (dkeys (steps c)) = List.length (seq (List.length (objs w)) (List.length (steps c)))).
    { unfold dkeys. now rewrite map_length, seq_length. }
    assert (Hk : dkeys caps = dkeys (steps c)) by now apply dkeys_combine.
    assert (Hv : map snd caps = seq (List.length (objs w)) (List.length (steps c))).
    { unfold caps. clear -L. revert L. generalize (seq (List.length (objs w)) (List.length (steps c))) as l.
      induction (dkeys (steps c)) as [|k ks IH]; intros [|y l] L; try discriminate; [reflexivity|]. cbn. f_equal.
      apply IH. now injection L. }
    assert (Hr : forall r, In r (map snd caps) -> List.length (objs w) <= r < List.length (objs w) + List.length (steps c)).
    { intros r H. rewrite Hv in H. apply in_seq in H. exact H. }
    assert (Hn : NoDup (map snd caps)) by (rewrite Hv; apply seq_NoDup).
    unfold itercall in Hy. rewrite pull_exhaust in Hy.
    replace (List.length (steps c)) with (List.length (dkeys (steps c2))) in Hy.
    2: { rewrite (shape_steps _ _ Hsh), Hst. unfold dkeys. apply map_length. }
    rewrite firstn_all in Hy. destruct s3 as [c3 w3].
    assert (Hw2 : wfd (steps c2) = true) by now rewrite (shape_steps _ _ Hsh), Hst.
    exists caps. split; [|split; [exact Hk|]].
    { unfold same_shape in Hsh. rewrite Hsh. cbn [captures with_inserts]. rewrite A1. reflexivity. }
    rewrite (execute_run none trace x c2 w2 _ _ _ _ Hw2 Hy). cbn [fst snd].
    split; [rewrite (shape_optional _ _ Hsh), A1; reflexivity|].
    split.
    { intros ->. apply exhaust_length in Hy. rewrite Hy, (shape_steps _ _ Hsh), Hst. unfold dkeys. apply map_length. }
    intros i k r Hi.
    assert (Hir : In r (map snd caps)) by (apply nth_error_In in Hi; apply (in_map snd) in Hi; exact Hi).
    assert (H0 : at_obj r (with_objs w (objs w ++ repeat (OList [none]) (List.length (steps c)))) = Some (OList [none])).
    { unfold at_obj. cbn. specialize (Hr r Hir). rewrite nth_error_app2 by lia.
      rewrite (nth_error_nth' _ (OList [none])) by (rewrite repeat_length; lia). f_equal. apply nth_repeat. }
    assert (F1 : forall k f r, In k (dkeys (steps c1)) -> dget (steps c1) k = Some f -> In r (map snd caps) ->
      step_spares (fun A m => spares_obj r m) f).
    { intros k' f r' Hk' G Hr'. rewrite Hst in Hk', G. apply (Hf k' f r' Hk' G). now apply Hr. }
    assert (F2 : forall k d r, In k (dkeys (steps c1)) -> In d (sends_of c k) -> In r (map snd caps) ->
      send_spares (fun A m => spares_obj r m) d /\ elsewhere r d).
    { intros k' d r' Hk' G Hr'. rewrite Hst in Hk'. apply (Hd k' d r' Hk' G). now apply Hr. }
    rewrite <- Hst in Hk.
    destruct (history_capture c1 caps Hw1 Hk Hn F1 (sends_of c) F2 (fun k _ => A3 k) xs c1 _ c2 w2 i k r none
                (shape_refl c1) Hx Hi H0) as (old & Hold).
    exists old. split; [exact Hold|].
    pose proof (one_capture c1 caps Hw1 Hk Hn F1 (sends_of c) F2 (fun k _ => A3 k) c2 w2 x ys e c3 w3 i k r old
      Hsh Hy Hi Hold) as H1. unfold at_obj in H1. destruct e; [now rewrite after_error_objs|exact H1].
  Qed.
End Watch.
