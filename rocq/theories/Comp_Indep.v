(** Executions of a composition do not influence each other, if its sends
    only go forward (composition.py). *)
From Coq Require Import Lia.
From Verif Require Export Comp_Sends.
From Verif Require Import Py_Facts Pool_Proofs Track_Proofs.

Section Indep.
  Context {V W : Type}.
  Context (none : V) (trace : exn -> string * list frame).
  Notation world := (@world V W).
  Notation step := (@step V W).
  Notation send := (@send V W).
  Notation comp := (@comp V W).
  Notation st := (@st V W).
  Notation obj := (@obj V).
  Implicit Types (c : comp) (w : world) (x y : V) (s : st).

  (** ** Lists do not shrink *)

  Definition heap_le (o o' : list obj) : Prop :=
    forall r, match nth_error o r with
              | Some (OList l) => exists l', nth_error o' r = Some (OList l') /\ List.length l <= List.length l'
              | Some (ODict _) => exists d', nth_error o' r = Some (ODict d')
              | None => True
              end.
  Lemma heap_refl o : heap_le o o.
  Proof. intro r. destruct (nth_error o r) as [[l|d]|]; eauto. Qed.
  Lemma heap_trans o1 o2 o3 : heap_le o1 o2 -> heap_le o2 o3 -> heap_le o1 o3.
  Proof.
    intros H K r. specialize (H r). specialize (K r). destruct (nth_error o1 r) as [[l|d]|]; [| |exact I].
    - destruct H as (l' & H1 & H2). rewrite H1 in K. destruct K as (l'' & K1 & K2). exists l''. split; [exact K1|lia].
    - destruct H as (d' & H1). rewrite H1 in K. exact K.
  Qed.
  Lemma heap_range o o' (d : send) : heap_le o o' -> in_range o d -> in_range o' d.
  Proof.
    unfold in_range. destruct (starget d); try tauto. intros H. specialize (H r).
    destruct (nth_error o r) as [[l|m]|]; [| |contradiction].
    - destruct H as (l' & -> & H2). intros [E|(i & E & R)]; [now left|]. right. exists i. split; [exact E|lia].
    - destruct H as (d' & ->). trivial.
  Qed.

  Lemma set_nth_length {A} (l : list A) i v : List.length (set_nth l i v) = List.length l.
  Proof. revert i. induction l as [|y l IH]; intros [|i]; cbn; auto. Qed.
  Lemma heap_set o r b : match nth_error o r, b with
                         | Some (OList l), OList l' => List.length l <= List.length l'
                         | Some (ODict _), ODict _ => True
                         | None, _ => True
                         | _, _ => False
                         end -> heap_le o (set_nth o r b).
  Proof.
    intros H j. rewrite nth_set_nth. destruct (Nat.eqb_spec r j) as [->|N].
    - destruct (nth_error o j) as [[l|d]|]; [| |exact I]; destruct b; try contradiction; eauto.
    - destruct (nth_error o j) as [[l|d]|]; eauto.
  Qed.

  Lemma list_set_length (l : list V) i x l' : list_set l i x = Ok l' -> List.length l' = List.length l.
  Proof. unfold list_set. destruct (_ && _)%bool; [|discriminate]. intro H. injection H as <-. apply set_nth_length. Qed.

  (** ** Placing values *)

  Definition pure_target (t : @target V W) : Prop := match t with TWriter f => forall v, pure (f v) | _ => True end.

  Lemma place_heap x t p s : pure_target t -> heap_le (objs (snd s)) (objs (snd (snd (place_into x t p s)))).
  Proof.
    destruct t as [|k|r|f|]; intro Hp; cbn [place_into]; try apply heap_refl.
    - rewrite lift_run. cbn [snd]. destruct (nth_error (objs (snd s)) r) as [[l|d]|] eqn:E; [| |apply heap_refl].
      + assert (A : forall l', List.length l <= List.length l' ->
          heap_le (objs (snd s)) (objs (with_objs (snd s) (set_nth (objs (snd s)) r (OList l'))))).
        { intros l' L. cbn. apply heap_set. rewrite E. exact L. }
        assert (B : forall q, heap_le (objs (snd s)) (objs (snd (match kint q with
            | None => (Exc TypeError, snd s)
            | Some i => match list_set l i x with
                        | Ok l' => (Ok tt, with_objs (snd s) (set_nth (objs (snd s)) r (OList l')))
                        | Exc e => (Exc e, snd s)
                        end end)))).
        { intro q. destruct (kint q); [|apply heap_refl]. destruct (list_set l z x) eqn:L; [|apply heap_refl].
          apply list_set_length in L. apply A. lia. }
        destruct p; try apply B. cbn [snd]. apply A. rewrite app_length. lia.
      + cbn. apply heap_set. now rewrite E.
    - rewrite lift_run. cbn [snd]. destruct (Hp x) as (r & Hr). destruct (Hr (snd s)) as [_ ->]. apply heap_refl.
  Qed.

  (** Placing succeeds or fails whatever the world. *)
  Lemma place_lock x t p c1 w1 c2 w2 d : starget d = t -> pointer d = p -> pure_target t ->
    in_range (objs w1) d -> in_range (objs w2) d ->
    fst (place_into x t p (c1, w1)) = fst (place_into x t p (c2, w2)) /\
    (fst (place_into x t p (c1, w1)) = Ok tt -> exists sent, map fst sent = wire d /\
       (forall k, inserts_at (fst (snd (place_into x t p (c1, w1)))) k = dupdate (inserts_at c1 k) (sel k sent)) /\
       (forall k, inserts_at (fst (snd (place_into x t p (c2, w2)))) k = dupdate (inserts_at c2 k) (sel k sent))).
  Proof.
    intros Ht Hp Hpt R1 R2. unfold wire. rewrite Ht, Hp. unfold in_range in R1, R2. rewrite Ht, Hp in R1, R2.
    destruct t as [|k|r|f|]; cbn [place_into].
    - split; [reflexivity|]. intros _. exists []. repeat split; reflexivity.
    - destruct (add_insert_run k p x c1 w1) as (c1' & E1 & _ & I1). destruct (add_insert_run k p x c2 w2) as (c2' & E2 & _ & I2).
      rewrite E1, E2. split; [reflexivity|]. intros _. exists [((k, p), x)]. cbn [fst snd]. repeat split; [exact I1|exact I2].
    - rewrite !lift_run. cbn [fst snd].
      assert (A : forall w, match nth_error (objs w) r with
        | Some (OList l) => p = KNone \/ (exists i, kint p = Some i /\
            (- Z.of_nat (List.length l) <= i < Z.of_nat (List.length l))%Z)
        | Some (ODict _) => True
        | None => False end ->
        fst (match nth_error (objs w) r with
          | Some (OList l) =>
              match p with
              | KNone => (Ok tt, with_objs w (set_nth (objs w) r (OList (l ++ [x]))))
              | _ =>
                  match kint p with
                  | None => (Exc TypeError, w)
                  | Some i =>
                      match list_set l i x with
                      | Ok l' => (Ok tt, with_objs w (set_nth (objs w) r (OList l')))
                      | Exc e => (Exc e, w)
                      end
                  end
              end
          | Some (ODict d) => (Ok tt, with_objs w (set_nth (objs w) r (ODict (dset d p x))))
          | None => (Ok tt, w)
          end) = Ok tt).
      { intros w H. destruct (nth_error (objs w) r) as [[l|m]|]; [|reflexivity|contradiction].
        destruct H as [->|(i & Hi & L)]; [reflexivity|].
        assert (B : fst (match kint p with
                  | None => (Exc TypeError, w)
                  | Some i =>
                      match list_set l i x with
                      | Ok l' => (Ok tt, with_objs w (set_nth (objs w) r (OList l')))
                      | Exc e => (Exc e, w)
                      end
                  end) = Ok tt).
        { rewrite Hi. unfold list_set.
          replace ((0 <=? (if i <? 0 then i + Z.of_nat (List.length l) else i)) &&
                   ((if i <? 0 then i + Z.of_nat (List.length l) else i) <? Z.of_nat (List.length l)))%Z with true; [reflexivity|].
          symmetry. apply andb_true_iff. destruct (Z.ltb_spec i 0); split; try apply Z.leb_le; try apply Z.ltb_lt; lia. }
        destruct p; try exact B. reflexivity. }
      rewrite (A w1 R1), (A w2 R2). split; [reflexivity|]. intros _. exists []. repeat split; reflexivity.
    - rewrite !lift_run. cbn [fst snd]. destruct (Hpt x) as (q & Hq). rewrite (proj1 (Hq w1)), (proj1 (Hq w2)).
      split; [reflexivity|]. intros _. exists []. repeat split; reflexivity.
    - split; [reflexivity|]. intros _. exists []. repeat split; reflexivity.
  Qed.

  Lemma send_place x d s : perform_send x d s =
    match pipe d with
    | None => place_into x (starget d) (pointer d) s
    | Some p => match p x (snd s) with
                | (Ok y, w') => place_into y (starget d) (pointer d) (fst s, w')
                | (Exc e, w') => (Exc e, (fst s, w'))
                end
    end.
  Proof.
    unfold perform_send. destruct (starget d), (pipe d) as [p|]; try reflexivity;
      unfold ebind; rewrite lift_run; destruct (p x (snd s)) as [[y|e] w']; reflexivity.
  Qed.

  Lemma send_heap x d s : pure_send d -> heap_le (objs (snd s)) (objs (snd (snd (perform_send x d s)))).
  Proof.
    intros [Hp Ht]. rewrite send_place. destruct (pipe d) as [p|]; [|now apply place_heap].
    destruct (Hp x) as (r & Hr). destruct (Hr (snd s)) as [E1 E2].
    destruct (p x (snd s)) as [[y|e] w']; cbn [snd fst] in *; rewrite <- E2.
    - exact (place_heap y (starget d) (pointer d) (fst s, w') Ht).
    - apply heap_refl.
  Qed.
  Lemma send_lock x d c1 w1 c2 w2 : pure_send d -> in_range (objs w1) d -> in_range (objs w2) d ->
    fst (perform_send x d (c1, w1)) = fst (perform_send x d (c2, w2)) /\
    (fst (perform_send x d (c1, w1)) = Ok tt -> exists sent, map fst sent = wire d /\
       (forall k, inserts_at (fst (snd (perform_send x d (c1, w1)))) k = dupdate (inserts_at c1 k) (sel k sent)) /\
       (forall k, inserts_at (fst (snd (perform_send x d (c2, w2)))) k = dupdate (inserts_at c2 k) (sel k sent))).
  Proof.
    intros [Hp Ht] R1 R2. rewrite !send_place. destruct (pipe d) as [p|].
    - destruct (Hp x) as (r & Hr). cbn [snd fst]. destruct (Hr w1) as [E1 O1], (Hr w2) as [E2 O2].
      destruct (p x w1) as [r1 w1'], (p x w2) as [r2 w2']. cbn [fst snd] in *. subst r1 r2.
      destruct r as [y|e]; [|split; [reflexivity|discriminate]].
      apply place_lock; auto; congruence.
    - apply place_lock; auto.
  Qed.

  Lemma run_sends_heap l x : (forall d, In d l -> pure_send d) ->
    forall s, heap_le (objs (snd s)) (objs (snd (snd (run_sends l x s)))).
  Proof.
    induction l as [|d l IH]; intros Hp s; [apply heap_refl|]. cbn [run_sends].
    pose proof (send_heap x d s (Hp d (or_introl eq_refl))) as H.
    destruct (perform_send x d s) as [[u|e] s']; [|exact H].
    eapply heap_trans; [exact H|]. apply IH. intros; apply Hp; now right.
  Qed.
  Lemma run_sends_lock l x : (forall d, In d l -> pure_send d) ->
    forall c1 w1 c2 w2, (forall d, In d l -> in_range (objs w1) d) -> (forall d, In d l -> in_range (objs w2) d) ->
    fst (run_sends l x (c1, w1)) = fst (run_sends l x (c2, w2)) /\
    (fst (run_sends l x (c1, w1)) = Ok tt -> exists sent, map fst sent = flat_map wire l /\
       (forall k, inserts_at (fst (snd (run_sends l x (c1, w1)))) k = dupdate (inserts_at c1 k) (sel k sent)) /\
       (forall k, inserts_at (fst (snd (run_sends l x (c2, w2)))) k = dupdate (inserts_at c2 k) (sel k sent))).
  Proof.
    induction l as [|d l IH]; intros Hp c1 w1 c2 w2 R1 R2.
    - split; [reflexivity|]. intros _. exists []. repeat split; reflexivity.
    - cbn [run_sends flat_map].
      destruct (send_lock x d c1 w1 c2 w2 (Hp d (or_introl eq_refl)) (R1 d (or_introl eq_refl)) (R2 d (or_introl eq_refl))) as [E S].
      pose proof (send_heap x d (c1, w1) (Hp d (or_introl eq_refl))) as H1.
      pose proof (send_heap x d (c2, w2) (Hp d (or_introl eq_refl))) as H2.
      destruct (perform_send x d (c1, w1)) as [r1 [c1' w1']], (perform_send x d (c2, w2)) as [r2 [c2' w2']].
      cbn [fst snd] in *. subst r2. destruct r1 as [[]|e]; [|split; [reflexivity|discriminate]].
      destruct (S eq_refl) as (a & A1 & A2 & A3).
      destruct (IH (fun d Hd => Hp d (or_intror Hd)) c1' w1' c2' w2') as [E' S'].
      { intros d' Hd. eapply heap_range; [exact H1|]. apply R1. now right. }
      { intros d' Hd. eapply heap_range; [exact H2|]. apply R2. now right. }
      split; [exact E'|]. intro Hr. destruct (S' Hr) as (b & B1 & B2 & B3). exists (a ++ b).
      split; [now rewrite map_app, A1, B1|]. split; intro k.
      + rewrite B2, A2, sel_app. apply dupdate_app'.
      + rewrite B3, A3, sel_app. apply dupdate_app'.
  Qed.

  (** ** Steps *)

  Lemma pure_raise {A} e : pure (eraise e : @act V W A).
  Proof. exists (Exc e). intro w. split; reflexivity. Qed.
  Lemma pure_call c k x : (forall f, dget (steps c) k = Some f -> pure_step f) -> pure (call_step c k x).
  Proof.
    intro H. unfold call_step. destruct (dget (steps c) k) as [f|]; [|apply pure_raise].
    specialize (H f eq_refl). rewrite call_inserts.
    assert (B : forall (r : res (list V)) (g : list V -> @act V W V), (forall l, pure (g l)) -> pure (ebind (eof r) g)).
    { intros [l|e] g Hg; [apply Hg|apply pure_raise]. }
    destruct f as [n str f|n str p]; cbn [pure_step] in H.
    - destruct (Nat.eqb _ _); [apply H|]. apply B. intro. apply H.
    - unfold _call_partial_step. destruct (Nat.eqb _ _); [apply H|]. apply B. intro. apply H.
  Qed.
  Lemma call_step_cong c1 c2 k x : same_shape c1 c2 -> inserts_at c1 k = inserts_at c2 k ->
    call_step c1 k x = call_step c2 k x.
  Proof. intros Hs Hi. unfold call_step. rewrite (shape_steps _ _ Hs), !call_inserts, Hi. reflexivity. Qed.

  Definition forward_at c (ks : list key) : Prop :=
    forall a k b d t, ks = a ++ k :: b -> In d (sends_of c k) -> starget d = TStep t ->
      forall k', In k' (a ++ [k]) -> keqb t k' = false.

  Lemma do_step_heap k x c w : pure_at c [k] -> heap_le (objs w) (objs (snd (snd (_do_step k x (c, w))))).
  Proof.
    intros [Hf Hd]. rewrite do_step_run.
    destruct (pure_call c k x) as (r & Hr); [intros f; apply Hf; now left|].
    destruct (Hr w) as [_ E]. destruct (call_step c k x w) as [[y|e] w']; cbn [snd] in *.
    - pose proof (run_sends_heap (sends_of c k) y (fun d => Hd k d (or_introl eq_refl)) (c, w')) as H.
      cbn [snd] in H. rewrite E in H. destruct (run_sends (sends_of c k) y (c, w')) as [[u|e] s']; exact H.
    - cbn [fst snd]. rewrite E. apply heap_refl.
  Qed.
  Lemma exhaust_heap ks : forall x c w, pure_at c ks ->
    heap_le (objs w) (objs (snd (snd (exhaust ks x (c, w))))).
  Proof.
    induction ks as [|k ks IH]; intros x c w [Hf Hd]; [apply heap_refl|]. cbn [exhaust].
    assert (Hk : pure_at c [k]).
    { split; [intros k' f [<-|[]]|intros k' d [<-|[]]]; [apply Hf|apply Hd]; now left. }
    pose proof (do_step_heap k x c w Hk) as H. pose proof (do_step_shape k x (c, w)) as Hs.
    destruct (_do_step k x (c, w)) as [[y|e] [c' w']]; cbn [fst snd] in *; [|exact H].
    assert (Hks : pure_at c' ks).
    { split.
      - intros k' f Hk'. rewrite (shape_steps _ _ Hs). apply Hf. now right.
      - intros k' d Hk'. rewrite (shape_sends _ _ _ Hs). apply Hd. now right. }
    specialize (IH y c' w' Hks). destruct (exhaust ks y (c', w')) as [[ys e] s'']. cbn [snd] in *.
    eapply heap_trans; [exact H|exact IH].
  Qed.

  Lemma forward_wires c k ks t : forward_at c (k :: ks) -> keqb k t = true -> selw t (wires c (k :: ks)) = [].
  Proof.
    intros Hf Ht. unfold selw.
    assert (A : forall e, In e (wires c (k :: ks)) -> keqb (fst e) t = false).
    { intros [t' p] He. unfold wires in He. apply in_flat_map in He. destruct He as (k' & Hk' & He).
      apply in_flat_map in He. destruct He as (d & Hd & He). unfold wire in He.
      destruct (starget d) as [|t''|r|f|] eqn:T; try contradiction. destruct He as [He|[]]. injection He as <- <-. cbn.
      apply in_split in Hk'. destruct Hk' as (a & b & Hab).
      assert (E : keqb t'' k = false).
      { apply (Hf a k' b d t'' Hab Hd T k). destruct a as [|a0 a]; injection Hab as -> _; [now left|].
        cbn. now left. }
      destruct (keqb t'' t) eqn:E2; [|reflexivity]. rewrite keqb_sym in Ht.
      rewrite (keqb_trans _ _ _ E2 Ht) in E. discriminate. }
    induction (wires c (k :: ks)) as [|e l IH]; [reflexivity|]. cbn [flat_map].
    rewrite (A e (or_introl eq_refl)). apply IH. intros; apply A; now right.
  Qed.

  Lemma lockstep ks : forall x c1 w1 c2 w2, same_shape c1 c2 -> pure_at c1 ks -> forward_at c1 ks ->
    ranged_at c1 ks w1 -> ranged_at c1 ks w2 ->
    (forall t, In t ks -> agree (selw t (wires c1 ks)) (inserts_at c1 t) (inserts_at c2 t)) ->
    fst (exhaust ks x (c1, w1)) = fst (exhaust ks x (c2, w2)).
  Proof.
    induction ks as [|k ks IH]; intros x c1 w1 c2 w2 Hs [Hf Hd] Hfw R1 R2 Ha; [reflexivity|].
    cbn [exhaust]. rewrite !do_step_run.
    assert (Ek : inserts_at c1 k = inserts_at c2 k).
    { apply agree_nil. rewrite <- (forward_wires c1 k ks k Hfw (keqb_refl k)). apply Ha. now left. }
    rewrite <- (call_step_cong c1 c2 k x Hs Ek).
    destruct (pure_call c1 k x) as (r & Hr); [intros f; apply Hf; now left|].
    destruct (Hr w1) as [E1 O1], (Hr w2) as [E2 O2].
    destruct (call_step c1 k x w1) as [r1 w1'], (call_step c1 k x w2) as [r2 w2']. cbn [fst snd] in *. subst r1 r2.
    destruct r as [y|e]; [|reflexivity].
    assert (Hdk : forall d, In d (sends_of c1 k) -> pure_send d) by (intros d; apply Hd; now left).
    rewrite (shape_sends _ _ k Hs).
    destruct (run_sends_lock (sends_of c1 k) y Hdk c1 w1' c2 w2') as [E S].
    { intros d Hin. rewrite O1. apply (R1 k d (or_introl eq_refl) Hin). }
    { intros d Hin. rewrite O2. apply (R2 k d (or_introl eq_refl) Hin). }
    pose proof (run_sends_heap (sends_of c1 k) y Hdk (c1, w1')) as H1.
    pose proof (run_sends_heap (sends_of c1 k) y Hdk (c2, w2')) as H2.
    pose proof (run_sends_shape (sends_of c1 k) y (c1, w1')) as S1.
    pose proof (run_sends_shape (sends_of c1 k) y (c2, w2')) as S2.
    destruct (run_sends (sends_of c1 k) y (c1, w1')) as [r1 [c1' w1'']], (run_sends (sends_of c1 k) y (c2, w2')) as [r2 [c2' w2'']].
    cbn [fst snd] in *. subst r2. destruct r1 as [[]|e]; [|reflexivity].
    destruct (S eq_refl) as (sent & B1 & B2 & B3).
    assert (G : fst (exhaust ks y (c1', w1'')) = fst (exhaust ks y (c2', w2''))).
    { apply IH.
      - unfold same_shape in *. rewrite S2, Hs, S1. reflexivity.
      - split; [intros k' f Hk; rewrite (shape_steps _ _ S1); apply Hf; now right|].
        intros k' d Hk. rewrite (shape_sends _ _ _ S1). apply Hd. now right.
      - intros a k' b d t -> Hin Ht k'' Hk''. rewrite (shape_sends _ _ _ S1) in Hin.
        apply (Hfw (k :: a) k' b d t eq_refl Hin Ht). now right.
      - intros k' d Hk Hin. rewrite (shape_sends _ _ _ S1) in Hin. eapply heap_range; [exact H1|]. rewrite O1.
        apply (R1 k' d (or_intror Hk) Hin).
      - intros k' d Hk Hin. rewrite (shape_sends _ _ _ S1) in Hin. eapply heap_range; [exact H2|]. rewrite O2.
        apply (R2 k' d (or_intror Hk) Hin).
      - intros t Ht. rewrite B2, B3, (shape_wires _ _ _ S1). apply agree_update. rewrite sel_keys, B1.
        rewrite <- selw_app. apply (Ha t). now right. }
    destruct (exhaust ks y (c1', w1'')) as [[ys1 e1] s1], (exhaust ks y (c2', w2'')) as [[ys2 e2] s2].
    cbn [fst] in *. injection G as -> ->. reflexivity.
  Qed.

  (** ** Histories *)

  Definition history_of c c' : Prop := same_shape c c' /\
    forall t, exists pfx rest, selw t (wires c (dkeys (steps c))) = pfx ++ rest /\
      touched pfx (inserts_at c t) (inserts_at c' t).

  Lemma after_error_objs c ys ex w : objs (after_error trace c ys ex w) = objs w.
  Proof.
    unfold after_error. destruct (is_Exception ex); [|reflexivity]. destruct (ctracker c); [|reflexivity].
    destruct (nth_error (steps c) (List.length ys)) as [[n f]|]; [|reflexivity]. apply on_trk_objs.
  Qed.

  Lemma execute_history x c w c' w' c0 : wfd (steps c0) = true -> pure_at c0 (dkeys (steps c0)) ->
    history_of c0 c -> snd (execute none trace x (c, w)) = (c', w') ->
    history_of c0 c' /\ heap_le (objs w) (objs w').
  Proof.
    intros Hw Hp [Hs Hh] H.
    assert (Hw' : wfd (steps c) = true) by now rewrite (shape_steps _ _ Hs).
    destruct (exhaust (dkeys (steps c)) x (c, w)) as [[ys e] [c1 w1]] eqn:E.
    rewrite (execute_run none trace _ _ _ _ _ _ _ Hw' E) in H. cbn [snd] in H. injection H as <- <-.
    pose proof (exhaust_shape _ _ _ _ _ _ E) as Hs1. cbn [fst] in Hs1.
    split.
    - split; [eapply shape_trans; eauto|]. intro t. destruct (Hh t) as (pfx & rest & P1 & P2).
      destruct (exhaust_sent _ _ _ _ _ _ E) as (sent & rest' & S1 & _ & S3 & _). cbn [fst] in *.
      rewrite S3. rewrite (shape_steps _ _ Hs), (shape_wires _ _ _ Hs) in S1.
      destruct (touched_more pfx (inserts_at c0 t) (inserts_at c t) (sel t sent)
                  (selw t (wires c0 (dkeys (steps c0)))) rest (selw t rest') P2 P1) as (pfx' & r' & Q1 & Q2).
      { rewrite S1, selw_app, sel_keys. reflexivity. }
      exists pfx', r'. auto.
    - assert (Hp' : pure_at c (dkeys (steps c))).
      { rewrite (shape_steps _ _ Hs). destruct Hp as [A B]. split; [intros k f; rewrite (shape_steps _ _ Hs); apply A|].
        intros k d; rewrite (shape_sends _ _ _ Hs); apply B. }
      pose proof (exhaust_heap (dkeys (steps c)) x c w Hp') as Hh1. rewrite E in Hh1. cbn [snd] in Hh1.
      destruct e; [rewrite after_error_objs|]; exact Hh1.
  Qed.

  Lemma executions_history xs : forall c w c' w' c0, wfd (steps c0) = true -> pure_at c0 (dkeys (steps c0)) ->
    history_of c0 c -> snd (executions none trace xs (c, w)) = (c', w') ->
    history_of c0 c' /\ heap_le (objs w) (objs w').
  Proof.
    induction xs as [|x xs IH]; intros c w c' w' c0 Hw Hp Hh H; cbn [executions] in H.
    - injection H as <- <-. split; [exact Hh|apply heap_refl].
    - destruct (execute none trace x (c, w)) as [r [c1 w1]] eqn:E.
      destruct (execute_history x c w c1 w1 c0 Hw Hp Hh) as [H1 H2]; [now rewrite E|].
      destruct (executions none trace xs (c1, w1)) as [rs s2] eqn:E2. cbn [snd] in H. subst s2.
      destruct (IH c1 w1 c' w' c0 Hw Hp H1) as [H3 H4]; [now rewrite E2|].
      split; [exact H3|]. eapply heap_trans; eauto.
  Qed.

  Lemma indep_lemma c w xs x : wfd (steps c) = true -> (forall t, wfd (inserts_at c t) = true) ->
    pure_at c (dkeys (steps c)) -> ranged_at c (dkeys (steps c)) w -> forward c ->
    fst (execute none trace x (snd (executions none trace xs (c, w)))) = fst (execute none trace x (c, w)).
  Proof.
    intros Hw Hi Hp Hr Hf. destruct (executions none trace xs (c, w)) as [rs [c' w']] eqn:E. cbn [snd].
    destruct (executions_history xs c w c' w' c Hw Hp) as [[Hs Hh] Hheap].
    { split; [apply shape_refl|]. intro t. exists [], (selw t (wires c (dkeys (steps c)))).
      split; [reflexivity|]. now apply touched_refl. }
    { now rewrite E. }
    assert (L : fst (exhaust (dkeys (steps c)) x (c, w)) = fst (exhaust (dkeys (steps c)) x (c', w'))).
    { apply lockstep; auto.
      - intros k d Hk Hd. eapply heap_range; [exact Hheap|]. eapply Hr; eauto.
      - intros t _. destruct (Hh t) as (pfx & rest & -> & Ht). now apply touched_agree. }
    destruct (exhaust (dkeys (steps c)) x (c, w)) as [[ys e] [c1 w1]] eqn:E1.
    destruct (exhaust (dkeys (steps c)) x (c', w')) as [[ys' e'] [c2 w2]] eqn:E2.
    cbn [fst] in L. injection L as <- <-.
    rewrite (execute_run none trace _ _ _ _ _ _ _ Hw E1).
    rewrite <- (shape_steps _ _ Hs) in E2, Hw. rewrite (execute_run none trace _ _ _ _ _ _ _ Hw E2).
    cbn [fst]. now rewrite (shape_optional _ _ Hs).
  Qed.
End Indep.
