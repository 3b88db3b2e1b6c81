(** Blocks and processes that end. *)
From Coq Require Import Lia.
From Verif Require Export Exit_Spec.

Lemma set_proc_same f p t : set_proc f p t p = t.
Proof. unfold set_proc. now rewrite Nat.eqb_refl. Qed.
Lemma set_proc_other f p t q : q <> p -> set_proc f p t q = f q.
Proof. intro H. unfold set_proc. now rewrite (proj2 (Nat.eqb_neq q p) H). Qed.

(** A tracker that will clean up no block and, with [d], has been
    deactivated. *)
Definition harmless (d : bool) (t : tracker) : Prop :=
  (forall a, t_cache t "shared_memory" a = false) /\
  (d = true -> t_register t = Fixed /\ t_unregister t = Fixed) /\
  (d = false -> t_unregister t = Original).

Lemma deactivate_spec t : exists l, deactivate "linux" t = Ok (mkTracker Fixed Fixed l (t_cache t)).
Proof.
  unfold deactivate. change (String.eqb "linux" "win32" || String.eqb "linux" "cygwin") with false. cbv iota zeta. destruct t as [r u l c]. cbn [t_funcs t_cache t_register t_unregister].
  destruct (existsb (String.eqb "shared_memory") l) eqn:E; [|eauto].
  enough (exists l', del_func "shared_memory" l = Ok l') as [l' ->] by (eexists; reflexivity).
  induction l as [|x l IH]; [discriminate|]. cbn [existsb] in E. cbn [del_func]. rewrite String.eqb_sym.
  destruct (String.eqb "shared_memory" x); [eauto|]. destruct (IH E) as [l' ->]. cbn. eauto.
Qed.

Lemma survive_run h : forall d w b, careful d h -> (forall p, harmless (d p) (w_procs w p)) -> (forall a, w_blocks w a = b a) ->
  fst (events_run w h) = plain_run b h /\
  forall a, w_blocks (snd (events_run w h)) a = last_made a (b a) h.
Proof.
  induction h as [|e h IH]; intros d w b Hc Hh Hb; [split; [reflexivity|exact Hb]|].
  assert (K : forall d' w1 x b1, event_step w e = (x, w1) -> plain_step b e = (x, b1) ->
    (forall a, last_made a (b a) (e :: h) = last_made a (b1 a) h) ->
    careful d' h -> (forall p, harmless (d' p) (w_procs w1 p)) -> (forall a, w_blocks w1 a = b1 a) ->
    fst (events_run w (e :: h)) = plain_run b (e :: h) /\
    forall a, w_blocks (snd (events_run w (e :: h))) a = last_made a (b a) (e :: h)).
  { intros d' w1 x b1 E1 E2 E3 C H1 H2. cbn [events_run plain_run]. rewrite E1, E2.
    destruct (IH d' w1 b1 C H1 H2) as [I1 I2]. destruct (events_run w1 h) as [xs w2]. cbn [fst snd] in *.
    split; [now rewrite I1|]. intro a. rewrite E3. apply I2. }
  assert (Hset : forall t p q, harmless (d q) (set_proc (w_procs w) p t q) \/ (p = q /\ set_proc (w_procs w) p t q = t)).
  { intros t p q. destruct (Nat.eq_dec q p) as [->|Hn]; [right; split; [reflexivity|apply set_proc_same]|left; rewrite set_proc_other by exact Hn; apply Hh]. }
  destruct e as [p a|p a|p a|p n t|p n t|p|p]; cbn [careful] in Hc; try contradiction.
  - destruct Hc as [Hd Hc]. destruct (Hh p) as (Hca & H1 & _). destruct (H1 Hd) as [Hr Hu].
    destruct (b a) eqn:Ea.
    + apply (K d w (Exc FileExistsError) b); auto.
      * cbn [event_step]. now rewrite Hb, Ea.
      * cbn [plain_step]. now rewrite Ea.
      * intro x. cbn [last_made]. destruct (String.eqb_spec x a) as [->|]; [now rewrite Ea|reflexivity].
    + apply (K d (mkWorld (set_block (w_blocks w) a true) (set_proc (w_procs w) p (w_procs w p))) (Ok tt) (set_block b a true)); auto.
      * cbn [event_step]. rewrite Hb, Ea. unfold register. now rewrite Hr.
      * cbn [plain_step]. now rewrite Ea.
      * intro q. cbn [w_procs]. destruct (Hset (w_procs w p) p q) as [X|[<- X]]; [exact X|]. rewrite X. apply Hh.
      * intro x. cbn [w_blocks]. unfold set_block. destruct (String.eqb x a); auto.
  - destruct Hc as [Hd Hc]. destruct (Hh p) as (Hca & H1 & _). destruct (H1 Hd) as [Hr Hu].
    destruct (b a) eqn:Ea.
    + apply (K d (mkWorld (w_blocks w) (set_proc (w_procs w) p (w_procs w p))) (Ok tt) b); auto.
      * cbn [event_step]. rewrite Hb, Ea. unfold register. now rewrite Hr.
      * cbn [plain_step]. now rewrite Ea.
      * intro q. cbn [w_procs]. destruct (Hset (w_procs w p) p q) as [X|[<- X]]; [exact X|]. rewrite X. apply Hh.
    + apply (K d w (Exc FileNotFoundError) b); auto.
      * cbn [event_step]. now rewrite Hb, Ea.
      * cbn [plain_step]. now rewrite Ea.
  - destruct (b a) eqn:Ea.
    + assert (exists t', unregister (w_procs w p) a "shared_memory" = Ok t' /\ harmless (d p) t') as (t' & Et & Ht).
      { destruct (Hh p) as (Hca & H1 & H2). unfold unregister. destruct (d p) eqn:Hd.
        - destruct (H1 eq_refl) as [Hr Hu]. rewrite Hu. eexists; split; [reflexivity|]. now split.
        - rewrite (H2 eq_refl). eexists; split; [reflexivity|]. split; [|split; [discriminate|reflexivity]].
          intro x. cbn [t_cache]. unfold cache_set. destruct (_ && _); auto. }
      apply (K d (mkWorld (set_block (w_blocks w) a false) (set_proc (w_procs w) p t')) (Ok tt) (set_block b a false)); auto.
      * cbn [event_step]. now rewrite Hb, Ea, Et.
      * cbn [plain_step]. now rewrite Ea.
      * intro q. cbn [w_procs]. destruct (Hset t' p q) as [X|[<- X]]; [exact X|]. rewrite X. exact Ht.
      * intro x. cbn [w_blocks]. unfold set_block. destruct (String.eqb x a); auto.
    + apply (K d w (Exc FileNotFoundError) b); auto.
      * cbn [event_step]. now rewrite Hb, Ea.
      * cbn [plain_step]. now rewrite Ea.
      * intro x. cbn [last_made]. destruct (String.eqb_spec x a) as [->|]; [now rewrite Ea|reflexivity].
  - destruct (deactivate_spec (w_procs w p)) as [l El].
    apply (K (set_flag d p true) (mkWorld (w_blocks w) (set_proc (w_procs w) p (mkTracker Fixed Fixed l (t_cache (w_procs w p))))) (Ok tt) b); auto.
    + cbn [event_step]. now rewrite El.
    + intro q. cbn [w_procs]. unfold set_flag. destruct (Nat.eqb_spec q p) as [->|Hn].
      * rewrite set_proc_same. split; [apply Hh|]. split; [auto|discriminate].
      * rewrite set_proc_other by exact Hn. apply Hh.
  - apply (K (set_flag d p false) (snd (event_step w (EExit p))) (Ok tt) b); auto.
    + intro q. cbn [event_step snd w_procs]. unfold set_flag. destruct (Nat.eqb_spec q p) as [->|Hn].
      * rewrite set_proc_same. split; [reflexivity|]. split; [discriminate|reflexivity].
      * rewrite set_proc_other by exact Hn. apply Hh.
    + intro a. cbn [event_step snd w_blocks]. destruct (Hh p) as (Hca & _). rewrite Hca, andb_true_r. apply Hb.
Qed.
Lemma survive b h : careful (fun _ => false) h ->
  fst (events_run (fresh_world b) h) = plain_run b h /\
  forall a, w_blocks (snd (events_run (fresh_world b) h)) a = last_made a (b a) h.
Proof.
  intro Hc. apply (survive_run h (fun _ => false)); auto. intro p. split; [reflexivity|]. split; [discriminate|reflexivity].
Qed.

(** ** Without deactivating *)
Lemma cache_run p a h : forall w, never_deactivates p h -> t_register (w_procs w p) = Original -> t_unregister (w_procs w p) = Original ->
  t_cache (w_procs (snd (events_run w h)) p) "shared_memory" a =
  in_hand p a (t_cache (w_procs w p) "shared_memory" a) (combine h (fst (events_run w h))).
Proof.
  induction h as [|e h IH]; intros w Hn Hr Hu; [reflexivity|].
  assert (Hn' : never_deactivates p h) by (intros x Hx; apply Hn; now right).
  pose proof (Hn e (or_introl eq_refl)) as [Hd Hre].
  cbn [events_run]. destruct (event_step w e) as [x w1] eqn:E.
  assert (K : forall c, t_register (w_procs w1 p) = Original -> t_unregister (w_procs w1 p) = Original ->
    t_cache (w_procs w1 p) "shared_memory" a = c ->
    (forall r, in_hand p a (t_cache (w_procs w p) "shared_memory" a) ((e, x) :: r) = in_hand p a c r) ->
    t_cache (w_procs (snd (let '(xs, w2) := events_run w1 h in (x :: xs, w2))) p) "shared_memory" a =
    in_hand p a (t_cache (w_procs w p) "shared_memory" a) (combine (e :: h) (fst (let '(xs, w2) := events_run w1 h in (x :: xs, w2))))).
  { intros c H1 H2 H3 H4. specialize (IH w1 Hn' H1 H2). destruct (events_run w1 h) as [xs w2]. cbn [fst snd combine] in *.
    rewrite IH, H3. symmetry. apply H4. }
  assert (Other : forall q blocks r, q <> p -> (x, w1) = with_tracker w q blocks r -> w_procs w1 p = w_procs w p).
  { intros q blocks r Hq Ew. destruct r as [t|ex]; cbn [with_tracker] in Ew; injection Ew as _ ->; [|reflexivity].
    cbn [w_procs]. apply set_proc_other. congruence. }
  destruct e as [q y|q y|q y|q n t|q n t|q|q]; cbn [event_step] in E.
  - destruct (w_blocks w y); [injection E as <- <-; eapply K; eauto|].
    destruct (Nat.eq_dec q p) as [->|Hq].
    + unfold register in E. rewrite Hr in E. cbn [with_tracker] in E. injection E as <- <-. eapply K; cbn [w_procs]; rewrite ?set_proc_same; auto.
      cbn [t_cache]. unfold cache_set. rewrite String.eqb_refl. cbn [andb]. rewrite String.eqb_sym. intro r. cbn [in_hand]. now rewrite Nat.eqb_refl.
    + pose proof (Other _ _ _ Hq (eq_sym E)) as Eq. apply (K (t_cache (w_procs w p) "shared_memory" a)); rewrite ?Eq; auto.
      intro r. destruct x; cbn [in_hand]; [|reflexivity]. now rewrite (proj2 (Nat.eqb_neq q p) Hq).
  - destruct (w_blocks w y); [|injection E as <- <-; eapply K; eauto].
    destruct (Nat.eq_dec q p) as [->|Hq].
    + unfold register in E. rewrite Hr in E. cbn [with_tracker] in E. injection E as <- <-. eapply K; cbn [w_procs]; rewrite ?set_proc_same; auto.
      cbn [t_cache]. unfold cache_set. rewrite String.eqb_refl. cbn [andb]. rewrite String.eqb_sym. intro r. cbn [in_hand]. now rewrite Nat.eqb_refl.
    + pose proof (Other _ _ _ Hq (eq_sym E)) as Eq. apply (K (t_cache (w_procs w p) "shared_memory" a)); rewrite ?Eq; auto.
      intro r. destruct x; cbn [in_hand]; [|reflexivity]. now rewrite (proj2 (Nat.eqb_neq q p) Hq).
  - destruct (w_blocks w y); [|injection E as <- <-; eapply K; eauto].
    destruct (Nat.eq_dec q p) as [->|Hq].
    + unfold unregister in E. rewrite Hu in E. cbn [with_tracker] in E. injection E as <- <-. eapply K; cbn [w_procs]; rewrite ?set_proc_same; auto.
      cbn [t_cache]. unfold cache_set. rewrite String.eqb_refl. cbn [andb]. rewrite String.eqb_sym. intro r. cbn [in_hand]. now rewrite Nat.eqb_refl.
    + pose proof (Other _ _ _ Hq (eq_sym E)) as Eq. apply (K (t_cache (w_procs w p) "shared_memory" a)); rewrite ?Eq; auto.
      intro r. destruct x; cbn [in_hand]; [|reflexivity]. now rewrite (proj2 (Nat.eqb_neq q p) Hq).
  - destruct (Nat.eq_dec q p) as [->|Hq]; [now destruct (Hre n t)|].
    pose proof (Other _ _ _ Hq (eq_sym E)) as Eq. apply (K (t_cache (w_procs w p) "shared_memory" a)); rewrite ?Eq; auto.
  - destruct (Nat.eq_dec q p) as [->|Hq]; [now destruct (Hre n t)|].
    pose proof (Other _ _ _ Hq (eq_sym E)) as Eq. apply (K (t_cache (w_procs w p) "shared_memory" a)); rewrite ?Eq; auto.
  - destruct (Nat.eq_dec q p) as [->|Hq]; [congruence|].
    pose proof (Other _ _ _ Hq (eq_sym E)) as Eq. apply (K (t_cache (w_procs w p) "shared_memory" a)); rewrite ?Eq; auto.
  - injection E as <- <-. cbn [w_procs]. destruct (Nat.eq_dec q p) as [->|Hq].
    + eapply K; cbn [w_procs]; rewrite ?set_proc_same; try reflexivity. intro r. cbn [in_hand]. now rewrite Nat.eqb_refl.
    + apply (K (t_cache (w_procs w p) "shared_memory" a)); cbn [w_procs]; rewrite ?set_proc_other by auto; auto.
      intro r. cbn [in_hand]. now rewrite (proj2 (Nat.eqb_neq q p) Hq).
Qed.
Lemma exit_removes b p h : never_deactivates p h ->
  let w := snd (events_run (fresh_world b) h) in
  forall a, w_blocks (snd (event_step w (EExit p))) a =
    w_blocks w a && negb (in_hand p a false (combine h (fst (events_run (fresh_world b) h)))).
Proof.
  intros Hn w a. unfold w. cbn [event_step snd w_blocks]. now rewrite (cache_run p a h (fresh_world b) Hn eq_refl eq_refl).
Qed.

(** ** Particular stories *)
Lemma attach_exit w p a : t_register (w_procs w p) = Original -> w_blocks w a = true ->
  let r := events_run w [EAttach p a; EExit p] in
  fst r = [Ok tt; Ok tt] /\ w_blocks (snd r) a = false.
Proof.
  intros Hr Ha. cbn [events_run event_step]. rewrite Ha. unfold register. rewrite Hr. cbn [with_tracker w_blocks w_procs fst snd].
  split; [reflexivity|]. rewrite set_proc_same. cbn [t_cache]. unfold cache_set. rewrite !String.eqb_refl. cbn [andb negb]. apply andb_false_r.
Qed.
Lemma too_late w p q a : q <> p -> t_register (w_procs w p) = Original -> t_register (w_procs w q) = Original -> w_blocks w a = true ->
  let r := events_run w [EAttach p a; EDeactivate p; EUnlink p a; ECreate q a; EExit p] in
  fst r = [Ok tt; Ok tt; Ok tt; Ok tt; Ok tt] /\ w_blocks (snd r) a = false.
Proof.
  intros Hq Hr Hr' Ha.
  assert (Run : forall w e h x w1, event_step w e = (x, w1) ->
    events_run w (e :: h) = (x :: fst (events_run w1 h), snd (events_run w1 h))).
  { intros w0 e h x w1 E. cbn [events_run]. rewrite E. now destruct (events_run w1 h). }
  set (t1 := mkTracker (t_register (w_procs w p)) (t_unregister (w_procs w p)) (t_funcs (w_procs w p))
      (cache_set (t_cache (w_procs w p)) "shared_memory" a true)).
  set (w1 := mkWorld (w_blocks w) (set_proc (w_procs w) p t1)).
  assert (E1 : event_step w (EAttach p a) = (Ok tt, w1)).
  { cbn [event_step]. rewrite Ha. unfold register. now rewrite Hr at 1. }
  destruct (deactivate_spec t1) as [l El]. set (t2 := mkTracker Fixed Fixed l (t_cache t1)) in *.
  set (w2 := mkWorld (w_blocks w) (set_proc (w_procs w1) p t2)).
  assert (E2 : event_step w1 (EDeactivate p) = (Ok tt, w2)).
  { cbn [event_step]. replace (w_procs w1 p) with t1 by (unfold w1; cbn [w_procs]; now rewrite set_proc_same). now rewrite El. }
  set (w3 := mkWorld (set_block (w_blocks w) a false) (set_proc (w_procs w2) p t2)).
  assert (E3 : event_step w2 (EUnlink p a) = (Ok tt, w3)).
  { cbn [event_step]. replace (w_procs w2 p) with t2 by (unfold w2; cbn [w_procs]; now rewrite set_proc_same).
    change (w_blocks w2 a) with (w_blocks w a). now rewrite Ha. }
  assert (E4 : exists t, event_step w3 (ECreate q a) = (Ok tt, mkWorld (set_block (w_blocks w3) a true) (set_proc (w_procs w3) q t))).
  { assert (Hr3 : t_register (w_procs w3 q) = Original).
    { unfold w3, w2, w1. cbn [w_procs]. now rewrite !set_proc_other by exact Hq. }
    assert (Hb3 : w_blocks w3 a = false) by (unfold w3; cbn [w_blocks]; unfold set_block; now rewrite String.eqb_refl).
    cbn [event_step]. rewrite Hb3. unfold register. rewrite Hr3. eexists; reflexivity. }
  destruct E4 as [t E4]. cbv zeta.
  rewrite (Run _ _ _ _ _ E1), (Run _ _ _ _ _ E2), (Run _ _ _ _ _ E3), (Run _ _ _ _ _ E4).
  cbn [events_run event_step fst snd w_blocks w_procs]. split; [reflexivity|].
  rewrite set_proc_other by congruence. replace (w_procs w3 p) with t2 by (unfold w3; cbn [w_procs]; now rewrite set_proc_same). unfold t2, t1. cbn [t_cache].
  unfold cache_set at 1. rewrite !String.eqb_refl. cbn [andb negb]. apply andb_false_r.
Qed.
Lemma other_types t n rtype : rtype <> "shared_memory" ->
  exists t', deactivate "linux" t = Ok t' /\ register t' n rtype = Exc NameError /\ unregister t' n rtype = Exc NameError.
Proof.
  intro H. destruct (deactivate_spec t) as [l El]. eexists. split; [exact El|]. unfold register, unregister. cbn [t_register t_unregister].
  destruct (String.eqb_spec rtype "shared_memory"); [contradiction|auto].
Qed.
Lemma deactivate_twice t t' : NoDup (t_funcs t) -> deactivate "linux" t = Ok t' -> deactivate "linux" t' = Ok t'.
Proof.
  destruct t as [r u l c]. intros Hd. unfold deactivate. change (String.eqb "linux" "win32" || String.eqb "linux" "cygwin") with false. cbv iota zeta.
  cbn [t_funcs t_cache t_register t_unregister] in *.
  destruct (existsb (String.eqb "shared_memory") l) eqn:E.
  - destruct (del_func "shared_memory" l) as [l'|e] eqn:D; cbn [bind]; [|discriminate]. intros [= <-].
    cbn [t_funcs t_cache t_register t_unregister]. replace (existsb (String.eqb "shared_memory") l') with false; [reflexivity|].
    symmetry. clear E. revert l' D. induction l as [|x l IH]; intros l' D; [discriminate|]. cbn [del_func] in D.
    inversion Hd as [|? ? Hx Hd']; subst. rewrite String.eqb_sym in D. destruct (String.eqb_spec "shared_memory" x) as [<-|Hn].
    + injection D as <-. destruct (existsb (String.eqb "shared_memory") l) eqn:E; [|reflexivity].
      apply existsb_exists in E. destruct E as (y & Hy & Ey). apply String.eqb_eq in Ey. subst y. contradiction.
    + destruct (del_func "shared_memory" l) as [l2|e]; cbn [bind] in D; [|discriminate]. injection D as <-.
      cbn [existsb]. rewrite (proj2 (String.eqb_neq _ _) Hn). cbn [orb]. now apply IH.
  - intros [= <-]. cbn [t_funcs t_cache t_register t_unregister]. now rewrite E.
Qed.
Lemma deactivate_exact t t' : NoDup (t_funcs t) -> deactivate "linux" t = Ok t' ->
  t_register t' = Fixed /\ t_unregister t' = Fixed /\ t_cache t' = t_cache t /\
  t_funcs t' = filter (fun k => negb (String.eqb k "shared_memory")) (t_funcs t).
Proof.
  destruct t as [r u l c]. intros Hd. unfold deactivate. change (String.eqb "linux" "win32" || String.eqb "linux" "cygwin") with false. cbv iota zeta.
  cbn [t_funcs t_cache t_register t_unregister] in *.
  assert (Hno : forall l, existsb (String.eqb "shared_memory") l = false -> filter (fun k => negb (String.eqb k "shared_memory")) l = l).
  { clear. induction l as [|x l IH]; [reflexivity|]. cbn [existsb filter]. rewrite String.eqb_sym. destruct (String.eqb x "shared_memory"); [discriminate|]. cbn. intro H. now rewrite IH. }
  destruct (existsb (String.eqb "shared_memory") l) eqn:E.
  - destruct (del_func "shared_memory" l) as [l'|e] eqn:D; cbn [bind]; [|discriminate]. intros [= <-]. cbn [t_funcs t_cache t_register t_unregister].
    split; [reflexivity|]. split; [reflexivity|]. split; [reflexivity|]. clear E. revert l' D. induction l as [|x l IH]; intros l' D; [discriminate|]. cbn [del_func] in D.
    inversion Hd as [|? ? Hx Hd']; subst. cbn [filter]. destruct (String.eqb_spec x "shared_memory") as [->|Hn]; cbn [negb].
    + injection D as <-. symmetry. apply Hno. destruct (existsb (String.eqb "shared_memory") l) eqn:E; [|reflexivity].
      apply existsb_exists in E. destruct E as (y & Hy & Ey). apply String.eqb_eq in Ey. subst y. contradiction.
    + destruct (del_func "shared_memory" l) as [l2|e]; cbn [bind] in D; [|discriminate]. injection D as <-. f_equal. now apply IH.
  - intros [= <-]. cbn [t_funcs t_cache t_register t_unregister]. repeat split. now rewrite Hno.
Qed.
Lemma deactivate_windows t platform : platform = "win32" \/ platform = "cygwin" -> deactivate platform t = Ok t.
Proof. intros [-> | ->]; reflexivity. Qed.
