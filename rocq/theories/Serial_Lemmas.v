(** Statements about guarded operations, ready for Serial_Props.v. *)
From Verif Require Export Serial_Proofs.

Lemma tags_run_length h : forall ks, List.length (snd (tags_run ks h)) <= List.length ks + List.length h.
Proof.
  induction h as [|o h IH]; intro ks; cbn [tags_run List.length]; [cbn; lia|]. pose proof (step_length ks o) as Hs.
  destruct (tags_step ks o) as [x ks1]. specialize (IH ks1). destruct (tags_run ks1 h) as [xs ks2]. cbn [snd] in *. lia.
Qed.

Lemma used_free hash K I h m s k : reached hash K I h m s -> lock_used I k s -> free_lock I k s.
Proof.
  intros HR [H0 HC]. destruct (reached_fresh _ _ _ _ _ _ HR) as (i & c & _ & W & _ & (_ & HM & HL & _) & _).
  split; [exact W|]. split; [exact H0|]. split; [exact HC|]. auto.
Qed.

Lemma SI_more hash K I i fuel ch k ops ks0 n n' g : SI hash K I i fuel ch k ops ks0 n g -> n <= n' -> SI hash K I i fuel ch k ops ks0 n' g.
Proof. intros [H1 H2 H3 H4 H5 H6 H7 H8 H9] Hn. constructor; auto. eapply Inv_more; eauto. Qed.

(** What a turn is to the lock. *)
Lemma turn_users hash K I i fuel ch k ops ks0 n g j : SI hash K I i fuel ch k ops ks0 n g ->
  users (guarded_turn fuel j g) = go fuel j (users g) \/ users (guarded_turn fuel j g) = users g \/
  exists s, wf s /\ (forall a, lock_names I a -> same_at (shared (users g)) s a) /\
    users (guarded_turn fuel j g) = mkConfig (procs (users g)) s (served (users g)).
Proof.
  intros [H1 _ _ _ _ _ H7 _ _]. unfold guarded_turn. destruct (procs (users g) j) as [p|l|p|p|l|p r|r] eqn:Ej; auto.
  destruct (H7 j (ex_intro _ l Ej)) as (q & _ & Hw). destruct (todo g j) as [out|e| |B o f]; cbn [prog_step outcome users]; auto.
  right. right. assert (W : wf (shared (users g))) by (eapply Inv_wf; eauto). cbn [wp] in Hw.
  specialize (Hw (shared (users g)) (conj W (fun a _ => same_refl _ a))). destruct (step o (shared (users g))) as [r s2]. destruct Hw as [[W2 O2] _].
  exists s2. split; [exact W2|]. split; [|reflexivity]. intros a Ha. apply O2. now apply lock_not_rep.
Qed.

Lemma SI_serial hash K I i fuel ch k ops ks0 n g : collision_free hash K -> SI hash K I i fuel ch k ops ks0 n g ->
  let keys l := keys_by ks0 ops l in
  NoDup (order g) /\ (forall i, In i (order g) <-> past_entry (users g) i) /\
  (forall l i r, order g = l ++ i :: r -> ~ inside (users g) i ->
     outcome (todo g i) = Some (Ok (fst (tags_step (keys l) (ops i))))) /\
  ((forall i, ~ inside (users g) i) -> shows hash K I (mkHandle I i) (shared (users g)) (keys (order g))) /\
  ((forall i, finished (users g) i \/ not_begun I (users g) i) ->
     free_lock I (k + Z.of_nat (List.length (order g))) (shared (users g))).
Proof.
  intros HC [H1 H2 H3 H4 H5 H6 H7 H8 H9] keys. split; [exact H2|]. split; [exact H3|]. split; [exact H5|]. split.
  - intros Hn nl. specialize (H6 Hn). assert (W : wf (shared (users g))) by (eapply Inv_wf; eauto). split.
    + apply (update_rep hash K). exact H6.
    + intros key Hk. unfold check. cbn [skey kraw]. apply (check_rep hash K HC I i _ _ _ _ _ W H6 Hk).
  - intro Ha. rewrite <- H8. eapply Inv_clean; eauto.
Qed.

Lemma rounds_SI hash K I h0 m s k ops fuel n g :
  reached hash K I h0 m s -> lock_used I k s -> (forall i key, op_key (ops i) = Some key -> plain_key K key) ->
  (k + Z.of_nat n < 256 ^ 5)%Z -> (Z.of_nat (List.length h0 + n) + 8 < 256 ^ 5)%Z ->
  rounds hash I fuel (orderly I) n (g_start hash I m ops s) g ->
  exists i ch, m = mkHandle I i /\ SI hash K I i fuel ch k ops (keys_after h0) n g /\
    InvT I fuel ch k 0 (fun _ => 0) (at_start I s) /\ exists n', n' <= n /\ execution I fuel (orderly I) n' (at_start I s) (users g).
Proof.
  intros HR HF0 HO Hb Hl HE. pose proof (used_free _ _ _ _ _ _ _ HR HF0) as HF. destruct (reached_fresh _ _ _ _ _ _ HR) as (i & c & -> & W & R & _). exists i.
  destruct (start_invT _ fuel _ _ HF) as [ch H0]. exists ch. split; [reflexivity|].
  assert (Hk : List.length (keys_after h0) <= List.length h0).
  { unfold keys_after. pose proof (tags_run_length (map v_op h0) []) as X. rewrite map_length in X. exact X. }
  change (256 ^ 5)%Z with 1099511627776%Z in *.
  remember (g_start hash I (mkHandle I i) ops s) as g0 eqn:E0. induction HE as [g0|n g0 g j HE IH HU|n g0 g s' HE IH W' Hs].
  - subst g0. split; [|split; [exact H0|exists 0; split; [lia|constructor]]].
    constructor; cbn [users todo order g_start at_start procs served shared List.length In].
    + eexists. exact H0.
    + constructor.
    + intro j. cbn. tauto.
    + reflexivity.
    + intros l j r E. destruct l; discriminate.
    + intros _. exact R.
    + intros j [l Hj]. discriminate Hj.
    + reflexivity.
    + intro j. apply whole_guarded.
  - destruct IH as (S1 & S2 & n' & L1 & X1); [lia|lia|exact E0|]. split; [|split; [exact S2|]].
    + eapply SI_more; [apply SI_turn; [apply HR|exact HO|exact S1|exact HU|lia|lia]|]. pose proof (asks_one (users g) j). lia.
    + destruct (turn_users hash K I i fuel ch k ops (keys_after h0) n g j S1) as [E|[E|(s' & W' & Hs & E)]].
      * exists (S n'). split; [lia|]. rewrite E. constructor; auto.
      * exists n'. split; [lia|]. now rewrite E.
      * exists (S n'). split; [lia|]. rewrite E. constructor; auto.
  - destruct IH as (S1 & S2 & n' & L1 & X1); [lia|lia|exact E0|]. split; [|split; [exact S2|]].
    + apply (SI_more _ _ _ _ _ _ _ _ _ n); [|lia]. apply SI_env; auto.
    + exists (S n'). split; [lia|]. cbn [users]. constructor; auto. intros a Ha. apply Hs. right; right; right; exact Ha.
Qed.

Lemma serial hash K I h0 m s k ops fuel n g :
  reached hash K I h0 m s -> lock_used I k s -> (forall i key, op_key (ops i) = Some key -> plain_key K key) ->
  (k + Z.of_nat n < 256 ^ 5)%Z -> (Z.of_nat (List.length h0 + n) + 8 < 256 ^ 5)%Z ->
  rounds hash I fuel (orderly I) n (g_start hash I m ops s) g ->
  let keys l := keys_by (keys_after h0) ops l in
  NoDup (order g) /\ (forall i, In i (order g) <-> past_entry (users g) i) /\
  (forall l i r, order g = l ++ i :: r -> ~ inside (users g) i ->
     outcome (todo g i) = Some (Ok (fst (tags_step (keys l) (ops i))))) /\
  ((forall i, ~ inside (users g) i) -> shows hash K I m (shared (users g)) (keys (order g))) /\
  ((forall i, finished (users g) i \/ not_begun I (users g) i) ->
     free_lock I (k + Z.of_nat (List.length (order g))) (shared (users g))).
Proof.
  intros HR HF HO Hb Hl HE. destruct (rounds_SI _ _ _ _ _ _ _ _ _ _ _ HR HF HO Hb Hl HE) as (i & ch & -> & HS & _).
  eapply SI_serial; eauto. apply HR.
Qed.

(** The order only grows. *)
Lemma order_grows hash I fuel R n g g' : rounds hash I fuel R n g g' -> exists l, order g' = order g ++ l.
Proof.
  induction 1 as [g|n g g' i HE [l E] HU|n g g' s HE [l E] W Hs]; [exists []; now rewrite app_nil_r| |exists l; exact E].
  unfold guarded_turn. destruct (procs (users g') i) as [p|x|p|p|x|p r|r].
  5:{ destruct (prog_step (todo g' i) (shared (users g'))) as [[p s]|]; cbn [order]; [eauto|].
      destruct (outcome (todo g' i)); cbn [order]; eauto. }
  all: cbn [order]; destruct (procs (go fuel i (users g')) i); eauto; exists (l ++ [i]); rewrite E, app_assoc; reflexivity.
Qed.

(** ** One process alone *)
Definition at_end {A} (r : res A) : prog A := match r with Ok a => Ret a | Exc e => Raise e end.
Section Alone.
  Variable fuel i : nat.
  Definition reaches (g g' : gconfig) : Prop := exists n, guarded_play fuel (repeat i n) g = g'.
  Lemma reaches_refl g : reaches g g. Proof. now exists 0. Qed.
  Lemma reaches_step g g' : reaches (guarded_turn fuel i g) g' -> reaches g g'.
  Proof. intros [n E]. exists (S n). exact E. Qed.
  Lemma reaches_trans g1 g2 g3 : reaches g1 g2 -> reaches g2 g3 -> reaches g1 g3.
  Proof.
    intros [n E] H. revert g1 E. induction n as [|n IH]; intros g1 E; cbn in E; [now subst g2|]. apply reaches_step, IH, E.
  Qed.

  (** In stage [st], its store [s], and [t] left of the guarded section. *)
  Definition being (st : stage) (s : store) (t : prog iout) (g : gconfig) : Prop :=
    procs (users g) i = st /\ shared (users g) = s /\ todo g i = t.
  Definition gets (st : stage) (s : store) (t : prog iout) (st' : stage) (s' : store) (t' : prog iout) : Prop :=
    forall g, being st s t g -> exists g', reaches g g' /\ being st' s' t' g'.
  Lemma gets_refl st s t : gets st s t st s t.
  Proof. intros g Hg. exists g. split; [apply reaches_refl|exact Hg]. Qed.
  Lemma gets_trans st s t st1 s1 t1 st2 s2 t2 : gets st s t st1 s1 t1 -> gets st1 s1 t1 st2 s2 t2 -> gets st s t st2 s2 t2.
  Proof.
    intros H1 H2 g Hg. destruct (H1 g Hg) as (g1 & R1 & B1). destruct (H2 g1 B1) as (g2 & R2 & B2). exists g2. split; [|exact B2].
    eapply reaches_trans; eauto.
  Qed.
  Lemma gets_go st s t st' s' o : stage_step fuel st s = Some (st', s', o) -> (forall l, st <> Inside l) -> gets st s t st' s' t.
  Proof.
    intros Es Hn g (E1 & E2 & E3). exists (guarded_turn fuel i g). split; [apply reaches_step, reaches_refl|].
    assert (Eg : stage_step fuel (procs (users g) i) (shared (users g)) = Some (st', s', o)) by congruence.
    unfold guarded_turn. destruct (procs (users g) i) eqn:Ep; [| | | |subst st; destruct (Hn _ eq_refl)| |]; 
      (split; [cbn [users]; rewrite go_stage, Ep, Eg; reflexivity|]); (split; [cbn [users]; rewrite go_shared, Ep, Eg; reflexivity|exact E3]).
  Qed.
  Lemma gets_prog {A} (X : prog A -> stage) (p : prog A) : (forall l q, X q <> Inside l) ->
    (forall B (o : op B) k s, stage_step fuel (X (Do o k)) s = let '(r, s') := step o s in Some (X (k r), s', None)) ->
    forall s t r s', run p s = (Some r, s') -> gets (X p) s t (X (at_end r)) s' t.
  Proof.
    intros Hn HX. induction p as [a|e| |B o k IH]; intros s t r s' Hr; cbn [run] in Hr.
    - injection Hr as <- <-. apply gets_refl.
    - injection Hr as <- <-. apply gets_refl.
    - discriminate.
    - destruct (step o s) as [b s1] eqn:Es. eapply gets_trans; [|eapply IH; eauto]. eapply gets_go; [|intro; apply Hn]. rewrite HX, Es. reflexivity.
  Qed.
  Lemma gets_body l p : forall s r s', run p s = (Some r, s') -> gets (Inside l) s p (Inside l) s' (at_end r).
  Proof.
    induction p as [a|e| |B o k IH]; intros s r s' Hr; cbn [run] in Hr.
    - injection Hr as <- <-. apply gets_refl.
    - injection Hr as <- <-. apply gets_refl.
    - discriminate.
    - destruct (step o s) as [b s1] eqn:Es. eapply gets_trans; [|eapply IH; eauto]. intros g (E1 & E2 & E3).
      exists (guarded_turn fuel i g). split; [apply reaches_step, reaches_refl|]. unfold guarded_turn. rewrite E1, E3, E2. cbn [prog_step]. rewrite Es.
      split; [exact E1|]. split; [reflexivity|]. cbn [todo]. apply todo_same.
  Qed.
  Lemma gets_exit l s r : gets (Inside l) s (at_end r) (Leaving (release l) (Ok tt)) s (at_end r).
  Proof.
    intros g (E1 & E2 & E3). exists (guarded_turn fuel i g). split; [apply reaches_step, reaches_refl|]. unfold guarded_turn. rewrite E1, E3, E2.
    assert (Es : stage_step fuel (procs (users g) i) (shared (users g)) = Some (Leaving (release l) (Ok tt), s, None)) by (rewrite E1, E2; reflexivity).
    destruct r as [a|e]; cbn [at_end prog_step outcome];
      (split; [cbn [users]; rewrite go_stage, Es; reflexivity|]); (split; [cbn [users]; rewrite go_shared, Es; reflexivity|exact E3]).
  Qed.
  (** Leaving, then raising. *)
  Lemma gets_leave l r0 s t r s' : run (release l) s = (Some r, s') ->
    gets (Leaving (release l) r0) s t (Finished (match r with Ok _ => r0 | Exc e => Exc e end)) s' t.
  Proof.
    intro Hr. eapply gets_trans.
    - apply (gets_prog (fun p => Leaving p r0)); [discriminate| |exact Hr]. intros B o k s1. cbn [stage_step prog_step]. destruct (step o s1); reflexivity.
    - destruct r as [l'|e]; (eapply gets_go; [reflexivity|discriminate]).
  Qed.
End Alone.

Lemma at_end_outcome {A} (r : res A) : outcome (at_end r) = Some r.
Proof. destruct r; reflexivity. Qed.

Lemma alone hash I m ops fuel i s r s' :
  run (with_lock false fuel I (guarded hash (mkIndex I m false) (ops i))) s = (Some r, s') ->
  exists n, let g := guarded_play fuel (repeat i n) (g_start hash I m ops s) in
    shared (users g) = s' /\
    match procs (users g) i with
    | Finished (Ok _) => outcome (todo g i) = Some r
    | Finished (Exc e) => r = Exc e
    | _ => False
    end.
Proof.
  set (body := guarded hash (mkIndex I m false) (ops i)). intro Hr.
  assert (HG : exists x t, gets fuel i (Starting (lock_init I)) s body (Finished x) s' t /\ match x with Ok _ => t = at_end r | Exc e => r = Exc e end).
  { unfold with_lock in Hr. rewrite run_bind in Hr.
    assert (G1 : forall r1 s1, run (lock_init I) s = (Some r1, s1) -> gets fuel i (Starting (lock_init I)) s body (Starting (at_end r1)) s1 body).
    { intros r1 s1 E. apply (gets_prog fuel i Starting); [discriminate| |exact E]. intros B o k s2. cbn [stage_step prog_step]. destruct (step o s2); reflexivity. }
    destruct (run (lock_init I) s) as [[[l0|e]|] s1]; [| |discriminate].
    2:{ exists (Exc e), body. injection Hr as <- <-. split; [|reflexivity]. eapply gets_trans; [apply (G1 _ _ eq_refl)|].
        eapply gets_go; [reflexivity|discriminate]. }
    assert (G2 : gets fuel i (Starting (lock_init I)) s body (Entering (entry fuel l0)) s1 body).
    { eapply gets_trans; [apply (G1 _ _ eq_refl)|]. eapply gets_trans; eapply gets_go; try reflexivity; discriminate. }
    clear G1. rewrite run_bind, enter_stages in Hr. cbv zeta in Hr. rewrite run_bind in Hr.
    assert (G3 : forall r2 s2, run (entry fuel l0) s1 = (Some r2, s2) -> gets fuel i (Entering (entry fuel l0)) s1 body (Entering (at_end r2)) s2 body).
    { intros r2 s2 E. apply (gets_prog fuel i Entering); [discriminate| |exact E]. intros B o k s3. cbn [stage_step prog_step]. destruct (step o s3); reflexivity. }
    assert (Fail : forall st l e sa (k : lockst -> prog iout), gets fuel i (Starting (lock_init I)) s body st sa body ->
      stage_step fuel st sa = Some (if is_Exception e then Leaving (release l) (Exc e) else Finished (Exc e), sa, None) -> (forall q, st <> Inside q) ->
      match run (if is_Exception e then release l >>> Raise e else @Raise lockst e) sa with
      | (Some (Ok a), s2) => run (k a) s2 | (Some (Exc e), s2) => (Some (Exc e), s2) | (None, s2) => (None, s2) end = (Some r, s') ->
      exists x t, gets fuel i (Starting (lock_init I)) s body (Finished x) s' t /\ match x with Ok _ => t = at_end r | Exc e => r = Exc e end).
    { intros st l e sa k HG Hst Hq Hrun. destruct (is_Exception e).
      - rewrite run_bind in Hrun. destruct (run (release l) sa) as [[[l'|e']|] sb] eqn:El; [| |discriminate].
        + cbn [run] in Hrun. injection Hrun as <- <-. exists (Exc e), body. split; [|reflexivity].
          eapply gets_trans; [exact HG|]. eapply gets_trans; [eapply gets_go; [exact Hst|exact Hq]|]. apply (gets_leave fuel i l (Exc e) sa body (Ok l') sb El).
        + injection Hrun as <- <-. exists (Exc e'), body. split; [|reflexivity].
          eapply gets_trans; [exact HG|]. eapply gets_trans; [eapply gets_go; [exact Hst|exact Hq]|]. apply (gets_leave fuel i l (Exc e) sa body (Exc e') sb El).
      - cbn [run] in Hrun. injection Hrun as <- <-. exists (Exc e), body. split; [|reflexivity]. eapply gets_trans; [exact HG|]. eapply gets_go; [exact Hst|exact Hq]. }
    destruct (run (entry fuel l0) s1) as [[[[l1 [u|e]]|e]|] s2]; cbn [fst snd] in Hr; [| | |discriminate].
    - assert (G4 : gets fuel i (Starting (lock_init I)) s body (Waiting (acquire_loop fuel l1)) s2 body).
      { eapply gets_trans; [exact G2|]. eapply gets_trans; [apply (G3 _ _ eq_refl)|]. eapply gets_go; [reflexivity|discriminate]. }
      clear G2 G3. rewrite run_bind in Hr.
      assert (G5 : forall r3 s3, run (acquire_loop fuel l1) s2 = (Some r3, s3) -> gets fuel i (Waiting (acquire_loop fuel l1)) s2 body (Waiting (at_end r3)) s3 body).
      { intros r3 s3 E. apply (gets_prog fuel i Waiting); [discriminate| |exact E]. intros B o k s4. cbn [stage_step prog_step]. destruct (step o s4); reflexivity. }
      destruct (run (acquire_loop fuel l1) s2) as [[[[l2 [u2|e]]|e]|] s3]; cbn [fst snd] in Hr; [| | |discriminate].
      + (* inside *)
        cbn [run] in Hr. rewrite run_ptry in Hr. destruct (run body s3) as [[rb|] s4] eqn:Eb; [|discriminate].
        assert (G6 : gets fuel i (Starting (lock_init I)) s body (Leaving (release l2) (Ok tt)) s4 (at_end rb)).
        { eapply gets_trans; [exact G4|]. eapply gets_trans; [apply (G5 _ _ eq_refl)|]. eapply gets_trans; [eapply gets_go; [reflexivity|discriminate]|].
          eapply gets_trans; [apply gets_body, Eb|apply gets_exit]. }
        destruct (run (release l2) s4) as [[[l3|e3]|] s5] eqn:El.
        * assert (Er : r = rb /\ s' = s5).
          { destruct rb as [a|e]; rewrite run_bind, El in Hr; cbn [run] in Hr; injection Hr as <- <-; auto. }
          destruct Er as [-> ->]. exists (Ok tt), (at_end rb). split; [|reflexivity]. eapply gets_trans; [exact G6|]. apply (gets_leave fuel i l2 (Ok tt) s4 _ (Ok l3) s5 El).
        * assert (Er : r = Exc e3 /\ s' = s5).
          { destruct rb as [a|e]; rewrite run_bind, El in Hr; injection Hr as <- <-; auto. }
          destruct Er as [-> ->]. exists (Exc e3), (at_end rb). split; [|reflexivity]. eapply gets_trans; [exact G6|]. apply (gets_leave fuel i l2 (Ok tt) s4 _ (Exc e3) s5 El).
        * destruct rb as [a|e]; rewrite run_bind, El in Hr; discriminate.
      + eapply (Fail (Waiting (Ret (l2, Exc e))) l2 e s3); [eapply gets_trans; [exact G4|apply (G5 _ _ eq_refl)]|reflexivity|discriminate|exact Hr].
      + injection Hr as <- <-. exists (Exc e), body. split; [|reflexivity]. eapply gets_trans; [exact G4|]. eapply gets_trans; [apply (G5 _ _ eq_refl)|].
        eapply gets_go; [reflexivity|discriminate].
    - eapply (Fail (Entering (Ret (l1, Exc e))) l1 e s2); [eapply gets_trans; [exact G2|apply (G3 _ _ eq_refl)]|reflexivity|discriminate|exact Hr].
    - injection Hr as <- <-. exists (Exc e), body. split; [|reflexivity]. eapply gets_trans; [exact G2|]. eapply gets_trans; [apply (G3 _ _ eq_refl)|].
      eapply gets_go; [reflexivity|discriminate]. }
  destruct HG as (x & t & HG & Hx). destruct (HG (g_start hash I m ops s)) as (g' & [n En] & E1 & E2 & E3); [repeat split|].
  exists n. cbv zeta. rewrite En. split; [exact E2|]. rewrite E1. destruct x as [u|e]; [|exact Hx]. rewrite E3, Hx. apply at_end_outcome.
Qed.

(** ** Schedules by turns *)
Lemma guarded_play_rounds hash I fuel sched : forall g, rounds hash I fuel anyhow (List.length sched) g (guarded_play fuel sched g).
Proof.
  assert (H : forall g n g0, rounds hash I fuel anyhow n g0 g -> rounds hash I fuel anyhow (List.length sched + n) g0 (guarded_play fuel sched g)).
  { induction sched as [|i r IH]; intros g n g0 H; cbn [guarded_play List.length]; [exact H|]. cbn [plus]. rewrite plus_n_Sm. apply IH. constructor; [exact H|exact Logic.I]. }
  intro g. rewrite <- (Nat.add_0_r (List.length sched)). apply H. constructor.
Qed.
Fixpoint guarded_tidy (n fuel : nat) (f : stage -> bool) (sched : list nat) (g : gconfig) : bool :=
  match sched with
  | [] => true
  | i :: r => allowed n f (users g) i && guarded_tidy n fuel f r (guarded_turn fuel i g)
  end.
Lemma turn_other fuel i g j : j <> i -> procs (users (guarded_turn fuel i g)) j = procs (users g) j.
Proof.
  intro H. unfold guarded_turn. destruct (procs (users g) i).
  5:{ destruct (prog_step (todo g i) (shared (users g))) as [[p s]|]; [reflexivity|]. destruct (outcome (todo g i)); [apply go_other, H|reflexivity]. }
  all: cbn [users]; apply go_other, H.
Qed.
Lemma guarded_tidy_rounds hash I n fuel f R sched : enforces f R -> forall g, guarded_tidy n fuel f sched g = true -> (forall j, n <= j -> ~ entering (users g) j) ->
  rounds hash I fuel R (List.length sched) g (guarded_play fuel sched g).
Proof.
  intro HR. assert (H : forall g m g0, guarded_tidy n fuel f sched g = true -> (forall j, n <= j -> ~ entering (users g) j) ->
    rounds hash I fuel R m g0 g -> rounds hash I fuel R (List.length sched + m) g0 (guarded_play fuel sched g)).
  { induction sched as [|i r IH]; intros g m g0 HT HB HE; cbn [guarded_play List.length]; [exact HE|]. cbn [guarded_tidy] in HT.
    apply andb_prop in HT as [HT HT2]. destruct (allowed_ok n f R (users g) i HR HB HT) as [Hi Hr]. cbn [plus]. rewrite plus_n_Sm.
    apply IH; [exact HT2| |].
    - intros j Hj [p Hp]. rewrite turn_other in Hp by lia. apply (HB j Hj). now exists p.
    - constructor; [exact HE|exact Hr]. }
  intros g HT HB. rewrite <- (Nat.add_0_r (List.length sched)). apply H; auto. constructor.
Qed.
