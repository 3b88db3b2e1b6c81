(** Readers without a lock beside guarded operations. *)
From Coq Require Import Lia.
From Verif Require Export Crowd_Body Serial_Lemmas.

(** ** Programs that only look *)
Fixpoint looks {A} (p : prog A) : Prop :=
  match p with
  | Do o k => (forall s, snd (step o s) = s) /\ forall r, looks (k r)
  | _ => True
  end.
Lemma looks_ptry {A B} (p : prog A) (k : A -> prog B) h : looks p -> (forall a, looks (k a)) -> (forall e, looks (h e)) -> looks (ptry p k h).
Proof. intros H HK HH. induction p as [a|e| |C o f IH]; cbn in *; auto. destruct H as [H1 H2]. split; [exact H1|]. intro r. apply IH, H2. Qed.
Lemma looks_bind {A B} (p : prog A) (k : A -> prog B) : looks p -> (forall a, looks (k a)) -> looks (pbind p k).
Proof. intros H HK. apply looks_ptry; cbn; auto. Qed.
Lemma looks_res {A} (r : res A) : looks (of_res r).
Proof. destruct r; exact Logic.I. Qed.
Lemma looks_attach a : looks (shm_attach a).
Proof.
  unfold shm_attach. apply looks_bind; [split; [|intro; apply looks_res]|].
  - intro s. cbn [step]. destruct (names s a); reflexivity.
  - intro i. apply looks_bind; [split; [|intro; apply looks_res]|intro n].
    + intro s. cbn [step]. destruct (mem s i) as [[|? ?]|]; reflexivity.
    + exact Logic.I.
Qed.
Lemma looks_read h : looks (shm_read h).
Proof. unfold shm_read. split; [|intro; apply looks_res]. intro s. cbn [step]. destruct (mem s (hid h)); reflexivity. Qed.
Lemma looks_check hash x k : looks (check hash x k).
Proof.
  unfold check, check_raw, exists_block. apply looks_bind.
  - apply looks_ptry; [apply looks_attach|intro; exact Logic.I|intros []; exact Logic.I].
  - intros []; [|exact Logic.I]. apply looks_bind; [apply looks_attach|intro h]. apply looks_bind; [apply looks_read|intro; exact Logic.I].
Qed.
Lemma looks_keys x n : forall i, looks (keys_from x n i).
Proof.
  induction n as [|n IH]; intro i; cbn [keys_from]; [exact Logic.I|]. apply looks_bind.
  - apply looks_ptry; [apply looks_bind; [apply looks_attach|intro; apply looks_read]|intro; exact Logic.I|intros []; exact Logic.I].
  - intro o. apply looks_bind; [apply IH|intro; destruct o; exact Logic.I].
Qed.
Lemma looks_update x : looks (update x).
Proof.
  unfold update, update_length. apply looks_bind; [apply looks_bind; [apply looks_read|intro; exact Logic.I]|intro; apply looks_keys].
Qed.
Lemma looks_visits hash I m h : only_looks h -> looks (visits_prog hash I m h).
Proof.
  induction 1 as [|v h Hv _ IH]; cbn [visits_prog]; [exact Logic.I|]. apply looks_bind; [|intro; apply looks_bind; [exact IH|intro; exact Logic.I]].
  unfold visit_prog. destruct (v_op v); try contradiction; apply looks_bind; try (intro; exact Logic.I); [apply looks_check|apply looks_update].
Qed.

Lemma looks_turn {A} (ps : list (prog A)) j s ps' s' : Forall looks ps -> turn ps j s = (ps', s') -> s' = s /\ Forall looks ps'.
Proof.
  intros HL. unfold turn. destruct (nth_error ps j) as [p|] eqn:Ej; [|intros [= <- <-]; auto].
  destruct p as [a|e| |B o k]; cbn [prog_step]; try (intros [= <- <-]; auto).
  rewrite (list_split _ _ _ Ej) in HL. apply Forall_app in HL. destruct HL as [H1 H2]. inversion H2 as [|? ? Hx H3]; subst. cbn [looks] in Hx. destruct Hx as [Ho Hk].
  specialize (Ho s). destruct (step o s) as [r s2]. cbn [snd] in Ho. subst s2. intros [= <- <-]. split; [reflexivity|].
  apply Forall_app. split; [exact H1|]. constructor; auto.
Qed.
Lemma same_config g : mkG (mkConfig (procs (users g)) (shared (users g)) (served (users g))) (todo g) (order g) = g.
Proof. destruct g as [[? ? ?] ? ?]. reflexivity. Qed.

(** To the lock users the readers are not there. *)
Lemma watched_rounds {A} hash I fuel R n g0 (ps0 : list (prog A)) g ps : Forall looks ps0 -> watched hash I fuel R n g0 ps0 g ps ->
  Forall looks ps /\ exists n', n' <= n /\ rounds hash I fuel R n' g0 g.
Proof.
  intros HL. induction 1 as [g0 ps0|n g0 ps0 g ps i HE IH HU|n g0 ps0 g ps s HE IH W Hs|n g0 ps0 g ps j ps' s HE IH Ht].
  - split; [exact HL|]. exists 0. split; [lia|constructor].
  - destruct (IH HL) as (H1 & n' & L & HR). split; [exact H1|]. exists (S n'). split; [lia|]. now constructor.
  - destruct (IH HL) as (H1 & n' & L & HR). split; [exact H1|]. exists (S n'). split; [lia|]. now constructor.
  - destruct (IH HL) as (H1 & n' & L & HR). destruct (looks_turn _ _ _ _ _ H1 Ht) as [-> H2]. split; [exact H2|]. exists n'. split; [lia|].
    now rewrite same_config.
Qed.

(** ** The readers' own time *)
Section OnLine.
  Context {A : Type} (ps0 : list (prog A)).
  Inductive reads_on (t : nat -> store) : nat -> list (prog A) -> Prop :=
  | on_start : reads_on t 0 ps0
  | on_wait n ps : reads_on t n ps -> reads_on t (S n) ps
  | on_turn n ps j ps' s : reads_on t n ps -> turn ps j (t n) = (ps', s) -> reads_on t n ps'.
  Lemma reads_on_ext t t' n ps : reads_on t n ps -> (forall k, k <= n -> t k = t' k) -> reads_on t' n ps.
  Proof.
    induction 1 as [|n ps Hp IH|n ps j ps' s Hp IH Ht]; intro E; [constructor|constructor; auto|].
    eapply on_turn; [apply IH, E|]. rewrite <- (E n (le_n n)). exact Ht.
  Qed.
  Lemma reads_on_later t n ps n' : reads_on t n ps -> n <= n' -> reads_on t n' ps.
  Proof. intros Hr L. induction L; [exact Hr|]. now constructor. Qed.

  Lemma live_on t (Qs : list (res A -> Prop)) n ps : Forall2 (fun p Q => live t p 0 (fun o _ => Q o)) ps0 Qs -> reads_on t n ps ->
    Forall2 (fun (p : prog A) (Q : res A -> Prop) => live t p n (fun o _ => Q o)) ps Qs.
  Proof.
    intros H0. induction 1 as [|n ps Hp IH|n ps j ps' s Hp IH Ht]; [exact H0| |].
    - clear - IH. induction IH; constructor; auto. eapply live_later; [| |eassumption]; [lia|auto].
    - unfold turn in Ht. destruct (nth_error ps j) as [p|] eqn:Ei; [|injection Ht as <- <-; exact IH].
      destruct p as [a|e| |B o k]; cbn [prog_step] in Ht; try (injection Ht as <- <-; exact IH).
      rewrite (list_split _ _ _ Ei) in IH. apply Forall2_app_inv_l in IH. destruct IH as (Q1 & Q2 & F1 & F2 & ->).
      inversion F2 as [|? Q ? Q3 Hl F3]; subst. cbn [live] in Hl. destruct (Hl n (le_n n)) as [H1 H2].
      destruct (step o (t n)) as [r s']. injection Ht as <- <-. apply Forall2_app; [exact F1|]. constructor; [exact H2|exact F3].
  Qed.
End OnLine.

(** ** The phases of the lock users *)
Lemma exists_dec_in c l : (exists j, In j l /\ inside c j) \/ (forall j, In j l -> ~ inside c j).
Proof.
  induction l as [|x l [(j & Hj & Hi)|IH]]; [right; intros j []|left; exists j; split; [now right|exact Hi]|].
  destruct (procs c x) as [p|y|p|p|y|p r|r] eqn:Ex.
  5:{ left. exists x. split; [now left|]. now exists y. }
  all: right; intros j [<-|Hj]; [intros [z Hz]; congruence|now apply IH].
Qed.
Lemma exists_last_or {A} (l : list A) : l = [] \/ exists r z, l = r ++ [z].
Proof. destruct l as [|x l]; [now left|]. right. destruct (exists_last (l := x :: l)) as (r & z & E); [discriminate|]. eauto. Qed.
Lemma keys_prefix ks ops l1 l2 : none_removes ops -> exists r, keys_by ks ops (l1 ++ l2) = keys_by ks ops l1 ++ r.
Proof.
  intro HN. unfold keys_by. rewrite map_app, tags_run_app. apply tags_grow. apply Forall_forall. intros o Ho. apply in_map_iff in Ho.
  destruct Ho as (i & <- & _). apply HN.
Qed.
Lemma keys_good (K : string -> Prop) ks ops l : (forall i k, op_key (ops i) = Some k -> plain_key K k) -> none_removes ops ->
  NoDup ks /\ Forall K ks /\ Forall (fun k => k <> "") ks ->
  NoDup (keys_by ks ops l) /\ Forall K (keys_by ks ops l) /\ Forall (fun k => k <> "") (keys_by ks ops l).
Proof.
  intros HO HN H0. induction l as [|i l IH] using rev_ind; [exact H0|]. rewrite keys_by_snoc. specialize (HN i). specialize (HO i).
  destruct (ops i) as [k ok|k|k|]; cbn [tags_step snd]; try contradiction; try exact IH.
  destruct (position (ktext k) (keys_by ks ops l)) eqn:Ep; cbn [snd]; [exact IH|]. apply position_none in Ep.
  destruct (HO k eq_refl) as (Hne & _ & HK). destruct IH as (I1 & I2 & I3). split; [apply nodup_snoc; auto|].
  split; apply Forall_app; auto.
Qed.

Section Phase.
  Variable hash : bytes -> string.
  Variable K : string -> Prop.
  Hypothesis hash_inj : collision_free hash K.
  Variable I : string.
  Variable m : N.
  Notation H := {| hname := I; hid := m |}.
  Notation RepN := (RepN hash K I m).
  Notation Rep ks s := (RepN (List.length ks) ks s).
  Notation N := (rep_names hash I).
  Variable fuel : nat.
  Variable ch : BinNums.N.
  Variable k0 : Z.
  Variable ops : nat -> iop.
  Hypothesis ops_plain : forall i k, op_key (ops i) = Some k -> plain_key K k.
  Hypothesis ops_add : none_removes ops.
  Variable ks0 : list string.
  Notation keys l := (keys_by ks0 ops l).
  Notation SI := (SI hash K I m fuel ch k0 ops ks0).
  Variable ord : list nat.
  Notation F := (keys ord).
  Hypothesis F_nodup : NoDup F.
  Hypothesis F_K : Forall K F.
  Hypothesis F_len : (Z.of_nat (List.length F) < 256 ^ Z.of_nat 8)%Z.
  Notation Inv := (Live_Proofs.Inv hash I m F).
  Notation keeps := (keeps hash I).
  Notation wtrail := (wtrail N Inv keeps).

  Record LI (p : nat) (g : gconfig) : Prop := mkLI {
    li_inv : Inv p (shared (users g));
    li_free : (forall i, ~ inside (users g) i) -> p = 7 * List.length (keys (order g));
    li_low : forall i l, inside (users g) i -> order g = l ++ [i] -> 7 * List.length (keys l) <= p;
    li_held : forall i, inside (users g) i ->
      wtrail (todo g i) p (shared (users g)) (fun _ p' _ => p' = 7 * List.length (keys (order g))) }.
  Notation early g := (exists r, ord = order g ++ r).

  Lemma keeps_others s s' : others N s s' -> keeps s s'.
  Proof. intros [_ Hs] a i Ha Hn. now rewrite (same_names _ _ _ (Hs a Ha)). Qed.
  Lemma wt_held_others p x s s' (n : nat) : wtrail p x s (fun (_ : res iout) p' _ => p' = n) -> others N s s' -> wtrail p x s' (fun _ p' _ => p' = n).
  Proof. apply wt_others; [apply inv_others|auto]. Qed.

  Lemma LI_env p g s : LI p g -> wf s -> (forall a, index_names hash I a -> same_at (shared (users g)) s a) ->
    LI p (mkG (mkConfig (procs (users g)) s (served (users g))) (todo g) (order g)) /\ keeps (shared (users g)) s.
  Proof.
    intros [H1 H2 HW H3] W Hs.
    assert (Ho : others N (shared (users g)) s).
    { split; [exact W|]. intros a Ha. apply Hs. unfold index_names. unfold rep_names in Ha. tauto. }
    split; [|now apply keeps_others]. constructor; cbn [users todo order shared procs].
    - eapply inv_others; eauto.
    - exact H2.
    - exact HW.
    - intros i Hi. eapply wt_held_others; eauto.
  Qed.

  Lemma LI_turn n p g i : SI n g -> LI p g -> orderly I (users g) i -> (k0 + Z.of_nat n < 256 ^ 5)%Z ->
    (Z.of_nat (List.length ks0) < 256 ^ 5)%Z -> early (guarded_turn fuel i g) ->
    exists p', p <= p' /\ LI p' (guarded_turn fuel i g) /\ keeps (shared (users g)) (shared (users (guarded_turn fuel i g))).
  Proof.
    intros S0 [L1 L2 LW L3] HU Hb Hlen Hord.
    pose proof (SI_turn hash K hash_inj I m fuel ch k0 ops ops_plain ks0 n g i S0 HU Hb Hlen) as S1.
    pose proof (si_lock _ _ _ _ _ _ _ _ _ _ _ S0) as H1.
    pose proof (si_lock _ _ _ _ _ _ _ _ _ _ _ S1) as H1'.
    pose proof (go_lock I fuel ch k0 n (users g) i H1 Hb) as Ol.
    unfold guarded_turn in *.
    assert (Outer : ~ inside (users g) i ->
      SI (asks (users g) i + n) (mkG (go fuel i (users g)) (todo g) (match procs (go fuel i (users g)) i with Inside _ => order g ++ [i] | _ => order g end)) ->
      early (mkG (go fuel i (users g)) (todo g) (match procs (go fuel i (users g)) i with Inside _ => order g ++ [i] | _ => order g end)) ->
      exists p', p <= p' /\ LI p' (mkG (go fuel i (users g)) (todo g) (match procs (go fuel i (users g)) i with Inside _ => order g ++ [i] | _ => order g end)) /\
        keeps (shared (users g)) (shared (go fuel i (users g)))).
    { clear S1 Hord H1'. intros Hni S1 Hord. pose proof (si_lock _ _ _ _ _ _ _ _ _ _ _ S1) as H1'. cbn [users] in H1'.
      assert (Ho : others N (shared (users g)) (shared (go fuel i (users g)))) by (apply lock_others; [eapply Inv_wf; eauto|exact Ol]).
      pose proof (keeps_others _ _ Ho) as Kp. pose proof (inv_others hash I m F _ _ _ L1 Ho) as V'.
      set (c := go fuel i (users g)) in *.
      assert (Cases : (exists l, procs c i = Inside l) \/ (forall l, procs c i <> Inside l)).
      { destruct (procs c i); try (right; discriminate). left. eauto. }
      destruct Cases as [[l El]|Hn].
      - rewrite El in *. assert (Hic : inside c i) by (exists l; exact El).
        assert (Hno : forall j, ~ inside (users g) j).
        { intros j [lj Hj]. assert (Hji : j <> i) by (intros ->; apply Hni; exists lj; exact Hj).
          apply Hji, (Inv_mutex I fuel ch k0 (asks (users g) i + n) c); [exact H1'|exists lj; unfold c; now rewrite go_other|exact Hic]. }
        assert (Hin : ~ In i (order g)).
        { pose proof (si_nodup _ _ _ _ _ _ _ _ _ _ _ S1) as Hd. cbn [order] in Hd. apply nodup_snoc in Hd. apply Hd. }
        exists p. split; [lia|]. split; [|exact Kp]. constructor; cbn [users todo order]; [exact V'|intro Hall; destruct (Hall i Hic)| |].
        { intros j l0 _ El0. apply app_inj_tail in El0. destruct El0 as [<- _]. rewrite (L2 Hno). lia. }
        intros j Hj. assert (j = i) by (apply (Inv_mutex I fuel ch k0 (asks (users g) i + n) c); [exact H1'|exact Hj|exact Hic]). subst j.
        rewrite (si_todo _ _ _ _ _ _ _ _ _ _ _ S0 i Hin), (L2 Hno), keys_by_snoc.
        destruct Hord as [r Hr]. cbn [order] in Hr. destruct (keys_prefix ks0 ops (order g ++ [i]) r ops_add) as [r' Er].
        eapply wt_guarded; eauto.
        + eapply Inv_wf; eauto.
        + eapply rep_others; [apply (si_free _ _ _ _ _ _ _ _ _ _ _ S0 Hno)|exact Ho].
        + apply ops_add.
        + rewrite <- keys_by_snoc, <- Er, <- Hr. reflexivity.
      - replace (match procs c i with Inside _ => order g ++ [i] | _ => order g end) with (order g) in *.
        2:{ destruct (procs c i) eqn:Ec; try reflexivity. destruct (Hn _ eq_refl). }
        assert (Hsame : forall j, inside c j <-> inside (users g) j).
        { intro j. destruct (Nat.eq_dec j i) as [->|Hji]; [|unfold inside, c; now rewrite go_other].
          split; [intros [l' Hl]; destruct (Hn _ Hl)|intro Hx; destruct (Hni Hx)]. }
        exists p. split; [lia|]. split; [|exact Kp]. constructor; cbn [users todo order]; [exact V'| | |].
        + intro Hall. apply L2. intro j. rewrite <- Hsame. apply Hall.
        + intros j l0 Hj. rewrite Hsame in Hj. now apply LW.
        + intros j Hj. rewrite Hsame in Hj. eapply wt_held_others; eauto. }
    destruct (procs (users g) i) as [q|l|q|q|l|q r|r] eqn:Ei.
    5:{ clear Outer. assert (Hi : inside (users g) i) by (exists l; exact Ei). pose proof (L3 i Hi) as Hw.
      destruct (todo g i) as [out|e| |B o k] eqn:Et; cbn [prog_step outcome] in *.
      - cbn [Crowd_Core.wtrail] in Hw. destruct Hw as (_ & Ep).
        assert (Es : stage_step fuel (procs (users g) i) (shared (users g)) = Some (Leaving (release l) (Ok tt), shared (users g), None)) by (rewrite Ei; reflexivity).
        assert (Hout : forall j, ~ inside (go fuel i (users g)) j).
        { intros j [l' Hj]. destruct (Nat.eq_dec j i) as [->|Hji].
          - rewrite go_stage, Es in Hj. discriminate.
          - rewrite go_other in Hj by exact Hji. apply Hji, (Inv_mutex I fuel ch k0 n (users g)); [exact H1|exists l'; exact Hj|exact Hi]. }
        cbn [users]. rewrite go_shared, Es. exists p. split; [lia|]. split; [|apply keeps_refl].
        constructor; cbn [users todo order]; [rewrite go_shared, Es; exact L1|intros _; exact Ep|intros j l0 Hj; destruct (Hout j Hj)|intros j Hj; destruct (Hout j Hj)].
      - destruct (si_held _ _ _ _ _ _ _ _ _ _ _ S0 i Hi) as (q & _ & Hx). rewrite Et in Hx. destruct Hx.
      - destruct Hw as [_ []].
      - cbn [Crowd_Core.wtrail] in Hw. destruct Hw as [_ Hw]. assert (W : wf (shared (users g))) by (eapply Inv_wf; eauto).
        destruct (Hw (shared (users g)) (conj W (fun a _ => same_refl _ a))) as (p' & Lp & Kp & Hw').
        destruct (step o (shared (users g))) as [r s2] eqn:Es. cbn [fst snd users shared] in *.
        exists p'. split; [exact Lp|]. split; [|exact Kp]. constructor; cbn [users todo order shared procs].
        + eapply wtrail_inv; eauto.
        + intro Hn. destruct (Hn i). exact Hi.
        + intros j l0 Hj El0. specialize (LW j l0 Hj El0). lia.
        + intros j Hj. assert (j = i) by (apply (Inv_mutex I fuel ch k0 n (users g)); [exact H1|exact Hj|exact Hi]). subst j. rewrite todo_same. exact Hw'. }
    all: apply Outer; [intros [lx Hx]; congruence|exact S1|exact Hord].
  Qed.
End Phase.

(** ** The whole *)
Lemma turn_order fuel i g : exists r, order (guarded_turn fuel i g) = order g ++ r.
Proof.
  unfold guarded_turn. destruct (procs (users g) i); try (cbn [order]; destruct (procs (go fuel i (users g)) i); eauto using app_nil_r; exists []; now rewrite app_nil_r).
  destruct (prog_step (todo g i) (shared (users g))) as [[p s]|]; [|destruct (outcome (todo g i))]; exists []; now rewrite app_nil_r.
Qed.

Lemma rounds_app hash I fuel R n1 g0 g1 : rounds hash I fuel R n1 g0 g1 ->
  forall n2 g2, rounds hash I fuel R n2 g1 g2 -> rounds hash I fuel R (n2 + n1) g0 g2.
Proof. intros H1 n2 g2 H2. induction H2; cbn [plus]; [exact H1|constructor; auto|constructor; auto]. Qed.
Lemma rounds_watched {A} hash I fuel R n g0 g (ps : list (prog A)) : rounds hash I fuel R n g0 g -> watched hash I fuel R n g0 ps g ps.
Proof. induction 1; constructor; auto. Qed.
Lemma keys_after_length h : List.length (keys_after h) <= List.length h.
Proof. unfold keys_after. pose proof (tags_run_length (map v_op h) []) as X. now rewrite map_length in X. Qed.

Section Line.
  Variable hash : bytes -> string.
  Variable K : string -> Prop.
  Variable I : string.
  Variable h0 : list visit.
  Variable i : N.
  Variable s : store.
  Variable k : Z.
  Variable ops : nat -> iop.
  Variable fuel : nat.
  Hypothesis HR : reached hash K I h0 (mkHandle I i) s.
  Hypothesis HF : lock_used I k s.
  Hypothesis HO : forall i key, op_key (ops i) = Some key -> plain_key K key.
  Hypothesis HN : none_removes ops.
  Variable ord : list nat.
  Notation ks0 := (keys_after h0).
  Notation F := (keys_by ks0 ops ord).
  Hypothesis Fd : NoDup F.
  Hypothesis FK : Forall K F.
  Hypothesis FL : (Z.of_nat (List.length F) < 256 ^ Z.of_nat 8)%Z.
  Notation start := (g_start hash I (mkHandle I i) ops s).
  Notation LI := (LI hash I i ops ks0 ord).

  Lemma crowd_line n1 g1 p1 n (ps0 : list (prog (list iout))) g ps :
    rounds hash I fuel (orderly I) n1 start g1 -> LI p1 g1 ->
    (k + Z.of_nat (n + n1) < 256 ^ 5)%Z -> (Z.of_nat (List.length h0 + (n + n1)) + 8 < 256 ^ 5)%Z ->
    Forall looks ps0 -> watched hash I fuel (orderly I) n g1 ps0 g ps -> (exists r, ord = order g ++ r) ->
    exists T t f, (forall j, Inv hash I i F (f j) (t j)) /\ (forall j j', j <= j' -> f j <= f j' /\ keeps hash I (t j) (t j')) /\
      f 0 = p1 /\ t T = shared (users g) /\ LI (f T) g /\ reads_on ps0 t T ps.
  Proof.
    intros HR1 LI1 Hb Hl HL HW. pose proof HR as (HC & _). pose proof (keys_after_length h0) as Hk.
    (* one more store at the end of the line *)
    assert (More : forall T t f p' s' (qs0 qs : list (prog (list iout))), (forall j, Inv hash I i F (f j) (t j)) -> (forall j j', j <= j' -> f j <= f j' /\ keeps hash I (t j) (t j')) ->
      reads_on qs0 t T qs -> Inv hash I i F p' s' -> f T <= p' -> keeps hash I (t T) s' ->
      exists t' f', (forall j, Inv hash I i F (f' j) (t' j)) /\ (forall j j', j <= j' -> f' j <= f' j' /\ keeps hash I (t' j) (t' j')) /\
        f' 0 = f 0 /\ t' (S T) = s' /\ f' (S T) = p' /\ reads_on qs0 t' (S T) qs).
    { intros T t f p' s' qs0 qs A1 A2 A6 V' Lp Kp.
      exists (fun x => if Nat.leb x T then t x else s'), (fun x => if Nat.leb x T then f x else p').
      split; [|split; [|split; [|split; [|split]]]].
      + intro x. destruct (Nat.leb x T); [apply A1|exact V'].
      + intros x y Hxy. destruct (Nat.leb_spec x T) as [X|X], (Nat.leb_spec y T) as [Y|Y]; [now apply A2| |lia|split; [lia|apply keeps_refl]].
        destruct (A2 x T X) as [B1 B2]. split; [lia|]. eapply keeps_trans; [exact B2|]. exact Kp.
      + reflexivity.
      + replace (Nat.leb (S T) T) with false by (symmetry; apply Nat.leb_gt; lia). reflexivity.
      + replace (Nat.leb (S T) T) with false by (symmetry; apply Nat.leb_gt; lia). reflexivity.
      + constructor. eapply reads_on_ext; [exact A6|]. intros x Hx. now rewrite (proj2 (Nat.leb_le x T) Hx). }
    induction HW as [g0 ps0|n g0 ps0 g ps j HE IH HU|n g0 ps0 g ps s' HE IH W' Hs|n g0 ps0 g ps j ps' s' HE IH Ht]; intros [r Hr].
    - exists 0, (fun _ => shared (users g0)), (fun _ => p1).
      split; [intros _; apply LI1|]. split; [intros; split; [lia|apply keeps_refl]|]. split; [reflexivity|]. split; [reflexivity|]. split; [exact LI1|constructor].
    - destruct (turn_order fuel j g) as [r1 E1]. rewrite E1, <- app_assoc in Hr.
      destruct IH as (T & t & f & A1 & A2 & A3 & A4 & A5 & A6); eauto; [lia|lia|].
      destruct (watched_rounds _ _ _ _ _ _ _ _ _ HL HE) as (_ & n' & Ln & HRo).
      pose proof (rounds_app _ _ _ _ _ _ _ HR1 _ _ HRo) as HRa.
      destruct (rounds_SI hash K I h0 (mkHandle I i) s k ops fuel (n' + n1) g HR HF HO ltac:(lia) ltac:(lia) HRa) as (i' & ch & Ei & HS & _). injection Ei as <-.
      destruct (LI_turn hash K HC I i fuel ch k ops HO HN ks0 ord Fd FK FL (n' + n1) (f T) g j HS A5 HU ltac:(lia) ltac:(lia)) as (p' & Lp & HL' & Kp).
      { exists r. rewrite E1, <- app_assoc. exact Hr. }
      rewrite <- A4 in Kp.
      destruct (More T t f p' _ _ _ A1 A2 A6 (li_inv _ _ _ _ _ _ _ _ HL') Lp Kp) as (t' & f' & B1 & B2 & B3 & B4 & B5 & B6).
      exists (S T), t', f'. rewrite B5, B3. auto 10.
    - cbn [order] in Hr. destruct IH as (T & t & f & A1 & A2 & A3 & A4 & A5 & A6); eauto; [lia|lia|].
      destruct (LI_env hash I i ops ks0 ord (f T) g s' A5 W' Hs) as [HL' Kp]. rewrite <- A4 in Kp.
      destruct (More T t f (f T) _ _ _ A1 A2 A6 (li_inv _ _ _ _ _ _ _ _ HL') (le_n _) Kp) as (t' & f' & B1 & B2 & B3 & B4 & B5 & B6).
      exists (S T), t', f'. rewrite B5, B3. auto 10.
    - cbn [order] in Hr. destruct IH as (T & t & f & A1 & A2 & A3 & A4 & A5 & A6); eauto; [lia|lia|].
      destruct (watched_rounds _ _ _ _ _ _ _ _ _ HL HE) as (HLp & _).
      destruct (looks_turn _ _ _ _ _ HLp Ht) as [-> _]. rewrite same_config.
      exists T, t, f. split; [exact A1|]. split; [exact A2|]. split; [exact A3|]. split; [exact A4|]. split; [exact A5|].
      eapply on_turn; [exact A6|]. rewrite A4. exact Ht.
  Qed.

  Lemma LI_start : LI (7 * List.length ks0) start.
  Proof.
    pose proof HR as (HC & _). destruct (reached_fresh _ _ _ _ _ _ HR) as (i' & c & Ei & W & R & _). injection Ei as <-.
    destruct (keys_prefix ks0 ops [] ord HN) as [r' Er]. cbn [app] in Er. change (keys_by ks0 ops []) with ks0 in Er.
    pose proof (inv_rep hash K HC I i F Fd FK FL _ _ s W R Er) as V.
    constructor; cbn [g_start users at_start shared order todo procs].
    - exact V.
    - reflexivity.
    - intros j l [x Hj]. discriminate Hj.
    - intros j [l Hj]. discriminate Hj.
  Qed.

  (** What is known when readers start: the keys of those who are through. *)
  Lemma LI_settled n1 g1 p1 l : rounds hash I fuel (orderly I) n1 start g1 -> (k + Z.of_nat n1 < 256 ^ 5)%Z -> (Z.of_nat (List.length h0 + n1) + 8 < 256 ^ 5)%Z ->
    LI p1 g1 -> through g1 l -> 7 * List.length (keys_by ks0 ops l) <= p1.
  Proof.
    intros HR1 Hb Hl [V L2 LW _] ([r Er] & Hi).
    destruct (rounds_SI hash K I h0 (mkHandle I i) s k ops fuel _ g1 HR HF HO Hb Hl HR1) as (i' & ch & Ei & HS & _). injection Ei as <-.
    assert (Sub : forall l1 l2, List.length (keys_by ks0 ops l1) <= List.length (keys_by ks0 ops (l1 ++ l2))).
    { intros l1 l2. destruct (keys_prefix ks0 ops l1 l2 HN) as [q ->]. rewrite app_length. lia. }
    assert (Cases : (exists j, inside (users g1) j) \/ (forall j, ~ inside (users g1) j)).
    { destruct (exists_dec_in (users g1) (order g1)) as [(j & _ & Hj)|Hn]; [left; eauto|]. right. intros j Hj. apply (Hn j); [|exact Hj].
      apply (si_past _ _ _ _ _ _ _ _ _ _ _ HS). destruct Hj as [x Hj]. rewrite Hj. exact Logic.I. }
    destruct Cases as [[j Hj]|Hn].
    - destruct (si_held _ _ _ _ _ _ _ _ _ _ _ HS j Hj) as (q & Eq & _). specialize (LW j q Hj Eq). rewrite Eq in Er.
      destruct (exists_last_or r) as [->|(r' & z & ->)].
      + exfalso. rewrite app_nil_r in Er. subst l. apply (Hi j); [apply in_or_app; right; now left|exact Hj].
      + rewrite app_assoc in Er. apply app_inj_tail in Er. destruct Er as [-> _]. specialize (Sub l r'). lia.
    - rewrite (L2 Hn), Er. specialize (Sub l r). lia.
  Qed.
End Line.

Lemma crowd hash K I h0 m s k ops fuel n1 g1 l n rs g ps :
  reached hash K I h0 m s -> lock_used I k s -> (forall i key, op_key (ops i) = Some key -> plain_key K key) -> none_removes ops ->
  (k + Z.of_nat (n + n1) < 256 ^ 5)%Z -> (Z.of_nat (List.length h0 + (n + n1)) + 8 < 256 ^ 5)%Z ->
  rounds hash I fuel (orderly I) n1 (g_start hash I m ops s) g1 -> through g1 l ->
  Forall (fun r => only_looks r /\ Forall (plain_visit K) r) rs ->
  watched hash I fuel (orderly I) n g1 (map (visits_prog hash I m) rs) g ps ->
  let keys l := keys_by (keys_after h0) ops l in
  Forall2 (fun r p => forall o, outcome p = Some o ->
     match o with
     | Ok outs => reads (keys (order g)) (List.length (keys l)) (map v_op r) outs
     | Exc e => e = ValueError /\ keys l <> keys (order g)
     end) rs ps.
Proof.
  intros HR HF HO HN Hb Hl HR1 Hth Frs HW keys. pose proof HR as (HC & _).
  destruct (reached_fresh _ _ _ _ _ _ HR) as (i & c & -> & W & R & _). set (F := keys (order g)).
  assert (HL : Forall looks (map (visits_prog hash I (mkHandle I i)) rs)).
  { clear - Frs. induction Frs as [|r rs [Ho _] _ IH]; constructor; [now apply looks_visits|exact IH]. }
  destruct (keys_good K (keys_after h0) ops (order g) HO HN) as (Fd & FK & Fe).
  { split; [eapply rep_nodup; eauto|]. split; [eapply rep_K; eauto|eapply rep_ne; eauto]. }
  destruct (watched_rounds _ _ _ _ _ _ _ _ _ HL HW) as (_ & n' & Ln & HRo).
  pose proof (rounds_app _ _ _ _ _ _ _ HR1 _ _ HRo) as HRa.
  destruct (rounds_SI hash K I h0 (mkHandle I i) s k ops fuel (n' + n1) g HR HF HO ltac:(lia) ltac:(lia) HRa) as (i' & ch & Ei & HS & _). injection Ei as <-.
  assert (FL : (Z.of_nat (List.length F) < 256 ^ Z.of_nat 8)%Z).
  { pose proof (keys_by_length (keys_after h0) ops (order g)) as X. fold F in X. pose proof (si_served _ _ _ _ _ _ _ _ _ _ _ HS) as Y.
    pose proof (Inv_short _ _ _ _ _ _ (si_lock _ _ _ _ _ _ _ _ _ _ _ HS)) as Z. pose proof (keys_after_length h0).
    rewrite pow8. change (256 ^ 5)%Z with 1099511627776%Z in *. unfold F, keys. lia. }
  destruct (order_grows _ _ _ _ _ _ _ HRo) as [q Eq].
  destruct (crowd_line hash K I h0 i s k ops fuel HR HF HO HN (order g) Fd FK FL 0 _ _ n1 [] g1 [] (rounds_none hash I fuel (orderly I) (g_start hash I (mkHandle I i) ops s))
    (LI_start hash K I h0 i s ops HR HN (order g) Fd FK FL) ltac:(lia) ltac:(lia) ltac:(constructor) (rounds_watched _ _ _ _ _ _ _ _ HR1)) as (T1 & t1 & f1 & _ & _ & _ & _ & LI1 & _); [eauto|].
  destruct (crowd_line hash K I h0 i s k ops fuel HR HF HO HN (order g) Fd FK FL n1 g1 _ n _ g ps HR1 LI1 Hb Hl HL HW) as (T & t & f & A1 & A2 & A3 & _ & _ & A6).
  { exists []. now rewrite app_nil_r. }
  pose proof (LI_settled hash K I h0 i s k ops fuel HR HF HO HN (order g) FL n1 g1 _ l HR1 ltac:(lia) ltac:(lia) LI1 Hth) as Lo.
  set (post := fun (r : list visit) (o : res (list iout)) =>
     match o with Ok outs => reads F (List.length (keys l)) (map v_op r) outs | Exc e => e = ValueError /\ keys l <> F end).
  assert (Ls : Forall2 (fun p Q => live t p 0 (fun o _ => Q o)) (map (visits_prog hash I (mkHandle I i)) rs) (map post rs)).
  { change (keys_by (keys_after h0) ops (order g)) with F in *. change (keys_by (keys_after h0) ops l) with (keys l) in Lo.
    clear - Frs HC Fd FK Fe FL A1 A2 A3 Lo. induction Frs as [|r rs [Ho Hp] _ IH]; cbn [map]; constructor; [|exact IH].
    eapply live_mono; [|apply (live_visits hash K HC I i F FK Fe FL t f A1 A2 r Ho Hp (List.length (keys l)) 0)]; [|cbv beta; lia].
    cbv beta. intros [outs|e] n' _ Hr; cbn [post]; [exact Hr|]. destruct Hr as [-> (n2 & L1)]. split; [reflexivity|].
    intro E. pose proof (proj1 (A2 0 n2 ltac:(lia))) as M. rewrite <- E in L1. lia. }
  pose proof (live_on _ t (map post rs) T ps Ls A6) as F2. apply Forall2_map_r, Forall2_swap in F2.
  clear - F2. induction F2 as [|r p rs ps Hp F2 IH]; constructor; [|exact IH].
  intros o. destruct p; cbn in *; try discriminate; intros [= <-]; exact Hp.
Qed.

(** The lock users get what they would get without readers. *)
Lemma crowd_writers hash K I h0 m s k ops fuel n rs g ps :
  reached hash K I h0 m s -> lock_used I k s -> (forall i key, op_key (ops i) = Some key -> plain_key K key) ->
  (k + Z.of_nat n < 256 ^ 5)%Z -> (Z.of_nat (List.length h0 + n) + 8 < 256 ^ 5)%Z ->
  Forall only_looks rs ->
  watched hash I fuel (orderly I) n (g_start hash I m ops s) (map (visits_prog hash I m) rs) g ps ->
  let keys l := keys_by (keys_after h0) ops l in
  NoDup (order g) /\ (forall i, In i (order g) <-> past_entry (users g) i) /\
  (forall l i r, order g = l ++ i :: r -> ~ inside (users g) i ->
     outcome (todo g i) = Some (Ok (fst (tags_step (keys l) (ops i))))) /\
  ((forall i, ~ inside (users g) i) -> shows hash K I m (shared (users g)) (keys (order g))) /\
  ((forall i, finished (users g) i \/ not_begun I (users g) i) ->
     free_lock I (k + Z.of_nat (List.length (order g))) (shared (users g))).
Proof.
  intros HR HF HO Hb Hl Frs HW.
  assert (HL : Forall looks (map (visits_prog hash I m) rs)) by (clear - Frs; induction Frs; constructor; [now apply looks_visits|assumption]).
  destruct (watched_rounds _ _ _ _ _ _ _ _ _ HL HW) as (_ & n' & Ln & HRo).
  apply (serial hash K I h0 m s k ops fuel n'); auto; lia.
Qed.

(** ** Schedules *)
Fixpoint crowd_play {A} (fuel : nat) (sched : list (nat + nat)) (g : gconfig) (ps : list (prog A)) : gconfig * list (prog A) :=
  match sched with
  | [] => (g, ps)
  | inl i :: r => crowd_play fuel r (guarded_turn fuel i g) ps
  | inr j :: r =>
      let '(ps', s) := turn ps j (shared (users g)) in
      crowd_play fuel r (mkG (mkConfig (procs (users g)) s (served (users g))) (todo g) (order g)) ps'
  end.
Fixpoint crowd_tidy {A} (n fuel : nat) (f : stage -> bool) (sched : list (nat + nat)) (g : gconfig) (ps : list (prog A)) : bool :=
  match sched with
  | [] => true
  | inl i :: r => allowed n f (users g) i && crowd_tidy n fuel f r (guarded_turn fuel i g) ps
  | inr j :: r =>
      let '(ps', s) := turn ps j (shared (users g)) in
      crowd_tidy n fuel f r (mkG (mkConfig (procs (users g)) s (served (users g))) (todo g) (order g)) ps'
  end.
Lemma crowd_tidy_watched {A} hash I n fuel f R sched : enforces f R -> forall g (ps : list (prog A)), crowd_tidy n fuel f sched g ps = true ->
  (forall j, n <= j -> ~ entering (users g) j) ->
  watched hash I fuel R (List.length sched) g ps (fst (crowd_play fuel sched g ps)) (snd (crowd_play fuel sched g ps)).
Proof.
  intro HR. assert (H : forall g ps m g0 ps0, crowd_tidy n fuel f sched g ps = true -> (forall j, n <= j -> ~ entering (users g) j) ->
    @watched A hash I fuel R m g0 ps0 g ps -> watched hash I fuel R (List.length sched + m) g0 ps0 (fst (crowd_play fuel sched g ps)) (snd (crowd_play fuel sched g ps))).
  { induction sched as [|[i|j] r IH]; intros g ps m g0 ps0 HT HB HE; cbn [crowd_play List.length]; [exact HE| |]; cbn [crowd_tidy] in HT.
    - apply andb_prop in HT as [HT HT2]. destruct (allowed_ok n f R (users g) i HR HB HT) as [Hi Hr]. cbn [plus]. rewrite plus_n_Sm.
      apply IH; [exact HT2| |].
      + intros j Hj [p Hp]. rewrite turn_other in Hp by lia. apply (HB j Hj). now exists p.
      + constructor; [exact HE|exact Hr].
    - destruct (turn ps j (shared (users g))) as [ps' s] eqn:Et. cbn [plus]. rewrite plus_n_Sm. apply IH; [exact HT|exact HB|].
      eapply watched_read; eauto. }
  intros g ps HT HB. rewrite <- (Nat.add_0_r (List.length sched)). apply H; auto. constructor.
Qed.
