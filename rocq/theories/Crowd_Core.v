(** Programs on some shared memory names, while other processes use other
    names, with a phase that only grows: proof rules. *)
From Coq Require Import Lia.
From Verif Require Export Crowd_Spec Serial_Core.

Section WTrail.
  Variable N : string -> Prop.
  Variable Inv : nat -> store -> Prop.
  Variable keeps : store -> store -> Prop.
  Notation others := (others N).
  Notation st := (st N).
  Hypothesis keeps_refl : forall s, keeps s s.
  Hypothesis inv_others : forall g s s', Inv g s -> others s s' -> Inv g s'.
  Hypothesis keeps_set : forall s s' a, only_at (eq a) s s' -> (forall i, names s a = Some i -> names s' a = Some i) -> keeps s s'.

  Fixpoint wtrail {A} (p : prog A) (g : nat) (s : store) (Q : res A -> nat -> store -> Prop) : Prop :=
    Inv g s /\
    match p with
    | Ret a => Q (Ok a) g s
    | Raise e => Q (Exc e) g s
    | Stuck => False
    | Do o k => forall s1, others s s1 -> exists g', g <= g' /\ keeps s1 (snd (step o s1)) /\
        wtrail (k (fst (step o s1))) g' (snd (step o s1)) Q
    end.

  Lemma wtrail_inv {A} (p : prog A) g s Q : wtrail p g s Q -> Inv g s.
  Proof. destruct p; intros [H _]; exact H. Qed.
  Lemma wt_mono {A} (p : prog A) (Q Q' : res A -> nat -> store -> Prop) : (forall r g s, Q r g s -> Q' r g s) ->
    forall g s, wtrail p g s Q -> wtrail p g s Q'.
  Proof.
    intro HQ. induction p as [a|e| |C o f IH]; cbn; intros g s [V Hp]; split; auto.
    intros s1 H1. destruct (Hp s1 H1) as (g' & L & Kp & Hp'). eauto.
  Qed.
  Lemma wt_ptry {A B} (p : prog A) (k : A -> prog B) h Q : forall g s,
    wtrail p g s (fun r g' s' => match r with Ok a => wtrail (k a) g' s' Q | Exc e => wtrail (h e) g' s' Q end) ->
    wtrail (ptry p k h) g s Q.
  Proof.
    induction p as [a|e| |C o f IH]; intros g s Hp; cbn [ptry].
    - apply Hp.
    - apply Hp.
    - destruct Hp as [_ []].
    - cbn [wtrail] in *. destruct Hp as [V Hp]. split; [exact V|]. intros s1 H1. destruct (Hp s1 H1) as (g' & L & Kp & Hp'). eauto.
  Qed.
  Lemma wt_bind {A B} (p : prog A) (k : A -> prog B) Q g s :
    wtrail p g s (fun r g' s' => match r with Ok a => wtrail (k a) g' s' Q | Exc e => Inv g' s' /\ Q (Exc e) g' s' end) ->
    wtrail (pbind p k) g s Q.
  Proof. intro H. apply wt_ptry. exact H. Qed.
  Lemma wt_others {A} (p : prog A) g s s' (Q : res A -> nat -> store -> Prop) :
    (forall r g s s', Q r g s -> others s s' -> Q r g s') -> wtrail p g s Q -> others s s' -> wtrail p g s' Q.
  Proof using inv_others.
    intros HQ Hp Ho. pose proof (inv_others g s s' (wtrail_inv _ _ _ _ Hp) Ho) as V'.
    destruct p as [a|e| |B o k]; destruct Hp as [V Hp]; (split; [exact V'|]); eauto.
    intros s1 H1. apply Hp. eapply others_trans; eauto.
  Qed.

  (** All stores that are [s0] with [L] are in phase [g]. *)
  Definition ph (s0 : store) (L : list (string * cell)) (g : nat) : Prop := forall s, st s0 L s -> Inv g s.

  Lemma wt_attach s0 L g s a i b (Q : res handle -> nat -> store -> Prop) : ph s0 L g -> st s0 L s -> N a -> val s0 L a (Some (i, b)) -> b <> "" ->
    (forall s', st s0 L s' -> Q (Ok (mkHandle a i)) g s') -> wtrail (shm_attach a) g s Q.
  Proof using keeps_refl.
    intros P HS Ha V Hb HQ. cbn [shm_attach prim pbind ptry wtrail]. split; [apply P, HS|]. intros s1 H1. pose proof (st_others _ _ _ _ _ HS H1) as HS1.
    destruct (st_val _ _ _ _ _ _ HS1 Ha V) as [N1 M1]. cbn [step]. rewrite N1. cbn [fst snd]. exists g. split; [apply le_n|]. split; [apply keeps_refl|].
    cbn [of_res ptry wtrail]. split; [apply P, HS1|]. intros s2 H2. pose proof (st_others _ _ _ _ _ HS1 H2) as HS2.
    destruct (st_val _ _ _ _ _ _ HS2 Ha V) as [N2 M2]. cbn [step]. rewrite M2. destruct b as [|c b]; [now destruct Hb|]. cbn [fst snd of_res].
    exists g. split; [apply le_n|]. split; [apply keeps_refl|]. split; [apply P, HS2|]. apply HQ, HS2.
  Qed.
  Lemma wt_attach_none s0 L g s a (Q : res handle -> nat -> store -> Prop) : ph s0 L g -> st s0 L s -> N a -> val s0 L a None ->
    (forall s', st s0 L s' -> Q (Exc FileNotFoundError) g s') -> wtrail (shm_attach a) g s Q.
  Proof using keeps_refl.
    intros P HS Ha V HE. cbn [shm_attach prim pbind ptry wtrail]. split; [apply P, HS|]. intros s1 H1. pose proof (st_others _ _ _ _ _ HS H1) as HS1.
    pose proof (st_val _ _ _ _ _ _ HS1 Ha V) as N1. cbn [has] in N1. cbn [step]. rewrite N1. cbn [fst snd of_res ptry].
    exists g. split; [apply le_n|]. split; [apply keeps_refl|]. split; [apply P, HS1|]. apply HE, HS1.
  Qed.
  Lemma wt_read s0 L g s a i b (Q : res bytes -> nat -> store -> Prop) : ph s0 L g -> st s0 L s -> N a -> val s0 L a (Some (i, b)) ->
    (forall s', st s0 L s' -> Q (Ok b) g s') -> wtrail (shm_read (mkHandle a i)) g s Q.
  Proof using keeps_refl.
    intros P HS Ha V HQ. cbn [shm_read hid prim wtrail]. split; [apply P, HS|]. intros s1 H1. pose proof (st_others _ _ _ _ _ HS H1) as HS1.
    destruct (st_val _ _ _ _ _ _ HS1 Ha V) as [N1 M1]. cbn [step]. rewrite M1. cbn [fst snd of_res].
    exists g. split; [apply le_n|]. split; [apply keeps_refl|]. split; [apply P, HS1|]. apply HQ, HS1.
  Qed.
  Lemma wt_write s0 L g g' s a i b b' (Q : res unit -> nat -> store -> Prop) : ph s0 L g -> g <= g' -> ph s0 ((a, Some (i, b')) :: L) g' ->
    st s0 L s -> N a -> val s0 L a (Some (i, b)) -> String.length b' = String.length b ->
    (forall s', st s0 ((a, Some (i, b')) :: L) s' -> Q (Ok tt) g' s') -> wtrail (shm_write (mkHandle a i) b') g s Q.
  Proof using keeps_set.
    intros P Hg P' HS Ha V Hl HQ. cbn [shm_write hid prim wtrail]. split; [apply P, HS|]. intros s1 H1. pose proof (st_others _ _ _ _ _ HS H1) as HS1.
    pose proof (st_val _ _ _ _ _ _ HS1 Ha V) as A1. cbn [has] in A1.
    destruct (write_ok s1 a i b b' (proj1 HS1) A1 Hl) as (s2 & R & W2 & A2 & O2).
    unfold shm_write in R. rewrite run_prim in R. cbn [hid] in R. destruct (step (OWrite i b') s1) as [r s3]. cbn [fst snd] in R.
    injection R as E1 E2. subst r s3. cbn [fst snd of_res]. exists g'. split; [exact Hg|].
    split; [apply (keeps_set _ _ a O2); intros j Hj; rewrite (proj1 A1) in Hj; injection Hj as <-; apply A2|].
    assert (HS2 : st s0 ((a, Some (i, b')) :: L) s2) by (eapply st_set; eauto). split; [apply P', HS2|]. apply HQ, HS2.
  Qed.
  Lemma wt_create s0 L g g1 g2 s a size (Q : res handle -> nat -> store -> Prop) : ph s0 L g -> g <= g1 -> g1 <= g2 ->
    (forall i, ph s0 ((a, Some (i, "")) :: L) g1) -> (forall i, ph s0 ((a, Some (i, zeros size)) :: L) g2) ->
    st s0 L s -> N a -> val s0 L a None -> size <> 0 ->
    (forall i s', st s0 ((a, Some (i, zeros size)) :: L) s' -> Q (Ok (mkHandle a i)) g2 s') -> wtrail (shm_create a size) g s Q.
  Proof using keeps_refl keeps_set.
    intros P L1 L2 P1 P2 HS Ha V Hz HQ. destruct size as [|z]; [now destruct Hz|]. cbn [shm_create prim pbind ptry wtrail]. split; [apply P, HS|].
    intros s1 H1. pose proof (st_others _ _ _ _ _ HS H1) as HS1. pose proof (st_val _ _ _ _ _ _ HS1 Ha V) as Na. cbn [has] in Na.
    destruct (step_create N s1 a (proj1 HS1) Na) as (s2 & E2 & W2 & A2 & O2). rewrite E2. cbn [fst snd of_res ptry].
    exists g1. split; [exact L1|]. split; [apply (keeps_set _ _ a O2); intros j Hj; congruence|].
    pose proof (st_set _ _ _ _ _ _ (Some (next s1, "")) HS1 W2 O2 A2) as HS2. generalize dependent (next s1). intros ix _ A2 HS2.
    cbn [wtrail]. split; [apply (P1 ix), HS2|]. intros s3 H3. pose proof (st_others _ _ _ _ _ HS2 H3) as HS3.
    pose proof (st_val _ _ _ _ _ _ HS3 Ha (val_hit _ _ _ _)) as A3. cbn [has] in A3.
    destruct (step_trunc s3 a ix "" (S z) (proj1 HS3) A3) as (s4 & E4 & W4 & A4 & O4). rewrite E4. cbn [fst snd of_res ptry].
    exists g2. split; [exact L2|]. split; [apply (keeps_set _ _ a O4); intros j Hj; rewrite (proj1 A3) in Hj; injection Hj as <-; apply A4|].
    pose proof (st_shadow _ _ _ _ _ _ _ (st_set _ _ _ _ _ _ (Some (ix, zeros (S z))) HS3 W4 O4 A4)) as HS4.
    cbn [wtrail]. split; [apply (P2 ix), HS4|]. intros s5 H5. pose proof (st_others _ _ _ _ _ HS4 H5) as HS5. destruct (st_val _ _ _ _ _ _ HS5 Ha (val_hit _ _ _ _)) as [N5 M5].
    cbn [step]. rewrite M5. exists g2. split; [apply le_n|]. cbn [zeros of_res ptry fst snd]. split; [apply keeps_refl|]. split; [apply (P2 ix), HS5|]. apply HQ, HS5.
  Qed.
  Lemma wt_exists s0 L g s a i b (Q : res bool -> nat -> store -> Prop) : ph s0 L g -> st s0 L s -> N a -> val s0 L a (Some (i, b)) -> b <> "" ->
    (forall s', st s0 L s' -> Q (Ok true) g s') -> wtrail (exists_block a) g s Q.
  Proof using keeps_refl. intros P HS Ha V Hb HQ. unfold exists_block. apply wt_ptry. eapply wt_attach; eauto. intros s' HS'. split; [apply P, HS'|]. now apply HQ. Qed.
  Lemma wt_exists_not s0 L g s a (Q : res bool -> nat -> store -> Prop) : ph s0 L g -> st s0 L s -> N a -> val s0 L a None ->
    (forall s', st s0 L s' -> Q (Ok false) g s') -> wtrail (exists_block a) g s Q.
  Proof using keeps_refl. intros P HS Ha V HQ. unfold exists_block. apply wt_ptry. eapply wt_attach_none; eauto. intros s' HS'. split; [apply P, HS'|]. now apply HQ. Qed.
  Lemma wt_open_new s0 L g g1 g2 s a size ow (Q : res handle -> nat -> store -> Prop) : ph s0 L g -> g <= g1 -> g1 <= g2 ->
    (forall i, ph s0 ((a, Some (i, "")) :: L) g1) -> (forall i, ph s0 ((a, Some (i, zeros size)) :: L) g2) ->
    st s0 L s -> N a -> val s0 L a None -> size <> 0 ->
    (forall i s', st s0 ((a, Some (i, zeros size)) :: L) s' -> Q (Ok (mkHandle a i)) g2 s') -> wtrail (open_block a size true ow) g s Q.
  Proof using keeps_refl keeps_set.
    intros P L1 L2 P1 P2 HS Ha V Hz HQ. unfold open_block. apply wt_ptry. eapply (wt_create s0 L g g1 g2); eauto.
    intros i s' HS'. split; [apply (P2 i), HS'|]. now apply HQ.
  Qed.
End WTrail.
