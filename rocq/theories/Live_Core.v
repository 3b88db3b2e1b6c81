(** One process that changes the shared memory and any number that only look:
    proof rules. *)
From Verif Require Export Live_Spec Crash_Facts.

(** What is left of a program after [n] operations of its own, alone. *)
Fixpoint rest {A} (n : nat) (p : prog A) (s : store) : prog A :=
  match n, p with
  | S m, Do o k => rest m (k (fst (step o s))) (snd (step o s))
  | _, _ => p
  end.

Lemma rest_step {A} n : forall (p : prog A) s,
  match rest n p s with
  | Do o k => rest (S n) p s = k (fst (step o (crash n p s))) /\ crash (S n) p s = snd (step o (crash n p s))
  | q => forall j, rest (n + j) p s = q /\ crash (n + j) p s = crash n p s
  end.
Proof.
  induction n as [|n IH]; intros p s.
  - cbn [rest]. rewrite crash_zero. destruct p as [a|e| |B o k]; try (intro j; destruct j; split; reflexivity).
    cbn [rest crash]. destruct (step o s) as [r s']. cbn [fst snd]. split; [|apply (crash_zero (k r))]; destruct (k r); reflexivity.
  - destruct p as [a|e| |B o k]; try (intro j; destruct j; split; reflexivity).
    cbn [rest crash plus]. destruct (step o s) as [r s'] eqn:E. cbn [fst snd]. specialize (IH (k r) s').
    destruct (rest n (k r) s') as [a|e| |B' o' k'] eqn:Er; try exact IH.
Qed.
Lemma rest_done {A} n : forall (p : prog A) s r, outcome (rest n p s) = Some r -> run p s = (Some r, crash n p s).
Proof.
  induction n as [|n IH]; intros p s r; cbn [rest].
  - rewrite crash_zero. destruct p; cbn; try discriminate; intros [= <-]; reflexivity.
  - destruct p as [a|e| |B o k]; cbn; try discriminate; try (intros [= <-]; reflexivity).
    destruct (step o s) as [q s'] eqn:E. cbn [fst snd]. apply IH.
Qed.

(** ** Looking at a moving store *)

Section Looking.
  (** The store after each operation of the process that changes it. *)
  Variable t : nat -> store.

  (** [p], started when the store is [t n] or later and only ever looking,
      ends as [Q] says, however the two are interleaved. *)
  Fixpoint live {A} (p : prog A) (n : nat) (Q : res A -> nat -> Prop) : Prop :=
    match p with
    | Ret a => Q (Ok a) n
    | Raise e => Q (Exc e) n
    | Stuck => False
    | Do o k => forall n', n <= n' -> snd (step o (t n')) = t n' /\ live (k (fst (step o (t n')))) n' Q
    end.

  Lemma live_ptry {A B} (p : prog A) (k : A -> prog B) h Q : forall n,
    live p n (fun r n' => match r with Ok a => live (k a) n' Q | Exc e => live (h e) n' Q end) -> live (ptry p k h) n Q.
  Proof.
    induction p as [a|e| |C o f IH]; cbn; intros n Hp; auto.
    intros n' Hn. destruct (Hp n' Hn) as [H1 H2]. auto.
  Qed.
  Lemma live_bind {A B} (p : prog A) (k : A -> prog B) Q n :
    live p n (fun r n' => match r with Ok a => live (k a) n' Q | Exc e => Q (Exc e) n' end) -> live (pbind p k) n Q.
  Proof. intro H. apply live_ptry. exact H. Qed.
  Lemma live_mono {A} (p : prog A) (Q Q' : res A -> nat -> Prop) : forall n,
    (forall r n', n <= n' -> Q r n' -> Q' r n') -> live p n Q -> live p n Q'.
  Proof.
    induction p as [a|e| |C o f IH]; cbn; intros n HQ Hp; auto.
    intros n' Hn. destruct (Hp n' Hn) as [H1 H2]. split; [exact H1|]. apply IH; [|exact H2]. intros r n'' Hn' HQ'. apply HQ; [lia|exact HQ'].
  Qed.
  Lemma live_later {A} (p : prog A) (Q : res A -> nat -> Prop) n n' : n <= n' ->
    (forall r, Q r n -> Q r n') -> live p n Q -> live p n' Q.
  Proof.
    intros Hn HQ. destruct p as [a|e| |C o f]; cbn; auto. intros Hp n'' Hn'. apply Hp. lia.
  Qed.
End Looking.

(** ** Soundness *)

Lemma list_split {X} (l : list X) : forall i x, nth_error l i = Some x -> l = firstn i l ++ x :: skipn (S i) l.
Proof. induction l as [|y l IH]; intros [|i] x; cbn; try discriminate; [now intros [= ->]|]. intro H. f_equal. now apply IH. Qed.

Section Sound.
  Context {A : Type} (w : prog A) (s : store).
  Variable Qs : list (res A -> Prop).
  Let t n := crash n w s.
  Let at_end (Q : res A -> Prop) : res A -> nat -> Prop := fun r _ => Q r.

  Lemma live_end (p : prog A) Q n n' : n <= n' -> live t p n (at_end Q) -> live t p n' (at_end Q).
  Proof. intro Hn. apply live_later; [exact Hn|auto]. Qed.
  Lemma live_ends ps n n' : n <= n' -> Forall2 (fun p Q => live t p n (at_end Q)) ps Qs -> Forall2 (fun p Q => live t p n' (at_end Q)) ps Qs.
  Proof. intros Hn F. induction F; constructor; eauto using live_end. Qed.

  Lemma together_live sched : forall n rs, Forall2 (fun p Q => live t p n (at_end Q)) rs Qs ->
    exists n' rs', together (rest n w s :: rs) sched (t n) = (rest n' w s :: rs', t n') /\ n <= n' /\
      Forall2 (fun p Q => live t p n' (at_end Q)) rs' Qs.
  Proof.
    induction sched as [|i sched IH]; intros n rs F; cbn [together]; [exists n, rs; auto|].
    unfold turn. destruct i as [|i]; cbn [nth_error].
    - pose proof (rest_step n w s) as H. unfold prog_step. destruct (rest n w s) as [a|e| |B o k] eqn:E; try (rewrite <- E; apply IH; exact F).
      destruct H as [H1 H2]. unfold t at 1. destruct (step o (crash n w s)) as [r s'] eqn:Es. cbn [fst snd firstn skipn app] in *.
      rewrite <- H1, <- H2. destruct (IH (S n) rs (live_ends rs n (S n) ltac:(lia) F)) as (n' & rs' & E' & Hn & F').
      exists n', rs'. split; [exact E'|]. split; [lia|exact F'].
    - destruct (nth_error rs i) as [p|] eqn:Ei; [|apply IH; exact F]. unfold prog_step.
      destruct p as [a|e| |B o k]; try (apply IH; exact F).
      assert (F' : Forall2 (fun p Q => live t p n (at_end Q)) (firstn i rs ++ k (fst (step o (t n))) :: skipn (S i) rs) Qs /\ snd (step o (t n)) = t n).
      { rewrite (list_split _ _ _ Ei) in F. apply Forall2_app_inv_l in F. destruct F as (Q1 & Q2 & F1 & F2 & ->).
        inversion F2 as [|? Q ? Q3 Hp F3]; subst. cbn [live] in Hp. destruct (Hp n ltac:(lia)) as [H1 H2].
        split; [|exact H1]. apply Forall2_app; [exact F1|]. constructor; [exact H2|exact F3]. }
      destruct F' as [F' Hs]. destruct (step o (t n)) as [r s'] eqn:Es. cbn [fst snd] in *. subst s'.
      cbn [firstn skipn app]. apply IH. exact F'.
  Qed.

  Lemma live_sound rs sched : Forall2 (fun p Q => live t p 0 (at_end Q)) rs Qs ->
    exists n rs', together (w :: rs) sched s = (rest n w s :: rs', crash n w s) /\
      Forall2 (fun (p : prog A) (Q : res A -> Prop) => forall r, outcome p = Some r -> Q r) rs' Qs.
  Proof.
    intro F. destruct (together_live sched 0 rs F) as (n & rs' & E & _ & F'). cbn [rest] in E. unfold t in E. rewrite crash_zero in E.
    exists n, rs'. split; [exact E|]. clear E F. induction F' as [|p Q ps Qs' Hp F' IH]; constructor.
    - intros r. destruct p; cbn in *; try discriminate; intros [= <-]; exact Hp.
    - exact IH.
  Qed.
End Sound.

(** ** Trails: a ghost phase that only grows along a run *)

Section Trail.
  Variable Inv : nat -> store -> Prop.
  Variable keeps : store -> store -> Prop.
  Hypothesis keeps_refl : forall s, keeps s s.
  Hypothesis keeps_trans : forall s1 s2 s3, keeps s1 s2 -> keeps s2 s3 -> keeps s1 s3.

  Fixpoint trail {A} (p : prog A) (g : nat) (s : store) (Q : res A -> nat -> store -> Prop) : Prop :=
    Inv g s /\
    match p with
    | Ret a => Q (Ok a) g s
    | Raise e => Q (Exc e) g s
    | Stuck => False
    | Do o k => exists g', g <= g' /\ keeps s (snd (step o s)) /\ trail (k (fst (step o s))) g' (snd (step o s)) Q
    end.

  Lemma trail_inv {A} (p : prog A) g s Q : trail p g s Q -> Inv g s.
  Proof. destruct p; intros [H _]; exact H. Qed.
  Lemma trail_ptry {A B} (p : prog A) (k : A -> prog B) h Q : forall g s,
    trail p g s (fun r g' s' => match r with Ok a => trail (k a) g' s' Q | Exc e => trail (h e) g' s' Q end) ->
    trail (ptry p k h) g s Q.
  Proof.
    induction p as [a|e| |C o f IH]; intros g s [Hi Hp]; cbn [ptry]; auto; try contradiction.
    split; [exact Hi|]. destruct Hp as (g' & Hg & Hk & Hp). exists g'. split; [exact Hg|]. split; [exact Hk|]. apply IH, Hp.
  Qed.
  Lemma trail_bind {A B} (p : prog A) (k : A -> prog B) Q g s :
    trail p g s (fun r g' s' => match r with Ok a => trail (k a) g' s' Q | Exc e => Inv g' s' /\ Q (Exc e) g' s' end) ->
    trail (pbind p k) g s Q.
  Proof. intro H. apply trail_ptry. exact H. Qed.
  Lemma trail_mono {A} (p : prog A) (Q Q' : res A -> nat -> store -> Prop) : forall g s,
    (forall r g' s', Inv g' s' -> Q r g' s' -> Q' r g' s') -> trail p g s Q -> trail p g s Q'.
  Proof.
    induction p as [a|e| |C o f IH]; intros g s HQ [Hi Hp]; (split; [exact Hi|]); auto.
    destruct Hp as (g' & Hg & Hk & Hp). exists g'. split; [exact Hg|]. split; [exact Hk|]. eapply IH; eauto.
  Qed.
  (** The trail says where the run goes. *)
  Lemma trail_run {A} (p : prog A) : forall g s Q r s', trail p g s Q -> run p s = (Some r, s') ->
    trail p g s (fun r1 g1 s1 => Q r1 g1 s1 /\ r1 = r /\ s1 = s').
  Proof.
    induction p as [a|e| |C o f IH]; intros g s Q r s' [Hi Hp] R; cbn [run] in R; try discriminate.
    - injection R as <- <-. split; auto.
    - injection R as <- <-. split; auto.
    - split; [exact Hi|]. destruct Hp as (g' & Hg & Hk & Hp). exists g'. split; [exact Hg|]. split; [exact Hk|].
      destruct (step o s) as [q s1]. cbn [fst snd] in *. apply IH; assumption.
  Qed.
  (** From the crash points. *)
  Lemma trail_crash {A} (p : prog A) : forall (f : nat -> nat) s (Q : res A -> nat -> store -> Prop) r s',
    (forall n, n <= cost p s -> Inv (f n) (crash n p s)) ->
    (forall n, n < cost p s -> f n <= f (S n) /\ keeps (crash n p s) (crash (S n) p s)) ->
    run p s = (Some r, s') -> Q r (f (cost p s)) s' -> trail p (f 0) s Q.
  Proof.
    clear keeps_refl keeps_trans.
    induction p as [a|e| |C o k IH]; intros f s Q r s' HI HK R HQ; cbn [run cost] in *; try discriminate.
    - injection R as <- <-. split; [apply (HI 0); lia|exact HQ].
    - injection R as <- <-. split; [apply (HI 0); lia|exact HQ].
    - split; [apply (HI 0); lia|]. exists (f 1). destruct (HK 0 ltac:(lia)) as [H1 H2]. split; [exact H1|].
      rewrite crash_zero in H2. assert (E1 : crash 1 (Do o k) s = snd (step o s)) by (cbn [crash]; destruct (step o s) as [q s1]; apply (crash_zero (k q))).
      rewrite E1 in H2. destruct (step o s) as [q s1] eqn:E. cbn [fst snd] in *.
      split; [exact H2|]. apply (IH q (fun n => f (S n)) s1 Q r s'); auto.
      + intros n Hn. specialize (HI (S n) ltac:(lia)). cbn [crash] in HI. now rewrite E in HI.
      + intros n Hn. specialize (HK (S n) ltac:(lia)). cbn [crash] in HK. now rewrite E in HK.
  Qed.
  Lemma trail_still {A} (p : prog A) g s (Q : res A -> nat -> store -> Prop) r : (forall n, crash n p s = s) -> Inv g s -> run p s = (Some r, s) -> Q r g s -> trail p g s Q.
  Proof.
    clear keeps_trans.
    intros Hc Hi R HQ. apply (trail_crash p (fun _ => g) s Q r s); auto.
    - intros n _. now rewrite Hc.
    - intros n _. rewrite !Hc. split; [lia|apply keeps_refl].
  Qed.
  (** As a timeline. *)
  Lemma trail_line {A} (p : prog A) : forall g s Q, trail p g s Q ->
    exists f, f 0 = g /\ (forall n, Inv (f n) (crash n p s)) /\
      (forall n n', n <= n' -> f n <= f n' /\ keeps (crash n p s) (crash n' p s)) /\
      exists r s' g', run p s = (Some r, s') /\ Q r g' s'.
  Proof.
    induction p as [a|e| |C o k IH]; intros g s Q [Hi Hp]; try contradiction.
    - exists (fun _ => g). split; [reflexivity|]. split; [intros [|]; exact Hi|]. split; [intros [|] [|] _; split; try lia; apply keeps_refl|].
      exists (Ok a), s, g. split; [reflexivity|exact Hp].
    - exists (fun _ => g). split; [reflexivity|]. split; [intros [|]; exact Hi|]. split; [intros [|] [|] _; split; try lia; apply keeps_refl|].
      exists (Exc e), s, g. split; [reflexivity|exact Hp].
    - destruct Hp as (g' & Hg & Hk & Hp). destruct (IH _ _ _ _ Hp) as (f & Hf & HI & HM & r & s' & g1 & R & HQ).
      cbn [run]. destruct (step o s) as [q s1] eqn:E. cbn [fst snd] in *.
      assert (EC : forall n, crash (S n) (Do o k) s = crash n (k q) s1) by (intro; cbn [crash]; now rewrite E).
      exists (fun n => match n with O => g | S m => f m end). split; [reflexivity|]. split; [intros [|n]; [exact Hi|rewrite EC; apply HI]|].
      split; [|exists r, s', g1; auto]. intros [|n] [|n'] Hn; rewrite ?EC, ?crash_zero; try lia.
      + split; [lia|apply keeps_refl].
      + destruct (HM 0 n' ltac:(lia)) as [H1 H2]. rewrite crash_zero in H2. split; [lia|]. eapply keeps_trans; eauto.
      + apply HM. lia.
  Qed.
End Trail.

(** ** Operations that touch only some names *)

Definition calmly {A} (N : string -> Prop) (p : prog A) (s : store) : Prop :=
  forall n, wf (crash n p s) /\ only_at N s (crash n p s).

Lemma calmly_ptry {A B} N (p : prog A) (k : A -> prog B) h s r s1 : calmly N p s -> run p s = (Some r, s1) ->
  calmly N (match r with Ok a => k a | Exc e => h e end) s1 -> calmly N (ptry p k h) s.
Proof.
  intros H1 R H2 n. rewrite crash_ptry, R. cbn [fst snd]. destruct (Nat.leb n (cost p s)); [apply H1|].
  assert (Hs : only_at N s s1).
  { destruct (H1 (cost p s)) as [_ O]. rewrite crash_done in O by lia. now rewrite R in O. }
  destruct r; destruct (H2 (n - cost p s)) as [W O]; (split; [exact W|]); eapply only_trans; eauto.
Qed.
Lemma calmly_bind {A B} N (p : prog A) (k : A -> prog B) s a s1 : calmly N p s -> run p s = (Some (Ok a), s1) ->
  calmly N (k a) s1 -> calmly N (pbind p k) s.
Proof. intros H1 R H2. unfold pbind. eapply calmly_ptry; eauto. Qed.
Lemma calmly_still {A} N (p : prog A) s : wf s -> (forall n, crash n p s = s) -> calmly N p s.
Proof. intros W H n. rewrite H. split; [exact W|apply only_refl]. Qed.
Lemma calmly_ret {A} N (a : A) s : wf s -> calmly N (Ret a) s.
Proof. intro W. apply calmly_still; [exact W|]. intros [|]; reflexivity. Qed.
Lemma calmly_raise {A} N e s : wf s -> calmly N (@Raise A e) s.
Proof. intro W. apply calmly_still; [exact W|]. intros [|]; reflexivity. Qed.
Lemma calmly_stages {A} N (p : prog A) s l : stages p s l -> Forall (fun s' => wf s' /\ only_at N s s') l -> calmly N p s.
Proof. intros S F n. rewrite Forall_forall in F. apply F, S. now exists n. Qed.
