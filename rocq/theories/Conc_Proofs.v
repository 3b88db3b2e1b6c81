(** SlidingLock under interleaving: the parts of its programs, each under what
    the other processes may do meanwhile. *)
From Verif Require Export Conc_Spec Lock_Proofs.

(** ** Programs under interference *)
Section WP.
  Variables R G : store -> store -> Prop.
  Fixpoint wp {A} (p : prog A) (Q : A -> store -> Prop) (E : exn -> store -> Prop) (s : store) : Prop :=
    match p with
    | Ret a => Q a s
    | Raise e => E e s
    | Stuck => True
    | Do o k => forall s1, R s s1 -> let '(r, s2) := step o s1 in G s1 s2 /\ wp (k r) Q E s2
    end.
  Hypothesis R_refl : forall s, R s s.
  Hypothesis R_trans : forall s1 s2 s3, R s1 s2 -> R s2 s3 -> R s1 s3.

  Lemma wp_stable {A} (p : prog A) (Q : A -> store -> Prop) (E : exn -> store -> Prop) s s' :
    (forall a s s', Q a s -> R s s' -> Q a s') -> (forall e s s', E e s -> R s s' -> E e s') ->
    wp p Q E s -> R s s' -> wp p Q E s'.
  Proof.
    intros HQ HE Hp Hs. destruct p as [a|e| |B o k]; cbn in *; [eapply HQ; eauto|eapply HE; eauto|exact I|].
    intros s1 H1. apply Hp. eapply R_trans; eauto.
  Qed.
  Lemma wp_mono {A} (p : prog A) : forall (Q Q' : A -> store -> Prop) (E E' : exn -> store -> Prop) s,
    (forall a s, Q a s -> Q' a s) -> (forall e s, E e s -> E' e s) -> wp p Q E s -> wp p Q' E' s.
  Proof.
    induction p as [a|e| |B o k IH]; cbn; intros Q Q' E E' s HQ HE Hp; auto.
    intros s1 H1. specialize (Hp s1 H1). destruct (step o s1) as [r s2]. destruct Hp as [HG Hp]. split; [exact HG|]. eauto.
  Qed.
  Lemma wp_ptry {A B} (p : prog A) (k : A -> prog B) h : forall Q E s,
    wp p (fun a s => wp (k a) Q E s) (fun e s => wp (h e) Q E s) s -> wp (ptry p k h) Q E s.
  Proof.
    induction p as [a|e| |C o f IH]; cbn; intros Q E s Hp; auto.
    intros s1 H1. specialize (Hp s1 H1). destruct (step o s1) as [r s2]. destruct Hp as [HG Hp]. split; [exact HG|]. apply IH, Hp.
  Qed.
  Lemma wp_bind {A B} (p : prog A) (k : A -> prog B) Q E s :
    wp p (fun a s => wp (k a) Q E s) E s -> wp (pbind p k) Q E s.
  Proof. intro H. apply wp_ptry. exact H. Qed.
  Lemma wp_step {A} (p p' : prog A) Q E s s' : wp p Q E s -> prog_step p s = Some (p', s') -> G s s' /\ wp p' Q E s'.
  Proof.
    destruct p as [a|e| |B o k]; cbn; try discriminate. intros Hp Hs. specialize (Hp s (R_refl s)). destruct (step o s) as [r s2].
    injection Hs as <- <-. exact Hp.
  Qed.
End WP.

(** The same, getting stuck only if [St]. *)
Section WPT.
  Variable St : Prop.
  Variables R G : store -> store -> Prop.
  Fixpoint wpt {A} (p : prog A) (Q : A -> store -> Prop) (E : exn -> store -> Prop) (s : store) : Prop :=
    match p with
    | Ret a => Q a s
    | Raise e => E e s
    | Stuck => St
    | Do o k => forall s1, R s s1 -> let '(r, s2) := step o s1 in G s1 s2 /\ wpt (k r) Q E s2
    end.
  Lemma wpt_stable {A} (p : prog A) (Q : A -> store -> Prop) (E : exn -> store -> Prop) s s' :
    (forall s1 s2 s3, R s1 s2 -> R s2 s3 -> R s1 s3) ->
    (forall a s s', Q a s -> R s s' -> Q a s') -> (forall e s s', E e s -> R s s' -> E e s') ->
    wpt p Q E s -> R s s' -> wpt p Q E s'.
  Proof.
    intros R_trans HQ HE Hp Hs. destruct p as [a|e| |B o k]; cbn in *; [eapply HQ; eauto|eapply HE; eauto|exact Hp|].
    intros s1 H1. apply Hp. eapply R_trans; eauto.
  Qed.
  Lemma wpt_ptry {A B} (p : prog A) (k : A -> prog B) h : forall Q E s,
    wpt p (fun a s => wpt (k a) Q E s) (fun e s => wpt (h e) Q E s) s -> wpt (ptry p k h) Q E s.
  Proof.
    induction p as [a|e| |C o f IH]; cbn; intros Q E s Hp; auto.
    intros s1 H1. specialize (Hp s1 H1). destruct (step o s1) as [r s2]. destruct Hp as [HG Hp]. split; [exact HG|]. apply IH, Hp.
  Qed.
  Lemma wpt_bind {A B} (p : prog A) (k : A -> prog B) Q E s :
    wpt p (fun a s => wpt (k a) Q E s) E s -> wpt (pbind p k) Q E s.
  Proof. intro H. apply wpt_ptry. exact H. Qed.
  (** Alone, it comes to its end. *)
  Lemma wpt_run {A} (p : prog A) Q E : ~ St -> (forall s s', G s s' -> wf s') -> (forall s, wf s -> R s s) ->
    forall s, wf s -> wpt p Q E s -> match run p s with (Some (Ok a), s') => wf s' /\ Q a s' | (Some (Exc e), s') => wf s' /\ E e s' | (None, _) => False end.
  Proof.
    intros HS HG HR. induction p as [a|e| |B o k IH]; cbn [wpt run]; intros s W H; auto.
    specialize (H s (HR s W)). destruct (step o s) as [r s2]. destruct H as [H1 H2]. apply IH; [eapply HG; eauto|exact H2].
  Qed.
End WPT.

(** The same, over after at most [d] operations. *)
Section WPB.
  Variable R : store -> store -> Prop.
  Fixpoint wpb {A} (d : nat) (p : prog A) (Q : nat -> A -> store -> Prop) (E : nat -> exn -> store -> Prop) (s : store) {struct p} : Prop :=
    match p with
    | Ret a => Q d a s
    | Raise e => E d e s
    | Stuck => False
    | Do o k => match d with
                | O => False
                | S d' => forall s1, R s s1 -> let '(r, s2) := step o s1 in wpb d' (k r) Q E s2
                end
    end.
  Lemma wpb_ptry {A B} (p : prog A) (k : A -> prog B) h : forall d Q E s,
    wpb d p (fun d a s => wpb d (k a) Q E s) (fun d e s => wpb d (h e) Q E s) s -> wpb d (ptry p k h) Q E s.
  Proof.
    induction p as [a|e| |C o f IH]; cbn; intros d Q E s Hp; auto. destruct d as [|d]; [exact Hp|].
    intros s1 H1. specialize (Hp s1 H1). destruct (step o s1) as [r s2]. apply IH, Hp.
  Qed.
  Lemma wpb_bind {A B} (p : prog A) (k : A -> prog B) d Q E s :
    wpb d p (fun d a s => wpb d (k a) Q E s) E s -> wpb d (pbind p k) Q E s.
  Proof. intro H. apply wpb_ptry. exact H. Qed.
  Definition brief {A} (d : nat) (p : prog A) (s : store) : Prop := wpb d p (fun _ _ _ => True) (fun _ _ _ => True) s.
  Lemma brief_stable {A} d (p : prog A) s s' : (forall s1 s2 s3, R s1 s2 -> R s2 s3 -> R s1 s3) -> brief d p s -> R s s' -> brief d p s'.
  Proof.
    intros RT. unfold brief. destruct p as [a|e| |B o k]; cbn; auto. destruct d as [|d]; [intros []|]. intros H HR s1 H1. apply H. eapply RT; eauto.
  Qed.
  Lemma brief_more {A} (p : prog A) : forall d d' s, d <= d' -> brief d p s -> brief d' p s.
  Proof.
    unfold brief. induction p as [a|e| |B o k IH]; intros d d' s L; cbn; auto. destruct d as [|d]; [intros []|]. destruct d' as [|d']; [lia|].
    intros H s1 H1. specialize (H s1 H1). destruct (step o s1) as [r s2]. apply (IH r d d'); [lia|exact H].
  Qed.
End WPB.

Section Lock.
  Variable I : string.
  Variable fuel : nat.
  Notation count := (count_address I).
  Notation marker n := (marker_address I n).
  Notation lock n := (lock_address I n).

  Definition marked (s : store) (n : Z) : Prop := names s (marker n) <> None.
  Definition locked (s : store) (n : Z) : Prop := names s (lock n) <> None.
  Definition lsame (s s' : store) : Prop := forall a, lock_names I a -> same_at s s' a.
  Lemma lsame_refl s : lsame s s. Proof. intros a _. apply same_refl. Qed.
  Lemma lsame_trans s1 s2 s3 : lsame s1 s2 -> lsame s2 s3 -> lsame s1 s3.
  Proof. intros H1 H2 a Ha. eapply same_trans; eauto. Qed.
  Lemma ln_count : lock_names I count. Proof. now left. Qed.
  Lemma ln_marker n : lock_names I (marker n). Proof. right; left; eauto. Qed.
  Lemma ln_lock n : lock_names I (lock n). Proof. right; right; eauto. Qed.
  Local Hint Resolve ln_count ln_marker ln_lock lsame_refl same_refl : core.

  Definition nothing (s s' : store) : Prop := s' = s.

  (** *** __init__, the counter block existing *)
  Section Init.
    Variable ch : N.
    Definition counted (s : store) : Prop := names s count = Some ch /\ exists c b, mem s ch = Some (String c b).
    Definition Rc (s s' : store) : Prop := counted s -> counted s'.
    Definition fresh : lockst := mkLock I (mkHandle count ch) 0 0 None None false 0 None.
    Definition init_ok (p : prog lockst) (s : store) : Prop := wpt False Rc nothing p (fun l _ => l = fresh) (fun _ _ => False) s.
    Lemma init_start s : counted s -> init_ok (lock_init I) s.
    Proof.
      intros Hc s1 H1. pose proof (H1 Hc) as C1. cbn [step]. rewrite (proj1 C1). split; [reflexivity|].
      intros s2 H2. pose proof (H2 C1) as C2. cbn [step]. rewrite (proj1 C2). split; [reflexivity|].
      intros s3 H3. pose proof (H3 C2) as C3. cbn [step]. destruct C3 as (N3 & c & b & M3). rewrite M3. split; [reflexivity|]. reflexivity.
    Qed.
    Lemma init_stable p s s' : init_ok p s -> Rc s s' -> init_ok p s'.
    Proof. apply wpt_stable; [unfold Rc; intros; tauto|auto|auto]. Qed.
  End Init.

  (** *** The waiting loop *)
  Section Wait.
    Variables (ch : N) (n f : Z).
    Definition obj (acq : bool) (l : lockst) : Prop :=
      l_name l = I /\ l_count l = mkHandle count ch /\ l_number l = n /\ l_floor l = f /\
      (exists x, l_marker l = Some (mkHandle (marker n) x)) /\ (exists x, l_lock l = Some (mkHandle (lock n) x)) /\
      l_acquired l = acq /\ l_max_spins l = None.
    Definition Rw (s s' : store) : Prop := forall k, (f <= k < n)%Z -> names s (lock k) = None -> names s' (lock k) = None.
    Definition all_gone (s : store) : Prop := forall k, (f <= k < n)%Z -> names s (lock k) = None.
    Definition wait_post (lr : lockst * res unit) (s : store) : Prop := snd lr = Ok tt /\ obj true (fst lr) /\ all_gone s.
    Definition wait_ok (p : prog (lockst * res unit)) (s : store) : Prop := wp Rw nothing p wait_post (fun _ _ => False) s.

    Lemma Rw_refl s : Rw s s. Proof. unfold Rw. auto. Qed.
    Lemma Rw_trans s1 s2 s3 : Rw s1 s2 -> Rw s2 s3 -> Rw s1 s3. Proof. unfold Rw. auto. Qed.
    Lemma wait_stable p s s' : wait_ok p s -> Rw s s' -> wait_ok p s'.
    Proof.
      apply wp_stable; [exact Rw_trans| |auto]. intros lr t t' (H1 & H2 & H3) HR. split; [exact H1|]. split; [exact H2|]. intros k Hk. apply HR; auto.
    Qed.

    (** The slots from the top down to [k] have been seen to be free. *)
    Lemma scan_ok (Q : bool -> store -> Prop) (E : exn -> store -> Prop) m : (Z.of_nat m <= n - f)%Z ->
      (forall s, all_gone s -> Q false s) -> (forall s, Q true s) ->
      forall s, (forall k, (f + Z.of_nat m <= k < n)%Z -> names s (lock k) = None) ->
      wp Rw nothing (any_locked I (count_down m f)) Q E s.
    Proof.
      intros Hm Hf Ht. induction m as [|m IH]; intros s Hs; cbn [count_down any_locked].
      - apply Hf. intros k Hk. apply Hs. lia.
      - intros s1 H1. cbn [step].
        assert (Hs1 : forall k, (f + Z.of_nat (S m) <= k < n)%Z -> names s1 (lock k) = None) by (intros k Hk; apply H1; [lia|apply Hs, Hk]).
        destruct (names s1 (lock (f + Z.of_nat m))) as [i|] eqn:E1; (split; [reflexivity|]).
        + intros s2 H2. cbn [step]. destruct (mem s2 i) as [[|c b]|]; (split; [reflexivity|]); apply Ht.
        + apply IH; [lia|]. intros k Hk. destruct (Z.eq_dec k (f + Z.of_nat m)) as [->|Hne]; [exact E1|]. apply Hs1. lia.
    Qed.
    Lemma loop_ok g : forall l s, obj false l -> (f < n)%Z -> wait_ok (acquire_loop g l) s.
    Proof.
      induction g as [|g IH]; intros l s Ho Hfn; pose proof Ho as (O1 & O2 & O3 & O4 & O5 & O6 & O7 & O8);
        cbn [acquire_loop]; rewrite O7; [exact Logic.I|].
      apply wp_bind. unfold check_acquirement. apply wp_bind. rewrite O1, O3, O4.
      apply scan_ok; [lia| | |intros k Hk; lia].
      - intros t Ht. cbn [wp snd fst]. destruct g; cbn [acquire_loop set_acquired l_acquired wp]; (split; [reflexivity|]);
          (split; [|exact Ht]); repeat (split; [assumption|]); (split; [reflexivity|exact O8]).
      - intro t. cbn [add_spin l_max_spins]. rewrite O8. cbn [wp snd fst]. apply IH; [|exact Hfn].
        repeat (split; [assumption|]). split; [reflexivity|exact O8].
    Qed.

    (** A process waiting behind slot [k] waits as long as that is locked. *)
    Definition Rl (k : Z) (s s' : store) : Prop := locked s k -> locked s' k.
    Definition blocked (k : Z) (p : prog (lockst * res unit)) (s : store) : Prop :=
      locked s k -> wp (Rl k) nothing p (fun _ _ => False) (fun _ _ => False) s.
    Lemma blocked_stable k p s s' : blocked k p s -> (locked s' k -> locked s k) -> blocked k p s'.
    Proof.
      intros H HL Hk. eapply wp_stable; [| | |apply H, HL, Hk|]; [|auto|auto|]; unfold Rl; auto.
    Qed.
    Lemma scan_blocked k (Q : bool -> store -> Prop) (E : exn -> store -> Prop) m : (f <= k < f + Z.of_nat m)%Z ->
      (forall s, locked s k -> Q true s) ->
      forall s, locked s k -> wp (Rl k) nothing (any_locked I (count_down m f)) Q E s.
    Proof.
      intros Hk HQ. induction m as [|m IH]; intros s Hs; cbn [count_down any_locked]; [lia|].
      intros s1 H1. cbn [step]. pose proof (H1 Hs) as L1.
      destruct (names s1 (lock (f + Z.of_nat m))) as [i|] eqn:E1; (split; [reflexivity|]).
      - intros s2 H2. cbn [step]. pose proof (H2 L1) as L2. destruct (mem s2 i) as [[|c b]|]; (split; [reflexivity|]); apply HQ, L2.
      - apply IH; [|exact L1]. assert (k <> (f + Z.of_nat m)%Z) by (intros ->; apply L1, E1). lia.
    Qed.
    Lemma loop_blocked k g : (f <= k < n)%Z -> forall l s, obj false l -> blocked k (acquire_loop g l) s.
    Proof.
      intro Hk. induction g as [|g IH]; intros l s Ho HL; pose proof Ho as (O1 & O2 & O3 & O4 & O5 & O6 & O7 & O8);
        cbn [acquire_loop]; rewrite O7; [exact Logic.I|].
      apply wp_bind. unfold check_acquirement. apply wp_bind. rewrite O1, O3, O4.
      apply (scan_blocked k); [lia| |exact HL].
      intros t Lt. cbn [add_spin l_max_spins]. rewrite O8. cbn [wp snd fst]. apply IH; [|exact Lt].
      repeat (split; [assumption|]). split; [reflexivity|exact O8].
    Qed.

    (** Alone, it is over after exactly [k] operations. *)
    Fixpoint takes {A} (k : nat) (p : prog A) (s : store) {struct p} : Prop :=
      match p with
      | Ret _ | Raise _ => k = 0
      | Stuck => False
      | Do o f => match k with O => False | S k' => takes k' (f (fst (step o s))) (snd (step o s)) end
      end.
    Lemma takes_run {A} (p : prog A) : forall k s, takes k p s -> fst (run p s) <> None.
    Proof.
      induction p as [a|e| |B o h IH]; intros k s; cbn; try discriminate; [intros []|]. destruct k as [|k]; [intros []|].
      destruct (step o s) as [r s2]. cbn. apply IH.
    Qed.
    (** With all earlier slots free the waiting is over soon, whatever else happens to
        the store; this remains so however it goes on for [d] operations. *)
    Definition slots : nat := Z.to_nat (n - f).
    Definition soon {A} (k : nat) (p : prog A) : Prop := forall s, all_gone s -> takes k p s.
    Fixpoint alive {A} (d : nat) (p : prog A) : Prop :=
      (exists k, k <= S slots /\ soon k p) /\
      match d with
      | O => True
      | S d' => match p with Do o k => forall s, alive d' (k (fst (step o s))) | _ => True end
      end.
    Lemma alive_soon {A} d (p : prog A) : alive d p -> exists k, k <= S slots /\ soon k p.
    Proof. destruct d; cbn; intros [H _]; exact H. Qed.
    Lemma alive_run {A} d (p : prog A) s : alive d p -> all_gone s -> fst (run p s) <> None.
    Proof. intros H Hs. destruct (alive_soon _ _ H) as (k & _ & Hk). eapply takes_run, Hk, Hs. Qed.
    Lemma alive_step {A B} d (o : op B) (k : res B -> prog A) s : alive (S d) (Do o k) -> alive d (k (fst (step o s))).
    Proof. intros [_ H]. apply H. Qed.
    Lemma alive_less {A} d : forall (p : prog A), alive (S d) p -> alive d p.
    Proof.
      induction d as [|d IH]; intros p [H1 H2]; [split; [exact H1|exact Logic.I]|]. split; [exact H1|].
      destruct p as [a|e| |B o k]; [exact H2..|]. intro s. apply IH, H2.
    Qed.
    Lemma alive_le {A} d d' (p : prog A) : d' <= d -> alive d p -> alive d' p.
    Proof. induction 1 as [|d H IH]; auto. intro Ha. apply IH, alive_less, Ha. Qed.
    Lemma alive_ret {A} d (a : A) : alive d (Ret a).
    Proof. destruct d; (split; [exists 0; split; [lia|now intros s _]|exact Logic.I]). Qed.

    Lemma takes_look {A B} (F1 : bool -> prog A) (F2 : A -> prog B) m k s : (Z.of_nat (S m) <= n - f)%Z -> all_gone s ->
      takes k (pbind (pbind (any_locked I (count_down m f)) F1) F2) s ->
      takes (S k) (pbind (pbind (any_locked I (count_down (S m) f)) F1) F2) s.
    Proof.
      intros Hm Hs H. cbn [count_down any_locked exists_block shm_attach prim pbind ptry takes step].
      rewrite (Hs (f + Z.of_nat m)%Z) by lia. exact H.
    Qed.
    Lemma scan_soon {A B} (F1 : bool -> prog A) (F2 : A -> prog B) m : (Z.of_nat m <= n - f)%Z ->
      soon 0 (pbind (F1 false) F2) -> soon m (pbind (pbind (any_locked I (count_down m f)) F1) F2).
    Proof.
      intros Hm H0. induction m as [|m IH]; [exact H0|]. intros s Hs. apply takes_look; [exact Hm|exact Hs|]. apply IH; [lia|exact Hs].
    Qed.
    Lemma loop_soon g l : obj false l -> (f < n)%Z -> 0 < g -> soon slots (acquire_loop g l).
    Proof.
      intros Ho Hfn Hg. destruct g as [|g]; [lia|]. pose proof Ho as (O1 & O2 & O3 & O4 & O5 & O6 & O7 & O8).
      cbn [acquire_loop]. rewrite O7. unfold check_acquirement. rewrite O1, O3, O4. unfold slots. apply scan_soon; [lia|].
      intros s _. cbn [pbind ptry snd fst]. destruct g; reflexivity.
    Qed.

    Lemma scan_alive {A B} (F1 : bool -> prog A) (F2 : A -> prog B) m : (Z.of_nat m <= n - f)%Z -> soon 0 (pbind (F1 false) F2) ->
      forall d, (0 < d -> soon slots (pbind (F1 true) F2)) -> (forall d', d' < d -> alive d' (pbind (F1 true) F2)) -> alive d (pbind (F1 false) F2) ->
      alive d (pbind (pbind (any_locked I (count_down m f)) F1) F2).
    Proof.
      intros Hm H0. induction m as [|m IH]; intros d HS HT HF; [exact HF|].
      assert (IHd : forall d', d' <= d -> alive d' (pbind (pbind (any_locked I (count_down m f)) F1) F2)).
      { intros d' Hd. apply IH; [lia|intro; apply HS; lia|intros d2 H2; apply HT; lia|eapply alive_le; eauto]. }
      assert (Run : exists k, k <= S slots /\ soon k (pbind (pbind (any_locked I (count_down (S m) f)) F1) F2)).
      { exists (S m). split; [unfold slots; lia|]. apply scan_soon; auto. }
      destruct d as [|d]; (split; [exact Run|]); [exact Logic.I|].
      cbn [count_down any_locked exists_block shm_attach prim pbind ptry]. intro s. cbn [step].
      destruct (names s (lock (f + Z.of_nat m))) as [i|]; cbn [fst of_res ptry]; [|apply IHd; lia].
      assert (Run2 : forall g : res unit -> prog B, (forall s, g (fst (step (OAttach i) s)) = pbind (F1 true) F2) -> exists k, k <= S slots /\ soon k (Do (OAttach i) g)).
      { intros g Hg. exists (S slots). split; [lia|]. intros s' Hs'. cbn [takes]. rewrite Hg. apply HS; [lia|]. cbn [step]. destruct (mem s' i) as [[|c b]|]; exact Hs'. }
      destruct d as [|d]; (split; [apply Run2; intro s'; cbn [step]; destruct (mem s' i) as [[|c b]|]; reflexivity|try exact Logic.I]).
      intro s'. cbn [step]. pose proof (HT d ltac:(lia)) as Hr. destruct (mem s' i) as [[|c b]|]; cbn [fst of_res ptry]; exact Hr.
    Qed.
    Lemma loop_alive g : forall d l, obj false l -> (f < n)%Z -> d < g -> alive d (acquire_loop g l).
    Proof.
      induction g as [|g IH]; intros d l Ho Hfn Hd; [lia|]. pose proof Ho as (O1 & O2 & O3 & O4 & O5 & O6 & O7 & O8).
      assert (O' : obj false (set_acquired (add_spin l) false)) by (repeat (split; [assumption|]); split; [reflexivity|exact O8]).
      cbn [acquire_loop]. rewrite O7. unfold check_acquirement. rewrite O1, O3, O4. apply scan_alive; [lia| | | |].
      - intros s _. cbn [pbind ptry snd fst]. destruct g; reflexivity.
      - intro Hd0. cbn [add_spin l_max_spins]. rewrite O8. cbn [pbind ptry snd fst]. apply loop_soon; [exact O'|exact Hfn|lia].
      - intros d' Hd'. cbn [add_spin l_max_spins]. rewrite O8. cbn [pbind ptry snd fst]. apply IH; [exact O'|exact Hfn|lia].
      - cbn [pbind ptry snd fst]. destruct g; cbn [acquire_loop set_acquired l_acquired]; apply alive_ret.
    Qed.
  End Wait.

  (** *** Release, one operation at a time *)
  Definition rel_end (l : lockst) : lockst :=
    {| l_name := l_name l; l_count := l_count l; l_number := l_number l;
       l_floor := l_floor l; l_marker := None; l_lock := None;
       l_acquired := false; l_spins := l_spins l; l_max_spins := l_max_spins l |}.
  Definition rel3 (l : lockst) : prog lockst := release_block (l_marker l) >>> Ret (rel_end l).
  Definition rel2 (l : lockst) : prog lockst := release_block (l_lock l) >>> rel3 l.

  Ltac open_obj Ho :=
    let x := fresh "x" in let y := fresh "y" in
    match type of Ho with obj ?ch ?n ?f ?b ?l =>
      destruct Ho as (Ho1 & Ho2 & Ho3 & Ho4 & (x & Ho5) & (y & Ho6) & Ho7 & Ho8);
      destruct l as [l_n l_c l_nu l_f l_m l_l l_a l_s l_ms]; cbn in Ho1, Ho2, Ho3, Ho4, Ho5, Ho6, Ho7, Ho8; subst
    end.

  Lemma rel_step1 ch n f l s b : obj ch n f true l -> wf s -> at_ s count ch b -> String.length b = 5 -> (0 <= n < 256 ^ 5)%Z ->
    exists s', prog_step (release l) s = Some (rel2 l, s') /\ wf s' /\ at_ s' count ch (le_digits 5 n) /\ only_at (eq count) s s'.
  Proof.
    intros Ho W A Hb Hn. open_obj Ho.
    destruct (write_ok s _ ch b (le_digits 5 n) W A) as (s1 & R1 & W1 & A1 & O1); [now rewrite le_length|].
    exists s1. split; [|auto]. unfold release. cbn [l_acquired l_number l_count]. rewrite to_bytes_in by (change (Z.of_nat 5) with 5%Z; lia).
    unfold shm_write in R1. rewrite run_prim in R1. cbn [hid] in R1. cbn [of_res pbind ptry shm_write prim prog_step hid].
    destruct (step (OWrite ch (le_digits 5 n)) s) as [r s2]. cbn [fst snd] in R1. injection R1 as E1 E2. subst r s2. reflexivity.
  Qed.
  Lemma rel_step2 ch n f l s : obj ch n f true l -> wf s -> locked s n ->
    exists s', prog_step (rel2 l) s = Some (rel3 l, s') /\ wf s' /\ names s' (lock n) = None /\ only_at (eq (lock n)) s s'.
  Proof.
    intros Ho W A. open_obj Ho. unfold locked in A. destruct (names s (lock n)) as [i|] eqn:E; [|congruence].
    destruct (unlink_ok s _ i W E) as (s1 & R1 & W1 & A1 & O1).
    exists s1. split; [|auto]. specialize (R1 0%N). unfold shm_unlink in R1. rewrite run_prim in R1. cbn [hname] in R1.
    cbn [rel2 release_block l_lock pbind ptry shm_unlink prim prog_step hname].
    destruct (step (OUnlink (lock n)) s) as [r s2]. cbn [fst snd] in R1. injection R1 as E1 E2. subst r s2. reflexivity.
  Qed.
  Lemma rel_step3 ch n f l s : obj ch n f true l -> wf s -> marked s n ->
    exists s', prog_step (rel3 l) s = Some (Ret (rel_end l), s') /\ wf s' /\ names s' (marker n) = None /\ only_at (eq (marker n)) s s'.
  Proof.
    intros Ho W A. open_obj Ho. unfold marked in A. destruct (names s (marker n)) as [i|] eqn:E; [|congruence].
    destruct (unlink_ok s _ i W E) as (s1 & R1 & W1 & A1 & O1).
    exists s1. split; [|auto]. specialize (R1 0%N). unfold shm_unlink in R1. rewrite run_prim in R1. cbn [hname] in R1.
    cbn [rel3 release_block l_marker pbind ptry shm_unlink prim prog_step hname].
    destruct (step (OUnlink (marker n)) s) as [r s2]. cbn [fst snd] in R1. injection R1 as E1 E2. subst r s2. reflexivity.
  Qed.

  (** *** Entry, while others may count up and remove their locks *)
  Section Entry.
    Variable ch : N.
    Variable St : Prop.
    Variables c m : Z.
    Definition own_name (a : string) : Prop := a = marker (m + 1) \/ a = lock (m + 1).
    Definition tracked (a : string) : Prop := (exists n, a = marker n) \/ a = lock (m + 1).
    Definition mono (s s' : store) : Prop := forall v, (0 <= v <= m)%Z -> at_ s count ch (le_digits 5 v) ->
      exists v', (v <= v' <= m)%Z /\ at_ s' count ch (le_digits 5 v').
    Definition tsame (A : string -> Prop) (s s' : store) : Prop := (forall a, tracked a -> ~ A a -> same_at s s' a) /\ mono s s'.
    Definition env (s s' : store) : Prop := wf s' /\ tsame (fun _ => False) s s'.
    Definition places (s s' : store) : Prop := wf s' /\ only_at own_name s s'.
    Lemma tr_marker n : tracked (marker n). Proof. left. eauto. Qed.
    Lemma tr_lock : tracked (lock (m + 1)). Proof. now right. Qed.
    Local Hint Resolve tr_marker tr_lock : core.
    Lemma mono_refl s : mono s s. Proof. intros v Hv A. exists v. split; [lia|exact A]. Qed.
    Lemma mono_trans s1 s2 s3 : mono s1 s2 -> mono s2 s3 -> mono s1 s3.
    Proof.
      intros H1 H2 v Hv A. destruct (H1 v Hv A) as (v2 & L2 & A2). destruct (H2 v2 ltac:(lia) A2) as (v3 & L3 & A3). exists v3. split; [lia|exact A3].
    Qed.
    Lemma mono_same s s' : same_at s s' count -> mono s s'.
    Proof. intros H v Hv A. exists v. split; [lia|]. apply (at_same s); auto. Qed.
    Lemma tsame_refl A s : tsame A s s. Proof. split; [auto|apply mono_refl]. Qed.
    Lemma tsame_trans A s1 s2 s3 : tsame A s1 s2 -> tsame A s2 s3 -> tsame A s1 s3.
    Proof. intros [H1 M1] [H2 M2]. split; [|exact (mono_trans _ _ _ M1 M2)]. intros a Ha Hn. eapply same_trans; [apply H1|apply H2]; auto. Qed.
    Lemma tsame_sub (A B : string -> Prop) s s' : tsame A s s' -> (forall a, A a -> B a) -> tsame B s s'.
    Proof. intros [H M] HS. split; [|exact M]. intros a Ha Hn. apply H; auto. Qed.
    Lemma env_refl s : wf s -> env s s. Proof. intro W. split; [exact W|apply tsame_refl]. Qed.
    Lemma env_trans s1 s2 s3 : env s1 s2 -> env s2 s3 -> env s1 s3.
    Proof. intros [_ H1] [W H2]. split; [exact W|]. eapply tsame_trans; eauto. Qed.
    Lemma env_lsame s s' : wf s' -> lsame s s' -> env s s'.
    Proof.
      intros W H. split; [exact W|]. split; [|apply mono_same; auto]. intros a [[n ->]| ->] _; auto.
    Qed.
    (** The counter says at least [f]. *)
    Definition counts (f : Z) (s : store) : Prop := exists v, (f <= v <= m)%Z /\ at_ s count ch (le_digits 5 v).
    Lemma counts_mono f s s' : (0 <= f)%Z -> counts f s -> mono s s' -> counts f s'.
    Proof. intros Hf (v & Hv & A) M. destruct (M v ltac:(lia) A) as (v' & Hv' & A'). exists v'. split; [lia|exact A']. Qed.
    Definition entered (lr : lockst * res unit) (s : store) : Prop :=
      snd lr = Ok tt /\ marked s (m + 1) /\ locked s (m + 1) /\
      exists f, (0 <= c <= f)%Z /\ obj ch (m + 1) f false (fst lr) /\ counts f s.
    Definition enter_ok (p : prog (lockst * res unit)) (s : store) : Prop := wpt St env places p entered (fun _ _ => False) s.
    Lemma entered_env lr s s' : entered lr s -> env s s' -> entered lr s'.
    Proof.
      intros (H1 & H2 & H3 & f & Hf & H4 & H5) [W [E M]]. split; [exact H1|].
      unfold marked, locked in *. rewrite (same_names s s') by (apply E; auto). split; [exact H2|].
      rewrite (same_names s s') by (apply E; auto). split; [exact H3|]. exists f. split; [exact Hf|]. split; [exact H4|]. eapply counts_mono; eauto. lia.
    Qed.
    Lemma enter_stable p s s' : enter_ok p s -> env s s' -> enter_ok p s'.
    Proof. apply wpt_stable; [exact env_trans|exact entered_env|auto]. Qed.

    (** Creating a block of the lock. *)
    Lemma create_wp a (Q : handle -> store -> Prop) E s : own_name a -> names s a = None ->
      (forall i s', names s' a = Some i -> tsame (eq a) s s' -> Q (mkHandle a i) s') ->
      wpt St env places (shm_create a 1) Q E s.
    Proof.
      intros Oa Na Hk. assert (La : tracked a) by (destruct Oa as [->| ->]; auto).
      assert (Hca : count <> a) by (destruct Oa as [->| ->]; adn hash0 I; try tauto).
      cbn [shm_create prim pbind ptry wpt].
      intros s1 [W1 E1]. cbn [step]. assert (N1 : names s1 a = None) by (rewrite (same_names s s1); [exact Na|apply E1; auto]). rewrite N1. cbn [of_res ptry].
      set (s2 := {| names := upd_name (names s1) a (Some (next s1)); mem := upd_mem (mem s1) (next s1) ""; next := N.succ (next s1) |}).
      assert (S2 : step (OCreate a) s1 = (Ok (next s1), s2)) by (cbn [step]; rewrite N1; reflexivity).
      assert (W2 : wf s2). { replace s2 with (snd (step (OCreate a) s1)) by (rewrite S2; reflexivity). apply step_wf; [exact W1|exact Logic.I]. }
      assert (A2 : at_ s2 a (next s1) ""). { split; cbn; unfold upd_name, upd_mem; rewrite ?String.eqb_refl, ?N.eqb_refl; reflexivity. }
      assert (O2 : forall x, x <> a -> same_at s1 s2 x).
      { intros x Hx. split; cbn; unfold upd_name, upd_mem; [now rewrite eqb_ne|]. intros i Hi. destruct (N.eqb_spec i (next s1)) as [Ei|]; [|reflexivity].
        subst i. destruct W1 as (_ & M1 & X1). destruct (M1 _ _ Hi). apply X1. lia. }
      assert (T2 : tsame (eq a) s1 s2). { split; [intros x _ Hx; apply O2; congruence|apply mono_same, O2, Hca]. }
      split; [split; [exact W2|intros x Hx; apply O2; intros ->; auto]|].
      generalize (next s1) as ix, s2 as s2', W2, A2, T2. clear s2 S2 W2 A2 O2 T2. intros ix s2 W2 A2 T2.
      intros s3 [W3 E3]. cbn [step]. assert (A3 : at_ s3 a ix "") by (apply (at_same s2); [exact A2|apply E3; auto]).
      set (s4 := {| names := names s3; mem := upd_mem (mem s3) ix (zeros 1); next := next s3 |}).
      assert (W4 : wf s4). { change (wf (snd (step (OTrunc ix 1) s3))). apply step_wf; [exact W3|]. cbn. rewrite (proj2 A3). discriminate. }
      assert (A4 : at_ s4 a ix (zeros 1)). { split; cbn; [apply A3|]. unfold upd_mem; rewrite ?N.eqb_refl; reflexivity. }
      assert (O4 : forall x, x <> a -> same_at s3 s4 x).
      { intros x Hx. split; cbn; unfold upd_mem; [reflexivity|]. intros i Hi. destruct (N.eqb_spec i ix) as [Ei|]; [|reflexivity].
        subst i. destruct Hx. apply (proj1 W3 _ _ ix Hi), A3. }
      assert (T4 : tsame (eq a) s3 s4). { split; [intros x _ Hx; apply O4; congruence|apply mono_same, O4, Hca]. }
      split; [split; [exact W4|intros x Hx; apply O4; intros ->; auto]|].
      generalize s4 as s4', W4, A4, T4. clear s4 W4 A4 O4 T4. intros s4 W4 A4 T4.
      cbn [of_res ptry]. intros s5 [W5 E5]. cbn [step]. assert (A5 : at_ s5 a ix (zeros 1)) by (apply (at_same s4); [exact A4|apply E5; auto]).
      rewrite (proj2 A5). split; [split; [exact W5|apply only_refl]|]. cbn [of_res ptry]. apply Hk; [apply A5|].
      eapply tsame_trans; [eapply tsame_sub; [exact E1|intros ? []]|]. eapply tsame_trans; [exact T2|].
      eapply tsame_trans; [eapply tsame_sub; [exact E3|intros ? []]|]. eapply tsame_trans; [exact T4|]. eapply tsame_sub; [exact E5|intros ? []].
    Qed.

    Lemma create_old_wp n (Q : handle -> store -> Prop) (E : exn -> store -> Prop) s : marked s n ->
      (forall s', tsame (fun _ => False) s s' -> E FileExistsError s') -> wpt St env places (shm_create (marker n) 1) Q E s.
    Proof.
      intros Na HE. cbn [shm_create prim pbind ptry wpt].
      intros s1 [W1 E1]. cbn [step]. unfold marked in Na. rewrite (same_names s s1) by (apply E1; auto). destruct (names s (marker n)); [|congruence].
      split; [split; [exact W1|apply only_refl]|]. cbn [of_res ptry]. apply HE, E1.
    Qed.

    (** Before the marker is taken. *)
    Definition vacant_next (s : store) : Prop := (forall k, (c < k <= m)%Z -> marked s k) /\ ~ marked s (m + 1) /\ ~ locked s (m + 1).
    Lemma vacant_tsame s s' : vacant_next s -> tsame (fun _ => False) s s' -> vacant_next s'.
    Proof.
      intros (H1 & H2 & H3) [E _]. unfold vacant_next, marked, locked in *. split; [intros k Hk; rewrite (same_names s s') by (apply E; auto); auto|].
      rewrite !(same_names s s') by (apply E; auto). auto.
    Qed.
    Hypothesis Hc : (0 <= c)%Z.
    Hypothesis Hb : (m < 256 ^ 5)%Z.
    Hypothesis Hfuel : St \/ (m - c < Z.of_nat fuel)%Z.

    Lemma none_eq {A} (o : option A) : ~ o <> None -> o = None.
    Proof. destruct o; [intro H; destruct H; discriminate|reflexivity]. Qed.

    Lemma take_ok (Q : Z * handle -> store -> Prop) (E : exn -> store -> Prop) f g : (c <= f)%Z ->
      (forall i s', names s' (marker (m + 1)) = Some i -> ~ locked s' (m + 1) -> counts f s' -> Q (m + 1, mkHandle (marker (m + 1)) i)%Z s') ->
      forall x s, St \/ (m + 1 - x < Z.of_nat g)%Z -> (c < x <= m + 1)%Z -> vacant_next s -> counts f s -> wpt St env places (take_marker g I x) Q E s.
    Proof.
      intros Hf HQ. induction g as [|g IH]; intros x s Hg Hx HV HC; [cbn [take_marker wpt]; destruct Hg; [assumption|lia]|]. cbn [take_marker]. apply wpt_ptry.
      destruct (Z.eq_dec x (m + 1)) as [Ex|Hne].
      - subst x. apply create_wp; [now left|apply none_eq, HV|].
        intros i s' Hi Hs. apply HQ; [exact Hi| |eapply counts_mono; [lia|exact HC|apply Hs]].
        unfold locked. rewrite (same_names s s'); [apply HV|]. apply Hs; [auto|]. adn hash0 I; try tauto.
      - apply create_old_wp; [apply HV; lia|].
        intros s' Hs. apply IH; [destruct Hg; [now left|right; lia]|lia|eapply vacant_tsame; eauto|eapply counts_mono; [lia|exact HC|apply Hs]].
    Qed.

    Lemma entry_ok s : vacant_next s -> counts c s -> enter_ok (entry fuel (fresh ch)) s.
    Proof.
      intros HV HC. unfold enter_ok, entry. apply wpt_ptry. unfold renumber. apply wpt_bind. cbn [fresh l_count shm_read hid prim wpt].
      intros s1 [W1 E1]. pose proof (vacant_tsame _ _ HV E1) as V1. pose proof (counts_mono c _ _ Hc HC (proj2 E1)) as (f & Hf & A1).
      assert (C1 : counts f s1) by (exists f; split; [lia|exact A1]).
      cbn [step]. rewrite (proj2 A1). split; [split; [exact W1|apply only_refl]|]. cbn [of_res wpt l_marker l_name].
      rewrite from_le by (change (Z.of_nat 5) with 5%Z; lia). apply wpt_bind. apply (take_ok _ _ f); [lia| |destruct Hfuel; [now left|right; lia]|lia|exact V1|exact C1].
      intros i s2 Hi HL C2. cbn [wpt fst snd l_name l_number]. apply wpt_ptry. apply create_wp; [now right|apply none_eq, HL|].
      intros j s3 Hj HB3. cbn [wpt]. split; [reflexivity|]. split; [|split].
      - unfold marked. rewrite (same_names s2 s3); [rewrite Hi; discriminate|]. apply HB3; [auto|]. adn hash0 I; try tauto.
      - unfold locked. change (names s3 (lock (m + 1)) = Some j) in Hj. rewrite Hj. discriminate.
      - exists f. split; [lia|]. split; [|eapply counts_mono; [lia|exact C2|apply HB3]].
        repeat (split; [reflexivity|]). cbn [set_lock fst l_marker l_lock l_acquired l_max_spins].
        split; [eauto|]. split; [eauto|]. split; reflexivity.
    Qed.

    (** *** It does not take long *)
    Lemma create_brief a (Q : nat -> handle -> store -> Prop) E d s : own_name a -> names s a = None ->
      (forall i s', tsame (eq a) s s' -> Q d (mkHandle a i) s') -> wpb env (3 + d) (shm_create a 1) Q E s.
    Proof.
      intros Oa Na Hk. assert (La : tracked a) by (destruct Oa as [->| ->]; auto).
      assert (Hca : count <> a) by (destruct Oa as [->| ->]; adn hash0 I; try tauto).
      pose proof (create_wp a (fun h s' => tsame (eq a) s s' /\ exists i, h = mkHandle a i) (fun _ _ => False) s Oa Na) as H.
      cbn [shm_create prim pbind ptry wpt Nat.add wpb] in *. assert (H' := H ltac:(intros i s' _ T; split; [exact T|now exists i])). clear H.
      intros s1 R1. specialize (H' s1 R1). destruct (step (OCreate a) s1) as [[ix|x] s2]; destruct H' as [_ H']; cbn [of_res ptry wpt wpb] in *; [|contradiction].
      intros s3 R3. specialize (H' s3 R3). destruct (step (OTrunc ix 1) s3) as [[u|x] s4]; destruct H' as [_ H']; cbn [of_res ptry wpt wpb] in *; [|contradiction].
      intros s5 R5. specialize (H' s5 R5). destruct (step (OAttach ix) s5) as [[z|x] s6]; destruct H' as [_ H']; cbn [of_res ptry wpt wpb] in *; [|contradiction].
      apply Hk, H'.
    Qed.
    Lemma create_old_brief n (Q : nat -> handle -> store -> Prop) (E : nat -> exn -> store -> Prop) d s : marked s n ->
      (forall s', tsame (fun _ => False) s s' -> E d FileExistsError s') -> wpb env (S d) (shm_create (marker n) 1) Q E s.
    Proof.
      intros Na HE. cbn [shm_create prim pbind ptry wpb].
      intros s1 [W1 E1]. cbn [step]. unfold marked in Na. rewrite (same_names s s1) by (apply E1; auto). destruct (names s (marker n)); [|congruence].
      cbn [of_res ptry wpb]. apply HE, E1.
    Qed.
    Lemma take_brief (Q : nat -> Z * handle -> store -> Prop) E d g :
      (forall i s', ~ locked s' (m + 1) -> Q d (m + 1, mkHandle (marker (m + 1)) i)%Z s') ->
      forall x s, (m + 1 - x < Z.of_nat g)%Z -> (c < x <= m + 1)%Z -> vacant_next s -> wpb env (Z.to_nat (m + 1 - x) + 3 + d) (take_marker g I x) Q E s.
    Proof.
      intro HQ. induction g as [|g IH]; intros x s Hg Hx HV; [lia|]. cbn [take_marker]. apply wpb_ptry.
      destruct (Z.eq_dec x (m + 1)) as [Ex|Hne].
      - subst x. replace (Z.to_nat (m + 1 - (m + 1)) + 3 + d) with (3 + d) by lia. apply create_brief; [now left|apply none_eq, HV|].
        intros i s' Hs. apply HQ. unfold locked. rewrite (same_names s s'); [apply HV|]. apply Hs; [auto|]. adn hash0 I; try tauto.
      - replace (Z.to_nat (m + 1 - x) + 3 + d) with (S (Z.to_nat (m + 1 - (x + 1)) + 3 + d)) by lia. apply create_old_brief; [apply HV; lia|].
        intros s' Hs. apply IH; [lia|lia|eapply vacant_tsame; eauto].
    Qed.
    Lemma entry_brief s : vacant_next s -> counts c s -> (m - c < Z.of_nat fuel)%Z -> brief env (Z.to_nat (m - c) + 7) (entry fuel (fresh ch)) s.
    Proof.
      intros HV HC HF. unfold brief, entry. replace (Z.to_nat (m - c) + 7) with (S (Z.to_nat (m - c) + 6)) by lia. apply wpb_ptry. unfold renumber. apply wpb_bind. cbn [fresh l_count shm_read hid prim wpb].
      intros s1 [W1 E1]. pose proof (vacant_tsame _ _ HV E1) as V1. pose proof (counts_mono c _ _ Hc HC (proj2 E1)) as (f & Hf & A1).
      cbn [step]. rewrite (proj2 A1). cbn [of_res wpb l_marker l_name].
      rewrite from_le by (change (Z.of_nat 5) with 5%Z; lia). apply wpb_bind.
      replace (Z.to_nat (m - c) + 6) with (Z.to_nat (m + 1 - (f + 1)) + 3 + (3 + (Z.to_nat (m - c) - Z.to_nat (m - f)))) by lia.
      apply take_brief; [|lia|lia|exact V1].
      intros i s2 HL. cbn [wpb fst snd l_name l_number]. apply wpb_ptry. apply create_brief; [now right|apply none_eq, HL|]. intros j s3 _. exact Logic.I.
    Qed.
  End Entry.
End Lock.
