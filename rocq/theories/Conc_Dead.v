(** A holder that never moves again: nobody else gets in, whatever the
    interleaving from then on. *)
From Verif Require Export Conc_Mutex.

Section Dead.
  Variable I : string.
  Variable fuel : nat.
  Variable ch : N.
  Variable h : Z.
  Hypothesis h_pos : (1 <= h < 256 ^ 5)%Z.
  Notation count := (count_address I).
  Notation marker n := (marker_address I n).
  Notation lock n := (lock_address I n).
  Notation marked := (marked I).
  Notation locked := (locked I).
  Notation obj := (obj I ch).
  Notation lsame := (lsame I).
  Local Hint Resolve ln_count ln_marker ln_lock lsame_refl same_refl : core.

  (** What is true of the store as long as the holder is dead. *)
  Definition Gl (s : store) : Prop :=
    wf s /\ at_ s count ch (le_digits 5 (h - 1)) /\ locked s h /\ marked s h.

  (** The slot a process has the marker of, and whether its lock is placed. *)
  Definition claim : Type := (option Z * bool)%type.
  Definition fact (x : claim) (s : store) : Prop :=
    match x with
    | (Some n, false) => (h < n)%Z /\ marked s n /\ ~ locked s n
    | (Some n, true) => (h < n)%Z /\ marked s n /\ locked s n
    | (None, _) => True
    end.
  Definition RX (x : claim) (s s' : store) : Prop :=
    Gl s' /\ fact x s' /\ forall n, fst x = Some n -> same_at s s' (marker n) /\ same_at s s' (lock n).
  Definition GX (x : claim) (s : store) (x' : claim) (s' : store) : Prop :=
    (x' = x /\ s' = s) \/
    wf s' /\ exists n, (h < n)%Z /\
      ((x = (None, false) /\ x' = (Some n, false) /\ names s (marker n) = None /\ marked s' n /\ only_at (eq (marker n)) s s') \/
       (x = (Some n, false) /\ x' = x /\ names s' (marker n) = names s (marker n) /\ only_at (eq (marker n)) s s') \/
       (x = (Some n, false) /\ x' = (Some n, true) /\ locked s' n /\ only_at (eq (lock n)) s s') \/
       (x = (Some n, true) /\ x' = x /\ names s' (lock n) = names s (lock n) /\ only_at (eq (lock n)) s s')).

  Fixpoint wpx {A} (p : prog A) (Q : A -> claim -> store -> Prop) (E : exn -> claim -> store -> Prop) (x : claim) (s : store) : Prop :=
    match p with
    | Ret a => Q a x s
    | Raise e => E e x s
    | Stuck => True
    | Do o k => forall s1, RX x s s1 -> exists x', let '(r, s2) := step o s1 in GX x s1 x' s2 /\ wpx (k r) Q E x' s2
    end.
  Lemma wpx_ptry {A B} (p : prog A) (k : A -> prog B) hd : forall Q E x s,
    wpx p (fun a x s => wpx (k a) Q E x s) (fun e x s => wpx (hd e) Q E x s) x s -> wpx (ptry p k hd) Q E x s.
  Proof.
    induction p as [a|e| |C o f IH]; cbn; intros Q E x s Hp; auto.
    intros s1 H1. destruct (Hp s1 H1) as [x' Hp']. exists x'. destruct (step o s1) as [r s2]. destruct Hp' as [HG Hp']. split; [exact HG|]. apply IH, Hp'.
  Qed.
  Lemma wpx_bind {A B} (p : prog A) (k : A -> prog B) Q E x s :
    wpx p (fun a x s => wpx (k a) Q E x s) E x s -> wpx (pbind p k) Q E x s.
  Proof. intro H. apply wpx_ptry. exact H. Qed.

  Definition Qe (lr : lockst * res unit) (x : claim) (s : store) : Prop :=
    snd lr = Ok tt /\ exists n, x = (Some n, true) /\ (h < n)%Z /\ obj n (h - 1) false (fst lr).
  Definition ent (p : prog (lockst * res unit)) (x : claim) (s : store) : Prop := wpx p Qe (fun _ _ _ => False) x s.

  Lemma RX_trans x s1 s2 s3 : RX x s1 s2 -> RX x s2 s3 -> RX x s1 s3.
  Proof.
    intros (_ & _ & H1) (A & B & H2). split; [exact A|]. split; [exact B|]. intros n Hn. destruct (H1 n Hn), (H2 n Hn). split; eapply same_trans; eauto.
  Qed.
  Lemma ent_stable p x s s' : ent p x s -> RX x s s' -> ent p x s'.
  Proof.
    destruct p as [a|e| |B o k]; unfold ent; cbn [wpx]; intros Hp HR; auto.
    intros s1 H1. apply Hp. eapply RX_trans; eauto.
  Qed.

  (** Creating a block. *)
  Lemma create_facts a s : wf s -> names s a = None ->
    exists ix s', step (OCreate a) s = (Ok ix, s') /\ wf s' /\ at_ s' a ix "" /\ only_at (eq a) s s'.
  Proof.
    intros W N1. exists (next s). eexists. split; [cbn [step]; rewrite N1; reflexivity|].
    assert (S2 : snd (step (OCreate a) s) = {| names := upd_name (names s) a (Some (next s)); mem := upd_mem (mem s) (next s) ""; next := N.succ (next s) |})
      by (cbn [step]; rewrite N1; reflexivity).
    rewrite <- S2 at 1. split; [apply step_wf; [exact W|exact Logic.I]|]. split.
    - split; cbn; unfold upd_name, upd_mem; rewrite ?String.eqb_refl, ?N.eqb_refl; reflexivity.
    - intros x Hx. split; cbn; unfold upd_name, upd_mem; [rewrite eqb_ne by congruence; reflexivity|].
      intros i Hi. destruct (N.eqb_spec i (next s)) as [Ei|]; [|reflexivity].
      subst i. destruct W as (_ & M1 & X1). destruct (M1 _ _ Hi). apply X1. lia.
  Qed.
  Lemma trunc_facts a ix n s b : wf s -> at_ s a ix b ->
    exists s', step (OTrunc ix n) s = (Ok tt, s') /\ wf s' /\ at_ s' a ix (zeros n) /\ only_at (eq a) s s'.
  Proof.
    intros W A. eexists. split; [reflexivity|]. split; [|split].
    - change (wf (snd (step (OTrunc ix n) s))). apply step_wf; [exact W|]. cbn. rewrite (proj2 A). discriminate.
    - split; cbn; [apply A|]. unfold upd_mem; rewrite ?N.eqb_refl; reflexivity.
    - intros x Hx. split; cbn; unfold upd_mem; [reflexivity|]. intros i Hi. destruct (N.eqb_spec i ix) as [Ei|]; [|reflexivity].
      subst i. destruct Hx. symmetry. apply (proj1 W _ _ ix Hi), A.
  Qed.

  Lemma take_wpx (Q : Z * handle -> claim -> store -> Prop) (E : exn -> claim -> store -> Prop) g :
    (forall n ix s', (h < n)%Z -> Q (n, mkHandle (marker n) ix) (Some n, false) s') ->
    forall n s, (h <= n)%Z -> wpx (take_marker g I n) Q E (None, false) s.
  Proof.
    intro HQ. induction g as [|g IH]; intros n s Hn; [exact Logic.I|]. cbn [take_marker]. apply wpx_ptry.
    cbn [shm_create prim pbind ptry wpx]. intros s1 (HG & _ & _).
    destruct (names s1 (marker n)) as [ix0|] eqn:En.
    - exists (None, false). cbn [step]. rewrite En. split; [left; auto|]. cbn [of_res ptry wpx]. apply IH. lia.
    - destruct HG as (W & A & L & M). assert (Hn' : (h < n)%Z).
      { destruct (Z.eq_dec n h) as [->|]; [|lia]. unfold Conc_Proofs.marked in M. congruence. }
      destruct (create_facts (marker n) s1 W En) as (ix & s2 & S2 & W2 & A2 & O2). exists (Some n, false). rewrite S2.
      split. { right. split; [exact W2|]. exists n. split; [exact Hn'|]. left. split; [reflexivity|]. split; [reflexivity|]. split; [exact En|].
        split; [|exact O2]. unfold Conc_Proofs.marked. rewrite (proj1 A2). discriminate. }
      cbn [of_res ptry wpx]. intros s3 ((W3 & _) & F3 & E3). destruct (E3 n eq_refl) as [E3m E3l].
      assert (A3 : at_ s3 (marker n) ix "") by (apply (at_same s2); auto).
      destruct (trunc_facts (marker n) ix 1 s3 _ W3 A3) as (s4 & S4 & W4 & A4 & O4). exists (Some n, false). rewrite S4. split.
      { right. split; [exact W4|]. exists n. split; [exact Hn'|]. right; left. split; [reflexivity|]. split; [reflexivity|].
        split; [rewrite (proj1 A4), (proj1 A3); reflexivity|exact O4]. }
      cbn [of_res ptry wpx]. intros s5 ((W5 & _) & F5 & E5). destruct (E5 n eq_refl) as [E5m E5l].
      assert (A5 : at_ s5 (marker n) ix (zeros 1)) by (apply (at_same s4); auto).
      exists (Some n, false). cbn [step]. rewrite (proj2 A5). split; [left; auto|]. cbn [of_res ptry wpx]. apply HQ, Hn'.
  Qed.

  Lemma entry_wpx s : ent (entry fuel (fresh I ch)) (None, false) s.
  Proof.
    unfold ent, entry. apply wpx_ptry. unfold renumber. apply wpx_bind. cbn [fresh l_count shm_read hid prim wpx].
    intros s1 (HG & _ & _). exists (None, false). destruct HG as (W & A & L & M). cbn [step]. rewrite (proj2 A). split; [left; auto|].
    cbn [of_res wpx l_marker l_name]. rewrite from_le by (change (Z.of_nat 5) with 5%Z; lia). apply wpx_bind. apply take_wpx; [|lia].
    intros n ix s2 Hn. cbn [wpx fst snd l_name l_number fresh]. apply wpx_ptry. cbn [shm_create prim pbind ptry wpx].
    intros s3 ((W3 & _) & (_ & M3 & L3) & E3).
    destruct (create_facts (lock n) s3 W3) as (iy & s4 & S4 & W4 & A4 & O4). { apply none_eq. exact L3. }
    exists (Some n, true). rewrite S4. split.
    { right. split; [exact W4|]. exists n. split; [exact Hn|]. right; right; left. split; [reflexivity|]. split; [reflexivity|].
      split; [|exact O4]. unfold Conc_Proofs.locked. rewrite (proj1 A4). discriminate. }
    cbn [of_res ptry wpx]. intros s5 ((W5 & _) & F5 & E5). destruct (E5 n eq_refl) as [E5m E5l].
    assert (A5 : at_ s5 (lock n) iy "") by (apply (at_same s4); auto).
    destruct (trunc_facts (lock n) iy 1 s5 _ W5 A5) as (s6 & S6 & W6 & A6 & O6). exists (Some n, true). rewrite S6. split.
    { right. split; [exact W6|]. exists n. split; [exact Hn|]. right; right; right. split; [reflexivity|]. split; [reflexivity|].
      split; [rewrite (proj1 A5), (proj1 A6); reflexivity|exact O6]. }
    cbn [of_res ptry wpx]. intros s7 ((W7 & _) & F7 & E7). destruct (E7 n eq_refl) as [E7m E7l].
    assert (A7 : at_ s7 (lock n) iy (zeros 1)) by (apply (at_same s6); auto).
    exists (Some n, true). cbn [step]. rewrite (proj2 A7). split; [left; auto|]. cbn [of_res ptry wpx].
    split; [reflexivity|]. exists n. split; [reflexivity|]. split; [exact Hn|].
    repeat (split; [reflexivity|]). cbn [set_lock fst l_marker l_lock l_acquired l_max_spins].
    split; [eauto|]. split; [eauto|]. split; reflexivity.
  Qed.

  (** *** The invariant *)
  Variable dead : nat.
  Definition claims : Type := nat -> claim.
  Definition DS (x : claims) (s : store) : Prop :=
    Gl s /\ (forall i j n, fst (x i) = Some n -> fst (x j) = Some n -> i = j) /\ fst (x dead) = Some h /\
    (forall j n, fst (x j) = Some n -> marked s n) /\
    (forall n, (h < n)%Z -> locked s n -> exists j, x j = (Some n, true)) /\
    (forall j n, x j = (Some n, true) -> (h < n)%Z -> locked s n).
  Definition dinv (x : claims) (s : store) (j : nat) (st : stage) : Prop :=
    match st with
    | Starting p => x j = (None, false) /\ init_ok I ch p s
    | Ready l => x j = (None, false) /\ l = fresh I ch
    | Entering p => ent p (x j) s /\ (forall n, fst (x j) = Some n -> (h < n)%Z)
    | Waiting p => exists n, x j = (Some n, true) /\ (h < n)%Z /\ blocked I h p s
    | Inside l => False
    | Leaving p r => (exists l n f, p = rel3 l /\ obj n f true l /\ x j = (Some n, false) /\ (n < h)%Z) \/
                     (x j = (None, false) /\ ((exists l, p = Ret l) \/ exists e, p = Raise e))
    | Finished r => x j = (None, false)
    end.
  Definition DInv (c : config) : Prop :=
    exists x, DS x (shared c) /\ forall j, j <> dead -> dinv x (shared c) j (procs c j).

  Lemma DS_fact x s j : DS x s -> (forall n, fst (x j) = Some n -> (h < n)%Z) -> fact (x j) s.
  Proof.
    intros (HG & Hi & Hd & Hm & Hl & Hp) Hh. destruct (x j) as [[n|] [|]] eqn:E; cbn; auto.
    - split; [apply Hh; reflexivity|]. split; [apply (Hm j); rewrite E; reflexivity|]. apply (Hp j); [exact E|]. apply Hh; reflexivity.
    - split; [apply Hh; reflexivity|]. split; [apply (Hm j); rewrite E; reflexivity|]. intro Hx.
      destruct (Hl n (Hh n eq_refl) Hx) as [j' Hj']. assert (j' = j) by (eapply Hi; [rewrite Hj'|rewrite E]; reflexivity). subst j'. congruence.
  Qed.

  Lemma dinv_stable x x' s s' j st : dinv x s j st -> DS x' s' -> x' j = x j -> Gl s ->
    (forall n, fst (x j) = Some n -> same_at s s' (marker n) /\ same_at s s' (lock n)) -> dinv x' s' j st.
  Proof.
    intros H HD E HG HS. assert (HG' : Gl s') by apply HD.
    destruct st as [p|l|p|p|l|p r|r]; cbn [dinv] in *; rewrite ?E; auto.
    - destruct H as [H1 H2]. split; [exact H1|]. eapply init_stable; [exact H2|]. intros _. eapply at_counted, (proj1 (proj2 HG')).
    - destruct H as [H Hh]. split; [|exact Hh]. eapply ent_stable; [exact H|]. split; [exact HG'|]. split; [|exact HS].
      rewrite <- E. apply DS_fact; [exact HD|rewrite E; exact Hh].
    - destruct H as (n & H1 & H2 & H3). exists n. split; [exact H1|]. split; [exact H2|]. eapply blocked_stable; [exact H3|]. intros _. apply HG.
  Qed.

  Definition set_claim (x : claims) (i : nat) (c : claim) : claims := fun j => if Nat.eqb j i then c else x j.
  Lemma claim_same x i c : set_claim x i c i = c.
  Proof. unfold set_claim. now rewrite Nat.eqb_refl. Qed.
  Lemma claim_other x i c j : j <> i -> set_claim x i c j = x j.
  Proof. intro H. unfold set_claim. destruct (Nat.eqb_spec j i); [congruence|reflexivity]. Qed.
  Lemma claim_id x i j : set_claim x i (x i) j = x j.
  Proof. unfold set_claim. destruct (Nat.eqb_spec j i); [now subst|reflexivity]. Qed.

  Lemma DS_ext x x' s : (forall j, x' j = x j) -> DS x s -> DS x' s.
  Proof.
    intros E (HG & Hi & Hd & Hm & Hl & Hp). split; [exact HG|]. split; [|split; [|split; [|split]]].
    - intros i j n. rewrite !E. apply Hi.
    - rewrite E. exact Hd.
    - intros j n. rewrite E. apply Hm.
    - intros n H1 H2. destruct (Hl n H1 H2) as [j Hj]. exists j. rewrite E. exact Hj.
    - intros j n. rewrite E. apply Hp.
  Qed.

  Lemma Gl_same s s' : Gl s -> wf s' -> same_at s s' count -> same_at s s' (lock h) -> same_at s s' (marker h) -> Gl s'.
  Proof.
    intros (W & A & L & M) W' HC HL HM. split; [exact W'|]. split; [apply (at_same s); auto|].
    unfold Conc_Proofs.locked, Conc_Proofs.marked in *. rewrite (same_names _ _ _ HL), (same_names _ _ _ HM). auto.
  Qed.

  (** One operation of an entering process. *)
  Lemma GX_DS x s i x' s' : DS x s -> i <> dead -> GX (x i) s x' s' -> DS (set_claim x i x') s'.
  Proof.
    intros HD Hi [[-> ->]|(W' & n & Hn & H)].
    { eapply DS_ext; [|exact HD]. intro j. apply claim_id. }
    destruct HD as (HG & Hinj & Hd & Hm & Hl & Hp). pose proof HG as (W & A & L & M).
    destruct H as [(E1 & E2 & N1 & N2 & O)|[(E1 & E2 & N1 & O)|[(E1 & E2 & N1 & O)|(E1 & E2 & N1 & O)]]].
    - (* takes the marker *)
      subst x'. assert (Sm : forall k, k <> n -> same_at s s' (marker k)) by (intros k Hk; apply O; adn hash0 I; try tauto; try lia).
      assert (Sl : forall k, same_at s s' (lock k)) by (intros k; apply O; adn hash0 I; try tauto).
      assert (Hno : forall j, fst (x j) <> Some n) by (intros j Hj; apply (Hm j n Hj), N1).
      split; [apply (Gl_same s); auto; [apply O; adn hash0 I; try tauto|apply Sm; lia]|].
      split; [|split; [|split; [|split]]].
      + intros a b k. destruct (Nat.eq_dec a i) as [->|Ha]; destruct (Nat.eq_dec b i) as [->|Hb];
          rewrite ?claim_same, ?claim_other by assumption; cbn [fst]; auto.
        * intros [= <-] Hx. destruct (Hno b Hx).
        * intros Hx [= <-]. destruct (Hno a Hx).
        * apply Hinj.
      + rewrite claim_other by auto. exact Hd.
      + intros j k. destruct (Nat.eq_dec j i) as [->|Hj]; rewrite ?claim_same, ?claim_other by assumption; cbn [fst].
        * intros [= <-]. exact N2.
        * intro Hx. unfold Conc_Proofs.marked in *. rewrite (same_names s s'); [exact (Hm j k Hx)|]. apply Sm. intros ->. destruct (Hno j Hx).
      + intros k Hk Hx. unfold Conc_Proofs.locked in *. rewrite (same_names _ _ _ (Sl k)) in Hx. destruct (Hl k Hk Hx) as [j Hj]. exists j.
        rewrite claim_other; [exact Hj|]. intros ->. congruence.
      + intros j k Hj Hk. unfold Conc_Proofs.locked in *. rewrite (same_names _ _ _ (Sl k)). destruct (Nat.eq_dec j i) as [->|Hj'].
        * rewrite claim_same in Hj. discriminate.
        * rewrite claim_other in Hj by assumption. eapply Hp; eauto.
    - (* sizes it *)
      subst x'. assert (Nm : forall k, names s' (marker k) = names s (marker k)).
      { intro k. destruct (Z.eq_dec k n) as [->|Hk]; [exact N1|]. apply same_names, O. adn hash0 I; try tauto; try lia. }
      assert (Nl : forall k, names s' (lock k) = names s (lock k)) by (intros k; apply same_names, O; adn hash0 I; try tauto).
      apply (DS_ext x); [intro j; apply claim_id|]. unfold DS, Gl, Conc_Proofs.locked, Conc_Proofs.marked in *. split; [|split; [|split; [|split; [|split]]]].
      + split; [exact W'|]. split; [apply (at_same s); [exact A|apply O; adn hash0 I; try tauto]|]. rewrite Nl, Nm. auto.
      + exact Hinj.
      + exact Hd.
      + intros j k. rewrite Nm. apply Hm.
      + intro k. rewrite Nl. apply Hl.
      + intros j k. rewrite Nl. apply Hp.
    - (* places the lock *)
      subst x'. assert (Nm : forall k, names s' (marker k) = names s (marker k)).
      { intro k. apply same_names, O. adn hash0 I; try tauto. }
      assert (Nl : forall k, k <> n -> names s' (lock k) = names s (lock k)) by (intros k Hk; apply same_names, O; adn hash0 I; try tauto; try lia).
      assert (Ex : forall j, fst (set_claim x i (Some n, true) j) = fst (x j)).
      { intro j. destruct (Nat.eq_dec j i) as [->|Hj]; rewrite ?claim_same, ?claim_other by assumption; [rewrite E1|]; reflexivity. }
      unfold DS, Gl, Conc_Proofs.locked, Conc_Proofs.marked in *. split; [|split; [|split; [|split; [|split]]]].
      + split; [exact W'|]. split; [apply (at_same s); [exact A|apply O; adn hash0 I; try tauto]|]. rewrite Nl, Nm by lia. auto.
      + intros a b k. rewrite !Ex. apply Hinj.
      + rewrite Ex. exact Hd.
      + intros j k. rewrite Ex, Nm. apply Hm.
      + intros k Hk Hx. destruct (Z.eq_dec k n) as [->|Hkn]; [exists i; apply claim_same|]. rewrite Nl in Hx by exact Hkn.
        destruct (Hl k Hk Hx) as [j Hj]. exists j. rewrite claim_other; [exact Hj|]. intros ->. congruence.
      + intros j k Hj Hk. destruct (Z.eq_dec k n) as [->|Hkn]; [exact N1|]. rewrite Nl by exact Hkn. apply (Hp j k); [|exact Hk].
        destruct (Nat.eq_dec j i) as [->|Hj']; [rewrite claim_same in Hj; congruence|rewrite claim_other in Hj by assumption; exact Hj].
    - (* sizes it *)
      subst x'. assert (Nm : forall k, names s' (marker k) = names s (marker k)).
      { intro k. apply same_names, O. adn hash0 I; try tauto; try lia. }
      assert (Nl : forall k, names s' (lock k) = names s (lock k)).
      { intro k. destruct (Z.eq_dec k n) as [->|Hk]; [exact N1|]. apply same_names, O. adn hash0 I; try tauto; try lia. }
      apply (DS_ext x); [intro j; apply claim_id|]. unfold DS, Gl, Conc_Proofs.locked, Conc_Proofs.marked in *. split; [|split; [|split; [|split; [|split]]]].
      + split; [exact W'|]. split; [apply (at_same s); [exact A|apply O; adn hash0 I; try tauto]|]. rewrite Nl, Nm. auto.
      + exact Hinj.
      + exact Hd.
      + intros j k. rewrite Nm. apply Hm.
      + intro k. rewrite Nl. apply Hl.
      + intros j k. rewrite Nl. apply Hp.
  Qed.
  Lemma GX_other x s i x' s' j : DS x s -> j <> i -> GX (x i) s x' s' ->
    forall n, fst (x j) = Some n -> same_at s s' (marker n) /\ same_at s s' (lock n).
  Proof.
    intros (HG & Hinj & Hd & Hm & Hl & Hp) Hj [[_ ->]|(W' & n & Hn & H)] k Hk; [auto|].
    assert (Hkn : k <> n).
    { intros ->. destruct H as [(E1 & E2 & N1 & N2 & O)|[(E1 & _)|[(E1 & _)|(E1 & _)]]].
      - apply (Hm j n Hk), N1.
      - apply Hj, (Hinj j i n); [exact Hk|rewrite E1; reflexivity].
      - apply Hj, (Hinj j i n); [exact Hk|rewrite E1; reflexivity].
      - apply Hj, (Hinj j i n); [exact Hk|rewrite E1; reflexivity]. }
    destruct H as [(_ & _ & _ & _ & O)|[(_ & _ & _ & O)|[(_ & _ & _ & O)|(_ & _ & _ & O)]]];
      (split; apply O; adn hash0 I; try tauto; try lia).
  Qed.

  Lemma DInv_env c s : DInv c -> wf s -> (forall a, lock_names I a -> same_at (shared c) s a) ->
    DInv (mkConfig (procs c) s (served c)).
  Proof.
    intros (x & HD & HP) W H. exists x. cbn [shared procs].
    assert (HD' : DS x s).
    { destruct HD as (HG & Hinj & Hd & Hm & Hl & Hp). split; [apply (Gl_same (shared c)); auto|]. split; [exact Hinj|]. split; [exact Hd|].
      unfold Conc_Proofs.locked, Conc_Proofs.marked in *. split; [|split].
      - intros j n. rewrite (same_names (shared c) s) by (apply H; auto). apply Hm.
      - intros n. rewrite (same_names (shared c) s) by (apply H; auto). apply Hl.
      - intros j n. rewrite (same_names (shared c) s) by (apply H; auto). apply Hp. }
    split; [exact HD'|]. intros j Hj. eapply dinv_stable; [apply HP, Hj|exact HD'|reflexivity|apply HD|]. intros n _. auto.
  Qed.

  Lemma DInv_stay c i x st sv : DS x (shared c) -> (forall j, j <> dead -> dinv x (shared c) j (procs c j)) -> dinv x (shared c) i st ->
    DInv (mkConfig (set_proc (procs c) i st) (shared c) sv).
  Proof.
    intros HD HP Hi. exists x. cbn [shared procs]. split; [exact HD|]. intros j Hj.
    destruct (Nat.eq_dec j i) as [->|Hji]; [rewrite set_same; exact Hi|rewrite set_other by exact Hji; apply HP, Hj].
  Qed.

  Lemma DInv_go c i : DInv c -> i <> dead -> DInv (go fuel i c).
  Proof.
    intros HI Hd. pose proof HI as (x & HD & HP). pose proof (HP i Hd) as Hi.
    destruct (procs c i) as [p|l|p|p|l|p r|r] eqn:Ei; cbn [dinv] in Hi.
    - destruct Hi as [Ho Hi]. destruct p as [l|e| |B o k]; unfold init_ok in Hi; cbn [wp] in Hi.
      + rewrite (go_eq fuel i c (Ready l) (shared c) None) by (rewrite Ei; reflexivity). apply (DInv_stay c i x); auto. cbn. auto.
      + destruct Hi.
      + unfold go. rewrite Ei. exact HI.
      + specialize (Hi (shared c)). destruct (step o (shared c)) as [r s2] eqn:Es.
        destruct Hi as [HN Hi]; [unfold Rc; auto|]. unfold nothing in HN. subst s2.
        rewrite (go_eq fuel i c (Starting (k r)) (shared c) None) by (rewrite Ei; cbn; rewrite Es; reflexivity).
        apply (DInv_stay c i x); auto. cbn. auto.
    - destruct Hi as [Ho ->].
      rewrite (go_eq fuel i c (Entering (entry fuel (fresh I ch))) (shared c) None) by (rewrite Ei; reflexivity).
      apply (DInv_stay c i x); auto. cbn. rewrite Ho. split; [apply entry_wpx|discriminate].
    - destruct Hi as [Hi Hh]. destruct p as [[l [u|e]]|e| |B o k]; unfold ent in Hi; cbn [wpx] in Hi.
      + destruct Hi as (_ & n & Ex & Hn & Hl). cbn [fst] in Hl.
        rewrite (go_eq fuel i c (Waiting (acquire_loop fuel l)) (shared c) None) by (rewrite Ei; reflexivity).
        apply (DInv_stay c i x); auto. cbn. exists n. split; [exact Ex|]. split; [exact Hn|]. eapply loop_blocked; [|exact Hl]. lia.
      + destruct Hi as (Hi & _). discriminate.
      + destruct Hi.
      + unfold go. rewrite Ei. exact HI.
      + destruct (Hi (shared c)) as [x' Hi'].
        { split; [apply HD|]. split; [apply DS_fact; auto|auto]. }
        destruct (step o (shared c)) as [r s2] eqn:Es. destruct Hi' as [HG Hi'].
        rewrite (go_eq fuel i c (Entering (k r)) s2 None) by (rewrite Ei; cbn; rewrite Es; reflexivity).
        pose proof (GX_DS x (shared c) i x' s2 HD Hd HG) as HD'. exists (set_claim x i x'). cbn [shared procs]. split; [exact HD'|].
        intros j Hj. destruct (Nat.eq_dec j i) as [->|Hji].
        * rewrite set_same. cbn. rewrite claim_same. split; [exact Hi'|].
          intros n Hn. destruct HG as [[-> _]|(_ & n' & Hn' & HG)]; [apply Hh, Hn|].
          destruct HG as [(_ & -> & _)|[(E1 & -> & _)|[(_ & -> & _)|(E1 & -> & _)]]]; rewrite ?E1 in Hn; cbn in Hn; injection Hn as <-; exact Hn'.
        * rewrite set_other by exact Hji. eapply dinv_stable; [apply HP, Hj|exact HD'|apply claim_other, Hji|apply HD|].
          eapply GX_other; eauto.
    - destruct Hi as (n & Ex & Hn & Hb). assert (HL : locked (shared c) h) by apply HD.
      specialize (Hb HL). destruct p as [[l [u|e]]|e| |B o k]; cbn [wp] in Hb; try (destruct Hb; fail).
      + unfold go. rewrite Ei. exact HI.
      + specialize (Hb (shared c) (fun y => y)). destruct (step o (shared c)) as [r s2] eqn:Es. destruct Hb as [HN Hb]. unfold nothing in HN. subst s2.
        rewrite (go_eq fuel i c (Waiting (k r)) (shared c) None) by (rewrite Ei; cbn; rewrite Es; reflexivity).
        apply (DInv_stay c i x); auto. cbn. exists n. split; [exact Ex|]. split; [exact Hn|]. intros _. exact Hb.
    - destruct Hi.
    - destruct Hi as [(l & n & f & -> & Hl & Ex & Hn)|[Ex [[l ->]|[e ->]]]].
      + destruct HD as (HG & Hinj & Hdd & Hm & Hlo & Hp).
        destruct (rel_step3 I ch n f l (shared c) Hl) as (s' & Es & W' & A' & O'); [apply HG|apply (Hm i n); rewrite Ex; reflexivity|].
        assert (St : stage_step fuel (Leaving (rel3 l) r) (shared c) = Some (Leaving (Ret (rel_end l)) r, s', None)).
        { cbn [stage_step]. destruct (rel3 l) eqn:E; cbn [prog_step] in Es; try discriminate. cbn [prog_step]. rewrite Es. reflexivity. }
        rewrite (go_eq fuel i c _ _ _ (eq_trans (f_equal2 _ Ei eq_refl) St)).
        assert (NL : forall k, same_at (shared c) s' (lock k)) by (intros k; apply O'; adn hash0 I; try tauto).
        assert (NM : forall k, k <> n -> same_at (shared c) s' (marker k)) by (intros k Hk; apply O'; adn hash0 I; try tauto; try lia).
        assert (Hno : forall j, j <> i -> fst (x j) <> Some n) by (intros j Hj Hx; apply Hj, (Hinj j i n); [exact Hx|rewrite Ex; reflexivity]).
        assert (Hxi : forall j k b, set_claim x i (None, false) j = (Some k, b) -> j <> i /\ x j = (Some k, b)).
        { intros j k b. destruct (Nat.eq_dec j i) as [->|Hj]; [rewrite claim_same; discriminate|rewrite claim_other by exact Hj; auto]. }
        assert (Hxf : forall j k, fst (set_claim x i (None, false) j) = Some k -> j <> i /\ fst (x j) = Some k).
        { intros j k. destruct (Nat.eq_dec j i) as [->|Hj]; [rewrite claim_same; discriminate|rewrite claim_other by exact Hj; auto]. }
        assert (HD' : DS (set_claim x i (None, false)) s').
        { split; [apply (Gl_same (shared c)); auto; [apply O'; adn hash0 I; try tauto|apply NM; lia]|]. split; [|split; [|split; [|split]]].
          - intros a b k Ha Hb. apply Hxf in Ha, Hb. eapply Hinj; [apply Ha|apply Hb].
          - rewrite claim_other by auto. exact Hdd.
          - intros j k Hj. apply Hxf in Hj as [Hj1 Hj2]. unfold Conc_Proofs.marked in *. rewrite (same_names (shared c) s'); [apply (Hm j k Hj2)|].
            apply NM. intros ->. apply (Hno j Hj1 Hj2).
          - intros k Hk Hx. unfold Conc_Proofs.locked in *. rewrite (same_names _ _ _ (NL k)) in Hx. destruct (Hlo k Hk Hx) as [j Hj]. exists j.
            rewrite claim_other; [exact Hj|]. intros ->. congruence.
          - intros j k Hj Hk. apply Hxi in Hj as [_ Hj]. unfold Conc_Proofs.locked in *. rewrite (same_names _ _ _ (NL k)). eapply Hp; eauto. }
        exists (set_claim x i (None, false)). cbn [shared procs]. split; [exact HD'|]. intros j Hj.
        destruct (Nat.eq_dec j i) as [->|Hji].
        * rewrite set_same. cbn. right. rewrite claim_same. eauto.
        * rewrite set_other by exact Hji. eapply dinv_stable; [apply HP, Hj|exact HD'|apply claim_other, Hji|exact HG|].
          intros k Hk. split; [apply NM|apply NL]. intros ->. apply (Hno j Hji Hk).
      + rewrite (go_eq fuel i c (Finished r) (shared c) None) by (rewrite Ei; reflexivity). apply (DInv_stay c i x); auto.
      + rewrite (go_eq fuel i c (Finished (Exc e)) (shared c) None) by (rewrite Ei; reflexivity). apply (DInv_stay c i x); auto.
    - unfold go. rewrite Ei. exact HI.
  Qed.

  Lemma DInv_reach n c c' : execution I fuel (fun _ j => j <> dead) n c c' -> DInv c -> DInv c'.
  Proof.
    intros HE. induction HE as [c|n c c' i HE IH HR|n c c' s HE IH W Hs]; intro H0; [exact H0|apply DInv_go; auto|apply DInv_env; auto].
  Qed.
  Lemma DInv_nobody c j : DInv c -> j <> dead -> ~ inside c j.
  Proof. intros (x & HD & HP) Hj [l Hl]. specialize (HP j Hj). rewrite Hl in HP. exact HP. Qed.
End Dead.

(** When the holder of slot [h] is inside. *)
Lemma Inv_DInv I fuel ch k0 K c i l : Inv I fuel ch k0 K c -> (forall j, ~ entering c j) -> procs c i = Inside l ->
  exists h, DInv I ch h i c /\ (1 <= h <= k0 + Z.of_nat K)%Z.
Proof.
  intros (t & g & e & HS & HG & HK & HP & HE) Hnone Hi. assert (e = None) by (destruct e as [j|]; [destruct (Hnone j (HE j eq_refl))|reflexivity]). subst e.
  assert (HS0 : forall n, settled g None n) by (now left). pose proof (HP i) as Hpi. rewrite Hi in Hpi. destruct Hpi as (f & Ho & Hv & Hw & Hl).
  destruct HS as (W & A & L & M & O & P). destruct HG as (G0 & G1 & G2 & G3 & G4 & G5). specialize (G3 Hv).
  exists (g_h g). split; [|unfold room in HK; lia].
  set (x := fun j => match g_own g j with Some n => (Some n, Z.leb (g_h g) n) | None => (None, false) end).
  assert (Hx : forall j, fst (x j) = g_own g j) by (intro j; unfold x; destruct (g_own g j); reflexivity).
  exists x. split.
  - split; [|split; [|split; [|split; [|split]]]].
    + split; [exact W|]. rewrite Hw in A. cbn [b2z] in A. replace (g_h g - 1 + 0)%Z with (g_h g - 1)%Z in A by lia. split; [exact A|].
      split; [apply (L _ (HS0 _)); lia|apply M; lia].
    + intros a b n. rewrite !Hx. apply G4.
    + rewrite Hx. exact Ho.
    + intros j n. rewrite Hx. apply P.
    + intros n Hn HL. apply (L n (HS0 n)) in HL. destruct (O n (HS0 n) (M n HL)) as [_ (j & Hj)]. exists j. unfold x. rewrite Hj.
      destruct (Z.leb_spec (g_h g) n); [reflexivity|lia].
    + intros j n Hj Hn. apply (L n (HS0 n)). assert (Ej : g_own g j = Some n) by (rewrite <- Hx, Hj; reflexivity).
      destruct (P j n Ej). lia.
  - intros j Hj. specialize (HP j). assert (Hne : g_own g j <> Some (g_h g)) by (intro E; apply Hj, (G4 j i (g_h g)); auto).
    destruct (procs c j) as [p|l'|p|p|l'|p r|r]; cbn [pinv dinv] in *.
    + destruct HP as [H1 H2]. split; [unfold x; rewrite H1; reflexivity|exact H2].
    + destruct HP as [H1 H2]. split; [unfold x; rewrite H1; reflexivity|exact H2].
    + destruct HP as [HP _]. discriminate.
    + destruct HP as (n & f' & H1 & H2 & H3 & H4 & H5 & _ & HB & _). exists n.
      assert (Hn : n <> g_h g) by (intros ->; congruence).
      split; [unfold x; rewrite H1; destruct (Z.leb_spec (g_h g) n); [reflexivity|lia]|]. split; [lia|]. apply HB. lia.
    + destruct HP as (f' & H1 & _). congruence.
    + destruct HP as [_ [(l' & f' & n & H1 & H2 & [(E & En & _)|[(E & En & _)|(E & En)]])|(H1 & l' & E)]].
      * congruence.
      * congruence.
      * left. exists l', n, f'. split; [exact E|]. split; [exact H2|]. split; [|exact En]. unfold x. rewrite H1. destruct (Z.leb_spec (g_h g) n); [lia|reflexivity].
      * right. split; [unfold x; rewrite H1; reflexivity|]. eauto.
    + destruct HP as [H1 _]. unfold x. rewrite H1. reflexivity.
Qed.

(** From the moment the holder last moved. *)
Lemma last_move I fuel ch k0 n c0 c i : Inv I fuel ch k0 0 c0 -> ~ inside c0 i ->
  execution I fuel uninterleaved n c0 c -> (k0 + Z.of_nat n < 256 ^ 5)%Z -> inside c i ->
  exists c1 n1 n2, n1 <= n /\ Inv I fuel ch k0 n1 c1 /\ (forall j, ~ entering c1 j) /\ inside c1 i /\ execution I fuel (fun _ j => j <> i) n2 c1 c.
Proof.
  intros H0 Hn0 HE. induction HE as [c0|n c0 c i' HE IH HR|n c0 c s HE IH W Hs]; intros Hb Hi; [destruct (Hn0 Hi)| |].
  - destruct (Nat.eq_dec i' i) as [->|Hne].
    + exists (go fuel i c), (S n), 0. split; [lia|]. split; [|split; [|split; [exact Hi|constructor]]].
      * apply (Inv_reach I fuel ch k0 (S n) c0 (go fuel i c) H0); [|lia]. apply (execution_weak I fuel uninterleaved); [apply uninterleaved_orderly|]. now constructor.
      * intros j [p Ej]. destruct (Nat.eq_dec j i) as [->|Hj]; [destruct Hi as [l Hl]; congruence|].
        apply (HR j Hj). exists p. revert Ej. unfold go. destruct (stage_step fuel (procs c i) (shared c)) as [[[st s'] o]|]; cbn [procs]; [|auto].
        rewrite set_other by exact Hj. auto.
    + assert (Hi' : inside c i).
      { destruct Hi as [l Hl]. exists l. revert Hl. unfold go. destruct (stage_step fuel (procs c i') (shared c)) as [[[st s'] o]|]; cbn [procs]; [|auto].
        rewrite set_other by auto. auto. }
      destruct (IH H0 Hn0) as (c1 & n1 & n2 & H1 & H2 & H3 & H4 & H5); [lia|exact Hi'|]. exists c1, n1, (S n2). split; [lia|]. split; [exact H2|].
      split; [exact H3|]. split; [exact H4|]. now constructor.
  - destruct (IH H0 Hn0) as (c1 & n1 & n2 & H1 & H2 & H3 & H4 & H5); [lia|exact Hi|]. exists c1, n1, (S n2). split; [lia|]. split; [exact H2|].
    split; [exact H3|]. split; [exact H4|]. now constructor.
Qed.
Lemma execution_trans I fuel R n m c1 c2 c3 : execution I fuel R n c1 c2 -> execution I fuel R m c2 c3 -> execution I fuel R (m + n) c1 c3.
Proof. intros H1 H2. induction H2 as [c|m c c' i HE IH HR|m c c' s HE IH W Hs]; cbn; [exact H1|constructor; auto|constructor; auto]. Qed.

Lemma dead_holder_blocks name fuel k s n m c c' i j : free_lock name k s ->
  execution name fuel uninterleaved n (at_start name s) c -> (k + Z.of_nat n < 256 ^ 5)%Z -> inside c i ->
  execution name fuel (fun _ j => j <> i) m c c' -> j <> i -> ~ inside c' j.
Proof.
  intros HF HE Hb Hi HE' Hj. destruct (start_inv _ fuel _ _ HF) as [ch H0].
  destruct (last_move name fuel ch k n (at_start name s) c i H0) as (c1 & n1 & n2 & L & H1 & Hnone & H2 & H3); auto.
  { intros [l Hl]. cbn in Hl. discriminate. }
  destruct H2 as [l Hl]. destruct (Inv_DInv _ _ _ _ _ _ _ _ H1 Hnone Hl) as (h & HD & Hh).
  assert (Hh' : (1 <= h < 256 ^ 5)%Z) by lia.
  apply (DInv_nobody name ch h i c' j); [|exact Hj].
  apply (DInv_reach name fuel ch h Hh' i _ _ _ (execution_trans _ _ _ _ _ _ _ _ H3 HE') HD).
Qed.
Lemma dead_holder_orderly name fuel k s n m c c' i j : free_lock name k s ->
  execution name fuel (orderly name) n (at_start name s) c -> (k + Z.of_nat n < 256 ^ 5)%Z -> inside c i -> (forall x, ~ entering c x) ->
  execution name fuel (fun _ j => j <> i) m c c' -> j <> i -> ~ inside c' j.
Proof.
  intros HF HE Hb [l Hl] Hnone HE' Hj. destruct (start_inv _ fuel _ _ HF) as [ch H0].
  pose proof (Inv_reach name fuel ch k n _ _ H0 HE Hb) as H1. destruct (Inv_DInv _ _ _ _ _ _ _ _ H1 Hnone Hl) as (h & HD & Hh).
  assert (Hh' : (1 <= h < 256 ^ 5)%Z) by lia.
  apply (DInv_nobody name ch h i c' j); [|exact Hj].
  exact (DInv_reach name fuel ch h Hh' i _ _ _ HE' HD).
Qed.
