(** Nobody has to wait for ever: the others can always be brought to the end. *)
From Verif Require Export Conc_Mutex.

Definition value {A} (p : prog A) : option (res A) := match p with Ret a => Some (Ok a) | Raise e => Some (Exc e) | _ => None end.
Definition ended {A} (p : prog A) : Prop := match p with Do _ _ => False | _ => True end.

Section Free.
  Variable I : string.
  Variable fuel : nat.
  Variable ch : N.
  Variable k0 : Z.
  Notation known := (known I fuel ch k0).
  Notation obj := (obj I ch).

  (** Anything that contains a configuration and can make its processes move:
      [good] is what is known about it, [reach] how it can go on. *)
  Variable X : Type.
  Variable u : X -> config.
  Variable reach : X -> X -> Prop.
  Variable good : nat -> X -> Prop.
  Hypothesis reach_refl : forall x, reach x x.
  Hypothesis reach_trans : forall x y z, reach x y -> reach y z -> reach x z.
  Hypothesis good_more : forall K K' x, good K x -> K <= K' -> good K' x.
  Hypothesis go_ok : forall K x i, good K x -> (k0 + Z.of_nat K < 256 ^ 5)%Z -> orderly I (u x) i -> ~ inside (u x) i ->
    exists x', reach x x' /\ good (asks (u x) i + K) x' /\ u x' = go fuel i (u x).
  Hypothesis leave_ok : forall K x i, good K x -> (k0 + Z.of_nat K < 256 ^ 5)%Z -> orderly I (u x) i -> inside (u x) i ->
    exists x' s, reach x x' /\ good K x' /\ wf s /\ (forall a, lock_names I a -> same_at (shared (u x)) s a) /\
      u x' = go fuel i (mkConfig (procs (u x)) s (served (u x))).
  Hint Resolve reach_refl : core.

  Definition kn (g : ghost) (e : option nat) (K : nat) (t : nat -> nat) (c : X) : Prop := known g e K t (u c) /\ good K c.
  Lemma kn_more g e K K' t c : kn g e K t c -> K <= K' -> kn g e K' t c.
  Proof. intros [H1 H2] HK. split; [eapply known_more; eauto|eapply good_more; eauto]. Qed.

  (** Nobody else is taking a slot. *)
  Definition alone (c : X) (i : nat) : Prop := forall j, j <> i -> ~ entering (u c) j.
  Lemma alone_orderly c i : alone c i -> orderly I (u c) i.
  Proof. intros H j Hj He. destruct (H j Hj He). Qed.

  (** Only process [i] moves. *)
  Definition leads (i : nat) (g : ghost) (t : nat -> nat) (c : X) (K : nat) (g' : ghost) (e' : option nat) (t' : nat -> nat) (c' : X) : Prop :=
    reach c c' /\ kn g' e' K t' c' /\ advances i g g' /\ (forall j, j <> i -> procs (u c') j = procs (u c) j /\ t' j = t j).
  Lemma leads_refl i g e K t c : kn g e K t c -> leads i g t c K g e t c.
  Proof. intro H. split; [auto|]. split; [exact H|]. split; [apply advances_refl|auto]. Qed.
  Lemma leads_trans i g1 t1 c1 K2 g2 e2 t2 c2 K3 g3 e3 t3 c3 :
    leads i g1 t1 c1 K2 g2 e2 t2 c2 -> leads i g2 t2 c2 K3 g3 e3 t3 c3 -> leads i g1 t1 c1 K3 g3 e3 t3 c3.
  Proof.
    intros (A1 & A2 & A3 & A4) (B1 & B2 & B3 & B4). split; [eapply reach_trans; eauto|]. split; [exact B2|]. split; [eapply advances_trans; eauto|].
    intros j Hj. destruct (A4 j Hj), (B4 j Hj). split; congruence.
  Qed.
  Lemma leads_alone i g t c K g' e' t' c' : leads i g t c K g' e' t' c' -> alone c i -> alone c' i.
  Proof. intros (_ & _ & _ & H) Ha j Hj [p Hp]. destruct (H j Hj) as [E _]. apply (Ha j Hj). exists p. congruence. Qed.
  Lemma go_elsewhere i (c : config) j : j <> i -> procs (go fuel i c) j = procs c j.
  Proof. intro H. unfold go. destruct (stage_step fuel (procs c i) (shared c)) as [[[st s] o]|]; cbn [procs]; [now apply set_other|reflexivity]. Qed.
  Lemma leads_go i g e K t c : kn g e K t c -> (k0 + Z.of_nat K < 256 ^ 5)%Z -> alone c i -> ~ inside (u c) i ->
    exists g' e' c', leads i g t c (asks (u c) i + K) g' e' (bump (u c) t i) c' /\ u c' = go fuel i (u c).
  Proof.
    intros [H HG] Hb Ha Hn. destruct (known_go I fuel ch k0 g e K t (u c) i H Hb (alone_orderly c i Ha)) as (g' & e' & H1 & H2).
    destruct (go_ok K c i HG Hb (alone_orderly c i Ha) Hn) as (c' & R1 & G1 & E1). exists g', e', c'. split; [|exact E1].
    split; [exact R1|]. split; [split; [rewrite E1; exact H2|exact G1]|]. split; [exact H1|]. intros j Hj. rewrite E1. split; [now apply go_elsewhere|now apply bump_other].
  Qed.
  Lemma go_stage i c c' st s o : stage_step fuel (procs (u c) i) (shared (u c)) = Some (st, s, o) -> u c' = go fuel i (u c) -> procs (u c') i = st /\ shared (u c') = s.
  Proof. intros E ->. rewrite (go_eq fuel i (u c) st s o E). cbn [procs shared]. split; [apply set_same|reflexivity]. Qed.
  (** Whoever is inside can leave. *)
  Lemma leads_leave i l g e K t c : kn g e K t c -> (k0 + Z.of_nat K < 256 ^ 5)%Z -> alone c i -> procs (u c) i = Inside l ->
    exists g' e' t' c', leads i g t c K g' e' t' c' /\ procs (u c') i = Leaving (release l) (Ok tt).
  Proof.
    intros [H HG] Hb Ha Hi. destruct (leave_ok K c i HG Hb (alone_orderly c i Ha)) as (c' & s & R1 & G1 & W & Hs & E1); [now exists l|].
    pose proof (known_env I fuel ch k0 g e K t (u c) s H W Hs) as H0. set (c0 := mkConfig (procs (u c)) s (served (u c))) in *.
    destruct (known_go I fuel ch k0 g e K t c0 i H0 Hb (alone_orderly c i Ha)) as (g' & e' & H1 & H2).
    assert (E0 : asks c0 i = 0) by (unfold asks; cbn [c0 procs]; now rewrite Hi). rewrite E0 in H2.
    exists g', e', (bump c0 t i), c'. split.
    - split; [exact R1|]. split; [split; [rewrite E1; exact H2|exact G1]|]. split; [exact H1|].
      intros j Hj. rewrite E1. split; [now apply (go_elsewhere i c0)|now apply bump_other].
    - rewrite E1. rewrite (go_eq fuel i c0 (Leaving (release l) (Ok tt)) s None); [apply set_same|]. cbn [c0 procs shared]. now rewrite Hi.
  Qed.

  (** A process runs on alone to the end of what it is doing. *)
  Lemma solo {A} (F : prog A -> stage) i :
    (forall B (o : op B) k s r s2, step o s = (r, s2) -> stage_step fuel (F (Do o k)) s = Some (F (k r), s2, None)) ->
    (forall p l, F p <> Ready l) -> (forall p l, F p <> Inside l) ->
    forall (p : prog A) g e K t c, kn g e K t c -> (k0 + Z.of_nat K < 256 ^ 5)%Z -> alone c i -> procs (u c) i = F p ->
    exists g' e' t' c' q, leads i g t c K g' e' t' c' /\ procs (u c') i = F q /\ ended q /\ run p (shared (u c)) = (value q, shared (u c')).
  Proof.
    intros HX HR HI. induction p as [a|x| |B o k IH]; intros g e K t c HK Hb Ha Hi.
    1-3: exists g, e, t, c; eexists; split; [apply leads_refl, HK|]; split; [exact Hi|]; split; [exact Logic.I|]; reflexivity.
    destruct (step o (shared (u c))) as [r s2] eqn:Es.
    destruct (leads_go i g e K t c HK Hb Ha) as (g1 & e1 & c1 & H1 & Ec1).
    { intros [l Hl]. destruct (HI (Do o k) l). congruence. }
    assert (E0 : asks (u c) i = 0). { unfold asks. destruct (procs (u c) i) eqn:E; try reflexivity. destruct (HR (Do o k) l). congruence. }
    rewrite E0 in H1. cbn [Nat.add] in H1.
    destruct (go_stage i c c1 _ _ _ (eq_trans (f_equal2 (stage_step fuel) Hi eq_refl) (HX B o k (shared (u c)) r s2 Es)) Ec1) as [S1 S2].
    pose proof (leads_alone _ _ _ _ _ _ _ _ _ H1 Ha) as Ha1. pose proof H1 as (_ & HK1 & _).
    destruct (IH r g1 e1 K _ _ HK1 Hb Ha1 S1) as (g' & e' & t' & c' & q & L & Q1 & Q2 & Q3).
    exists g', e', t', c', q. split; [eapply leads_trans; eauto|]. split; [exact Q1|]. split; [exact Q2|]. cbn [run]. rewrite Es. rewrite S2 in Q3. exact Q3.
  Qed.

  (** One passage to the next stage. *)
  Lemma pass i g e K t c st s o : kn g e K t c -> (k0 + Z.of_nat K < 256 ^ 5)%Z -> alone c i -> asks (u c) i = 0 -> ~ inside (u c) i ->
    stage_step fuel (procs (u c) i) (shared (u c)) = Some (st, s, o) ->
    exists g' e' c', leads i g t c K g' e' (bump (u c) t i) c' /\ procs (u c') i = st.
  Proof.
    intros HK Hb Ha E0 Hn Es. destruct (leads_go i g e K t c HK Hb Ha Hn) as (g1 & e1 & c1 & H1 & Ec). rewrite E0 in H1. exists g1, e1, c1.
    split; [exact H1|]. apply (go_stage i c c1 _ _ _ Es Ec).
  Qed.

  (** Whoever is releasing can finish. *)
  Lemma finish_leaving i p r g e K t c : kn g e K t c -> (k0 + Z.of_nat K < 256 ^ 5)%Z -> alone c i -> procs (u c) i = Leaving p r ->
    exists g' e' t' c', leads i g t c K g' e' t' c' /\ procs (u c') i = Finished (Ok tt).
  Proof.
    intros HK Hb Ha Hi.
    destruct (solo (fun p => Leaving p r) i) with (p := p) (g := g) (e := e) (K := K) (t := t) (c := c) as (g1 & e1 & t1 & c1 & q & L1 & Q1 & Q2 & _); auto.
    { intros B o k s x s2 Es. cbn. rewrite Es. reflexivity. } { discriminate. } { discriminate. }
    pose proof L1 as (_ & HK1 & _ & _). pose proof (leads_alone _ _ _ _ _ _ _ _ _ L1 Ha) as Ha1.
    pose proof (proj1 HK1) as (HS & HG & HR & HP & _). specialize (HP i). rewrite Q1 in HP. destruct HP as [-> HP].
    assert (Hend : exists l, q = Ret l).
    { destruct HP as [(l & f & n & Ho & Hl & HC)|(_ & l & E)]; [exfalso|eauto].
      destruct HG as (G0 & G1 & G2 & G3 & G4 & G5). unfold room in HR.
      destruct HC as [(E & En & Ev & _)|[(E & En & Ev & _)|(E & En)]]; subst q.
      - specialize (G3 Ev). destruct Hl as (_ & L2 & L3 & _ & _ & _ & L7 & _). unfold release in Q2. rewrite L2, L3, L7, En in Q2.
        rewrite to_bytes_in in Q2 by (change (Z.of_nat 5) with 5%Z; destruct e1; lia). exact Q2.
      - destruct Hl as (_ & _ & _ & _ & _ & (x & L6) & _). unfold rel2 in Q2. rewrite L6 in Q2. exact Q2.
      - destruct (obj_rel3 I ch _ _ _ _ Hl) as [k Ek]. rewrite Ek in Q2. exact Q2. }
    destruct Hend as [l ->].
    destruct (pass i g1 e1 K t1 c1 (Finished (Ok tt)) (shared (u c1)) None HK1 Hb Ha1) as (g2 & e2 & x2 & L2 & Q3);
      [unfold asks; now rewrite Q1|intros [lx Hx]; congruence|rewrite Q1; reflexivity|].
    do 4 eexists. split; [eapply leads_trans; eauto|exact Q3].
  Qed.

  Lemma not_entering g K t c j : kn g None K t c -> ~ entering (u c) j.
  Proof. intros [(_ & _ & _ & HP & _) _] [p Hp]. specialize (HP j). rewrite Hp in HP. destruct HP as [HP _]. discriminate. Qed.
  Lemma settle g e K t c : kn g e K t c -> (forall j, ~ entering (u c) j) -> e = None.
  Proof. intros [(_ & _ & _ & _ & HE) _] H. destruct e as [j|]; [destruct (H j (HE j eq_refl))|reflexivity]. Qed.
  Lemma alone_none g K t c i : kn g None K t c -> alone c i.
  Proof. intros H j _. eapply not_entering; eauto. Qed.
  Lemma leads_none i g t c K g' e' t' c' st : leads i g t c K g' e' t' c' -> alone c i -> procs (u c') i = st -> (forall p, st <> Entering p) -> e' = None.
  Proof.
    intros L Ha Hi Hn. pose proof L as (_ & HK & _ & _). eapply settle; eauto. intro j. destruct (Nat.eq_dec j i) as [->|Hj].
    - intros [p Hp]. apply (Hn p). congruence.
    - eapply leads_alone; eauto.
  Qed.

  (** Whoever has the earliest slot can finish. *)
  Lemma finish_first i g K t c : kn g None K t c -> (k0 + Z.of_nat K < 256 ^ 5)%Z -> g_own g i = Some (g_h g) ->
    (forall p, procs (u c) i = Waiting p -> t i < fuel) ->
    exists g' t' c', leads i g t c K g' None t' c' /\ procs (u c') i = Finished (Ok tt).
  Proof.
    intros HK Hb Ho Ht. pose proof (alone_none _ _ _ _ i HK) as Ha. pose proof (proj1 HK) as (HS & HG & HR & HP & _). pose proof (HP i) as Hi.
    assert (Fin : forall g1 t1 c1 p r, leads i g t c K g1 None t1 c1 -> procs (u c1) i = Leaving p r ->
      exists g' t' c', leads i g t c K g' None t' c' /\ procs (u c') i = Finished (Ok tt)).
    { intros g1 t1 c1 p r L1 E. pose proof L1 as (_ & HK1 & _ & _). pose proof (leads_alone _ _ _ _ _ _ _ _ _ L1 Ha) as Ha1.
      destruct (finish_leaving i p r g1 None K t1 c1 HK1 Hb Ha1 E) as (g2 & e2 & t2 & c2 & L2 & E2).
      pose proof (leads_none _ _ _ _ _ _ _ _ _ _ L2 Ha1 E2 ltac:(discriminate)). subst e2.
      exists g2, t2, c2. split; [eapply leads_trans; eauto|exact E2]. }
    assert (Mid : forall g1 t1 c1 l, leads i g t c K g1 None t1 c1 -> procs (u c1) i = Inside l ->
      exists g' t' c', leads i g t c K g' None t' c' /\ procs (u c') i = Finished (Ok tt)).
    { intros g1 t1 c1 l L1 E. pose proof L1 as (_ & HK1 & _ & _). pose proof (leads_alone _ _ _ _ _ _ _ _ _ L1 Ha) as Ha1.
      destruct (leads_leave i l g1 None K t1 c1 HK1 Hb Ha1 E) as (g2 & e2 & t2 & c2 & L2 & E2).
      pose proof (leads_none _ _ _ _ _ _ _ _ _ _ L2 Ha1 E2 ltac:(discriminate)). subst e2.
      eapply Fin; [eapply leads_trans; eauto|exact E2]. }
    destruct (procs (u c) i) as [p|l|p|p|l|p r|r] eqn:Ei; cbn [pinv] in Hi.
    - destruct Hi as [Hi _]. congruence.
    - destruct Hi as [Hi _]. congruence.
    - destruct Hi as [Hi _]. discriminate.
    - destruct Hi as (n & f & H1 & H2 & H3 & H4 & H5 & H6 & HB & HA). rewrite Ho in H1. injection H1 as <-.
      specialize (HA 0 (Ht p eq_refl)).
      assert (Hgone : all_gone I (g_h g) f (shared (u c))).
      { intros k Hk. destruct HS as (_ & _ & L & _). destruct (names (shared (u c)) (lock_address I k)) eqn:E; [|reflexivity].
        assert (Hx : locked I (shared (u c)) k) by (unfold locked; congruence). apply L in Hx; [lia|now left]. }
      pose proof (alive_run _ _ _ _ _ _ HA Hgone) as Hrun.
      destruct (solo Waiting i) with (p := p) (g := g) (e := @None nat) (K := K) (t := t) (c := c) as (g1 & e1 & t1 & c1 & q & L1 & Q1 & Q2 & Q3); auto.
      { intros B o k s x s2 Es. cbn. rewrite Es. reflexivity. } { discriminate. } { discriminate. }
      pose proof (leads_none _ _ _ _ _ _ _ _ _ _ L1 Ha Q1 ltac:(discriminate)). subst e1.
      pose proof L1 as (_ & HK1 & _ & _). pose proof (leads_alone _ _ _ _ _ _ _ _ _ L1 Ha) as Ha1.
      pose proof (proj1 HK1) as (_ & _ & _ & HP1 & _). specialize (HP1 i). rewrite Q1 in HP1. destruct HP1 as (n1 & f1 & _ & _ & _ & _ & _ & Hw & _).
      rewrite Q3 in Hrun. destruct q as [[l [[]|x]]|x| |B o k]; cbn [value ended fst] in *; try contradiction; [|destruct Hw as [Hw _]; discriminate].
      destruct (pass i g1 None K t1 c1 (Inside l) (shared (u c1)) (Some (l_number l)) HK1 Hb Ha1) as (g2 & e2 & x2 & L2 & E2);
        [unfold asks; now rewrite Q1|intros [lx Hx]; congruence|rewrite Q1; reflexivity|].
      pose proof (leads_none _ _ _ _ _ _ _ _ _ _ L2 Ha1 E2 ltac:(discriminate)). subst e2.
      eapply Mid; [eapply leads_trans; eauto|exact E2].
    - apply (Mid g t c l); [apply leads_refl, HK|exact Ei].
    - apply (Fin g t c p r); [apply leads_refl, HK|exact Ei].
    - destruct Hi as [Hi _]. congruence.
  Qed.

  (** Everybody who has a slot can finish. *)
  Definition moved_on (c c' : X) : Prop := forall i, procs (u c') i = procs (u c) i \/ procs (u c') i = Finished (Ok tt).
  Lemma moved_refl c : moved_on c c. Proof. now left. Qed.
  Lemma moved_trans c1 c2 c3 : moved_on c1 c2 -> moved_on c2 c3 -> moved_on c1 c3.
  Proof. intros A B i. destruct (A i), (B i); [left|right|right|right]; congruence. Qed.
  Lemma drain N : forall g K t c, kn g None K t c -> (k0 + Z.of_nat K < 256 ^ 5)%Z -> (forall i p, procs (u c) i = Waiting p -> t i < fuel) ->
    (k0 + Z.of_nat K + 1 - g_h g <= Z.of_nat N)%Z ->
    exists g' t' c', reach c c' /\ kn g' None K t' c' /\ (g_m g' < g_h g')%Z /\ moved_on c c'.
  Proof.
    induction N as [|N IH]; intros g K t c HK Hb Ht HN; pose proof (proj1 HK) as (HS & HG & HR & HP & _);
      (destruct (Z.lt_ge_cases (g_m g) (g_h g)) as [Hlt|Hge]; [exists g, t, c; split; [auto|]; split; [exact HK|]; split; [exact Hlt|apply moved_refl]|]).
    { unfold room in HR. lia. }
    pose proof HS as (_ & _ & _ & M & O & _). destruct (O (g_h g)) as [_ (i & Ho)]; [now left|apply M; lia|].
    destruct (finish_first i g K t c HK Hb Ho (Ht i)) as (g1 & t1 & c1 & L1 & E1). pose proof L1 as (R1 & HK1 & (A1 & A2 & A3) & F1).
    assert (Hm1 : moved_on c c1). { intro j. destruct (Nat.eq_dec j i) as [->|Hj]; [now right|left; apply F1, Hj]. }
    assert (Hh : (g_h g < g_h g1)%Z).
    { destruct (Z.eq_dec (g_h g1) (g_h g)) as [E|Hne]; [exfalso|lia].
      pose proof (proj1 HK1) as ((_ & _ & _ & M1 & O1 & _) & _ & _ & HP1 & _). destruct (O1 (g_h g)) as [_ (j & Hj)]; [now left|apply M1; lia|].
      destruct (Nat.eq_dec j i) as [->|Hji].
      - specialize (HP1 i). rewrite E1 in HP1. destruct HP1 as [HP1 _]. congruence.
      - rewrite (A3 j Hji) in Hj. destruct HG as (_ & _ & _ & _ & G4 & _). apply Hji, (G4 j i (g_h g)); auto. }
    destruct (IH g1 K t1 c1 HK1 Hb) as (g2 & t2 & c2 & R2 & HK2 & E2 & M2).
    - intros j p Hj. destruct (Nat.eq_dec j i) as [->|Hji]; [congruence|]. destruct (F1 j Hji) as [F2 ->]. apply (Ht j p). congruence.
    - lia.
    - exists g2, t2, c2. split; [eapply reach_trans; eauto|]. split; [exact HK2|]. split; [exact E2|eapply moved_trans; eauto].
  Qed.

  (** Whoever is taking a slot gets to wait. *)
  Lemma finish_entering i p g e K t c : kn g e K t c -> (k0 + Z.of_nat K < 256 ^ 5)%Z -> K <= fuel -> procs (u c) i = Entering p ->
    exists g' t' c', leads i g t c K g' None t' c' /\ (exists q, procs (u c') i = Waiting q) /\ t' i = 0.
  Proof.
    intros HK Hb Hf Hi.
    assert (Ha : alone c i).
    { intros j Hj [p' Hp']. pose proof (proj1 HK) as (_ & _ & _ & HP & _). pose proof (HP i) as H1. pose proof (HP j) as H2. rewrite Hi in H1. rewrite Hp' in H2.
      destruct H1 as [H1 _], H2 as [H2 _]. congruence. }
    destruct (solo Entering i) with (p := p) (g := g) (e := e) (K := K) (t := t) (c := c) as (g1 & e1 & t1 & c1 & q & L1 & Q1 & Q2 & Q3); auto.
    { intros B o k s x s2 Es. cbn. rewrite Es. reflexivity. } { discriminate. } { discriminate. }
    pose proof L1 as (_ & HK1 & _ & _). pose proof (leads_alone _ _ _ _ _ _ _ _ _ L1 Ha) as Ha1.
    pose proof (proj1 HK1) as (_ & _ & HR1 & HP1 & _). specialize (HP1 i). rewrite Q1 in HP1. destruct HP1 as (Ee & _ & (cc & _ & Hw) & _). subst e1. unfold room in HR1.
    unfold Conc_Proofs.enter_ok in Hw.
    destruct q as [[l [[]|x]]|x| |B o k]; cbn [ended] in Q2; cbn [wpt] in Hw; try contradiction; [|destruct Hw as [Hw _]; discriminate|unfold short in Hw; lia].
    destruct (pass i g1 (Some i) K t1 c1 (Waiting (acquire_loop fuel l)) (shared (u c1)) None HK1 Hb Ha1) as (g2 & e2 & x2 & L2 & E2);
      [unfold asks; now rewrite Q1|intros [lx Hx]; congruence|rewrite Q1; reflexivity|].
    pose proof (leads_none _ _ _ _ _ _ _ _ _ _ L2 Ha1 E2 ltac:(discriminate)). subst e2.
    do 3 eexists. split; [eapply leads_trans; eauto|]. split; [eauto|]. rewrite bump_same, Q1. reflexivity.
  Qed.

  (** A free lock serves any process that comes. *)
  Lemma serve i g K t c : kn g None K t c -> (g_m g < g_h g)%Z -> (k0 + Z.of_nat (S K) < 256 ^ 5)%Z -> S K <= fuel ->
    exists g' t' c', reach c c' /\ kn g' None (S K) t' c' /\ (g_m g' < g_h g')%Z /\ moved_on c c' /\ procs (u c') i = Finished (Ok tt).
  Proof.
    intros HK Hlt Hb Hf. assert (Hb0 : (k0 + Z.of_nat K < 256 ^ 5)%Z) by lia. assert (HK' : kn g None (S K) t c) by (eapply kn_more; eauto).
    pose proof (alone_none _ _ _ _ i HK) as Ha.
    assert (Away : forall g1 K1 t1 c1 j, kn g1 None K1 t1 c1 -> (g_m g1 < g_h g1)%Z -> forall p, procs (u c1) j <> Waiting p).
    { intros g1 K1 t1 c1 j [((_ & _ & _ & _ & _ & P1) & _ & _ & HP1 & _) _] Hl p E. specialize (HP1 j). rewrite E in HP1.
      destruct HP1 as (n & f & H1 & H2 & _). destruct (P1 j n H1) as [H3 _]. lia. }
    assert (Wait : forall g1 t1 c1 q, leads i g t c (S K) g1 None t1 c1 -> procs (u c1) i = Waiting q -> t1 i < fuel ->
      exists g' t' c', reach c c' /\ kn g' None (S K) t' c' /\ (g_m g' < g_h g')%Z /\ moved_on c c' /\ procs (u c') i = Finished (Ok tt)).
    { intros g1 t1 c1 q (R1 & HK1 & _ & F1) Q1 T1.
      destruct (drain (Z.to_nat (k0 + Z.of_nat (S K) + 1 - g_h g1)) g1 (S K) t1 c1 HK1 Hb) as (g2 & t2 & c2 & R2 & HK2 & E2 & M2).
      - intros j p Hj. destruct (Nat.eq_dec j i) as [->|Hji]; [exact T1|]. destruct (F1 j Hji) as [Ej _].
        destruct (Away g K t c j HK Hlt p). congruence.
      - lia.
      - exists g2, t2, c2. split; [eapply reach_trans; eauto|]. split; [exact HK2|]. split; [exact E2|].
        assert (Ei : procs (u c2) i = Finished (Ok tt)). { destruct (M2 i) as [E|E]; [|exact E]. destruct (Away g2 (S K) t2 c2 i HK2 E2 q). congruence. }
        split; [|exact Ei]. intro j. destruct (Nat.eq_dec j i) as [->|Hji]; [now right|]. destruct (F1 j Hji) as [Ej _]. rewrite <- Ej. apply M2. }
    assert (Rdy : forall g1 t1 c1 l, leads i g t c K g1 None t1 c1 -> procs (u c1) i = Ready l ->
      exists g' t' c', reach c c' /\ kn g' None (S K) t' c' /\ (g_m g' < g_h g')%Z /\ moved_on c c' /\ procs (u c') i = Finished (Ok tt)).
    { intros g1 t1 c1 l L1 Q1. pose proof L1 as (_ & HK1 & _ & _). pose proof (leads_alone _ _ _ _ _ _ _ _ _ L1 Ha) as Ha1.
      destruct (leads_go i g1 None K t1 c1 HK1 Hb0 Ha1) as (g2 & e2 & c2 & L2 & Ec2); [intros [lx Hx]; congruence|]. unfold asks in L2. rewrite Q1 in L2. cbn [Nat.add] in L2.
      destruct (go_stage i c1 c2 (Entering (entry fuel l)) (shared (u c1)) None) as [E2 _]; [rewrite Q1; reflexivity|exact Ec2|]. pose proof L2 as (_ & HK2 & _ & _).
      destruct (finish_entering i _ g2 e2 (S K) _ _ HK2 Hb Hf E2) as (g3 & t3 & c3 & L3 & [q Q3] & T3).
      eapply Wait; [eapply leads_trans; [exact L1|eapply leads_trans; [exact L2|exact L3]]|exact Q3|lia]. }
    pose proof (proj1 HK) as (HS & HG & HR & HP & _). specialize (HP i).
    assert (HM : forall g1 t1 c1 K1, leads i g t c K1 g1 None t1 c1 -> procs (u c1) i = Finished (Ok tt) -> moved_on c c1).
    { intros g1 t1 c1 K1 (_ & _ & _ & F) E j. destruct (Nat.eq_dec j i) as [->|Hji]; [now right|]. left. now apply F. }
    destruct (procs (u c) i) as [p|l|p|p|l|p r|r] eqn:Ei; cbn [pinv] in HP.
    - destruct (solo Starting i) with (p := p) (g := g) (e := @None nat) (K := K) (t := t) (c := c) as (g1 & e1 & t1 & c1 & q & L1 & Q1 & Q2 & Q3); auto.
      { intros B o k s x s2 Es. cbn. rewrite Es. reflexivity. } { discriminate. } { discriminate. }
      pose proof (leads_none _ _ _ _ _ _ _ _ _ _ L1 Ha Q1 ltac:(discriminate)). subst e1.
      pose proof L1 as (_ & HK1 & _ & _). pose proof (leads_alone _ _ _ _ _ _ _ _ _ L1 Ha) as Ha1.
      pose proof (proj1 HK1) as (_ & _ & _ & HP1 & _). specialize (HP1 i). rewrite Q1 in HP1. destruct HP1 as [_ Hw]. unfold init_ok in Hw.
      destruct q as [l|x| |B o k]; cbn [ended] in Q2; cbn [wpt] in Hw; try contradiction.
      destruct (pass i g1 None K t1 c1 (Ready l) (shared (u c1)) None HK1 Hb0 Ha1) as (g2 & e2 & x2 & L2 & E2);
        [unfold asks; now rewrite Q1|intros [lx Hx]; congruence|rewrite Q1; reflexivity|].
      pose proof (leads_none _ _ _ _ _ _ _ _ _ _ L2 Ha1 E2 ltac:(discriminate)). subst e2.
      eapply Rdy; [eapply leads_trans; eauto|exact E2].
    - eapply Rdy; [apply leads_refl, HK|exact Ei].
    - destruct HP as [HP _]. discriminate.
    - destruct (Away g K t c i HK Hlt p Ei).
    - destruct HP as (f & H1 & H2 & _). destruct HG as (_ & _ & _ & G3 & _). specialize (G3 H2). lia.
    - destruct (finish_leaving i p r g None (S K) t c HK' Hb Ha Ei) as (g1 & e1 & t1 & c1 & L1 & E1).
      pose proof (leads_none _ _ _ _ _ _ _ _ _ _ L1 Ha E1 ltac:(discriminate)). subst e1. pose proof L1 as (R1 & HK1 & (A1 & A2 & A3) & F1).
      assert (Hnobody : forall j n, g_own g1 j = Some n -> j <> i /\ g_own g j = Some n).
      { intros j n Hj. destruct (Nat.eq_dec j i) as [->|Hji]; [|rewrite <- (A3 j Hji); auto].
        pose proof (proj1 HK1) as (_ & _ & _ & HP1 & _). specialize (HP1 i). rewrite E1 in HP1. destruct HP1 as [HP1 _]. congruence. }
      exists g1, t1, c1. split; [exact R1|]. split; [exact HK1|]. split; [|split; [eapply HM; eauto|exact E1]].
      pose proof (proj1 HK1) as ((_ & _ & _ & M1 & O1 & _) & _ & _ & HP1 & _).
      destruct (Z.lt_ge_cases (g_m g1) (g_h g1)) as [Hx|Hx]; [exact Hx|exfalso].
      destruct (O1 (g_h g1)) as [_ (j & Hj)]; [now left|apply M1; lia|]. apply Hnobody in Hj as [_ Hj].
      destruct HS as (_ & _ & _ & _ & _ & P). destruct (P j _ Hj) as [Hz _]. lia.
    - exists g, t, c. destruct HP as [_ ->]. split; [auto|]. split; [exact HK'|]. split; [exact Hlt|]. split; [apply moved_refl|exact Ei].
  Qed.

  Lemma serve_all is : forall g K t c, kn g None K t c -> (g_m g < g_h g)%Z ->
    (k0 + Z.of_nat (K + List.length is) < 256 ^ 5)%Z -> K + List.length is <= fuel ->
    exists c', reach c c' /\ moved_on c c' /\ (Inv I fuel ch k0 (K + List.length is) (u c') /\ good (K + List.length is) c') /\ forall i, In i is -> procs (u c') i = Finished (Ok tt).
  Proof.
    induction is as [|i is IH]; intros g K t c HK Hlt Hb Hf; cbn [List.length In] in *.
    - exists c. split; [auto|]. split; [apply moved_refl|]. split; [rewrite Nat.add_0_r; split; [exists t, g, None; apply HK|apply HK]|tauto].
    - destruct (serve i g K t c HK Hlt) as (g1 & t1 & c1 & R1 & HK1 & L1 & M1 & E1); [lia|lia|].
      destruct (IH g1 (S K) t1 c1 HK1 L1) as (c2 & R2 & M2 & I2 & E2); [lia|lia|].
      exists c2. split; [eapply reach_trans; eauto|]. split; [eapply moved_trans; eauto|]. split; [rewrite <- plus_n_Sm; exact I2|]. intros j [<-|Hj]; [|auto].
      destruct (M2 i) as [->| ->]; auto.
  Qed.

  Lemma all_served is K t c : InvT I fuel ch k0 K t (u c) -> good K c -> (forall i, t i < fuel) ->
    (k0 + Z.of_nat (K + List.length is) < 256 ^ 5)%Z -> K + List.length is <= fuel -> 0 < fuel ->
    exists c', reach c c' /\ moved_on c c' /\ (Inv I fuel ch k0 (K + List.length is) (u c') /\ good (K + List.length is) c') /\ forall i, In i is -> procs (u c') i = Finished (Ok tt).
  Proof.
    intros (g & e & HK0) HGd Ht Hb Hf H0. pose proof (conj HK0 HGd : kn g e K t c) as HK. assert (Hb0 : (k0 + Z.of_nat K < 256 ^ 5)%Z) by lia.
    assert (Base : forall g1 t1 c1, kn g1 None K t1 c1 -> (forall i p, procs (u c1) i = Waiting p -> t1 i < fuel) ->
      exists c', reach c1 c' /\ moved_on c1 c' /\ (Inv I fuel ch k0 (K + List.length is) (u c') /\ good (K + List.length is) c') /\ (forall i p, procs (u c1) i = Waiting p -> procs (u c') i = Finished (Ok tt)) /\ forall i, In i is -> procs (u c') i = Finished (Ok tt)).
    { intros g1 t1 c1 HK1 Ht1.
      destruct (drain (Z.to_nat (k0 + Z.of_nat K + 1 - g_h g1)) g1 K t1 c1 HK1 Hb0 Ht1 ltac:(lia)) as (g2 & t2 & c2 & R2 & HK2 & E2 & M2).
      destruct (serve_all is g2 K t2 c2 HK2 E2 Hb Hf) as (c3 & R3 & M3 & I3 & E3).
      exists c3. split; [eapply reach_trans; eauto|]. split; [eapply moved_trans; eauto|]. split; [exact I3|]. split; [|exact E3].
      intros i p Hi. assert (Ei : procs (u c2) i = Finished (Ok tt)).
      { destruct (M2 i) as [E|E]; [|exact E]. exfalso. pose proof (proj1 HK2) as ((_ & _ & _ & _ & _ & P2) & _ & _ & HP2 & _). specialize (HP2 i). rewrite E, Hi in HP2.
        destruct HP2 as (n & f & X1 & X2 & _). destruct (P2 i n X1) as [X3 _]. lia. }
      destruct (M3 i) as [E|E]; congruence. }
    destruct e as [j|].
    - pose proof (proj1 HK) as (_ & _ & _ & _ & HE). destruct (HE j eq_refl) as [p Hp].
      destruct (finish_entering j p g (Some j) K t c HK Hb0 ltac:(lia) Hp) as (g1 & t1 & c1 & (R1 & HK1 & _ & F1) & [q Q1] & T1).
      destruct (Base g1 t1 c1 HK1) as (c2 & R2 & M2 & I2 & W2 & E2).
      { intros i p' Hi. destruct (Nat.eq_dec i j) as [->|Hj]; [lia|]. destruct (F1 i Hj) as [_ ->]. apply Ht. }
      exists c2. split; [eapply reach_trans; eauto|]. split; [|split; [exact I2|exact E2]]. intro i. destruct (Nat.eq_dec i j) as [->|Hj]; [right; eauto|].
      destruct (F1 i Hj) as [<- _]. apply M2.
    - destruct (Base g t c HK) as (c2 & R2 & M2 & I2 & _ & E2); [intros i p _; apply Ht|]. exists c2. auto.
  Qed.
End Free.

Definition reach I fuel (c c' : config) : Prop := exists m, execution I fuel (orderly I) m c c'.
Lemma exec_app I fuel R m n c1 c2 c3 : execution I fuel R n c1 c2 -> execution I fuel R m c2 c3 -> execution I fuel R (m + n) c1 c3.
Proof. intros H1 H2. induction H2 as [c|m c c' i HE IH HR|m c c' s HE IH W Hs]; cbn; [exact H1|constructor; auto|constructor; auto]. Qed.

Lemma no_deadlock name fuel k s n c is : free_lock name k s -> execution name fuel (orderly name) n (at_start name s) c ->
  (k + Z.of_nat (n + List.length is) < 256 ^ 5)%Z -> n + List.length is < fuel ->
  exists m c', execution name fuel (orderly name) m c c' /\
    (forall i, In i is -> procs c' i = Finished (Ok tt)) /\ (forall i, procs c' i = procs c i \/ procs c' i = Finished (Ok tt)) /\
    ((forall i, In i is \/ not_begun name c i) -> free_lock name (k + Z.of_nat (List.length (served c'))) (shared c')).
Proof.
  intros HF HE Hb Hf. destruct (start_invT name fuel k s HF) as [ch H0]. destruct (InvT_reach name fuel ch k n _ c H0 HE) as (t & Ht & HI); [lia|].
  destruct (all_served name fuel ch k config (fun c => c) (reach name fuel) (fun K c => Conc_Mutex.Inv name fuel ch k K c)) with (is := is) (K := n) (t := t) (c := c) as (c' & [m R] & M & [I' _] & E).
  - intro x. exists 0. constructor.
  - intros x y z [n1 H1] [n2 H2]. exists (n2 + n1). eapply exec_app; eauto.
  - intros K K' x (t' & HT) HK. exists t'. eapply InvT_more; eauto.
  - intros K x i (t' & HT) HK HO _. exists (go fuel i x). split; [exists 1; constructor; [constructor|exact HO]|]. split; [|reflexivity].
    eexists. apply InvT_go; eauto.
  - intros K x i (t' & HT) HK HO [l Hl]. exists (go fuel i x), (shared x). split; [exists 1; constructor; [constructor|exact HO]|]. split.
    + eexists. apply (InvT_go _ _ _ _ _ _ _ i) in HT; auto. unfold asks in HT. rewrite Hl in HT. exact HT.
    + destruct HT as (g & e & (W & _) & _). split; [exact W|]. split; [intros a _; apply same_refl|]. now destruct x.
  - exact HI.
  - now exists t.
  - intro i. specialize (Ht i). lia.
  - exact Hb.
  - lia.
  - lia.
  - exists m, c'. split; [exact R|]. split; [exact E|]. split; [exact M|]. intro Hall. eapply Inv_clean; [exact I'|].
  intro i. destruct (M i) as [Ei|Ei]; [|left; now exists (Ok tt)]. destruct (Hall i) as [Hi|Hi]; [left; exists (Ok tt); now apply E|right].
  unfold not_begun in *. congruence.
Qed.
