(** Under a fair schedule everybody is served. *)
From Verif Require Export Fair_Spec Conc_Mutex.

(** ** Programs that are over soon whatever happens *)
Definition any : store -> store -> Prop := fun _ _ => True.
Ltac brf :=
  repeat (cbn [wpb pbind ptry of_res prim shm_create shm_attach shm_unlink shm_write shm_read exists_block release_block Nat.add];
    match goal with
    | |- True => exact Logic.I
    | |- forall s1, any _ s1 -> _ => let s := fresh "s" in intros s _
    | |- context [step ?o ?s] => let r := fresh "r" in destruct (step o s) as [[r|r] ?]
    | |- context [of_res ?r] => destruct r
    | |- context [match ?x with _ => _ end] => destruct x
    end).
Lemma init_brief I s : brief any 5 (lock_init I) s.
Proof. unfold brief, lock_init, open_block. brf. Qed.
Lemma release_brief l s : brief any 3 (release l) s.
Proof. unfold brief, release. destruct (l_acquired l), (l_lock l), (l_marker l); brf. Qed.
Lemma takes_same {A} (p : prog A) : forall k k' s, takes k p s -> takes k' p s -> k = k'.
Proof.
  induction p as [a|e| |B o h IH]; intros k k' s H1 H2; cbn in *; try lia.
  destruct k as [|k]; [contradiction|]. destruct k' as [|k']; [contradiction|]. f_equal. eapply IH; eauto.
Qed.
Lemma brief_go {A B} d (o : op B) (k : res B -> prog A) s s1 : brief any d (Do o k) s ->
  exists d', d = S d' /\ brief any d' (k (fst (step o s1))) (snd (step o s1)).
Proof. unfold brief. cbn. destruct d as [|d]; [intros []|]. intro H. specialize (H s1 Logic.I). destruct (step o s1) as [r s2]. eauto. Qed.
Lemma brief_any {A} d (p : prog A) s s' : brief any d p s -> brief any d p s'.
Proof. intro H. eapply brief_stable; [|exact H|]; unfold any; auto. Qed.

Lemma list_sum_le (f f' : nat -> nat) l : (forall j, In j l -> f j <= f' j) -> list_sum (map f l) <= list_sum (map f' l).
Proof.
  induction l as [|j l IH]; intro H; cbn [map list_sum fold_right]; [lia|]. pose proof (H j (or_introl eq_refl)).
  specialize (IH (fun x Hx => H x (or_intror Hx))). unfold list_sum in IH. lia.
Qed.
Lemma list_sum_lt (f f' : nat -> nat) l i : In i l -> (forall j, In j l -> f j <= f' j) -> f i < f' i -> list_sum (map f l) < list_sum (map f' l).
Proof.
  induction l as [|j l IH]; intros Hi H Hlt; [destruct Hi|]. cbn [map list_sum fold_right]. pose proof (H j (or_introl eq_refl)) as Hj.
  pose proof (list_sum_le f f' l (fun x Hx => H x (or_intror Hx))) as Hl. unfold list_sum in *.
  destruct Hi as [->|Hi]; [lia|]. specialize (IH Hi (fun x Hx => H x (or_intror Hx)) Hlt). lia.
Qed.

Lemma list_sum_at (f f' : nat -> nat) l i : NoDup l -> In i l -> (forall j, j <> i -> f' j = f j) ->
  list_sum (map f' l) + f i = list_sum (map f l) + f' i.
Proof.
  intros HN Hi H. induction HN as [|j l Hj HN IH]; [destruct Hi|]. cbn [map list_sum fold_right]. unfold list_sum in IH.
  destruct (Nat.eq_dec j i) as [->|Hji].
  - rewrite (map_ext_in f' f); [lia|]. intros x Hx. apply H. intros ->. contradiction.
  - destruct Hi as [Hi|Hi]; [contradiction|]. specialize (IH Hi). rewrite (H j Hji). lia.
Qed.

Section Fair.
  Variable I : string.
  Variable fuel : nat.
  Variable ch : N.
  Variable k0 : Z.
  Variable is : list nat.
  Hypothesis is_nodup : NoDup is.
  Notation known := (known I fuel ch k0).
  Notation N := (List.length is).
  Hypothesis room0 : (k0 + Z.of_nat N < 256 ^ 5)%Z.
  Hypothesis fuel0 : N <= fuel.

  (** How many moves, at most, the process still has to make that bring it
      forward.  ([s] is irrelevant.) *)
  Definition due (g : ghost) (i t : nat) (st : stage) (r : nat) : Prop :=
    match st with
    | Starting p => exists d s, brief any d p s /\ 2 * N + 18 + d <= r
    | Ready _ => 2 * N + 17 <= r
    | Entering _ => N + 9 + (N + 7 - t) <= r
    | Waiting p => N + 8 <= r \/ (g_own g i = Some (g_h g) /\ exists f k, soon I (g_h g) f k p /\ 6 + k <= r)
    | Inside _ => 5 <= r
    | Leaving p _ => exists d s, brief any d p s /\ 1 + d <= r
    | Finished _ => True
    end.
  (** A turn of this process would bring it forward. *)
  Definition busy (g : ghost) (c : config) (i : nat) : Prop :=
    match procs c i with Finished _ => False | Waiting _ => g_own g i = Some (g_h g) | _ => True end.

  Lemma due_other g g' e e' K K' t t' c c' i j r : known g e K t c -> known g' e' K' t' c' -> advances i g g' -> j <> i ->
    procs c' j = procs c j -> t' j = t j -> due g j (t j) (procs c j) r -> due g' j (t' j) (procs c' j) r.
  Proof.
    intros H H' (A1 & A2 & A3) Hj Ep Et HD. pose proof H' as (_ & _ & _ & HP' & _). specialize (HP' j). rewrite Ep, Et in *. 
    destruct (procs c j) as [p|l|p|p|l|p x|x]; auto. destruct HD as [HD|(Ho & HD)]; [now left|right].
    destruct HP' as (n & f & Hn & Hh & _). rewrite (A3 j Hj) in *. assert (E : g_h g' = g_h g) by (rewrite Ho in Hn; injection Hn as <-; lia).
    rewrite E. auto.
  Qed.

  Lemma all_gone_head g e s f : sinv I ch g e s -> (g_h g <= g_m g + 1)%Z -> all_gone I (g_h g) f s.
  Proof.
    intros (_ & _ & L & _) Hh k Hk. destruct (names s (lock_address I k)) eqn:E; [|reflexivity].
    assert (Hx : locked I s k) by (unfold locked; congruence). apply L in Hx; [lia|right; lia].
  Qed.

  (** What a turn does: if the process has reason to move, it comes forward;
      otherwise nothing changes but the place in its loop. *)
  Lemma fair_go g e K t c i r : known g e K t c -> K + asks c i <= N -> S (t i) < fuel -> orderly I c i -> due g i (t i) (procs c i) r ->
    exists g' e', known g' e' (asks c i + K) (bump c t i) (go fuel i c) /\ advances i g g' /\
      ((exists r', due g' i (bump c t i i) (procs (go fuel i c) i) r' /\ r' < r) \/
       (~ busy g c i /\ g' = g /\ e' = e /\ due g i (bump c t i i) (procs (go fuel i c) i) r /\ ~ entering c i /\ ~ entering (go fuel i c) i)).
  Proof.
    intros HK HN Ht HO HD. pose proof HK as (HS & HG & HR & HP & HE). pose proof (HP i) as Hi.
    assert (Hb : (k0 + Z.of_nat K < 256 ^ 5)%Z) by lia.
    destruct (known_go I fuel ch k0 g e K t c i HK Hb HO) as (g' & e' & A & HK').
    assert (Fwd : (exists r', due g' i (bump c t i i) (procs (go fuel i c) i) r' /\ r' < r) ->
      exists g' e', known g' e' (asks c i + K) (bump c t i) (go fuel i c) /\ advances i g g' /\
      ((exists r', due g' i (bump c t i i) (procs (go fuel i c) i) r' /\ r' < r) \/
       (~ busy g c i /\ g' = g /\ e' = e /\ due g i (bump c t i i) (procs (go fuel i c) i) r /\ ~ entering c i /\ ~ entering (go fuel i c) i))).
    { intro H. exists g', e'. auto. }
    assert (Stp : forall st s o, stage_step fuel (procs c i) (shared c) = Some (st, s, o) -> procs (go fuel i c) i = st).
    { intros st s o E. rewrite (go_eq fuel i c st s o E). apply set_same. }
    rewrite bump_same in *. unfold busy, asks in *.
    destruct (procs c i) as [p|l|p|p|l|p x|x] eqn:Ei; cbn [due pinv Nat.add] in *.
    - (* Starting *) destruct HD as (d & s & HB & Hr). apply Fwd. destruct p as [l|x| |B o k].
      + rewrite (Stp _ _ _ eq_refl). exists (2 * N + 17). cbn. lia.
      + rewrite (Stp _ _ _ eq_refl). exists 0. cbn. lia.
      + destruct HB.
      + destruct (brief_go d o k s (shared c) HB) as (d' & -> & HB'). destruct (step o (shared c)) as [y s2] eqn:Es.
        rewrite (Stp (Starting (k y)) s2 None) by (cbn; rewrite Es; reflexivity). exists (2 * N + 18 + d'). split; [|lia]. exists d', s2. auto.
    - (* Ready *) apply Fwd. rewrite (Stp _ _ _ eq_refl). exists (2 * N + 16). cbn. lia.
    - (* Entering *) destruct Hi as (-> & Ho & (cc & Hcc & Hen) & HBr). unfold room in HR.
      assert (Hs : ~ short fuel k0 g) by (unfold short; lia). specialize (HBr Hs). apply Fwd. destruct p as [[l [u|x]]|x| |B o k].
      + rewrite (Stp _ _ _ eq_refl). exists (N + 8). cbn. split; [now left|lia].
      + rewrite (Stp _ _ _ eq_refl). exists (N + 8). split; [|lia]. destruct (is_Exception x); [|exact Logic.I]. exists 3, (shared c). split; [apply release_brief|lia].
      + rewrite (Stp _ _ _ eq_refl). exists 0. split; [exact Logic.I|lia].
      + destruct HBr.
      + unfold brief in HBr. cbn in HBr. destruct (entry_cost k0 g - t i) as [|d] eqn:Ed; [destruct HBr|]. unfold entry_cost in Ed.
        destruct (step o (shared c)) as [y s2] eqn:Es. rewrite (Stp (Entering (k y)) s2 None) by (cbn; rewrite Es; reflexivity).
        exists (N + 9 + (N + 7 - S (t i))). split; [cbn; lia|lia].
    - (* Waiting *) assert (Hm : (g_h g <= g_m g + 1)%Z) by apply HG.
      assert (Hni : ~ entering c i) by (intros [q Hq]; congruence).
      pose proof Hi as (n & f & Hn & Hh & Hv & Hf & Hfn & Hw & HB & HA).
      destruct p as [[l [u|y]]|y| |B o k].
      1-3: apply Fwd; rewrite (Stp _ _ _ eq_refl); exists 5; (split; [try (destruct (is_Exception y)); cbn; auto; exists 3, (shared c); (split; [apply release_brief|lia])|]);
        (destruct HD as [HD|(_ & f' & k & HD & Hr)]; lia).
      + assert (Hne : g_own g i <> Some (g_h g)).
        { intro Ho. destruct HD as [HD|(_ & f' & k & HD & _)]; [|exact (HD _ (all_gone_head g e (shared c) f' HS Hm))]. rewrite Ho in Hn. injection Hn as <-.
          destruct (alive_soon _ _ _ _ _ (HA 0 ltac:(lia))) as (k & _ & Hk). exact (Hk _ (all_gone_head g e (shared c) f HS Hm)). }
        assert (Eg : go fuel i c = c) by (unfold go; rewrite Ei; reflexivity). rewrite Eg in *. exists g, e.
        split; [apply known_idle; [rewrite Ei; discriminate|exact HK]|]. split; [apply advances_refl|]. right. rewrite Ei.
        split; [exact Hne|]. repeat (split; [reflexivity|]). split; [|split; intros [q Hq]; congruence]. destruct HD as [HD|[HD _]]; [now left|contradiction].
      + destruct (known_look I fuel ch k0 g e K t c i B o k HK Ei) as (HKl & Es & Ep). rewrite Ep. exists g, e.
        split; [exact HKl|]. split; [apply advances_refl|].
        assert (Hne' : ~ entering (go fuel i c) i) by (intros [q Hq]; congruence).
        destruct (Z.eq_dec n (g_h g)) as [->|Hne].
        * left. assert (Hsoon : exists f k', soon I (g_h g) f k' (Do o k) /\ 6 + k' <= r).
          { destruct HD as [HD|(_ & f' & k' & HD & Hr)]; [|eauto]. destruct (alive_soon _ _ _ _ _ (HA 0 ltac:(lia))) as (k' & Hk' & Hsn). exists f, k'. split; [exact Hsn|].
            destruct HS as (_ & _ & _ & _ & _ & P). destruct (P i _ Hn) as [Hx _]. unfold slots in Hk'. unfold room in HR. destruct e; lia. }
          destruct Hsoon as (f1 & k1 & Hs1 & Hr1). pose proof (Hs1 _ (all_gone_head g e (shared c) f1 HS Hm)) as T1. cbn [takes] in T1.
          destruct k1 as [|k1]; [contradiction|]. rewrite Es in T1. cbn [fst snd] in T1.
          pose proof HKl as (_ & _ & _ & HPl & _). specialize (HPl i). rewrite Ep, bump_same, Ei in HPl. cbn [bumped pinv] in HPl.
          destruct HPl as (n2 & f2 & Hn2 & _ & _ & _ & _ & _ & _ & HA2). assert (n2 = g_h g) by congruence. subst n2.
          destruct (alive_soon _ _ _ _ _ (HA2 0 ltac:(lia))) as (k2 & _ & Hs2).
          pose proof (Hs2 _ (all_gone_head g e (shared c) f2 HS Hm)) as T2. pose proof (takes_same _ _ _ _ T1 T2). subst k2.
          exists (6 + k1). split; [|lia]. right. split; [exact Hn|]. exists f2, k1. auto.
        * right. assert (Hno : g_own g i <> Some (g_h g)) by congruence. split; [exact Hno|]. repeat (split; [reflexivity|]). split; [|auto].
          destruct HD as [HD|[HD _]]; [now left|contradiction].
    - (* Inside *) apply Fwd. rewrite (Stp _ _ _ eq_refl). exists 4. split; [|lia]. exists 3, (shared c). split; [apply release_brief|lia].
    - (* Leaving *) destruct HD as (d & s & HB & Hr). apply Fwd. destruct p as [l|y| |B o k].
      + rewrite (Stp _ _ _ eq_refl). exists 0. split; [exact Logic.I|lia].
      + rewrite (Stp _ _ _ eq_refl). exists 0. split; [exact Logic.I|lia].
      + destruct HB.
      + destruct (brief_go d o k s (shared c) HB) as (d' & -> & HB'). destruct (step o (shared c)) as [y s2] eqn:Es.
        rewrite (Stp (Leaving (k y) x) s2 None) by (cbn; rewrite Es; reflexivity). exists (1 + d'). split; [|lia]. exists d', s2. auto.
    - (* Finished *) exists g, e. assert (Eg : go fuel i c = c) by (unfold go; rewrite Ei; reflexivity). rewrite Eg in *.
      split; [apply known_idle; [rewrite Ei; discriminate|exact HK]|]. split; [apply advances_refl|]. right. rewrite Ei.
      split; [tauto|]. split; [reflexivity|]. split; [reflexivity|]. split; [exact Logic.I|]. split; intros [q Hq]; congruence.
  Qed.

  (** *** The whole of [is] *)
  Definition unasked (st : stage) : nat := match st with Starting _ | Ready _ => 1 | _ => 0 end.
  Definition past (st : stage) : nat := match st with Inside _ | Leaving _ _ | Finished _ => 1 | _ => 0 end.
  Definition sum (f : nat -> nat) : nat := list_sum (map f is).
  Lemma sum_le f f' : (forall j, In j is -> f j <= f' j) -> sum f <= sum f'.
  Proof. apply list_sum_le. Qed.
  Lemma sum_lt f f' i : In i is -> (forall j, In j is -> f j <= f' j) -> f i < f' i -> sum f < sum f'.
  Proof. apply list_sum_lt. Qed.
  Lemma sum_const n : sum (fun _ => n) = N * n.
  Proof. unfold sum. clear. induction is as [|j l IH]; [reflexivity|]. cbn [map List.length Nat.mul]. rewrite <- IH. reflexivity. Qed.

  (** [r]: what each process still has to do; [T]: the turns so far. *)
  Record track (g : ghost) (e : option nat) (T K : nat) (t r : nat -> nat) (c : config) : Prop := {
    tr_known : known g e K t c;
    tr_asked : K + sum (fun j => unasked (procs c j)) <= N;
    tr_served : List.length (served c) = sum (fun j => past (procs c j));
    tr_time : forall i, t i <= T;
    tr_due : forall i, In i is -> due g i (t i) (procs c i) (r i);
    tr_away : forall i, ~ In i is -> not_begun I c i }.

  (** Whoever comes to the guarded section is recorded. *)
  Lemma served_go g e K t c i : known g e K t c ->
    past (procs (go fuel i c) i) + List.length (served c) = past (procs c i) + List.length (served (go fuel i c)).
  Proof.
    intros (_ & _ & _ & HP & _). specialize (HP i). unfold go. destruct (procs c i) as [p|l|p|p|l|p x|x] eqn:Ei; cbn [past pinv] in *.
    - destruct HP as [_ HP]. destruct p as [a|y| |B o k]; cbn; rewrite ?set_same, ?Ei; cbn; try reflexivity; [destruct HP|].
      destruct (step o (shared c)). cbn. rewrite set_same. reflexivity.
    - cbn. rewrite set_same. reflexivity.
    - destruct HP as (_ & _ & (cc & _ & HP) & _). destruct p as [[l [u|y]]|y| |B o k]; cbn; rewrite ?set_same, ?Ei; cbn; try reflexivity; [destruct HP as [HP _]; discriminate|destruct HP|].
      destruct (step o (shared c)). cbn. rewrite set_same. reflexivity.
    - destruct HP as (n & f & _ & _ & _ & _ & _ & HP & _). destruct p as [[l [u|y]]|y| |B o k]; cbn; rewrite ?set_same, ?Ei; cbn; try reflexivity; [rewrite app_length; cbn; lia|destruct HP as [HP _]; discriminate|destruct HP|].
      destruct (step o (shared c)). cbn. rewrite set_same. reflexivity.
    - cbn. rewrite set_same. reflexivity.
    - destruct p as [l|y| |B o k]; cbn; rewrite ?set_same, ?Ei; cbn; try reflexivity.
      destruct (step o (shared c)). cbn. rewrite set_same. reflexivity.
    - cbn. rewrite Ei. reflexivity.
  Qed.

  Lemma track_go g e T K t r c i : track g e T K t r c -> S T < fuel -> In i is -> orderly I c i ->
    exists g' e' K' t' r', track g' e' (S T) K' t' r' (go fuel i c) /\ (forall j, r' j <= r j) /\
      (r' i < r i \/ (~ busy g c i /\ g' = g /\ (forall j, r' j = r j) /\ ~ entering c i /\ ~ entering (go fuel i c) i)).
  Proof.
    intros [HK HA HV HT HD HW] Hf Hi HO.
    assert (Hoth : forall j, j <> i -> procs (go fuel i c) j = procs c j).
    { intros j Hj. unfold go. destruct (stage_step fuel (procs c i) (shared c)) as [[[st s] o]|]; cbn [procs]; [now apply set_other|reflexivity]. }
    assert (Hun : asks c i + unasked (procs (go fuel i c) i) <= unasked (procs c i)).
    { unfold asks, go. destruct (procs c i) as [p|l|p|p|l|p x|x] eqn:Ei; cbn [unasked].
      - pose proof (HD i Hi) as Hd. unfold stage_step. destruct p as [a|y| |B o k]; cbn [prog_step]; cbn; rewrite ?set_same; cbn; try lia; [rewrite Ei; cbn; lia|].
        destruct (step o (shared c)). cbn. rewrite set_same. cbn. lia.
      - cbn. rewrite set_same. cbn. lia.
      - destruct p as [[l [u|y]]|y| |B o k]; cbn; rewrite ?set_same; cbn; try lia; [destruct (is_Exception y); cbn; lia|rewrite Ei; cbn; lia|].
        destruct (step o (shared c)). cbn. rewrite set_same. cbn. lia.
      - destruct p as [[l [u|y]]|y| |B o k]; cbn; rewrite ?set_same; cbn; try lia; [destruct (is_Exception y); cbn; lia|rewrite Ei; cbn; lia|].
        destruct (step o (shared c)). cbn. rewrite set_same. cbn. lia.
      - cbn. rewrite set_same. cbn. lia.
      - destruct p as [l|y| |B o k]; cbn; rewrite ?set_same; cbn; try lia; [rewrite Ei; cbn; lia|].
        destruct (step o (shared c)). cbn. rewrite set_same. cbn. lia.
      - cbn. rewrite Ei. cbn. lia. }
    assert (Hle : forall j, In j is -> unasked (procs (go fuel i c) j) <= unasked (procs c j)).
    { intros j _. destruct (Nat.eq_dec j i) as [->|Hj]; [lia|rewrite Hoth by exact Hj; lia]. }
    assert (HA' : asks c i + K + sum (fun j => unasked (procs (go fuel i c) j)) <= N /\ K + asks c i <= N).
    { pose proof (asks_one c i) as H1. destruct (Nat.eq_dec (asks c i) 0) as [E|E].
      - pose proof (sum_le _ _ Hle). cbn beta in *. lia.
      - pose proof (sum_lt _ _ i Hi Hle) as H2. cbn beta in *. specialize (H2 ltac:(lia)). lia. }
    assert (HV' : List.length (served (go fuel i c)) = sum (fun j => past (procs (go fuel i c) j))).
    { pose proof (served_go g e K t c i HK) as H1.
      pose proof (list_sum_at (fun j => past (procs c j)) (fun j => past (procs (go fuel i c) j)) is i is_nodup Hi) as H2. cbn beta in H2.
      specialize (H2 (fun j Hj => f_equal past (Hoth j Hj))). unfold sum in *. lia. }
    destruct HA' as [HA1 HA2]. pose proof (HT i) as Ti.
    destruct (fair_go g e K t c i (r i) HK HA2 ltac:(lia) HO (HD i Hi)) as (g' & e' & HK' & Adv & HC).
    assert (Ht' : forall j, bump c t i j <= S T).
    { intro j. destruct (Nat.eq_dec j i) as [->|Hj]; [rewrite bump_same; pose proof (bumped_le (procs c i) (t i)); lia|]. rewrite bump_other by exact Hj. specialize (HT j). lia. }
    assert (HW' : forall j, ~ In j is -> not_begun I (go fuel i c) j).
    { intros j Hj. unfold not_begun. rewrite Hoth; [now apply HW|]. intros ->. auto. }
    assert (HD' : forall j, j <> i -> In j is -> due g' j (bump c t i j) (procs (go fuel i c) j) (r j)).
    { intros j Hj Hin. eapply (due_other g g' e e' K _ t _ c); eauto using bump_other. }
    destruct HC as [(ri & Di & Hlt)|(Hnb & Eg & Ee & Di & Hn1 & Hn2)].
    - exists g', e', (asks c i + K), (bump c t i), (fun j => if Nat.eqb j i then ri else r j). split; [|split].
      + split; auto. intros j Hj. destruct (Nat.eqb_spec j i) as [->|Hji]; auto.
      + intro j. destruct (Nat.eqb_spec j i) as [->|Hji]; lia.
      + left. now rewrite Nat.eqb_refl.
    - subst g' e'. exists g, e, (asks c i + K), (bump c t i), r. split; [|split; [auto|right; auto]].
      split; auto. intros j Hj. destruct (Nat.eq_dec j i) as [->|Hji]; auto.
  Qed.

  Lemma track_env g e T K t r c s : track g e T K t r c -> wf s -> (forall a, lock_names I a -> same_at (shared c) s a) ->
    track g e T K t r (mkConfig (procs c) s (served c)).
  Proof. intros [HK HA HV HT HD HW] W Hs. split; auto. now apply known_env. Qed.
  Lemma track_later g e T K t r c : track g e T K t r c -> track g e (S T) K t r c.
  Proof. intros [HK HA HV HT HD HW]. split; auto. Qed.

  (** Somebody who is not done can move on. *)
  Definition critical (g : ghost) (c : config) (j : nat) : Prop := In j is /\ busy g c j /\ orderly I c j.
  Lemma begun_in g e T K t r c j : track g e T K t r c -> ~ not_begun I c j -> In j is.
  Proof. intros [HK HA HV HT HD HW] H. destruct (in_dec Nat.eq_dec j is) as [Hj|Hj]; [exact Hj|]. destruct (H (HW j Hj)). Qed.
  Lemma some_critical g e T K t r c i : track g e T K t r c -> In i is -> ~ finished c i -> exists j, critical g c j.
  Proof.
    intros HTr Hi Hn. pose proof HTr as [HK HA HV HT HD HW]. pose proof HK as (HS & HG & HR & HP & HE). destruct e as [j|].
    - destruct (HE j eq_refl) as [p Hp]. exists j. split; [eapply begun_in; [exact HTr|unfold not_begun; congruence]|].
      split; [unfold busy; now rewrite Hp|]. intros k Hk [q Hq]. pose proof (HP k) as Hx. rewrite Hq in Hx. destruct Hx as [Hx _]. congruence.
    - assert (Hord : forall j, orderly I c j).
      { intros j k _ [q Hq]. pose proof (HP k) as Hx. rewrite Hq in Hx. destruct Hx as [Hx _]. discriminate. }
      pose proof (HP i) as Hpi. destruct (procs c i) as [p|l|p|p|l|p x|x] eqn:Ei; try (exists i; split; [exact Hi|]; split; [unfold busy; rewrite Ei; exact Logic.I|apply Hord]).
      + destruct Hpi as (n & f & Ho & Hh & _). destruct HS as (W & A & L & M & O & P). destruct (P i n Ho) as [Hm _].
        destruct (O (g_h g)) as [_ (j & Hj)]; [now left|apply M; lia|]. exists j. pose proof (HP j) as Hpj.
        assert (Hb : ~ not_begun I c j) by (intro Hb; unfold not_begun in Hb; rewrite Hb in Hpj; destruct Hpj as [Hpj _]; congruence).
        split; [eapply begun_in; eauto|]. split; [|apply Hord]. unfold busy.
        destruct (procs c j) as [p'|l'|p'|p'|l'|p' x'|x']; cbn [pinv] in Hpj; auto. destruct Hpj as [Hpj _]. congruence.
      + destruct Hn. now exists x.
  Qed.

  Lemma busy_other g c i j : j <> i -> busy g c j -> busy g (go fuel i c) j.
  Proof.
    intro Hj. unfold busy. replace (procs (go fuel i c) j) with (procs c j); [auto|]. unfold go.
    destruct (stage_step fuel (procs c i) (shared c)) as [[[st s] o]|]; cbn [procs]; [now rewrite set_other|reflexivity].
  Qed.
  Lemma orderly_other c i j : j <> i -> ~ entering (go fuel i c) i -> orderly I c j -> orderly I (go fuel i c) j.
  Proof.
    intros Hj Hn HO k Hk [p Hp]. 
    assert (Hoth : forall j, j <> i -> procs (go fuel i c) j = procs c j).
    { intros x Hx. unfold go. destruct (stage_step fuel (procs c i) (shared c)) as [[[st s] o]|]; cbn [procs]; [now apply set_other|reflexivity]. }
    assert (Hki : k <> i) by (intros ->; apply Hn; now exists p). unfold entering. rewrite (Hoth j Hj). apply (HO k Hk). exists p. now rewrite <- (Hoth k Hki).
  Qed.

  (** *** Turns *)
  Lemma turns_track b : forall g e T K t r c c', track g e T K t r c -> turns I fuel b c c' -> incl b is -> T + List.length b < fuel ->
    exists g' e' K' t' r', track g' e' (T + List.length b) K' t' r' c' /\ (forall j, r' j <= r j) /\
      (forall j, critical g c j -> In j b -> sum r' < sum r).
  Proof.
    intros g e T K t r c c' HT HU. revert g e T K t r HT.
    induction HU as [c|c i b c' HO HU IH|c i b c' HO HU IH|c s b c' W Hs HU IH]; intros g e T K t r HT Hin Hl; cbn [List.length] in *.
    - exists g, e, K, t, r. rewrite Nat.add_0_r. split; [exact HT|]. split; [auto|]. intros j _ [].
    - assert (Hi : In i is) by (apply Hin; now left). assert (Hin' : incl b is) by (intros x Hx; apply Hin; now right).
      destruct (track_go g e T K t r c i HT ltac:(lia) Hi HO) as (g1 & e1 & K1 & t1 & r1 & HT1 & L1 & HC).
      destruct (IH g1 e1 (S T) K1 t1 r1 HT1 Hin' ltac:(lia)) as (g2 & e2 & K2 & t2 & r2 & HT2 & L2 & HC2).
      exists g2, e2, K2, t2, r2. replace (T + S (List.length b)) with (S T + List.length b) by lia. split; [exact HT2|].
      assert (L : forall j, r2 j <= r j) by (intro j; specialize (L1 j); specialize (L2 j); lia). split; [exact L|].
      intros j (Hj1 & Hj2 & Hj3) Hjb. destruct HC as [Hlt|(Hnb & -> & Er & Hn1 & Hn2)].
      { apply (sum_lt _ _ i Hi); [auto|]. specialize (L2 i). lia. }
      destruct (Nat.eq_dec j i) as [->|Hji]; [contradiction|]. destruct Hjb as [->|Hjb]; [contradiction|].
      assert (H : sum r2 < sum r1) by (apply (HC2 j); [split; [exact Hj1|]; split; [now apply busy_other|now apply orderly_other]|exact Hjb]).
      assert (sum r1 <= sum r) by (apply sum_le; auto). lia.
    - assert (Hin' : incl b is) by (intros x Hx; apply Hin; now right).
      destruct (IH g e (S T) K t r (track_later _ _ _ _ _ _ _ HT) Hin' ltac:(lia)) as (g2 & e2 & K2 & t2 & r2 & HT2 & L2 & HC2).
      exists g2, e2, K2, t2, r2. replace (T + S (List.length b)) with (S T + List.length b) by lia. split; [exact HT2|]. split; [exact L2|].
      intros j Hj [->|Hjb]; [destruct HO; apply Hj|eauto].
    - apply (IH g e T K t r); auto. now apply track_env.
  Qed.

  Definition done (c : config) : Prop := forall i, In i is -> finished c i.
  Lemma done_dec c l : (forall i, In i l -> finished c i) \/ exists i, In i l /\ ~ finished c i.
  Proof.
    induction l as [|i l [IH|(j & Hj & Hn)]]; [left; intros i []| |right; exists j; split; [now right|exact Hn]].
    destruct (procs c i) as [p|l'|p|p|l'|p x|x] eqn:Ei; try (right; exists i; split; [now left|intros [y Hy]; congruence]).
    left. intros j [<-|Hj]; [now exists x|auto].
  Qed.
  Lemma due_pos g i t st r : due g i t st r -> (forall x, st <> Finished x) -> 0 < r.
  Proof.
    destruct st as [p|l|p|p|l|p x|x]; cbn [due]; intros H Hn; try lia.
    - destruct H as (d & s & _ & H). lia.
    - destruct H as [H|(_ & f & k & _ & H)]; lia.
    - destruct H as (d & s & _ & H). lia.
    - destruct (Hn x eq_refl).
  Qed.
  Lemma track_zero g e T K t r c : track g e T K t r c -> sum r = 0 -> done c.
  Proof.
    intros HT H0. destruct (done_dec c is) as [H|(i & Hi & Hn)]; [exact H|exfalso].
    assert (sum (fun _ => 0) < sum r); [|lia]. apply (sum_lt _ _ i Hi); [intros; lia|].
    eapply due_pos; [eapply tr_due; eauto|]. intros x Hx. apply Hn. now exists x.
  Qed.

  Lemma done_stays b c c' : turns I fuel b c c' -> incl b is -> done c -> done c'.
  Proof.
    induction 1 as [c|c i b c' HO HU IH|c i b c' HO HU IH|c s b c' W Hs HU IH]; intros Hin HD; auto.
    - assert (Hi : In i is) by (apply Hin; now left). apply IH; [intros x Hx; apply Hin; now right|].
      destruct (HD i Hi) as [x Hx]. replace (go fuel i c) with c; [exact HD|]. unfold go. now rewrite Hx.
    - apply IH; [intros x Hx; apply Hin; now right|exact HD].
  Qed.

  Lemma turns_app b1 b2 c c' : turns I fuel (b1 ++ b2) c c' -> exists c1, turns I fuel b1 c c1 /\ turns I fuel b2 c1 c'.
  Proof.
    intro H. remember (b1 ++ b2) as b eqn:E. revert b1 E. induction H as [c|c i b c' HO HU IH|c i b c' HO HU IH|c s b c' W Hs HU IH]; intros b1 E.
    - destruct b1; [|discriminate]. cbn in E. subst b2. exists c. split; constructor.
    - destruct b1 as [|j b1]; cbn in E; [subst b2; exists c; split; [constructor|now constructor 2]|]. injection E as <- E.
      destruct (IH b1 E) as (c1 & H1 & H2). exists c1. split; [now constructor 2|exact H2].
    - destruct b1 as [|j b1]; cbn in E; [subst b2; exists c; split; [constructor|now constructor 3]|]. injection E as <- E.
      destruct (IH b1 E) as (c1 & H1 & H2). exists c1. split; [now constructor 3|exact H2].
    - destruct (IH b1 E) as (c1 & H1 & H2). exists c1. split; [now apply (turns_env I fuel c s)|exact H2].
  Qed.

  Lemma blocks_done bs : forall g e T K t r c c', track g e T K t r c -> turns I fuel (List.concat bs) c c' ->
    (forall b, In b bs -> covers is b) -> T + List.length (List.concat bs) < fuel -> sum r <= List.length bs ->
    exists g' e' T' K' t' r', track g' e' T' K' t' r' c' /\ done c'.
  Proof.
    induction bs as [|b bs IH]; intros g e T K t r c c' HT HU HB Hl Hs; cbn [List.concat List.length] in *.
    - destruct (turns_track [] g e T K t r c c' HT HU) as (g2 & e2 & K2 & t2 & r2 & HT2 & L2 & _); [intros x []|cbn; lia|].
      exists g2, e2, (T + 0), K2, t2, r2. split; [exact HT2|]. eapply track_zero; [exact HT2|]. assert (sum r2 <= sum r) by (apply sum_le; auto). lia.
    - apply turns_app in HU as (c1 & H1 & H2). rewrite app_length in Hl. pose proof (HB b (or_introl eq_refl)) as [B1 B2].
      destruct (turns_track b g e T K t r c c1 HT H1 B2 ltac:(lia)) as (g1 & e1 & K1 & t1 & r1 & HT1 & L1 & HC1).
      assert (Hle : sum r1 <= sum r) by (apply sum_le; auto).
      destruct (done_dec c is) as [HD|(i & Hi & Hn)].
      + assert (HBi : incl (List.concat bs) is).
        { intros x Hx. apply in_concat in Hx as (b' & Hb' & Hx). apply (proj2 (HB b' (or_intror Hb'))), Hx. }
        destruct (turns_track (List.concat bs) g1 e1 _ K1 t1 r1 c1 c' HT1 H2 HBi ltac:(lia)) as (g2 & e2 & K2 & t2 & r2 & HT2 & _).
        do 6 eexists. split; [exact HT2|]. eapply done_stays; [exact H2|exact HBi|]. eapply done_stays; eauto.
      + destruct (some_critical g e T K t r c i HT Hi Hn) as (j & Hj). specialize (HC1 j Hj (B1 j (proj1 Hj))).
        apply (IH g1 e1 (T + List.length b) K1 t1 r1 c1); auto; [|lia|lia]. intros b' Hb'. apply HB. now right.
  Qed.
End Fair.

Lemma sum_ext is f f' : (forall j, In j is -> f j = f' j) -> sum is f = sum is f'.
Proof. intro H. apply Nat.le_antisymm; apply sum_le; intros j Hj; rewrite (H j Hj); lia. Qed.

Lemma served_all name fuel k s is bs c :
  free_lock name k s -> NoDup is -> (k + Z.of_nat (List.length is) < 256 ^ 5)%Z ->
  (forall b, In b bs -> covers is b) -> enough (List.length is) <= List.length bs -> List.length (List.concat bs) < fuel ->
  turns name fuel (List.concat bs) (at_start name s) c ->
  (forall i, In i is -> procs c i = Finished (Ok tt)) /\ served c = slots_from k (List.length is) /\
  free_lock name (k + Z.of_nat (List.length is)) (shared c).
Proof.
  intros HF HN Hr HB He Hl HU. destruct (start_invT name fuel k s HF) as (ch & g & e & HK).
  set (n := List.length is) in *.
  assert (HL : (forall b, In b bs -> n <= List.length b) -> List.length bs * n <= List.length (List.concat bs)).
  { clear. induction bs as [|b bs IH]; intro H; cbn [List.concat List.length]; [lia|]. rewrite app_length. pose proof (H b (or_introl eq_refl)).
    specialize (IH (fun x Hx => H x (or_intror Hx))). lia. }
  assert (HL' : List.length bs * n <= List.length (List.concat bs)).
  { apply HL. intros b Hb. apply NoDup_incl_length; [exact HN|apply HB, Hb]. }
  assert (Hfu : n <= fuel). { unfold enough in He. destruct (Nat.eq_dec n 0) as [E|E]; [lia|]. assert (1 * n <= List.length bs * n); [apply Nat.mul_le_mono_r; nia|lia]. }
  assert (HT : track name fuel ch k is g e 0 0 (fun _ => 0) (fun _ => 2 * n + 23) (at_start name s)).
  { split; [exact HK| | |auto| |reflexivity].
    - cbn [at_start procs unasked]. rewrite sum_const. lia.
    - cbn [at_start procs past served]. rewrite sum_const. cbn. lia.
    - intros i _. cbn. exists 5, s. split; [apply init_brief|]. fold n. lia. }
  destruct (blocks_done name fuel ch k is HN Hr Hfu bs g e 0 0 _ _ _ c HT HU HB Hl) as (g' & e' & T' & K' & t' & r' & HT' & HD).
  { rewrite sum_const. exact He. }
  pose proof (tr_known _ _ _ _ _ _ _ _ _ _ _ _ HT') as HK'. assert (HI : Inv name fuel ch k K' c) by (exists t', g', e'; exact HK').
  assert (Hfin : forall i, In i is -> procs c i = Finished (Ok tt)).
  { intros i Hi. destruct (HD i Hi) as [x Hx]. rewrite Hx. f_equal. eapply Inv_finished; eauto. }
  assert (Hlen : List.length (served c) = n).
  { rewrite (tr_served _ _ _ _ _ _ _ _ _ _ _ _ HT'). rewrite (sum_ext is _ (fun _ => 1)); [rewrite sum_const; fold n; lia|].
    intros j Hj. rewrite (Hfin j Hj). reflexivity. }
  split; [exact Hfin|]. split.
  - rewrite <- Hlen. eapply Inv_served; eauto.
  - rewrite <- Hlen. eapply Inv_clean; [exact HI|]. intro i. destruct (in_dec Nat.eq_dec i is) as [Hi|Hi]; [left; now apply HD|right].
    eapply tr_away; eauto.
Qed.

(** ** Infinite schedules *)
Lemma map_seq_app {A} (f : nat -> A) a m n : map f (seq a (m + n)) = map f (seq a m) ++ map f (seq (a + m) n).
Proof. now rewrite seq_app, map_app. Qed.
(** From any point on, a piece of the schedule covers [is]; it may be longer. *)
Lemma fair_piece is sigma a : fair is sigma -> exists m, forall m', m <= m' -> covers is (map sigma (seq a m')).
Proof.
  intros [Hin Hf]. assert (H : forall l, incl l is -> exists m, forall m', m <= m' -> incl l (map sigma (seq a m'))).
  { induction l as [|i l IH]; intro Hl; [exists 0; intros m' _ x []|].
    destruct IH as [m Hm]; [intros x Hx; apply Hl; now right|]. destruct (Hf i (Hl i (or_introl eq_refl)) a) as (t & Ht & Es).
    exists (m + S (t - a)). intros m' Hm' x [<-|Hx]; [|apply Hm; [lia|exact Hx]]. rewrite <- Es. apply in_map, in_seq. lia. }
  destruct (H is (fun x Hx => Hx)) as [m Hm]. exists m. intros m' Hm'. split; [now apply Hm|].
  intros x Hx. apply in_map_iff in Hx as (t & <- & _). apply Hin.
Qed.
Lemma fair_pieces is sigma n : fair is sigma -> forall a, exists T, forall T', T <= T' ->
  exists bs, List.length bs = S n /\ List.concat bs = map sigma (seq a T') /\ forall b, In b bs -> covers is b.
Proof.
  intro Hf. induction n as [|n IH]; intro a; destruct (fair_piece is sigma a Hf) as [m Hm].
  - exists m. intros T' HT. exists [map sigma (seq a T')]. split; [reflexivity|]. split; [cbn; apply app_nil_r|]. intros b [<-|[]]. now apply Hm.
  - destruct (IH (a + m)) as [T HT]. exists (m + T). intros T' HT'. destruct (HT (T' - m) ltac:(lia)) as (bs & H1 & H2 & H3).
    exists (map sigma (seq a m) :: bs). split; [cbn; lia|]. split; [|intros b [<-|Hb]; [now apply Hm|auto]].
    cbn [List.concat]. rewrite H2, <- map_seq_app. f_equal. f_equal. lia.
Qed.
Lemma fair_served name k s is sigma : free_lock name k s -> NoDup is -> (k + Z.of_nat (List.length is) < 256 ^ 5)%Z -> fair is sigma ->
  exists T, forall T' fuel c, T <= T' -> T' < fuel -> turns name fuel (first_turns T' sigma) (at_start name s) c ->
    (forall i, In i is -> procs c i = Finished (Ok tt)) /\ served c = slots_from k (List.length is) /\
    free_lock name (k + Z.of_nat (List.length is)) (shared c).
Proof.
  intros HF HN Hr Hf. destruct (fair_pieces is sigma (enough (List.length is)) Hf 0) as [T HT]. exists T. intros T' fuel c H1 H2 HU.
  destruct (HT T' H1) as (bs & B1 & B2 & B3). apply (served_all name fuel k s is bs c HF HN Hr B3); [lia| |].
  - rewrite B2, map_length, seq_length. exact H2.
  - rewrite B2. exact HU.
Qed.
