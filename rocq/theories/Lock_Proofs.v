(** A SlidingLock that nobody else uses: entering succeeds at once, leaving
    restores everything but the counter. *)
From Verif Require Export Shm_Proofs Addr_Facts Index_Spec.

Ltac suffix_of h a :=
  match a with
  | key_address _ ?i => constr:(SKey h i)
  | val_address _ ?i => constr:(SVal h i)
  | name_address _ _ ?r => constr:(SName h r)
  | count_address _ => constr:(SCount h)
  | marker_address _ ?i => constr:(SMarker h i)
  | lock_address _ ?i => constr:(SLock h i)
  | _ => constr:(SMem h)
  end.
(** Solve [a <> b] for two addresses of the same index [I]. *)
Ltac adn h I :=
  try match goal with |- ?a = ?b -> False => change (a <> b) end;
  match goal with
  | |- ?a <> ?b =>
      let x := suffix_of h a in
      let y := suffix_of h b in
      change (addr h I x <> addr h I y); apply addr_neq; cbn [same_suffix]; try (intro; lia)
  end.

(** Nobody holds or waits for the lock; the counter is [c]. *)
Definition quiet (I : string) (c : Z) (s : store) : Prop :=
  (0 <= c)%Z /\
  (forall n, names s (marker_address I n) = None) /\
  (forall n, names s (lock_address I n) = None) /\
  ((names s (count_address I) = None /\ c = 0%Z) \/
   (content s (count_address I) = Some (le_digits 5 c) /\ (c < 256 ^ 5)%Z)).

(** The same with no lock at all. *)
Definition calm (nl : bool) (I : string) (c : Z) (s : store) : Prop :=
  nl = true \/ quiet I c s.

Lemma same_names s s' a : same_at s s' a -> names s' a = names s a.
Proof. intros [H _]. exact H. Qed.

Lemma quiet_same I c s s' : quiet I c s -> (forall a, lock_names I a -> same_at s s' a) -> quiet I c s'.
Proof.
  intros (H0 & H1 & H2 & H3) Hs. split; [exact H0|]. split; [|split].
  - intro n. rewrite (same_names s s'); [apply H1|]. apply Hs. right; left; eauto.
  - intro n. rewrite (same_names s s'); [apply H2|]. apply Hs. right; right; eauto.
  - assert (Hc : same_at s s' (count_address I)) by (apply Hs; left; reflexivity).
    rewrite (same_names _ _ _ Hc), (same_content _ _ _ Hc). exact H3.
Qed.

Definition hash0 (x : string) : string := x.

Lemma lock_init_ok I c s : wf s -> quiet I c s ->
  exists s' ch, run (lock_init I) s = (Some (Ok (mkLock I (mkHandle (count_address I) ch) 0 0 None None false 0 None)), s') /\
    wf s' /\ at_ s' (count_address I) ch (le_digits 5 c) /\ only_at (eq (count_address I)) s s'.
Proof.
  intros W (H0 & _ & _ & [[Hn ->]|[Hc _]]); unfold lock_init.
  - destruct (open_new s (count_address I) 5 false W Hn) as (s1 & R & W1 & A1 & O1); [discriminate|].
    rewrite (run_bind_ok _ _ _ _ _ R). exists s1, (next s). cbn [run]. split; [reflexivity|]. auto.
  - destruct (content_at _ _ _ Hc) as [i A].
    rewrite (run_bind_ok _ _ _ _ _ (open_existing s (count_address I) 5 false i _ A ltac:(discriminate) ltac:(discriminate) eq_refl)).
    exists s, i. split; [reflexivity|]. auto using only_refl.
Qed.

Lemma enter_ok I c s ch fuel : wf s -> quiet I c s -> at_ s (count_address I) ch (le_digits 5 c) ->
  (c < 256 ^ 5)%Z -> fuel <> 0 ->
  exists s' mh lh,
    run (enter fuel (mkLock I (mkHandle (count_address I) ch) 0 0 None None false 0 None)) s =
    (Some (Ok (mkLock I (mkHandle (count_address I) ch) (c + 1) c
                 (Some (mkHandle (marker_address I (c + 1)) mh)) (Some (mkHandle (lock_address I (c + 1)) lh)) true 0 None)), s') /\
    wf s' /\ (exists b, at_ s' (marker_address I (c + 1)) mh b) /\ (exists b, at_ s' (lock_address I (c + 1)) lh b) /\
    only_at (fun a => a = marker_address I (c + 1) \/ a = lock_address I (c + 1)) s s'.
Proof.
  intros W (H0 & H1 & H2 & _) A Hc Hf. destruct fuel as [|f]; [congruence|]. unfold enter. rewrite run_ptry.
  unfold renumber. cbn [l_count l_marker l_name].
  rewrite (run_bind_ok _ _ _ _ _ (read_ok _ _ _ _ A)).
  rewrite from_le by (change (Z.of_nat 5) with 5%Z; lia).
  rewrite run_bind. cbn [take_marker]. rewrite run_ptry.
  destruct (create_ok s (marker_address I (c + 1)) 1 W (H1 _)) as (s1 & R1 & W1 & A1 & O1); [discriminate|].
  rewrite R1. cbn [run fst snd]. rewrite run_bind. unfold acquire. cbn [l_name l_number]. rewrite run_ptry.
  assert (N1 : forall n, names s1 (lock_address I n) = None).
  { intro n. rewrite (same_names s s1); [apply H2|]. apply O1. adn hash0 I; try tauto. }
  destruct (create_ok s1 (lock_address I (c + 1)) 1 W1 (N1 _)) as (s2 & R2 & W2 & A2 & O2); [discriminate|].
  rewrite R2. cbn [acquire_loop l_acquired set_lock l_floor l_number]. rewrite run_bind.
  unfold check_acquirement. cbn [l_name l_number l_floor set_lock].
  replace (Z.to_nat (c + 1 - c)) with 1 by lia. cbn [count_down any_locked].
  rewrite run_bind, run_bind.
  rewrite exists_names by assumption.
  rewrite (same_names s1 s2) by (apply O2; adn hash0 I).
  rewrite N1. cbn [run snd fst set_acquired acquire_loop l_acquired]. destruct f; cbn [acquire_loop set_acquired l_acquired run snd];
  exists s2, (next s), (next s1); (split; [reflexivity|]); (split; [exact W2|]);
  (split; [exists (zeros 1); apply (at_same s1 s2); [exact A1|apply O2; adn hash0 I; try tauto]|]);
  (split; [eexists; exact A2|]);
  intros a Ha; (apply same_trans with s1; [apply O1|apply O2]); intro; apply Ha; auto.
Qed.

Lemma release_ok I c s ch mh lh m : wf s ->
  (exists b, at_ s (count_address I) ch b /\ String.length b = 5) ->
  (exists b, at_ s (marker_address I c) mh b) -> (exists b, at_ s (lock_address I c) lh b) ->
  (0 <= c < 256 ^ 5)%Z ->
  exists s', run (release (mkLock I (mkHandle (count_address I) ch) c m
                 (Some (mkHandle (marker_address I c) mh)) (Some (mkHandle (lock_address I c) lh)) true 0 None)) s =
    (Some (Ok (mkLock I (mkHandle (count_address I) ch) c m None None false 0 None)), s') /\
    wf s' /\ at_ s' (count_address I) ch (le_digits 5 c) /\
    names s' (marker_address I c) = None /\ names s' (lock_address I c) = None /\
    only_at (fun a => a = count_address I \/ a = marker_address I c \/ a = lock_address I c) s s'.
Proof.
  intros W (b & A & Hb) (bm & Am) (bl & Al) Hc. unfold release. cbn [l_acquired l_number l_count l_lock l_marker].
  rewrite to_bytes_in by (change (Z.of_nat 5) with 5%Z; lia). cbn [of_res]. rewrite run_bind, run_bind_ret.
  destruct (write_ok s _ ch b (le_digits 5 c) W A) as (s1 & R1 & W1 & A1 & O1); [now rewrite le_length|].
  rewrite R1. cbn [release_block].
  destruct (unlink_ok s1 (lock_address I c) lh W1) as (s2 & R2 & W2 & N2 & O2).
  { rewrite (same_names s s1); [apply Al|]. apply O1. adn hash0 I; try tauto. }
  rewrite (run_bind_ok _ _ _ _ _ (R2 lh)).
  destruct (unlink_ok s2 (marker_address I c) mh W2) as (s3 & R3 & W3 & N3 & O3).
  { rewrite (same_names s1 s2), (same_names s s1); [apply Am| |]; [apply O1|apply O2]; adn hash0 I; try tauto. }
  rewrite (run_bind_ok _ _ _ _ _ (R3 mh)). cbn [run]. exists s3. split; [reflexivity|]. split; [exact W3|].
  split; [|split; [|split]].
  - apply (at_same s2); [apply (at_same s1); [exact A1|apply O2]|apply O3]; adn hash0 I; try tauto.
  - exact N3.
  - rewrite (same_names s2 s3); [exact N2|]. apply O3. adn hash0 I; try tauto.
  - intros a Ha. apply same_trans with s1; [apply O1; intros <-; tauto|].
    apply same_trans with s2; [apply O2; intros <-; tauto|apply O3; intros <-; tauto].
Qed.

(** The guarded body runs in a store that differs only at the lock's names,
    and the lock is quiet again afterwards. *)
Lemma with_lock_run {A} I c s fuel (body : prog A) : wf s -> quiet I c s -> (c + 1 < 256 ^ 5)%Z -> fuel <> 0 ->
  exists s1, wf s1 /\ only_at (lock_names I) s s1 /\
    forall r s2, run body s1 = (Some r, s2) -> wf s2 -> (forall a, lock_names I a -> same_at s1 s2 a) ->
      exists s3, run (with_lock false fuel I body) s = (Some r, s3) /\ wf s3 /\
        only_at (lock_names I) s2 s3 /\ quiet I (c + 1) s3.
Proof.
  intros W Q Hc Hf. destruct (lock_init_ok I c s W Q) as (s0 & ch & R0 & W0 & A0 & O0).
  assert (Q0 : quiet I c s0).
  { destruct Q as (H0 & H1 & H2 & H3). split; [exact H0|]. split; [|split].
    - intro n. rewrite (same_names s s0); [apply H1|]. apply O0. adn hash0 I; try tauto.
    - intro n. rewrite (same_names s s0); [apply H2|]. apply O0. adn hash0 I; try tauto.
    - right. split; [apply (at_content _ _ _ _ A0)|lia]. }
  destruct (enter_ok I c s0 ch fuel W0 Q0 A0) as (s1 & mh & lh & R1 & W1 & (bm & Am) & (bl & Al) & O1); [lia|exact Hf|].
  exists s1. split; [exact W1|]. split.
  { intros a Ha. apply same_trans with s0; [apply O0|apply O1]; intro E; apply Ha; unfold lock_names; [left; auto|destruct E; eauto]. }
  intros r s2 Rb W2 Hs.
  destruct (release_ok I (c + 1) s2 ch mh lh c W2) as (s3 & R3 & W3 & A3 & Nm & Nl & O3).
  - exists (le_digits 5 c). split; [|apply le_length]. apply (at_same s1); [apply (at_same s0); [exact A0|]|apply Hs; left; reflexivity].
    apply O1. intros [E|E]; revert E; adn hash0 I; try tauto.
  - exists bm. apply (at_same s1); [exact Am|]. apply Hs. right; left; eauto.
  - exists bl. apply (at_same s1); [exact Al|]. apply Hs. right; right; eauto.
  - destruct Q as [? _]. lia.
  - exists s3. unfold with_lock. rewrite (run_bind_ok _ _ _ _ _ R0), (run_bind_ok _ _ _ _ _ R1).
    rewrite run_ptry, Rb. split; [|split; [exact W3|split]].
    + destruct r as [x|e]; rewrite (run_bind_ok _ _ _ _ _ R3); reflexivity.
    + intros a Ha. apply O3. intro E. apply Ha. unfold lock_names. destruct E as [E|[E|E]]; eauto.
    + destruct Q0 as (H0 & H1 & H2 & _). split; [lia|]. split; [|split].
      * intro n. destruct (Z.eq_dec n (c + 1)) as [->|Hn]; [exact Nm|].
        rewrite (same_names s2 s3), (same_names s1 s2), (same_names s0 s1); [apply H1| | |].
        -- apply O1. intros [E|E]; revert E; adn hash0 I; try tauto.
        -- apply Hs. right; left; eauto.
        -- apply O3. intros [E|[E|E]]; revert E; adn hash0 I; try tauto.
      * intro n. destruct (Z.eq_dec n (c + 1)) as [->|Hn]; [exact Nl|].
        rewrite (same_names s2 s3), (same_names s1 s2), (same_names s0 s1); [apply H2| | |].
        -- apply O1. intros [E|E]; revert E; adn hash0 I; try tauto.
        -- apply Hs. right; right; eauto.
        -- apply O3. intros [E|[E|E]]; revert E; adn hash0 I; try tauto.
      * right. split; [apply (at_content _ _ _ _ A3)|lia].
Qed.

(** Either kind of lock. *)
Lemma guarded_run {A} nl I c s fuel (body : prog A) : wf s -> calm nl I c s -> (c + 1 < 256 ^ 5)%Z -> fuel <> 0 ->
  exists s1, wf s1 /\ only_at (lock_names I) s s1 /\
    forall r s2, run body s1 = (Some r, s2) -> wf s2 -> (forall a, lock_names I a -> same_at s1 s2 a) ->
      exists s3, run (with_lock nl fuel I body) s = (Some r, s3) /\ wf s3 /\
        only_at (lock_names I) s2 s3 /\ calm nl I (c + 1) s3.
Proof.
  intros W Q Hc Hf. destruct nl.
  - exists s. split; [exact W|]. split; [apply only_refl|]. intros r s2 R W2 _. exists s2.
    split; [exact R|]. split; [exact W2|]. split; [apply only_refl|left; reflexivity].
  - destruct Q as [Q|Q]; [discriminate|].
    destruct (with_lock_run I c s fuel body W Q Hc Hf) as (s1 & W1 & O1 & H). exists s1. split; [exact W1|]. split; [exact O1|].
    intros r s2 R W2 Hs. destruct (H r s2 R W2 Hs) as (s3 & R3 & W3 & O3 & Q3). exists s3. unfold calm. auto.
Qed.
