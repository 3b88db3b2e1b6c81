(** debug=True where the directory of the log is missing. *)
From Verif Require Export Debug_Proofs.

Lemma quiet_littered I c s : quiet I c s -> littered I c 0 s.
Proof.
  intros (H0 & H1 & H2 & H3). split; [exact H0|]. split; [|split; [exact H2|exact H3]].
  intros i Hi. rewrite H1. split; [congruence|lia].
Qed.

Lemma lock_init_littered I c n s : wf s -> littered I c n s ->
  exists s' ch, run (lock_init I) s = (Some (Ok (mkLock I (mkHandle (count_address I) ch) 0 0 None None false 0 None)), s') /\
    wf s' /\ at_ s' (count_address I) ch (le_digits 5 c) /\ only_at (eq (count_address I)) s s'.
Proof.
  intros W (H0 & _ & _ & [[Hn ->]|[Hc _]]); unfold lock_init.
  - destruct (open_new s (count_address I) 5 false W Hn) as (s1 & R & W1 & A1 & O1); [discriminate|].
    rewrite (run_bind_ok _ _ _ _ _ R). exists s1, (next s). cbn [run]. split; [reflexivity|]. auto.
  - destruct (content_at _ _ _ Hc) as [i A].
    rewrite (run_bind_ok _ _ _ _ _ (open_existing s (count_address I) 5 false i _ A ltac:(discriminate) ltac:(discriminate) eq_refl)).
    exists s, i. split; [reflexivity|]. auto using only_refl.
Qed.

Lemma littered_same I c n s s' ch : littered I c n s -> only_at (eq (count_address I)) s s' ->
  at_ s' (count_address I) ch (le_digits 5 c) -> (c < 256 ^ 5)%Z -> littered I c n s'.
Proof.
  intros (H0 & H1 & H2 & _) O A Hc. split; [exact H0|]. split; [|split].
  - intros i Hi. rewrite (same_names s s'); [now apply H1|]. apply O. adn hash0 I; try tauto.
  - intro i. rewrite (same_names s s'); [apply H2|]. apply O. adn hash0 I; try tauto.
  - right. split; [apply (at_content _ _ _ _ A)|exact Hc].
Qed.

Lemma take_marker_skip I n : forall fuel j s, n < fuel ->
  (forall i, (j <= i < j + Z.of_nat n)%Z -> names s (marker_address I i) <> None) ->
  names s (marker_address I (j + Z.of_nat n)) = None -> wf s ->
  exists s', run (take_marker fuel I j) s = (Some (Ok ((j + Z.of_nat n)%Z, mkHandle (marker_address I (j + Z.of_nat n)) (next s))), s') /\
    wf s' /\ at_ s' (marker_address I (j + Z.of_nat n)) (next s) (zeros 1) /\
    only_at (eq (marker_address I (j + Z.of_nat n))) s s'.
Proof.
  induction n as [|n IH]; intros fuel j s Hf Hp Hn W; (destruct fuel as [|f]; [lia|]); cbn [take_marker]; rewrite run_ptry.
  - replace (j + Z.of_nat 0)%Z with j in * by lia.
    destruct (create_ok s (marker_address I j) 1 W Hn) as (s1 & R1 & W1 & A1 & O1); [discriminate|].
    rewrite R1. exists s1. cbn [run]. auto.
  - specialize (Hp j ltac:(lia)) as Hj. destruct (names s (marker_address I j)) as [i|] eqn:E; [|congruence].
    rewrite (create_exists _ _ 1 i E) by discriminate.
    replace (j + Z.of_nat (S n))%Z with (j + 1 + Z.of_nat n)%Z in * by lia.
    apply IH; [lia| |exact Hn|exact W]. intros i' Hi. apply Hp. lia.
Qed.

Section NoDir.
  Variables (here : nat -> string) (shown : exn -> string).
  Notation say := (say true false here).

  Lemma say_fails n t w s : run (say n t w) s = (Some (Ok (w, Exc FileNotFoundError)), s).
  Proof. reflexivity. Qed.

  (** Whatever is to be done under the lock is not done. *)
  Lemma with_lock_fails {A} I c n s fuel (body : dprog A) w : wf s -> littered I c n s ->
    (c + Z.of_nat n + 1 < 256 ^ 5)%Z -> n < fuel ->
    exists s', run (d_with_lock true false here shown false fuel I body w) s = (Some (Ok (w, Exc FileNotFoundError)), s') /\
      wf s' /\ littered I c (S n) s' /\
      only_at (fun a => a = count_address I \/ a = marker_address I (c + Z.of_nat (S n))) s s'.
  Proof.
    intros W L Hc Hf. destruct (lock_init_littered I c n s W L) as (s0 & ch & R0 & W0 & A0 & O0).
    pose proof (littered_same I c n s s0 ch L O0 A0 ltac:(lia)) as L0.
    unfold d_with_lock. unfold dbind at 1, dtry at 1. unfold silent. rewrite run_bind, run_ptry, R0. cbn [run fst snd].
    destruct L0 as (H0 & H1 & H2 & _).
    destruct (take_marker_skip I n fuel (c + 1) s0 Hf) as (s1 & R1 & W1 & A1 & O1).
    { intros i Hi. apply H1; lia. }
    { destruct (names s0 (marker_address I (c + 1 + Z.of_nat n))) as [j|] eqn:E; [|reflexivity]. exfalso.
      assert (X : (c + 1 + Z.of_nat n <= c + Z.of_nat n)%Z) by (apply H1; [lia|congruence]). lia. }
    { exact W0. }
    replace (c + 1 + Z.of_nat n)%Z with (c + Z.of_nat (S n))%Z in * by lia.
    exists s1. split; [|split; [exact W1|split]].
    - unfold dbind at 1, dtry at 1. rewrite run_bind.
      match goal with |- context [run (d_enter ?a ?b ?c ?d ?f ?l w) s0] =>
        assert (E : run (d_enter a b c d f l w) s0 = (Some (Ok (w, Exc FileNotFoundError)), s1)) end.
      { unfold d_enter, d_renumber. cbv zeta. unfold dbind at 1, dtry at 1. rewrite run_bind.
        unfold dtry at 1. unfold silent. rewrite run_bind, run_ptry. unfold renumber. cbn [l_count l_marker l_name].
        rewrite (run_bind_ok _ _ _ _ _ (read_ok _ _ _ _ A0)).
        rewrite from_le by (change (Z.of_nat 5) with 5%Z; lia).
        rewrite (run_bind_ok _ _ _ _ _ R1). reflexivity. }
      rewrite E. reflexivity.
    - assert (Ne : forall i, i <> (c + Z.of_nat (S n))%Z -> same_at s0 s1 (marker_address I i)) by (intros; apply O1; adn hash0 I).
      split; [exact H0|]. split; [|split].
      + intros i Hi. destruct (Z.eq_dec i (c + Z.of_nat (S n))) as [->|D].
        * rewrite (proj1 A1). split; [lia|congruence].
        * rewrite (same_names s0 s1) by now apply Ne. rewrite H1 by exact Hi. lia.
      + intro i. rewrite (same_names s0 s1); [apply H2|]. apply O1. adn hash0 I; try tauto.
      + right. split; [|lia]. apply (at_content _ _ ch). apply (at_same s0); [exact A0|]. apply O1. adn hash0 I; try tauto.
    - intros a Ha. apply same_trans with s0; [apply O0|apply O1]; intro; apply Ha; auto.
  Qed.
End NoDir.

(** Somebody without debug=True goes past the litter. *)
Lemma with_lock_past {A} I c n s fuel (body : prog A) : wf s -> littered I c n s -> (c + Z.of_nat n + 1 < 256 ^ 5)%Z -> n < fuel ->
  exists s1, wf s1 /\ only_at (lock_names I) s s1 /\
    forall r s2, run body s1 = (Some r, s2) -> wf s2 -> (forall a, lock_names I a -> same_at s1 s2 a) ->
      exists s3, run (with_lock false fuel I body) s = (Some r, s3) /\ wf s3 /\
        only_at (lock_names I) s2 s3 /\ littered I (c + Z.of_nat n + 1) 0 s3 /\
        (forall i, (i <= c + Z.of_nat n)%Z -> names s3 (marker_address I i) = names s (marker_address I i)).
Proof.
  intros W L Hc Hf. destruct (lock_init_littered I c n s W L) as (s0 & ch & R0 & W0 & A0 & O0).
  pose proof (littered_same I c n s s0 ch L O0 A0 ltac:(lia)) as (H0 & H1 & H2 & _).
  destruct (take_marker_skip I n fuel (c + 1) s0 Hf) as (s1 & R1 & W1 & A1 & O1).
  { intros i Hi. apply H1; lia. }
  { destruct (names s0 (marker_address I (c + 1 + Z.of_nat n))) as [j|] eqn:E; [|reflexivity]. exfalso.
    assert (X : (c + 1 + Z.of_nat n <= c + Z.of_nat n)%Z) by (apply H1; [lia|congruence]). lia. }
  { exact W0. }
  replace (c + 1 + Z.of_nat n)%Z with (c + Z.of_nat n + 1)%Z in * by lia. set (d := (c + Z.of_nat n + 1)%Z) in *.
  assert (Hd : (c < d)%Z) by lia.
  assert (N1 : forall i, names s1 (lock_address I i) = None).
  { intro i. rewrite (same_names s0 s1); [apply H2|]. apply O1. adn hash0 I; try tauto. }
  destruct (create_ok s1 (lock_address I d) 1 W1 (N1 _)) as (s2 & R2 & W2 & A2 & O2); [discriminate|].
  assert (N2 : forall i, i <> d -> names s2 (lock_address I i) = None).
  { intros i Hi. rewrite (same_names s1 s2); [apply N1|]. apply O2. adn hash0 I. }
  set (l := mkLock I (mkHandle (count_address I) ch) d c (Some (mkHandle (marker_address I d) (next s0)))
              (Some (mkHandle (lock_address I d) (next s1))) true 0 None).
  assert (RE : run (enter fuel (mkLock I (mkHandle (count_address I) ch) 0 0 None None false 0 None)) s0 = (Some (Ok l), s2)).
  { unfold enter. rewrite run_ptry. unfold renumber. cbn [l_count l_marker l_name].
    rewrite (run_bind_ok _ _ _ _ _ (read_ok _ _ _ _ A0)).
    rewrite from_le by (change (Z.of_nat 5) with 5%Z; lia).
    rewrite (run_bind_ok _ _ _ _ _ R1). cbn [run fst snd]. rewrite run_bind. unfold acquire. cbn [l_name l_number].
    rewrite run_ptry, R2. destruct fuel as [|f]; [lia|]. cbn [acquire_loop l_acquired set_lock]. rewrite run_bind.
    unfold check_acquirement. cbn [l_name l_number l_floor set_lock].
    assert (X : forall m : nat, (c + Z.of_nat m <= d)%Z -> run (any_locked I (count_down m c)) s2 = (Some (Ok false), s2)).
    { induction m as [|m IH]; intro Hm; cbn [count_down any_locked]; [reflexivity|].
      rewrite run_bind, exists_names by exact W2. rewrite N2 by lia. apply IH. lia. }
    rewrite (run_bind_ok _ _ _ _ _ (X (Z.to_nat (d - c)) ltac:(lia))). cbn [run snd fst set_acquired acquire_loop l_acquired].
    destruct f; reflexivity. }
  exists s2. split; [exact W2|]. split.
  { intros a Ha. apply same_trans with s0; [apply O0|apply same_trans with s1; [apply O1|apply O2]]; intros <-; apply Ha; unfold lock_names; eauto. }
  intros r s3 Rb W3 Hs.
  destruct (release_ok I d s3 ch (next s0) (next s1) c W3) as (s4 & R4 & W4 & A4 & Nm & Nl & O4).
  - exists (le_digits 5 c). split; [|apply le_length].
    apply (at_same s2); [apply (at_same s1); [apply (at_same s0); [exact A0|]|]|apply Hs; left; reflexivity];
      [apply O1|apply O2]; adn hash0 I; try tauto.
  - eexists. apply (at_same s2); [apply (at_same s1); [exact A1|]|].
    + apply O2. adn hash0 I; try tauto.
    + apply Hs. right; left; eauto.
  - eexists. apply (at_same s2); [exact A2|]. apply Hs. right; right; eauto.
  - lia.
  - assert (Mk : forall i, i <> d -> names s4 (marker_address I i) = names s (marker_address I i)).
    { intros i Hi. rewrite (same_names s3 s4), (same_names s2 s3), (same_names s1 s2), (same_names s0 s1), (same_names s s0); [reflexivity| | | | |].
      - apply O0. adn hash0 I; try tauto.
      - apply O1. adn hash0 I.
      - apply O2. adn hash0 I; try tauto.
      - apply Hs. right; left; eauto.
      - apply O4. intros [E|[E|E]]; revert E; adn hash0 I; try tauto. }
    exists s4. unfold with_lock. rewrite (run_bind_ok _ _ _ _ _ R0), (run_bind_ok _ _ _ _ _ RE).
    rewrite run_ptry, Rb. unfold l. split; [|split; [exact W4|split; [|split]]].
    + destruct r as [x|e]; rewrite (run_bind_ok _ _ _ _ _ R4); reflexivity.
    + intros a Ha. apply O4. intro E. apply Ha. unfold lock_names. destruct E as [E|[E|E]]; eauto.
    + split; [lia|]. split; [|split].
      * intros i Hi. rewrite Mk by lia. destruct L as (_ & L1 & _). rewrite L1 by lia. lia.
      * intro i. destruct (Z.eq_dec i d) as [->|Hi]; [exact Nl|].
        rewrite (same_names s3 s4), (same_names s2 s3); [now apply N2| |].
        -- apply Hs. right; right; eauto.
        -- apply O4. intros [E|[E|E]]; revert E; adn hash0 I; try tauto.
      * right. split; [apply (at_content _ _ _ _ A4)|lia].
    + intros i Hi. apply Mk. lia.
Qed.
