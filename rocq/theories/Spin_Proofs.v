(** Waiting with a limit, and closing a lock. *)
From Verif Require Export Spin_Spec Lock_Proofs.

Lemma any_locked_run I ns s : wf s ->
  run (any_locked I ns) s =
  (Some (Ok (existsb (fun n => match names s (lock_address I n) with Some _ => true | None => false end) ns)), s).
Proof.
  intro W. induction ns as [|n r IH]; [reflexivity|]. cbn [any_locked existsb].
  rewrite (run_bind_ok _ _ _ _ _ (exists_names s _ W)).
  destruct (names s (lock_address I n)); [reflexivity|exact IH].
Qed.

Lemma count_down_in m f k : In k (count_down m f) <-> (f <= k < f + Z.of_nat m)%Z.
Proof.
  induction m as [|m IH]; cbn [count_down In]; [lia|]. rewrite IH. lia.
Qed.

Lemma any_locked_ahead I f n s : wf s -> ahead I f n s ->
  run (any_locked I (count_down (Z.to_nat (n - f)) f)) s = (Some (Ok true), s).
Proof.
  intros W (k & Hk & Hn). rewrite any_locked_run by exact W. repeat f_equal.
  apply existsb_exists. exists k. split; [apply count_down_in; lia|].
  destruct (names s (lock_address I k)); congruence.
Qed.

Lemma loop_times_out I ch mh n f m lk s : wf s -> ahead I f n s ->
  forall fuel sp,
  run (acquire_loop fuel (slotted I ch mh n f sp (Some m) lk)) s =
  (if (Nat.ltb fuel (rounds m sp)) then None
   else Some (Ok (slotted I ch mh n f (Z.max m sp + 1) (Some m) lk, Exc TimeoutError)), s).
Proof.
  intros W H. induction fuel as [|fuel IH]; intro sp; [reflexivity|].
  cbn [acquire_loop]. unfold slotted at 1. cbn [l_acquired].
  unfold check_acquirement. cbn [l_name l_number l_floor slotted].
  rewrite run_bind. rewrite (run_bind_ok _ _ _ _ _ (any_locked_ahead I f n s W H)).
  cbn [add_spin l_max_spins l_spins slotted l_name l_count l_number l_floor l_marker l_lock l_acquired].
  destruct (m <? sp + 1)%Z eqn:E.
  - apply Z.ltb_lt in E. unfold rounds. replace (Z.to_nat (m - sp)) with 0 by lia.
    cbn [run snd fst]. change (Nat.ltb (S fuel) 1) with (Nat.ltb fuel 0). cbn [Nat.ltb Nat.leb].
    replace (Z.max m sp) with sp by lia. reflexivity.
  - apply Z.ltb_ge in E. cbn [run snd fst set_acquired l_name l_count l_number l_floor l_marker l_lock l_acquired l_spins l_max_spins].
    match goal with |- context [acquire_loop fuel ?x] => change x with (slotted I ch mh n f (sp + 1) (Some m) lk) end.
    rewrite IH.
    unfold rounds. replace (Z.to_nat (m - sp)) with (S (Z.to_nat (m - (sp + 1)))) by lia.
    replace (Z.max m (sp + 1)) with (Z.max m sp) by lia.
    change (Nat.ltb (S fuel) (S (S (Z.to_nat (m - (sp + 1)))))) with (Nat.ltb fuel (S (Z.to_nat (m - (sp + 1))))).
    reflexivity.
Qed.

Lemma same_ahead I f n s s' : (forall k, (f <= k < n)%Z -> same_at s s' (lock_address I k)) -> ahead I f n s -> ahead I f n s'.
Proof. intros Hs (k & Hk & Hn). exists k. split; [exact Hk|]. rewrite (same_names s s') by auto. exact Hn. Qed.

(** acquire: the lock is placed, and after the rounds the limit is passed. *)
Lemma acquire_times_out I ch mh n f m sp s : wf s -> ahead I f n s -> names s (lock_address I n) = None ->
  exists s', wf s' /\ only_at (eq (lock_address I n)) s s' /\
    at_ s' (lock_address I n) (next s) (zeros 1) /\
    forall fuel,
    run (acquire fuel (slotted I ch mh n f sp (Some m) None)) s =
    (if (Nat.ltb fuel (rounds m sp)) then None
     else Some (Ok (slotted I ch mh n f (Z.max m sp + 1) (Some m)
                      (Some (mkHandle (lock_address I n) (next s))), Exc TimeoutError)), s').
Proof.
  intros W H Hn. destruct (create_ok s (lock_address I n) 1 W Hn) as (s1 & R1 & W1 & A1 & O1); [discriminate|].
  exists s1. split; [exact W1|]. split; [exact O1|]. split; [exact A1|].
  intro fuel. unfold acquire. cbn [l_name l_number slotted]. rewrite run_ptry, R1.
  change (set_lock _ ?h) with (slotted I ch mh n f sp (Some m) (Some h)).
  apply loop_times_out; [exact W1|]. apply (same_ahead I f n s); [|exact H].
  intros k Hk. apply O1. adn hash0 I.
Qed.

(** The marker loop passes the taken slots. *)
Lemma take_marker_run I j : forall c s fuel, wf s -> j < fuel ->
  (forall n, (c < n <= c + Z.of_nat j)%Z -> names s (marker_address I n) <> None) ->
  names s (marker_address I (c + Z.of_nat j + 1)) = None ->
  exists s', run (take_marker fuel I (c + 1)) s =
      (Some (Ok ((c + Z.of_nat j + 1)%Z, mkHandle (marker_address I (c + Z.of_nat j + 1)) (next s))), s') /\
    wf s' /\ at_ s' (marker_address I (c + Z.of_nat j + 1)) (next s) (zeros 1) /\
    only_at (eq (marker_address I (c + Z.of_nat j + 1))) s s'.
Proof.
  induction j as [|j IH]; intros c s fuel W Hf Ht Hn; (destruct fuel as [|fuel]; [lia|]); cbn [take_marker]; rewrite run_ptry.
  - replace (c + Z.of_nat 0 + 1)%Z with (c + 1)%Z in * by lia.
    destruct (create_ok s (marker_address I (c + 1)) 1 W Hn) as (s1 & R1 & W1 & A1 & O1); [discriminate|].
    rewrite R1. exists s1. cbn [run]. auto.
  - assert (Hx : names s (marker_address I (c + 1)) <> None) by (apply Ht; lia).
    destruct (names s (marker_address I (c + 1))) as [i|] eqn:Ei; [|congruence].
    rewrite (create_exists s _ 1 i Ei) by discriminate.
    replace (c + Z.of_nat (S j) + 1)%Z with ((c + 1) + Z.of_nat j + 1)%Z in * by lia.
    apply IH; [exact W|lia| |exact Hn]. intros n Hr. apply Ht. lia.
Qed.

Lemma release_waiting I ch mh lh n f sp mx s : wf s ->
  names s (marker_address I n) <> None -> names s (lock_address I n) <> None ->
  exists s', run (release (slotted I ch mh n f sp mx (Some (mkHandle (lock_address I n) lh)))) s =
      (Some (Ok (idle I ch n f sp mx)), s') /\ wf s' /\
    names s' (marker_address I n) = None /\ names s' (lock_address I n) = None /\
    only_at (fun a => a = marker_address I n \/ a = lock_address I n) s s'.
Proof.
  intros W Hm Hl. unfold release. cbn [l_acquired slotted l_lock l_marker release_block]. rewrite run_bind_ret.
  destruct (names s (lock_address I n)) as [i|] eqn:El; [|congruence].
  destruct (unlink_ok s _ _ W El) as (s1 & R1 & W1 & N1 & O1).
  rewrite (run_bind_ok _ _ _ _ _ (R1 lh)).
  destruct (names s (marker_address I n)) as [i'|] eqn:Em; [|congruence].
  destruct (unlink_ok s1 (marker_address I n) i' W1) as (s2 & R2 & W2 & N2 & O2).
  { rewrite (same_names s s1); [exact Em|]. apply O1. adn hash0 I; try tauto. }
  rewrite (run_bind_ok _ _ _ _ _ (R2 mh)). exists s2. cbn [run]. split; [reflexivity|]. split; [exact W2|].
  split; [exact N2|]. split.
  - rewrite (same_names s1 s2); [exact N1|]. apply O2. adn hash0 I; try tauto.
  - intros a Ha. apply same_trans with s1; [apply O1|apply O2]; intros <-; tauto.
Qed.

Lemma enter_times_out I ch c j n f sp m s fuel : wf s -> queued I ch c j s -> j < fuel ->
  (rounds m sp <= fuel ->
   exists s', run (enter fuel (idle I ch n f sp (Some m))) s = (Some (Exc TimeoutError), s') /\
     wf s' /\ forall a, same_at s s' a) /\
  (fuel < rounds m sp -> fst (run (enter fuel (idle I ch n f sp (Some m))) s) = None).
Proof.
  intros W (Hc & Hn & Hm & Ht & Hm1 & Hl1 & Ha) Hf.
  assert (A : at_ s (count_address I) ch (le_digits 5 c)) by (split; assumption).
  set (k := (c + Z.of_nat j + 1)%Z) in *.
  destruct (take_marker_run I j c s fuel W Hf Ht Hm1) as (s1 & R1 & W1 & A1 & O1). fold k in R1, A1, O1.
  destruct (acquire_times_out I ch (next s) k c m sp s1 W1) as (s2 & W2 & O2 & A2 & R2).
  { apply (same_ahead I c k s); [|exact Ha]. intros x Hx. apply O1. adn hash0 I. }
  { rewrite (same_names s s1); [exact Hl1|]. apply O1. adn hash0 I. }
  assert (E : run (enter fuel (idle I ch n f sp (Some m))) s =
    match run (acquire fuel (slotted I ch (next s) k c sp (Some m) None)) s1 with
    | (Some (Ok (l, Ok _)), s') => (Some (Ok l), s')
    | (Some (Ok (l, Exc e)), s') => run (if is_Exception e then release l >>> Raise e else Raise e) s'
    | (Some (Exc e), s') => (Some (Exc e), s')
    | (None, s') => (None, s')
    end).
  { unfold enter. rewrite run_ptry. unfold renumber. cbn [idle l_count l_marker l_name].
    rewrite (run_bind_ok _ _ _ _ _ (read_ok _ _ _ _ A)).
    rewrite from_le by (change (Z.of_nat 5) with 5%Z; lia).
    rewrite (run_bind_ok _ _ _ _ _ R1).
    cbn [run fst snd idle l_lock l_acquired l_spins l_max_spins l_count].
    change {| l_name := I; l_count := mkHandle (count_address I) ch; l_number := k; l_floor := c;
              l_marker := Some (mkHandle (marker_address I k) (next s)); l_lock := None;
              l_acquired := false; l_spins := sp; l_max_spins := Some m |}
      with (slotted I ch (next s) k c sp (Some m) None).
    rewrite run_bind.
    destruct (run (acquire fuel _) s1) as [[[[l [u|e]]|e]|] s']; reflexivity. }
  rewrite E, R2. split.
  - intro Hr. destruct (Nat.ltb fuel (rounds m sp)) eqn:El; [apply Nat.ltb_lt in El; lia|]. cbn [is_Exception].
    destruct (release_waiting I ch (next s) (next s1) k c (Z.max m sp + 1) (Some m) s2 W2) as (s3 & R3 & W3 & N3 & N3' & O3).
    { rewrite (same_names s1 s2); [rewrite (proj1 A1); discriminate|]. apply O2. adn hash0 I; try tauto. }
    { rewrite (proj1 A2). discriminate. }
    exists s3. rewrite (run_bind_ok _ _ _ _ _ R3). split; [reflexivity|]. split; [exact W3|].
    intro a. destruct (string_dec a (marker_address I k)) as [->|Hm'].
    { split; [congruence|]. intros i Hi. congruence. }
    destruct (string_dec a (lock_address I k)) as [->|Hl'].
    { split; [congruence|]. intros i Hi. congruence. }
    apply same_trans with s1; [apply O1; congruence|]. apply same_trans with s2; [apply O2; congruence|apply O3; tauto].
  - intro Hr. destruct (Nat.ltb fuel (rounds m sp)) eqn:El; [reflexivity|]. apply Nat.ltb_ge in El. lia.
Qed.

(** ** close *)

Lemma close_obj_run o s : wf s ->
  (forall h, o = Some h -> content s (hname h) <> Some "") ->
  exists s', run (close_obj o) s = (Some (Ok tt), s') /\ wf s' /\
    (forall h, o = Some h -> names s' (hname h) = None) /\
    only_at (fun a => exists h, o = Some h /\ a = hname h) s s'.
Proof.
  intros W H. destruct o as [h|]; cbn [close_obj].
  2:{ exists s. split; [reflexivity|]. split; [exact W|]. split; [discriminate|apply only_refl]. }
  rewrite run_ptry. specialize (H h eq_refl).
  destruct (content s (hname h)) as [b|] eqn:E.
  - destruct (content_at _ _ _ E) as [i A].
    destruct (delete_ok s (hname h) i b false W A) as (s1 & R1 & W1 & N1 & O1); [congruence|].
    rewrite R1. exists s1. cbn [run]. split; [reflexivity|]. split; [exact W1|]. split; [intros ? [= <-]; exact N1|].
    apply (only_sub _ _ _ _ O1). intros a <-. eauto.
  - apply content_none in E; [|exact W]. rewrite (delete_missing _ _ _ E). exists s. split; [reflexivity|].
    split; [exact W|]. split; [intros ? [= <-]; exact E|apply only_refl].
Qed.

Lemma lock_close_run l s : wf s -> no_half_made l s ->
  exists s', run (lock_close l) s = (Some (Ok tt), s') /\ wf s' /\
    (forall a, In a (lock_blocks l) -> names s' a = None) /\
    only_at (fun a => In a (lock_blocks l)) s s'.
Proof.
  intros W H. unfold no_half_made, lock_blocks in *.
  assert (Hl : forall h, l_lock l = Some h -> In (hname h) (map hname (match l_lock l with Some h => [h] | None => [] end ++ [l_count l] ++ match l_marker l with Some h => [h] | None => [] end))).
  { intros h ->. left. reflexivity. }
  assert (Hc : In (hname (l_count l)) (map hname (match l_lock l with Some h => [h] | None => [] end ++ [l_count l] ++ match l_marker l with Some h => [h] | None => [] end))).
  { apply in_map, in_or_app. right. left. reflexivity. }
  assert (Hm : forall h, l_marker l = Some h -> In (hname h) (map hname (match l_lock l with Some h => [h] | None => [] end ++ [l_count l] ++ match l_marker l with Some h => [h] | None => [] end))).
  { intros h ->. apply in_map, in_or_app. right. right. left. reflexivity. }
  assert (Hin : forall a, In a (map hname (match l_lock l with Some h => [h] | None => [] end ++ [l_count l] ++ match l_marker l with Some h => [h] | None => [] end)) ->
     (exists h, l_lock l = Some h /\ a = hname h) \/ (exists h, Some (l_count l) = Some h /\ a = hname h) \/ (exists h, l_marker l = Some h /\ a = hname h)).
  { intros a Ha. apply in_map_iff in Ha. destruct Ha as (h & <- & Ha). apply in_app_or in Ha. destruct Ha as [Ha|[<-|Ha]].
    - left. destruct (l_lock l) as [x|]; [|destruct Ha]. destruct Ha as [<-|[]]. eauto.
    - right; left. eauto.
    - right; right. destruct (l_marker l) as [x|]; [|destruct Ha]. destruct Ha as [<-|[]]. eauto. }
  revert H Hl Hc Hm Hin. generalize (map hname (match l_lock l with Some h => [h] | None => [] end ++ [l_count l] ++ match l_marker l with Some h => [h] | None => [] end)).
  intros L H Hl Hc Hm Hin.
  assert (keep : forall s s' (o : option handle), wf s -> only_at (fun a => exists h, o = Some h /\ a = hname h) s s' ->
     (forall h, o = Some h -> names s' (hname h) = None) ->
     (forall a, In a L -> content s a <> Some "") -> forall a, In a L -> content s' a <> Some "").
  { intros t t' o Wt O N Hh a Ha. destruct o as [h|].
    - destruct (string_dec a (hname h)) as [->|Hne].
      + unfold content. rewrite (N h eq_refl). discriminate.
      + rewrite (same_content t t'); [auto|]. apply O. intros (h' & [= <-] & E). congruence.
    - rewrite (same_content t t'); [auto|]. apply O. intros (h' & [=] & _). }
  assert (gone : forall s s' (o : option handle) a, only_at (fun a => exists h, o = Some h /\ a = hname h) s s' ->
     (forall h, o = Some h -> names s' (hname h) = None) -> names s a = None -> names s' a = None).
  { intros t t' o a O N Hh. destruct o as [h|].
    - destruct (string_dec a (hname h)) as [->|Hne]; [exact (N h eq_refl)|].
      rewrite (same_names t t'); [exact Hh|]. apply O. intros (h' & [= <-] & E). congruence.
    - rewrite (same_names t t'); [exact Hh|]. apply O. intros (h' & [=] & _). }
  unfold lock_close.
  destruct (close_obj_run (l_lock l) s W) as (s1 & R1 & W1 & N1 & O1); [intros h E; apply H, Hl, E|].
  pose proof (keep _ _ _ W O1 N1 H) as H1.
  destruct (close_obj_run (Some (l_count l)) s1 W1) as (s2 & R2 & W2 & N2 & O2); [intros h [= <-]; apply H1, Hc|].
  pose proof (keep _ _ _ W1 O2 N2 H1) as H2.
  destruct (close_obj_run (l_marker l) s2 W2) as (s3 & R3 & W3 & N3 & O3); [intros h E; apply H2, Hm, E|].
  rewrite (run_bind_ok _ _ _ _ _ R1), (run_bind_ok _ _ _ _ _ R2), R3. exists s3.
  split; [reflexivity|]. split; [exact W3|]. split.
  - intros a Ha. destruct (Hin a Ha) as [(h & E & ->)|[(h & E & ->)|(h & E & ->)]].
    + apply (gone _ _ _ _ O3 N3), (gone _ _ _ _ O2 N2), N1, E.
    + apply (gone _ _ _ _ O3 N3), N2, E.
    + apply N3, E.
  - intros a Ha. apply same_trans with s1; [apply O1|apply same_trans with s2; [apply O2|apply O3]];
      intros (h & E & ->); apply Ha; auto. injection E as <-. exact Hc.
Qed.

(** A newcomer to a lock whose counter is gone takes slot 1 and enters, no
    matter who holds a higher slot. *)
Lemma lost_counter I s fuel : wf s -> fuel <> 0 -> names s (count_address I) = None ->
  names s (marker_address I 1) = None -> names s (lock_address I 0) = None -> names s (lock_address I 1) = None ->
  exists l s', run (let! l := lock_init I in enter fuel l) s = (Some (Ok l), s') /\ wf s' /\
    l_acquired l = true /\ l_number l = 1%Z /\
    forall n, (n <> 1)%Z -> same_at s s' (lock_address I n) /\ same_at s s' (marker_address I n).
Proof.
  intros W Hf Hc Hm H0 H1. destruct fuel as [|f]; [congruence|].
  destruct (open_new s (count_address I) 5 false W Hc) as (s1 & R1 & W1 & A1 & O1); [discriminate|].
  unfold lock_init at 1. rewrite run_bind. rewrite (run_bind_ok _ _ _ _ _ R1). cbn [run].
  unfold enter. rewrite run_ptry. unfold renumber. cbn [l_count l_marker l_name].
  rewrite (run_bind_ok _ _ _ _ _ (read_ok _ _ _ _ A1)).
  change (from_bytes (zeros 5)) with 0%Z. change (0 + 1)%Z with 1%Z.
  rewrite run_bind. cbn [take_marker]. rewrite run_ptry.
  destruct (create_ok s1 (marker_address I 1) 1 W1) as (s2 & R2 & W2 & A2 & O2); [|discriminate|].
  { rewrite (same_names s s1); [exact Hm|]. apply O1. adn hash0 I; try tauto. }
  rewrite R2. cbn [run fst snd]. rewrite run_bind. unfold acquire. cbn [l_name l_number]. rewrite run_ptry.
  destruct (create_ok s2 (lock_address I 1) 1 W2) as (s3 & R3 & W3 & A3 & O3); [|discriminate|].
  { rewrite (same_names s1 s2), (same_names s s1); [exact H1| |]; [apply O1|apply O2]; adn hash0 I; try tauto. }
  rewrite R3. cbn [acquire_loop l_acquired set_lock l_floor l_number]. rewrite run_bind.
  unfold check_acquirement. cbn [l_name l_number l_floor set_lock].
  change (Z.to_nat (1 - 0)) with 1. cbn [count_down any_locked]. change (0 + Z.of_nat 0)%Z with 0%Z.
  rewrite run_bind, run_bind. rewrite exists_names by assumption.
  rewrite (same_names s2 s3), (same_names s1 s2), (same_names s s1), H0;
    [|apply O1; adn hash0 I; try tauto|apply O2; adn hash0 I; try tauto|apply O3; adn hash0 I; try tauto].
  cbn [run snd fst set_acquired acquire_loop l_acquired].
  destruct f; cbn [acquire_loop set_acquired l_acquired run snd fst]; do 2 eexists; (split; [reflexivity|]);
    (split; [exact W3|]); (split; [reflexivity|]); (split; [reflexivity|]); intros n Hn; split;
    (apply same_trans with s1; [apply O1; adn hash0 I; try tauto|]);
    (apply same_trans with s2; [apply O2; adn hash0 I; try tauto|apply O3; adn hash0 I; try tauto]).
Qed.

Lemma close_lets_others_in I ch n f sp mx s fuel k : wf s -> fuel <> 0 ->
  content s (count_address I) <> Some "" ->
  names s (marker_address I 1) = None -> names s (lock_address I 0) = None -> names s (lock_address I 1) = None ->
  (1 < k)%Z -> names s (lock_address I k) <> None ->
  exists l s', run (lock_close (idle I ch n f sp mx) >>> (let! l := lock_init I in enter fuel l)) s = (Some (Ok l), s') /\
    l_acquired l = true /\ names s' (lock_address I k) = names s (lock_address I k).
Proof.
  intros W Hf Hc Hm H0 H1 Hk Hl.
  destruct (lock_close_run (idle I ch n f sp mx) s W) as (s1 & R1 & W1 & N1 & O1).
  { intros a [<-|[]]. exact Hc. }
  assert (K : forall a, a <> count_address I -> names s1 a = names s a).
  { intros a Ha. apply same_names, O1. intros [E|[]]. cbn in E. congruence. }
  destruct (lost_counter I s1 fuel W1 Hf) as (l & s2 & R2 & W2 & Hacq & _ & Hs).
  { apply N1. left. reflexivity. }
  { rewrite K; [exact Hm|]. adn hash0 I; try tauto. }
  { rewrite K; [exact H0|]. adn hash0 I; try tauto. }
  { rewrite K; [exact H1|]. adn hash0 I; try tauto. }
  exists l, s2. rewrite (run_bind_ok _ _ _ _ _ R1). split; [exact R2|]. split; [exact Hacq|].
  destruct (Hs k) as [Hs' _]; [lia|]. rewrite (same_names s1 s2) by exact Hs'. apply K. adn hash0 I; try tauto.
Qed.

(** Closing an index does the same to the lock of the index. *)
Lemma index_close_lets_others_in I ih nl s fuel k : wf s -> fuel <> 0 ->
  names s I <> None -> content s (count_address I) <> Some "" ->
  names s (marker_address I 1) = None -> names s (lock_address I 0) = None -> names s (lock_address I 1) = None ->
  (1 < k)%Z -> names s (lock_address I k) <> None ->
  exists l s', run (tag_close (mkIndex I (mkHandle I ih) nl) >>> (let! l := lock_init I in enter fuel l)) s = (Some (Ok l), s') /\
    l_acquired l = true /\ names s' (lock_address I k) = names s (lock_address I k).
Proof.
  intros W Hf Hi Hc Hm H0 H1 Hk Hl.
  destruct (names s I) as [i0|] eqn:Ei; [|congruence].
  destruct (unlink_ok s I i0 W Ei) as (s0 & R0 & W0 & N0 & O0).
  assert (Hne : forall n, I <> lock_address I n) by (intro n; change (addr hash0 I (SMem hash0) <> addr hash0 I (SLock hash0 n)); apply addr_neq; cbn; tauto).
  assert (Hnm : forall n, I <> marker_address I n) by (intro n; change (addr hash0 I (SMem hash0) <> addr hash0 I (SMarker hash0 n)); apply addr_neq; cbn; tauto).
  assert (Hnc : I <> count_address I) by (change (addr hash0 I (SMem hash0) <> addr hash0 I (SCount hash0)); apply addr_neq; cbn; tauto).
  assert (C : exists s1, run (tag_close (mkIndex I (mkHandle I ih) nl)) s = (Some (Ok tt), s1) /\ wf s1 /\
     names s1 (count_address I) = None /\ only_at (fun a => a = I \/ a = count_address I) s s1).
  { unfold tag_close. cbn [ix_mem ix_name]. rewrite (run_bind_ok _ _ _ _ _ (R0 ih)).
    rewrite (run_bind_ok _ _ _ _ _ (exists_names s0 _ W0)).
    destruct (names s0 (count_address I)) as [ic|] eqn:Ec.
    - destruct (mem s0 ic) as [bc|] eqn:Em; [|destruct W0 as (_ & H & _); destruct (H _ _ Ec Em)].
      assert (A : at_ s0 (count_address I) ic bc) by (split; assumption).
      assert (Hb : bc <> "").
      { intros ->. apply Hc. rewrite <- (same_content s s0); [apply (at_content _ _ _ _ A)|]. apply O0. exact Hnc. }
      rewrite (run_bind_ok _ _ _ _ _ (attach_ok _ _ _ _ A Hb)).
      destruct (unlink_ok s0 _ _ W0 Ec) as (s1 & R1 & W1 & N1 & O1). rewrite R1. exists s1.
      split; [reflexivity|]. split; [exact W1|]. split; [exact N1|].
      intros a Ha. apply same_trans with s0; [apply O0|apply O1]; intros <-; tauto.
    - exists s0. split; [reflexivity|]. split; [exact W0|]. split; [exact Ec|].
      intros a Ha. apply O0. intros <-. tauto. }
  destruct C as (s1 & R1 & W1 & N1 & O1).
  assert (K : forall a, a <> I -> a <> count_address I -> names s1 a = names s a).
  { intros a Ha Hb. apply same_names, O1. tauto. }
  destruct (lost_counter I s1 fuel W1 Hf) as (l & s2 & R2 & W2 & Hacq & _ & Hs).
  { exact N1. }
  { rewrite K; [exact Hm|apply not_eq_sym, Hnm|]. adn hash0 I; try tauto. }
  { rewrite K; [exact H0|apply not_eq_sym, Hne|]. adn hash0 I; try tauto. }
  { rewrite K; [exact H1|apply not_eq_sym, Hne|]. adn hash0 I; try tauto. }
  exists l, s2. rewrite (run_bind_ok _ _ _ _ _ R1). split; [exact R2|]. split; [exact Hacq|].
  destruct (Hs k) as [Hs' _]; [lia|]. rewrite (same_names s1 s2) by exact Hs'. apply K; [apply not_eq_sym, Hne|]. adn hash0 I; try tauto.
Qed.
