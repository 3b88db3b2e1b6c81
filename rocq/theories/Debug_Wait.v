(** What debug=True writes when a lock is waited for. *)
From Verif Require Export Debug_Log Spin_Proofs.

Section Waiting.
  Variables (here : nat -> string) (shown : exn -> string).
  Notation logged := (logged here).

  Lemma first_locked_nearest I f k s : wf s -> forall m, (f <= k < f + Z.of_nat m)%Z -> nearest I k (f + Z.of_nat m) s ->
    run (first_locked I (count_down m f)) s = (Some (Ok (Some k)), s).
  Proof.
    intro W. induction m as [|m IH]; [lia|]. intros Hk [Hn Hz]. cbn [count_down first_locked].
    rewrite (run_bind_ok _ _ _ _ _ (exists_names s _ W)).
    destruct (Z.eq_dec k (f + Z.of_nat m)) as [->|D].
    - destruct (names s (lock_address I (f + Z.of_nat m))); [reflexivity|congruence].
    - rewrite Hz by lia. apply IH; [lia|]. split; [exact Hn|]. intros i Hi. apply Hz. lia.
  Qed.

  Lemma loop_lines I ch mh n f m lk k s : wf s -> (f <= k < n)%Z -> nearest I k n s ->
    forall fuel sp w, rounds m sp <= fuel ->
    run (d_acquire_loop true true here fuel (slotted I ch mh n f sp (Some m) lk) w) s =
    (Some (Ok (logged w (repeat (str_of_Z n, (str_of_Z k ++ " has precedence")%string) (rounds m sp) ++ [(str_of_Z n, "failure (waiting timeout)")]),
               Ok (slotted I ch mh n f (Z.max m sp + 1) (Some m) lk, Exc TimeoutError))), s).
  Proof.
    intros W Hk Hn. induction fuel as [|fuel IH]; intros sp w Hf; [unfold rounds in Hf; lia|].
    cbn [d_acquire_loop]. unfold slotted at 1. cbn [l_acquired].
    assert (F : run (first_locked I (count_down (Z.to_nat (n - f)) f)) s = (Some (Ok (Some k)), s)).
    { apply first_locked_nearest; [exact W|lia|]. replace (f + Z.of_nat (Z.to_nat (n - f)))%Z with n by lia. exact Hn. }
    destruct (m <? sp + 1)%Z eqn:E.
    - apply Z.ltb_lt in E. unfold rounds. replace (Z.to_nat (m - sp)) with 0 by lia. erewrite dbind_ok.
      2: { unfold d_check_acquirement. cbn [slotted l_name l_number l_floor]. erewrite dbind_ok by (apply silent_ok; exact F).
           cbv beta iota. erewrite dtry_ok by apply say_logs. erewrite dbind_ok; [reflexivity|].
           unfold d_wait. cbv zeta. cbn [add_spin l_max_spins l_spins slotted]. rewrite (proj2 (Z.ltb_lt _ _) E).
           erewrite dtry_ok by apply say_logs. reflexivity. }
      unfold dret. cbn [run fst snd repeat app]. unfold own. cbn [l_number slotted add_spin]. rewrite logged_app. cbn [app].
      replace (Z.max m sp) with sp by lia. reflexivity.
    - pose proof E as E'. apply Z.ltb_ge in E. unfold rounds. replace (Z.to_nat (m - sp)) with (S (Z.to_nat (m - (sp + 1)))) by lia.
      erewrite dbind_ok.
      2: { unfold d_check_acquirement. cbn [slotted l_name l_number l_floor]. erewrite dbind_ok by (apply silent_ok; exact F).
           cbv beta iota. erewrite dtry_ok by apply say_logs. erewrite dbind_ok; [reflexivity|].
           unfold d_wait. cbv zeta. cbn [add_spin l_max_spins l_spins slotted]. rewrite E'. reflexivity. }
      cbn [fst snd].
      match goal with |- context [d_acquire_loop true true here fuel ?x] => change x with (slotted I ch mh n f (sp + 1) (Some m) lk) end.
      rewrite IH by (unfold rounds in *; lia). unfold own. cbn [l_number slotted]. rewrite logged_app.
      replace (Z.max m (sp + 1)) with (Z.max m sp) by lia. reflexivity.
  Qed.

  Lemma timeout_lines I ch c j n f sp m k s fuel w : wf s -> queued I ch c j s -> j < fuel -> rounds m sp <= fuel ->
    let me := (c + Z.of_nat j + 1)%Z in
    (c <= k)%Z -> nearest I k me s -> (k < me)%Z ->
    exists s', run (d_enter true true here shown fuel (idle I ch n f sp (Some m)) w) s =
      (Some (Ok (logged w (timed_out (str_of_Z me) (str_of_Z k) (rounds m sp) (shown TimeoutError)), Exc TimeoutError)), s') /\
      wf s' /\ forall a, same_at s s' a.
  Proof.
    intros W Q Hf Hr me Hck Hn Hkm. pose proof Q as (Hc & HN & Hm & Ht & Hm1 & Hl1 & Ha).
    assert (A : at_ s (count_address I) ch (le_digits 5 c)) by (split; assumption).
    destruct (enter_times_out I ch c j n f sp m s fuel W Q Hf) as [X _]. destruct (X Hr) as (s' & E & W' & S'). clear X.
    exists s'. split; [|auto].
    destruct (ag_enter true true here shown (or_introl eq_refl) fuel (idle I ch n f sp (Some m)) w s) as (new & _ & AG). rewrite E in AG.
    destruct (take_marker_run I j c s fuel W Hf Ht Hm1) as (s1 & R1 & W1 & A1 & O1). fold me in R1, A1, O1.
    destruct (create_ok s1 (lock_address I me) 1 W1) as (s2 & R2 & W2 & A2 & O2).
    { rewrite (same_names s s1); [exact Hl1|]. apply O1. adn hash0 I. } { discriminate. }
    destruct (release_waiting I ch (next s) (next s1) me c (Z.max m sp + 1) (Some m) s2 W2) as (s3 & R3 & W3 & _).
    { rewrite (same_names s1 s2); [rewrite (proj1 A1); discriminate|]. apply O2. adn hash0 I; try tauto. }
    { rewrite (proj1 A2). discriminate. }
    assert (RN : run (renumber fuel (idle I ch n f sp (Some m))) s = (Some (Ok (slotted I ch (next s) me c sp (Some m) None)), s1)).
    { unfold renumber. cbn [idle l_count l_marker l_name]. rewrite (run_bind_ok _ _ _ _ _ (read_ok _ _ _ _ A)).
      rewrite from_le by (change (Z.of_nat 5) with 5%Z; lia). rewrite (run_bind_ok _ _ _ _ _ R1). reflexivity. }
    enough (Y : fst (run (d_enter true true here shown fuel (idle I ch n f sp (Some m)) w) s) =
              Some (Ok (logged w (timed_out (str_of_Z me) (str_of_Z k) (rounds m sp) (shown TimeoutError)), Exc TimeoutError))).
    { rewrite AG in *. cbn [fst] in Y. now rewrite Y. }
    clear AG E. unfold d_enter. cbv zeta. erewrite dbind_ok.
    2: { unfold d_renumber. erewrite dtry_ok by (apply silent_ok; exact RN). erewrite dtry_ok by apply say_logs. reflexivity. }
    cbn [fst snd]. erewrite dbind_ok.
    2: { unfold d_acquire. cbn [slotted l_name l_number]. erewrite dtry_ok by (apply silent_ok; exact R2).
         erewrite dtry_ok by apply say_logs.
         change (set_lock _ ?h) with (slotted I ch (next s) me c sp (Some m) (Some h)).
         apply (loop_lines I ch (next s) me c m _ k); [exact W2|lia| |exact Hr].
         destruct Hn as [Hn1 Hn2]. split.
         - rewrite (same_names s1 s2), (same_names s s1); [exact Hn1| |]; [apply O1|apply O2]; adn hash0 I; try tauto.
         - intros i Hi. rewrite (same_names s1 s2), (same_names s s1); [now apply Hn2| |]; [apply O1|apply O2]; adn hash0 I; try tauto. }
    cbn [fst snd is_Exception]. erewrite dbind_ok by apply say_logs.
    assert (R3' := R3). unfold release in R3'. cbn [l_acquired slotted l_lock l_marker release_block] in R3'. rewrite run_bind_ret, run_bind in R3'.
    destruct (run (shm_unlink _) s2) as [[[u|e]|] s4] eqn:E4; [|discriminate|discriminate]. rewrite run_bind in R3'.
    destruct (run (shm_unlink _) s4) as [[[u'|e]|] s5] eqn:E5; [|discriminate|discriminate].
    unfold d_release. cbn [slotted l_acquired l_lock l_marker d_release_block]. erewrite dbind_ok.
    2: { erewrite dbind_ok by reflexivity. erewrite dbind_ok.
         2: { erewrite dbind_ok by (apply silent_ok; exact E4). apply say_logs. }
         erewrite dbind_ok.
         2: { erewrite dbind_ok by (apply silent_ok; exact E5). apply say_logs. }
         reflexivity. }
    unfold draise. cbn [run fst]. unfold own. cbn [l_number slotted add_spin]. rewrite !logged_app.
    do 4 f_equal. unfold timed_out. rewrite <- !app_assoc. reflexivity.
  Qed.

  (** A lock block in one's own slot is taken for one's own lock. *)
  Lemma found_lines I ch mh n f sp mx s fuel w : wf s -> names s (lock_address I n) <> None ->
    exists l, run (d_acquire true true here fuel (slotted I ch mh n f sp mx None) w) s =
      (Some (Ok (logged w [(str_of_Z n, "already have lock")], Ok (l, Ok tt))), s) /\
      l_acquired l = true /\ l_lock l = None /\ l_number l = n.
  Proof.
    intros W Hn. destruct (names s (lock_address I n)) as [i|] eqn:Ei; [|congruence].
    exists (set_acquired (slotted I ch mh n f sp mx None) true). split; [|auto].
    unfold d_acquire. cbn [slotted l_name l_number].
    erewrite dtry_exc by (apply silent_ok; apply (create_exists s _ 1 i Ei); discriminate).
    cbv beta iota. erewrite dtry_ok by apply say_logs. destruct fuel; reflexivity.
  Qed.

  (** acquire called where the directory is missing: the lock is placed and
      stays; a look at the others fails whether or not somebody is ahead. *)
  Lemma acquire_fails I ch mh n f sp mx s fuel w : wf s -> names s (lock_address I n) = None ->
    exists s', run (d_acquire true false here fuel (slotted I ch mh n f sp mx None) w) s =
      (Some (Ok (w, Ok (slotted I ch mh n f sp mx (Some (mkHandle (lock_address I n) (next s))), Exc FileNotFoundError))), s') /\
      wf s' /\ names s' (lock_address I n) = Some (next s) /\ only_at (eq (lock_address I n)) s s'.
  Proof.
    intros W Hn. destruct (create_ok s (lock_address I n) 1 W Hn) as (s1 & R1 & W1 & A1 & O1); [discriminate|].
    exists s1. split; [|split; [exact W1|split; [apply A1|exact O1]]]. unfold d_acquire. cbn [slotted l_name l_number].
    erewrite dtry_ok by (apply silent_ok; exact R1). reflexivity.
  Qed.
  Lemma check_fails I ch mh n f sp mx lk s w : wf s ->
    run (d_check_acquirement true false here (slotted I ch mh n f sp mx lk) w) s =
    (Some (Ok (w, Ok (slotted I ch mh n f sp mx lk, Exc FileNotFoundError))), s).
  Proof.
    intro W. unfold d_check_acquirement. cbn [slotted l_name l_number l_floor].
    assert (F : forall ns, exists o, run (first_locked I ns) s = (Some (Ok o), s)).
    { induction ns as [|i ns [o IH]]; [exists None; reflexivity|]. cbn [first_locked].
      rewrite (run_bind_ok _ _ _ _ _ (exists_names s _ W)). destruct (names s (lock_address I i)); [exists (Some i); reflexivity|exists o; exact IH]. }
    destruct (F (count_down (Z.to_nat (n - f)) f)) as [o E]. erewrite dbind_ok by (apply silent_ok; exact E).
    destruct o; reflexivity.
  Qed.
End Waiting.
