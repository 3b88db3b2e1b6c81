(** Awkward keys, crashes and closing of a TagIndex. *)
From Verif Require Export Crash_Facts.

(** ** The specification's own facts *)

Lemma swap_remove_in k ks x : NoDup ks -> In k ks -> (In x (swap_remove k ks) <-> In x ks /\ x <> k).
Proof.
  intros Hd Hk. destruct (exists_last (l := ks)) as (l & z & ->); [intros ->; destruct Hk|].
  apply nodup_snoc in Hd. destruct Hd as [Hd Hz]. destruct (string_dec z k) as [->|E].
  - rewrite swap_last, in_app_iff. cbn. split; [intro Hx; split; [auto|intros ->; auto]|]. intros [[Hx|[Hx|[]]] Hn]; [exact Hx|congruence].
  - rewrite swap_other by assumption. apply in_app_or in Hk. destruct Hk as [Hk|[?|[]]]; [|congruence].
    apply In_nth_error in Hk. destruct Hk as [i Hi]. rewrite in_app_iff. cbn. split.
    + intro Hx. apply In_nth_error in Hx. destruct Hx as [j Hj]. rewrite (put_nth k z l i) in Hj by assumption.
      destruct (Nat.eqb_spec j i) as [Eji|Hji]; [injection Hj as <-; auto|].
      split; [left; eapply nth_error_In; eauto|]. intros ->. apply Hji. eapply nodup_nth; eauto.
    + intros [[Hx|[<-|[]]] Hxk].
      * apply In_nth_error in Hx. destruct Hx as [j Hj]. apply nth_error_In with j. rewrite (put_nth k z l i) by assumption.
        destruct (Nat.eqb_spec j i) as [->|Hji]; [congruence|exact Hj].
      * apply nth_error_In with i. rewrite (put_nth k z l i), Nat.eqb_refl by assumption. reflexivity.
Qed.
Lemma swap_remove_nodup k ks : NoDup ks -> In k ks -> NoDup (swap_remove k ks).
Proof.
  intros Hd Hk. destruct (exists_last (l := ks)) as (l & z & ->); [intros ->; destruct Hk|].
  apply nodup_snoc in Hd. destruct Hd as [Hd Hz]. destruct (string_dec z k) as [->|E].
  - now rewrite swap_last.
  - rewrite swap_other by assumption. apply in_app_or in Hk. destruct Hk as [Hk|[?|[]]]; [|congruence].
    apply In_nth_error in Hk. destruct Hk as [i Hi]. eapply put_nodup; eauto.
Qed.
Lemma position_iff k ks : (exists i, position k ks = Some i) <-> In k ks.
Proof.
  split; [|apply position_in]. intros [i E]. apply position_some in E. eapply nth_error_In. apply E.
Qed.
Lemma tags_step_nodup ks o : NoDup ks -> NoDup (snd (tags_step ks o)).
Proof.
  intro Hd. destruct o as [k ok|k|k|]; cbn [tags_step]; try exact Hd; destruct (position (ktext k) ks) as [i|] eqn:E; cbn [snd]; try exact Hd.
  - apply nodup_snoc. split; [exact Hd|]. now apply position_none.
  - apply swap_remove_nodup; [exact Hd|]. apply position_iff. eauto.
Qed.
Lemma tags_run_nodup h : forall ks, NoDup ks -> NoDup (snd (tags_run ks h)).
Proof.
  induction h as [|o h IH]; intros ks Hd; [exact Hd|]. cbn [tags_run]. pose proof (tags_step_nodup ks o Hd) as H1.
  destruct (tags_step ks o) as [x ks1]. cbn [snd] in H1. specialize (IH ks1 H1). destruct (tags_run ks1 h). exact IH.
Qed.
Lemma tags_run_present k h : forall ks p, NoDup ks -> (In k ks <-> p = true) ->
  (In k (snd (tags_run ks h)) <-> present k p h = true).
Proof.
  induction h as [|o h IH]; intros ks p Hd Hp; [exact Hp|]. cbn [tags_run].
  pose proof (tags_step_nodup ks o Hd) as H1.
  assert (H2 : In k (snd (tags_step ks o)) <-> present k p [o] = true).
  { destruct o as [k' ok|k'|k'|]; cbn [tags_step present]; try exact Hp.
    - destruct (position (ktext k') ks) as [i|] eqn:E; cbn [snd].
      + destruct (String.eqb_spec (ktext k') k) as [<-|Hk]; [|exact Hp]. split; [reflexivity|]. intros _. apply position_iff. eauto.
      + rewrite in_app_iff. cbn. destruct (String.eqb_spec (ktext k') k) as [<-|Hk]; tauto.
    - destruct (position (ktext k') ks) as [i|] eqn:E; cbn [snd].
      + rewrite swap_remove_in; [|exact Hd|apply position_iff; eauto].
        destruct (String.eqb_spec (ktext k') k) as [<-|Hk]; [split; [tauto|discriminate]|]. rewrite Hp. intuition congruence.
      + destruct (String.eqb_spec (ktext k') k) as [<-|Hk]; [|exact Hp]. apply position_none in E. split; [tauto|discriminate]. }
  assert (H3 : present k p (o :: h) = present k (present k p [o]) h) by (destruct o; reflexivity).
  rewrite H3. destruct (tags_step ks o) as [x ks1]. cbn [snd] in *. specialize (IH ks1 _ H1 H2).
  destruct (tags_run ks1 h). exact IH.
Qed.
Lemma keys_after_spec h : NoDup (keys_after h) /\ forall k, In k (keys_after h) <-> present k false (map v_op h) = true.
Proof.
  split; [apply tags_run_nodup; constructor|]. intro k. apply tags_run_present; [constructor|]. cbn. split; [tauto|discriminate].
Qed.
Lemma tags_run_length h : forall ks, List.length (snd (tags_run ks h)) <= List.length ks + List.length h.
Proof.
  induction h as [|o h IH]; intros ks; cbn [tags_run snd List.length]; [lia|]. pose proof (step_length ks o) as H1.
  destruct (tags_step ks o) as [x ks1]. cbn [snd] in H1. specialize (IH ks1). destruct (tags_run ks1 h). cbn [snd] in *. lia.
Qed.

(** ** Reached indexes are represented *)

Lemma reached_rep hash K I h m s : reached hash K I h m s ->
  collision_free hash K /\
  exists i c, m = mkHandle I i /\ wf s /\ RepN hash K I i (List.length (keys_after h)) (keys_after h) s /\ quiet I c s /\
    (c + 8 < 256 ^ 5)%Z /\ (Z.of_nat (List.length (keys_after h)) + 8 < 256 ^ Z.of_nat 8)%Z.
Proof.
  intros (HK & F & L & s0 & nl & r & W & V & -> & Hr). split; [exact HK|].
  destruct (create_rep hash K I s0 nl W V) as (s1 & R1 & W1 & Rp1 & Q1 & O1).
  destruct (visits_rep hash K HK I (next s0) h [] s1 0 W1 Rp1 Q1) as (s2 & c2 & R2 & W2 & Rp2 & Q2 & Hc2 & O2).
  - lia.
  - exact F.
  - cbn [List.length plus]. rewrite pow8. change (256 ^ 5)%Z with 1099511627776%Z in L. lia.
  - rewrite (run_bind_ok _ _ _ _ _ R1) in Hr. cbn [ix_mem] in Hr. rewrite R2 in Hr. injection Hr as _ <-.
    exists (next s0), c2. split; [reflexivity|]. split; [exact W2|]. split; [exact Rp2|]. split; [exact Q2|]. split; [lia|].
    pose proof (tags_run_length (map v_op h) []) as Hl. rewrite map_length in Hl. unfold keys_after.
    cbn [List.length plus] in Hl. rewrite pow8. change (256 ^ 5)%Z with 1099511627776%Z in L. lia.
Qed.

Section Hard.
  Variable hash : bytes -> string.
  Variable K : string -> Prop.
  Hypothesis hash_inj : collision_free hash K.
  Variable I : string.
  Variable m : N.
  Notation H := {| hname := I; hid := m |}.
  Notation RepN := (RepN hash K I m).

  Lemma lock_any {A} nl c s fuel (body : prog A) :
    wf s -> quiet I c s -> (c + 1 < 256 ^ 5)%Z -> fuel <> 0 ->
    exists s1, wf s1 /\ only_at (lock_names I) s s1 /\ forall r s2, run body s1 = (Some r, s2) -> wf s2 -> only_at (rep_names hash I) s1 s2 ->
      exists s3 c3, run (with_lock nl fuel I body) s = (Some r, s3) /\ wf s3 /\ quiet I c3 s3 /\
        (c <= c3 <= c + 1)%Z /\ only_at (lock_names I) s2 s3.
  Proof.
    intros W Q Hc Hf. destruct nl.
    - exists s. split; [exact W|]. split; [apply only_refl|]. intros r s2 Hr W2 O2. exists s2, c.
      split; [exact Hr|]. split; [exact W2|]. split.
      { eapply quiet_same; eauto. intros a Ha. apply O2. now apply lock_not_rep. }
      split; [lia|apply only_refl].
    - destruct (with_lock_run I c s fuel body W Q Hc Hf) as (s1 & W1 & O1 & Hk). exists s1. split; [exact W1|].
      split; [exact O1|]. intros r s2 Hr W2 O2.
      destruct (Hk r s2 Hr W2) as (s3 & R3 & W3 & O3 & Q3).
      { intros a Ha. apply O2. now apply (lock_not_rep hash I). }
      exists s3, (c + 1)%Z. split; [exact R3|]. split; [exact W3|]. split; [exact Q3|]. split; [lia|exact O3].
  Qed.

  Lemma rep_ne_n n ks s : RepN n ks s -> Forall (fun k => k <> "") ks.
  Proof. intro R. exact (rep_ne _ _ _ _ _ _ _ R). Qed.

  Lemma nth_map_some {A} (l : list A) j : nth_error (map Some l) j = match nth_error l j with Some x => Some (Some x) | None => None end.
  Proof. revert j. induction l as [|x l IH]; intros [|j]; cbn; auto. Qed.

  (** *** Holes *)
  Lemma update_holed n ks s nl : wf s -> RepN n ks s -> run (update (mkIndex I H nl)) s = (Some (Ok ks), s).
  Proof.
    intros W R. pose proof (rep_le _ _ _ _ _ _ _ R) as Hle. pose proof (rep_len _ _ _ _ _ _ _ R) as Hlen.
    set (cells := map Some ks ++ repeat None (n - List.length ks)).
    assert (Hl : List.length cells = n) by (unfold cells; rewrite app_length, map_length, repeat_length; lia).
    rewrite (update_cells _ s m cells W).
    - unfold cells. now rewrite collect_hole by (eapply rep_ne_n; eauto).
    - reflexivity.
    - rewrite Hl. apply R.
    - rewrite Hl. exact Hlen.
    - intros j Hj. rewrite Hl in Hj. cbn [ix_name]. unfold cells. destruct (Nat.lt_ge_cases j (List.length ks)) as [Hk|Hk].
      + rewrite nth_error_app1 by now rewrite map_length. rewrite nth_map_some.
        destruct (nth_error ks j) as [k|] eqn:E; [|apply nth_error_None in E; lia].
        now rewrite (rep_key _ _ _ _ _ _ _ R _ _ E).
      + rewrite nth_error_app2 by now rewrite map_length. rewrite map_length.
        rewrite names_none by (apply (rep_nokey _ _ _ _ _ _ _ R); lia).
        rewrite nth_error_repeat by lia. reflexivity.
  Qed.

  Lemma add_empty n ks s k ok nl : wf s -> RepN n ks s -> ktext k = "" -> (forall x, In x ks -> hash x <> hash (kraw k)) ->
    (Z.of_nat (S n) < 256 ^ Z.of_nat 8)%Z ->
    exists s', run (_add hash (mkIndex I H nl) k ok) s = (Some (Exc ValueError), s') /\
      wf s' /\ RepN (S n) ks s' /\ only_at (eq I) s s'.
  Proof.
    intros W R Ht Hh Hlen. unfold _add, check.
    rewrite (run_bind_ok _ _ _ _ _ (check_absent hash K I m _ ks s _ nl W R Hh)).
    rewrite (run_bind_ok _ _ _ _ _ (length_rep hash K I m _ ks s nl R)). cbn [ix_mem ix_name].
    replace (Z.of_nat n + 1)%Z with (Z.of_nat (S n)) by lia.
    rewrite to_bytes_in by lia. cbn [of_res]. rewrite run_bind_ret.
    destruct (write_ok s _ m _ (len8 (S n)) W (rep_mem _ _ _ _ _ _ _ R)) as (s1 & R1 & W1 & A1 & O1); [now rewrite !le_length|].
    rewrite (run_bind_ok _ _ _ _ _ R1). rewrite Ht. cbn [String.length].
    rewrite run_bind, open_zero. exists s1. split; [reflexivity|]. split; [exact W1|]. split; [|exact O1].
    assert (Hk : forall i, same_at s s1 (key_address I i)) by (intro; apply O1; adn hash I; try tauto).
    assert (Hn : forall r, same_at s s1 (name_address hash I r)) by (intro; apply O1; adn hash I; try tauto).
    constructor; try apply R.
    - exact A1.
    - intros i x E. rewrite (same_content _ _ _ (Hk _)). eapply rep_key; eauto.
    - intros i E. rewrite (same_names _ _ _ (Hk _)). eapply rep_nokey; eauto.
    - intros i x E. rewrite (same_content _ _ _ (Hn _)). eapply rep_name; eauto.
    - intros r E. rewrite (same_names _ _ _ (Hn _)). eapply rep_noname; eauto.
    - pose proof (rep_le _ _ _ _ _ _ _ R). lia.
    - exact Hlen.
  Qed.

  Lemma del_holed n ks s k nl : wf s -> RepN n ks s -> plain_key K k -> In (ktext k) ks -> List.length ks < n ->
    run (_delitem hash (mkIndex I H nl) k) s = (Some (Exc FileNotFoundError), s).
  Proof.
    intros W R (Hne & Hraw & HK) Hin Hn. unfold _delitem, check. rewrite Hraw.
    apply In_nth_error in Hin. destruct Hin as [i Hi].
    assert (i < List.length ks) by (apply nth_error_Some; congruence).
    rewrite (run_bind_ok _ _ _ _ _ (check_present hash K I m _ ks s _ _ nl W R Hi)).
    rewrite (run_bind_ok _ _ _ _ _ (length_rep hash K I m _ ks s nl R)). cbn [ix_mem ix_name].
    replace (Z.of_nat i =? Z.of_nat n - 1)%Z with false by (symmetry; apply Z.eqb_neq; lia).
    rewrite run_bind. rewrite (run_bind_exc _ _ _ _ _ (attach_none s (key_address I (Z.of_nat n - 1)) ltac:(apply (rep_nokey _ _ _ _ _ _ _ R); lia))).
    reflexivity.
  Qed.

  (** *** bytes keys *)
  Lemma add_bytes ks s k ok nl : wf s -> RepN (List.length ks) ks s -> ktext k <> "" -> ~ In (ktext k) ks -> K (ktext k) ->
    (forall x, In x ks -> hash x <> hash (kraw k)) -> hash (ktext k) <> hash (kraw k) ->
    (Z.of_nat (S (List.length ks)) < 256 ^ Z.of_nat 8)%Z ->
    exists s', run (_add hash (mkIndex I H nl) k ok) s = (Some (Ok (Z.of_nat (List.length ks))), s') /\
      wf s' /\ only_at (rep_names hash I) s s' /\
      forall s2 nl, wf s2 -> only_at (lock_names I) s' s2 ->
      run (update (mkIndex I H nl)) s2 = (Some (Ok (ks ++ [ktext k])), s2) /\
      run (check hash (mkIndex I H nl) (skey (ktext k))) s2 = (Some (Ok None), s2) /\
      forall k', plain_key K k' -> In (ktext k') ks ->
        exists s3, run (_delitem hash (mkIndex I H nl) k') s2 = (Some (Exc FileNotFoundError), s3) /\ wf s3 /\
          only_at (rep_names hash I) s2 s3 /\
          forall s4, wf s4 -> only_at (lock_names I) s3 s4 -> forall nl,
          run (update (mkIndex I H nl)) s4 = (Some (Ok (put_in_place (ktext k') (ktext k) ks ++ [ktext k])), s4).
  Proof.
    intros W R Hne Hin HK Hh Hraw Hlen.
    destruct (add_run hash K I m _ ks s k ok nl W R Hne Hh Hlen) as (s1 & R1 & W1 & Am & Ak & An & O1).
    exists s1. split; [exact R1|]. split; [exact W1|]. split.
    { eapply only_sub; [exact O1|]. intros a [->|[->| ->]]; unfold rep_names; eauto. }
    intros s2 nl2 W2 O2.
    assert (Hs : forall a, rep_names hash I a -> same_at s1 s2 a) by (intros a Ha; apply O2; intro L; now apply (lock_not_rep hash I a L)).
    assert (Am2 : at_ s2 I m (len8 (S (List.length ks)))) by (apply (at_same s1); [exact Am|apply Hs; left; reflexivity]).
    assert (Hkey : forall i, i <> Z.of_nat (List.length ks) -> same_at s s2 (key_address I i)).
    { intros i Hi. apply same_trans with s1; [apply O1|apply Hs; right; left; eauto]. intros [E|[E|E]]; revert E; adn hash I; try tauto. }
    assert (Hname : forall r, hash r <> hash (kraw k) -> same_at s s2 (name_address hash I r)).
    { intros i Hi. apply same_trans with s1; [apply O1|apply Hs; right; right; eauto]. intros [E|[E|E]]; revert E; adn hash I; try tauto. }
    assert (Ak2 : content s2 (key_address I (Z.of_nat (List.length ks))) = Some (ktext k)).
    { rewrite (same_content s1 s2); [exact Ak|]. apply Hs. right; left; eauto. }
    assert (Hcell : forall j x, nth_error (ks ++ [ktext k]) j = Some x -> content s2 (key_address I (Z.of_nat j)) = Some x).
    { intros j x Hj. apply nth_snoc in Hj. destruct Hj as [[Hl Hj]|[-> ->]]; [|exact Ak2].
      rewrite (same_content s s2) by (apply Hkey; lia). eapply rep_key; eauto. }
    assert (F : Forall (fun x => x <> "") (ks ++ [ktext k])) by (apply Forall_app; split; [eapply rep_ne_n; eauto|auto]).
    assert (Hup : forall s l nl, wf s -> Forall (fun x => x <> "") l -> at_ s I m (len8 (List.length l)) -> List.length l <= S (List.length ks) ->
              (forall j x, nth_error l j = Some x -> content s (key_address I (Z.of_nat j)) = Some x) ->
              run (update (mkIndex I H nl)) s = (Some (Ok l), s)).
    { intros t l nl' Wt Fl At Hl Hc. rewrite (update_cells _ t m (map Some l) Wt).
      - pose proof (collect_all l Fl [] (Ok []) eq_refl) as E. rewrite !app_nil_r in E. now rewrite E.
      - reflexivity.
      - rewrite map_length. exact At.
      - rewrite map_length. lia.
      - intros j Hj. rewrite map_length in Hj. rewrite nth_map_some.
        destruct (nth_error l j) as [x|] eqn:E; [|apply nth_error_None in E; lia].
        cbn [ix_name]. now rewrite (Hc _ _ E). }
    split; [|split].
    - apply Hup; auto.
      + rewrite app_length. cbn [List.length]. rewrite Nat.add_1_r. exact Am2.
      + rewrite app_length. cbn. lia.
    - unfold check, skey. cbn [kraw]. rewrite check_found by exact W2. cbn [ix_name].
      rewrite (same_content s s2) by (apply Hname; exact Hraw).
      rewrite names_none; [reflexivity|]. apply (rep_noname _ _ _ _ _ _ _ R). eapply rep_in_hash; eauto.
    - intros k' (Hne' & Hraw' & HK') Hin'. apply In_nth_error in Hin'. destruct Hin' as [i Hi].
      assert (Hil : i < List.length ks) by (apply nth_error_Some; congruence).
      unfold _delitem, check. rewrite Hraw'.
      assert (Rc : run (check_raw hash (mkIndex I H nl2) (ktext k')) s2 = (Some (Ok (Some (Z.of_nat i))), s2)).
      { rewrite check_found by exact W2. cbn [ix_name]. rewrite (same_content s s2).
        - rewrite (rep_name _ _ _ _ _ _ _ R _ _ Hi).
          rewrite <- (from_le 8 (Z.of_nat i)) at 2 by (eapply rep_pos; eauto). reflexivity.
        - apply Hname. apply Hh. eapply nth_error_In; eauto. }
      rewrite (run_bind_ok _ _ _ _ _ Rc). unfold update_length. cbn [ix_mem ix_name]. rewrite run_bind.
      rewrite (run_bind_ok _ _ _ _ _ (read_ok _ _ _ _ Am2)). cbn [run].
      rewrite from_le by lia. replace (Z.of_nat (S (List.length ks)) - 1)%Z with (Z.of_nat (List.length ks)) by lia.
      replace (Z.of_nat i =? Z.of_nat (List.length ks))%Z with false by (symmetry; apply Z.eqb_neq; lia).
      destruct (content_at _ _ _ Ak2) as [jz Az]. rewrite run_bind.
      rewrite (run_bind_ok _ _ _ _ _ (attach_ok _ _ _ _ Az Hne)).
      rewrite (run_bind_ok _ _ _ _ _ (read_ok _ _ _ _ Az)).
      assert (Ci : content s2 (key_address I (Z.of_nat i)) = Some (ktext k')) by (apply Hcell; now apply nth_app_l).
      destruct (open_fresh s2 (key_address I (Z.of_nat i)) (String.length (ktext k)) W2) as (s3 & i3 & R3 & W3 & A3 & O3).
      { now apply length_ne. } { rewrite Ci. congruence. }
      rewrite (run_bind_ok _ _ _ _ _ R3).
      destruct (write_ok s3 _ i3 _ (ktext k) W3 A3) as (s5 & R5 & W5 & A5 & O5); [now rewrite zeros_length|].
      rewrite (run_bind_ok _ _ _ _ _ R5).
      assert (N5 : names s5 (name_address hash I (ktext k)) = None).
      { rewrite (same_names s3 s5), (same_names s2 s3), (same_names s s2).
        - apply (rep_noname _ _ _ _ _ _ _ R). eapply rep_in_hash; eauto.
        - apply Hname; exact Hraw.
        - apply O3. adn hash I; try tauto.
        - apply O5. adn hash I; try tauto. }
      rewrite (run_bind_exc _ _ _ _ _ (attach_none _ _ N5)). exists s5. split; [reflexivity|]. split; [exact W5|].
      assert (O25 : only_at (eq (key_address I (Z.of_nat i))) s2 s5) by (eapply only_trans; eauto).
      split. { eapply only_sub; [exact O25|]. intros a <-. right; left; eauto. }
      intros s6 W6 O6 nl6.
      assert (Hs6 : forall a, rep_names hash I a -> same_at s5 s6 a) by (intros a Ha; apply O6; intro L; now apply (lock_not_rep hash I a L)).
      apply Hup; auto.
      + apply Forall_app. split; [|auto]. rewrite Forall_forall in F |- *. intros x Hx. apply put_in in Hx. apply F.
        apply in_or_app. destruct Hx as [->|Hx]; cbn; auto.
      + rewrite app_length, put_length. cbn [List.length]. rewrite Nat.add_1_r.
        apply (at_same s5); [apply (at_same s2); [exact Am2|]|apply Hs6; left; reflexivity]. apply O25. adn hash I; try tauto.
      + rewrite app_length, put_length. cbn. lia.
      + intros j x Hj. rewrite (same_content s5 s6) by (apply Hs6; right; left; eauto).
        destruct (Nat.eq_dec j i) as [->|Hji].
        * rewrite nth_error_app1 in Hj by (rewrite put_length; exact Hil).
          rewrite (put_nth _ _ ks i), Nat.eqb_refl in Hj by (auto; apply R). injection Hj as <-. apply (at_content _ _ _ _ A5).
        * rewrite (same_content s2 s5) by (apply O25; adn hash I; try tauto). apply Hcell.
          destruct (Nat.lt_ge_cases j (List.length ks)) as [Hl|Hl].
          -- rewrite nth_error_app1 in Hj by (rewrite put_length; exact Hl). rewrite (put_nth _ _ ks i) in Hj by (auto; apply R).
             rewrite (proj2 (Nat.eqb_neq j i) Hji) in Hj. now apply nth_app_l.
          -- rewrite nth_error_app2 in Hj by (rewrite put_length; exact Hl). rewrite put_length in Hj.
             now rewrite nth_error_app2 by exact Hl.
  Qed.

  (** *** close *)
  Lemma close_run ks s c nl : wf s -> RepN (List.length ks) ks s -> quiet I c s ->
    exists s', run (tag_close (mkIndex I H nl)) s = (Some (Ok tt), s') /\ wf s' /\
      only_at (fun a => a = I \/ a = count_address I) s s' /\
      names s' I = None /\ vacant (lock_names I) s'.
  Proof.
    intros W R (Hc0 & Hm & Hl & Hcount). unfold tag_close. cbn [ix_mem ix_name].
    destruct (unlink_ok s I m W (proj1 (rep_mem _ _ _ _ _ _ _ R))) as (s1 & R1 & W1 & N1 & O1).
    rewrite (run_bind_ok _ _ _ _ _ (R1 m)).
    assert (Hother : forall s2, only_at (eq (count_address I)) s1 s2 -> names s2 (count_address I) = None -> vacant (lock_names I) s2).
    { intros s2 O2 N2 a [->|[[n ->]|[n ->]]]; [exact N2| |].
      - rewrite (same_names s1 s2), (same_names s s1); [apply Hm|apply O1|apply O2]; adn hash I; try tauto.
      - rewrite (same_names s1 s2), (same_names s s1); [apply Hl|apply O1|apply O2]; adn hash I; try tauto. }
    rewrite run_bind, exists_spec by exact W1.
    assert (Sc : same_at s s1 (count_address I)) by (apply O1; adn hash I; try tauto).
    rewrite (same_content _ _ _ Sc). destruct Hcount as [[Nc _]|[Ac _]].
    - rewrite (names_none _ _ Nc). cbn [run]. exists s1. split; [reflexivity|]. split; [exact W1|]. split.
      { eapply only_sub; [exact O1|]. intros a <-. auto. }
      split; [exact N1|]. apply Hother; [apply only_refl|]. now rewrite (same_names _ _ _ Sc).
    - rewrite Ac. rewrite <- (same_content _ _ _ Sc) in Ac. destruct (content_at _ _ _ Ac) as [j Aj].
      rewrite (run_bind_ok _ _ _ _ _ (attach_ok _ _ _ _ Aj ltac:(discriminate))).
      destruct (unlink_ok s1 (count_address I) j W1 (proj1 Aj)) as (s2 & R2 & W2 & N2 & O2). rewrite (R2 j).
      exists s2. split; [reflexivity|]. split; [exact W2|]. split.
      { intros a Ha. apply same_trans with s1; [apply O1; intros <-; tauto|apply O2; intros <-; tauto]. }
      split; [|apply Hother; assumption]. rewrite (same_names s1 s2); [exact N1|]. apply O2. adn hash I; try tauto.
  Qed.
End Hard.
