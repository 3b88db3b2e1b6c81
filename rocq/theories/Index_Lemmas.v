(** TagIndex and MetaTagIndex lemmas over reached states. *)
From Verif Require Export Index_Crash Meta_Proofs.

Lemma position_spec k ks i : NoDup ks -> (position k ks = Some i <-> (0 <= i)%Z /\ nth_error ks (Z.to_nat i) = Some k).
Proof.
  intro Hd. split.
  - intro E. apply position_some in E. split; [lia|apply E].
  - intros [H0 Hn]. destruct (position_in k ks) as [j Hj]; [eapply nth_error_In; eauto|]. rewrite Hj.
    apply position_some in Hj. destruct Hj as [Hj1 Hj2]. pose proof (nodup_nth _ _ _ _ Hd Hn Hj2). f_equal. lia.
Qed.

Section Reached.
  Variable hash : bytes -> string.
  Variable K : string -> Prop.
  Variable I : string.

  (** ** Awkward keys *)
  Lemma empty_key_add h m s fuel nl k ok : reached hash K I h m s -> K (kraw k) -> ktext k = "" -> kraw k = "" -> fuel <> 0 ->
    exists s1, run (tag_add hash fuel (mkIndex I m nl) k false ok) s = (Some (Exc ValueError), s1) /\
      (forall nl1, run (update (mkIndex I m nl1)) s1 = (Some (Ok (keys_after h)), s1)) /\
      forall k' fuel' nl', plain_key K k' -> In (ktext k') (keys_after h) -> fuel' <> 0 ->
        fst (run (tag_remove hash fuel' (mkIndex I m nl') k') s1) = Some (Exc FileNotFoundError).
  Proof.
    intros Hr HK0 Ht Hraw Hf. apply reached_rep in Hr. destruct Hr as (HK & i & c & -> & W & R & Q & Hc & Hl).
    assert (Hne : forall x, In x (keys_after h) -> hash x <> hash (kraw k)).
    { apply (rep_in_hash hash K HK I i _ _ s _ R HK0). rewrite Hraw. intro Hin. now apply (rep_ne' hash K I i _ _ s _ R Hin). }
    unfold tag_add. cbn [ix_no_lockout ix_name].
    match goal with |- context [with_lock nl fuel I ?b] => destruct (lock_any hash I nl c s fuel b W Q) as (s1 & W1 & O1 & Hk); [lia|exact Hf|] end.
    destruct (add_empty hash K I i _ _ s1 k ok nl W1 (rep_lock hash K I i _ _ _ _ R O1) Ht Hne) as (s2 & R2 & W2 & Rp2 & O2); [lia|].
    destruct (Hk _ s2 R2 W2) as (s3 & c3 & R3 & W3 & Q3 & Hc3 & O3).
    { eapply only_sub; [exact O2|]. intros a <-. left; reflexivity. }
    pose proof (rep_lock hash K I i _ _ _ _ Rp2 O3) as Rp3.
    exists s3. split; [exact R3|]. split; [intro; eapply update_holed; eauto|].
    intros k' fuel' nl' P Hin Hf'. unfold tag_remove, tag_del_. cbn [ix_no_lockout ix_name]. rewrite run_bind.
    match goal with |- context [with_lock nl' fuel' I ?b] => destruct (lock_any hash I nl' c3 s3 fuel' b W3 Q3) as (s4 & W4 & O4 & Hk4); [lia|exact Hf'|] end.
    pose proof (del_holed hash K I i _ _ s4 k' nl' W4 (rep_lock hash K I i _ _ _ _ Rp3 O4) P Hin ltac:(lia)) as R5.
    destruct (Hk4 _ _ R5 W4 (only_refl _ _)) as (s6 & c6 & R6 & _). rewrite R6. reflexivity.
  Qed.

  Lemma bytes_key_add h m s fuel nl k ok : reached hash K I h m s ->
    ktext k <> "" -> ~ In (ktext k) (keys_after h) -> K (ktext k) ->
    (forall x, K x -> hash x <> hash (kraw k)) -> fuel <> 0 ->
    exists s1, run (tag_add hash fuel (mkIndex I m nl) k false ok) s = (Some (Ok (Z.of_nat (List.length (keys_after h)))), s1) /\
      (forall nl1, run (update (mkIndex I m nl1)) s1 = (Some (Ok (keys_after h ++ [ktext k])), s1)) /\
      (forall nl1, run (check hash (mkIndex I m nl1) (skey (ktext k))) s1 = (Some (Ok None), s1)) /\
      forall k' fuel' nl', plain_key K k' -> In (ktext k') (keys_after h) -> fuel' <> 0 ->
        exists s2, run (tag_remove hash fuel' (mkIndex I m nl') k') s1 = (Some (Exc FileNotFoundError), s2) /\
          forall nl2, run (update (mkIndex I m nl2)) s2 =
            (Some (Ok (put_in_place (ktext k') (ktext k) (keys_after h) ++ [ktext k])), s2).
  Proof.
    intros Hr Hne Hin HKt Hcf Hf. apply reached_rep in Hr. destruct Hr as (HK & i & c & -> & W & R & Q & Hc & Hl).
    unfold tag_add. cbn [ix_no_lockout ix_name].
    match goal with |- context [with_lock nl fuel I ?b] => destruct (lock_any hash I nl c s fuel b W Q) as (s1 & W1 & O1 & Hk); [lia|exact Hf|] end.
    pose proof (rep_lock hash K I i _ _ _ _ R O1) as R1.
    destruct (add_bytes hash K HK I i _ s1 k ok nl W1 R1 Hne Hin HKt) as (s2 & R2 & W2 & O2 & Hv).
    - intros x Hx. apply Hcf. pose proof (rep_K _ _ _ _ _ _ _ R) as F. rewrite Forall_forall in F. auto.
    - apply Hcf. exact HKt.
    - lia.
    - destruct (Hk _ s2 R2 W2 O2) as (s3 & c3 & R3 & W3 & Q3 & Hc3 & O3).
      exists s3. split; [exact R3|].
      split; [intro nl1; apply (Hv s3 nl1 W3 O3)|]. split; [intro nl1; apply (Hv s3 nl1 W3 O3)|].
      intros k' fuel' nl' P Hin' Hf'. unfold tag_remove, tag_del_. cbn [ix_no_lockout ix_name].
      match goal with |- context [with_lock nl' fuel' I ?b] => destruct (lock_any hash I nl' c3 s3 fuel' b W3 Q3) as (s4 & W4 & O4 & Hk4); [lia|exact Hf'|] end.
      destruct (Hv s4 nl' W4 (only_trans _ _ _ _ O3 O4)) as (_ & _ & Hd). destruct (Hd k' P Hin') as (s5 & R5 & W5 & O5 & Hu).
      destruct (Hk4 _ _ R5 W5 O5) as (s6 & c6 & R6 & W6 & _ & _ & O6). exists s6. rewrite run_bind, R6. split; [reflexivity|].
      intro nl2. apply Hu; auto.
  Qed.

  (** ** Crashes *)
  Lemma add_crash_views h m s fuel k ok nl : reached hash K I h m s -> plain_key K k -> ~ In (ktext k) (keys_after h) ->
    forall v, (exists n, sees hash (mkIndex I m nl) (ktext k) (crash n (tag_add hash fuel (mkIndex I m true) k false ok) s) = v) <->
              In v (add_views (keys_after h) (ktext k)).
  Proof.
    intros Hr P Hin. apply reached_rep in Hr. destruct Hr as (HK & i & c & -> & W & R & Q & Hc & Hl).
    apply (add_crash hash K HK I i (keys_after h) s k ok true nl W R P Hin). lia.
  Qed.
  Lemma remove_crash_views h m s fuel k nl i : reached hash K I h m s -> plain_key K k -> position (ktext k) (keys_after h) = Some i ->
    forall v, (exists n, sees hash (mkIndex I m nl) (ktext k) (crash n (tag_del_ hash fuel (mkIndex I m true) k) s) = v) <->
              In v (remove_views (keys_after h) (ktext k) i).
  Proof.
    intros Hr P Hi. apply reached_rep in Hr. destruct Hr as (HK & j & c & -> & W & R & Q & Hc & Hl).
    exact (remove_crash hash K HK I j (keys_after h) s k true nl i W R P Hi).
  Qed.
  Lemma add_not_atomic h m s fuel k ok nl : reached hash K I h m s -> plain_key K k -> ~ In (ktext k) (keys_after h) ->
    exists n, let v := sees hash (mkIndex I m nl) (ktext k) (crash n (tag_add hash fuel (mkIndex I m true) k false ok) s) in
      v = (Some (Ok (keys_after h ++ [ktext k])), Some (Ok None)).
  Proof. intros Hr P Hin. apply (add_crash_views h m s fuel k ok nl Hr P Hin). cbn. tauto. Qed.
  Lemma remove_not_atomic h m s fuel k nl i : reached hash K I h m s -> plain_key K k -> position (ktext k) (keys_after h) = Some i ->
    exists n, let v := sees hash (mkIndex I m nl) (ktext k) (crash n (tag_del_ hash fuel (mkIndex I m true) k) s) in
      exists l, v = (Some (Ok l), Some (Ok (Some i))) /\ ~ In (ktext k) l.
  Proof.
    intros Hr P Hi. pose proof (proj1 (keys_after_spec h)) as Hd.
    assert (HV : exists v, In v (remove_views (keys_after h) (ktext k) i) /\ exists l, v = (Some (Ok l), Some (Ok (Some i))) /\ ~ In (ktext k) l).
    { unfold remove_views. destruct (exists_last (l := keys_after h)) as (l & z & E); [intro E; rewrite E in Hi; discriminate|].
      rewrite E in *. rewrite last_last, removelast_last. apply nodup_snoc in Hd. destruct (String.eqb_spec z (ktext k)) as [->|Hz].
      - eexists. split; [right; left; reflexivity|]. exists l. split; [reflexivity|]. apply Hd.
      - eexists. split; [right; left; reflexivity|]. eexists. split; [reflexivity|]. rewrite filter_In.
        intros [_ X]. rewrite String.eqb_refl in X. discriminate. }
    destruct HV as (v & Hv & l & Hvl & Hl). apply (remove_crash_views h m s fuel k nl i Hr P Hi) in Hv. destruct Hv as [n Hn].
    exists n. cbv zeta. rewrite Hn. eauto.
  Qed.

  (** ** Closing *)
  Lemma close_empty h m s nl : reached hash K I h m s -> keys_after h = [] ->
    exists s', run (tag_close (mkIndex I m nl)) s = (Some (Ok tt), s') /\
      vacant (index_names hash I) s' /\ only_at (index_names hash I) s s'.
  Proof.
    intros Hr He. apply reached_rep in Hr. destruct Hr as (HK & i & c & -> & W & R & Q & Hc & Hl).
    destruct (close_run hash K I i _ s c nl W R Q) as (s' & R' & W' & O' & N' & V'). rewrite He in *.
    exists s'. split; [exact R'|]. split.
    - intros a [->|[[j ->]|[[r ->]|Ha]]]; [exact N'| | |now apply V'].
      + rewrite (same_names s s'); [apply (rep_nokey _ _ _ _ _ _ _ R); cbn; lia|]. apply O'. intros [E|E]; revert E; adn hash I; try tauto.
      + rewrite (same_names s s'); [apply (rep_noname _ _ _ _ _ _ _ R); intros ? []|]. apply O'. intros [E|E]; revert E; adn hash I; try tauto.
    - eapply only_sub; [exact O'|]. intros a [->| ->]; unfold index_names, lock_names; auto.
  Qed.

  Lemma close_leaks h m s nl : reached hash K I h m s ->
    exists s1, run (tag_close (mkIndex I m nl)) s = (Some (Ok tt), s1) /\
      (forall k i, position k (keys_after h) = Some i ->
         content s1 (key_address I i) = Some k /\ content s1 (name_address hash I k) <> None) /\
      forall nl2, exists m2 s2, run (tag_index I true nl2) s1 = (Some (Ok (mkIndex I m2 nl2)), s2) /\
        (forall nl3, run (update (mkIndex I m2 nl3)) s2 = (Some (Ok []), s2)) /\
        forall k i nl3 fuel ok, plain_key K k -> position (ktext k) (keys_after h) = Some i -> fuel <> 0 ->
          run (check hash (mkIndex I m2 nl3) k) s2 = (Some (Ok (Some i)), s2) /\
          exists s3, run (tag_add hash fuel (mkIndex I m2 nl3) k false ok) s2 =
              (Some (if ok then Ok i else Exc FileExistsError), s3) /\
            run (update (mkIndex I m2 nl3)) s3 = (Some (Ok []), s3).
  Proof.
    intros Hr. apply reached_rep in Hr. destruct Hr as (HK & i0 & c & -> & W & R & Q & Hc & Hl).
    destruct (close_run hash K I i0 _ s c nl W R Q) as (s1 & R1 & W1 & O1 & N1 & V1).
    exists s1. split; [exact R1|].
    assert (Sk : forall j, same_at s s1 (key_address I j)) by (intro j; apply O1; intros [E|E]; revert E; adn hash I; try tauto).
    assert (Sn : forall r, same_at s s1 (name_address hash I r)) by (intro r; apply O1; intros [E|E]; revert E; adn hash I; try tauto).
    assert (Hcell : forall k i, position k (keys_after h) = Some i ->
      content s1 (key_address I i) = Some k /\ content s1 (name_address hash I k) = Some (le_digits 8 i) /\ (0 <= i < 256 ^ Z.of_nat 8)%Z).
    { intros k i Hi. apply position_some in Hi. destruct Hi as [Hi Hn].
      rewrite (same_content _ _ _ (Sk _)), (same_content _ _ _ (Sn _)).
      pose proof (rep_key _ _ _ _ _ _ _ R _ _ Hn) as A. pose proof (rep_name _ _ _ _ _ _ _ R _ _ Hn) as B.
      rewrite Z2Nat.id in A, B by lia. split; [exact A|]. split; [exact B|lia]. }
    split. { intros k i Hi. destruct (Hcell k i Hi) as (A & B & _). split; [exact A|congruence]. }
    intro nl2. destruct (create_ok s1 I 8 W1 N1) as (s2 & R2 & W2 & A2 & O2); [discriminate|].
    exists (mkHandle I (next s1)), s2. unfold tag_index. rewrite run_bind_ret, (run_bind_ok _ _ _ _ _ R2). split; [reflexivity|].
    assert (Q2 : quiet I 0 s2).
    { assert (V2 : vacant (lock_names I) s2).
      { intros a Ha. rewrite (same_names s1 s2); [now apply V1|]. apply O2. destruct Ha as [->|[[n ->]|[n ->]]]; adn hash I; try tauto. }
      split; [lia|]. split; [|split; [|left; split; [|reflexivity]]]; intros; apply V2; unfold lock_names; eauto. }
    assert (Hup : forall s nl3, at_ s I (next s1) (zeros 8) -> run (update (mkIndex I (mkHandle I (next s1)) nl3)) s = (Some (Ok []), s)).
    { intros t nl3 At. unfold update, update_length. rewrite run_bind. cbn [ix_mem]. rewrite (run_bind_ok _ _ _ _ _ (read_ok _ _ _ _ At)). reflexivity. }
    split; [intro; now apply Hup|].
    intros k i nl3 fuel ok (Hne & Hraw & HKk) Hi Hf. destruct (Hcell _ _ Hi) as (_ & B & Hr8).
    assert (Hch : forall t, wf t -> only_at (lock_names I) s2 t ->
      run (check hash (mkIndex I (mkHandle I (next s1)) nl3) k) t = (Some (Ok (Some i)), t)).
    { intros t Wt Ot. unfold check. rewrite Hraw, check_found by exact Wt. cbn [ix_name].
      rewrite (same_content s2 t), (same_content s1 s2), B.
      - rewrite <- (from_le 8 i) at 2 by exact Hr8. reflexivity.
      - apply O2. adn hash I; try tauto.
      - apply Ot. intros X. apply (lock_not_rep hash I _ X). right; right; eauto. }
    split; [apply Hch; [exact W2|apply only_refl]|].
    unfold tag_add. cbn [ix_no_lockout ix_name].
    match goal with |- context [with_lock nl3 fuel I ?b] => destruct (lock_any hash I nl3 0 s2 fuel b W2 Q2) as (s3 & W3 & O3 & Hk); [lia|exact Hf|] end.
    destruct (Hk (if ok then Ok i else Exc FileExistsError) s3) as (s4 & c4 & R4 & W4 & _ & _ & O4); [|exact W3|apply only_refl|].
    { unfold _add. rewrite (run_bind_ok _ _ _ _ _ (Hch s3 W3 O3)). destruct ok; reflexivity. }
    exists s4. split; [exact R4|]. apply Hup. pose proof (only_trans _ _ _ _ O3 O4) as O.
    apply (at_same s2); [exact A2|]. apply O. intro X. apply (lock_not_rep hash I _ X). left; reflexivity.
  Qed.

  (** ** MetaTagIndex *)
  Context {J : Type} (enc : J -> res bytes) (dec : bytes -> res J).
  Lemma meta_items_after h m s nl : mreached hash K I enc dec h m s ->
    run (meta_items dec (mkIndex I m nl)) s = (Some (Ok (entries_after enc h)), s).
  Proof.
    intro Hr. destruct (mreached_rep _ _ _ _ _ _ _ _ Hr) as (i & c & -> & W & R & _).
    eapply meta_items_rep; eauto.
  Qed.
  Lemma meta_remove_stuck h m s fuel k : mreached hash K I enc dec h m s ->
    fst (run (meta_remove hash fuel (mkIndex I m false) k) s) = None.
  Proof.
    intro Hr. destruct (mreached_rep _ _ _ _ _ _ _ _ Hr) as (i & c & -> & W & R & Q & Hc & _).
    unfold meta_remove, tag_del_. cbn [ix_no_lockout ix_name].
    match goal with |- context [run (with_lock false fuel I (pbind (with_lock false fuel I ?b) ?k)) s] =>
      destruct (nested_lock I c s fuel fuel b k W Q) as [s' ->]; [lia|] end. reflexivity.
  Qed.
  Lemma meta_remove_raises h m s fuel k i : mreached hash K I enc dec h m s -> plain_key K k ->
    position (ktext k) (map fst (entries_after enc h)) = Some i ->
    held (ktext k) (entries_after enc h) = None -> last_held (entries_after enc h) = None ->
    exists s', run (meta_remove hash fuel (mkIndex I m true) k) s = (Some (Exc FileNotFoundError), s') /\
      forall nl, run (meta_items dec (mkIndex I m nl)) s' = (Some (Ok (swap_entry (ktext k) (entries_after enc h))), s').
  Proof.
    intros Hr P Hi H1 H2. pose proof (proj1 Hr) as HK. destruct (mreached_rep _ _ _ _ _ _ _ _ Hr) as (j & c & -> & W & R & Q & Hc & _).
    pose proof (meta_remove_rep hash K HK I j enc dec _ s k fuel W R P) as HR. rewrite Hi, H1, H2 in HR.
    destruct HR as (s' & R' & W' & M' & O'). exists s'. split; [exact R'|]. intro nl. eapply meta_items_rep; eauto.
  Qed.
  Lemma meta_remove_works h m s fuel k i : mreached hash K I enc dec h m s -> plain_key K k ->
    position (ktext k) (map fst (entries_after enc h)) = Some i -> held (ktext k) (entries_after enc h) <> None ->
    exists s', run (meta_remove hash fuel (mkIndex I m true) k) s = (Some (Ok i), s') /\
      forall nl, run (meta_items dec (mkIndex I m nl)) s' = (Some (Ok (swap_entry (ktext k) (entries_after enc h))), s').
  Proof.
    intros Hr P Hi H1. pose proof (proj1 Hr) as HK. destruct (mreached_rep _ _ _ _ _ _ _ _ Hr) as (j & c & -> & W & R & Q & Hc & _).
    pose proof (meta_remove_rep hash K HK I j enc dec _ s k fuel W R P) as HR. rewrite Hi in HR.
    destruct (held (ktext k) (entries_after enc h)); [|congruence].
    destruct HR as (s' & R' & W' & M' & O'). exists s'. split; [exact R'|]. intro nl. eapply meta_items_rep; eauto.
  Qed.
  Lemma meta_remove_exact h m s fuel k : mreached hash K I enc dec h m s -> plain_key K k ->
    exists s', run (meta_remove hash fuel (mkIndex I m true) k) s =
        (Some (match position (ktext k) (map fst (entries_after enc h)) with
               | None => Exc KeyError
               | Some i => match held (ktext k) (entries_after enc h), last_held (entries_after enc h) with
                           | None, None => Exc FileNotFoundError
                           | _, _ => Ok i
                           end
               end), s') /\
      forall nl, run (meta_items dec (mkIndex I m nl)) s' =
        (Some (Ok (match position (ktext k) (map fst (entries_after enc h)) with
                   | None => entries_after enc h
                   | Some _ => swap_entry (ktext k) (entries_after enc h)
                   end)), s').
  Proof.
    intros Hr P. pose proof (proj1 Hr) as HK. destruct (mreached_rep _ _ _ _ _ _ _ _ Hr) as (j & c & -> & W & R & Q & Hc & _).
    pose proof (meta_remove_rep hash K HK I j enc dec _ s k fuel W R P) as HR.
    destruct (position (ktext k) (map fst (entries_after enc h))) as [i|].
    - destruct HR as (s' & R' & W' & M' & O'). exists s'. split; [exact R'|]. intro nl. eapply meta_items_rep; eauto.
    - exists s. split; [exact HR|]. intro nl. eapply meta_items_rep; eauto.
  Qed.
  Lemma meta_history_valued s nl h : collision_free hash K -> wf s -> vacant (meta_names hash I) s ->
    Forall (plain_mvisit enc dec K) h -> Forall valued (map mv_op h) -> (Z.of_nat (List.length h) < 256 ^ 5)%Z ->
    exists s', run (let! x := meta_index I true nl in mvisits_prog hash enc dec I (ix_mem x) h) s =
        (Some (Ok (fst (meta_run false enc [] (map mv_op h)))), s') /\
      only_at (meta_names hash I) s s'.
  Proof.
    intros HK W V F Fv L. destruct (meta_history hash K I enc dec s nl h HK W V F L) as (s' & R' & _ & O').
    rewrite (meta_run_valued enc _ Fv) in R' by constructor. eauto.
  Qed.
End Reached.
