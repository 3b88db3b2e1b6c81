(** What debug=True writes into the log, and what is said of all this about a
    Notepad with a history. *)
From Verif Require Export Debug_Pad.

Section Lines.
  Variables (here : nat -> string) (shown : exn -> string).
  Notation logged := (logged here).

  Lemma stamped_length texts : forall i, List.length (stamped here i texts) = List.length texts.
  Proof. induction texts as [|[n t] r IH]; intro i; cbn; auto. Qed.
  Lemma stamped_app a : forall b i, stamped here i (a ++ b) = stamped here i a ++ stamped here (i + List.length a) b.
  Proof.
    induction a as [|[n t] a IH]; intros b i; cbn [stamped app List.length]; [now rewrite Nat.add_0_r|].
    rewrite IH. replace (S i + List.length a) with (i + S (List.length a)) by lia. reflexivity.
  Qed.
  Lemma logged_app w a b : logged (logged w a) b = logged w (a ++ b).
  Proof. unfold Debug_Spec.logged. rewrite app_length, stamped_length, stamped_app, app_assoc. reflexivity. Qed.
  Lemma logged_nil w : logged w [] = w.
  Proof. apply app_nil_r. Qed.
  Lemma say_logs n t w s : run (say true true here n t w) s = (Some (Ok (logged w [(n, t)], Ok tt)), s).
  Proof. reflexivity. Qed.

  (** Running one after another. *)
  Lemma dbind_ok {A B} (m : dprog A) (k : A -> dprog B) w s w' a s' : run (m w) s = (Some (Ok (w', Ok a)), s') ->
    run (dbind m k w) s = run (k a w') s'.
  Proof. intro E. unfold dbind, dtry. now rewrite (run_bind_ok _ _ _ _ _ E). Qed.
  Lemma dtry_ok {A B} (m : dprog A) (k : A -> dprog B) h w s w' a s' : run (m w) s = (Some (Ok (w', Ok a)), s') ->
    run (dtry m k h w) s = run (k a w') s'.
  Proof. intro E. unfold dtry. now rewrite (run_bind_ok _ _ _ _ _ E). Qed.
  Lemma dtry_exc {A B} (m : dprog A) (k : A -> dprog B) h w s w' e s' : run (m w) s = (Some (Ok (w', Exc e)), s') ->
    run (dtry m k h w) s = run (h e w') s'.
  Proof. intro E. unfold dtry. now rewrite (run_bind_ok _ _ _ _ _ E). Qed.
  Lemma dbind_exc {A B} (m : dprog A) (k : A -> dprog B) w s w' e s' : run (m w) s = (Some (Ok (w', Exc e)), s') ->
    run (dbind m k w) s = (Some (Ok (w', Exc e)), s').
  Proof. intro E. unfold dbind, dtry. now rewrite (run_bind_ok _ _ _ _ _ E). Qed.
  Lemma silent_ok {A} (p : prog A) w s r s' : run p s = (Some r, s') -> run (silent p w) s = (Some (Ok (w, r)), s').
  Proof. intro E. unfold silent. rewrite run_ptry, E. destruct r; reflexivity. Qed.

  Lemma enter_lines I c s ch fuel w : wf s -> quiet I c s -> at_ s (count_address I) ch (le_digits 5 c) ->
    (c < 256 ^ 5)%Z -> fuel <> 0 ->
    exists s' mh lh,
      run (d_enter true true here shown fuel (mkLock I (mkHandle (count_address I) ch) 0 0 None None false 0 None) w) s =
      (Some (Ok (logged w (way_in (str_of_Z (c + 1))),
         Ok (mkLock I (mkHandle (count_address I) ch) (c + 1) c
               (Some (mkHandle (marker_address I (c + 1)) mh)) (Some (mkHandle (lock_address I (c + 1)) lh)) true 0 None))), s') /\
      wf s' /\ (exists b, at_ s' (marker_address I (c + 1)) mh b) /\ (exists b, at_ s' (lock_address I (c + 1)) lh b) /\
      only_at (fun a => a = marker_address I (c + 1) \/ a = lock_address I (c + 1)) s s'.
  Proof.
    intros W (H0 & H1 & H2 & _) A Hc Hf. destruct fuel as [|f]; [congruence|].
    destruct (create_ok s (marker_address I (c + 1)) 1 W (H1 _)) as (s1 & R1 & W1 & A1 & O1); [discriminate|].
    assert (N1 : forall n, names s1 (lock_address I n) = None).
    { intro n. rewrite (same_names s s1); [apply H2|]. apply O1. adn hash0 I; try tauto. }
    destruct (create_ok s1 (lock_address I (c + 1)) 1 W1 (N1 _)) as (s2 & R2 & W2 & A2 & O2); [discriminate|].
    exists s2, (next s), (next s1). split; [|split; [exact W2|split; [|split]]].
    - assert (RN : run (renumber (S f) (mkLock I (mkHandle (count_address I) ch) 0 0 None None false 0 None)) s =
        (Some (Ok (mkLock I (mkHandle (count_address I) ch) (c + 1) c (Some (mkHandle (marker_address I (c + 1)) (next s))) None false 0 None)), s1)).
      { unfold renumber. cbn [l_count l_marker l_name]. rewrite (run_bind_ok _ _ _ _ _ (read_ok _ _ _ _ A)).
        rewrite from_le by (change (Z.of_nat 5) with 5%Z; lia).
        rewrite run_bind. cbn [take_marker]. rewrite run_ptry, R1. reflexivity. }
      unfold d_enter. cbv zeta. erewrite dbind_ok.
      2: { unfold d_renumber. erewrite dtry_ok by (apply silent_ok; exact RN). erewrite dtry_ok by apply say_logs. reflexivity. }
      cbn [fst snd]. erewrite dbind_ok.
      2: { unfold d_acquire. cbn [l_name l_number]. erewrite dtry_ok by (apply silent_ok; exact R2).
           erewrite dtry_ok by apply say_logs. cbn [d_acquire_loop l_acquired set_lock].
           erewrite dbind_ok.
           2: { unfold d_check_acquirement. cbn [l_name l_number l_floor set_lock]. replace (Z.to_nat (c + 1 - c)) with 1 by lia.
                erewrite dbind_ok.
                2: { apply silent_ok. cbn [count_down first_locked]. rewrite run_bind, exists_names by exact W2.
                     rewrite (same_names s1 s2) by (apply O2; adn hash0 I). rewrite N1. reflexivity. }
                cbv beta iota. erewrite dtry_ok by apply say_logs. reflexivity. }
           cbn [fst snd]. destruct f; reflexivity. }
      cbn [fst snd own l_number set_lock]. unfold own. cbn [l_number set_lock]. rewrite !logged_app. reflexivity.
    - exists (zeros 1). apply (at_same s1); [exact A1|]. apply O2. adn hash0 I; try tauto.
    - eexists. exact A2.
    - intros a Ha. apply same_trans with s1; [apply O1|apply O2]; intro; apply Ha; auto.
  Qed.

  Lemma exit_lines I c s ch mh lh m w : wf s ->
    (exists b, at_ s (count_address I) ch b /\ String.length b = 5) ->
    (exists b, at_ s (marker_address I c) mh b) -> (exists b, at_ s (lock_address I c) lh b) ->
    (0 <= c < 256 ^ 5)%Z ->
    let l := mkLock I (mkHandle (count_address I) ch) c m (Some (mkHandle (marker_address I c) mh)) (Some (mkHandle (lock_address I c) lh)) true 0 None in
    exists l' s', run (d_exit true true here l w) s = (Some (Ok (logged w (way_out (str_of_Z c)), Ok l')), s') /\ run (release l) s = (Some (Ok l'), s').
  Proof.
    intros W (b & A & Hb) (bm & Am) (bl & Al) Hc l.
    destruct (write_ok s _ ch b (le_digits 5 c) W A) as (s1 & R1 & W1 & A1 & O1); [now rewrite le_length|].
    destruct (unlink_ok s1 (lock_address I c) lh W1) as (s2 & R2 & W2 & N2 & O2).
    { rewrite (same_names s s1); [apply Al|]. apply O1. adn hash0 I; try tauto. }
    destruct (unlink_ok s2 (marker_address I c) mh W2) as (s3 & R3 & W3 & N3 & O3).
    { rewrite (same_names s1 s2), (same_names s s1); [apply Am| |]; [apply O1|apply O2]; adn hash0 I; try tauto. }
    assert (RW : run (let! b := of_res (to_bytes 5 (l_number l)) in shm_write (l_count l) b) s = (Some (Ok tt), s1)).
    { cbn [l_number l_count l]. rewrite to_bytes_in by (change (Z.of_nat 5) with 5%Z; lia). cbn [of_res]. now rewrite run_bind_ret. }
    eexists _, s3. split.
    - unfold d_exit. erewrite dbind_ok by apply say_logs. unfold d_release. erewrite dbind_ok.
      2: { cbn [l l_acquired]. erewrite dbind_ok by (apply silent_ok; exact RW). apply say_logs. }
      cbn [l l_lock l_marker d_release_block]. erewrite dbind_ok.
      2: { erewrite dbind_ok by (apply silent_ok; exact (R2 lh)). apply say_logs. }
      erewrite dbind_ok.
      2: { erewrite dbind_ok by (apply silent_ok; exact (R3 mh)). apply say_logs. }
      unfold dret. cbn [run]. unfold own. cbn [l_number]. rewrite !logged_app. reflexivity.
    - unfold release. cbn [l l_acquired l_lock l_marker release_block]. rewrite (run_bind_ok _ _ _ _ _ RW), (run_bind_ok _ _ _ _ _ (R2 lh)), (run_bind_ok _ _ _ _ _ (R3 mh)).
      reflexivity.
  Qed.

  (** The lines of something done under a lock that nobody else wants. *)
  Lemma lock_lines {A} I c s fuel (body : dprog A) (body' : prog A) w texts : wf s -> quiet I c s -> (c + 1 < 256 ^ 5)%Z -> fuel <> 0 ->
    (forall w1 s1 r s2, run body' s1 = (Some r, s2) -> only_at (lock_names I) s s1 -> wf s1 ->
       run (body w1) s1 = (Some (Ok (logged w1 texts, r)), s2) /\ wf s2 /\ forall a, lock_names I a -> same_at s1 s2 a) ->
    forall r s', run (with_lock false fuel I body') s = (Some r, s') ->
    run (d_with_lock true true here shown false fuel I body w) s =
    (Some (Ok (logged w (way_in (str_of_Z (c + 1)) ++ texts ++ way_out (str_of_Z (c + 1))), r)), s').
  Proof.
    intros W Q Hc Hf Hb r s' E. destruct (lock_init_ok I c s W Q) as (s0 & ch & R0 & W0 & A0 & O0).
    assert (Q0 : quiet I c s0).
    { destruct Q as (H0 & H1 & H2 & H3). split; [exact H0|]. split; [|split].
      - intro n. rewrite (same_names s s0); [apply H1|]. apply O0. adn hash0 I; try tauto.
      - intro n. rewrite (same_names s s0); [apply H2|]. apply O0. adn hash0 I; try tauto.
      - right. split; [apply (at_content _ _ _ _ A0)|lia]. }
    destruct (enter_lines I c s0 ch fuel w W0 Q0 A0) as (s1 & mh & lh & R1 & W1 & (bm & Am) & (bl & Al) & O1); [lia|exact Hf|].
    pose proof (ag_enter true true here shown (or_introl eq_refl) fuel
      (mkLock I (mkHandle (count_address I) ch) 0 0 None None false 0 None) w s0) as (new & _ & RE).
    rewrite R1 in RE.
    destruct (run (enter fuel (mkLock I (mkHandle (count_address I) ch) 0 0 None None false 0 None)) s0) as [[re|] se] eqn:EE; [|discriminate].
    injection RE as _ <- <-.
    unfold with_lock in E. rewrite (run_bind_ok _ _ _ _ _ R0), (run_bind_ok _ _ _ _ _ EE), run_ptry in E.
    unfold d_with_lock. erewrite dbind_ok by (apply silent_ok; exact R0). erewrite dbind_ok by exact R1.
    destruct (run body' s1) as [[rb|] s2] eqn:Eb; [|discriminate].
    destruct (Hb (logged w (way_in (str_of_Z (c + 1)))) s1 rb s2 Eb) as (Rb & W2 & Hs).
    { intros a Ha. apply same_trans with s0; [apply O0|apply O1]; intro X; apply Ha; unfold lock_names; [left; auto|destruct X; eauto]. }
    { exact W1. }
    destruct (exit_lines I (c + 1) s2 ch mh lh c (logged w (way_in (str_of_Z (c + 1)) ++ texts)) W2) as (l' & s3 & R3 & E3).
    - exists (le_digits 5 c). split; [|apply le_length]. apply (at_same s1); [apply (at_same s0); [exact A0|]|apply Hs; left; reflexivity].
      apply O1. intros [X|X]; revert X; adn hash0 I; try tauto.
    - exists bm. apply (at_same s1); [exact Am|]. apply Hs. right; left; eauto.
    - exists bl. apply (at_same s1); [exact Al|]. apply Hs. right; right; eauto.
    - destruct Q as [? _]. lia.
    - rewrite logged_app in Rb. destruct rb as [x|e].
      + rewrite (run_bind_ok _ _ _ _ _ E3) in E. injection E as <- <-. erewrite dtry_ok by exact Rb.
        erewrite dbind_ok by exact R3. rewrite logged_app, <- app_assoc. reflexivity.
      + rewrite (run_bind_ok _ _ _ _ _ E3) in E. injection E as <- <-. erewrite dtry_exc by exact Rb.
        erewrite dbind_ok by exact R3. rewrite logged_app, <- app_assoc. reflexivity.
  Qed.

  Section Ix.
    Variable hash : bytes -> string.
    Variable K : string -> Prop.
    Hypothesis hash_inj : collision_free hash K.

    Lemma add_lines x k ok found w s n s' : run (check hash x k) s = (Some (Ok found), s) ->
      run (_add hash x k ok) s = (Some (Ok n), s') ->
      run (d_add true true here hash x k ok w) s =
      (Some (Ok (logged w [("", match found with
                                | Some i => ktext k ++ " already in index at " ++ str_of_Z i
                                | None => "set " ++ str_of_Z n ++ " to " ++ ktext k
                                end)]%string, Ok n)), s').
    Proof.
      intros C E. unfold _add in E. rewrite (run_bind_ok _ _ _ _ _ C) in E. unfold d_add.
      erewrite dbind_ok by (apply silent_ok; exact C). destruct found as [p|].
      - destruct ok; [|discriminate]. injection E as <- <-. cbv beta iota. erewrite dbind_ok by apply say_logs. reflexivity.
      - cbv beta iota. rewrite run_bind in E. destruct (run (update_length x) s) as [[[L|e]|] s1] eqn:U; [|discriminate|discriminate].
        erewrite dbind_ok by (apply silent_ok; exact U). cbv beta.
        match goal with |- context [silent ?p' ;>> _] => set (p := p') end.
        assert (X : run (p >>> Ret L) s1 = (Some (Ok n), s')).
        { rewrite <- E. unfold p.
          rewrite bind_assoc. apply bind_ext. intros b t1. rewrite bind_assoc. apply bind_ext. intros u t2.
          rewrite bind_assoc. apply bind_ext. intros h t3. rewrite bind_assoc. apply bind_ext. intros u' t4.
          rewrite bind_assoc. apply bind_ext. intros p' t5. rewrite bind_assoc. apply bind_ext. intros nb t6. reflexivity. }
        clearbody p. rewrite run_bind in X. destruct (run p s1) as [[[u|e]|] s3] eqn:Ep; cbn [run] in X; [|discriminate|discriminate].
        injection X as <- <-. erewrite dbind_ok by (apply silent_ok; exact Ep). erewrite dbind_ok by apply say_logs. reflexivity.
    Qed.

    Lemma del_lines x k i L w s r s' : run (check hash x k) s = (Some (Ok (Some i)), s) ->
      run (update_length x) s = (Some (Ok L), s) ->
      run (_delitem hash x k) s = (Some (Ok r), s') ->
      run (d_delitem true true here hash x k w) s =
      (Some (Ok (logged w
         [("", if (i =? L - 1)%Z then "deleted block at position " ++ str_of_Z i
               else "overwrote block at position " ++ str_of_Z i ++ " with block at position " ++ str_of_Z (L - 1) ++ " ");
          ("", "deleted " ++ ktext k ++ " at index slot " ++ str_of_Z i ++ " and decremented index counter")]%string, Ok r)), s').
    Proof.
      intros C U E. unfold _delitem in E. rewrite (run_bind_ok _ _ _ _ _ C), (run_bind_ok _ _ _ _ _ U) in E. unfold d_delitem.
      erewrite dbind_ok by (apply silent_ok; exact C). cbv beta iota. erewrite dbind_ok by (apply silent_ok; exact U). cbv beta.
      destruct (i =? L - 1)%Z; rewrite run_bind in E.
      - destruct (run (delete_block (key_address (ix_name x) i) false) s) as [[[u|e]|] s1] eqn:E1; [|discriminate|discriminate].
        erewrite dbind_ok by (erewrite dbind_ok by (apply silent_ok; exact E1); apply say_logs). cbv beta.
        match goal with |- context [silent ?p' ;>> _] => set (p := p') end.
        assert (X : run (p >>> Ret (i, L)) s1 = (Some (Ok r), s')).
        { rewrite <- E. unfold p. rewrite bind_assoc. apply bind_ext. intros u1 t1. rewrite bind_assoc. reflexivity. }
        clearbody p. rewrite run_bind in X. destruct (run p s1) as [[[u1|e]|] s3] eqn:Ep; cbn [run] in X; [|discriminate|discriminate].
        injection X as <- <-. erewrite dbind_ok by (apply silent_ok; exact Ep). erewrite dbind_ok by apply say_logs.
        unfold dret. cbn [run]. rewrite logged_app. reflexivity.
      - match goal with |- context [silent ?p' ;>> say _ _ _ _ _] => set (q := p') in * end.
        change (match run q s with (Some (Ok a), s') => run ((fun _ => delete_block (name_address hash (ix_name x) (kraw k)) false >>>
                  let! nl := of_res (to_bytes 8 (L - 1)) in shm_write (ix_mem x) nl >>> Ret (i, L)) a) s'
                | (Some (Exc e), s') => (Some (Exc e), s') | (None, s') => (None, s') end = (Some (Ok r), s')) in E.
        destruct (run q s) as [[[u|e]|] s1] eqn:E1; [|discriminate|discriminate].
        erewrite dbind_ok by (erewrite dbind_ok by (apply silent_ok; exact E1); apply say_logs). cbv beta.
        clearbody q. match goal with |- context [silent ?p' ;>> _] => set (p := p') end.
        assert (X : run (p >>> Ret (i, L)) s1 = (Some (Ok r), s')).
        { rewrite <- E. unfold p. rewrite bind_assoc. apply bind_ext. intros u1 t1. rewrite bind_assoc. reflexivity. }
        clearbody p. rewrite run_bind in X. destruct (run p s1) as [[[u1|e]|] s3] eqn:Ep; cbn [run] in X; [|discriminate|discriminate].
        injection X as <- <-. erewrite dbind_ok by (apply silent_ok; exact Ep). erewrite dbind_ok by apply say_logs.
        unfold dret. cbn [run]. rewrite logged_app. reflexivity.
    Qed.

    Lemma tag_add_lines I m ks c s fuel k w : wf s -> RepN hash K I m (List.length ks) ks s -> quiet I c s -> (c + 1 < 256 ^ 5)%Z -> fuel <> 0 ->
      plain_key K k -> (Z.of_nat (S (List.length ks)) < 256 ^ Z.of_nat 8)%Z ->
      forall n s', run (tag_add hash fuel (mkIndex I (mkHandle I m) false) k false true) s = (Some (Ok n), s') ->
      run (d_tag_add true true here shown hash fuel (mkIndex I (mkHandle I m) false) k false true w) s =
      (Some (Ok (logged w (way_in (str_of_Z (c + 1)) ++ [("", add_text ks (ktext k))] ++ way_out (str_of_Z (c + 1))), Ok n)), s').
    Proof.
      intros W R Q Hc Hf Hk Hl n s' E. unfold d_tag_add. cbn [ix_no_lockout ix_name].
      refine (lock_lines I c s fuel _ _ w _ W Q Hc Hf _ _ _ E). clear E. intros w1 s1 r s2 E O W1.
      pose proof (rep_lock hash K I m _ _ _ _ R O) as R1.
      assert (C : run (check hash (mkIndex I (mkHandle I m) false) k) s1 = (Some (Ok (position (ktext k) ks)), s1)).
      { unfold check. destruct Hk as (_ & -> & HK). exact (check_rep hash K hash_inj I m _ _ s1 _ false W1 R1 HK). }
      unfold add_text. destruct (position (ktext k) ks) as [i|] eqn:Ei.
      - rewrite (add_old hash K hash_inj I m ks s1 k true false i W1 R1 Hk Ei) in E. injection E as <- <-.
        split; [|split; [exact W1|intros; apply same_refl]].
        exact (add_lines _ k true (Some i) w1 s1 i s1 C (add_old hash K hash_inj I m ks s1 k true false i W1 R1 Hk Ei)).
      - assert (Hn : ~ In (ktext k) ks) by (intro X; destruct (position_in _ _ X) as [j Hj]; congruence).
        destruct (add_new hash K hash_inj I m ks s1 k true false W1 R1 Hk Hn Hl) as (s3 & R3 & W3 & _ & O3).
        rewrite R3 in E. injection E as <- <-. split; [exact (add_lines _ k true None w1 s1 _ s3 C R3)|split; [exact W3|]].
        intros a Ha. apply O3. intro X. apply (lock_not_rep hash I a Ha). eapply add_names_rep; exact X.
    Qed.
    Lemma tag_remove_lines I m ks c s fuel k w i : wf s -> RepN hash K I m (List.length ks) ks s -> quiet I c s -> (c + 1 < 256 ^ 5)%Z -> fuel <> 0 ->
      plain_key K k -> position (ktext k) ks = Some i ->
      forall r s', run (tag_remove hash fuel (mkIndex I (mkHandle I m) false) k) s = (Some (Ok r), s') ->
      run (d_tag_remove true true here shown hash fuel (mkIndex I (mkHandle I m) false) k w) s =
      (Some (Ok (logged w (way_in (str_of_Z (c + 1)) ++ del_texts ks (ktext k) ++ way_out (str_of_Z (c + 1))), Ok r)), s').
    Proof.
      intros W R Q Hc Hf Hk Hi r s' E. unfold tag_remove, tag_del_ in E. cbn [ix_no_lockout ix_name] in E.
      rewrite run_bind in E.
      destruct (run (with_lock false fuel I (_delitem hash (mkIndex I (mkHandle I m) false) k)) s) as [[[d|e]|] s3] eqn:E1; [|discriminate|discriminate].
      injection E as <- <-. unfold d_tag_remove, d_tag_del. cbn [ix_no_lockout ix_name].
      erewrite dbind_ok; [reflexivity|].
      refine (lock_lines I c s fuel _ _ w _ W Q Hc Hf _ _ _ E1). clear E1. intros w1 s1 r s2 E O W1.
      pose proof (rep_lock hash K I m _ _ _ _ R O) as R1.
      assert (C : run (check hash (mkIndex I (mkHandle I m) false) k) s1 = (Some (Ok (position (ktext k) ks)), s1)).
      { unfold check. destruct Hk as (_ & -> & HK). exact (check_rep hash K hash_inj I m _ _ s1 _ false W1 R1 HK). }
      pose proof (del_rep hash K hash_inj I m ks s1 k false W1 R1 Hk) as D. rewrite Hi in D, C. destruct D as (s4 & R4 & W4 & _ & O4).
      rewrite R4 in E. injection E as <- <-. unfold del_texts. rewrite Hi.
      split; [exact (del_lines _ k i _ w1 s1 _ s4 C (length_rep hash K I m _ _ s1 false R1) R4)|split; [exact W4|]].
      intros a Ha. apply O4. intro X. exact (lock_not_rep hash I a Ha X).
    Qed.

    Section Np.
      Variable P : string.
      Variable m : N.
      Context {V : Type} (enc : V -> res bytes) (dec : bytes -> res V) (vstr : V -> string).
      Lemma set_lines l c s fuel k v w s' : wf s -> PRep hash K P m enc dec l s -> quiet (pad_index P) c s -> (c + 1 < 256 ^ 5)%Z -> fuel <> 0 ->
        pad_key K k -> (Z.of_nat (S (List.length l)) < 256 ^ Z.of_nat 8)%Z ->
        run (np_set hash enc fuel (pad_object P m false) k v false true) s = (Some (Ok tt), s') ->
        run (d_np_set true true here shown hash enc vstr fuel (pad_object P m false) k v false true w) s =
        (Some (Ok (logged w (way_in (str_of_Z (c + 1)) ++ [("", add_text (map fst l) (ktext k))] ++ way_out (str_of_Z (c + 1)) ++
                             [("", ("set key=" ++ ktext k ++ " to " ++ vstr v)%string)]), Ok tt)), s').
      Proof.
        intros W [R Sl Pl] Q Hc Hf [Hk Hx] Hl E. unfold np_set in E. unfold d_np_set. rewrite Hx, andb_false_r in *.
        cbn [p_index p_prefix pad_object] in *. rewrite run_ptry, run_bind in E.
        destruct (run (tag_add hash fuel (mkIndex (pad_index P) (mkHandle (pad_index P) m) false) k false true) s) as [[[n|e]|] s1] eqn:E1;
          [|destruct e; discriminate|discriminate].
        destruct (run (memorize enc v (pad_address P (ktext k)) true) s1) as [[[u|e]|] s2] eqn:E2; [|destruct e; discriminate|discriminate].
        injection E as <-. erewrite dtry_ok.
        2: { erewrite dbind_ok by (eapply (tag_add_lines _ _ _ _ _ _ _ _ W R Q Hc Hf Hk); [now rewrite map_length|exact E1]).
             erewrite dbind_ok by (apply silent_ok; exact E2). apply say_logs. }
        unfold dret. cbn [run]. rewrite logged_app, <- !app_assoc. reflexivity.
      Qed.
      Lemma remove_lines l c s fuel k w s' : wf s -> PRep hash K P m enc dec l s -> quiet (pad_index P) c s -> (c + 1 < 256 ^ 5)%Z -> fuel <> 0 ->
        pad_key K k -> held (ktext k) l <> None ->
        run (np_del hash fuel (pad_object P m false) k) s = (Some (Ok tt), s') ->
        run (d_np_del true true here shown hash fuel (pad_object P m false) k w) s =
        (Some (Ok (logged w (way_in (str_of_Z (c + 1)) ++ del_texts (map fst l) (ktext k) ++ way_out (str_of_Z (c + 1))), Ok tt)), s').
      Proof.
        intros W Rp Q Hc Hf Hk Hh E. destruct (held (ktext k) l) as [v|] eqn:Ev; [|congruence].
        destruct (del_note hash K P m enc dec l s k v W Rp Hk Ev) as (s1 & E1 & W1 & Rp1 & O1).
        assert (R1 : RepN hash K (pad_index P) m (List.length (map fst l)) (map fst l) s1).
        { eapply rep_same; [apply (pr_rep _ _ _ _ _ _ _ _ Rp)|]. intros a Ha. apply O1. now apply (away_rep hash P (ktext k) a (proj2 Hk)). }
        assert (Q1 : quiet (pad_index P) c s1).
        { eapply quiet_same; [exact Q|]. intros a Ha. apply O1. now apply (away_lock hash P (ktext k) _ (proj2 Hk)). }
        assert (Hin : In (ktext k) (map fst l)).
        { unfold held in Ev. destruct (value_of (ktext k) l) eqn:Ew; [eapply value_in; eauto|discriminate]. }
        destruct (position_in _ _ Hin) as [i Hi].
        unfold np_del in E. unfold d_np_del. rewrite (reserved_starts k (proj2 Hk)) in *. cbn [p_index p_prefix pad_object] in *.
        rewrite run_ptry, run_bind, E1 in E.
        destruct (run (tag_remove hash fuel (mkIndex (pad_index P) (mkHandle (pad_index P) m) false) k) s1) as [[[n|e]|] s2] eqn:E2;
          [|destruct e; discriminate|discriminate].
        injection E as <-. erewrite dtry_ok.
        2: { erewrite dbind_ok by (apply silent_ok; exact E1).
             eapply (tag_remove_lines _ _ _ _ _ _ _ _ i W1 R1 Q1 Hc Hf (proj1 Hk) Hi). exact E2. }
        reflexivity.
      Qed.
    End Np.
  End Ix.
End Lines.

(** ** A Notepad with a history *)
Section Reached.
  Context (hash : bytes -> string) (K : string -> Prop) (P : string) {V : Type} (enc : V -> res bytes) (dec : bytes -> res V)
          (isnone : V -> bool) (vstr : V -> string).
  Variables (here : nat -> string) (shown : exn -> string).
  Variables (h : list (pvisit V)) (s0 s : store).
  Hypothesis reached : preached hash K P enc dec isnone h s0 s.
  Notation I := (pad_index P).
  Notation pad := (pad_object P (next s0)).
  Notation now := (pad_after enc isnone h).

  Lemma reached_rep : collision_free hash K /\ wf s /\ (2 * Z.of_nat (List.length h) + 8 < 256 ^ 5)%Z /\
    exists c, PRep hash K P (next s0) enc dec now s /\ quiet I c s /\ (c + Z.of_nat (List.length now) <= 2 * Z.of_nat (List.length h))%Z.
  Proof.
    destruct reached as (HK & F & L & W & Vc & nl & r & E).
    destruct (pad_history hash K P enc dec isnone s0 nl h HK W Vc F) as (s' & c & E' & W' & R' & Q' & Hc & O'); [lia|].
    rewrite E' in E. injection E as _ <-. split; [exact HK|]. split; [exact W'|]. split; [lia|]. exists c. auto.
  Qed.

  Lemma reached_lines : exists c, littered I c 0 s /\ (c <= 2 * Z.of_nat (List.length h))%Z /\
    (forall fuel k v w s', pad_key K k -> fuel <> 0 ->
       run (np_set hash enc fuel (pad false) k v false true) s = (Some (Ok tt), s') ->
       run (d_np_set true true here shown hash enc vstr fuel (pad false) k v false true w) s =
       (Some (Ok (logged here w (way_in (str_of_Z (c + 1)) ++ [("", add_text (map fst now) (ktext k))] ++ way_out (str_of_Z (c + 1)) ++
                                 [("", ("set key=" ++ ktext k ++ " to " ++ vstr v)%string)]), Ok tt)), s')) /\
    (forall fuel k w s', pad_key K k -> fuel <> 0 ->
       run (np_del hash fuel (pad false) k) s = (Some (Ok tt), s') ->
       run (d_np_del true true here shown hash fuel (pad false) k w) s =
       (Some (Ok (logged here w (way_in (str_of_Z (c + 1)) ++ del_texts (map fst now) (ktext k) ++ way_out (str_of_Z (c + 1))), Ok tt)), s')).
  Proof.
    destruct reached_rep as (HK & W & L & c & R & Q & Hc). pose proof Q as (H0 & _). exists c.
    split; [now apply quiet_littered|]. split; [lia|]. split.
    - intros fuel k v w s' Hk Hf E. eapply set_lines; eauto; lia.
    - intros fuel k w s' Hk Hf E. eapply remove_lines; eauto; [lia|].
      intro X. unfold np_del in E. rewrite (reserved_starts k (proj2 Hk)) in E. cbn [p_prefix pad_object] in E.
      pose proof (pr_slot _ _ _ _ _ _ _ _ R _ (proj2 Hk)) as Sl. rewrite X in Sl. cbn [slot] in Sl.
      rewrite run_ptry, run_bind, (delete_missing s _ false Sl) in E. discriminate.
  Qed.

  Lemma reached_sets_fail ats fuel w : Forall (fun a => pad_key K (fst (fst a))) ats ->
    (2 * Z.of_nat (List.length h) + Z.of_nat (List.length ats) < 256 ^ 5)%Z -> List.length ats <= fuel ->
    exists s' c,
      run (each (fun a => d_np_set true false here shown hash enc vstr fuel (pad false) (fst (fst a)) (snd (fst a)) false (snd a)) ats w) s =
        (Some (Ok (w, Ok (map (fun _ => Exc FileNotFoundError) ats))), s') /\
      (forall nl, shows K dec isnone (pad nl) now s') /\ littered I c (List.length ats) s'.
  Proof.
    intros F Hn Hf. destruct reached_rep as (HK & W & L & c & R & Q & Hc).
    destruct (sets_fail hash K here shown P (next s0) enc dec vstr now c fuel ats F 0 s w W R) as (s' & E & W' & R' & L').
    - now apply quiet_littered.
    - change (Z.of_nat 0) with 0%Z. lia.
    - lia.
    - exists s', c. split; [exact E|]. split; [|exact L']. intro nl. now apply (prep_shows hash K P (next s0) enc dec isnone).
  Qed.

  Lemma reached_del_absent fuel k w nl : pad_key K k -> held (ktext k) now = None ->
    run (d_np_del true false here shown hash fuel (pad nl) k w) s = (Some (Ok (w, Exc KeyError)), s).
  Proof.
    intros Hk E. destruct reached_rep as (_ & _ & _ & c & R & _). eapply del_absent; eauto.
  Qed.
  Lemma reached_del_locked fuel k v w : pad_key K k -> fuel <> 0 -> held (ktext k) now = Some v ->
    exists s' c, run (d_np_del true false here shown hash fuel (pad false) k w) s = (Some (Ok (w, Exc KeyError)), s') /\
      (forall nl, shows K dec isnone (pad nl) (put_entry (ktext k) (ktext k, None) now) s') /\ littered I c 1 s'.
  Proof.
    intros Hk Hf E. destruct reached_rep as (HK & W & L & c & R & Q & Hc).
    destruct (del_locked hash K here shown P (next s0) enc dec now c 0 s fuel k v w W R) as (s' & E' & W' & R' & L'); auto.
    - now apply quiet_littered.
    - change (Z.of_nat 0) with 0%Z. lia.
    - lia.
    - exists s', c. split; [exact E'|]. split; [|exact L']. intro nl. now apply (prep_shows hash K P (next s0) enc dec isnone).
  Qed.
  Lemma reached_set_free fuel k v ok w : pad_key K k ->
    match value_of (ktext k) now with
    | None => exists s', run (d_np_set true false here shown hash enc vstr fuel (pad true) k v false ok w) s =
          (Some (Ok (w, Exc FileNotFoundError)), s') /\
        forall nl, shows K dec isnone (pad nl) (now ++ [(ktext k, None)]) s'
    | Some _ => run (d_np_set true false here shown hash enc vstr fuel (pad true) k v false ok w) s =
          (Some (Ok (w, Exc (if ok then FileNotFoundError else KeyError))), s)
    end.
  Proof.
    intro Hk. destruct reached_rep as (HK & W & L & c & R & Q & Hc). destruct (value_of (ktext k) now) as [o|] eqn:E.
    - eapply set_old_free; eauto. congruence.
    - destruct (set_new_free hash K HK here shown P (next s0) enc dec vstr now s fuel k v ok w W R Hk E) as (s' & E' & W' & R').
      + pose proof Q as (H0 & _). lia.
      + exists s'. split; [exact E'|]. intro nl. now apply (prep_shows hash K P (next s0) enc dec isnone).
  Qed.
  Lemma reached_del_free fuel k v w : pad_key K k -> held (ktext k) now = Some v ->
    exists s', run (d_np_del true false here shown hash fuel (pad true) k w) s = (Some (Ok (w, Exc KeyError)), s') /\
      (forall nl, shows K dec isnone (pad nl) (swap_entry (ktext k) now) s') /\
      forall nl fuel' v', fuel' <> 0 -> stable enc dec v' ->
        exists s2, run (np_set hash enc fuel' (pad nl) k v' false true) s' = (Some (Ok tt), s2) /\
          run (np_keys (pad nl)) s2 = (Some (Ok (swap_remove (ktext k) (map fst now))), s2) /\
          run (np_getitem dec isnone (pad nl) k) s2 = (Some (look isnone (Some (Some v'))), s2).
  Proof.
    intros Hk E. destruct reached_rep as (HK & W & L & c & R & Q & Hc). eapply del_free; eauto. lia.
  Qed.
End Reached.

Section Alike.
  Context (debug dir : bool) (here : nat -> string) (shown : exn -> string) (hash : bytes -> string).
  Lemma all_alike : dir = true \/ debug = false ->
    (forall fuel x k vg ok, agrees debug (d_tag_add debug dir here shown hash fuel x k vg ok) (tag_add hash fuel x k vg ok)) /\
    (forall fuel x k, agrees debug (d_tag_remove debug dir here shown hash fuel x k) (tag_remove hash fuel x k)) /\
    (forall J (jenc : J -> res bytes) fuel x k v ok,
       agrees debug (d_meta_add debug dir here shown hash jenc fuel x k v ok) (meta_add hash jenc fuel x k v ok)) /\
    (forall fuel x k, agrees debug (d_meta_remove debug dir here shown hash fuel x k) (meta_remove hash fuel x k)) /\
    (forall V (enc : V -> res bytes) vstr fuel p k v mg ok,
       agrees debug (d_np_set debug dir here shown hash enc vstr fuel p k v mg ok) (np_set hash enc fuel p k v mg ok)) /\
    (forall fuel p k, agrees debug (d_np_del debug dir here shown hash fuel p k) (np_del hash fuel p k)) /\
    (forall jenc itemsize fuel p k a ok,
       agrees debug (d_gp_set debug dir here shown hash jenc itemsize fuel p k a ok) (gp_set hash jenc itemsize fuel p k a ok)) /\
    (forall fuel p k, agrees debug (d_gp_del debug dir here shown hash fuel p k) (gp_del hash fuel p k)).
  Proof.
    intro Wr. repeat split; intros.
    - now apply ag_tag_add. - now apply ag_tag_remove. - now apply ag_meta_add. - now apply ag_meta_remove.
    - now apply ag_np_set. - now apply ag_np_del. - now apply ag_gp_set. - now apply ag_gp_del.
  Qed.
End Alike.
