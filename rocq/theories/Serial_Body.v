(** The guarded sections, while other processes work on the lock. *)
From Verif Require Export Serial_Core Serial_Spec.

Section Body.
  Variable hash : bytes -> string.
  Variable K : string -> Prop.
  Hypothesis hash_inj : collision_free hash K.
  Variable I : string.
  Variable m : N.
  Notation H := {| hname := I; hid := m |}.
  Notation RepN := (RepN hash K I m).
  Notation Rep ks s := (RepN (List.length ks) ks s).
  Notation N := (rep_names hash I).
  Notation w := (wp (others N) (mine N)).
  Notation st := (st N).

  Lemma rn_I : N I. Proof. now left. Qed.
  Lemma rn_key i : N (key_address I i). Proof. right; left; eauto. Qed.
  Lemma rn_name r : N (name_address hash I r). Proof. right; right; eauto. Qed.
  Local Hint Resolve rn_I rn_key rn_name : core.

  Lemma rep_st n ks s0 s : RepN n ks s0 -> st s0 [] s -> RepN n ks s.
  Proof. intros R [_ HS]. apply (rep_same hash K I m n ks s0); [exact R|]. intros a Ha. exact (HS a Ha). Qed.
  Lemma w_check n ks s0 s k nl (Q : option Z -> store -> Prop) E : RepN n ks s0 -> K k -> st s0 [] s ->
    (forall s', st s0 [] s' -> Q (position k ks) s') -> w (check_raw hash (mkIndex I H nl) k) Q E s.
  Proof.
    intros R HK HS HQ. unfold check_raw. cbn [ix_name].
    destruct (position k ks) as [i|] eqn:Ep.
    - apply position_some in Ep. destruct Ep as [Hi Ep]. pose proof (rep_name _ _ _ _ _ _ _ R _ _ Ep) as Hc.
      destruct (content_at _ _ _ Hc) as [j A]. apply wp_bind. eapply w_exists; [exact HS|auto|exact A|apply le8_ne|].
      intros s1 HS1. cbv iota. apply wp_bind. eapply w_attach; [exact HS1|auto|exact A|apply le8_ne|].
      intros s2 HS2. apply wp_bind. eapply w_read; [exact HS2|auto|exact A|]. intros s3 HS3. cbn [wp].
      rewrite from_le by (eapply rep_pos; eauto). rewrite Z2Nat.id by lia. auto.
    - apply position_none in Ep. apply wp_bind. eapply w_exists_not; [exact HS|auto|apply (rep_noname _ _ _ _ _ _ _ R); eapply rep_in_hash; eauto|].
      intros s1 HS1. cbv iota. cbn [wp]. auto.
  Qed.
  Lemma w_length n ks s0 s nl (Q : Z -> store -> Prop) E : RepN n ks s0 -> st s0 [] s ->
    (forall s', st s0 [] s' -> Q (Z.of_nat n) s') -> w (update_length (mkIndex I H nl)) Q E s.
  Proof.
    intros R HS HQ. unfold update_length. cbn [ix_mem]. apply wp_bind. eapply w_read; [exact HS|auto|apply (rep_mem _ _ _ _ _ _ _ R)|].
    intros s1 HS1. cbn [wp]. rewrite from_le by (pose proof (rep_len _ _ _ _ _ _ _ R); lia). auto.
  Qed.

  Lemma w_keys s0 nl l (Q : list string -> store -> Prop) E : forall i s, (0 <= i)%Z -> st s0 [] s ->
    (forall j k, nth_error l j = Some k -> content s0 (key_address I (i + Z.of_nat j)) = Some k /\ k <> "") ->
    (forall s', st s0 [] s' -> Q l s') -> w (keys_from (mkIndex I H nl) (List.length l) i) Q E s.
  Proof.
    revert Q. induction l as [|x l IH]; intros Q i s Hi HS Hc HQ; cbn [List.length keys_from]; [apply HQ, HS|]. cbn [ix_name].
    destruct (Hc 0 x eq_refl) as [C0 N0]. cbn [Z.of_nat] in C0. rewrite Z.add_0_r in C0. destruct (content_at _ _ _ C0) as [j A].
    apply wp_bind, wp_ptry, wp_bind. eapply w_attach; [exact HS|auto|exact A|exact N0|]. intros s1 HS1.
    eapply w_read; [exact HS1|auto|exact A|]. intros s2 HS2. cbn [wp]. apply wp_bind.
    apply IH; [lia|exact HS2| |].
    - intros q k Hq. replace (i + 1 + Z.of_nat q)%Z with (i + Z.of_nat (S q))%Z by lia. apply Hc, Hq.
    - intros s3 HS3. cbn [wp]. apply HQ, HS3.
  Qed.
  Lemma w_update ks s0 s nl (Q : list string -> store -> Prop) E : Rep ks s0 -> st s0 [] s ->
    (forall s', st s0 [] s' -> Q ks s') -> w (update (mkIndex I H nl)) Q E s.
  Proof.
    intros R HS HQ. unfold update. apply wp_bind. eapply w_length; [exact R|exact HS|]. intros s1 HS1. rewrite Nat2Z.id.
    apply (w_keys s0); [lia|exact HS1| |exact HQ]. intros j k Hj. split; [exact (rep_key _ _ _ _ _ _ _ R _ _ Hj)|].
    eapply rep_ne'; eauto. eapply nth_error_In; eauto.
  Qed.

  Ltac miss := apply val_miss; [adn hash I; try tauto; try congruence; try lia|].
  Ltac side := try solve [auto | rewrite ?le_length, ?zeros_length; reflexivity].

  Lemma w_add_new ks s0 s k ok nl (Q : Z -> store -> Prop) E : st s0 [] s -> Rep ks s0 -> plain_key K k -> ~ In (ktext k) ks ->
    (Z.of_nat (S (List.length ks)) < 256 ^ Z.of_nat 8)%Z ->
    (forall s', wf s' -> Rep (ks ++ [ktext k]) s' -> Q (Z.of_nat (List.length ks)) s') -> w (_add hash (mkIndex I H nl) k ok) Q E s.
  Proof.
    intros HS R (Hne & Hraw & HK) Hin Hlen HQ. unfold _add, check. rewrite Hraw. apply wp_bind.
    eapply w_check; [exact R|exact HK|exact HS|]. intros s1 HS1. rewrite (proj2 (position_none _ _) Hin). cbv iota beta.
    apply wp_bind. eapply w_length; [exact R|exact HS1|]. intros s2 HS2. set (n := List.length ks) in *.
    replace (Z.of_nat n + 1)%Z with (Z.of_nat (S n)) by lia. rewrite !to_bytes_in by lia. cbn [of_res]. apply wp_bind. cbn [wp ix_mem ix_name].
    pose proof (rep_mem _ _ _ _ _ _ _ R) as Am.
    pose proof (rep_in_hash _ _ hash_inj _ _ _ _ _ _ R HK Hin) as Hh.
    assert (Nk : names s0 (key_address I (Z.of_nat n)) = None) by (apply (rep_nokey _ _ _ _ _ _ _ R); fold n; lia).
    pose proof (rep_noname _ _ _ _ _ _ _ R _ Hh) as Nn.
    apply wp_bind. eapply w_write; [exact HS2|auto|exact Am|now rewrite !le_length|]. intros s3 HS3.
    apply wp_bind. eapply w_open_new; [exact HS3|auto|miss; exact Nk|now apply length_ne|]. intros i s4 HS4.
    apply wp_bind. eapply w_write; [exact HS4|auto|apply val_hit|now rewrite zeros_length|]. intros s5 HS5. apply st_shadow in HS5.
    cbn [of_res]. apply wp_bind. cbn [wp]. apply wp_bind.
    eapply w_open_new; [exact HS5|auto|miss; miss; exact Nn|discriminate|]. intros j s6 HS6.
    apply wp_bind. eapply w_write; [exact HS6|auto|apply val_hit|now rewrite le_length, zeros_length|]. intros s7 HS7. apply st_shadow in HS7.
    cbn [wp]. apply HQ; [apply HS7|].
    eapply (rep_added_on hash K hash_inj I m ks (ktext k) s0); auto.
    - refine (st_val N _ _ _ I (Some (m, len8 (S n))) HS7 _ _); [auto|]. miss. miss. apply val_hit.
    - eapply at_content. refine (st_val N _ _ _ _ (Some (i, ktext k)) HS7 _ _); [auto|]. fold n. miss. apply val_hit.
    - eapply at_content. refine (st_val N _ _ _ _ (Some (j, len8 n)) HS7 _ _); [auto|]. apply val_hit.
    - intros a Ha Hn. destruct HS7 as [_ HS7]. specialize (HS7 a Ha). cbn [seen] in HS7. fold n in Hn.
      rewrite !eqb_ne in HS7; [exact HS7| | |]; intros <-; apply Hn; unfold add_names; fold n; auto.
  Qed.

  Lemma w_del_last ks s0 s k nl (Q : Z * Z -> store -> Prop) E : st s0 [] s -> Rep (ks ++ [ktext k]) s0 -> plain_key K k ->
    position (ktext k) (ks ++ [ktext k]) = Some (Z.of_nat (List.length ks)) ->
    (forall s', wf s' -> Rep ks s' -> Q (Z.of_nat (List.length ks), Z.of_nat (S (List.length ks))) s') -> w (_delitem hash (mkIndex I H nl) k) Q E s.
  Proof.
    intros HS R (Hne & Hraw & HK) Hpos HQ. unfold _delitem, check. rewrite Hraw. apply wp_bind.
    eapply w_check; [exact R|exact HK|exact HS|]. intros s1 HS1. rewrite Hpos. cbv iota beta.
    apply wp_bind. eapply w_length; [exact R|exact HS1|]. intros s2 HS2.
    pose proof (rep_mem _ _ _ _ _ _ _ R) as Am. pose proof (rep_len _ _ _ _ _ _ _ R) as L.
    rewrite app_length in *. cbn [List.length] in *. rewrite Nat.add_1_r in *. set (n := List.length ks) in *.
    replace (Z.of_nat (S n) - 1)%Z with (Z.of_nat n) by lia. rewrite Z.eqb_refl. cbn [ix_mem ix_name].
    assert (Hz : nth_error (ks ++ [ktext k]) n = Some (ktext k)) by (unfold n; rewrite nth_error_app2, Nat.sub_diag; [reflexivity|lia]).
    destruct (content_at _ _ _ (rep_key _ _ _ _ _ _ _ R _ _ Hz)) as [j Aj].
    destruct (content_at _ _ _ (rep_name _ _ _ _ _ _ _ R _ _ Hz)) as [j2 Aj2].
    apply wp_bind. eapply w_delete; [exact HS2|auto|exact Aj|exact Hne|]. intros s3 HS3.
    apply wp_bind. eapply w_delete; [exact HS3|auto|miss; exact Aj2|apply le8_ne|]. intros s4 HS4.
    rewrite to_bytes_in by lia. cbn [of_res]. apply wp_bind. cbn [wp].
    apply wp_bind. eapply w_write; [exact HS4|auto|miss; miss; exact Am|now rewrite !le_length|]. intros s5 HS5.
    cbn [wp]. apply HQ; [apply HS5|]. eapply (rep_removed_last_on hash K hash_inj I m ks (ktext k) s0); auto.
    - rewrite app_length. cbn [List.length]. fold n. rewrite Nat.add_1_r. exact R.
    - refine (st_val N _ _ _ I (Some (m, len8 n)) HS5 _ _); [auto|]. apply val_hit.
    - refine (st_val N _ _ _ _ None HS5 _ _); [auto|]. fold n. miss. miss. apply val_hit.
    - refine (st_val N _ _ _ _ None HS5 _ _); [auto|]. miss. apply val_hit.
    - intros a Ha Hn. destruct HS5 as [_ HS5]. specialize (HS5 a Ha). cbn [seen] in HS5.
      rewrite !eqb_ne in HS5; [exact HS5| | |]; intros <-; apply Hn; unfold add_names; fold n; auto.
  Qed.

  Lemma w_del_swap ks s0 s z k i nl (Q : Z * Z -> store -> Prop) E : st s0 [] s -> Rep (ks ++ [z]) s0 -> plain_key K k ->
    nth_error ks i = Some (ktext k) -> position (ktext k) (ks ++ [z]) = Some (Z.of_nat i) ->
    (forall s', wf s' -> Rep (put_in_place (ktext k) z ks) s' -> Q (Z.of_nat i, Z.of_nat (S (List.length ks))) s') ->
    w (_delitem hash (mkIndex I H nl) k) Q E s.
  Proof.
    intros HS R (Hne & Hraw & HK) Hi Hpos HQ. unfold _delitem, check. rewrite Hraw. apply wp_bind.
    eapply w_check; [exact R|exact HK|exact HS|]. intros s1 HS1. rewrite Hpos. cbv iota beta.
    apply wp_bind. eapply w_length; [exact R|exact HS1|]. intros s2 HS2.
    pose proof (rep_mem _ _ _ _ _ _ _ R) as Am. pose proof (rep_len _ _ _ _ _ _ _ R) as L.
    assert (Hil : i < List.length ks) by (apply nth_error_Some; congruence).
    assert (Hi' : nth_error (ks ++ [z]) i = Some (ktext k)) by now apply nth_app_l.
    assert (Hz : nth_error (ks ++ [z]) (List.length ks) = Some z) by (rewrite nth_error_app2, Nat.sub_diag; [reflexivity|lia]).
    assert (Hkz : hash (ktext k) <> hash z) by (eapply (rep_nth_hash _ _ hash_inj _ _ _ _ _ i (List.length ks)); eauto; lia).
    assert (Hzne : z <> "") by (eapply rep_ne'; eauto; eapply nth_error_In; eauto).
    rewrite app_length in *. cbn [List.length] in *. rewrite Nat.add_1_r in *. set (n := List.length ks) in *.
    replace (Z.of_nat (S n) - 1)%Z with (Z.of_nat n) by lia.
    replace (Z.of_nat i =? Z.of_nat n)%Z with false by (symmetry; apply Z.eqb_neq; lia). cbn [ix_mem ix_name].
    destruct (content_at _ _ _ (rep_key _ _ _ _ _ _ _ R _ _ Hz)) as [jz Az].
    destruct (content_at _ _ _ (rep_key _ _ _ _ _ _ _ R _ _ Hi')) as [ji Ai].
    destruct (content_at _ _ _ (rep_name _ _ _ _ _ _ _ R _ _ Hz)) as [jn An].
    destruct (content_at _ _ _ (rep_name _ _ _ _ _ _ _ R _ _ Hi')) as [jk Ak].
    apply wp_bind, wp_bind. eapply w_attach; [exact HS2|auto|exact Az|exact Hzne|]. intros s3 HS3.
    apply wp_bind. eapply w_read; [exact HS3|auto|exact Az|]. intros s4 HS4.
    apply wp_bind. eapply w_open_over; [exact HS4|auto|exact Ai|exact Hne|now apply length_ne|]. intros x s5 HS5.
    apply wp_bind. eapply w_write; [exact HS5|auto|apply val_hit|now rewrite zeros_length|]. intros s6 HS6. apply st_shadow in HS6.
    apply wp_bind. eapply w_attach; [exact HS6|auto|miss; exact An|apply le8_ne|]. intros s7 HS7.
    rewrite !to_bytes_in by lia. cbn [of_res]. apply wp_bind. cbn [wp].
    apply wp_bind. eapply w_write; [exact HS7|auto|miss; exact An|now rewrite !le_length|]. intros s8 HS8.
    eapply w_unlink; [exact HS8|auto|miss; miss; exact Az|]. intros s9 HS9.
    apply wp_bind. eapply w_delete; [exact HS9|auto|miss; miss; miss; exact Ak|apply le8_ne|]. intros s10 HS10.
    apply wp_bind. cbn [wp]. apply wp_bind. eapply w_write; [exact HS10|auto|miss; miss; miss; miss; exact Am|now rewrite !le_length|]. intros s11 HS11.
    cbn [wp]. apply HQ; [apply HS11|]. eapply (rep_swapped_on hash K hash_inj I m ks z (ktext k) i s0); auto.
    - rewrite app_length. cbn [List.length]. fold n. rewrite Nat.add_1_r. exact R.
    - refine (st_val N _ _ _ I (Some (m, len8 n)) HS11 _ _); [auto|]. apply val_hit.
    - refine (st_val N _ _ _ _ None HS11 _ _); [auto|]. fold n. miss. miss. apply val_hit.
    - refine (st_val N _ _ _ _ None HS11 _ _); [auto|]. miss. apply val_hit.
    - eapply at_content. refine (st_val N _ _ _ _ (Some (x, z)) HS11 _ _); [auto|]. miss. miss. miss. miss. apply val_hit.
    - eapply at_content. refine (st_val N _ _ _ _ (Some (jn, len8 i)) HS11 _ _); [auto|]. miss. miss. miss. apply val_hit.
    - intros a Ha Hn. destruct HS11 as [_ HS11]. specialize (HS11 a Ha). cbn [seen] in HS11.
      rewrite !eqb_ne in HS11; [exact HS11| | | | |]; intros <-; apply Hn; unfold swap_names; fold n; auto 6.
  Qed.

  (** One guarded section: it returns what the specification says, and leaves
      the keys the specification says. *)
  Lemma w_guarded ks s o nl : wf s -> Rep ks s -> (forall k, op_key o = Some k -> plain_key K k) ->
    (Z.of_nat (S (List.length ks)) < 256 ^ Z.of_nat 8)%Z ->
    w (guarded hash (mkIndex I H nl) o)
      (fun out s' => out = fst (tags_step ks o) /\ wf s' /\ Rep (snd (tags_step ks o)) s') (fun _ _ => False) s.
  Proof.
    intros W R HP L. pose proof (st_refl N s W) as HS. destruct o as [k ok|k|k|]; cbn [guarded op_key tags_step] in *.
    - specialize (HP k eq_refl). apply wp_ptry. destruct (position (ktext k) ks) as [i|] eqn:Ep; cbn [fst snd].
      + unfold _add, check. destruct HP as (Hne & Hraw & HK). rewrite Hraw. apply wp_bind. eapply w_check; [exact R|exact HK|exact HS|].
        intros s1 HS1. rewrite Ep. cbv iota beta. destruct ok; cbn [wp]; (split; [reflexivity|]); (split; [apply HS1|eapply rep_st; eauto]).
      + eapply w_add_new; [exact HS|exact R|exact HP|now apply position_none|exact L|]. cbn [wp]. auto.
    - specialize (HP k eq_refl). apply wp_ptry. destruct (position (ktext k) ks) as [i|] eqn:Ep; cbn [fst snd].
      + pose proof Ep as Ep'. apply position_some in Ep'. destruct Ep' as [Hi E].
        destruct (exists_last (l := ks)) as (l & z & El); [intros ->; cbn in Hi; lia|]. subst ks.
        destruct (nth_snoc _ _ _ _ E) as [[Hl Hn]|[Hl E2]].
        * eapply (w_del_swap l s s z k (Z.to_nat i)); [exact HS|exact R|exact HP|exact Hn|rewrite Z2Nat.id by lia; exact Ep|]. cbn [wp].
          intros s' W' R'. rewrite Z2Nat.id by lia. split; [reflexivity|]. split; [exact W'|]. rewrite swap_other; [exact R'|].
          intros ->. pose proof (rep_nodup _ _ _ _ _ _ _ R) as Hd. apply nodup_snoc in Hd. apply Hd. eapply nth_error_In; eauto.
        * subst z. assert (Ei : i = Z.of_nat (List.length l)) by lia. subst i.
          eapply w_del_last; [exact HS|exact R|exact HP|exact Ep|]. cbn [wp].
          intros s' W' R'. split; [reflexivity|]. split; [exact W'|]. rewrite swap_last. exact R'.
      + unfold _delitem, check. destruct HP as (Hne & Hraw & HK). rewrite Hraw. apply wp_bind. eapply w_check; [exact R|exact HK|exact HS|].
        intros s1 HS1. rewrite Ep. cbn [wp]. split; [reflexivity|]. split; [apply HS1|eapply rep_st; eauto].
    - specialize (HP k eq_refl). destruct HP as (Hne & Hraw & HK). unfold check. rewrite Hraw. apply wp_bind. eapply w_check; [exact R|exact HK|exact HS|].
      intros s1 HS1. cbn [wp fst snd]. split; [reflexivity|]. split; [apply HS1|eapply rep_st; eauto].
    - apply wp_bind. eapply w_update; [exact R|exact HS|].
      intros s1 HS1. cbn [wp fst snd]. split; [reflexivity|]. split; [apply HS1|eapply rep_st; eauto].
  Qed.
End Body.
