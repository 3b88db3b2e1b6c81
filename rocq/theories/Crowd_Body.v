(** The guarded sections that remove nothing: which phases they go through. *)
From Coq Require Import Lia.
From Verif Require Export Crowd_Core Serial_Proofs.

Section Body.
  Variable hash : bytes -> string.
  Variable K : string -> Prop.
  Hypothesis hash_inj : collision_free hash K.
  Variable I : string.
  Variable m : N.
  Notation H := {| hname := I; hid := m |}.
  Notation RepN := (RepN hash K I m).
  Notation Rep ks s := (RepN (List.length ks) ks s).
  Notation N := (rep_names hash I).
  Notation st := (st N).
  Variable F : list string.
  Hypothesis F_nodup : NoDup F.
  Hypothesis F_K : Forall K F.
  Hypothesis F_len : (Z.of_nat (List.length F) < 256 ^ Z.of_nat 8)%Z.
  Notation Inv := (Live_Proofs.Inv hash I m F).
  Notation keeps := (keeps hash I).
  Notation wtrail := (wtrail N Inv keeps).
  Notation ph := (ph N Inv).

  Local Hint Resolve rn_I rn_key rn_name : core.

  Lemma inv_others g s s' : Inv g s -> others N s s' -> Inv g s'.
  Proof.
    intros V [W Hs].
    assert (Hk : forall i, same_at s s' (key_address I i)) by (intro; apply Hs; auto).
    assert (Hn : forall r, same_at s s' (name_address hash I r)) by (intro; apply Hs; auto).
    constructor; auto.
    - apply (at_same s); [apply V|apply Hs; auto].
    - apply V.
    - intros j k E. rewrite (same_content _ _ _ (Hk _)). now apply V.
    - intros j k E. rewrite (same_content _ _ _ (Hn _)). now apply V.
    - intros r E. rewrite (same_names _ _ _ (Hn _)). now apply V.
  Qed.
  Lemma ph_rep ks r s0 : Rep ks s0 -> F = ks ++ r -> ph s0 [] (7 * List.length ks).
  Proof. intros R HF s HS. apply (inv_rep hash K hash_inj I m F F_nodup F_K F_len ks r); [apply HS|eapply rep_st; eauto|exact HF]. Qed.

  Notation kr := (keeps_refl hash I).
  Notation ks1 := (keeps_one hash I).

  Lemma wt_check ks r s0 s k nl (Q : res (option Z) -> nat -> store -> Prop) : Rep ks s0 -> F = ks ++ r -> K k -> st s0 [] s ->
    (forall s', st s0 [] s' -> Q (Ok (position k ks)) (7 * List.length ks) s') -> wtrail (check_raw hash (mkIndex I H nl) k) (7 * List.length ks) s Q.
  Proof.
    intros R HF HK HS HQ. pose proof (ph_rep ks r s0 R HF) as P. unfold check_raw. cbn [ix_name].
    destruct (position k ks) as [i|] eqn:Ep.
    - apply position_some in Ep. destruct Ep as [Hi Ep]. pose proof (rep_name _ _ _ _ _ _ _ R _ _ Ep) as Hc.
      destruct (content_at _ _ _ Hc) as [j A]. apply wt_bind. eapply wt_exists; [apply kr|exact P|exact HS|auto|exact A|apply le8_ne|].
      intros s1 HS1. cbv iota. apply wt_bind. eapply wt_attach; [apply kr|exact P|exact HS1|auto|exact A|apply le8_ne|].
      intros s2 HS2. apply wt_bind. eapply wt_read; [apply kr|exact P|exact HS2|auto|exact A|]. intros s3 HS3. cbn [Crowd_Core.wtrail].
      rewrite from_le by (eapply rep_pos; eauto). rewrite Z2Nat.id by lia. split; [apply P, HS3|auto].
    - apply position_none in Ep. apply wt_bind. eapply wt_exists_not; [apply kr|exact P|exact HS|auto|apply (rep_noname _ _ _ _ _ _ _ R); eapply rep_in_hash; eauto|].
      intros s1 HS1. cbv iota. cbn [Crowd_Core.wtrail]. split; [apply P, HS1|auto].
  Qed.
  Lemma wt_length ks r s0 s nl (Q : res Z -> nat -> store -> Prop) : Rep ks s0 -> F = ks ++ r -> st s0 [] s ->
    (forall s', st s0 [] s' -> Q (Ok (Z.of_nat (List.length ks))) (7 * List.length ks) s') -> wtrail (update_length (mkIndex I H nl)) (7 * List.length ks) s Q.
  Proof.
    intros R HF HS HQ. pose proof (ph_rep ks r s0 R HF) as P.
    unfold update_length. cbn [ix_mem]. apply wt_bind. eapply wt_read; [apply kr|exact P|exact HS|auto|apply (rep_mem _ _ _ _ _ _ _ R)|].
    intros s1 HS1. cbn [Crowd_Core.wtrail]. rewrite from_le by (pose proof (rep_len _ _ _ _ _ _ _ R); lia). split; [apply P, HS1|auto].
  Qed.
  Lemma wt_keys s0 nl g l (Q : res (list string) -> nat -> store -> Prop) : ph s0 [] g -> forall i s, (0 <= i)%Z -> st s0 [] s ->
    (forall j k, nth_error l j = Some k -> content s0 (key_address I (i + Z.of_nat j)) = Some k /\ k <> "") ->
    (forall s', st s0 [] s' -> Q (Ok l) g s') -> wtrail (keys_from (mkIndex I H nl) (List.length l) i) g s Q.
  Proof.
    intro P. revert Q. induction l as [|x l IH]; intros Q i s Hi HS Hc HQ; cbn [List.length keys_from]; [split; [apply P, HS|apply HQ, HS]|]. cbn [ix_name].
    destruct (Hc 0 x eq_refl) as [C0 N0]. cbn [Z.of_nat] in C0. rewrite Z.add_0_r in C0. destruct (content_at _ _ _ C0) as [j A].
    apply wt_bind, wt_ptry, wt_bind. eapply wt_attach; [apply kr|exact P|exact HS|auto|exact A|exact N0|]. intros s1 HS1.
    eapply wt_read; [apply kr|exact P|exact HS1|auto|exact A|]. intros s2 HS2. cbn [Crowd_Core.wtrail]. split; [apply P, HS2|]. apply wt_bind.
    apply IH; [lia|exact HS2| |].
    - intros q k Hq. replace (i + 1 + Z.of_nat q)%Z with (i + Z.of_nat (S q))%Z by lia. apply Hc, Hq.
    - intros s3 HS3. cbn [Crowd_Core.wtrail]. split; [apply P, HS3|]. apply HQ, HS3.
  Qed.
  Lemma wt_update ks r s0 s nl (Q : res (list string) -> nat -> store -> Prop) : Rep ks s0 -> F = ks ++ r -> st s0 [] s ->
    (forall s', st s0 [] s' -> Q (Ok ks) (7 * List.length ks) s') -> wtrail (update (mkIndex I H nl)) (7 * List.length ks) s Q.
  Proof.
    intros R HF HS HQ. unfold update. apply wt_bind. eapply wt_length; [exact R|exact HF|exact HS|]. intros s1 HS1. rewrite Nat2Z.id.
    apply (wt_keys s0); [eapply ph_rep; eauto|lia|exact HS1| |exact HQ]. intros j k Hj. split; [exact (rep_key _ _ _ _ _ _ _ R _ _ Hj)|].
    eapply rep_ne'; eauto. eapply nth_error_In; eauto.
  Qed.

  Ltac miss := apply val_miss; [adn hash I; try tauto; try congruence; try lia|].

  Lemma wt_add_new ks r s0 s k ok nl (Q : res Z -> nat -> store -> Prop) : st s0 [] s -> Rep ks s0 -> plain_key K k -> F = ks ++ ktext k :: r ->
    (forall v s', Inv (7 * List.length (ks ++ [ktext k])) s' -> Q v (7 * List.length (ks ++ [ktext k])) s') -> wtrail (_add hash (mkIndex I H nl) k ok) (7 * List.length ks) s Q.
  Proof.
    intros HS R (Hne & Hraw & HK) HF HQ.
    assert (Hin : ~ In (ktext k) ks).
    { intro Hin. rewrite HF in F_nodup. apply NoDup_remove_2 in F_nodup. apply F_nodup, in_or_app. auto. }
    assert (Hlen : (Z.of_nat (S (List.length ks)) < 256 ^ Z.of_nat 8)%Z).
    { rewrite HF, app_length in F_len. cbn [List.length] in F_len. lia. }
    unfold _add, check. rewrite Hraw. apply wt_bind.
    eapply wt_check; [exact R|exact HF|exact HK|exact HS|]. intros s1 HS1. rewrite (proj2 (position_none _ _) Hin). cbv iota beta.
    apply wt_bind. eapply wt_length; [exact R|exact HF|exact HS1|]. intros s2 HS2.
    assert (EQ : 7 * List.length (ks ++ [ktext k]) = 7 * List.length ks + 7) by (rewrite app_length; cbn [List.length]; lia).
    rewrite EQ in HQ. clear EQ.
    pose proof (ph_rep ks _ s0 R HF) as P0.
    pose proof (rep_mem _ _ _ _ _ _ _ R) as Am.
    pose proof (rep_in_hash _ _ hash_inj _ _ _ _ _ _ R HK Hin) as Hh.
    assert (Nk : names s0 (key_address I (Z.of_nat (List.length ks))) = None) by (apply (rep_nokey _ _ _ _ _ _ _ R); lia).
    pose proof (rep_noname _ _ _ _ _ _ _ R _ Hh) as Nn.
    set (ka := key_address I (Z.of_nat (List.length ks))) in *. set (na := name_address hash I (ktext k)) in *.
    (* what each list of changes amounts to *)
    assert (PH : forall L c ck cn, 1 <= c <= 7 ->
      Serial_Core.val s0 L I (Some (m, len8 (S (List.length ks)))) -> Serial_Core.val s0 L ka ck -> Serial_Core.val s0 L na cn ->
      option_map snd ck = kcell (7 * List.length ks + c) (List.length ks) (ktext k) ->
      option_map snd cn = ncell (7 * List.length ks + c) (List.length ks) ->
      (forall a, a <> I -> a <> ka -> a <> na -> seen L a = None) -> ph s0 L (7 * List.length ks + c)).
    { intros L c ck cn Hc Vm Vk Vn Ek En Hs x Hx.
      assert (CT : forall a cl, has x a cl -> content x a = option_map snd cl).
      { intros a [[i b]|] Ha; cbn [has option_map snd] in *; [apply (at_content _ _ _ _ Ha)|now apply names_none]. }
      apply (inv_phase_on hash K hash_inj I m F F_nodup F_K F_len ks (ktext k) r s0); auto.
      - apply Hx.
      - intros a Ha Hn. destruct Hx as [_ Hx]. specialize (Hx a Ha). rewrite Hs in Hx; [exact Hx| | |]; intros ->; apply Hn; unfold add_names; auto.
      - exact (st_val N _ _ _ I _ Hx (rn_I hash I) Vm).
      - rewrite <- Ek. apply CT. eapply st_val; [exact Hx|unfold ka; auto|exact Vk].
      - rewrite <- En. apply CT. eapply st_val; [exact Hx|unfold na; auto|exact Vn]. }
    assert (D1 : I <> ka) by (unfold ka; adn hash I; try tauto).
    assert (D2 : I <> na) by (unfold na; adn hash I; try tauto).
    assert (D3 : ka <> na) by (unfold ka, na; adn hash I; try tauto).
    assert (Nka : N ka) by (unfold ka; auto). assert (Nna : N na) by (unfold na; auto).
    set (n := List.length ks) in *.
    assert (SN : forall L a, (forall x c, In (x, c) L -> x <> a) -> seen L a = None).
    { clear. induction L as [|[x c] L IH]; intros a Ha; cbn [seen]; [reflexivity|]. rewrite eqb_ne; [apply IH; intros; eapply Ha; right; eauto|]. eapply Ha. left. reflexivity. }
    Ltac sn := intros a A1 A2 A3; match goal with SN : _ |- _ => apply SN end; cbn [In]; intuition congruence.
    Ltac vl D := first [apply val_hit | apply val_miss; [solve [auto | congruence]|vl D] | assumption | exact D].
    replace (Z.of_nat n + 1)%Z with (Z.of_nat (S n)) by lia. rewrite !to_bytes_in by lia. cbn [of_res]. apply wt_bind. cbn [Crowd_Core.wtrail ix_mem ix_name].
    split; [apply P0, HS2|].
    set (L1 := [(I, Some (m, len8 (S n)))]).
    assert (P1 : ph s0 L1 (7 * n + 1)).
    { apply (PH _ _ None None); [lia|unfold L1; vl Nk|unfold L1; vl Nk|unfold L1; vl Nn| | |unfold L1; sn].
      - rewrite (kcell_1 F F_len) by lia. reflexivity.
      - rewrite (ncell_4 F F_len) by lia. reflexivity. }
    apply wt_bind. eapply (wt_write N Inv keeps ks1 s0 [] (7 * n) (7 * n + 1)); [exact P0|lia|exact P1|exact HS2|auto|exact Am|now rewrite !le_length|]. fold L1. intros s3 HS3.
    assert (P2 : forall i b c, kcell (7 * n + c) n (ktext k) = Some b -> 2 <= c <= 4 -> ph s0 ((ka, Some (i, b)) :: L1) (7 * n + c)).
    { intros i b c Ek Hc. apply (PH _ _ (Some (i, b)) None); [lia|unfold L1; vl Nk|unfold L1; vl Nk|unfold L1; vl Nn| | |unfold L1; sn].
      - symmetry. exact Ek.
      - rewrite (ncell_4 F F_len) by lia. reflexivity. }
    apply wt_bind. eapply (wt_open_new N Inv keeps kr ks1 s0 L1 (7 * n + 1) (7 * n + 2) (7 * n + 3)); [exact P1|lia|lia| | |exact HS3|auto|unfold L1; vl Nk|now apply length_ne|].
    { intro i. apply P2; [apply (kcell_2 F F_len)|lia]. }
    { intro i. apply P2; [apply (kcell_3 F F_len)|lia]. }
    intros i s4 HS4.
    assert (P4 : ph s0 ((ka, Some (i, ktext k)) :: L1) (7 * n + 4)) by (apply P2; [apply (kcell_4 F F_len); lia|lia]).
    apply wt_bind. eapply (wt_write N Inv keeps ks1 s0 _ (7 * n + 3) (7 * n + 4)); [apply P2; [apply (kcell_3 F F_len)|lia]|lia| |exact HS4|auto|apply val_hit|now rewrite zeros_length|].
    { intros x Hx. apply P4. eapply st_shadow; exact Hx. }
    intros s5 HS5. apply st_shadow in HS5.
    cbn [of_res]. apply wt_bind. cbn [Crowd_Core.wtrail]. split; [apply P4, HS5|]. apply wt_bind.
    assert (P5 : forall j b c, ncell (7 * n + c) n = Some b -> 5 <= c <= 7 -> ph s0 ((na, Some (j, b)) :: (ka, Some (i, ktext k)) :: L1) (7 * n + c)).
    { intros j b c En Hc. apply (PH _ _ (Some (i, ktext k)) (Some (j, b))); [lia|unfold L1; vl Nk|unfold L1; vl Nk|unfold L1; vl Nn| | |unfold L1; sn].
      - rewrite (kcell_4 F F_len) by lia. reflexivity.
      - symmetry. exact En. }
    eapply (wt_open_new N Inv keeps kr ks1 s0 _ (7 * n + 4) (7 * n + 5) (7 * n + 6)); [exact P4|lia|lia| | |exact HS5|auto|unfold L1; vl Nn|discriminate|].
    { intro j. apply P5; [apply (ncell_5 F F_len)|lia]. }
    { intro j. apply P5; [apply (ncell_6 F F_len)|lia]. }
    intros j s6 HS6.
    assert (P7 : ph s0 ((na, Some (j, len8 n)) :: (ka, Some (i, ktext k)) :: L1) (7 * n + 7)) by (apply P5; [apply ncell_7|lia]).
    apply wt_bind. eapply (wt_write N Inv keeps ks1 s0 _ (7 * n + 6) (7 * n + 7)); [apply P5; [apply (ncell_6 F F_len)|lia]|lia| |exact HS6|auto|apply val_hit|now rewrite le_length, zeros_length|].
    { intros x Hx. apply P7. eapply st_shadow; exact Hx. }
    intros s7 HS7. apply st_shadow in HS7. cbn [Crowd_Core.wtrail]. split; [apply P7, HS7|]. apply HQ, P7, HS7.
  Qed.

  Lemma wt_guarded ks r s o nl : wf s -> Rep ks s -> (forall k, op_key o = Some k -> plain_key K k) ->
    match o with IRemove _ => False | _ => True end -> F = snd (tags_step ks o) ++ r ->
    wtrail (guarded hash (mkIndex I H nl) o) (7 * List.length ks) s (fun _ g _ => g = 7 * List.length (snd (tags_step ks o))).
  Proof.
    intros W R HP Ho HF. pose proof (st_refl N s W) as HS. destruct o as [k ok|k|k|]; cbn [guarded op_key tags_step] in *; [|destruct Ho| |].
    - specialize (HP k eq_refl). apply wt_ptry. destruct (position (ktext k) ks) as [i|] eqn:Ep; cbn [fst snd] in *.
      + pose proof (ph_rep ks r s R HF) as P.
        unfold _add, check. destruct HP as (Hne & Hraw & HK). rewrite Hraw. apply wt_bind. eapply wt_check; [exact R|exact HF|exact HK|exact HS|].
        intros s1 HS1. rewrite Ep. cbv iota beta. pose proof (P s1 HS1). destruct ok; cbn [Crowd_Core.wtrail]; auto.
      + rewrite <- app_assoc in HF. eapply wt_add_new; [exact HS|exact R|exact HP|exact HF|].
        intros [a|e] s' V; (split; [exact V|reflexivity]).
    - specialize (HP k eq_refl). destruct HP as (Hne & Hraw & HK). pose proof (ph_rep ks r s R HF) as P. unfold check. rewrite Hraw. apply wt_bind. eapply wt_check; [exact R|exact HF|exact HK|exact HS|].
      intros s1 HS1. cbn [Crowd_Core.wtrail fst snd]. split; [apply P, HS1|reflexivity].
    - apply wt_bind. pose proof (ph_rep ks r s R HF) as P. eapply wt_update; [exact R|exact HF|exact HS|].
      intros s1 HS1. cbn [Crowd_Core.wtrail fst snd]. split; [apply P, HS1|reflexivity].
  Qed.
End Body.
