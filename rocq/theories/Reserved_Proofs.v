(** What deleting and assigning the keys reserved for the index does. *)
From Verif Require Export Reserved_Spec Pad_Lemmas.

Lemma slot_key P i : pad_address P (key_slot i) = key_address (pad_index P) (Z.of_nat i).
Proof. unfold pad_address, key_slot, key_address, pad_index. now rewrite append_assoc. Qed.
Lemma slot_name hash P k : pad_address P (name_slot hash k) = name_address hash (pad_index P) k.
Proof. unfold pad_address, name_slot, name_address, pad_index. now rewrite append_assoc. Qed.

Lemma set_reserved {V} hash (enc : V -> res bytes) fuel p k v meta ok s : reserved_key k ->
  run (np_set hash enc fuel p k v meta ok) s = (Some (Exc KeyError), s).
Proof. intros [H1 H2]. unfold np_set. now rewrite H1, H2. Qed.
Lemma gset_reserved hash jenc itemsize fuel p k a ok s : reserved_key k ->
  run (gp_set hash jenc itemsize fuel p k a ok) s = (Some (Exc KeyError), s).
Proof. intros [H1 H2]. unfold gp_set. now rewrite H1, H2. Qed.
Lemma del_two hash fuel p k s : kisstr k = true -> ktext k = "index" \/ ktext k = "index_lock" ->
  run (np_del hash fuel p k) s = (Some (Exc KeyError), s) /\ run (gp_del hash fuel p k) s = (Some (Exc KeyError), s).
Proof.
  intros H1 H2. unfold np_del, gp_del. replace (reserved_name k) with true; [split; reflexivity|].
  unfold reserved_name. rewrite H1. destruct H2 as [-> | ->]; reflexivity.
Qed.

Section Cells.
  Variable I : string.
  Variable m : N.
  Notation H := {| hname := I; hid := m |}.

  (** Keys read around a hole. *)
  Lemma without_cells (ks : list string) i : i < List.length ks ->
    forall j, j < List.length ks ->
    nth_error (map Some (firstn i ks) ++ None :: map Some (skipn (S i) ks)) j =
    if Nat.eqb j i then Some None else option_map Some (nth_error ks j).
  Proof.
    revert i. induction ks as [|x ks IH]; intros i Hi j Hj; [cbn in Hi; lia|]. cbn [List.length] in Hi, Hj.
    destruct i as [|i].
    - destruct j as [|j]; [reflexivity|]. cbn [firstn map app nth_error skipn Nat.eqb]. apply nth_map_some.
    - destruct j as [|j]; [reflexivity|]. cbn [firstn map app nth_error Nat.eqb]. apply IH; lia.
  Qed.
  Lemma keys_without ks s i nl : wf s -> i < List.length ks -> Forall (fun k => k <> "") ks ->
    at_ s I m (len8 (List.length ks)) -> (Z.of_nat (List.length ks) < 256 ^ Z.of_nat 8)%Z ->
    names s (key_address I (Z.of_nat i)) = None ->
    (forall j k, j <> i -> nth_error ks j = Some k -> content s (key_address I (Z.of_nat j)) = Some k) ->
    run (update (mkIndex I H nl)) s = (Some (Ok (without i ks)), s).
  Proof.
    intros W Hi F A L N Hk. set (cells := map Some (firstn i ks) ++ None :: map Some (skipn (S i) ks)).
    assert (Hl : List.length cells = List.length ks).
    { unfold cells. rewrite app_length. cbn [List.length]. rewrite !map_length, firstn_length, skipn_length. lia. }
    rewrite (update_cells _ s m cells W); [|reflexivity|now rewrite Hl|now rewrite Hl|].
    - assert (F1 : Forall (fun k => k <> "") (firstn i ks) /\ Forall (fun k => k <> "") (skipn (S i) ks)).
      { rewrite Forall_forall in F. split; apply Forall_forall; intros x Hx; apply F.
        - rewrite <- (firstn_skipn i ks). apply in_or_app. auto.
        - rewrite <- (firstn_skipn (S i) ks). apply in_or_app. auto. }
      destruct F1 as [F1 F2]. unfold cells. rewrite (collect_all _ F1 _ (Ok (skipn (S i) ks))); [reflexivity|]. cbn [collect].
      rewrite <- (app_nil_r (map Some (skipn (S i) ks))). rewrite (collect_all _ F2 [] (Ok []) eq_refl). now rewrite app_nil_r.
    - intros j Hj. rewrite Hl in Hj. cbn [ix_name]. unfold cells. rewrite without_cells by assumption.
      destruct (Nat.eqb_spec j i) as [->|Hji]; [now rewrite names_none|].
      destruct (nth_error ks j) as [x|] eqn:E; [|apply nth_error_None in E; lia]. cbn [option_map]. now rewrite (Hk j x).
  Qed.
  Lemma keys_full ks s nl : wf s -> Forall (fun k => k <> "") ks ->
    at_ s I m (len8 (List.length ks)) -> (Z.of_nat (List.length ks) < 256 ^ Z.of_nat 8)%Z ->
    (forall j k, nth_error ks j = Some k -> content s (key_address I (Z.of_nat j)) = Some k) ->
    run (update (mkIndex I H nl)) s = (Some (Ok ks), s).
  Proof.
    intros W F A L Hk. rewrite (update_cells _ s m (map Some ks) W); rewrite ?map_length; auto.
    - rewrite <- (app_nil_r (map Some ks)), (collect_all _ F [] (Ok []) eq_refl). now rewrite app_nil_r.
    - intros j Hj. cbn [ix_name]. rewrite nth_map_some. destruct (nth_error ks j) as [x|] eqn:E; [|apply nth_error_None in E; lia]. now rewrite (Hk j x).
  Qed.
  (** Attaching to an index whose length block is there. *)
  Lemma attach_at s n P nl : I = pad_index P -> wf s -> at_ s I m (len8 n) ->
    run (notepad P false nl) s = (Some (Ok (mkPad P (mkIndex I H nl))), s).
  Proof.
    intros -> W A. unfold notepad, tag_index. rewrite run_bind, run_bind, run_bind, exists_spec by assumption.
    rewrite (at_content _ _ _ _ A). cbn [run negb]. rewrite (run_bind_ok _ _ _ _ _ (attach_ok _ _ _ _ A (le8_ne _))). reflexivity.
  Qed.
End Cells.

Section Reserved.
  Variable hash : bytes -> string.
  Variable K : string -> Prop.
  Hypothesis hash_inj : collision_free hash K.
  Variable P : string.
  Variable m : N.
  Context {V : Type} (enc : V -> res bytes) (dec : bytes -> res V) (isnone : V -> bool).
  Notation I := (pad_index P).
  Notation H := {| hname := pad_index P; hid := m |}.
  Notation Rep ks s := (RepN hash K I m (List.length ks) ks s).
  Notation pad nl := (mkPad P (mkIndex I H nl)).
  Notation PRep := (PRep hash K P m enc dec).

  Lemma reserved_absent l s k : PRep l s -> K (ktext k) -> kraw k = ktext k -> starts_index (ktext k) = true ->
    forall x, In x (map fst l) -> hash x <> hash (kraw k).
  Proof.
    intros R HK Hr Hx x Hin. rewrite Hr. eapply rep_in_hash; [exact hash_inj|apply R|exact HK| |exact Hin].
    intro Hk. pose proof (pr_plain _ _ _ _ _ _ _ _ R) as F. rewrite Forall_forall in F. rewrite (F _ Hk) in Hx. discriminate.
  Qed.

  (** Removing the entry of a key that has no name block. *)
  Lemma tag_remove_absent s c k nl fuel : wf s -> quiet I c s -> (c + 1 < 256 ^ 5)%Z -> fuel <> 0 ->
    names s (name_address hash I (kraw k)) = None ->
    exists s', run (tag_remove hash fuel (mkIndex I H nl) k) s = (Some (Exc KeyError), s') /\ wf s' /\
      only_at (lock_names I) s s' /\ exists c', quiet I c' s' /\ (c <= c' <= c + 1)%Z.
  Proof.
    intros W Q Hc Hf N. unfold tag_remove, tag_del_. cbn [ix_no_lockout ix_name].
    destruct (lock_any hash I nl c s fuel (_delitem hash (mkIndex I H nl) k) W Q Hc Hf) as (s1 & W1 & O1 & Hk).
    assert (R1 : run (_delitem hash (mkIndex I H nl) k) s1 = (Some (Exc KeyError), s1)).
    { unfold _delitem, check. rewrite run_bind, check_found by exact W1. cbn [ix_name].
      rewrite names_none; [reflexivity|]. rewrite (same_names s s1); [exact N|]. apply O1.
      intro L. apply (lock_not_rep hash I _ L). right; right; eauto. }
    destruct (Hk _ _ R1 W1 (only_refl _ _)) as (s3 & c3 & R3 & W3 & Q3 & Hc3 & O3).
    exists s3. rewrite (run_bind_exc _ _ _ _ _ R3). split; [reflexivity|]. split; [exact W3|].
    split; [eapply only_trans; eauto|]. eauto.
  Qed.

  (** Deleting any block of an index at rest leaves its lock at rest. *)
  Lemma quiet_without s s' a c : quiet I c s -> names s' a = None -> only_at (eq a) s s' -> exists c', quiet I c' s' /\ (c' <= c)%Z.
  Proof.
    intros (H0 & H1 & H2 & H3) N O. destruct (string_dec a (count_address I)) as [->|Hn].
    - exists 0%Z. split; [|exact H0]. split; [lia|]. split; [|split; [|left; auto]].
      + intro n. rewrite (same_names s s'); [apply H1|]. apply O. adn hash (pad_index P); tauto.
      + intro n. rewrite (same_names s s'); [apply H2|]. apply O. adn hash (pad_index P); tauto.
    - exists c. split; [|lia].
      assert (G : forall b, names s b = None -> names s' b = None).
      { intros b Hb. destruct (string_dec a b) as [<-|Hab]; [exact N|]. rewrite (same_names s s'); [exact Hb|]. now apply O. }
      split; [exact H0|]. split; [intro n; apply G, H1|]. split; [intro n; apply G, H2|].
      assert (S : same_at s s' (count_address I)) by now apply O.
      rewrite (same_names _ _ _ S), (same_content _ _ _ S). exact H3.
  Qed.

  Lemma np_del_reserved l s c k nl fuel : wf s -> PRep l s -> quiet I c s -> (c + 1 < 256 ^ 5)%Z -> fuel <> 0 ->
    K (ktext k) -> kraw k = ktext k -> starts_index (ktext k) = true -> reserved_name k = false ->
    content s (pad_address P (ktext k)) <> Some "" ->
    exists s', run (np_del hash fuel (pad nl) k) s = (Some (Exc KeyError), s') /\ wf s' /\
      only_at (fun a => a = pad_address P (ktext k) \/ lock_names I a) s s' /\
      (content s (pad_address P (ktext k)) = None -> s' = s) /\
      (~ lock_names I (pad_address P (ktext k)) -> names s' (pad_address P (ktext k)) = None) /\
      exists c', quiet I c' s' /\ (c' <= c + 1)%Z.
  Proof.
    intros W R Q Hc Hf HK Hr Hx Hres Hne. unfold np_del. rewrite Hres. cbn [p_prefix p_index].
    destruct (content s (pad_address P (ktext k))) as [b|] eqn:E.
    - destruct (content_at _ _ _ E) as [i A].
      destruct (delete_ok s _ i b false W A ltac:(congruence)) as (s1 & R1 & W1 & N1 & O1).
      destruct (quiet_without s s1 _ c Q N1 O1) as (c1 & Q1 & Hc1).
      destruct (tag_remove_absent s1 c1 k nl fuel W1 Q1 ltac:(lia) Hf) as (s2 & R2 & W2 & O2 & c2 & Q2 & Hc2).
      { destruct (string_dec (pad_address P (ktext k)) (name_address hash I (kraw k))) as [<-|Hd]; [exact N1|].
        rewrite (same_names s s1); [|now apply O1].
        apply (rep_noname _ _ _ _ _ _ _ (pr_rep _ _ _ _ _ _ _ _ R)). now apply (reserved_absent l s k R). }
      exists s2. rewrite run_ptry, (run_bind_ok _ _ _ _ _ R1), R2. split; [reflexivity|]. split; [exact W2|].
      split; [|split; [discriminate|split]].
      + intros a Ha. apply same_trans with s1; [apply O1; intros <-; tauto|apply O2; tauto].
      + intro L. rewrite (same_names s1 s2); [exact N1|]. now apply O2.
      + exists c2. split; [exact Q2|lia].
    - pose proof (content_none _ _ W E) as N. exists s.
      rewrite run_ptry, (run_bind_exc _ _ _ _ _ (delete_missing s _ false N)). split; [reflexivity|]. split; [exact W|].
      split; [apply only_refl|]. split; [auto|]. split; [auto|]. exists c. split; [exact Q|lia].
  Qed.
End Reserved.

(** ** In reached states *)
Section Reached.
  Context {V : Type}.
  Implicit Types (enc : V -> res bytes) (isnone : V -> bool).

  Lemma del_reserved hash K P enc dec isnone h s0 s : preached hash K P enc dec isnone h s0 s ->
    forall k nl fuel, reserved_key k -> kraw k = ktext k -> K (ktext k) -> fuel <> 0 ->
    content s (pad_address P (ktext k)) <> Some "" ->
    exists s', run (let! p := notepad P false nl in np_del hash fuel p k) s = (Some (Exc KeyError), s') /\
      only_at (fun a => a = pad_address P (ktext k) \/ lock_names (pad_index P) a) s s' /\
      (content s (pad_address P (ktext k)) = None -> s' = s) /\
      forall k' nl', pad_key K k' ->
        run (np_getitem dec isnone (mkPad P (mkIndex (pad_index P) (mkHandle (pad_index P) (next s0)) nl')) k') s' =
        (Some (look isnone (value_of (ktext k') (pad_after enc isnone h))), s').
  Proof.
    intros R k nl fuel Hk Hr HK Hf Hne. destruct (preached_rep _ _ _ _ _ _ _ _ _ R) as (HC & W & O & c & Rp & Q & Hc).
    rewrite (run_bind_ok _ _ _ _ _ (notepad_attach hash K P _ enc dec _ s nl W Rp)).
    set (l := pad_after enc isnone h) in *.
    assert (G : forall s', only_at (fun a => a = pad_address P (ktext k) \/ lock_names (pad_index P) a) s s' ->
      forall k' nl', pad_key K k' ->
        run (np_getitem dec isnone (mkPad P (mkIndex (pad_index P) (mkHandle (pad_index P) (next s0)) nl')) k') s' =
        (Some (look isnone (value_of (ktext k') l)), s')).
    { intros s' O' k' nl' [_ Hx]. pose proof (pr_slot _ _ _ _ _ _ _ _ Rp _ Hx) as Sl.
      eapply slot_same in Sl; [|apply O'; intros [E|L]; [|revert L; apply (fun L => away_lock hash P (ktext k') _ Hx L eq_refl)]].
      2:{ apply pad_inj in E. rewrite E in Hx. destruct Hk. congruence. }
      unfold np_getitem. cbn [p_prefix]. unfold held in Sl. unfold look.
      destruct (value_of (ktext k') l) as [[v|]|]; cbn [slot] in Sl.
      - destruct Sl as (b & He & Hb & Hd & Hcb). destruct (content_at _ _ _ Hcb) as [j A].
        rewrite (run_bind_ok _ _ _ _ _ (remember_ok dec s' _ j b v A Hb Hd)). destruct (isnone v); reflexivity.
      - now rewrite (run_bind_exc _ _ _ _ _ (remember_missing dec s' _ Sl)).
      - now rewrite (run_bind_exc _ _ _ _ _ (remember_missing dec s' _ Sl)). }
    destruct (reserved_name k) eqn:Er.
    - exists s. unfold np_del. rewrite Er. split; [reflexivity|]. split; [apply only_refl|]. split; [auto|]. apply G. apply only_refl.
    - destruct (np_del_reserved hash K HC P _ enc dec l s c k nl fuel W Rp Q) as (s' & R' & W' & O' & Hn & Hg & _); auto; try lia.
      { apply Hk. }
      exists s'. split; [exact R'|]. split; [exact O'|]. split; [exact Hn|]. now apply G.
  Qed.

  Lemma key_slot_plain i : starts_index (key_slot i) = true /\ reserved_name (skey (key_slot i)) = false.
  Proof. split; reflexivity. Qed.
  Lemma name_slot_plain hash k : starts_index (name_slot hash k) = true /\ reserved_name (skey (name_slot hash k)) = false.
  Proof. split; reflexivity. Qed.

  (** Deleting a key block: the key is no longer listed. *)
  Lemma del_key_slot hash K P enc dec isnone h s0 s : preached hash K P enc dec isnone h s0 s ->
    forall i nl fuel nl', i < List.length (pad_after enc isnone h) -> K (key_slot i) -> fuel <> 0 ->
    exists s', run (let! p := notepad P false nl in np_del hash fuel p (skey (key_slot i))) s = (Some (Exc KeyError), s') /\
      run (let! p := notepad P false nl' in np_keys p) s' = (Some (Ok (without i (map fst (pad_after enc isnone h)))), s').
  Proof.
    intros R i nl fuel nl' Hi HK Hf. destruct (preached_rep _ _ _ _ _ _ _ _ _ R) as (HC & W & O & c & Rp & Q & Hc).
    rewrite (run_bind_ok _ _ _ _ _ (notepad_attach hash K P _ enc dec _ s nl W Rp)).
    set (l := pad_after enc isnone h) in *. pose proof (pr_rep _ _ _ _ _ _ _ _ Rp) as Ri.
    assert (Hi' : i < List.length (map fst l)) by now rewrite map_length.
    destruct (nth_error (map fst l) i) as [x|] eqn:Ex; [|apply nth_error_None in Ex; lia].
    pose proof (rep_key _ _ _ _ _ _ _ Ri _ _ Ex) as Hx.
    assert (x <> "") by (eapply rep_ne'; [exact Ri|eapply nth_error_In; eauto]).
    destruct (np_del_reserved hash K HC P _ enc dec l s c (skey (key_slot i)) nl fuel W Rp Q) as (s' & R' & W' & O' & Hn & Hg & _); auto; try lia.
    { cbn [skey ktext]. rewrite slot_key, Hx. congruence. }
    cbn [skey ktext] in O', Hg. rewrite slot_key in O', Hg.
    assert (NL : ~ lock_names (pad_index P) (key_address (pad_index P) (Z.of_nat i))).
    { intro L. apply (lock_not_rep hash _ _ L). right; left; eauto. }
    exists s'. split; [exact R'|].
    assert (Sm : same_at s s' (pad_index P)).
    { apply O'. intros [E|L]; [revert E; adn hash (pad_index P); tauto|]. apply (lock_not_rep hash _ _ L). now left. }
    assert (At : at_ s' (pad_index P) (next s0) (len8 (List.length (map fst l)))) by (eapply at_same; [apply Ri|exact Sm]).
    pose proof (attach_at _ _ s' _ P nl' eq_refl W' At) as Ra.
    rewrite (run_bind_ok _ _ _ _ _ Ra). unfold np_keys. cbn [p_index].
    apply keys_without; auto; try apply Ri.
    - intros j y Hj Ey. rewrite (same_content s s'); [apply (rep_key _ _ _ _ _ _ _ Ri _ _ Ey)|]. apply O'.
      intros [E|L]; [revert E; adn hash (pad_index P); lia|]. apply (lock_not_rep hash _ _ L). right; left; eauto.
  Qed.

  (** Deleting a name block: the key can neither be deleted nor found. *)
  Lemma del_name_slot hash K P enc dec isnone h s0 s : preached hash K P enc dec isnone h s0 s ->
    forall k v nl fuel nl', pad_key K k -> value_of (ktext k) (pad_after enc isnone h) = Some (Some v) ->
    K (name_slot hash (ktext k)) -> fuel <> 0 ->
    exists s', run (let! p := notepad P false nl in np_del hash fuel p (skey (name_slot hash (ktext k)))) s = (Some (Exc KeyError), s') /\
      run (let! p := notepad P false nl' in np_keys p) s' = (Some (Ok (map fst (pad_after enc isnone h))), s') /\
      (exists s2, run (let! p := notepad P false nl' in np_del hash fuel p k) s' = (Some (Exc KeyError), s2) /\
         run (let! p := notepad P false nl' in np_keys p) s2 = (Some (Ok (map fst (pad_after enc isnone h))), s2) /\
         run (let! p := notepad P false nl' in np_getitem dec isnone p k) s2 = (Some (Exc FileNotFoundError), s2)) /\
      (forall w, stable enc dec w ->
       exists s2, run (let! p := notepad P false nl' in np_set hash enc fuel p k w false true) s' = (Some (Ok tt), s2) /\
         run (let! p := notepad P false nl' in np_keys p) s2 = (Some (Ok (map fst (pad_after enc isnone h) ++ [ktext k])), s2)).
  Proof.
    intros R k v nl fuel nl' [Hk Hx] Hv HK Hf. destruct (preached_rep _ _ _ _ _ _ _ _ _ R) as (HC & W & O & c & Rp & Q & Hc).
    destruct Hk as (Hne & Hraw & HKk).
    rewrite (run_bind_ok _ _ _ _ _ (notepad_attach hash K P _ enc dec _ s nl W Rp)).
    set (l := pad_after enc isnone h) in *. pose proof (pr_rep _ _ _ _ _ _ _ _ Rp) as Ri.
    pose proof (value_in _ _ _ Hv) as Hin. apply In_nth_error in Hin. destruct Hin as [i Hi].
    pose proof (rep_name _ _ _ _ _ _ _ Ri _ _ Hi) as Hn0.
    destruct (np_del_reserved hash K HC P _ enc dec l s c (skey (name_slot hash (ktext k))) nl fuel W Rp Q)
      as (s' & R' & W' & O' & _ & Hg & c' & Q' & Hc'); auto; try lia.
    { cbn [skey ktext]. rewrite slot_name, Hn0. discriminate. }
    cbn [skey ktext] in O', Hg. rewrite slot_name in O', Hg.
    assert (NL : forall a, rep_names hash (pad_index P) a -> ~ lock_names (pad_index P) a).
    { intros a Ha L. now apply (lock_not_rep hash _ _ L). }
    specialize (Hg (NL _ ltac:(right; right; eauto))).
    assert (At : at_ s' (pad_index P) (next s0) (len8 (List.length (map fst l)))).
    { eapply at_same; [apply Ri|]. apply O'. intros [E|L]; [revert E; adn hash (pad_index P); tauto|]. revert L. apply NL. now left. }
    assert (Ky : forall j, same_at s s' (key_address (pad_index P) j)).
    { intro j. apply O'. intros [E|L]; [revert E; adn hash (pad_index P); tauto|]. revert L. apply NL. right; left; eauto. }
    assert (Kc : forall j x, nth_error (map fst l) j = Some x -> content s' (key_address (pad_index P) (Z.of_nat j)) = Some x).
    { intros j x Ex. rewrite (same_content _ _ _ (Ky _)). apply (rep_key _ _ _ _ _ _ _ Ri _ _ Ex). }
    assert (Len : (Z.of_nat (S (List.length (map fst l))) < 256 ^ Z.of_nat 8)%Z).
    { rewrite map_length. destruct Q as [? _]. rewrite pow8. change (256 ^ 5)%Z with 1099511627776%Z in Hc. lia. }
    assert (Fne : Forall (fun k => k <> "") (map fst l)) by apply Ri.
    exists s'. split; [exact R'|]. split; [|split].
    - rewrite (run_bind_ok _ _ _ _ _ (attach_at _ _ s' _ P nl' eq_refl W' At)). unfold np_keys. cbn [p_index].
      apply keys_full; auto. lia.
    - rewrite (run_bind_ok _ _ _ _ _ (attach_at _ _ s' _ P nl' eq_refl W' At)).
      pose proof (pr_slot _ _ _ _ _ _ _ _ Rp _ Hx) as Sl. unfold held in Sl. rewrite Hv in Sl.
      eapply slot_same in Sl; [|apply O'; intros [E|L]].
      2:{ revert E. apply (away_rep hash P (ktext k) _ Hx). right; right; eauto. }
      2:{ exact (away_lock hash P (ktext k) _ Hx L eq_refl). }
      destruct Sl as (b & _ & Hb & _ & Hcb). destruct (content_at _ _ _ Hcb) as [j A].
      destruct (delete_ok s' _ j b false W' A Hb) as (s1 & R1 & W1 & N1 & O1).
      assert (Q1 : quiet (pad_index P) c' s1).
      { eapply quiet_same; [exact Q'|]. intros a L. apply O1. now apply (away_lock hash P (ktext k) a Hx). }
      destruct (tag_remove_absent hash P (next s0) s1 c' k nl' fuel W1 Q1) as (s2 & R2 & W2 & O2 & _); [lia|exact Hf| |].
      { rewrite Hraw, (same_names s' s1); [exact Hg|]. apply O1. apply (away_rep hash P (ktext k) _ Hx). right; right; eauto. }
      assert (G : forall a, rep_names hash (pad_index P) a -> same_at s' s2 a).
      { intros a Ha. apply same_trans with s1; [apply O1; now apply (away_rep hash P (ktext k) a Hx)|apply O2; now apply NL]. }
      assert (At2 : at_ s2 (pad_index P) (next s0) (len8 (List.length (map fst l)))) by (eapply at_same; [exact At|apply G; now left]).
      exists s2. split; [|split].
      + unfold np_del. rewrite (reserved_starts k Hx). cbn [p_index p_prefix].
        rewrite run_ptry, (run_bind_ok _ _ _ _ _ R1), R2. reflexivity.
      + rewrite (run_bind_ok _ _ _ _ _ (attach_at _ _ s2 _ P nl' eq_refl W2 At2)). unfold np_keys. cbn [p_index].
        apply keys_full; auto; [lia|]. intros j' x Ex. rewrite (same_content s' s2); [now apply Kc|]. apply G. right; left; eauto.
      + rewrite (run_bind_ok _ _ _ _ _ (attach_at _ _ s2 _ P nl' eq_refl W2 At2)). unfold np_getitem. cbn [p_prefix].
        rewrite (run_bind_exc _ _ _ _ _ (remember_missing dec s2 _ ltac:(rewrite (same_names s1 s2); [exact N1|apply O2; intro L;
          exact (away_lock hash P (ktext k) _ Hx L eq_refl)]))). reflexivity.
    - intros w (b & He & Hb & Hd).
      rewrite (run_bind_ok _ _ _ _ _ (attach_at _ _ s' _ P nl' eq_refl W' At)).
      unfold np_set. rewrite Hx, andb_false_r. cbn [p_index p_prefix]. unfold tag_add. cbn [ix_no_lockout ix_name].
      destruct (lock_any hash (pad_index P) nl' c' s' fuel (_add hash (mkIndex (pad_index P) (mkHandle (pad_index P) (next s0)) nl') k true) W' Q')
        as (s1 & W1 & O1 & Hl1); [lia|exact Hf|].
      destruct (add_at hash (pad_index P) (next s0) (List.length (map fst l)) s1 k true nl' W1) as (s2 & R2 & W2 & A2 & K2 & N2 & O2); auto.
      { eapply at_same; [exact At|]. apply O1. apply NL. now left. }
      { rewrite (same_names s' s1), (same_names s s'); [|apply Ky|apply O1, NL; right; left; eauto].
        apply (rep_nokey _ _ _ _ _ _ _ Ri). lia. }
      { rewrite Hraw, (same_names s' s1); [exact Hg|]. apply O1, NL. right; right; eauto. }
      destruct (Hl1 _ _ R2 W2) as (s3 & c3 & R3 & W3 & Q3 & Hc3 & O3).
      { eapply only_sub; [exact O2|]. intros a [->|[->| ->]]; unfold rep_names; eauto. }
      assert (Hc3' : content s3 (pad_address P (ktext k)) <> Some "").
      { pose proof (pr_slot _ _ _ _ _ _ _ _ Rp _ Hx) as Sl. intro X. apply (slot_content P enc dec s (ktext k) _ Sl). rewrite <- X. symmetry.
        assert (Al : ~ lock_names (pad_index P) (pad_address P (ktext k))).
        { intro L. exact (away_lock hash P (ktext k) _ Hx L eq_refl). }
        assert (Ar : forall a, rep_names hash (pad_index P) a -> pad_address P (ktext k) <> a) by (intro a; now apply away_rep).
        rewrite (same_content s2 s3), (same_content s1 s2), (same_content s' s1), (same_content s s'); [reflexivity| | | |].
        - apply O'. intros [E|L]; [|now apply Al]. revert E. apply Ar. right; right; eauto.
        - now apply O1.
        - apply O2. intros [E|[E|E]]; revert E; apply Ar; unfold rep_names; eauto.
        - now apply O3. }
      destruct (memorize_ok enc s3 w b (pad_address P (ktext k)) true W3 He Hb Hc3') as (s4 & j & R4 & W4 & A4 & O4); [discriminate|].
      exists s4. split.
      + rewrite run_ptry, (run_bind_ok _ _ _ _ _ R3), R4. reflexivity.
      + assert (G : forall a, rep_names hash (pad_index P) a -> same_at s2 s4 a).
        { intros a Ha. apply same_trans with s3; [apply O3; now apply NL|apply O4; now apply (away_rep hash P (ktext k) a Hx)]. }
        assert (At4 : at_ s4 (pad_index P) (next s0) (len8 (List.length (map fst l ++ [ktext k])))).
        { rewrite app_length. cbn [List.length]. rewrite Nat.add_1_r. eapply at_same; [exact A2|]. apply G. now left. }
        rewrite (run_bind_ok _ _ _ _ _ (attach_at _ _ s4 _ P nl' eq_refl W4 At4)). unfold np_keys. cbn [p_index].
        apply keys_full; auto.
        * apply Forall_app. auto.
        * rewrite app_length. cbn [List.length]. lia.
        * intros j' x Ex. rewrite (same_content s2 s4) by (apply G; right; left; eauto).
          apply nth_snoc in Ex. destruct Ex as [[Hl Ex]|[-> ->]]; [|exact K2].
          rewrite (same_content s1 s2), (same_content s' s1); [now apply Kc|apply O1, NL; right; left; eauto|].
          apply O2. intros [E|[E|E]]; revert E; adn hash (pad_index P); try tauto.
  Qed.

  (** A key that is not a str but reads "index". *)
  Lemma set_index_object hash K P enc dec isnone h s0 s : preached hash K P enc dec isnone h s0 s ->
    forall k w b nl fuel nl', kisstr k = false -> ktext k = "index" -> kraw k = "index" -> K "index" ->
    enc w = Ok b -> b <> "" -> fuel <> 0 ->
    exists s', run (let! p := notepad P false nl in np_set hash enc fuel p k w false true) s = (Some (Ok tt), s') /\
      run (let! p := notepad P false nl' in np_keys p) s' =
      (Some (Ok (firstn (Z.to_nat (from_bytes b)) (map fst (pad_after enc isnone h) ++ ["index"]))), s').
  Proof.
    intros R k w b nl fuel nl' Hs Ht Hr HK He Hb Hf. destruct (preached_rep _ _ _ _ _ _ _ _ _ R) as (HC & W & O & c & Rp & Q & Hc).
    rewrite (run_bind_ok _ _ _ _ _ (notepad_attach hash K P _ enc dec _ s nl W Rp)).
    set (l := pad_after enc isnone h) in *. pose proof (pr_rep _ _ _ _ _ _ _ _ Rp) as Ri.
    unfold np_set. rewrite Hs. cbn [andb p_index p_prefix]. rewrite Ht.
    destruct (tag_add_run hash K HC P (next s0) (map fst l) s c k true nl fuel W Ri Q) as (r & s1 & c1 & R1 & Er & W1 & Rp1 & Q1 & Hc1 & O1);
      [lia|split; [rewrite Ht; discriminate|rewrite Ht; auto]|exact Hf| |].
    { rewrite map_length. destruct Q as [? _]. rewrite pow8. change (256 ^ 5)%Z with 1099511627776%Z in Hc. lia. }
    assert (Hnot : ~ In (ktext k) (map fst l)).
    { intro Hin. pose proof (pr_plain _ _ _ _ _ _ _ _ Rp) as F. rewrite Forall_forall in F. specialize (F _ Hin). rewrite Ht in F. discriminate. }
    apply position_none in Hnot. cbn [tags_step] in Er, Rp1. rewrite Hnot in Er, Rp1. cbn [fst snd] in Er, Rp1. injection Er as <-.
    rewrite Ht in Rp1. set (ks := map fst l ++ ["index"]) in *.
    change (pad_address P "index") with (pad_index P).
    destruct (memorize_ok enc s1 w b (pad_index P) true W1 He Hb) as (s2 & j & R2 & W2 & A2 & O2);
      [rewrite (at_content _ _ _ _ (rep_mem _ _ _ _ _ _ _ Rp1)); discriminate|discriminate|].
    exists s2. split; [now rewrite run_ptry, (run_bind_ok _ _ _ _ _ R1), R2|].
    assert (Ra : run (notepad P false nl') s2 = (Some (Ok (mkPad P (mkIndex (pad_index P) (mkHandle (pad_index P) j) nl'))), s2)).
    { unfold notepad, tag_index. rewrite run_bind, run_bind, run_bind, exists_spec by assumption.
      rewrite (at_content _ _ _ _ A2). cbn [run negb]. rewrite (run_bind_ok _ _ _ _ _ (attach_ok _ _ _ _ A2 Hb)). reflexivity. }
    rewrite (run_bind_ok _ _ _ _ _ Ra). unfold np_keys, update, update_length. cbn [p_index ix_mem].
    rewrite run_bind, (run_bind_ok _ _ _ _ _ (read_ok _ _ _ _ A2)). cbn [run]. set (n := Z.to_nat (from_bytes b)).
    set (cells := map Some (firstn n ks) ++ repeat None (n - List.length ks)).
    assert (Hl : List.length cells = n).
    { unfold cells. rewrite app_length, map_length, firstn_length, repeat_length. lia. }
    rewrite <- Hl at 1. rewrite keys_from_cells; [|exact W2|].
    - unfold cells. rewrite collect_hole; [reflexivity|].
      pose proof (rep_ne _ _ _ _ _ _ _ Rp1) as F. rewrite Forall_forall in F. apply Forall_forall. intros x Hx. apply F.
      rewrite <- (firstn_skipn n ks). apply in_or_app. auto.
    - intros i Hi. rewrite Hl in Hi. cbn [ix_name]. replace (0 + Z.of_nat i)%Z with (Z.of_nat i) by lia.
      assert (Sk : same_at s1 s2 (key_address (pad_index P) (Z.of_nat i))) by (apply O2; adn hash (pad_index P); tauto).
      rewrite (same_content _ _ _ Sk). unfold cells.
      assert (Hf' : List.length (map Some (firstn n ks)) = Nat.min n (List.length ks)) by now rewrite map_length, firstn_length.
      destruct (Nat.lt_ge_cases i (List.length ks)) as [Hk|Hk].
      + rewrite nth_error_app1 by (rewrite Hf'; lia). rewrite nth_map_some.
        assert (E : nth_error (firstn n ks) i = nth_error ks i).
        { rewrite <- (firstn_skipn n ks) at 2. rewrite nth_error_app1; [reflexivity|]. rewrite firstn_length. lia. }
        rewrite E. destruct (nth_error ks i) as [x|] eqn:Ex; [|apply nth_error_None in Ex; lia].
        now rewrite (rep_key _ _ _ _ _ _ _ Rp1 _ _ Ex).
      + rewrite nth_error_app2 by (rewrite Hf'; lia). rewrite nth_error_repeat by (rewrite Hf'; lia).
        rewrite names_none; [reflexivity|]. apply (rep_nokey _ _ _ _ _ _ _ Rp1). lia.
  Qed.
End Reached.
