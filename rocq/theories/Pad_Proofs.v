(** Notepad refines an insertion-ordered dict. *)
From Verif Require Export Pad_Spec Meta_Proofs.

(** ** Names *)
Lemma prefix_app p x : prefix p (p ++ x) = true.
Proof. induction p as [|c p IH]; cbn; [destruct x; reflexivity|]. destruct (ascii_dec c c); [exact IH|congruence]. Qed.
Lemma pad_not_index P k t : starts_index k = false -> pad_address P k <> (pad_index P ++ t)%string.
Proof.
  unfold pad_address, pad_index. intros Hk E. rewrite append_assoc in E. apply append_cancel in E.
  pose proof (prefix_app "index" t) as X. cbn [append] in E, X. injection E as E. unfold starts_index in Hk. rewrite E in Hk. congruence.
Qed.
Lemma pad_inj P k k' : pad_address P k = pad_address P k' -> k = k'.
Proof. unfold pad_address. intro E. apply append_cancel in E. cbn in E. now injection E. Qed.
Lemma append_nil_r a : (a ++ "")%string = a.
Proof. induction a as [|c a IH]; cbn; congruence. Qed.
Lemma meta_pad_away hash P k : starts_index k = false -> ~ meta_names hash (pad_index P) (pad_address P k).
Proof.
  intros Hk X.
  assert (exists t, pad_address P k = (pad_index P ++ t)%string) as [t E].
  { destruct X as [[E|[[i E]|[[r E]|[E|[[n E]|[n E]]]]]]|[i E]]; rewrite E; try (eexists; reflexivity).
    exists "". now rewrite append_nil_r. }
  now apply (pad_not_index P k t Hk).
Qed.
Lemma index_pad_away hash P k : starts_index k = false -> ~ index_names hash (pad_index P) (pad_address P k).
Proof. intros Hk X. apply (meta_pad_away hash P k Hk). now left. Qed.

(** ** Small facts about runs *)
Lemma run_done {A} (p : prog A) s r s' : run p s = (Some r, s') -> run (done p) s = (Some (Ok r), s').
Proof. intro E. unfold done. rewrite run_ptry, E. destruct r; reflexivity. Qed.
Lemma untry {A B} (f : res A -> B) (p : prog A) s o s' :
  run (ptry p (fun a => Ret (f (Ok a))) (fun e => Ret (f (Exc e)))) s = (Some (Ok o), s') ->
  exists r, run p s = (Some r, s') /\ o = f r.
Proof. rewrite run_ptry. destruct (run p s) as [[[a|e]|] s1]; cbn; intros [= <- <-]; eauto. Qed.

Section PadLists.
  Context {V : Type}.
  Implicit Types l : list (string * option V).
  Lemma held_snoc k l e : held k (l ++ [e]) = match value_of k l with Some v => v | None => if String.eqb (fst e) k then snd e else None end.
  Proof. unfold held. rewrite value_of_snoc. destruct (value_of k l); [reflexivity|]. destruct (String.eqb (fst e) k); reflexivity. Qed.
  Lemma held_absent k l : ~ In k (map fst l) -> held k l = None.
  Proof. intro Hk. unfold held. now rewrite value_of_none. Qed.
  Lemma held_put k k' v l : NoDup (map fst l) -> In k' (map fst l) ->
    held k (put_entry k' (k', v) l) = if String.eqb k' k then v else held k l.
  Proof.
    intros Hd Hin. unfold held. rewrite value_of_put by (cbn; auto). cbn [fst snd]. destruct (String.eqb k' k); reflexivity.
  Qed.
  Lemma held_swap k k' l : NoDup (map fst l) -> In k' (map fst l) ->
    held k (swap_entry k' l) = if String.eqb k' k then None else held k l.
  Proof. intros Hd Hin. unfold held. rewrite value_of_swap by auto. destruct (String.eqb k' k); reflexivity. Qed.
  Lemma value_in k l v : value_of k l = Some v -> In k (map fst l).
  Proof. intro E. apply value_of_in. congruence. Qed.
  Lemma swap_entry_length k l : In k (map fst l) -> S (List.length (swap_entry k l)) = List.length l.
  Proof.
    intro Hin. destruct l as [|[z w] r _] using rev_ind; [destruct Hin|]. rewrite app_length. cbn [List.length].
    unfold swap_entry. rewrite rev_app_distr. cbn [rev app]. cbn [fst]. destruct (String.eqb z k).
    - rewrite rev_involutive. lia.
    - rewrite put_entry_length, rev_involutive. lia.
  Qed.
End PadLists.

Section PadRep.
  Variable hash : bytes -> string.
  Variable K : string -> Prop.
  Hypothesis hash_inj : collision_free hash K.
  Variable P : string.
  Variable m : N.
  Context {V : Type} (enc : V -> res bytes) (dec : bytes -> res V) (isnone : V -> bool).
  Notation I := (pad_index P).
  Notation H := {| hname := pad_index P; hid := m |}.
  Notation Rep ks s := (RepN hash K I m (List.length ks) ks s).
  Notation pad nl := (mkPad P (mkIndex I H nl)).

  (** What is at the address of [k]. *)
  Definition slot (s : store) (k : string) (o : option V) : Prop :=
    match o with
    | Some v => exists b, enc v = Ok b /\ b <> "" /\ dec b = Ok v /\ content s (pad_address P k) = Some b
    | None => names s (pad_address P k) = None
    end.
  Record PRep (l : list (string * option V)) (s : store) : Prop := mkPRep {
    pr_rep : Rep (map fst l) s;
    pr_slot : forall k, starts_index k = false -> slot s k (held k l);
    pr_plain : Forall (fun k => starts_index k = false) (map fst l) }.

  Lemma slot_same s s' k o : slot s k o -> same_at s s' (pad_address P k) -> slot s' k o.
  Proof.
    intros Hs Hsame. destruct o as [v|]; cbn in *.
    - destruct Hs as (b & H1 & H2 & H3 & H4). exists b. rewrite (same_content _ _ _ Hsame). auto.
    - now rewrite (same_names _ _ _ Hsame).
  Qed.
  Lemma slot_content s k o : slot s k o -> content s (pad_address P k) <> Some "".
  Proof.
    destruct o; cbn; [intros (b & _ & Hb & _ & ->) [= ->]; auto|intro N; now apply content_absent].
  Qed.
  Lemma stable_slot s k v b i : stable enc dec v -> enc v = Ok b -> at_ s (pad_address P k) i b -> slot s k (Some v).
  Proof.
    intros (b' & E & Hb & Hd) E' A. rewrite E in E'. injection E' as ->. exists b. repeat split; auto. eapply at_content; eauto.
  Qed.

  (** The lock and the pad key blocks do not interfere. *)
  Lemma away k : starts_index k = false -> ~ own hash I (pad_address P k).
  Proof. intros Hk X. apply (proj1 (own_index hash I _)) in X. now apply (index_pad_away hash P k). Qed.
  Lemma away_rep k a : starts_index k = false -> rep_names hash I a -> pad_address P k <> a.
  Proof. intros Hk X <-. apply (away k Hk). now left. Qed.
  Lemma away_lock k a : starts_index k = false -> lock_names I a -> pad_address P k <> a.
  Proof. intros Hk X <-. apply (away k Hk). now right. Qed.

  Lemma tag_add_run ks s c k ok nl fuel : wf s -> Rep ks s -> quiet I c s -> (c + 1 < 256 ^ 5)%Z -> plain_key K k -> fuel <> 0 ->
    (Z.of_nat (S (List.length ks)) < 256 ^ Z.of_nat 8)%Z ->
    exists r s' c', run (tag_add hash fuel (mkIndex I H nl) k false ok) s = (Some r, s') /\
      fst (tags_step ks (IAdd k ok)) = OPos r /\
      wf s' /\ Rep (snd (tags_step ks (IAdd k ok))) s' /\ quiet I c' s' /\ (c <= c' <= c + 1)%Z /\ only_at (own hash I) s s'.
  Proof.
    intros W R Q Hc Hk Hf L.
    destruct (visit_rep hash K hash_inj I m ks s c (mkVisit nl fuel (IAdd k ok)) W R Q Hc) as (s' & c' & E & W' & R' & Q' & Hc' & O');
      [split; [exact Hf|]; intros k' [= <-]; exact Hk|exact L|].
    cbn [visit_prog v_op v_nl v_fuel] in E. apply untry in E. destruct E as (r & E & Eo). exists r, s', c'. auto 10.
  Qed.
  Lemma tag_remove_run ks s c k nl fuel : wf s -> Rep ks s -> quiet I c s -> (c + 1 < 256 ^ 5)%Z -> plain_key K k -> fuel <> 0 ->
    (Z.of_nat (S (List.length ks)) < 256 ^ Z.of_nat 8)%Z ->
    exists r s' c', run (tag_remove hash fuel (mkIndex I H nl) k) s = (Some r, s') /\
      fst (tags_step ks (IRemove k)) = OPos r /\
      wf s' /\ Rep (snd (tags_step ks (IRemove k))) s' /\ quiet I c' s' /\ (c <= c' <= c + 1)%Z /\ only_at (own hash I) s s'.
  Proof.
    intros W R Q Hc Hk Hf L.
    destruct (visit_rep hash K hash_inj I m ks s c (mkVisit nl fuel (IRemove k)) W R Q Hc) as (s' & c' & E & W' & R' & Q' & Hc' & O');
      [split; [exact Hf|]; intros k' [= <-]; exact Hk|exact L|].
    cbn [visit_prog v_op v_nl v_fuel] in E. apply untry in E. destruct E as (r & E & Eo). exists r, s', c'. auto 10.
  Qed.

  Definition pown (a : string) : Prop := own hash I a \/ exists k, starts_index k = false /\ a = pad_address P k.
  Lemma pown_names a : pown a <-> pad_names hash P a.
  Proof. unfold pown, pad_names. now rewrite own_index. Qed.

  (** *** set *)
  Lemma np_set_rep l s c k v ok nl fuel : wf s -> PRep l s -> quiet I c s -> (c + 1 < 256 ^ 5)%Z ->
    pad_key K k -> sound_value enc dec v -> fuel <> 0 -> (Z.of_nat (S (List.length l)) < 256 ^ Z.of_nat 8)%Z ->
    exists r s' c', run (np_set hash enc fuel (pad nl) k v false ok) s = (Some r, s') /\
      fst (pad_step enc isnone l (PSet k v ok)) = WDone r /\ wf s' /\ PRep (snd (pad_step enc isnone l (PSet k v ok))) s' /\
      quiet I c' s' /\ (c <= c' <= c + 1)%Z /\ only_at pown s s'.
  Proof.
    intros W [R Sl Pl] Q Hc [Hk Hx] Hv Hf L. unfold np_set. rewrite Hx, andb_false_r. cbn [p_index p_prefix].
    destruct (tag_add_run (map fst l) s c k ok nl fuel W R Q Hc Hk Hf) as (r & s1 & c1 & R1 & Er & W1 & Rp1 & Q1 & Hc1 & O1); [now rewrite map_length|].
    rewrite run_ptry, run_bind, R1. cbn [pad_step]. cbn [tags_step] in Er, Rp1.
    assert (Sl1 : forall k, starts_index k = false -> slot s1 k (held k l)).
    { intros k' Hk'. eapply slot_same; [now apply Sl|]. apply O1. now apply away. }
    assert (O1' : only_at pown s s1) by (eapply only_sub; [exact O1|]; unfold pown; auto).
    pose proof (rep_nodup _ _ _ _ _ _ _ R) as Hd.
    destruct (position (ktext k) (map fst l)) as [i|] eqn:E; cbn [fst snd] in Er, Rp1; injection Er as <-.
    - assert (Hin : In (ktext k) (map fst l)) by (apply position_iff; eauto).
      destruct ok.
      2:{ eexists _, s1, c1. cbn [run fst snd]. split; [reflexivity|]. split; [reflexivity|]. split; [exact W1|].
          split; [now constructor|]. auto. }
      destruct Hv as [Hst|[e He]].
      + destruct Hst as (b & He & Hb & Hdb).
        destruct (memorize_ok enc s1 v b (pad_address P (ktext k)) true W1 He Hb) as (s2 & j & R2 & W2 & A2 & O2);
          [apply slot_content with (o := held (ktext k) l); now apply Sl1|discriminate|].
        rewrite R2. cbn [run]. rewrite He. eexists _, s2, c1. split; [reflexivity|]. split; [reflexivity|]. split; [exact W2|].
        split; [|split; [|split; [exact Hc1|]]].
        * constructor.
          -- cbn [snd]. rewrite put_entry_keys. cbn [fst]. rewrite put_same. eapply rep_same; [exact Rp1|].
             intros a Ha. apply O2. now apply away_rep.
          -- intros k' Hk'. cbn [snd]. rewrite held_put by auto. destruct (String.eqb_spec (ktext k) k') as [<-|Hne].
             ++ exists b. repeat split; auto. eapply at_content; eauto.
             ++ eapply slot_same; [now apply Sl1|]. apply O2. intro X. apply pad_inj in X. auto.
          -- cbn [snd]. rewrite put_entry_keys. cbn [fst]. now rewrite put_same.
        * eapply quiet_same; [exact Q1|]. intros a Ha. apply O2. now apply away_lock.
        * eapply only_trans; [exact O1'|]. eapply only_sub; [exact O2|]. intros a <-. right. eauto.
      + rewrite (memorize_unencodable enc s1 v _ e W1 He), He. exists (Exc (as_key e)), s1, c1.
        split; [destruct e; reflexivity|]. split; [reflexivity|]. split; [exact W1|]. split; [now constructor|]. auto.
    - pose proof (proj1 (position_none _ _) E) as Hin.
      assert (N1 : names s1 (pad_address P (ktext k)) = None).
      { specialize (Sl1 (ktext k) Hx). now rewrite held_absent in Sl1. }
      assert (Hrep : forall o s2, only_at (eq (pad_address P (ktext k))) s1 s2 -> slot s2 (ktext k) o -> PRep (l ++ [(ktext k, o)]) s2).
      { intros o s2 O2 S2. constructor.
        - rewrite map_app. cbn [map fst]. eapply rep_same; [exact Rp1|]. intros a Ha. apply O2. now apply away_rep.
        - intros k' Hk'. rewrite held_snoc. cbn [fst snd]. destruct (String.eqb_spec (ktext k) k') as [<-|Hne].
          + now rewrite value_of_none.
          + eapply slot_same; [|apply O2; intro X; apply pad_inj in X; auto]. specialize (Sl1 k' Hk'). unfold held in Sl1.
            destruct (value_of k' l); exact Sl1.
        - rewrite map_app. apply Forall_app. split; [exact Pl|]. constructor; [exact Hx|constructor]. }
      destruct Hv as [Hst|[e He]].
      + destruct Hst as (b & He & Hb & Hdb).
        destruct (memorize_ok enc s1 v b (pad_address P (ktext k)) ok W1 He Hb) as (s2 & j & R2 & W2 & A2 & O2);
          [now apply content_absent|intros _; now apply names_none|].
        rewrite R2. cbn [run]. rewrite He. eexists _, s2, c1. split; [reflexivity|]. split; [reflexivity|]. split; [exact W2|].
        split; [|split; [|split; [exact Hc1|]]].
        * apply Hrep; [exact O2|]. exists b. repeat split; auto. eapply at_content; eauto.
        * eapply quiet_same; [exact Q1|]. intros a Ha. apply O2. now apply away_lock.
        * eapply only_trans; [exact O1'|]. eapply only_sub; [exact O2|]. intros a <-. right. eauto.
      + assert (Rm : run (memorize enc v (pad_address P (ktext k)) ok) s1 = (Some (Exc e), s1)).
        { destruct ok; [now apply memorize_unencodable|]. unfold memorize. rewrite run_bind, exists_spec by exact W1.
          rewrite (names_none _ _ N1). rewrite run_bind, run_of_res, He. reflexivity. }
        rewrite Rm, He. exists (Exc (as_key e)), s1, c1.
        split; [destruct e; reflexivity|]. split; [reflexivity|]. split; [exact W1|].
        split; [|auto]. apply Hrep; [apply only_refl|exact N1].
  Qed.

  (** *** get *)
  Lemma np_getitem_rep l s k nl : PRep l s -> starts_index (ktext k) = false ->
    run (np_getitem dec isnone (pad nl) k) s = (Some (look isnone (value_of (ktext k) l)), s).
  Proof.
    intros [R Sl Pl] Hx. specialize (Sl _ Hx). unfold np_getitem. cbn [p_prefix]. unfold held in Sl. unfold look.
    destruct (value_of (ktext k) l) as [[v|]|]; cbn [slot] in Sl.
    - destruct Sl as (b & He & Hb & Hd & Hc). destruct (content_at _ _ _ Hc) as [j A].
      rewrite (run_bind_ok _ _ _ _ _ (remember_ok dec s _ j b v A Hb Hd)). destruct (isnone v); reflexivity.
    - now rewrite (run_bind_exc _ _ _ _ _ (remember_missing dec s _ Sl)).
    - now rewrite (run_bind_exc _ _ _ _ _ (remember_missing dec s _ Sl)).
  Qed.
  Lemma np_get_rep l s k nl : PRep l s -> starts_index (ktext k) = false ->
    run (np_get dec isnone (pad nl) k) s =
    (Some (match value_of (ktext k) l with
           | Some (Some v) => Ok (if isnone v then None else Some v)
           | _ => Exc FileNotFoundError
           end), s).
  Proof.
    intros R Hx. unfold np_get. rewrite run_ptry, (np_getitem_rep l s k nl R Hx). unfold look.
    destruct (value_of (ktext k) l) as [[v|]|]; try reflexivity. destruct (isnone v); reflexivity.
  Qed.
  Lemma np_keys_rep l s nl : PRep l s -> run (np_keys (pad nl)) s = (Some (Ok (map fst l)), s).
  Proof. intros [R _ _]. unfold np_keys. cbn [p_index]. eapply update_rep; eauto. Qed.
  Lemma np_items_rep l s nl : PRep l s ->
    run (np_items dec isnone (pad nl)) s =
    (Some (mapM (fun e => v <- look isnone (Some (snd e)) ;; Ok (fst e, v)) l), s).
  Proof.
    intros R. unfold np_items. rewrite (run_bind_ok _ _ _ _ _ (np_keys_rep l s nl R)).
    pose proof (pr_plain _ _ R) as Pl. pose proof (rep_nodup _ _ _ _ _ _ _ (pr_rep _ _ R)) as Hd.
    assert (G : forall r, (forall e, In e r -> In e l) ->
      run (for_list (fun k => let! v := np_getitem dec isnone (pad nl) (skey k) in Ret (k, v)) (map fst r)) s =
      (Some (mapM (fun e => v <- look isnone (Some (snd e)) ;; Ok (fst e, v)) r), s)).
    { induction r as [|[k v] r IH]; intro Hr; [reflexivity|]. cbn [map for_list fst].
      assert (Hin : In (k, v) l) by (apply Hr; now left).
      rewrite run_bind, run_bind, (np_getitem_rep l s (skey k) nl R).
      2:{ rewrite Forall_forall in Pl. apply Pl. cbn [skey ktext]. apply (in_map fst) in Hin. exact Hin. }
      cbn [skey ktext]. apply value_of_spec in Hin; [|exact Hd]. rewrite Hin. cbn [mapM snd fst].
      destruct (look isnone (Some v)) as [w|e]; [|reflexivity]. cbn [run Py_Model.bind].
      rewrite run_bind, IH by (intros; apply Hr; now right). destruct (mapM _ r); reflexivity. }
    apply G. auto.
  Qed.

  (** *** del *)
  Lemma reserved_starts k : starts_index (ktext k) = false -> reserved_name k = false.
  Proof.
    intro Hx. unfold reserved_name. destruct (kisstr k); [|reflexivity]. cbn [andb].
    destruct (String.eqb_spec (ktext k) "index") as [E|_]; [rewrite E in Hx; discriminate|].
    destruct (String.eqb_spec (ktext k) "index_lock") as [E|_]; [rewrite E in Hx; discriminate|]. reflexivity.
  Qed.
  Lemma np_del_rep l s c k nl fuel : wf s -> PRep l s -> quiet I c s -> (c + 1 < 256 ^ 5)%Z ->
    pad_key K k -> fuel <> 0 -> (Z.of_nat (S (List.length l)) < 256 ^ Z.of_nat 8)%Z ->
    exists r s' c', run (np_del hash fuel (pad nl) k) s = (Some r, s') /\
      fst (pad_step enc isnone l (PDel k)) = WDone r /\ wf s' /\ PRep (snd (pad_step enc isnone l (PDel k))) s' /\
      quiet I c' s' /\ (c <= c' <= c + 1)%Z /\ only_at pown s s'.
  Proof.
    intros W [R Sl Pl] Q Hc [Hk Hx] Hf L. unfold np_del. rewrite (reserved_starts k Hx). cbn [p_index p_prefix].
    pose proof (Sl _ Hx) as Sk. unfold held in Sk. cbn [pad_step].
    assert (Hmiss : names s (pad_address P (ktext k)) = None ->
      run (ptry (delete_block (pad_address P (ktext k)) false >>> tag_remove hash fuel (mkIndex I H nl) k) (fun _ => Ret tt)
        (fun e => match e with FileNotFoundError => Raise KeyError | _ => Raise e end)) s = (Some (Exc KeyError), s)).
    { intro N. rewrite run_ptry, (run_bind_exc _ _ _ _ _ (delete_missing s _ false N)). reflexivity. }
    destruct (value_of (ktext k) l) as [[v|]|] eqn:E; cbn [slot] in Sk.
    2, 3: rewrite (Hmiss Sk); eexists _, s, c; cbn [fst snd]; split; [reflexivity|]; split; [reflexivity|]; split; [exact W|];
      (split; [now constructor|]); split; [exact Q|]; split; [lia|apply only_refl].
    destruct Sk as (b & He & Hb & Hdb & Hcb). destruct (content_at _ _ _ Hcb) as [j A].
    destruct (delete_ok s _ j b false W A Hb) as (s1 & R1 & W1 & N1 & O1).
    assert (Rp1 : Rep (map fst l) s1) by (eapply rep_same; [exact R|]; intros a Ha; apply O1; now apply away_rep).
    assert (Q1 : quiet I c s1) by (eapply quiet_same; [exact Q|]; intros a Ha; apply O1; now apply away_lock).
    destruct (tag_remove_run (map fst l) s1 c k nl fuel W1 Rp1 Q1 Hc Hk Hf) as (r & s2 & c2 & R2 & Er & W2 & Rp2 & Q2 & Hc2 & O2); [now rewrite map_length|].
    assert (Hin : In (ktext k) (map fst l)) by (eapply value_in; eauto).
    pose proof (rep_nodup _ _ _ _ _ _ _ R) as Hd.
    cbn [tags_step] in Er, Rp2. destruct (position (ktext k) (map fst l)) as [i|] eqn:Ep; [|apply position_none in Ep; contradiction].
    cbn [fst snd] in Er, Rp2. injection Er as <-.
    rewrite run_ptry, (run_bind_ok _ _ _ _ _ R1), R2. cbn [run fst snd]. eexists _, s2, c2. split; [reflexivity|]. split; [reflexivity|].
    split; [exact W2|]. split; [|split; [exact Q2|split; [exact Hc2|]]].
    - constructor.
      + now rewrite swap_entry_keys.
      + intros k' Hk'. rewrite held_swap by auto. apply (slot_same s1); [|apply O2; now apply away].
        destruct (String.eqb_spec (ktext k) k') as [<-|Hne]; [exact N1|].
        eapply slot_same; [now apply Sl|]. apply O1. intro X. apply pad_inj in X. auto.
      + rewrite swap_entry_keys. apply Forall_forall. intros x Hx'. apply swap_remove_in in Hx'; auto.
        rewrite Forall_forall in Pl. apply Pl, Hx'.
    - apply only_trans with s1; [eapply only_sub; [exact O1|]; intros a <-; right; eauto|].
      eapply only_sub; [exact O2|]. unfold pown; auto.
  Qed.

  (** *** clear: deleting all of [ks] *)
  Lemma del_all_rep nl fuel ks : fuel <> 0 -> forall l s c, wf s -> PRep l s -> quiet I c s -> Forall (fun k => pad_key K (skey k)) ks ->
    (c + Z.of_nat (List.length l) < 256 ^ 5)%Z -> (Z.of_nat (S (List.length l)) < 256 ^ Z.of_nat 8)%Z ->
    exists s' c', run (for_each (fun k => np_del hash fuel (pad nl) (skey k)) ks) s = (Some (fst (del_all ks l)), s') /\
      wf s' /\ PRep (snd (del_all ks l)) s' /\ quiet I c' s' /\
      (c <= c')%Z /\ (c' + Z.of_nat (List.length (snd (del_all ks l))) <= c + Z.of_nat (List.length l))%Z /\ only_at pown s s'.
  Proof.
    intro Hf. induction ks as [|k ks IH]; intros l s c W R Q Hks Hc L.
    - exists s, c. cbn. split; [reflexivity|]. split; [exact W|]. split; [exact R|]. split; [exact Q|]. split; [lia|]. split; [lia|apply only_refl].
    - inversion Hks as [|? ? Hk Hks']; subst. cbn [for_each del_all].
      destruct (value_of k l) as [[v|]|] eqn:E.
      + assert (Hin : In k (map fst l)) by (eapply value_in; eauto).
        pose proof (swap_entry_length k l Hin) as Hlen.
        destruct (np_del_rep l s c (skey k) nl fuel W R Q) as (r & s1 & c1 & R1 & Er & W1 & Rp1 & Q1 & Hc1 & O1); [lia|exact Hk|exact Hf|exact L|].
        cbn [pad_step skey ktext] in Er, Rp1. rewrite E in Er, Rp1. cbn [fst snd] in Er, Rp1. injection Er as <-.
        destruct (IH (swap_entry k l) s1 c1 W1 Rp1 Q1 Hks') as (s2 & c2 & R2 & W2 & Rp2 & Q2 & Hc2 & Hl2 & O2); [lia|lia|].
        exists s2, c2. rewrite (run_bind_ok _ _ _ _ _ R1), R2. split; [reflexivity|]. split; [exact W2|]. split; [exact Rp2|]. split; [exact Q2|].
        split; [lia|]. split; [lia|]. eapply only_trans; eauto.
      + assert (Hin : In k (map fst l)) by (eapply value_in; eauto).
        destruct l as [|e0 l0] eqn:El; [destruct Hin|]. rewrite <- El in *.
        assert (1 <= List.length l) by (rewrite El; cbn; lia). clear El.
        destruct (np_del_rep l s c (skey k) nl fuel W R Q) as (r & s1 & c1 & R1 & Er & W1 & Rp1 & Q1 & Hc1 & O1); [lia|exact Hk|exact Hf|exact L|].
        exists s, c. cbn [fst snd]. split; [|split; [exact W|split; [exact R|split; [exact Q|split; [lia|split; [lia|apply only_refl]]]]]].
        unfold np_del. rewrite (reserved_starts (skey k)) by apply Hk. cbn [p_prefix skey ktext].
        pose proof (pr_slot _ _ R k ltac:(apply Hk)) as Sk. unfold held in Sk. rewrite E in Sk. cbn [slot] in Sk.
        rewrite run_bind, run_ptry, (run_bind_exc _ _ _ _ _ (delete_missing s _ false Sk)). reflexivity.
      + exists s, c. cbn [fst snd]. split; [|split; [exact W|split; [exact R|split; [exact Q|split; [lia|split; [lia|apply only_refl]]]]]].
        unfold np_del. rewrite (reserved_starts (skey k)) by apply Hk. cbn [p_prefix skey ktext].
        pose proof (pr_slot _ _ R k ltac:(apply Hk)) as Sk. unfold held in Sk. rewrite E in Sk. cbn [slot] in Sk.
        rewrite run_bind, run_ptry, (run_bind_exc _ _ _ _ _ (delete_missing s _ false Sk)). reflexivity.
  Qed.
  Lemma keys_pad l s : PRep l s -> Forall (fun k => pad_key K (skey k)) (map fst l).
  Proof.
    intros [R _ Pl]. apply Forall_forall. intros k Hk. pose proof (rep_K _ _ _ _ _ _ _ R) as HK. pose proof (rep_ne _ _ _ _ _ _ _ R) as Hn.
    rewrite Forall_forall in *. split; [|now apply Pl]. split; [now apply Hn|]. split; [reflexivity|now apply HK].
  Qed.
  Lemma np_clear_rep l s c nl fuel : wf s -> PRep l s -> quiet I c s -> fuel <> 0 ->
    (c + Z.of_nat (List.length l) < 256 ^ 5)%Z -> (Z.of_nat (S (List.length l)) < 256 ^ Z.of_nat 8)%Z ->
    exists s' c', run (np_clear hash fuel (pad nl)) s = (Some (fst (del_all (map fst l) l)), s') /\
      wf s' /\ PRep (snd (del_all (map fst l) l)) s' /\ quiet I c' s' /\
      (c <= c')%Z /\ (c' + Z.of_nat (List.length (snd (del_all (map fst l) l))) <= c + Z.of_nat (List.length l))%Z /\ only_at pown s s'.
  Proof.
    intros W R Q Hf Hc L. unfold np_clear.
    destruct (del_all_rep nl fuel (map fst l) Hf l s c W R Q (keys_pad l s R) Hc L) as (s' & c' & E & X).
    exists s', c'. rewrite (run_bind_ok _ _ _ _ _ (np_keys_rep l s nl R)), E. auto.
  Qed.

  (** ** Histories *)
  Lemma notepad_attach l s nl : wf s -> PRep l s -> run (notepad P false nl) s = (Some (Ok (pad nl)), s).
  Proof. intros W [R _ _]. unfold notepad. rewrite (run_bind_ok _ _ _ _ _ (attach_rep hash K I m _ _ s nl W R)). reflexivity. Qed.

  Lemma pvisit_rep l s c v : wf s -> PRep l s -> quiet I c s -> (c + Z.of_nat (List.length l) + 1 < 256 ^ 5)%Z -> plain_pvisit enc dec K v ->
    (Z.of_nat (S (List.length l)) < 256 ^ Z.of_nat 8)%Z ->
    exists s' c', run (pvisit_prog hash enc dec isnone P v) s = (Some (Ok (fst (pad_step enc isnone l (pv_op v)))), s') /\
      wf s' /\ PRep (snd (pad_step enc isnone l (pv_op v))) s' /\ quiet I c' s' /\ (c <= c')%Z /\
      (c' + Z.of_nat (List.length (snd (pad_step enc isnone l (pv_op v)))) <= c + Z.of_nat (List.length l) + 2)%Z /\
      only_at pown s s'.
  Proof.
    intros W R Q Hc (Hf & Hp & Hst) L. unfold pvisit_prog. rewrite (run_bind_ok _ _ _ _ _ (notepad_attach l s _ W R)).
    destruct v as [nl fuel o]. cbn [pv_op pv_nl pv_fuel] in *.
    destruct o as [k w ok|k|k|k| | |].
    - specialize (Hp k eq_refl). specialize (Hst k w ok eq_refl).
      destruct (np_set_rep l s c k w ok nl fuel W R Q ltac:(lia) Hp Hst Hf L) as (r & s' & c' & E & Er & W' & R' & Q' & Hc' & O').
      exists s', c'. rewrite (run_bind_ok _ _ _ _ _ (run_done _ _ _ _ E)), Er. split; [reflexivity|]. split; [exact W'|].
      split; [exact R'|]. split; [exact Q'|]. split; [lia|]. split; [|exact O']. clear - Hc'. cbn [pad_step].
      destruct (position _ _); [destruct ok|]; destruct (enc w); cbn [snd]; rewrite ?app_length, ?put_entry_length; cbn [List.length]; lia.
    - specialize (Hp k eq_refl). exists s, c. rewrite (run_bind_ok _ _ _ _ _ (run_done _ _ _ _ (np_getitem_rep l s k nl R ltac:(apply Hp)))).
      cbn [pad_step fst snd]. split; [reflexivity|]. split; [exact W|]. split; [exact R|]. split; [exact Q|]. split; [lia|]. split; [lia|apply only_refl].
    - specialize (Hp k eq_refl). exists s, c. rewrite (run_bind_ok _ _ _ _ _ (run_done _ _ _ _ (np_get_rep l s k nl R ltac:(apply Hp)))).
      cbn [pad_step fst snd]. split; [reflexivity|]. split; [exact W|]. split; [exact R|]. split; [exact Q|]. split; [lia|]. split; [lia|apply only_refl].
    - specialize (Hp k eq_refl).
      destruct (np_del_rep l s c k nl fuel W R Q ltac:(lia) Hp Hf L) as (r & s' & c' & E & Er & W' & R' & Q' & Hc' & O').
      exists s', c'. rewrite (run_bind_ok _ _ _ _ _ (run_done _ _ _ _ E)), Er. split; [reflexivity|]. split; [exact W'|].
      split; [exact R'|]. split; [exact Q'|]. split; [lia|]. split; [|exact O']. clear - Hc'. cbn [pad_step].
      destruct (value_of (ktext k) l) as [[v|]|] eqn:E; cbn [snd]; try lia.
      pose proof (swap_entry_length (ktext k) l (value_in _ _ _ E)). lia.
    - exists s, c. rewrite (run_bind_ok _ _ _ _ _ (np_keys_rep l s nl R)).
      cbn [pad_step fst snd]. split; [reflexivity|]. split; [exact W|]. split; [exact R|]. split; [exact Q|]. split; [lia|]. split; [lia|apply only_refl].
    - exists s, c. rewrite (run_bind_ok _ _ _ _ _ (run_done _ _ _ _ (np_items_rep l s nl R))).
      cbn [pad_step fst snd]. split; [reflexivity|]. split; [exact W|]. split; [exact R|]. split; [exact Q|]. split; [lia|]. split; [lia|apply only_refl].
    - destruct (np_clear_rep l s c nl fuel W R Q Hf ltac:(lia) L) as (s' & c' & E & W' & R' & Q' & Hc' & Hl' & O').
      exists s', c'. rewrite (run_bind_ok _ _ _ _ _ (run_done _ _ _ _ E)). cbn [pad_step].
      destruct (del_all (map fst l) l) as [r l']. cbn [fst snd] in *. split; [reflexivity|]. split; [exact W'|].
      split; [exact R'|]. split; [exact Q'|]. split; [lia|]. split; [lia|exact O'].
  Qed.

  Lemma pvisits_rep h : forall l s c, wf s -> PRep l s -> quiet I c s -> Forall (plain_pvisit enc dec K) h ->
    (c + Z.of_nat (List.length l) + 2 * Z.of_nat (List.length h) < 256 ^ 5)%Z ->
    exists s' c', run (pvisits_prog hash enc dec isnone P h) s = (Some (Ok (fst (pad_run enc isnone l (map pv_op h)))), s') /\
      wf s' /\ PRep (snd (pad_run enc isnone l (map pv_op h))) s' /\ quiet I c' s' /\ (c <= c')%Z /\
      (c' + Z.of_nat (List.length (snd (pad_run enc isnone l (map pv_op h)))) <= c + Z.of_nat (List.length l) + 2 * Z.of_nat (List.length h))%Z /\
      only_at pown s s'.
  Proof.
    induction h as [|v h IH]; intros l s c W R Q F Hc.
    - exists s, c. cbn. split; [reflexivity|]. split; [exact W|]. split; [exact R|]. split; [exact Q|]. split; [lia|]. split; [lia|apply only_refl].
    - inversion F as [|? ? Hv Hh]; subst. cbn [pvisits_prog map pad_run List.length] in *.
      assert (Hc0 : (0 <= c)%Z) by apply Q.
      destruct (pvisit_rep l s c v W R Q) as (s1 & c1 & R1 & W1 & Rp1 & Q1 & Hc1 & Hl1 & O1); [lia|exact Hv|rewrite pow8; change (256 ^ 5)%Z with 1099511627776%Z in Hc; lia|].
      destruct (pad_step enc isnone l (pv_op v)) as [o l1]. cbn [fst snd] in *.
      destruct (IH l1 s1 c1 W1 Rp1 Q1 Hh) as (s2 & c2 & R2 & W2 & Rp2 & Q2 & Hc2 & Hl2 & O2); [lia|].
      destruct (pad_run enc isnone l1 (map pv_op h)) as [xs l2]. cbn [fst snd] in *.
      exists s2, c2. rewrite (run_bind_ok _ _ _ _ _ R1), (run_bind_ok _ _ _ _ _ R2). cbn [run].
      split; [reflexivity|]. split; [exact W2|]. split; [exact Rp2|]. split; [exact Q2|]. split; [lia|]. split; [lia|].
      eapply only_trans; eauto.
  Qed.
End PadRep.

Lemma prep_create hash K P {V} (enc : V -> res bytes) dec s nl : wf s -> vacant (pad_names hash P) s ->
  exists s', run (notepad P true nl) s = (Some (Ok (mkPad P (mkIndex (pad_index P) {| hname := pad_index P; hid := next s |} nl))), s') /\
    wf s' /\ PRep hash K P (next s) enc dec [] s' /\ quiet (pad_index P) 0 s' /\ only_at (eq (pad_index P)) s s'.
Proof.
  intros W Vc. destruct (create_rep hash K (pad_index P) s nl W) as (s1 & R1 & W1 & Rp1 & Q1 & O1).
  { intros a Ha. apply Vc. now left. }
  exists s1. unfold notepad. rewrite (run_bind_ok _ _ _ _ _ R1). split; [reflexivity|]. split; [exact W1|].
  split; [|split; [exact Q1|exact O1]]. constructor; cbn; auto. intros k Hk. rewrite (same_names s s1).
  - apply Vc. right. eauto.
  - apply O1. intro E. apply (pad_not_index P k ""); [exact Hk|]. now rewrite append_nil_r.
Qed.

Lemma pad_history hash K P {V} (enc : V -> res bytes) dec isnone s nl h : collision_free hash K -> wf s -> vacant (pad_names hash P) s ->
  Forall (plain_pvisit enc dec K) h -> (2 * Z.of_nat (List.length h) < 256 ^ 5)%Z ->
  exists s' c, run (notepad P true nl >>> pvisits_prog hash enc dec isnone P h) s =
      (Some (Ok (fst (pad_run enc isnone [] (map pv_op h)))), s') /\
    wf s' /\ PRep hash K P (next s) enc dec (pad_after enc isnone h) s' /\ quiet (pad_index P) c s' /\
    (c + Z.of_nat (List.length (pad_after enc isnone h)) <= 2 * Z.of_nat (List.length h))%Z /\
    only_at (pad_names hash P) s s'.
Proof.
  intros HK W Vc F L. destruct (prep_create hash K P enc dec s nl W Vc) as (s1 & R1 & W1 & Rp1 & Q1 & O1).
  destruct (pvisits_rep hash K HK P (next s) enc dec isnone h [] s1 0 W1 Rp1 Q1 F) as (s2 & c2 & R2 & W2 & Rp2 & Q2 & Hc2 & Hl2 & O2).
  - cbn [List.length]. lia.
  - exists s2, c2. rewrite (run_bind_ok _ _ _ _ _ R1), R2. split; [reflexivity|]. split; [exact W2|]. split; [exact Rp2|]. split; [exact Q2|].
    split; [unfold pad_after; cbn [List.length] in Hl2; lia|].
    intros a Ha. apply same_trans with s1; [apply O1; intros <-; apply Ha; left; left; reflexivity|].
    apply O2. intro Ho. apply Ha. now apply (proj1 (pown_names hash P a)).
Qed.
Lemma preached_rep {V} hash K P (enc : V -> res bytes) dec isnone h s0 s : preached hash K P enc dec isnone h s0 s ->
  collision_free hash K /\ wf s /\ only_at (pad_names hash P) s0 s /\
  exists c, PRep hash K P (next s0) enc dec (pad_after enc isnone h) s /\ quiet (pad_index P) c s /\
    (c + Z.of_nat (List.length (pad_after enc isnone h)) + 8 < 256 ^ 5)%Z.
Proof.
  intros (HK & F & L & W & Vc & nl & r & E).
  destruct (pad_history hash K P enc dec isnone s0 nl h HK W Vc F) as (s' & c & E' & W' & R' & Q' & Hc & O'); [lia|].
  rewrite E' in E. injection E as _ <-. split; [exact HK|]. split; [exact W'|]. split; [exact O'|]. exists c. split; [exact R'|]. split; [exact Q'|lia].
Qed.
