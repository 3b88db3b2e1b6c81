(** What the Notepad refinement says about dicts, defaults, closing, failed
    assignments and independence. *)
From Verif Require Export Pad_Proofs.

(** ** As a dict *)
Section Dict.
  Context {V : Type} (enc : V -> res bytes) (isnone : V -> bool).
  Implicit Types l : list (string * option V).
  Notation filled l := (Forall (fun e => exists v : V, snd e = Some v /\ isnone v = false) l).

  Lemma pad_step_nodup l o : NoDup (map fst l) -> NoDup (map fst (snd (pad_step enc isnone l o))).
  Proof.
    assert (Hdel : forall ks l, NoDup (map fst l) -> NoDup (map fst (snd (del_all ks l)))).
    { induction ks as [|k ks IH]; intros l0 Hd; [exact Hd|]. cbn [del_all]. destruct (value_of k l0) as [[v|]|] eqn:E; try exact Hd.
      apply IH. rewrite swap_entry_keys. apply swap_remove_nodup; [exact Hd|]. eapply value_in; eauto. }
    intro Hd. destruct o as [k v ok|k|k|k| | |]; cbn [pad_step snd]; try exact Hd.
    - destruct (position (ktext k) (map fst l)) as [i|] eqn:E.
      + destruct ok; [|exact Hd]. destruct (enc v); [|exact Hd]. cbn [snd]. rewrite put_entry_keys. cbn [fst]. now rewrite put_same.
      + destruct (enc v); cbn [snd]; rewrite map_app; apply nodup_snoc; (split; [exact Hd|now apply position_none]).
    - destruct (value_of (ktext k) l) as [[v|]|] eqn:E; try exact Hd. cbn [snd]. rewrite swap_entry_keys.
      apply swap_remove_nodup; [exact Hd|]. eapply value_in; eauto.
    - specialize (Hdel (map fst l) l Hd). destruct (del_all (map fst l) l). exact Hdel.
  Qed.
  Lemma pad_run_nodup h : forall l, NoDup (map fst l) -> NoDup (map fst (snd (pad_run enc isnone l h))).
  Proof.
    induction h as [|o h IH]; intros l Hd; [exact Hd|]. cbn [pad_run]. pose proof (pad_step_nodup l o Hd) as Hd1.
    destruct (pad_step enc isnone l o) as [x l1]. cbn [snd] in Hd1. specialize (IH l1 Hd1). destruct (pad_run enc isnone l1 h). exact IH.
  Qed.

  (** Deleting every key of a notepad without holes empties it. *)
  Lemma del_all_clean ks : forall l, NoDup ks -> NoDup (map fst l) -> Forall (fun e => snd e <> None) l ->
    (forall k, In k (map fst l) <-> In k ks) -> del_all ks l = (Ok tt, []).
  Proof.
    induction ks as [|k ks IH]; intros l Hk Hd F Hin.
    - destruct l as [|e l]; [reflexivity|]. destruct (proj1 (Hin (fst e))). now left.
    - cbn [del_all]. assert (Hkl : In k (map fst l)) by (apply Hin; now left).
      pose proof Hkl as Hv. apply value_of_in in Hv. destruct (value_of k l) as [v|] eqn:E; [|congruence].
      assert (v <> None).
      { apply (value_of_spec k v l Hd) in E. rewrite Forall_forall in F. apply (F _ E). }
      destruct v as [v|]; [|congruence]. inversion Hk as [|? ? Hk1 Hk2]; subst. apply IH; auto.
      + rewrite swap_entry_keys. now apply swap_remove_nodup.
      + apply Forall_forall. intros [k' v'] He. cbn. intros ->.
        apply (value_of_spec k' None) in He; [|rewrite swap_entry_keys; now apply swap_remove_nodup].
        rewrite value_of_swap in He by auto. destruct (String.eqb k k'); [discriminate|].
        apply value_of_spec in He; [|exact Hd]. rewrite Forall_forall in F. now apply (F _ He).
      + intro k'. rewrite swap_entry_keys, swap_remove_in by auto. rewrite Hin. cbn. split; [intros [[?|?] ?]; congruence|].
        intro Hk'. split; [auto|]. intros ->. contradiction.
  Qed.

  (** A notepad and a dict with the same contents. *)
  Definition models l (d : string -> option V) : Prop :=
    NoDup (map fst l) /\ forall k, value_of k l = option_map Some (d k).
  Lemma models_filled l d : models l d -> Forall (fun e => snd e <> None) l.
  Proof.
    intros [Hd Hm]. apply Forall_forall. intros [k v] He. cbn. intros ->. apply value_of_spec in He; [|exact Hd].
    rewrite Hm in He. destruct (d k); discriminate.
  Qed.
  Lemma models_in l d k : models l d -> (In k (map fst l) <-> d k <> None).
  Proof. intros [Hd Hm]. rewrite value_of_in, Hm. destruct (d k); cbn; split; congruence. Qed.
  Lemma models_clear l d : models l d -> del_all (map fst l) l = (Ok tt, []).
  Proof. intro Hm. apply del_all_clean; [apply Hm|apply Hm|eapply models_filled; eauto|tauto]. Qed.

  Lemma models_step l d o : models l d -> ordinary enc isnone o ->
    models (snd (pad_step enc isnone l o)) (fun k => dict_after k (d k) [o]).
  Proof.
    intros Hm Ho. pose proof (pad_step_nodup l o (proj1 Hm)) as Hd. split; [exact Hd|]. intro k. destruct Hm as [Hdl Hm].
    destruct o as [k' v ok|k'|k'|k'| | |]; cbn [pad_step dict_after snd]; try apply Hm.
    - destruct (Ho k' v ok eq_refl) as [_ [b Hb]]. rewrite Hb. pose proof (Hm k) as Hmk.
      destruct (position (ktext k') (map fst l)) as [i|] eqn:E.
      + assert (Hin : In (ktext k') (map fst l)) by (apply position_iff; eauto).
        apply value_of_in in Hin. destruct ok; cbn [snd].
        * apply value_of_in in Hin. rewrite value_of_put by (cbn; auto). cbn [fst snd].
          destruct (String.eqb_spec (ktext k') k) as [<-|Hne]; [|exact Hmk]. destruct (d (ktext k')); reflexivity.
        * destruct (String.eqb_spec (ktext k') k) as [<-|Hne]; [|exact Hmk].
          destruct (d (ktext k')); [exact Hmk|]. rewrite Hmk in Hin. now destruct Hin.
      + apply position_none in E. cbn [snd]. rewrite value_of_snoc. cbn [fst snd].
        destruct (String.eqb_spec (ktext k') k) as [<-|Hne].
        * rewrite (value_of_none _ _ E) in *. destruct (d (ktext k')); [discriminate|reflexivity].
        * rewrite Hmk. destruct (d k); reflexivity.
    - pose proof (Hm (ktext k')) as Hm'. destruct (value_of (ktext k') l) as [[v|]|] eqn:E; cbn [snd].
      + rewrite value_of_swap; [|exact Hdl|eapply value_in; eauto]. destruct (String.eqb (ktext k') k); [reflexivity|apply Hm].
      + destruct (d (ktext k')); discriminate.
      + destruct (String.eqb_spec (ktext k') k) as [<-|Hne]; [exact E|apply Hm].
    - rewrite (models_clear l d); [reflexivity|split; auto].
  Qed.
  Lemma dict_after_app k h : forall p o, dict_after (V := V) k p (h ++ [o]) = dict_after k (dict_after k p h) [o].
  Proof. induction h as [|[] h IH]; intros p o; [reflexivity|cbn [app dict_after]; apply IH..]. Qed.
  Lemma pad_run_app h o : forall l, snd (pad_run enc isnone l (h ++ [o])) = snd (pad_step enc isnone (snd (pad_run enc isnone l h)) o).
  Proof.
    induction h as [|o' h IH]; intro l; cbn [app pad_run].
    - cbn [snd]. destruct (pad_step enc isnone l o). reflexivity.
    - destruct (pad_step enc isnone l o') as [x l1]. specialize (IH l1). destruct (pad_run enc isnone l1 (h ++ [o])).
      destruct (pad_run enc isnone l1 h). exact IH.
  Qed.
  Lemma models_run h : Forall (ordinary enc isnone) h -> models (snd (pad_run enc isnone [] h)) (fun k => dict_after k None h).
  Proof.
    induction h as [|o h IH] using rev_ind; intro F.
    - split; [constructor|]. intro k. reflexivity.
    - apply Forall_app in F. destruct F as [F Fo]. inversion Fo as [|? ? Ho _]; subst.
      rewrite pad_run_app. pose proof (models_step _ _ o (IH F) Ho) as [Hd Hm]. split; [exact Hd|].
      intro k. rewrite dict_after_app. apply Hm.
  Qed.
  Lemma not_none h : Forall (ordinary enc isnone) h -> forall k p v, (forall w, p = Some w -> isnone w = false) ->
    dict_after k p h = Some v -> isnone v = false.
  Proof.
    induction 1 as [|o h Ho _ IH]; intros k p v Hp; cbn [dict_after]; [apply Hp|].
    destruct o as [k' w ok|k'|k'|k'| | |]; try (now apply IH); apply IH.
    - destruct (Ho k' w ok eq_refl) as [Hw _]. destruct (String.eqb (ktext k') k); [|exact Hp].
      destruct p; [destruct ok|]; intros ? [= <-]; auto.
    - destruct (String.eqb (ktext k') k); [discriminate|exact Hp].
  Qed.
  Lemma step_answers h o : Forall (ordinary enc isnone) h -> ordinary enc isnone o ->
    dict_answers (fun k => dict_after k None h) o (fst (pad_step enc isnone (snd (pad_run enc isnone [] h)) o)).
  Proof.
    intros F Ho. pose proof (models_run h F) as Hm. set (l := snd (pad_run enc isnone [] h)) in *.
    assert (Hn : forall k v, dict_after k None h = Some v -> isnone v = false) by (intros k v; apply not_none; [exact F|discriminate]).
    destruct o as [k v ok|k|k|k| | |]; cbn [pad_step dict_answers fst].
    - destruct (Ho k v ok eq_refl) as [_ [b Hb]]. rewrite Hb.
      destruct (position (ktext k) (map fst l)) as [i|] eqn:E.
      + assert (Hin : In (ktext k) (map fst l)) by (apply position_iff; eauto). apply (models_in _ _ _ Hm) in Hin.
        destruct (dict_after (ktext k) None h); [|congruence]. destruct ok; reflexivity.
      + apply position_none in E. rewrite (models_in _ _ _ Hm) in E. destruct (dict_after (ktext k) None h); [|reflexivity].
        destruct E. discriminate.
    - rewrite (proj2 Hm). specialize (Hn (ktext k)). destruct (dict_after (ktext k) None h) as [v|]; cbn; [|reflexivity]. now rewrite Hn.
    - rewrite (proj2 Hm). specialize (Hn (ktext k)). destruct (dict_after (ktext k) None h) as [v|]; cbn; [|reflexivity]. now rewrite Hn.
    - rewrite (proj2 Hm). destruct (dict_after (ktext k) None h); reflexivity.
    - eexists. split; [reflexivity|]. split; [apply Hm|]. intro k. exact (models_in _ _ k Hm).
    - assert (E : forall r, incl r l -> exists l' : list (string * V), mapM (fun e => v <- look isnone (Some (snd e)) ;; Ok (fst e, v)) r = Ok l' /\
        map (fun e => (fst e, Some (snd e))) l' = r).
      { induction r as [|[k o] r IHr]; intro Hr; [now exists []|].
        destruct IHr as (l' & E1 & E2); [intros e He; apply Hr; now right|].
        assert (Hin : In (k, o) l) by (apply Hr; now left). apply value_of_spec in Hin; [|apply Hm]. rewrite (proj2 Hm) in Hin.
        specialize (Hn k). destruct (dict_after k None h) as [v|]; [|discriminate]. injection Hin as <-.
        exists ((k, v) :: l'). assert (L : look isnone (Some (Some v)) = Ok v) by (cbn; now rewrite Hn).
        cbn [mapM snd fst]. rewrite L. cbn [Py_Model.bind]. rewrite E1. split; [reflexivity|].
        cbn [map fst snd]. now rewrite E2. }
      destruct (E l (incl_refl _)) as (l' & E1 & E2). exists l'. rewrite E1. split; [reflexivity|].
      assert (Hf : map fst l' = map fst l) by (rewrite <- E2, map_map; apply map_ext; reflexivity).
      split; [rewrite Hf; apply Hm|]. intros k v. split.
      + intro Hin. assert (Hin' : In (k, Some v) l) by (rewrite <- E2; apply (in_map (fun e => (fst e, Some (snd e))) l' (k, v) Hin)).
        apply value_of_spec in Hin'; [|apply Hm]. rewrite (proj2 Hm) in Hin'. destruct (dict_after k None h); [now injection Hin' as ->|discriminate].
      + intro Hd. assert (Hin : In (k, Some v) l) by (apply value_of_spec; [apply Hm|]; now rewrite (proj2 Hm), Hd).
        rewrite <- E2 in Hin. apply in_map_iff in Hin. destruct Hin as ([k1 v1] & [= -> ->] & Hin). exact Hin.
    - rewrite (models_clear _ _ Hm). reflexivity.
  Qed.
End Dict.

Section Reached.
  Context {V : Type} (hash : bytes -> string) (K : string -> Prop) (P : string)
    (enc : V -> res bytes) (dec : bytes -> res V) (isnone : V -> bool).
  Variables (h : list (pvisit V)) (s0 s : store).
  Hypothesis Hr : preached hash K P enc dec isnone h s0 s.

  Lemma bounds : (Z.of_nat (S (List.length (pad_after enc isnone h))) < 256 ^ Z.of_nat 8)%Z.
  Proof.
    destruct (preached_rep _ _ _ _ _ _ _ _ _ Hr) as (HK & W & _ & c & R & Q & Hc). rewrite pow8. assert (0 <= c)%Z by apply Q.
    change (256 ^ 5)%Z with 1099511627776%Z in Hc. lia.
  Qed.

  Lemma next_visit v : plain_pvisit enc dec K v ->
    exists s', run (pvisit_prog hash enc dec isnone P v) s = (Some (Ok (fst (pad_step enc isnone (pad_after enc isnone h) (pv_op v)))), s') /\
      only_at (pad_names hash P) s s'.
  Proof.
    intro Hv. pose proof bounds as B. destruct (preached_rep _ _ _ _ _ _ _ _ _ Hr) as (HK & W & _ & c & R & Q & Hc).
    destruct (pvisit_rep hash K HK P (next s0) enc dec isnone _ s c v W R Q) as (s' & c' & E & _ & _ & _ & _ & _ & O'); auto; [lia|].
    exists s'. split; [exact E|]. eapply only_sub; [exact O'|]. intros a. apply pown_names.
  Qed.
  Lemma next_answer v : plain_pvisit enc dec K v -> Forall (ordinary enc isnone) (map pv_op h) -> ordinary enc isnone (pv_op v) ->
    exists x s', run (pvisit_prog hash enc dec isnone P v) s = (Some (Ok x), s') /\
      dict_answers (fun k => dict_after k None (map pv_op h)) (pv_op v) x.
  Proof.
    intros Hv F Fo. destruct (next_visit v Hv) as (s' & E & _). eexists _, s'. split; [exact E|]. now apply step_answers.
  Qed.

  (** *** get *)
  Lemma get_default k nl : pad_key K k ->
    run (let! p := notepad P false nl in np_get dec isnone p k) s =
    (Some (match value_of (ktext k) (pad_after enc isnone h) with
           | Some (Some v) => Ok (if isnone v then None else Some v)
           | _ => Exc FileNotFoundError
           end), s).
  Proof.
    intros [_ Hx]. destruct (preached_rep _ _ _ _ _ _ _ _ _ Hr) as (HK & W & _ & c & R & Q & Hc).
    rewrite (run_bind_ok _ _ _ _ _ (notepad_attach hash K P (next s0) enc dec _ s nl W R)). now apply (np_get_rep hash K P (next s0) enc dec).
  Qed.

  (** *** close *)
  Lemma close_clean nl fuel : fuel <> 0 -> Forall (fun e => snd e <> None) (pad_after enc isnone h) ->
    exists s', run (let! p := notepad P false nl in np_close hash fuel p) s = (Some (Ok tt), s') /\ 
      wf s' /\ vacant (pad_names hash P) s' /\ only_at (pad_names hash P) s0 s'.
  Proof.
    intros Hf F. pose proof bounds as B. pose proof Hr as (_ & _ & _ & W0 & Vc & _).
    destruct (preached_rep _ _ _ _ _ _ _ _ _ Hr) as (HK & W & O0 & c & R & Q & Hc).
    set (l := pad_after enc isnone h) in *.
    assert (Hd : NoDup (map fst l)) by (eapply rep_nodup, pr_rep; eauto).
    destruct (del_all_rep hash K HK P (next s0) enc dec isnone nl fuel (map fst l) Hf l s c W R Q (keys_pad hash K P _ enc dec l s R)) as (s1 & c1 & R1 & W1 & Rp1 & Q1 & _ & _ & O1);
      [lia|exact B|].
    rewrite (del_all_clean (map fst l) l) in R1, Rp1 by (auto; tauto). cbn [fst snd] in R1, Rp1.
    destruct (close_run hash K (pad_index P) (next s0) [] s1 c1 nl W1 (pr_rep _ _ _ _ _ _ _ _ Rp1) Q1) as (s2 & R2 & W2 & O2 & N2 & V2).
    exists s2. rewrite (run_bind_ok _ _ _ _ _ (notepad_attach hash K P (next s0) enc dec l s nl W R)). unfold np_close.
    rewrite (run_bind_ok _ _ _ _ _ (np_keys_rep hash K P (next s0) enc dec l s nl R)).
    rewrite (run_bind_ok _ _ _ _ _ R1). cbn [p_index]. rewrite R2. split; [reflexivity|]. split; [exact W2|]. split.
    - assert (Hi : forall a, index_names hash (pad_index P) a -> names s2 a = None).
      { intros a [->|[[i ->]|[[r ->]|Hl]]]; [exact N2| | |now apply V2].
        - rewrite (same_names s1 s2); [|apply O2; intros [X|X]; revert X; adn hash (pad_index P); tauto].
          apply (rep_nokey _ _ _ _ _ _ _ (pr_rep _ _ _ _ _ _ _ _ Rp1)). cbn. lia.
        - rewrite (same_names s1 s2); [|apply O2; intros [X|X]; revert X; adn hash (pad_index P); tauto].
          apply (rep_noname _ _ _ _ _ _ _ (pr_rep _ _ _ _ _ _ _ _ Rp1)). cbn. tauto. }
      intros a [Ha|(k & Hk & ->)]; [now apply Hi|].
      rewrite (same_names s1 s2); [exact (pr_slot _ _ _ _ _ _ _ _ Rp1 k Hk)|].
      apply O2. intros [X|X]; apply (index_pad_away hash P k Hk); rewrite X; [now left|right; right; right; now left].
    - eapply only_trans; [exact O0|]. apply only_trans with s1.
      + eapply only_sub; [exact O1|]. intros a. apply pown_names.
      + eapply only_sub; [exact O2|]. intros a [->| ->]; left; [now left|right; right; right; now left].
  Qed.
  (** A listed key without a value stops close. *)
  Lemma close_holed nl fuel : fuel <> 0 -> Exists (fun e => snd e = None) (pad_after enc isnone h) ->
    exists s' (l : list string), run (let! p := notepad P false nl in np_close hash fuel p) s = (Some (Exc KeyError), s') /\ l <> [] /\
      forall nl', run (let! p := notepad P false nl' in np_keys p) s' = (Some (Ok l), s').
  Proof.
    intros Hf F. pose proof bounds as B.
    destruct (preached_rep _ _ _ _ _ _ _ _ _ Hr) as (HK & W & O0 & c & R & Q & Hc).
    set (l := pad_after enc isnone h) in *.
    assert (Hd : NoDup (map fst l)) by (eapply rep_nodup, pr_rep; eauto).
    destruct (del_all_rep hash K HK P (next s0) enc dec isnone nl fuel (map fst l) Hf l s c W R Q (keys_pad hash K P _ enc dec l s R)) as (s1 & c1 & R1 & W1 & Rp1 & Q1 & _ & _ & O1);
      [lia|exact B|].
    assert (G : forall ks l0, NoDup (map fst l0) -> (forall e, In e l0 -> snd e = None -> In (fst e) ks) ->
      Exists (fun e : string * option V => snd e = None) l0 -> fst (del_all ks l0) = Exc KeyError /\ snd (del_all ks l0) <> []).
    { clear. induction ks as [|k ks IH]; intros l0 Hd Hin Hex.
      - apply Exists_exists in Hex. destruct Hex as (e & He & E). destruct (Hin e He E).
      - cbn [del_all]. destruct (value_of k l0) as [[v|]|] eqn:E.
        2, 3: split; [reflexivity|]; cbn [snd]; intros ->; inversion Hex.
        pose proof (value_in _ _ _ E) as Hk.
        assert (Hd1 : NoDup (map fst (swap_entry k l0))) by (rewrite swap_entry_keys; now apply swap_remove_nodup).
        apply IH; [exact Hd1| |].
        + intros [k' v'] He E'. cbn [snd fst] in *. subst. apply value_of_spec in He; [|exact Hd1].
          rewrite value_of_swap in He by auto. destruct (String.eqb_spec k k') as [->|Hne]; [discriminate|].
          apply value_of_spec in He; [|exact Hd]. destruct (Hin _ He eq_refl) as [X|X]; [cbn in X; congruence|exact X].
        + apply Exists_exists in Hex. destruct Hex as ([k' v'] & He & E'). cbn in E'. subst. apply Exists_exists. exists (k', None). split; [|reflexivity].
          apply value_of_spec; [exact Hd1|]. rewrite value_of_swap by auto. apply value_of_spec in He; [|exact Hd].
          destruct (String.eqb_spec k k') as [->|Hne]; [congruence|exact He]. }
    destruct (G (map fst l) l Hd) as [G1 G2]; [intros e He _; now apply in_map|exact F|]. rewrite G1 in R1.
    exists s1, (map fst (snd (del_all (map fst l) l))). split; [|split].
    - rewrite (run_bind_ok _ _ _ _ _ (notepad_attach hash K P (next s0) enc dec l s nl W R)). unfold np_close.
      rewrite (run_bind_ok _ _ _ _ _ (np_keys_rep hash K P (next s0) enc dec l s nl R)).
      now rewrite (run_bind_exc _ _ _ _ _ R1).
    - intro E. apply map_eq_nil in E. auto.
    - intro nl'. rewrite (run_bind_ok _ _ _ _ _ (notepad_attach hash K P (next s0) enc dec _ s1 nl' W1 Rp1)). now apply (np_keys_rep hash K P (next s0) enc dec).
  Qed.

  (** *** Failed assignments *)
  Lemma failed_existing k v ok nl fuel : fuel <> 0 -> pad_key K k -> In (ktext k) (map fst (pad_after enc isnone h)) ->
    (ok = false \/ exists e, enc v = Exc e) ->
    exists e s', run (let! p := notepad P false nl in np_set hash enc fuel p k v false ok) s = (Some (Exc e), s') /\
      only_at (lock_names (pad_index P)) s s'.
  Proof.
    intros Hf [Hk Hx] Hin Hv. destruct (preached_rep _ _ _ _ _ _ _ _ _ Hr) as (HK & W & O0 & c & R & Q & Hc).
    rewrite (run_bind_ok _ _ _ _ _ (notepad_attach hash K P (next s0) enc dec _ s nl W R)). unfold np_set. rewrite Hx, andb_false_r.
    cbn [p_index p_prefix]. apply position_in in Hin. destruct Hin as [i Hi].
    unfold tag_add. cbn [ix_no_lockout ix_name].
    destruct (lock_any hash (pad_index P) nl c s fuel (_add hash (mkIndex (pad_index P) {| hname := pad_index P; hid := next s0 |} nl) k ok) W Q ltac:(lia) Hf) as (s1 & W1 & O1 & Hl).
    assert (Rp1 : RepN hash K (pad_index P) (next s0) (List.length (map fst (pad_after enc isnone h))) (map fst (pad_after enc isnone h)) s1).
    { eapply rep_lock; [exact (pr_rep _ _ _ _ _ _ _ _ R)|exact O1]. }
    destruct (Hl _ s1 (add_old hash K HK (pad_index P) (next s0) _ s1 k ok nl i W1 Rp1 Hk Hi) W1 (only_refl _ _)) as (s3 & c3 & R3 & W3 & Q3 & _ & O3).
    assert (O : only_at (lock_names (pad_index P)) s s3) by (eapply only_trans; eauto).
    rewrite run_ptry, run_bind, R3. destruct ok.
    - destruct Hv as [?|[e He]]; [discriminate|]. rewrite (memorize_unencodable enc s3 v _ e W3 He).
      exists (as_key e), s3. split; [destruct e; reflexivity|exact O].
    - exists KeyError, s3. split; [reflexivity|exact O].
  Qed.
  (** A new key with a value that cannot be encoded. *)
  Lemma failed_new k v e ok nl fuel : fuel <> 0 -> pad_key K k -> ~ In (ktext k) (map fst (pad_after enc isnone h)) -> enc v = Exc e ->
    exists s', run (let! p := notepad P false nl in np_set hash enc fuel p k v false ok) s = (Some (Exc (as_key e)), s') /\
      (forall nl', run (let! p := notepad P false nl' in np_keys p) s' = (Some (Ok (map fst (pad_after enc isnone h) ++ [ktext k])), s')) /\
      (forall nl', run (let! p := notepad P false nl' in np_getitem dec isnone p k) s' = (Some (Exc FileNotFoundError), s')) /\
      (forall nl' f, run (let! p := notepad P false nl' in np_del hash f p k) s' = (Some (Exc KeyError), s')).
  Proof.
    intros Hf Hk Hin He. pose proof bounds as B. destruct (preached_rep _ _ _ _ _ _ _ _ _ Hr) as (HK & W & O0 & c & R & Q & Hc).
    destruct (np_set_rep hash K HK P (next s0) enc dec isnone _ s c k v ok nl fuel W R Q ltac:(lia) Hk ltac:(right; eauto) Hf B) as (r & s1 & c1 & R1 & Er & W1 & Rp1 & Q1 & _ & O1).
    cbn [pad_step] in Er, Rp1. apply position_none in Hin. rewrite Hin, He in Er, Rp1. cbn [fst snd] in Er, Rp1. injection Er as <-.
    apply position_none in Hin. exists s1. rewrite (run_bind_ok _ _ _ _ _ (notepad_attach hash K P (next s0) enc dec _ s nl W R)).
    assert (Hval : value_of (ktext k) (pad_after enc isnone h ++ [(ktext k, None)]) = Some None).
    { rewrite value_of_snoc. cbn [fst snd]. rewrite value_of_none by exact Hin. now rewrite String.eqb_refl. }
    split; [exact R1|]. split; [|split].
    - intro nl'. rewrite (run_bind_ok _ _ _ _ _ (notepad_attach hash K P (next s0) enc dec _ s1 nl' W1 Rp1)).
      rewrite (np_keys_rep hash K P (next s0) enc dec _ s1 nl' Rp1), map_app. reflexivity.
    - intro nl'. rewrite (run_bind_ok _ _ _ _ _ (notepad_attach hash K P (next s0) enc dec _ s1 nl' W1 Rp1)).
      rewrite (np_getitem_rep hash K P (next s0) enc dec isnone _ s1 k nl' Rp1 (proj2 Hk)), Hval. reflexivity.
    - intros nl' f. rewrite (run_bind_ok _ _ _ _ _ (notepad_attach hash K P (next s0) enc dec _ s1 nl' W1 Rp1)).
      unfold np_del. rewrite (reserved_starts k) by apply Hk. cbn [p_prefix].
      pose proof (pr_slot _ _ _ _ _ _ _ _ Rp1 (ktext k) (proj2 Hk)) as Sk. unfold held in Sk. rewrite Hval in Sk. cbn [slot] in Sk.
      rewrite run_ptry, (run_bind_exc _ _ _ _ _ (delete_missing s1 _ false Sk)). reflexivity.
  Qed.
End Reached.

(** ** Independence *)
Lemma pad_names_under hash P a : pad_names hash P a -> exists t, a = (P ++ "_" ++ t)%string.
Proof.
  assert (G : forall t, exists u, (pad_index P ++ t)%string = (P ++ "_" ++ u)%string).
  { intro t. exists ("index" ++ t)%string. unfold pad_index. now rewrite append_assoc. }
  intros [[->|[[i ->]|[[r ->]|[->|[[n ->]|[n ->]]]]]]|(k & _ & ->)]; try apply G; [|eexists; reflexivity].
  exists "index". reflexivity.
Qed.
Lemma split_cases a : forall b x y, (a ++ x)%string = (b ++ y)%string ->
  (exists t, b = (a ++ t)%string /\ x = (t ++ y)%string) \/ (exists t, a = (b ++ t)%string /\ y = (t ++ x)%string).
Proof.
  induction a as [|c a IH]; intros b x y E.
  - left. exists b. auto.
  - destruct b as [|d b].
    + right. exists (String c a). auto.
    + cbn in E. injection E as <- E. destruct (IH b x y E) as [(t & -> & ->)|(t & -> & ->)]; [left|right]; exists t; auto.
Qed.
Lemma apart_names hash P Q a : apart P Q -> pad_names hash P a -> pad_names hash Q a -> False.
Proof.
  intros (Hne & H1 & H2) HP HQ. apply pad_names_under in HP, HQ. destruct HP as [t ->]. destruct HQ as [u E].
  destruct (split_cases P Q _ _ E) as [(w & -> & E')|(w & -> & E')].
  - destruct w as [|c w]; [now rewrite append_nil_r in Hne|]. cbn in E'. injection E' as <- E'. now apply (H1 w).
  - destruct w as [|c w]; [now rewrite append_nil_r in Hne|]. cbn in E'. injection E' as <- E'. now apply (H2 w).
Qed.
Lemma prep_same {V} hash K P m (enc : V -> res bytes) dec l s s' : PRep hash K P m enc dec l s ->
  (forall a, pad_names hash P a -> same_at s s' a) -> PRep hash K P m enc dec l s'.
Proof.
  intros [R Sl Pl] Hs. constructor; [| |exact Pl].
  - eapply rep_same; [exact R|]. intros a Ha. apply Hs. left. apply (proj1 (own_index hash _ a)). now left.
  - intros k Hk. eapply slot_same; [now apply Sl|]. apply Hs. right. eauto.
Qed.

Lemma mixed_rep {V} hash K P Q (enc : V -> res bytes) dec isnone mp mq h : collision_free hash K -> apart P Q ->
  Forall (fun x => plain_pvisit enc dec K (snd x)) h -> forall lp lq s cp cq, wf s ->
  PRep hash K P mp enc dec lp s -> PRep hash K Q mq enc dec lq s -> quiet (pad_index P) cp s -> quiet (pad_index Q) cq s ->
  (cp + Z.of_nat (List.length lp) + 2 * Z.of_nat (List.length h) < 256 ^ 5)%Z ->
  (cq + Z.of_nat (List.length lq) + 2 * Z.of_nat (List.length h) < 256 ^ 5)%Z ->
  exists r s', run (mixed_prog hash enc dec isnone P Q h) s = (Some (Ok r), s') /\
    side true r = fst (pad_run enc isnone lp (map pv_op (side true h))) /\
    side false r = fst (pad_run enc isnone lq (map pv_op (side false h))).
Proof.
  intros HK Hap F. induction F as [|[b v] h Hv F IH]; intros lp lq s cp cq W RP RQ QP QQ Bp Bq.
  - exists [], s. cbn. auto.
  - cbn [List.length snd] in *. assert (0 <= cp)%Z by apply QP. assert (0 <= cq)%Z by apply QQ.
    change (256 ^ 5)%Z with 1099511627776%Z in Bp, Bq.
    assert (Hoth : forall (A B : string) s s' c, (forall a, pad_names hash A a -> pad_names hash B a -> False) ->
        only_at (pown hash A) s s' -> quiet (pad_index B) c s -> quiet (pad_index B) c s').
    { intros A B s1 s2 c Hdis O Qu. eapply quiet_same; [exact Qu|]. intros a Ha. apply O. intro X.
      apply (Hdis a); [now apply (proj1 (pown_names hash A a))|]. left. right. right. now right. }
    assert (Hoth' : forall (A B : string) s s' m l, (forall a, pad_names hash A a -> pad_names hash B a -> False) ->
        only_at (pown hash A) s s' -> PRep hash K B m enc dec l s -> PRep hash K B m enc dec l s').
    { intros A B s1 s2 m l Hdis O Rp. eapply prep_same; [exact Rp|]. intros a Ha. apply O. intro X.
      apply (Hdis a); [now apply (proj1 (pown_names hash A a))|exact Ha]. }
    assert (D1 : forall a, pad_names hash P a -> pad_names hash Q a -> False) by (intro a; now apply apart_names).
    assert (D2 : forall a, pad_names hash Q a -> pad_names hash P a -> False) by (intros a X Y; eauto).
    destruct b; cbn [mixed_prog].
    + destruct (pvisit_rep hash K HK P mp enc dec isnone lp s cp v W RP QP) as (s1 & c1 & R1 & W1 & Rp1 & Q1 & Hc1 & Hl1 & O1);
        [change (256 ^ 5)%Z with 1099511627776%Z; lia|exact Hv|rewrite pow8; lia|].
      destruct (IH (snd (pad_step enc isnone lp (pv_op v))) lq s1 c1 cq W1 Rp1 (Hoth' P Q s s1 _ _ D1 O1 RQ) Q1 (Hoth P Q s s1 _ D1 O1 QQ)) as (r & s2 & R2 & S1 & S2);
        [change (256 ^ 5)%Z with 1099511627776%Z; lia|change (256 ^ 5)%Z with 1099511627776%Z; lia|].
      exists ((true, fst (pad_step enc isnone lp (pv_op v))) :: r), s2.
      rewrite (run_bind_ok _ _ _ _ _ R1), (run_bind_ok _ _ _ _ _ R2). split; [reflexivity|].
      unfold side in *. cbn [filter fst Bool.eqb map snd pad_run]. rewrite S1, S2.
      destruct (pad_step enc isnone lp (pv_op v)) as [x l1]. cbn [fst snd]. destruct (pad_run enc isnone l1 _). auto.
    + destruct (pvisit_rep hash K HK Q mq enc dec isnone lq s cq v W RQ QQ) as (s1 & c1 & R1 & W1 & Rp1 & Q1 & Hc1 & Hl1 & O1);
        [change (256 ^ 5)%Z with 1099511627776%Z; lia|exact Hv|rewrite pow8; lia|].
      destruct (IH lp (snd (pad_step enc isnone lq (pv_op v))) s1 cp c1 W1 (Hoth' Q P s s1 _ _ D2 O1 RP) Rp1 (Hoth Q P s s1 _ D2 O1 QP) Q1) as (r & s2 & R2 & S1 & S2);
        [change (256 ^ 5)%Z with 1099511627776%Z; lia|change (256 ^ 5)%Z with 1099511627776%Z; lia|].
      exists ((false, fst (pad_step enc isnone lq (pv_op v))) :: r), s2.
      rewrite (run_bind_ok _ _ _ _ _ R1), (run_bind_ok _ _ _ _ _ R2). split; [reflexivity|].
      unfold side in *. cbn [filter fst Bool.eqb map snd pad_run]. rewrite S1, S2.
      destruct (pad_step enc isnone lq (pv_op v)) as [x l1]. cbn [fst snd]. destruct (pad_run enc isnone l1 _). auto.
Qed.
Lemma mixed_history {V} hash K P Q (enc : V -> res bytes) dec isnone s np nq h : collision_free hash K -> apart P Q -> wf s ->
  vacant (pad_names hash P) s -> vacant (pad_names hash Q) s -> Forall (fun x => plain_pvisit enc dec K (snd x)) h ->
  (2 * Z.of_nat (List.length h) < 256 ^ 5)%Z ->
  exists r s', run (notepad P true np >>> notepad Q true nq >>> mixed_prog hash enc dec isnone P Q h) s = (Some (Ok r), s') /\
    side true r = fst (pad_run enc isnone [] (map pv_op (side true h))) /\
    side false r = fst (pad_run enc isnone [] (map pv_op (side false h))).
Proof.
  intros HK Hap W VP VQ F L. destruct (prep_create hash K P enc dec s np W VP) as (s1 & R1 & W1 & Rp1 & Q1 & O1).
  assert (In1 : pad_names hash P (pad_index P)) by (left; now left).
  assert (In2 : pad_names hash Q (pad_index Q)) by (left; now left).
  destruct (prep_create hash K Q enc dec s1 nq W1) as (s2 & R2 & W2 & Rp2 & Q2 & O2).
  { intros a Ha. rewrite (same_names s s1); [now apply VQ|]. apply O1. intros <-. eapply apart_names; eauto. }
  rewrite (run_bind_ok _ _ _ _ _ R1), (run_bind_ok _ _ _ _ _ R2).
  eapply mixed_rep; eauto.
  - eapply prep_same; [exact Rp1|]. intros a Ha. apply O2. intros <-. eapply apart_names; eauto.
  - eapply quiet_same; [exact Q1|]. intros a Ha. apply O2. intros <-.
    apply (apart_names hash P Q (pad_index Q) Hap); [left; right; right; right; exact Ha|exact In2].
  - cbn [List.length]. lia.
Qed.
(** Otherwise addresses coincide. *)
Lemma address_clash P t k : pad_address (P ++ "_" ++ t) k = pad_address P (t ++ "_" ++ k).
Proof. unfold pad_address. now rewrite !append_assoc. Qed.

(** Everything in the Notepad with the longer prefix is read through the
    shorter one. *)
Lemma prefix_seen {V} hash K P t (enc : V -> res bytes) dec isnone h s0 s :
  preached hash K (P ++ "_" ++ t) enc dec isnone h s0 s ->
  forall k x, pad_key K (skey k) ->
  run (np_getitem dec isnone (mkPad P x) (skey (t ++ "_" ++ k))) s =
  (Some (look isnone (value_of k (pad_after enc isnone h))), s).
Proof.
  intros Hr k x [_ Hx]. destruct (preached_rep _ _ _ _ _ _ _ _ _ Hr) as (_ & _ & _ & c & R & _).
  pose proof (np_getitem_rep hash K _ (next s0) enc dec isnone _ s (skey k) true R Hx) as E.
  unfold np_getitem in *. cbn [p_prefix ktext skey] in *. now rewrite <- address_clash.
Qed.
