(** Proofs about rmerge, insert_after, NestingDict, get_from, separate_by,
    HashDict and the small mapping helpers. *)
From Coq Require Import Permutation.
From Verif Require Export Struct_Proofs.

(** ** rmerge *)

Lemma dset_same {V} (d : dict V) k v : dget d k = Some v -> dset d k v = d.
Proof.
  induction d as [|[a b] r IH]; simpl; [discriminate|].
  destruct (keqb a k); [intros [= ->]; reflexivity|]. intro H. rewrite IH; auto.
Qed.

Lemma dupdate_agree {V} (B : dict V) : forall A : dict V,
  wfd B = true ->
  (forall k v w, In (k, v) B -> dget A k = Some w -> v = w) ->
  dupdate A B = A ++ filter (fun kv => negb (dhas A (fst kv))) B.
Proof.
  unfold dupdate. induction B as [|[k v] r IH]; intros A Hw H; cbn [fold_left filter fst snd].
  - rewrite app_nil_r; reflexivity.
  - apply wfd_cons in Hw. destruct Hw as [Hk Hw].
    destruct (dget A k) as [w|] eqn:E.
    + assert (v = w) by (eapply H; [left; reflexivity|exact E]). subst w.
      rewrite dset_same by assumption. rewrite IH; [|assumption|].
      * unfold dhas at 2. rewrite E. reflexivity.
      * intros; eapply H; [right; eassumption|assumption].
    + rewrite dset_notin by assumption. rewrite IH; [|assumption|].
      * unfold dhas at 2. rewrite E. cbn [negb]. rewrite <- app_assoc. cbn [app]. f_equal. f_equal.
        apply filter_ext_in. intros [k' v'] Hin. cbn [fst]. f_equal.
        unfold dhas. rewrite dget_app. destruct (dget A k'); [reflexivity|]. cbn [dget].
        destruct (keqb k k') eqn:E'; [|reflexivity].
        rewrite dget_none_iff in Hk. specialize (Hk _ _ Hin). rewrite keqb_sym in Hk. congruence.
      * intros k' v' w Hin. rewrite dget_app. destruct (dget A k') eqn:E'.
        -- intros [= <-]. eapply H; [right; eassumption|assumption].
        -- cbn [dget]. destruct (keqb k k') eqn:E2; [|discriminate].
           rewrite dget_none_iff in Hk. specialize (Hk _ _ Hin). rewrite keqb_sym in Hk. congruence.
Qed.

Definition merge_val (mt : cls -> bool) (d1 d2 : dict val) (kv : key * val) : val :=
  match dget d1 (fst kv), dget d2 (fst kv) with
  | Some a, Some b => if isinst mt a && isinst mt b then merged is_dict_cls a b else b
  | _, _ => snd kv
  end.

Lemma rmerge_ok fuel : forall d1 d2 mt,
  wfv (VDict CDict d1) = true -> wfv (VDict CDict d2) = true ->
  depth (VDict CDict d1) <= fuel ->
  rmerge fuel d1 d2 mt = Ok (merged_with mt d1 d2).
Proof.
  induction fuel as [|fuel IH]; intros d1 d2 mt W1 W2 Hd; [cbn in Hd; lia|].
  apply wfv_dict in W1. apply wfv_dict in W2. destruct W1 as [W1 V1]. destruct W2 as [W2 V2].
  cbn [rmerge].
  rewrite (foldM_ok _ (fun out kv => dset out (fst kv) (merge_val mt d1 d2 kv))).
  2:{ intros out [k v] Hin. unfold merge_val. cbn [fst snd].
      destruct (dget d1 k) as [a|] eqn:E1; destruct (dget d2 k) as [b|] eqn:E2;
      unfold dhas; rewrite E1, E2; cbn [xorb]; try reflexivity.
      - destruct (isinst mt a && isinst mt b) eqn:E; [|reflexivity].
        apply andb_true_iff in E. destruct E as [Ea Eb].
        destruct (isinst_dict _ _ Ea) as (ca & da & -> & _).
        destruct (isinst_dict _ _ Eb) as (cb & db & -> & _). cbn [entries].
        destruct (dget_In _ _ _ E1) as (k1 & Hin1 & _). destruct (dget_In _ _ _ E2) as (k2 & Hin2 & _).
        rewrite IH.
        + cbn [bind]. reflexivity.
        + apply (V1 _ _ Hin1).
        + apply (V2 _ _ Hin2).
        + pose proof (depth_In CDict d1 _ _ Hin1) as Hlt. cbn [depth] in *. lia.
      - exfalso. apply in_app_or in Hin. destruct Hin as [Hin|Hin].
        + rewrite (wfd_In_dget _ _ _ W1 Hin) in E1. discriminate.
        + rewrite (wfd_In_dget _ _ _ W2 Hin) in E2. discriminate. }
  f_equal.
  set (g := merge_val mt d1 d2).
  replace (fold_left (fun out kv => dset out (fst kv) (g kv)) (d1 ++ d2) [])
    with (dupdate (map (fun kv => (fst kv, g kv)) d1) (map (fun kv => (fst kv, g kv)) d2)).
  2:{ rewrite fold_left_app.
      assert (G : forall l acc, fold_left (fun out kv => dset out (fst kv) (g kv)) l acc
                = dupdate acc (map (fun kv => (fst kv, g kv)) l)).
      { induction l as [|x l IHl]; intro acc; cbn; [reflexivity|]. apply IHl. }
      rewrite !G. f_equal. symmetry. apply dict_of_wfd. rewrite wfd_map_vals. exact W1. }
  assert (Hg1 : forall k v, In (k, v) d1 -> g (k, v) =
     match dget d2 k with None => v | Some w => if isinst mt v && isinst mt w then merged is_dict_cls v w else w end).
  { intros k v Hin. unfold g, merge_val. cbn [fst snd]. rewrite (wfd_In_dget _ _ _ W1 Hin). reflexivity. }
  rewrite dupdate_agree.
  - unfold merged_with. f_equal.
    + apply map_ext_in. intros [k v] Hin. cbn [fst snd]. f_equal. apply Hg1, Hin.
    + assert (Hg2 : forall k v, In (k, v) d2 -> dget d1 k = None -> g (k, v) = v).
      { intros k v _ E. unfold g, merge_val. cbn [fst snd]. rewrite E. reflexivity. }
      clear -Hg2. clearbody g. induction d2 as [|[k v] r IHr]; [reflexivity|]. cbn [map filter fst snd].
      rewrite dhas_map_vals. destruct (dhas d1 k) eqn:E; cbn [negb].
      * apply IHr. intros; apply Hg2; [right; assumption|assumption].
      * rewrite Hg2; [|left; reflexivity|apply dhas_false; exact E]. f_equal.
        apply IHr. intros; apply Hg2; [right; assumption|assumption].
  - rewrite wfd_map_vals. exact W2.
  - intros k v w Hin Hget. apply in_map_iff in Hin. destruct Hin as [[k2 v2] [[= <- <-] Hin]].
    cbn [fst snd] in *. destruct (dget_In _ _ _ Hget) as (k1 & Hin1 & He).
    apply in_map_iff in Hin1. destruct Hin1 as [[k1' v1] [[= <- <-] Hin1]]. cbn [fst snd] in *.
    unfold g, merge_val. cbn [fst snd]. rewrite (dget_keqb d1 _ _ He), (dget_keqb d2 _ _ He).
    rewrite <- (dget_keqb d1 _ _ He). rewrite (wfd_In_dget _ _ _ W1 Hin1).
    rewrite (wfd_In_dget _ _ _ W2 Hin). reflexivity.
Qed.

Lemma merged_with_merged c1 c2 d1 d2 :
  VDict CDict (merged_with is_dict_cls d1 d2) = merged is_dict_cls (VDict c1 d1) (VDict c2 d2).
Proof. reflexivity. Qed.

Lemma dget_merged_with mt d1 d2 k :
  wfd d1 = true ->
  dget (merged_with mt d1 d2) k =
  match dget d1 k, dget d2 k with
  | Some a, Some b => Some (if isinst mt a && isinst mt b then merged is_dict_cls a b else b)
  | Some a, None => Some a
  | None, o => o
  end.
Proof.
  intro W1. unfold merged_with. rewrite dget_app.
  replace (dget (map _ d1) k) with
    (option_map (fun v => match dget d2 k with None => v | Some w => if isinst mt v && isinst mt w then merged is_dict_cls v w else w end) (dget d1 k)).
  - destruct (dget d1 k) as [a|] eqn:E1; cbn [option_map].
    + destruct (dget d2 k); reflexivity.
    + clear W1. induction d2 as [|[k2 v2] r IH]; [reflexivity|]. cbn [filter fst dget].
      destruct (keqb k2 k) eqn:E.
      * unfold dhas. rewrite (dget_keqb d1 _ _ E), E1. cbn [negb dget]. rewrite E. reflexivity.
      * destruct (negb (dhas d1 k2)); cbn [dget]; [rewrite E|]; exact IH.
  - symmetry. rewrite (dget_map_vals (fun kv => match dget d2 (fst kv) with None => snd kv | Some w => if isinst mt (snd kv) && isinst mt w then merged is_dict_cls (snd kv) w else w end)).
    + destruct (dget d1 k); reflexivity.
    + intros a b v Hab. cbn [fst snd]. rewrite (dget_keqb d2 _ _ Hab). reflexivity.
Qed.

Lemma wfd_filter_notin {V} (d1 : dict V) (A : dict V) d2 :
  (forall k, dhas A k = dhas d1 k) -> wfd A = true -> wfd d2 = true ->
  wfd (A ++ filter (fun kv => negb (dhas d1 (fst kv))) d2) = true.
Proof.
  intros HA WA W2. apply wfd_app. split; [assumption|]. split; [apply wfd_filter; assumption|].
  intros k v Hin. apply dget_none_iff. intros k' v' Hin'. apply filter_In in Hin'. destruct Hin' as [Hin' Hn].
  cbn [fst] in Hn. apply negb_true_iff in Hn. rewrite <- HA in Hn.
  destruct (keqb k' k) eqn:E; [|reflexivity]. rewrite (dhas_keqb A _ _ E) in Hn.
  unfold dhas in Hn. rewrite (wfd_In_dget _ _ _ WA Hin) in Hn. discriminate.
Qed.

Lemma wfd_merged_with mt d1 d2 :
  wfd d1 = true -> wfd d2 = true -> wfd (merged_with mt d1 d2) = true.
Proof.
  intros W1 W2. unfold merged_with. apply wfd_filter_notin; [|rewrite wfd_map_vals; assumption|assumption].
  intro k. apply dhas_map_vals.
Qed.

Lemma merged_nil_r c d : plain (VDict c d) = true -> merged is_dict_cls (VDict c d) (VDict CDict []) = VDict c d.
Proof.
  cbn [merged plain filter]. rewrite andb_true_iff. intros [Hc _]. destruct c; try discriminate.
  f_equal. rewrite app_nil_r. cbn [dget]. induction d as [|[k v] r IH]; cbn; congruence.
Qed.
Lemma merged_nil_l c d : plain (VDict c d) = true -> merged is_dict_cls (VDict CDict []) (VDict c d) = VDict c d.
Proof.
  cbn [merged plain map app]. rewrite andb_true_iff. intros [Hc _]. destruct c; try discriminate.
  f_equal. induction d as [|[k v] r IH]; [reflexivity|]. cbn [filter dhas dget fst negb]. f_equal. exact IH.
Qed.
Lemma merged_idem a : plain a = true -> wfv a = true -> is_mapping a = true -> merged is_dict_cls a a = a.
Proof.
  induction a as [k|l _|l _|c d IH] using val_ind'; intros Hp Hw Hm; try discriminate.
  cbn [merged plain] in *. apply andb_true_iff in Hp. destruct Hp as [Hc Hp]. destruct c; try discriminate.
  apply wfv_dict in Hw. destruct Hw as [Hw Hv]. f_equal.
  rewrite forallb_forall in Hp. rewrite Forall_forall in IH.
  transitivity (d ++ []); [|apply app_nil_r]. f_equal.
  - rewrite <- (map_id d) at 2. apply map_ext_in. intros [k v] Hin. cbn [fst snd]. f_equal.
    rewrite (wfd_In_dget _ _ _ Hw Hin). destruct (isinst is_dict_cls v) eqn:E; [|reflexivity].
    cbn [andb]. apply (IH _ Hin); [apply (Hp _ Hin)|apply (Hv _ _ Hin)|]. 
    destruct (isinst_dict _ _ E) as (?&?&->&_). reflexivity.
  - assert (G : forall l, incl l d -> filter (fun kv => negb (dhas d (fst kv))) l = []).
    { induction l as [|[k v] l IHl]; intro Hi; [reflexivity|]. cbn [filter fst].
      unfold dhas at 1. rewrite (wfd_In_dget _ _ _ Hw (Hi (k, v) (or_introl eq_refl))). cbn [negb].
      apply IHl. intros x Hx. apply Hi. right. exact Hx. }
    apply G. apply incl_refl.
Qed.

(** Associativity. *)
Lemma isinst_merged deep a b :
  isinst is_dict_cls a = true -> isinst is_dict_cls b = true -> isinst is_dict_cls (merged deep a b) = true.
Proof.
  intros Ha Hb. destruct (isinst_dict _ _ Ha) as (?&?&->&_). destruct (isinst_dict _ _ Hb) as (?&?&->&_). reflexivity.
Qed.

Lemma compatible_isinst a b :
  compatible a b = true -> isinst is_dict_cls a = isinst is_dict_cls b.
Proof.
  destruct a; destruct b; cbn [compatible isinst]; try reflexivity;
  rewrite ?negb_true_iff; auto.
  rewrite andb_true_iff. intros [H _]. apply Bool.eqb_prop in H. exact H.
Qed.

Lemma merged_assoc a : forall b c,
  wfv a = true -> wfv b = true -> wfv c = true ->
  is_mapping a = true -> is_mapping b = true -> is_mapping c = true ->
  compatible a b = true -> compatible b c = true -> compatible a c = true ->
  merged is_dict_cls (merged is_dict_cls a b) c = merged is_dict_cls a (merged is_dict_cls b c).
Proof.
  induction a as [k|l _|l _|c1 d1 IH] using val_ind'; intros b c Wa Wb Wc Ma Mb Mc Cab Cbc Cac; try discriminate.
  destruct b as [|?|?|c2 d2]; try discriminate. destruct c as [|?|?|c3 d3]; try discriminate.
  apply wfv_dict in Wa. apply wfv_dict in Wb. apply wfv_dict in Wc.
  destruct Wa as [W1 V1]. destruct Wb as [W2 V2]. destruct Wc as [W3 V3].
  cbn [compatible] in Cab, Cbc, Cac. apply andb_true_iff in Cab, Cbc, Cac.
  destruct Cab as [_ Cab]. destruct Cbc as [_ Cbc]. destruct Cac as [_ Cac].
  rewrite forallb_forall in Cab, Cbc, Cac. rewrite Forall_forall in IH.
  change (merged is_dict_cls (VDict c1 d1) (VDict c2 d2)) with (VDict CDict (merged_with is_dict_cls d1 d2)).
  change (merged is_dict_cls (VDict c2 d2) (VDict c3 d3)) with (VDict CDict (merged_with is_dict_cls d2 d3)).
  change (VDict CDict (merged_with is_dict_cls (merged_with is_dict_cls d1 d2) d3) =
          VDict CDict (merged_with is_dict_cls d1 (merged_with is_dict_cls d2 d3))). f_equal.
  unfold merged_with at 1. unfold merged_with at 3.
  assert (Hh : forall k, dhas (merged_with is_dict_cls d1 d2) k = dhas d1 k || dhas d2 k).
  { intro k. unfold dhas. rewrite dget_merged_with by assumption. destruct (dget d1 k), (dget d2 k); reflexivity. }
  unfold merged_with at 1. rewrite map_app, <- app_assoc. f_equal; [|].
  - rewrite map_map. apply map_ext_in. intros [k v] Hin. cbn [fst snd]. f_equal.
    rewrite dget_merged_with by assumption.
    pose proof (Cab _ Hin) as Cab'. pose proof (Cac _ Hin) as Cac'. cbn [fst snd] in Cab', Cac'.
    destruct (dget d2 k) as [b|] eqn:E2; destruct (dget d3 k) as [c|] eqn:E3; try reflexivity.
    destruct (dget_In _ _ _ E2) as (k2 & Hin2 & He2). destruct (dget_In _ _ _ E3) as (k3 & Hin3 & He3).
    pose proof (Cbc _ Hin2) as Cbc'. cbn [fst snd] in Cbc'. rewrite (dget_keqb d3 _ _ He2), E3 in Cbc'.
    pose proof (compatible_isinst _ _ Cab') as Iab. pose proof (compatible_isinst _ _ Cac') as Iac.
    pose proof (compatible_isinst _ _ Cbc') as Ibc. rewrite <- Iab, <- Iac. 
    destruct (isinst is_dict_cls v) eqn:Iv; cbn [andb].
    + rewrite isinst_merged by congruence. cbn [andb]. rewrite isinst_merged by congruence. 
      destruct (isinst_dict _ _ Iv) as (?&?&->&_).
      assert (is_mapping b = true) by (symmetry in Iab; destruct (isinst_dict _ _ Iab) as (?&?&->&_); reflexivity).
      assert (is_mapping c = true) by (symmetry in Iac; destruct (isinst_dict _ _ Iac) as (?&?&->&_); reflexivity).
      apply (IH _ Hin); cbn [snd]; eauto.
    + rewrite <- Iab. cbn [andb]. reflexivity.
  - unfold merged_with. rewrite filter_app'. f_equal.
    + (* keys of d2 not in d1 *)
      clear -W2. induction d2 as [|[k v] r IHr]; [reflexivity|]. cbn [filter map fst snd].
      apply wfd_cons in W2. destruct W2 as [_ W2].
      destruct (dhas d1 k); cbn [negb map fst snd]; [apply IHr, W2|]. f_equal. apply IHr, W2.
    + assert (G : forall l, filter (fun kv : key * val => negb (dhas (map (fun kv0 : key * val => (fst kv0, match dget d2 (fst kv0) with
            | Some w => if isinst is_dict_cls (snd kv0) && isinst is_dict_cls w then merged is_dict_cls (snd kv0) w else w
            | None => snd kv0 end)) d1 ++ filter (fun kv0 => negb (dhas d1 (fst kv0))) d2) (fst kv))) l =
         filter (fun kv => negb (dhas d1 (fst kv))) (filter (fun kv => negb (dhas d2 (fst kv))) l)).
      { induction l as [|[k v] l IHl]; [reflexivity|]. cbn [filter fst].
        fold (merged_with is_dict_cls d1 d2) in *. rewrite Hh.
        destruct (dhas d1 k) eqn:E1; destruct (dhas d2 k) eqn:E2; cbn [orb negb filter fst]; rewrite ?E1; cbn [negb]; rewrite IHl; reflexivity. }
      apply G.
Qed.

(** ** insert_after *)

Section InsertAfter.
  Context {V : Type}.
  Implicit Types (d : dict V).
  Definition ia_step (nk : key) (nv : V) (pk : key) (acc : dict V) (kv : key * V) : dict V :=
    let '(k, v) := kv in
    let nd := dset acc k v in if keqb k pk then dset nd nk nv else nd.

  Lemma ia_no_prior nk nv pk l : forall acc : dict V,
    (forall k v, In (k, v) l -> keqb k pk = false) ->
    fold_left (ia_step nk nv pk) l acc = dupdate acc l.
  Proof.
    induction l as [|[k v] r IH]; intros acc H; [reflexivity|]. cbn [fold_left ia_step].
    rewrite (H k v) by (left; reflexivity). rewrite IH; [reflexivity|]. intros; eapply H; right; eauto.
  Qed.

  Lemma insert_after_absent nk nv pk d :
    wfd d = true -> dget d pk = None -> insert_after nk nv pk d = d.
  Proof.
    intros Hw H. unfold insert_after. change (fold_left (ia_step nk nv pk) d [] = d).
    rewrite ia_no_prior by (apply dget_none_iff; exact H). apply dict_of_wfd, Hw.
  Qed.

  Lemma wfd_split d1 k v d2 :
    wfd (d1 ++ (k, v) :: d2) = true ->
    wfd d1 = true /\ dget d1 k = None /\ dget d2 k = None /\ wfd d2 = true /\ wfd (d1 ++ d2) = true /\
    (forall k' v', In (k', v') d1 -> keqb k' k = false) /\ (forall k' v', In (k', v') d2 -> keqb k' k = false).
  Proof.
    intro H. pose proof H as H0. apply wfd_app in H. destruct H as (H1 & H2 & H3). apply wfd_cons in H2. destruct H2 as [H2 H4].
    assert (Hd1 : dget d1 k = None).
    { apply dget_none_iff. intros k' v' Hin. specialize (H3 _ _ Hin). cbn in H3. destruct (keqb k k') eqn:E; [discriminate|].
      rewrite keqb_sym; exact E. }
    repeat split; auto.
    - apply wfd_app. repeat split; auto. intros k' v' Hin. specialize (H3 _ _ Hin). cbn in H3. destruct (keqb k k'); [discriminate|exact H3].
    - apply dget_none_iff; assumption.
    - apply dget_none_iff; assumption.
  Qed.

  Lemma ia_prior nk nv pk k v d1 d2 :
    keqb k pk = true -> wfd (d1 ++ (k, v) :: d2) = true ->
    insert_after nk nv pk (d1 ++ (k, v) :: d2) =
    dupdate (dset (d1 ++ [(k, v)]) nk nv) d2.
  Proof.
    intros Hk Hw. destruct (wfd_split _ _ _ _ Hw) as (W1 & N1 & N2 & W2 & W12 & A1 & A2).
    unfold insert_after. change (fold_left (ia_step nk nv pk) (d1 ++ (k, v) :: d2) [] = dupdate (dset (d1 ++ [(k, v)]) nk nv) d2).
    rewrite fold_left_app. cbn [fold_left].
    rewrite (ia_no_prior nk nv pk d1).
    2:{ intros k' v' Hin. destruct (keqb k' pk) eqn:E; [|reflexivity]. 
        rewrite keqb_sym in Hk. specialize (A1 _ _ Hin). rewrite (keqb_trans _ _ _ E Hk) in A1. discriminate. }
    change (dupdate [] d1) with (dict_of d1). rewrite dict_of_wfd by assumption.
    cbn [ia_step]. rewrite Hk. rewrite (dset_notin d1 k v N1).
    apply ia_no_prior. intros k' v' Hin. destruct (keqb k' pk) eqn:E; [|reflexivity].
    rewrite keqb_sym in Hk. specialize (A2 _ _ Hin). rewrite (keqb_trans _ _ _ E Hk) in A2. discriminate.
  Qed.

  Lemma insert_after_new nk nv pk k v d1 d2 :
    keqb k pk = true -> wfd (d1 ++ (k, v) :: d2) = true -> dget (d1 ++ (k, v) :: d2) nk = None ->
    insert_after nk nv pk (d1 ++ (k, v) :: d2) = d1 ++ (k, v) :: (nk, nv) :: d2.
  Proof.
    intros Hk Hw Hn. rewrite ia_prior by assumption.
    assert (Hn1 : dget (d1 ++ [(k, v)]) nk = None).
    { rewrite dget_app in *. cbn [dget] in *. destruct (dget d1 nk); [discriminate|]. destruct (keqb k nk); [discriminate|reflexivity]. }
    rewrite dset_notin by assumption. rewrite <- !app_assoc. cbn [app].
    assert (Hn2 : dget d2 nk = None).
    { rewrite dget_app in Hn. destruct (dget d1 nk); [discriminate|]. cbn in Hn. destruct (keqb k nk); [discriminate|exact Hn]. }
    rewrite dupdate_app_fresh.
    - rewrite <- app_assoc. reflexivity.
    - destruct (wfd_split _ _ _ _ Hw) as (W1 & N1 & N2 & W2 & W12 & A1 & A2).
      rewrite <- app_assoc. cbn [app]. apply wfd_app. apply wfd_app in W12. destruct W12 as (_ & _ & W12).
      repeat split; auto.
      + apply wfd_cons. cbn [dget]. split.
        * destruct (keqb nk k) eqn:E; [|exact N2]. rewrite dget_app in Hn1. cbn in Hn1. destruct (dget d1 nk); [discriminate|].
          rewrite keqb_sym in E. rewrite E in Hn1. discriminate.
        * apply wfd_cons. auto.
      + intros k' v' Hin. cbn [dget]. rewrite keqb_sym, (A1 _ _ Hin).
        rewrite dget_app in Hn1. destruct (dget d1 nk) eqn:E1; [discriminate|].
        rewrite dget_none_iff in E1. rewrite keqb_sym, (E1 _ _ Hin). eauto.
  Qed.

  (** new_key already at or before the prior key: its value is replaced in
      place. *)
  Lemma insert_after_before nk nv pk k v d1 d2 :
    keqb k pk = true -> wfd (d1 ++ (k, v) :: d2) = true -> dhas (d1 ++ [(k, v)]) nk = true ->
    insert_after nk nv pk (d1 ++ (k, v) :: d2) = dset (d1 ++ (k, v) :: d2) nk nv.
  Proof.
    intros Hk Hw Hn. rewrite ia_prior by assumption.
    apply dhas_true in Hn. destruct Hn as [x Hx].
    assert (Hset : dset (d1 ++ (k, v) :: d2) nk nv = dset (d1 ++ [(k, v)]) nk nv ++ d2).
    { change (d1 ++ (k, v) :: d2) with (d1 ++ [(k, v)] ++ d2). rewrite app_assoc.
      revert Hx. generalize (d1 ++ [(k, v)]) as l. induction l as [|[a b] r IH]; cbn; [discriminate|].
      destruct (keqb a nk); [reflexivity|]. intro H. rewrite IH; auto. }
    rewrite Hset. apply dupdate_app_fresh. rewrite <- Hset. apply wfd_dset. exact Hw.
  Qed.

  (** new_key already after the prior key: the new value is lost; the entry
      moves. *)
  Lemma wfd_norms (d : dict V) : wfd d = true <-> NoDup (map (fun kv => knorm (fst kv)) d).
  Proof.
    induction d as [|[k v] r IH]; [split; [constructor|reflexivity]|]. rewrite wfd_cons, IH. cbn [map fst]. rewrite NoDup_cons_iff.
    rewrite in_map_iff. split; intros [H1 H2]; (split; [|exact H2]).
    - intros ([k' v'] & E & Hin). cbn in E. rewrite dget_none_iff in H1. specialize (H1 _ _ Hin). apply keqb_false in H1. congruence.
    - apply dget_none_iff. intros k' v' Hin. apply keqb_false. intro E. apply H1. exists (k', v'). auto.
  Qed.

  Lemma dset_here (X Y : dict V) a nk nv b : dget X a = None -> keqb a nk = true ->
    dset (X ++ (nk, nv) :: Y) a b = X ++ (nk, b) :: Y.
  Proof.
    induction X as [|[x y] r IH]; cbn; intros H E; [now rewrite keqb_sym, E|]. destruct (keqb x a); [discriminate|]. now rewrite IH.
  Qed.

  Lemma dupdate_moved nk nv w : forall (d2 X Y : dict V),
    wfd (X ++ (nk, nv) :: Y) = true -> wfd (X ++ Y ++ d2) = true -> dget d2 nk = Some w ->
    dupdate (X ++ (nk, nv) :: Y) d2 = X ++ (nk, w) :: Y ++ ddel d2 nk.
  Proof.
    induction d2 as [|[a b] r IH]; intros X Y W1 W2 H; [discriminate|]. unfold dupdate. cbn [fold_left fst snd].
    assert (Na : dget X a = None).
    { apply dget_none_iff. intros k' v' Hin. apply wfd_app in W2. destruct W2 as (_ & _ & W2). specialize (W2 _ _ Hin).
      rewrite dget_none_iff in W2. rewrite keqb_sym. apply (W2 a b), in_or_app. right. left. reflexivity. }
    cbn [dget ddel] in *. destruct (keqb a nk) eqn:E.
    - injection H as ->. rewrite dset_here by assumption.
      change (dupdate (X ++ (nk, w) :: Y) r = X ++ (nk, w) :: Y ++ r). rewrite dupdate_app_fresh; [now rewrite <- app_assoc|].
      rewrite <- app_assoc. cbn [app]. apply wfd_norms. apply wfd_norms in W2. rewrite !map_app in *. cbn [map fst] in *. rewrite !map_app in *.
      apply keqb_true in E. rewrite <- E. eapply Permutation_NoDup; [|exact W2]. apply Permutation_app_head. symmetry. apply Permutation_middle.
    - assert (N : dget (X ++ (nk, nv) :: Y) a = None).
      { rewrite dget_app, Na. cbn [dget]. rewrite keqb_sym, E. apply dget_none_iff. intros k' v' Hin.
        apply wfd_app in W2. destruct W2 as (_ & W2 & _). apply wfd_app in W2. destruct W2 as (_ & _ & W2). specialize (W2 _ _ Hin).
        cbn [dget] in W2. rewrite keqb_sym. destruct (keqb a k'); [discriminate|reflexivity]. }
      rewrite dset_notin by exact N. rewrite <- app_assoc. cbn [app].
      change (dupdate (X ++ (nk, nv) :: Y ++ [(a, b)]) r = X ++ (nk, w) :: Y ++ (a, b) :: ddel r nk).
      rewrite IH; [now rewrite <- app_assoc| |now rewrite <- app_assoc|exact H].
      pose proof (wfd_dset _ a b W1) as W3. rewrite dset_notin, <- app_assoc in W3 by exact N. exact W3.
  Qed.

  Lemma insert_after_after nk nv pk k v d1 d2 w :
    keqb k pk = true -> wfd (d1 ++ (k, v) :: d2) = true -> dget d2 nk = Some w ->
    insert_after nk nv pk (d1 ++ (k, v) :: d2) = d1 ++ (k, v) :: (nk, w) :: ddel d2 nk.
  Proof.
    intros Hk Hw Hn. rewrite ia_prior by assumption.
    assert (N : dget (d1 ++ [(k, v)]) nk = None).
    { replace (d1 ++ (k, v) :: d2) with ((d1 ++ [(k, v)]) ++ d2) in Hw by now rewrite <- app_assoc.
      apply wfd_app in Hw. destruct Hw as (_ & _ & Hw). apply dget_none_iff. intros k' v' Hin. specialize (Hw _ _ Hin).
      destruct (keqb k' nk) eqn:E; [|reflexivity]. rewrite (dget_keqb _ _ _ E), Hn in Hw. discriminate. }
    assert (W : wfd ((d1 ++ [(k, v)]) ++ [(nk, nv)]) = true).
    { rewrite <- dset_notin by exact N. apply wfd_dset.
      replace (d1 ++ (k, v) :: d2) with ((d1 ++ [(k, v)]) ++ d2) in Hw by now rewrite <- app_assoc. apply wfd_app in Hw. tauto. }
    rewrite dset_notin by exact N. rewrite (dupdate_moved nk nv w) with (Y := []); [now rewrite <- app_assoc|exact W| |exact Hn].
    now rewrite <- app_assoc.
  Qed.

  Lemma wfd_insert_after nk nv pk d : wfd (insert_after nk nv pk d) = true.
  Proof.
    unfold insert_after. change (wfd (fold_left (ia_step nk nv pk) d []) = true).
    assert (G : forall acc : dict V, wfd acc = true -> wfd (fold_left (ia_step nk nv pk) d acc) = true).
    { induction d as [|[k v] r IH]; intros acc H; [exact H|]. cbn [fold_left]. apply IH.
      unfold ia_step. destruct (keqb k pk); auto using wfd_dset. }
    apply G. reflexivity.
  Qed.

  Lemma split_prior d pk v : dget d pk = Some v ->
    exists d1 k d2, d = d1 ++ (k, v) :: d2 /\ keqb k pk = true.
  Proof.
    induction d as [|[a b] r IH]; cbn; [discriminate|]. destruct (keqb a pk) eqn:E.
    - intros [= ->]. exists [], a, r. auto.
    - intro H. destruct (IH H) as (d1 & k & d2 & -> & Hk). exists ((a, b) :: d1), k, d2. auto.
  Qed.

  (** All other keys keep their values, always. *)
  Lemma insert_after_other nk nv pk d k' :
    wfd d = true -> keqb nk k' = false -> dget (insert_after nk nv pk d) k' = dget d k'.
  Proof.
    intros Hw Hk'. destruct (dget d pk) as [v|] eqn:E.
    - destruct (split_prior _ _ _ E) as (d1 & k & d2 & -> & Hk). rewrite ia_prior by assumption.
      destruct (wfd_split _ _ _ _ Hw) as (W1 & N1 & N2 & W2 & W12 & A1 & A2).
      rewrite dget_dupdate_wf by assumption. rewrite dget_dset, Hk', !dget_app. cbn [dget].
      destruct (dget d2 k') as [w|] eqn:E2.
      + destruct (dget d1 k') eqn:E1.
        * destruct (dget_In _ _ _ E1) as (k1 & Hin1 & He1). apply wfd_app in W12. destruct W12 as (_ & _ & W12).
          specialize (W12 _ _ Hin1). rewrite (dget_keqb d2 _ _ He1) in W12. congruence.
        * destruct (keqb k k') eqn:E3; [|reflexivity]. rewrite (dget_keqb d2 _ _ E3) in N2. congruence.
      + destruct (dget d1 k'); [reflexivity|]. destruct (keqb k k'); reflexivity.
    - rewrite insert_after_absent by assumption. reflexivity.
  Qed.
End InsertAfter.

(** ** NestingDict *)

Lemma assignable_cons m k r :
  assignable m (k :: r) = true -> exists d, m = VDict CNesting d /\
    (r = [] \/ dget d k = None \/ exists v, dget d k = Some v /\ assignable v r = true).
Proof.
  cbn [assignable]. destruct m as [|?|?|c d]; try discriminate. destruct c; try discriminate.
  intro H. exists d. split; [reflexivity|]. destruct r; [auto|]. destruct (dget d k); eauto.
Qed.

Lemma nd_set_spec p : forall m v, assignable m p = true ->
  exists m', nd_set m p v = Ok m' /\ peek m' p = Some v /\
    (forall q, diverge p q = true -> peek m' q = peek m q) /\
    (forall q, diverge p q = true -> assignable m' q = assignable m q) /\
    (forall q, same_path p q = true -> assignable m' q = true) /\
    (forall q, same_path p q = true -> peek m' q = Some v).
Proof.
  induction p as [|k r IH]; intros m v Ha; [discriminate|].
  destruct (assignable_cons _ _ _ Ha) as (d & -> & Hr).
  destruct r as [|k2 r].
  - exists (VDict CNesting (dset d k v)). cbn [nd_set nd_setitem peek]. rewrite dget_dset_eq.
    repeat split; auto.
    + intros [|b q]; [discriminate|]. cbn [diverge peek]. rewrite dget_dset. destruct (keqb k b); [discriminate|reflexivity].
    + intros [|b q]; [discriminate|]. cbn [diverge assignable]. rewrite dget_dset. destruct (keqb k b); [discriminate|reflexivity].
    + intros [|b [|]]; cbn [same_path]; try discriminate; try reflexivity. rewrite andb_false_r; discriminate.
    + intros [|b [|]]; cbn [same_path]; try discriminate.
      * intro H. rewrite andb_true_r in H. cbn [peek]. rewrite dget_dset, H. reflexivity.
      * rewrite andb_false_r; discriminate.
  - (* child to descend into *)
    assert (exists ch d1, nd_getitem (VDict CNesting d) k = Ok (ch, VDict CNesting d1) /\ dget d1 k = Some ch /\
        (forall k', keqb k k' = false -> dget d1 k' = dget d k') /\
        assignable ch (k2 :: r) = true /\
        (forall q, q <> [] -> assignable ch q = match dget d k with Some x => assignable x q | None => true end) /\
        (forall q, q <> [] -> peek ch q = match dget d k with Some x => peek x q | None => None end)) as (ch & d1 & Hg & Hch & Hoth & Hca & Has & Hpk).
    { cbn [nd_getitem]. destruct (dget d k) as [x|] eqn:E.
      - exists x, d. repeat split; auto. destruct Hr as [?|[?|(x' & [= <-] & Hx)]]; [discriminate|discriminate|exact Hx].
      - exists (VDict CNesting []), (dset d k (VDict CNesting [])). repeat split; auto.
        + apply dget_dset_eq.
        + intros k' Hk. apply dget_dset_ne; assumption.
        + cbn [assignable dget]. destruct r; reflexivity.
        + intros [|a q]; [congruence|]. cbn [assignable dget]. destruct q; reflexivity.
        + intros [|a q]; [congruence|]. reflexivity. }
    destruct (IH ch v Hca) as (ch' & Hset & Hp & Hd & Hda & Hsa & Hsp).
    exists (VDict CNesting (dset d1 k ch')). 
    assert (Hns : nd_set (VDict CNesting d) (k :: k2 :: r) v = Ok (VDict CNesting (dset d1 k ch'))).
    { change (nd_set (VDict CNesting d) (k :: k2 :: r) v) with
        (vm <- nd_getitem (VDict CNesting d) k ;; let (child, m1) := vm in
         child' <- nd_set child (k2 :: r) v ;; nd_setitem m1 k child').
      rewrite Hg. cbn [bind]. rewrite Hset. reflexivity. }
    split; [exact Hns|]. repeat split.
    + cbn [peek]. rewrite dget_dset_eq. exact Hp.
    + intros [|b q]; [discriminate|]. cbn [diverge]. intro Hdiv.
      cbn [peek]. rewrite dget_dset. destruct (keqb k b) eqn:E.
      * rewrite Hd by exact Hdiv. assert (q <> []) by (destruct q; [destruct r; discriminate|discriminate]).
        rewrite Hpk by assumption. rewrite (dget_keqb d _ _ E). destruct (dget d b); reflexivity.
      * rewrite Hoth by assumption. reflexivity.
    + intros [|b q]; [discriminate|]. cbn [diverge]. intro Hdiv.
      cbn [assignable]. rewrite dget_dset. destruct q as [|b2 q]; [reflexivity|]. destruct (keqb k b) eqn:E.
      * rewrite Hda by exact Hdiv. rewrite Has by discriminate. rewrite (dget_keqb d _ _ E). destruct (dget d b); reflexivity.
      * rewrite Hoth by assumption. reflexivity.
    + intros [|b q]; [discriminate|]. cbn [same_path]. rewrite andb_true_iff. intros [E Hq].
      cbn [assignable]. rewrite dget_dset, E. destruct q as [|b2 q]; [reflexivity|]. apply Hsa. exact Hq.
    + intros [|b q]; [discriminate|]. cbn [same_path]. rewrite andb_true_iff. intros [E Hq].
      cbn [peek]. rewrite dget_dset, E. apply Hsp. exact Hq.
Qed.

Lemma same_path_refl p : same_path p p = true.
Proof. induction p; cbn; [reflexivity|]. rewrite keqb_refl. exact IHp. Qed.
Lemma same_path_sym p q : same_path p q = same_path q p.
Proof. revert q; induction p; intros [|b q]; cbn; try reflexivity. rewrite keqb_sym, IHp. reflexivity. Qed.
Lemma same_diverge p q : same_path p q = true -> diverge p q = false.
Proof. revert q; induction p; intros [|b q]; cbn; try discriminate; auto. rewrite andb_true_iff. intros [-> H]. auto. Qed.

(** A history of assignments along pairwise equal or diverging paths. *)
Definition orthogonal (p q : list key) : Prop := same_path p q = true \/ diverge p q = true.

Lemma nd_history (h : list (list key * val)) : forall m0,
  (forall p v, In (p, v) h -> assignable m0 p = true) ->
  (forall p v q w, In (p, v) h -> In (q, w) h -> orthogonal p q) ->
  exists m, foldM (fun m pv => nd_set m (fst pv) (snd pv)) h m0 = Ok m /\
    (forall p, (exists v, In (p, v) h) ->
       exists pv, last_such (fun pv => same_path (fst pv) p) h = Some pv /\ peek m p = Some (snd pv)) /\
    (forall p, (forall q w, In (q, w) h -> diverge q p = true) -> peek m p = peek m0 p).
Proof.
  induction h as [|[p v] h IH]; intros m0 Ha Ho.
  - exists m0. split; [reflexivity|]. split; [intros p [v []]|reflexivity].
  - destruct (nd_set_spec p m0 v (Ha _ _ (or_introl eq_refl))) as (m1 & Hs & Hp & Hd & Hda & Hsa & Hsp).
    destruct (IH m1) as (m & Hf & Hlast & Hoth).
    + intros q w Hin. destruct (Ho _ _ _ _ (or_introl eq_refl) (or_intror Hin)) as [E|E].
      * apply Hsa. exact E.
      * rewrite Hda by exact E. eapply Ha; right; eauto.
    + intros; eapply Ho; right; eauto.
    + exists m. cbn [foldM fst snd]. rewrite Hs. cbn [bind]. split; [exact Hf|]. split.
      * intros q [w Hin]. rewrite last_such_cons. cbn [fst snd].
        destruct (last_such (fun pv => same_path (fst pv) q) h) as [pv|] eqn:El.
        -- exists pv. split; [reflexivity|].
           (* some later assignment to q *)
           unfold last_such in El. apply find_some in El as El'. destruct El' as [Hin' Hsame].
           apply in_rev in Hin'. destruct pv as [q' w']. cbn [fst snd] in *.
           destruct Hin as [[= -> ->]|Hin].
           ++ (* q is the first path; q' the same path later *)
              destruct (Hlast q') as (pv' & Hpv' & Hpk'); [eauto|].
              assert (Hpeq : forall a b m, same_path a b = true -> peek m a = peek m b).
              { clear. induction a as [|x a IH]; intros [|y b] m; cbn [same_path]; try discriminate; [reflexivity|].
                rewrite andb_true_iff. intros [E H]. cbn [peek]. destruct m; try reflexivity.
                rewrite (dget_keqb d _ _ E). destruct (dget d y); [|reflexivity]. apply IH; exact H. }
              rewrite <- (Hpeq _ _ m Hsame). rewrite Hpk'. f_equal. f_equal.
              assert (Hext : last_such (fun pv => same_path (fst pv) q') h = last_such (fun pv => same_path (fst pv) q) h).
              { unfold last_such. clear -Hsame. 
                assert (Hst : forall a, same_path a q' = same_path a q).
                { revert q Hsame. induction q' as [|x a IH]; intros [|y b] H c; try discriminate; cbn in *.
                  - reflexivity.
                  - destruct c as [|z c]; [reflexivity|]. cbn. apply andb_true_iff in H. destruct H as [E H].
                    rewrite (IH _ H). rewrite (keqb_r _ _ z E). reflexivity. }
                induction (rev h) as [|z r IHr]; cbn; [reflexivity|]. rewrite Hst, IHr. reflexivity. }
              unfold last_such in Hext, Hpv'. rewrite Hext, El in Hpv'. injection Hpv' as <-. reflexivity.
           ++ destruct (Hlast q) as (pv' & Hpv' & Hpk'); [eauto|]. unfold last_such in Hpv'. rewrite El in Hpv'. injection Hpv' as <-. exact Hpk'.
        -- destruct Hin as [[= -> ->]|Hin].
           ++ rewrite same_path_refl. exists (q, w). split; [reflexivity|]. cbn [snd].
              rewrite Hoth; [exact Hp|]. intros q' w' Hin'.
              destruct (Ho _ _ _ _ (or_intror Hin') (or_introl eq_refl)) as [E|E]; [|exact E].
              exfalso. unfold last_such in El.
              eapply find_none in El; [|apply in_rev; rewrite rev_involutive; exact Hin'].
              cbn [fst] in El. congruence.
           ++ destruct (Hlast q) as (pv' & Hpv' & _); [eauto|]. congruence.
      * intros q Hq. rewrite Hoth by (intros; eapply Hq; right; eauto). apply Hd. eapply Hq. left; reflexivity.
Qed.

Lemma nd_read_missing p : forall m, assignable m p = true -> peek m p = None ->
  exists m', nd_get m p = Ok (VDict CNesting [], m') /\ peek m' p = Some (VDict CNesting []) /\
   (forall q, diverge p q = true -> peek m' q = peek m q).
Proof.
  induction p as [|k r IH]; intros m Ha Hp; [discriminate|].
  destruct (assignable_cons _ _ _ Ha) as (d & -> & Hr). cbn [peek] in Hp. cbn [nd_get nd_getitem].
  destruct (dget d k) as [x|] eqn:E.
  - assert (Hx : r <> [] /\ assignable x r = true).
    { destruct r; [cbn in Hp; discriminate|]. split; [discriminate|]. 
      destruct Hr as [?|[?|(x' & Ex & Hx)]]; [discriminate|discriminate|]. congruence. }
    destruct Hx as [Hr0 Hx]. destruct (IH x Hx Hp) as (x' & Hg & Hpk & Hd).
    cbn [bind]. rewrite Hg. cbn [bind nd_setitem]. exists (VDict CNesting (dset d k x')). split; [reflexivity|]. split.
    + cbn [peek]. rewrite dget_dset_eq. exact Hpk.
    + intros [|b q]; [discriminate|]. cbn [diverge peek]. rewrite dget_dset. destruct (keqb k b) eqn:E'; [|reflexivity].
      intro H. rewrite Hd by assumption. rewrite <- (dget_keqb d _ _ E'), E. reflexivity.
  - cbn [bind]. destruct r as [|k2 r].
    + cbn [nd_get bind nd_setitem]. eexists. split; [reflexivity|]. split.
      * cbn [peek]. rewrite dget_dset_eq. reflexivity.
      * intros [|b q]; [discriminate|]. cbn [diverge peek]. rewrite !dget_dset. destruct (keqb k b); [discriminate|reflexivity].
    + destruct (IH (VDict CNesting [])) as (x' & Hg & Hpk & Hd); [cbn; destruct r; reflexivity|reflexivity|].
      rewrite Hg. cbn [bind nd_setitem]. eexists. split; [reflexivity|]. split.
      * cbn [peek]. rewrite dget_dset_eq. exact Hpk.
      * intros [|b q]; [discriminate|]. cbn [diverge peek]. rewrite !dget_dset. destruct (keqb k b) eqn:E'; [|reflexivity].
        intro H. rewrite Hd by assumption. rewrite <- (dget_keqb d _ _ E'), E. destruct q; [destruct r; discriminate|]. reflexivity.
Qed.

(** todict *)
Definition td_p (k : key) (v : val) : bool := is_nesting v.
Definition td_s (k : key) (v : val) : val := to_plain v.

Lemma td_edited m : forall c d, m = VDict c d ->
  Edited td_p td_s is_dict_cls (VDict c d) (VDict c (map (fun kv => (fst kv, plainified (snd kv))) d)).
Proof.
  induction m as [k|l _|l _|c0 d0 IH] using val_ind'; intros c d [= -> ->].
  constructor. induction d as [|[k v] r IHr]; [constructor|]. inversion IH as [|? ? IH1 IH2]; subst.
  cbn [map fst snd]. constructor; [|apply IHr, IH2]. cbn [snd] in IH1. clear IHr IH IH2.
  destruct v as [a|l|l|c' d'].
  - apply (Ed_leaf td_p td_s is_dict_cls k (VAtom a)). reflexivity.
  - apply (Ed_leaf td_p td_s is_dict_cls k (VList l)). reflexivity.
  - apply (Ed_leaf td_p td_s is_dict_cls k (VTup l)). reflexivity.
  - specialize (IH1 c' d' eq_refl). destruct c'; cbn [plainified is_dict_cls].
    + apply Ed_nest; [reflexivity|]. cbn. exact IH1.
    + apply Ed_nest; [reflexivity|]. cbn. exact IH1.
    + apply Ed_nest; [reflexivity|]. cbn. inversion IH1; subst. constructor. assumption.
    + apply (Ed_leaf td_p td_s is_dict_cls k (VDict (CMap n) d')). reflexivity.
Qed.

Lemma td_wf k v : wfv v = true -> wfv (td_s k v) = true.
Proof. destruct v; auto. Qed.
Lemma td_depth k v : depth (td_s k v) <= depth v.
Proof. destruct v; reflexivity. Qed.

Lemma todict_ok fuel d :
  wfv (VDict CNesting d) = true -> depth (VDict CNesting d) <= fuel ->
  todict fuel (VDict CNesting d) =
  Ok (plainified (VDict CNesting d), VDict CNesting (map (fun kv => (fst kv, plainified (snd kv))) d)).
Proof.
  intros Hw Hd. unfold todict.
  destruct (dig_and_edit_terminates (fun _ v => Ok (is_nesting v)) (fun _ v => Ok (to_plain v)) td_p td_s is_dict_cls
    (fun _ _ => eq_refl) (fun _ _ => eq_refl) td_wf td_depth fuel _ Hw eq_refl Hd) as [m' Hm].
  rewrite Hm. cbn [bind].
  pose proof (dig_and_edit_sound _ _ td_p td_s is_dict_cls (fun _ _ => eq_refl) (fun _ _ => eq_refl) td_wf fuel _ _ Hw Hm) as HE.
  pose proof (edited_fun _ _ _ _ _ _ HE (td_edited _ CNesting d eq_refl)) as ->. reflexivity.
Qed.

Lemma plainified_no_nesting v : no_nesting (plainified v) = true.
Proof.
  induction v as [k|l _|l _|c d IH] using val_ind'; try reflexivity.
  cbn [plainified]. destruct (is_dict_cls c) eqn:E; [|destruct c; try discriminate; reflexivity].
  assert (G : forallb (fun kv => no_nesting (snd kv)) (map (fun kv => (fst kv, plainified (snd kv))) d) = true).
  { apply forallb_forall. intros [k v] Hin. apply in_map_iff in Hin. destruct Hin as [[k' v'] [[= <- <-] Hin]].
    cbn [snd]. rewrite Forall_forall in IH. apply (IH _ Hin). }
  destruct c; try discriminate; cbn [no_nesting]; exact G.
Qed.

Lemma peek_plainified p : forall v,
  (forall q, peek v q <> None -> match peek v q with Some (VDict (CMap _) _) => False | _ => True end) ->
  peek (plainified v) p = option_map plainified (peek v p).
Proof.
  induction p as [|k r IH]; intros v Hd; [reflexivity|].
  destruct v as [a|l|l|c d]; try reflexivity.
  assert (is_dict_cls c = true) as Ec.
  { specialize (Hd [] ltac:(discriminate)). cbn in Hd. destruct c; try reflexivity. destruct Hd. }
  cbn [plainified]. rewrite Ec. cbn [peek].
  rewrite (dget_map_vals (fun kv => plainified (snd kv))) by reflexivity.
  destruct (dget d k) as [x|] eqn:E; [|reflexivity]. cbn [option_map snd]. apply IH.
  intros q Hq. specialize (Hd (k :: q)). cbn [peek] in Hd. rewrite E in Hd. apply Hd. exact Hq.
Qed.

(** ** separate_by *)
Lemma separate_by_ok {A} (r : A -> res val) (f : A -> val) l :
  (forall x, In x l -> r x = Ok (f x)) ->
  separate_by l r = Ok (filter (fun x => is_True (f x)) l, filter (fun x => negb (is_True (f x))) l).
Proof.
  intro H. unfold separate_by.
  assert (G : forall l hs ms, (forall x, In x l -> r x = Ok (f x)) ->
    foldM (fun hm item => let '(hits, misses) := hm in b <- r item ;;
           if is_True b then Ok (hits ++ [item], misses) else Ok (hits, misses ++ [item])) l (hs, ms)
    = Ok (hs ++ filter (fun x => is_True (f x)) l, ms ++ filter (fun x => negb (is_True (f x))) l)).
  { clear. induction l as [|x l IH]; intros hs ms H; cbn [foldM filter].
    - rewrite !app_nil_r. reflexivity.
    - rewrite H by (left; reflexivity). cbn [bind]. destruct (is_True (f x)); cbn [bind negb];
      rewrite IH by (intros; apply H; right; assumption); rewrite <- app_assoc; reflexivity. }
  rewrite G by assumption. reflexivity.
Qed.

Lemma filter_partition {A} (p : A -> bool) l :
  Permutation l (filter p l ++ filter (fun x => negb (p x)) l).
Proof.
  induction l as [|x l IH]; cbn; [constructor|]. destruct (p x); cbn.
  - constructor. exact IH.
  - apply Permutation_cons_app. exact IH.
Qed.

(** ** HashDict *)

Section HashDict.
  Context {A : Type} (hasher : A -> key).
  Definition hd_run (h : list (key * A)) : hashdict A :=
    fold_left (fun s ki => hd_set hasher s (fst ki) (snd ki)) h hd_empty.

  (** History reading: the last item assigned to the key, then the first item
      ever assigned with the same hash. *)
  Lemma hd_run_app h ki : hd_run (h ++ [ki]) = hd_set hasher (hd_run h) (fst ki) (snd ki).
  Proof. unfold hd_run. rewrite fold_left_app. reflexivity. Qed.

  Lemma find_app {B} (p : B -> bool) l1 l2 :
    find p (l1 ++ l2) = match find p l1 with Some x => Some x | None => find p l2 end.
  Proof. induction l1 as [|x r IH]; cbn; [reflexivity|]. destruct (p x); auto. Qed.

  Lemma hd_dict_spec h k :
    dget (hd_dict (hd_run h)) k =
    option_map (fun ki => hasher (snd ki)) (last_such (fun ki => keqb (fst ki) k) h).
  Proof.
    unfold last_such. induction h as [|ki h IH] using rev_ind; [reflexivity|].
    rewrite hd_run_app, rev_app_distr. cbn [hd_set hd_dict rev app find].
    rewrite dget_dset. destruct (keqb (fst ki) k); [reflexivity|exact IH].
  Qed.

  Lemma hd_reverse_spec h x :
    dget (hd_reverse (hd_run h)) x =
    option_map snd (find (fun ki => keqb (hasher (snd ki)) x) h).
  Proof.
    induction h as [|ki h IH] using rev_ind; [reflexivity|].
    rewrite hd_run_app, find_app. cbn [hd_set hd_reverse find].
    destruct (dhas (hd_reverse (hd_run h)) (hasher (snd ki))) eqn:E.
    - rewrite IH. destruct (find _ h) eqn:F; [reflexivity|]. cbn [option_map].
      destruct (keqb (hasher (snd ki)) x) eqn:E'; [|reflexivity].
      rewrite (dhas_keqb _ _ _ E') in E. unfold dhas in E. rewrite IH in E. discriminate.
    - rewrite dget_dset, IH. destruct (keqb (hasher (snd ki)) x) eqn:E'.
      + rewrite (dhas_keqb _ _ _ E') in E. apply dhas_false in E. rewrite IH in E.
        destruct (find _ h); [discriminate|reflexivity].
      + destruct (find _ h); reflexivity.
  Qed.

  Lemma hd_get_spec h k :
    hd_get (hd_run h) k =
    match last_such (fun ki => keqb (fst ki) k) h with
    | None => Exc KeyError
    | Some ki =>
        match find (fun kj => keqb (hasher (snd kj)) (hasher (snd ki))) h with
        | Some kj => Ok (snd kj)
        | None => Exc KeyError
        end
    end.
  Proof.
    unfold hd_get. rewrite hd_dict_spec. destruct (last_such _ h) as [ki|]; [|reflexivity].
    cbn [option_map]. rewrite hd_reverse_spec. destruct (find _ h); reflexivity.
  Qed.

  Lemma last_such_In {B} (f : B -> bool) l x : last_such f l = Some x -> In x l /\ f x = true.
  Proof. unfold last_such. intro H. apply find_some in H. rewrite <- in_rev in H. exact H. Qed.

  Lemma hd_get_inj h k :
    (forall k1 a k2 b, In (k1, a) h -> In (k2, b) h -> keqb (hasher a) (hasher b) = true -> a = b) ->
    hd_get (hd_run h) k =
    match last_such (fun ki => keqb (fst ki) k) h with
    | None => Exc KeyError
    | Some ki => Ok (snd ki)
    end.
  Proof.
    intro Hinj. rewrite hd_get_spec. destruct (last_such _ h) as [[ki a]|] eqn:E; [|reflexivity].
    apply last_such_In in E. destruct E as [Hin _]. cbn [snd].
    destruct (find _ h) as [[kj b]|] eqn:F.
    - apply find_some in F. destruct F as [Hin' Hk]. cbn [snd] in *. f_equal. eapply Hinj; eauto.
    - exfalso. eapply find_none in F; [|exact Hin]. cbn [snd] in F. rewrite keqb_refl in F. discriminate.
  Qed.

  (** Number of stored values: number of distinct hashes ever assigned. *)
  Fixpoint distinct_hashes (l : list (key * A)) : list key :=
    match l with
    | [] => []
    | ki :: r => if existsb (fun kj => keqb (hasher (snd kj)) (hasher (snd ki))) r
                 then distinct_hashes r else hasher (snd ki) :: distinct_hashes r
    end.

  Lemma dset_length {V} (d : dict V) k v : List.length (dset d k v) = if dhas d k then List.length d else S (List.length d).
  Proof.
    unfold dhas. induction d as [|[a b] r IH]; cbn; [reflexivity|]. destruct (keqb a k); cbn; [reflexivity|].
    rewrite IH. destruct (dget r k); reflexivity.
  Qed.

  Lemma hd_count h : List.length (hd_reverse (hd_run h)) = List.length (distinct_hashes (rev h)).
  Proof.
    induction h as [|ki h IH] using rev_ind; [reflexivity|].
    rewrite hd_run_app, rev_app_distr. cbn [rev app distinct_hashes hd_set hd_reverse].
    assert (E : existsb (fun kj => keqb (hasher (snd kj)) (hasher (snd ki))) (rev h) = dhas (hd_reverse (hd_run h)) (hasher (snd ki))).
    { unfold dhas. rewrite hd_reverse_spec. destruct (find _ h) as [kj|] eqn:F; cbn [option_map].
      - apply existsb_exists. exists kj. apply find_some in F. rewrite <- in_rev. exact F.
      - apply not_true_is_false. intro H. apply existsb_exists in H. destruct H as (kj & Hin & Hk).
        apply in_rev in Hin. eapply find_none in F; [|exact Hin]. cbn in F. congruence. }
    rewrite E. destruct (dhas (hd_reverse (hd_run h)) (hasher (snd ki))) eqn:D; [exact IH|].
    rewrite dset_length, D. cbn. rewrite IH. reflexivity.
  Qed.

  Lemma hd_keys h : List.length (hd_dict (hd_run h)) = List.length (kinds (map fst (rev h))).
  Proof.
    induction h as [|ki h IH] using rev_ind; [reflexivity|].
    rewrite hd_run_app, rev_app_distr. cbn [rev app map kinds hd_set hd_dict]. rewrite dset_length.
    assert (E : existsb (fun j => keqb j (fst ki)) (map fst (rev h)) = dhas (hd_dict (hd_run h)) (fst ki)).
    { unfold dhas. rewrite hd_dict_spec. unfold last_such. destruct (find _ (rev h)) as [kj|] eqn:F; cbn [option_map].
      - apply find_some in F. apply existsb_exists. exists (fst kj). split; [apply in_map, F|apply F].
      - apply not_true_is_false. intro H. apply existsb_exists in H. destruct H as (j & Hin & Hk).
        apply in_map_iff in Hin. destruct Hin as (kj & <- & Hin). eapply find_none in F; [|exact Hin]. cbn in F. congruence. }
    rewrite E. destruct (dhas _ _); [exact IH|]. cbn. now rewrite IH.
  Qed.
  Lemma distinct_kinds l : distinct_hashes l = kinds (map (fun ki => hasher (snd ki)) l).
  Proof.
    induction l as [|ki l IH]; [reflexivity|]. cbn [distinct_hashes map kinds]. rewrite IH.
    replace (existsb (fun j => keqb j (hasher (snd ki))) (map (fun ki => hasher (snd ki)) l))
      with (existsb (fun kj => keqb (hasher (snd kj)) (hasher (snd ki))) l); [reflexivity|].
    clear IH. induction l as [|a l IH]; [reflexivity|]. cbn. now rewrite IH.
  Qed.
  Lemma hd_str_spec h : hd_str (hd_run h) =
    ("HashDict with " ++ str_of_Z (Z.of_nat (List.length (kinds (map fst (rev h))))) ++ " keys storing " ++
     str_of_Z (Z.of_nat (List.length (kinds (map (fun ki => hasher (snd ki)) (rev h))))) ++ " unique values")%string.
  Proof. unfold hd_str. now rewrite hd_keys, hd_count, distinct_kinds. Qed.
End HashDict.

(** ** Small helpers *)

Lemma enumerate_from_keys {V} (l : list V) i : map fst (enumerate_from i l) = map (fun n => KInt (i + Z.of_nat n)) (seq 0 (List.length l)).
Proof.
  revert i. induction l as [|x r IH]; intro i; cbn [enumerate_from map List.length seq fst]; [reflexivity|].
  f_equal; [f_equal; lia|]. rewrite IH, <- seq_shift, map_map. apply map_ext. intro n. f_equal. lia.
Qed.
Lemma enumerate_from_vals {V} (l : list V) i : map snd (enumerate_from i l) = l.
Proof. revert i. induction l as [|x r IH]; intro i; cbn; [reflexivity|]. rewrite IH. reflexivity. Qed.
Lemma enumerate_from_In {V} (l : list V) i k v : In (k, v) (enumerate_from i l) -> exists n, k = KInt n /\ (i <= n)%Z.
Proof.
  revert i. induction l as [|x r IH]; intro i; cbn; [tauto|]. intros [[= <- <-]|H].
  - exists i. split; [reflexivity|lia].
  - destruct (IH _ H) as (n & -> & ?). exists n. split; [reflexivity|lia].
Qed.
Lemma enumerate_from_wfd {V} (l : list V) i : wfd (enumerate_from i l) = true.
Proof.
  revert i. induction l as [|x r IH]; intro i; [reflexivity|]. cbn [enumerate_from]. apply wfd_cons. split; [|apply IH].
  apply dget_none_iff. intros k v Hin. apply enumerate_from_In in Hin. destruct Hin as (n & -> & ?).
  apply keqb_false. cbn. intros [= ->]. lia.
Qed.
Lemma dget_enumerate_from {V} (l : list V) i n :
  dget (enumerate_from i l) (KInt (i + Z.of_nat n)) = nth_error l n.
Proof.
  revert i n. induction l as [|x r IH]; intros i n; cbn [enumerate_from dget]; [destruct n; reflexivity|].
  destruct n as [|n].
  - replace (i + Z.of_nat 0)%Z with i by lia. rewrite keqb_refl. reflexivity.
  - destruct (keqb (KInt i) (KInt (i + Z.of_nat (S n)))) eqn:E.
    + apply keqb_int in E. lia.
    + cbn [nth_error]. rewrite <- (IH (i + 1)%Z n). f_equal. f_equal. lia.
Qed.

Lemma listify_idem v : listify (VList (listify v)) = listify v.
Proof. reflexivity. Qed.

Lemma get_from_all_ok k ms default view :
  (match ms with VDict _ d => view = dvalues d | VList l | VTup l => view = l | VAtom _ => False end) ->
  (forall m, In m view -> is_mapping m = true) ->
  get_from_all k ms default =
  Ok (map (fun m => match dget (entries m) k with Some v => v | None => default end) view).
Proof.
  intros Hv Hm. unfold get_from_all.
  assert (G : mapM (fun m => match m with VDict _ d => Ok (match dget d k with Some v => v | None => default end) | _ => Exc AttributeError end) view
    = Ok (map (fun m => match dget (entries m) k with Some v => v | None => default end) view)).
  { apply mapM_ok. intros m Hin. specialize (Hm _ Hin). destruct m; try discriminate. reflexivity. }
  destruct ms; try contradiction; subst view; exact G.
Qed.

(** ** get_from *)
Section GetFrom.
  Context {obj : Type} (getitem : obj -> key -> res obj) (getattr : obj -> string -> res obj).
  Lemma getitemattr_item o k v : getitem o k = Ok v -> getitemattr getitem getattr o k = Ok v.
  Proof. intro H. unfold getitemattr. rewrite H. reflexivity. Qed.
  Lemma getitemattr_attr o s e :
    getitem o (KStr s) = Exc e -> lookup_error e = true -> getitemattr getitem getattr o (KStr s) = getattr o s.
  Proof. intros H He. unfold getitemattr. rewrite H. destruct e; try discriminate; reflexivity. Qed.
  Lemma getitemattr_nonstr o k e :
    getitem o k = Exc e -> lookup_error e = true -> is_str k = false -> getitemattr getitem getattr o k = Exc TypeError.
  Proof. intros H He Hk. unfold getitemattr. rewrite H. destruct e; try discriminate; destruct k; try discriminate; reflexivity. Qed.

  Lemma get_from_prefix o p x r d :
    reaches getitem getattr o p x -> get_from getitem getattr o (p ++ r) d = get_from getitem getattr x r d.
  Proof.
    intro H. induction H as [o|o k q v w Hg H IH|o s q e v w Hg He Ha H IH]; cbn [app get_from]; [reflexivity| |].
    - rewrite (getitemattr_item _ _ _ Hg). exact IH.
    - rewrite (getitemattr_attr _ _ _ Hg He), Ha. exact IH.
  Qed.
  Lemma get_from_found o p x d : reaches getitem getattr o p x -> get_from getitem getattr o p d = Ok x.
  Proof. intro H. rewrite <- (app_nil_r p). rewrite (get_from_prefix _ _ _ _ _ H). reflexivity. Qed.
  Lemma get_from_missing o p x s e r d :
    reaches getitem getattr o p x -> getitem x (KStr s) = Exc e -> lookup_error e = true ->
    getattr x s = Exc AttributeError -> get_from getitem getattr o (p ++ KStr s :: r) d = Ok d.
  Proof.
    intros H Hg He Ha. rewrite (get_from_prefix _ _ _ _ _ H). cbn [get_from].
    rewrite (getitemattr_attr _ _ _ Hg He), Ha. reflexivity.
  Qed.
  Lemma get_from_nonstring o p x k e r d :
    reaches getitem getattr o p x -> getitem x k = Exc e -> lookup_error e = true -> is_str k = false ->
    get_from getitem getattr o (p ++ k :: r) d = Exc TypeError.
  Proof.
    intros H Hg He Hk. rewrite (get_from_prefix _ _ _ _ _ H). cbn [get_from].
    rewrite (getitemattr_nonstr _ _ _ Hg He Hk). reflexivity.
  Qed.
  Lemma get_from_total ks : forall o d,
    (forall o k e, getitem o k = Exc e -> lookup_error e = true) ->
    (forall o s e, getattr o s = Exc e -> e = AttributeError) ->
    forallb is_str ks = true ->
    (exists v, reaches getitem getattr o ks v /\ get_from getitem getattr o ks d = Ok v) \/
    ((forall v, ~ reaches getitem getattr o ks v) /\ get_from getitem getattr o ks d = Ok d).
  Proof.
    induction ks as [|k r IH]; intros o d Hi Ha Hs.
    - left. exists o. split; [constructor|reflexivity].
    - cbn [forallb] in Hs. apply andb_true_iff in Hs. destruct Hs as [Hk Hs].
      destruct k as [| | |s|]; try discriminate. cbn [get_from].
      destruct (getitem o (KStr s)) as [v|e] eqn:Eg.
      + rewrite (getitemattr_item _ _ _ Eg). destruct (IH v d Hi Ha Hs) as [(w & Hr & Hg)|[Hn Hg]].
        * left. exists w. split; [econstructor; eauto|exact Hg].
        * right. split; [|exact Hg]. intros w Hw. inversion Hw; subst; [|congruence].
          assert (v0 = v) by congruence. subst. eapply Hn; eauto.
      + rewrite (getitemattr_attr _ _ _ Eg (Hi _ _ _ Eg)).
        destruct (getattr o s) as [v|e'] eqn:Ea.
        * destruct (IH v d Hi Ha Hs) as [(w & Hr & Hg)|[Hn Hg]].
          -- left. exists w. split; [eapply re_attr; eauto|exact Hg].
          -- right. split; [|exact Hg]. intros w Hw. inversion Hw; subst; [congruence|].
             assert (v0 = v) by congruence. subst. eapply Hn; eauto.
        * apply Ha in Ea as Ee. subst e'. right. split; [|reflexivity].
          intros w Hw. inversion Hw; subst; congruence.
  Qed.

  (** For arbitrary keys: the first one that is found neither as an item nor
      as an attribute decides. *)
  Lemma get_from_exact ks : forall o d,
    (forall o k e, getitem o k = Exc e -> lookup_error e = true) ->
    (forall o s e, getattr o s = Exc e -> e = AttributeError) ->
    (exists v, reaches getitem getattr o ks v /\ get_from getitem getattr o ks d = Ok v) \/
    (exists p x k r, ks = p ++ k :: r /\ reaches getitem getattr o p x /\
       (forall y, ~ reaches getitem getattr x [k] y) /\
       get_from getitem getattr o ks d = if is_str k then Ok d else Exc TypeError).
  Proof.
    induction ks as [|k r IH]; intros o d Hi Ha.
    - left. exists o. split; [constructor|reflexivity].
    - destruct (getitem o k) as [v|e] eqn:Eg.
      + cbn [get_from]. rewrite (getitemattr_item _ _ _ Eg).
        destruct (IH v d Hi Ha) as [(w & Hr & Hg)|(p & x & k' & r' & -> & Hr & Hn & Hg)].
        * left. exists w. split; [econstructor; eauto|exact Hg].
        * right. exists (k :: p), x, k', r'. split; [reflexivity|].
          split; [econstructor; eauto|]. auto.
      + cbn [get_from]. destruct (is_str k) eqn:Es.
        * destruct k as [| | |s|]; try discriminate.
          rewrite (getitemattr_attr _ _ _ Eg (Hi _ _ _ Eg)).
          destruct (getattr o s) as [v|e'] eqn:Ea.
          -- destruct (IH v d Hi Ha) as [(w & Hr & Hg)|(p & x & k' & r' & -> & Hr & Hn & Hg)].
             ++ left. exists w. split; [eapply re_attr; eauto|exact Hg].
             ++ right. exists (KStr s :: p), x, k', r'. split; [reflexivity|].
                split; [eapply re_attr; eauto|]. auto.
          -- apply Ha in Ea as Ee. subst e'. right. exists [], o, (KStr s), r.
             split; [reflexivity|]. split; [constructor|]. split; [|reflexivity].
             intros y Hy. inversion Hy; subst; congruence.
        * rewrite (getitemattr_nonstr _ _ _ Eg (Hi _ _ _ Eg) Es). right. exists [], o, k, r.
          split; [reflexivity|]. split; [constructor|]. split; [|rewrite Es; reflexivity].
          intros y Hy. inversion Hy; subst; [congruence|discriminate].
  Qed.
End GetFrom.

Lemma val_getitem_err o k e : val_getitem o k = Exc e -> lookup_error e = true.
Proof.
  unfold val_getitem. destruct o as [a|l|l|c d]; [intros [= <-]; reflexivity| | |].
  - destruct k; try (intros [= <-]; reflexivity). cbv zeta.
    destruct (_ && _)%bool; [destruct (nth_error _ _)|]; try discriminate; intros [= <-]; reflexivity.
  - destruct k; try (intros [= <-]; reflexivity). cbv zeta.
    destruct (_ && _)%bool; [destruct (nth_error _ _)|]; try discriminate; intros [= <-]; reflexivity.
  - destruct (dget d k); [discriminate|]. intros [= <-]; reflexivity.
Qed.
Lemma val_getattr_err attrs o s e : val_getattr attrs o s = Exc e -> e = AttributeError.
Proof. unfold val_getattr. destruct (attrs o s); [discriminate|]. intros [= <-]; reflexivity. Qed.

(** ** Leaves surviving a merge *)

(** The path [p] from [m] meets only dicts and ends at a non-dict value. *)
Lemma merged_leaf_right : forall p a b v,
  wfv a = true -> wfv b = true -> is_mapping a = true -> is_mapping b = true ->
  p <> [] -> peek b p = Some v -> isinst is_dict_cls v = false ->
  (forall q r x, p = q ++ r -> r <> [] -> peek b q = Some x -> q = [] \/ isinst is_dict_cls x = true) ->
  peek (merged is_dict_cls a b) p = Some v.
Proof.
  induction p as [|k r IH]; intros a b v Wa Wb Ma Mb Hp Hpk Hv Hd; [congruence|].
  destruct a as [|?|?|c1 d1]; try discriminate. destruct b as [|?|?|c2 d2]; try discriminate.
  apply wfv_dict in Wa, Wb. destruct Wa as [W1 V1]. destruct Wb as [W2 V2].
  change (merged is_dict_cls (VDict c1 d1) (VDict c2 d2)) with (VDict CDict (merged_with is_dict_cls d1 d2)).
  cbn [peek] in *. rewrite dget_merged_with by assumption.
  destruct (dget d2 k) as [y|] eqn:E2; [|discriminate].
  destruct (dget d1 k) as [x|] eqn:E1; [|exact Hpk].
  destruct (dget_In _ _ _ E1) as (k1 & Hin1 & _). destruct (dget_In _ _ _ E2) as (k2 & Hin2 & _).
  destruct r as [|k' r].
  - cbn [peek] in Hpk. injection Hpk as ->. rewrite Hv, andb_false_r. reflexivity.
  - assert (Hy : isinst is_dict_cls y = true).
    { destruct (Hd [k] (k' :: r) y eq_refl ltac:(discriminate)) as [?|?]; [cbn [peek]; rewrite E2; reflexivity|discriminate|assumption]. }
    destruct (isinst is_dict_cls x) eqn:Hx; cbn [andb].
    + rewrite Hy. apply IH; eauto.
      * destruct (isinst_dict _ _ Hx) as (?&?&->&_); reflexivity.
      * destruct (isinst_dict _ _ Hy) as (?&?&->&_); reflexivity.
      * discriminate.
      * intros q q' z Hq Hq' Hz. right. 
        destruct q as [|a q]; [cbn in Hz; injection Hz as <-; exact Hy|].
        destruct (Hd (k :: a :: q) q' z) as [?|?]; try assumption.
        -- cbn [app]. f_equal. exact Hq.
        -- cbn [peek]. rewrite E2. exact Hz.
        -- discriminate.
    + exact Hpk.
Qed.

(** A leaf of the left operand survives when the right operand has nothing
    at any non-empty prefix of its path except dicts. *)
Lemma merged_leaf_left : forall p a b v,
  wfv a = true -> wfv b = true -> is_mapping a = true -> is_mapping b = true ->
  p <> [] -> peek a p = Some v ->
  (forall q r x, p = q ++ r -> r <> [] -> q <> [] -> peek a q = Some x -> isinst is_dict_cls x = true) ->
  (forall q r x, p = q ++ r -> q <> [] -> peek b q = Some x -> r <> [] /\ isinst is_dict_cls x = true) ->
  peek (merged is_dict_cls a b) p = Some v.
Proof.
  induction p as [|k r IH]; intros a b v Wa Wb Ma Mb Hp Hpk Hda Hdb; [congruence|].
  destruct a as [|?|?|c1 d1]; try discriminate. destruct b as [|?|?|c2 d2]; try discriminate.
  apply wfv_dict in Wa, Wb. destruct Wa as [W1 V1]. destruct Wb as [W2 V2].
  change (merged is_dict_cls (VDict c1 d1) (VDict c2 d2)) with (VDict CDict (merged_with is_dict_cls d1 d2)).
  cbn [peek] in *. rewrite dget_merged_with by assumption.
  destruct (dget d1 k) as [x|] eqn:E1; [|discriminate].
  destruct (dget d2 k) as [y|] eqn:E2; [|exact Hpk].
  destruct (Hdb [k] r y eq_refl) as [Hr Hy]; [discriminate|cbn [peek]; rewrite E2; reflexivity|].
  assert (Hx : isinst is_dict_cls x = true).
  { apply (Hda [k] r x eq_refl Hr); [discriminate|]. cbn [peek]. rewrite E1. reflexivity. }
  rewrite Hx, Hy. cbn [andb].
  destruct (dget_In _ _ _ E1) as (k1 & Hin1 & _). destruct (dget_In _ _ _ E2) as (k2 & Hin2 & _).
  apply IH; eauto.
  - destruct (isinst_dict _ _ Hx) as (?&?&->&_); reflexivity.
  - destruct (isinst_dict _ _ Hy) as (?&?&->&_); reflexivity.
  - intros q r' z -> Hr' Hq Hz. apply (Hda (k :: q) r' z eq_refl Hr'); [discriminate|]. cbn [peek]. rewrite E1. exact Hz.
  - intros q r' z -> Hq Hz. apply (Hdb (k :: q) r' z eq_refl); [discriminate|]. cbn [peek]. rewrite E2. exact Hz.
Qed.
