(** Proofs about the dig functions (structures.py:162-279). *)
From Verif Require Export Py_Facts Struct_Model Struct_Spec.

(** ** located / at_path *)

Lemma located_at_path mt m p v : In (p, v) (located mt m) <-> at_path mt m p v.
Proof.
  split.
  - revert p v. induction m as [k|l _|l _|c d IH] using val_ind'; intros p v; cbn [located]; try (intros []).
    intro H. apply in_app_or in H. destruct H as [H|H].
    + apply in_map_iff in H. destruct H as [[k x] [[= <- <-] Hin]]. constructor. exact Hin.
    + apply in_flat_map in H. destruct H as [[k x] [Hin H]]. cbn [fst snd] in H.
      destruct (isinst mt x) eqn:E; [|destruct H].
      apply in_map_iff in H. destruct H as [[q w] [[= <- <-] Hq]]. cbn [fst snd].
      rewrite Forall_forall in IH. specialize (IH _ Hin q w Hq).
      eapply ap_down; eauto.
  - intro H. induction H as [m k v Hin | m k x p v Hin E H IH].
    + destruct m as [a|l|l|c d]; try (destruct Hin; fail). cbn [located entries] in *.
      apply in_or_app. left. apply in_map_iff. exists (k, v); split; auto.
    + destruct m as [a|l|l|c d]; try (destruct Hin; fail). cbn [located entries] in *.
      apply in_or_app. right. apply in_flat_map. exists (k, x). split; [assumption|].
      cbn [fst snd]. rewrite E. apply in_map_iff. exists (p, v); auto.
Qed.

Lemma NoDup_app {A} (l1 l2 : list A) :
  NoDup l1 -> NoDup l2 -> (forall x, In x l1 -> ~ In x l2) -> NoDup (l1 ++ l2).
Proof.
  induction l1 as [|x r IH]; simpl; intros H1 H2 H3; [assumption|].
  inversion H1; subst. constructor.
  - intro Hin. apply in_app_or in Hin. destruct Hin as [?|Hin]; [auto|]. eapply H3; eauto.
  - apply IH; auto.
Qed.

Lemma NoDup_flat_map_cons {B} (f : key * val -> list (list key * B)) d :
  wfd d = true ->
  (forall kv, In kv d -> NoDup (map fst (f kv))) ->
  (forall kv p, In kv d -> In p (map fst (f kv)) -> exists r, p = fst kv :: r) ->
  NoDup (map fst (flat_map f d)).
Proof.
  induction d as [|[k v] r IH]; simpl; intros Hw H1 H2; [constructor|].
  rewrite andb_true_iff, negb_true_iff, dhas_false in Hw. destruct Hw as [Hk Hw].
  rewrite map_app. apply NoDup_app.
  - apply H1; auto.
  - apply IH; auto.
  - intros p Hp Hq. destruct (H2 (k, v) p) as [t1 ->]; auto.
    apply in_map_iff in Hq. destruct Hq as [[q w] [Hq1 Hq2]]. simpl in Hq1. subst q.
    apply in_flat_map in Hq2. destruct Hq2 as [[k' v'] [Hin Hq2]].
    destruct (H2 (k', v') (k :: t1)) as [t2 [= Heq]]; auto.
    { apply in_map_iff. exists (k :: t1, w); auto. }
    simpl in Heq. subst k'. rewrite dget_none_iff in Hk. specialize (Hk _ _ Hin).
    rewrite keqb_refl in Hk. discriminate.
Qed.

Lemma located_cons mt m p v : In (p, v) (located mt m) -> exists k r, p = k :: r.
Proof. intro H. apply located_at_path in H. destruct H; eauto. Qed.

Lemma located_NoDup mt m : wfv m = true -> NoDup (map fst (located mt m)).
Proof.
  induction m as [k|l _|l _|c d IH] using val_ind'; cbn [located]; intro Hw; try constructor.
  apply wfv_dict in Hw. destruct Hw as [Hw Hv].
  rewrite map_app. apply NoDup_app.
  - rewrite map_map. cbn [fst]. 
    apply wfd_NoDup in Hw. unfold dkeys in Hw.
    clear IH Hv. induction d as [|[k v] r IH]; simpl in *; [constructor|].
    inversion Hw; subst. constructor; [|apply IH; assumption].
    intro Hin. apply H1. apply in_map_iff in Hin. destruct Hin as [[k' v'] [[= ->] Hin]].
    apply in_map_iff. exists (k, v'); auto.
  - apply NoDup_flat_map_cons; [assumption| |].
    + intros [k v] Hin. cbn [fst snd]. destruct (isinst mt v); [|constructor].
      rewrite map_map. cbn [fst]. rewrite Forall_forall in IH.
      specialize (IH _ Hin (Hv _ _ Hin)). cbn [snd] in IH.
      clear -IH. induction (located mt v) as [|[q w] r IHr]; simpl in *; [constructor|].
      inversion IH; subst. constructor; [|auto].
      intro Hin. apply H1. apply in_map_iff in Hin. destruct Hin as [[q' w'] [[= ->] Hin]].
      apply in_map_iff. exists (q, w'); auto.
    + intros [k v] p Hin. cbn [fst snd]. destruct (isinst mt v); [|intros []].
      rewrite map_map. intro Hp. apply in_map_iff in Hp. destruct Hp as [[q w] [<- _]]. exists q; reflexivity.
  - intros p Hp Hq. rewrite map_map in Hp. apply in_map_iff in Hp.
    destruct Hp as [[k v] [<- Hin]]. cbn [fst] in Hq.
    apply in_map_iff in Hq. destruct Hq as [[q w] [Hq1 Hq2]]. cbn [fst] in Hq1. subst q.
    apply in_flat_map in Hq2. destruct Hq2 as [[k' v'] [Hin' Hq2]]. cbn [fst snd] in Hq2.
    destruct (isinst mt v'); [|destruct Hq2].
    apply in_map_iff in Hq2. destruct Hq2 as [[q w'] [[= -> Hqn _] Hq3]].
    subst q. apply located_cons in Hq3. destruct Hq3 as (? & ? & [=]).
Qed.

(** ** dig_for_all *)

Definition litems mt m := map item_of (located mt m).

Lemma litems_dict mt c d :
  litems mt (VDict c d) =
  d ++ flat_map (fun kv => if isinst mt (snd kv) then litems mt (snd kv) else []) d.
Proof.
  unfold litems. cbn [located]. rewrite map_app. f_equal.
  - rewrite map_map. unfold item_of. cbn. induction d as [|[k v] r IH]; simpl; congruence.
  - induction d as [|[k v] r IH]; simpl; [reflexivity|].
    rewrite map_app, IH. f_equal. destruct (isinst mt v); [|reflexivity].
    rewrite map_map. apply map_ext_in. intros [q w] Hin. unfold item_of. cbn.
    destruct (located_cons _ _ _ _ Hin) as (k0 & r0 & ->). reflexivity.
Qed.

Definition uncur {A} (p : key -> val -> A) : key * val -> A := fun kv => p (fst kv) (snd kv).

Lemma filter_flat_map {A B} (f : A -> list B) p l :
  filter p (flat_map f l) = flat_map (fun x => filter p (f x)) l.
Proof.
  induction l as [|x r IH]; simpl; [reflexivity|]. rewrite <- IH.
  induction (f x) as [|y s IHs]; simpl; [reflexivity|]. destruct (p y); simpl; congruence.
Qed.

Lemma filter_app' {A} (p : A -> bool) l1 l2 : filter p (l1 ++ l2) = filter p l1 ++ filter p l2.
Proof. induction l1; simpl; [reflexivity|]. destruct (p a); simpl; congruence. Qed.

Lemma mapM_nests_ok {A} mt (f : val -> res A) (g : val -> A) d :
  (forall k v, In (k, v) d -> isinst mt v = true -> f v = Ok (g v)) ->
  mapM_nests mt f d =
  Ok (map (fun kv => g (snd kv)) (filter (fun kv => isinst mt (snd kv)) d)).
Proof.
  induction d as [|[k v] r IH]; intros H; [reflexivity|].
  cbn [mapM_nests filter snd]. destruct (isinst mt v) eqn:E.
  - rewrite (H k v) by (auto; left; reflexivity). cbn [bind].
    fold (mapM_nests mt f). rewrite IH; [reflexivity|]. intros; eapply H; eauto. right; eassumption.
  - fold (mapM_nests mt f). rewrite IH; [reflexivity|]. intros; eapply H; eauto. right; eassumption.
Qed.

Lemma concat_map_filter {A B} (g : A -> list B) (q : A -> bool) l :
  List.concat (map g (filter q l)) = flat_map (fun x => if q x then g x else []) l.
Proof.
  induction l as [|x r IH]; simpl; [reflexivity|].
  destruct (q x); simpl; congruence.
Qed.

Lemma dig_for_all_ok mt (pr : pred) (p : key -> val -> bool) c d :
  (forall k v, In (k, v) (litems mt (VDict c d)) -> pr k v = Ok (p k v)) ->
  dig_for_all (VDict c d) pr mt = Ok (filter (uncur p) (litems mt (VDict c d))).
Proof.
  remember (VDict c d) as m eqn:Em. revert c d Em.
  induction m as [k|l _|l _|c0 d0 IH] using val_ind'; intros c d [= -> ->]; intros H.
  cbn [dig_for_all]. rewrite litems_dict in *.
  rewrite (filterM_ok _ (uncur p)).
  2:{ intros [k v] Hin. apply H. apply in_or_app; auto. }
  cbn [bind].
  rewrite (mapM_nests_ok mt _ (fun v => filter (uncur p) (litems mt v))).
  2:{ intros k v Hin E. destruct (isinst_dict _ _ E) as (c' & d' & -> & _).
      rewrite Forall_forall in IH. eapply (IH _ Hin); [reflexivity|].
      intros k' v' Hin'. apply H. apply in_or_app. right.
      apply in_flat_map. exists (k, VDict c' d'). cbn [snd]. rewrite E. auto. }
  cbn [bind]. rewrite filter_app'. f_equal. f_equal.
  rewrite filter_flat_map.
  rewrite (concat_map_filter (fun kv => filter (uncur p) (litems mt (snd kv)))).
  apply flat_map_ext. intros [k v]. cbn [snd]. destruct (isinst mt v); reflexivity.
Qed.

Lemma dig_all_wrapper_ok {A} mt r match_ bp (p : key -> val -> bool) c d (ix : key * val -> A) :
  (forall q v, at_path mt (VDict c d) q v ->
     constant_to_dig_predicate r match_ bp (last q KNone) v = Ok (p (last q KNone) v)) ->
  dig_all_wrapper (VDict c d) r match_ bp ix mt =
  Ok (none_if_empty (map ix (matching mt p (VDict c d)))).
Proof.
  intro H. unfold dig_all_wrapper.
  rewrite (dig_for_all_ok _ _ p).
  2:{ intros k v Hin. unfold litems in Hin. apply in_map_iff in Hin.
      destruct Hin as [[q w] [[= <- <-] Hin]]. apply H. apply located_at_path. exact Hin. }
  cbn [bind]. unfold matching. fold (litems mt (VDict c d)).
  change (fun kv => p (fst kv) (snd kv)) with (uncur p).
  destruct (filter (uncur p) (litems mt (VDict c d))); reflexivity.
Qed.

(** ** dig_for *)

Lemma dig_for_level mt (pr : pred) (p : key -> val -> bool) c d :
  (forall k v, In (k, v) d -> pr k v = Ok (p k v)) -> (exists k v, In (k, v) d /\ p k v = true) ->
  dig_for (VDict c d) pr mt = Ok (Some (filter (fun kv => p (fst kv) (snd kv)) d)).
Proof.
  intros H (k & v & Hin & Hp). cbn [dig_for]. rewrite (filterM_ok _ (uncur p)) by (intros [k' v'] Hin'; apply H, Hin').
  cbn [bind]. assert (G : In (k, v) (filter (uncur p) d)) by (apply filter_In; split; assumption).
  change (fun kv => p (fst kv) (snd kv)) with (uncur p). destruct (filter (uncur p) d); [destruct G|reflexivity].
Qed.

Lemma dig_for_ok mt (pr : pred) (p : key -> val -> bool) c d :
  (forall k v, In (k, v) (litems mt (VDict c d)) -> pr k v = Ok (p k v)) ->
  exists o, dig_for (VDict c d) pr mt = Ok o /\
    match o with
    | None => filter (uncur p) (litems mt (VDict c d)) = []
    | Some [] => False
    | Some (x :: _) => exists r, filter (uncur p) (litems mt (VDict c d)) = x :: r
    end.
Proof.
  remember (VDict c d) as m eqn:Em. revert c d Em.
  induction m as [k|l _|l _|c0 d0 IH] using val_ind'; intros c d [= -> ->]; intros H.
  cbn [dig_for]. rewrite litems_dict in *.
  rewrite (filterM_ok _ (uncur p)).
  2:{ intros [k v] Hin. apply H. apply in_or_app; auto. }
  cbn [bind]. rewrite filter_app'.
  destruct (filter (uncur p) d) as [|x r] eqn:Ef.
  2:{ eexists. split; [reflexivity|]. cbn. eauto. }
  cbn [app]. clear Ef. 
  assert (HH : forall k v, In (k, v) (flat_map (fun kv : key * val => if isinst mt (snd kv) then litems mt (snd kv) else []) d) ->
     pr k v = Ok (p k v)) by (intros; apply H; apply in_or_app; auto).
  clear H. induction d as [|[k v] r IHd].
  - exists None. split; reflexivity.
  - inversion IH as [|? ? IH1 IH2]; subst. cbn [snd] in IH1. cbn [first_nests flat_map snd] in *.
    fold (@first_nests (list (key * val)) mt) in *.
    assert (IHr := IHd IH2 (fun k v Hin => HH k v (in_or_app _ _ _ (or_intror Hin)))).
    destruct (isinst mt v) eqn:E; [|exact IHr].
    destruct (isinst_dict _ _ E) as (c' & d' & -> & _).
    destruct (IH1 c' d' eq_refl) as (o & Ho & Hspec).
    { intros; apply HH. apply in_or_app; auto. }
    rewrite Ho. rewrite filter_app'.
    destruct o as [[|x o']|]; [contradiction| |].
    + eexists; split; [reflexivity|]. destruct Hspec as [t Ht]. rewrite Ht. eexists; reflexivity.
    + rewrite Hspec. exact IHr.
Qed.

Lemma dig_wrapper_ok {A} mt r match_ bp (p : key -> val -> bool) c d (ix : key * val -> A) :
  (forall q v, at_path mt (VDict c d) q v ->
     constant_to_dig_predicate r match_ bp (last q KNone) v = Ok (p (last q KNone) v)) ->
  dig_wrapper (VDict c d) r match_ bp ix mt =
  Ok (option_map ix (hd_error (matching mt p (VDict c d)))).
Proof.
  intro H. unfold dig_wrapper.
  destruct (dig_for_ok mt (constant_to_dig_predicate r match_ bp) p c d) as (o & Ho & Hs).
  { intros k v Hin. unfold litems in Hin. apply in_map_iff in Hin.
    destruct Hin as [[q w] [[= <- <-] Hin]]. apply H. apply located_at_path. exact Hin. }
  rewrite Ho. cbn [bind]. unfold matching. fold (litems mt (VDict c d)).
  change (fun kv => p (fst kv) (snd kv)) with (uncur p).
  destruct o as [[|x o']|]; [contradiction| |].
  - destruct Hs as [t ->]. reflexivity.
  - rewrite Hs. reflexivity.
Qed.

(** Exceptions: raised iff the predicate raises on some reachable item. *)
Lemma filterM_exc {A} (f : A -> res bool) l e :
  filterM f l = Exc e -> exists x, In x l /\ f x = Exc e.
Proof.
  induction l as [|x r IH]; simpl; [discriminate|].
  destruct (f x) eqn:E; simpl.
  - destruct (filterM f r) eqn:Er; simpl; [discriminate|].
    intros [= ->]. destruct (IH eq_refl) as (y & ? & ?). eauto.
  - intros [= ->]. eauto.
Qed.
Lemma filterM_all {A} (f : A -> res bool) l l' :
  filterM f l = Ok l' -> forall x, In x l -> exists b, f x = Ok b.
Proof.
  revert l'; induction l as [|x r IH]; simpl; [tauto|]. intros l'.
  destruct (f x) eqn:E; simpl; [|discriminate].
  destruct (filterM f r) eqn:Er; simpl; [|discriminate].
  intros _ y [<-|Hin]; eauto.
Qed.

Lemma dig_for_all_exc mt (pr : pred) c d e :
  dig_for_all (VDict c d) pr mt = Exc e ->
  exists k v, In (k, v) (litems mt (VDict c d)) /\ pr k v = Exc e.
Proof.
  remember (VDict c d) as m eqn:Em. revert c d Em e.
  induction m as [k|l _|l _|c0 d0 IH] using val_ind'; intros c d [= -> ->] e.
  cbn [dig_for_all]. rewrite litems_dict.
  destruct (filterM (fun kv => pr (fst kv) (snd kv)) d) eqn:Ef; cbn [bind].
  2:{ intros [= ->]. apply filterM_exc in Ef. destruct Ef as ([k v] & Hin & He).
      exists k, v. split; [apply in_or_app; auto|exact He]. }
  destruct (mapM_nests mt (fun v => dig_for_all v pr mt) d) eqn:En; cbn [bind]; [discriminate|].
  intros [= ->]. clear Ef.
  assert (exists k v, In (k, v) (flat_map (fun kv : key * val => if isinst mt (snd kv) then litems mt (snd kv) else []) d) /\ pr k v = Exc e) as (k & v & Hin & He).
  { induction d as [|[k v] r IHd]; [discriminate|].
    inversion IH as [|? ? IH1 IH2]; subst. cbn [mapM_nests flat_map snd] in *.
    fold (@mapM_nests (list (key * val)) mt) in *.
    destruct (isinst mt v) eqn:E.
    - destruct (isinst_dict _ _ E) as (c' & d' & -> & _).
      destruct (dig_for_all (VDict c' d') pr mt) eqn:Ed; cbn [bind] in En.
      + destruct (mapM_nests mt (fun v => dig_for_all v pr mt) r) eqn:Er; [discriminate|].
        injection En as ->. destruct (IHd IH2 eq_refl) as (k' & v' & Hin & He).
        exists k', v'. split; [apply in_or_app; auto|exact He].
      + injection En as ->. destruct (IH1 c' d' eq_refl e eq_refl) as (k' & v' & Hin & He).
        exists k', v'. split; [apply in_or_app; auto|exact He].
    - destruct (IHd IH2 En) as (k' & v' & Hin & He). exists k', v'. split; auto. }
  exists k, v. split; [apply in_or_app; auto|exact He].
Qed.

Lemma dig_for_all_raises mt (pr : pred) c d :
  (exists e, dig_for_all (VDict c d) pr mt = Exc e) <->
  (exists k v e, In (k, v) (litems mt (VDict c d)) /\ pr k v = Exc e).
Proof.
  split.
  - intros [e He]. destruct (dig_for_all_exc _ _ _ _ _ He) as (k & v & ? & ?). eauto.
  - destruct (dig_for_all (VDict c d) pr mt) eqn:E; [|eauto].
    intros (k & v & e & Hin & He). exfalso. revert E.
    remember (VDict c d) as m eqn:Em. revert c d Em a Hin.
    induction m as [k0|l _|l _|c0 d0 IH] using val_ind'; intros c d [= -> ->] a Hin.
    cbn [dig_for_all]. rewrite litems_dict in Hin.
    destruct (filterM (fun kv => pr (fst kv) (snd kv)) d) eqn:Ef; cbn [bind]; [|discriminate].
    destruct (mapM_nests mt (fun v => dig_for_all v pr mt) d) as [nn|] eqn:En; cbn [bind]; [|discriminate].
    intros _. apply in_app_or in Hin. destruct Hin as [Hin|Hin].
    + destruct (filterM_all _ _ _ Ef _ Hin) as [b Hb]. cbn in Hb. congruence.
    + clear Ef. revert nn En. induction d as [|[k' v'] r IHd]; intros nn En; [destruct Hin|].
      inversion IH as [|? ? IH1 IH2]; subst. cbn [mapM_nests flat_map snd] in *.
      fold (@mapM_nests (list (key * val)) mt) in *.
      destruct (isinst mt v') eqn:E.
      * destruct (isinst_dict _ _ E) as (c' & d' & -> & _).
        destruct (dig_for_all (VDict c' d') pr mt) eqn:Ed; cbn [bind] in En; [|discriminate].
        destruct (mapM_nests mt (fun v => dig_for_all v pr mt) r) eqn:Er; [|discriminate].
        apply in_app_or in Hin. destruct Hin as [Hin|Hin].
        -- eapply (IH1 c' d' eq_refl); eauto.
        -- eapply IHd; eauto.
      * eapply IHd; eauto.
Qed.

(** ** dig_and_edit *)

Section EditInd.
  Variables (p : key -> val -> bool) (s : key -> val -> val) (mt : cls -> bool).
  Variable P : val -> val -> Prop.
  Variable Q : key * val -> key * val -> Prop.
  Hypothesis Hd : forall c d d', Forall2 (EditedEntry p s mt) d d' -> Forall2 Q d d' ->
    P (VDict c d) (VDict c d').
  Hypothesis Hl : forall k v, isinst mt (if p k v then s k v else v) = false ->
    Q (k, v) (k, if p k v then s k v else v).
  Hypothesis Hn : forall k v w, isinst mt (if p k v then s k v else v) = true ->
    Edited p s mt (if p k v then s k v else v) w ->
    P (if p k v then s k v else v) w -> Q (k, v) (k, w).
  Fixpoint Edited_ind' a b (H : Edited p s mt a b) {struct H} : P a b :=
    match H in Edited _ _ _ a b return P a b with
    | Ed _ _ _ c d d' HF =>
        Hd c d d' HF
          ((fix go d d' (HF : Forall2 (EditedEntry p s mt) d d') : Forall2 Q d d' :=
             match HF with
             | Forall2_nil _ => Forall2_nil _
             | Forall2_cons x y Hxy HF' =>
                 Forall2_cons x y
                   (match Hxy in EditedEntry _ _ _ x y return Q x y with
                    | Ed_leaf _ _ _ k v E => Hl k v E
                    | Ed_nest _ _ _ k v w E H' => Hn k v w E H' (Edited_ind' _ _ H')
                    end) (go _ _ HF')
             end) d d' HF)
    end.
End EditInd.

Section Edit.
  Variables (fpr : pred) (spr : key -> val -> res val).
  Variables (p : key -> val -> bool) (s : key -> val -> val) (mt : cls -> bool).
  Hypothesis Hf : forall k v, fpr k v = Ok (p k v).
  Hypothesis Hs : forall k v, spr k v = Ok (s k v).

  Lemma edit_level d1 d2 :
    wfd (d1 ++ d2) = true ->
    foldM (fun acc kv => nv <- spr (fst kv) (snd kv) ;; Ok (dset acc (fst kv) nv))
      (filter (uncur p) d2)
      (map (fun kv => (fst kv, if uncur p kv then s (fst kv) (snd kv) else snd kv)) d1 ++ d2)
    = Ok (map (fun kv => (fst kv, if uncur p kv then s (fst kv) (snd kv) else snd kv)) (d1 ++ d2)).
  Proof.
    revert d1; induction d2 as [|[k v] r IH]; intros d1 Hw.
    - simpl. rewrite !app_nil_r. reflexivity.
    - assert (Hw' : wfd ((d1 ++ [(k, v)]) ++ r) = true) by (rewrite <- app_assoc; exact Hw).
      specialize (IH (d1 ++ [(k, v)]) Hw'). rewrite <- app_assoc in IH. cbn [app] in IH.
      rewrite map_app in IH. cbn [map fst snd] in IH.
      cbn [filter].
      destruct (uncur p (k, v)) eqn:E.
      + cbn [foldM fst snd]. rewrite Hs. cbn [bind].
        match goal with |- foldM _ _ (dset (?a ++ _) _ _) = _ =>
          replace (dset (a ++ (k, v) :: r) k (s k v)) with ((a ++ [(k, s k v)]) ++ r) end.
        * exact IH.
        * rewrite <- app_assoc. cbn [app].
          assert (Hk : forall k' v', In (k', v') d1 -> keqb k' k = false).
          { apply wfd_app in Hw. destruct Hw as (_ & _ & Hw). intros k' v' Hin.
            specialize (Hw _ _ Hin). simpl in Hw. rewrite keqb_sym.
            destruct (keqb k k'); [discriminate|reflexivity]. }
          clear -Hk. induction d1 as [|[a b] q IHq]; simpl.
          -- rewrite keqb_refl. reflexivity.
          -- rewrite (Hk a b) by (left; reflexivity). f_equal. apply IHq. intros; eapply Hk; right; eauto.
      + rewrite <- app_assoc in IH. exact IH.
  Qed.

  Lemma edit_unfold fuel c d :
    wfd d = true ->
    dig_and_edit (S fuel) (VDict c d) fpr spr mt =
    (d2 <- edit_nests mt (fun v => dig_and_edit fuel v fpr spr mt)
       (map (fun kv => (fst kv, if uncur p kv then s (fst kv) (snd kv) else snd kv)) d) ;;
     Ok (VDict c d2)).
  Proof.
    intro Hw. cbn [dig_and_edit].
    rewrite (filterM_ok _ (uncur p)) by (intros [k v] _; apply Hf). cbn [bind].
    pose proof (edit_level [] d Hw) as HL; cbn [map app] in HL; rewrite HL. reflexivity.
  Qed.

  Hypothesis Hwf : forall k v, wfv v = true -> wfv (s k v) = true.

  Lemma wfv_upd k v : wfv v = true -> wfv (if p k v then s k v else v) = true.
  Proof. destruct (p k v); auto. Qed.

  Lemma dig_and_edit_sound fuel m m' :
    wfv m = true -> dig_and_edit fuel m fpr spr mt = Ok m' -> Edited p s mt m m'.
  Proof.
    revert m m'. induction fuel as [|fuel IH]; intros m m' Hw; [discriminate|].
    destruct m as [k|l|l|c d]; try discriminate.
    apply wfv_dict in Hw. destruct Hw as [Hw Hv]. rewrite edit_unfold by assumption.
    destruct (edit_nests _ _ _) as [d2|] eqn:En; cbn [bind]; [|discriminate].
    intros [= <-]. constructor.
    clear Hw. revert d2 En. induction d as [|[k v] r IHd]; cbn [map edit_nests fst snd uncur].
    - intros d2 [= <-]. constructor.
    - fold (edit_nests mt (fun v => dig_and_edit fuel v fpr spr mt)). change (uncur p (k, v)) with (p k v).
      intros d2. destruct (isinst mt (if p k v then s k v else v)) eqn:E.
      + destruct (dig_and_edit fuel _ fpr spr mt) as [w|] eqn:Ew; cbn [bind]; [|discriminate].
        destruct (edit_nests mt _ _) as [r'|] eqn:Er; cbn [bind]; [|discriminate].
        intros [= <-]. constructor; [|apply IHd; [intros; eapply Hv; right; eauto|reflexivity]].
        apply Ed_nest; [assumption|]. apply (IH _ _ (wfv_upd k v (Hv k v (or_introl eq_refl))) Ew).
      + cbn [bind]. destruct (edit_nests mt _ _) as [r'|] eqn:Er; cbn [bind]; [|discriminate].
        intros [= <-]. constructor; [|apply IHd; [intros; eapply Hv; right; eauto|reflexivity]].
        apply Ed_leaf; assumption.
  Qed.

  Lemma dig_and_edit_mono fuel fuel' m m' :
    wfv m = true -> fuel <= fuel' ->
    dig_and_edit fuel m fpr spr mt = Ok m' -> dig_and_edit fuel' m fpr spr mt = Ok m'.
  Proof.
    revert fuel' m m'. induction fuel as [|fuel IH]; intros fuel' m m' Hw Hle; [discriminate|].
    destruct fuel' as [|fuel']; [lia|].
    destruct m as [k|l|l|c d]; try discriminate.
    apply wfv_dict in Hw. destruct Hw as [Hw Hv]. rewrite !edit_unfold by assumption.
    destruct (edit_nests mt (fun v => dig_and_edit fuel v fpr spr mt) _) as [d2|] eqn:En; cbn [bind]; [|discriminate].
    intros [= <-].
    enough (edit_nests mt (fun v => dig_and_edit fuel' v fpr spr mt)
       (map (fun kv => (fst kv, if uncur p kv then s (fst kv) (snd kv) else snd kv)) d) = Ok d2) as -> by reflexivity.
    clear Hw. revert d2 En. induction d as [|[k v] r IHd]; cbn [map edit_nests fst snd]; [auto|].
    fold (edit_nests mt (fun v => dig_and_edit fuel v fpr spr mt)).
    fold (edit_nests mt (fun v => dig_and_edit fuel' v fpr spr mt)). change (uncur p (k, v)) with (p k v).
    intros d2. destruct (isinst mt (if p k v then s k v else v)) eqn:E.
    - destruct (dig_and_edit fuel _ fpr spr mt) as [w|] eqn:Ew; cbn [bind]; [|discriminate].
      rewrite (IH fuel' _ _ (wfv_upd k v (Hv k v (or_introl eq_refl))) ltac:(lia) Ew). cbn [bind].
      destruct (edit_nests mt _ _) as [r'|] eqn:Er; cbn [bind]; [|discriminate].
      intros [= <-]. rewrite (IHd (fun k v Hin => Hv k v (or_intror Hin)) _ eq_refl). reflexivity.
    - cbn [bind]. destruct (edit_nests mt _ _) as [r'|] eqn:Er; cbn [bind]; [|discriminate].
      intros [= <-]. rewrite (IHd (fun k v Hin => Hv k v (or_intror Hin)) _ eq_refl). reflexivity.
  Qed.

  Lemma dig_and_edit_complete m m' :
    Edited p s mt m m' -> wfv m = true ->
    exists n, dig_and_edit n m fpr spr mt = Ok m'.
  Proof.
    intro H. revert m m' H.
    apply (Edited_ind' p s mt
      (fun m m' => wfv m = true -> exists n, dig_and_edit n m fpr spr mt = Ok m')
      (fun x y => wfv (snd x) = true -> fst x = fst y /\
         exists n, (let v1 := if p (fst x) (snd x) then s (fst x) (snd x) else snd x in
           if isinst mt v1 then dig_and_edit n v1 fpr spr mt else Ok v1) = Ok (snd y))).
    - intros c d d' _ HF Hw. apply wfv_dict in Hw. destruct Hw as [Hw Hv].
      assert (exists n, edit_nests mt (fun v => dig_and_edit n v fpr spr mt)
        (map (fun kv => (fst kv, if uncur p kv then s (fst kv) (snd kv) else snd kv)) d) = Ok d') as [n Hn].
      { clear Hw. induction HF as [|[k v] [k' w] r r' H HF IH]; [exists 0; reflexivity|].
        destruct H as [Hk [n1 Hn1]]; [apply (Hv k v); left; reflexivity|].
        destruct IH as [n2 Hn2]; [intros; eapply Hv; right; eauto|].
        cbn [fst snd] in *. subst k'. exists (n1 + n2). cbn [map edit_nests fst snd].
        fold (edit_nests mt (fun v => dig_and_edit (n1 + n2) v fpr spr mt)).
        assert (Hn2' : edit_nests mt (fun v => dig_and_edit (n1 + n2) v fpr spr mt)
          (map (fun kv => (fst kv, if uncur p kv then s (fst kv) (snd kv) else snd kv)) r) = Ok r').
        { assert (Hvr : forall k v, In (k, v) r -> wfv v = true) by (intros; eapply Hv; right; eauto).
          clear -Hn2 Hf Hs Hwf Hvr. revert r' Hn2. induction r as [|[k v] r IHr]; cbn [map edit_nests fst snd]; [auto|].
          fold (edit_nests mt (fun v => dig_and_edit n2 v fpr spr mt)).
          fold (edit_nests mt (fun v => dig_and_edit (n1 + n2) v fpr spr mt)).
          change (uncur p (k, v)) with (p k v). intros r'.
          destruct (isinst mt (if p k v then s k v else v)) eqn:E.
          - destruct (dig_and_edit n2 _ fpr spr mt) as [w|] eqn:Ew; cbn [bind]; [|discriminate].
            rewrite (dig_and_edit_mono n2 (n1 + n2) _ _ (wfv_upd k v (Hvr k v (or_introl eq_refl))) ltac:(lia) Ew). cbn [bind].
            destruct (edit_nests mt _ _) as [q|] eqn:Er; cbn [bind]; [|discriminate].
            intros [= <-]. rewrite (IHr (fun k v Hin => Hvr k v (or_intror Hin)) _ eq_refl). reflexivity.
          - cbn [bind]. destruct (edit_nests mt _ _) as [q|] eqn:Er; cbn [bind]; [|discriminate].
            intros [= <-]. rewrite (IHr (fun k v Hin => Hvr k v (or_intror Hin)) _ eq_refl). reflexivity. }
        change (uncur p (k, v)) with (p k v). 
        destruct (isinst mt (if p k v then s k v else v)) eqn:E.
        - rewrite (dig_and_edit_mono n1 (n1 + n2) _ _ (wfv_upd k v (Hv k v (or_introl eq_refl))) ltac:(lia) Hn1). cbn [bind].
          rewrite Hn2'. reflexivity.
        - injection Hn1 as ->. cbn [bind]. rewrite Hn2'. reflexivity. }
      exists (S n). rewrite edit_unfold by assumption. rewrite Hn. reflexivity.
    - intros k v E _. split; [reflexivity|]. exists 0. cbn [fst snd]. rewrite E. reflexivity.
    - intros k v w E _ IH Hv. split; [reflexivity|]. cbn [fst snd] in *. rewrite E.
      destruct (IH (wfv_upd _ _ Hv)) as [n Hn]. exists n. exact Hn.
  Qed.

  Lemma dig_and_edit_iff m m' :
    wfv m = true ->
    (exists n, forall fuel, n <= fuel -> dig_and_edit fuel m fpr spr mt = Ok m') <-> Edited p s mt m m'.
  Proof.
    intro Hw. split.
    - intros [n Hn]. apply (dig_and_edit_sound n); auto.
    - intro H. destruct (dig_and_edit_complete _ _ H Hw) as [n Hn].
      exists n. intros fuel Hle. eapply dig_and_edit_mono; eauto.
  Qed.

  Lemma dig_and_edit_terminates :
    (forall k v, depth (s k v) <= depth v) ->
    forall fuel m, wfv m = true -> is_mapping m = true -> depth m <= fuel ->
    exists m', dig_and_edit fuel m fpr spr mt = Ok m'.
  Proof.
    intros Hdep. induction fuel as [|fuel IH]; intros m Hw Hm Hd.
    - destruct m; try discriminate. simpl in Hd. lia.
    - destruct m as [k|l|l|c d]; try discriminate.
      pose proof Hw as Hw0. apply wfv_dict in Hw. destruct Hw as [Hw Hv].
      rewrite edit_unfold by assumption.
      assert (Hlt : forall k v, In (k, v) d -> depth v <= fuel).
      { intros k v Hin. pose proof (depth_In c d k v Hin). lia. }
      assert (exists d2, edit_nests mt (fun v => dig_and_edit fuel v fpr spr mt)
        (map (fun kv => (fst kv, if uncur p kv then s (fst kv) (snd kv) else snd kv)) d) = Ok d2) as [d2 Hd2].
      { clear Hw Hw0 Hd Hm. induction d as [|[k v] r IHd]; [eexists; reflexivity|].
        destruct IHd as [r' Hr']; [intros; eapply Hv; right; eauto|intros; eapply Hlt; right; eauto|].
        cbn [map edit_nests fst snd]. change (uncur p (k, v)) with (p k v).
        fold (edit_nests mt (fun v => dig_and_edit fuel v fpr spr mt)). rewrite Hr'.
        destruct (isinst mt (if p k v then s k v else v)) eqn:E.
        - destruct (IH (if p k v then s k v else v)) as [w Hwv].
          + apply wfv_upd. apply (Hv k v). left; reflexivity.
          + destruct (isinst_dict _ _ E) as (? & ? & -> & _). reflexivity.
          + specialize (Hlt k v (or_introl eq_refl)). specialize (Hdep k v).
            destruct (p k v); lia.
          + rewrite Hwv. eexists; reflexivity.
        - eexists; reflexivity. }
      rewrite Hd2. eexists; reflexivity.
  Qed.
End Edit.

(** A leaf on a path none of whose entries match is unchanged. *)
Lemma edited_unmatched p s mt m m' q v :
  Edited p s mt m m' -> at_path mt m q v -> isinst mt v = false ->
  (forall q1 q2 x, q = q1 ++ q2 -> q1 <> [] -> at_path mt m q1 x -> p (last q1 KNone) x = false) ->
  at_path mt m' q v.
Proof.
  intros HE Hp Hv. revert m' HE. induction Hp as [m k v Hin | m k x q v Hin E Hp IH]; intros m' HE Hq.
  - inversion HE as [c d d' HF]; subst. cbn [entries] in Hin.
    constructor. cbn [entries].
    assert (Hn : p k v = false).
    { apply (Hq [k] [] v); [reflexivity|discriminate|constructor; exact Hin]. }
    clear Hq HE. induction HF as [|[k1 v1] [k2 v2] r r' H HF IH]; [destruct Hin|].
    destruct Hin as [[= -> ->]|Hin]; [|right; auto].
    left. inversion H; subst; rewrite Hn in *; [reflexivity|congruence].
  - inversion HE as [c d d' HF]; subst. cbn [entries] in Hin.
    assert (Hn : p k x = false).
    { apply (Hq [k] q x); [reflexivity|discriminate|constructor; exact Hin]. }
    assert (exists w, In (k, w) d' /\ Edited p s mt x w) as (w & Hw & HEw).
    { clear Hq HE IH. induction HF as [|[k1 v1] [k2 v2] r r' H HF IH]; [destruct Hin|].
      destruct Hin as [[= -> ->]|Hin].
      - inversion H; subst; rewrite Hn in *; [congruence|]. exists v2. split; [left; reflexivity|assumption].
      - destruct (IH Hin) as (w & ? & ?). exists w. split; [right; assumption|assumption]. }
    assert (Hww : isinst mt w = true).
    { inversion HEw; subst. exact E. }
    eapply ap_down; [exact Hw|exact Hww|].
    apply IH; [assumption|assumption|].
    intros q1 q2 y -> Hne Hy.
    specialize (Hq (k :: q1) q2 y eq_refl ltac:(discriminate)).
    assert (Hl : last (k :: q1) KNone = last q1 KNone) by (destruct q1; [congruence|reflexivity]).
    rewrite Hl in Hq. apply Hq. eapply ap_down; eauto.
Qed.

(** The result of editing is determined. *)
Lemma edited_fun p s mt m m1 m2 : Edited p s mt m m1 -> Edited p s mt m m2 -> m1 = m2.
Proof.
  intros H. revert m2. revert m m1 H.
  apply (Edited_ind' p s mt
    (fun m m1 => forall m2, Edited p s mt m m2 -> m1 = m2)
    (fun x y => forall z, EditedEntry p s mt x z -> y = z)).
  - intros c d d' _ HF m2 H2. inversion H2 as [c2 dd d2 HF2]; subst. f_equal.
    clear H2. revert d2 HF2. induction HF as [|x y r r' H HF IH]; intros d2 HF2; inversion HF2; subst; [reflexivity|].
    f_equal; auto.
  - intros k v E z Hz. inversion Hz; subst; congruence.
  - intros k v w E _ IH z Hz. inversion Hz; subst; [congruence|]. f_equal. auto.
Qed.

(** A setter that wraps the value keeps matching its own output. *)
Lemma dig_and_edit_diverges : 
  let f : pred := fun k _ => Ok (keqb k (KStr "a")) in
  let s := fun (k : key) (v : val) => Ok (VDict CDict [(KStr "a", v)]) in
  forall fuel v, dig_and_edit fuel (VDict CDict [(KStr "a", v)]) f s is_dict_cls = Exc RecursionError.
Proof.
  intros f s. induction fuel as [|fuel IH]; intro v; [reflexivity|].
  cbn [dig_and_edit filterM fst snd f bind]. rewrite keqb_refl. cbn [bind foldM fst snd s dset].
  rewrite keqb_refl. cbn [bind edit_nests isinst is_dict_cls]. rewrite IH. reflexivity.
Qed.
