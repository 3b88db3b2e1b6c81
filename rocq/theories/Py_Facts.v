(** Lemmas about the Python base model. *)
From Coq Require Export Lia.
From Verif Require Export Py_Model.

(** ** Keys *)
Lemma keqb_true a b : keqb a b = true <-> knorm a = knorm b.
Proof. unfold keqb; destruct (key_eq_dec (knorm a) (knorm b)); split; congruence. Qed.
Lemma keqb_false a b : keqb a b = false <-> knorm a <> knorm b.
Proof. unfold keqb; destruct (key_eq_dec (knorm a) (knorm b)); split; congruence. Qed.
Lemma keqb_refl a : keqb a a = true.
Proof. apply keqb_true; reflexivity. Qed.
Lemma keqb_sym a b : keqb a b = keqb b a.
Proof.
  destruct (keqb a b) eqn:E; symmetry.
  - apply keqb_true in E. apply keqb_true. congruence.
  - apply keqb_false in E. apply keqb_false. congruence.
Qed.
Lemma keqb_trans a b c : keqb a b = true -> keqb b c = true -> keqb a c = true.
Proof. rewrite !keqb_true; congruence. Qed.
Lemma keqb_l a b c : keqb a b = true -> keqb a c = keqb b c.
Proof.
  intro H. destruct (keqb b c) eqn:E.
  - eapply keqb_trans; eauto.
  - apply keqb_false in E. apply keqb_false. apply keqb_true in H. congruence.
Qed.
Lemma keqb_r a b c : keqb a b = true -> keqb c a = keqb c b.
Proof. intro H. rewrite (keqb_sym c a), (keqb_sym c b). apply keqb_l; assumption. Qed.
Lemma keqb_str a b : keqb (KStr a) (KStr b) = true <-> a = b.
Proof. rewrite keqb_true; simpl; split; congruence. Qed.
Lemma keqb_int a b : keqb (KInt a) (KInt b) = true <-> a = b.
Proof. rewrite keqb_true; simpl; split; congruence. Qed.

(** ** Monad *)
Lemma mapM_ok {A B} (f : A -> res B) (g : A -> B) l :
  (forall x, In x l -> f x = Ok (g x)) -> mapM f l = Ok (map g l).
Proof.
  induction l as [|x r IH]; simpl; intros H; [reflexivity|].
  rewrite H by auto; simpl. rewrite IH by auto. reflexivity.
Qed.
Lemma filterM_ok {A} (f : A -> res bool) (g : A -> bool) l :
  (forall x, In x l -> f x = Ok (g x)) -> filterM f l = Ok (filter g l).
Proof.
  induction l as [|x r IH]; simpl; intros H; [reflexivity|].
  rewrite H by auto; simpl. rewrite IH by auto. simpl. destruct (g x); reflexivity.
Qed.
Lemma foldM_app {A S} (f : S -> A -> res S) l1 l2 s :
  foldM f (l1 ++ l2) s = (s' <- foldM f l1 s ;; foldM f l2 s').
Proof.
  revert s; induction l1 as [|x r IH]; simpl; intros s; [reflexivity|].
  destruct (f s x); simpl; [apply IH|reflexivity].
Qed.
Lemma foldM_ok {A S} (f : S -> A -> res S) (g : S -> A -> S) l s :
  (forall s x, In x l -> f s x = Ok (g s x)) -> foldM f l s = Ok (fold_left g l s).
Proof.
  revert s; induction l as [|x r IH]; simpl; intros s H; [reflexivity|].
  rewrite H by auto; simpl. apply IH; auto.
Qed.

(** ** Dictionaries *)
Section Dict.
  Context {V : Type}.
  Implicit Types (d : dict V) (k : key) (v : V).

  Lemma dget_keqb d k k' : keqb k k' = true -> dget d k = dget d k'.
  Proof.
    intro H; induction d as [|[a b] r IH]; simpl; [reflexivity|].
    rewrite (keqb_r _ _ a H). destruct (keqb a k'); auto.
  Qed.

  Lemma dget_dset d k v k' :
    dget (dset d k v) k' = if keqb k k' then Some v else dget d k'.
  Proof.
    induction d as [|[a b] r IH]; simpl; [reflexivity|].
    destruct (keqb a k) eqn:E; simpl.
    - destruct (keqb a k') eqn:E'.
      + rewrite (keqb_l _ _ k' E) in E'. rewrite E'. reflexivity.
      + rewrite (keqb_l _ _ k' E) in E'. rewrite E'. reflexivity.
    - rewrite IH. destruct (keqb a k') eqn:E'; [|reflexivity].
      destruct (keqb k k') eqn:E2; [|reflexivity].
      exfalso. rewrite keqb_sym in E2.
      rewrite (keqb_trans _ _ _ E' E2) in E. discriminate.
  Qed.
  Lemma dget_dset_eq d k v : dget (dset d k v) k = Some v.
  Proof. rewrite dget_dset, keqb_refl; reflexivity. Qed.
  Lemma dget_dset_ne d k v k' : keqb k k' = false -> dget (dset d k v) k' = dget d k'.
  Proof. intro H; rewrite dget_dset, H; reflexivity. Qed.

  Lemma dget_app d1 d2 k :
    dget (d1 ++ d2) k = match dget d1 k with Some v => Some v | None => dget d2 k end.
  Proof.
    induction d1 as [|[a b] r IH]; simpl; [reflexivity|].
    destruct (keqb a k); auto.
  Qed.

  Lemma dget_In d k v : dget d k = Some v -> exists k', In (k', v) d /\ keqb k' k = true.
  Proof.
    induction d as [|[a b] r IH]; simpl; [discriminate|].
    destruct (keqb a k) eqn:E.
    - intros [= ->]. exists a; auto.
    - intros H; destruct (IH H) as (k' & Hin & He). exists k'; auto.
  Qed.
  Lemma dget_None_In d k k' v : dget d k = None -> In (k', v) d -> keqb k' k = false.
  Proof.
    induction d as [|[a b] r IH]; simpl; [tauto|].
    destruct (keqb a k) eqn:E; [discriminate|].
    intros H [[= -> ->]|Hin]; auto.
  Qed.
  Lemma dget_none_iff d k : dget d k = None <-> (forall k' v, In (k', v) d -> keqb k' k = false).
  Proof.
    split.
    - intros H k' v Hin; eapply dget_None_In; eauto.
    - induction d as [|[a b] r IH]; simpl; intros H; [reflexivity|].
      rewrite (H a b) by auto. apply IH. intros; eapply H; eauto.
  Qed.

  Lemma dset_notin d k v : dget d k = None -> dset d k v = d ++ [(k, v)].
  Proof.
    induction d as [|[a b] r IH]; simpl; [reflexivity|].
    destruct (keqb a k); [discriminate|]. intro H; rewrite IH; auto.
  Qed.
  Lemma dhas_true d k : dhas d k = true <-> exists v, dget d k = Some v.
  Proof. unfold dhas; destruct (dget d k); split; try congruence; eauto. intros [? [=]]. Qed.
  Lemma dhas_false d k : dhas d k = false <-> dget d k = None.
  Proof. unfold dhas; destruct (dget d k); split; congruence. Qed.
  Lemma dhas_keqb d k k' : keqb k k' = true -> dhas d k = dhas d k'.
  Proof. intro H; unfold dhas; rewrite (dget_keqb d k k' H); reflexivity. Qed.
  Lemma dhas_dset d k v k' : dhas (dset d k v) k' = keqb k k' || dhas d k'.
  Proof. unfold dhas; rewrite dget_dset. destruct (keqb k k'); reflexivity. Qed.

  Lemma dkeys_dset d k v :
    dkeys (dset d k v) = if dhas d k then dkeys d else dkeys d ++ [k].
  Proof.
    unfold dhas. induction d as [|[a b] r IH]; simpl; [reflexivity|].
    destruct (keqb a k) eqn:E; simpl; [reflexivity|].
    rewrite IH. destruct (dget r k); reflexivity.
  Qed.

  Lemma wfd_cons k v d : wfd ((k, v) :: d) = true <-> dget d k = None /\ wfd d = true.
  Proof. simpl. rewrite andb_true_iff, negb_true_iff, dhas_false. tauto. Qed.
  Lemma wfd_dset d k v : wfd d = true -> wfd (dset d k v) = true.
  Proof.
    induction d as [|[a b] r IH]; simpl; [reflexivity|].
    rewrite andb_true_iff, negb_true_iff, dhas_false. intros [H1 H2].
    destruct (keqb a k) eqn:E; simpl; rewrite andb_true_iff, negb_true_iff, dhas_false.
    - auto.
    - split; [|auto]. rewrite dget_dset_ne; [assumption|]. rewrite keqb_sym; assumption.
  Qed.
  Lemma wfd_app d1 d2 :
    wfd (d1 ++ d2) = true <->
    wfd d1 = true /\ wfd d2 = true /\ (forall k v, In (k, v) d1 -> dget d2 k = None).
  Proof.
    induction d1 as [|[a b] r IH]; simpl.
    - intuition.
    - rewrite !andb_true_iff, !negb_true_iff, !dhas_false, IH, dget_app.
      split.
      + intros (H1 & H2 & H3 & H4). destruct (dget r a) eqn:E; [discriminate|].
        repeat split; auto. intros k v [[= -> ->]|Hin]; eauto.
      + intros ((H1 & H2) & H3 & H4). rewrite H1. repeat split; eauto.
  Qed.
  Lemma wfd_In_dget d k v : wfd d = true -> In (k, v) d -> dget d k = Some v.
  Proof.
    induction d as [|[a b] r IH]; simpl; [tauto|].
    rewrite andb_true_iff, negb_true_iff, dhas_false. intros [H1 H2] [[= -> ->]|Hin].
    - rewrite keqb_refl; reflexivity.
    - destruct (keqb a k) eqn:E.
      + rewrite <- (dget_keqb r _ _ E) in IH. rewrite IH in H1 by auto. discriminate.
      + auto.
  Qed.
  Lemma wfd_NoDup d : wfd d = true -> NoDup (dkeys d).
  Proof.
    induction d as [|[a b] r IH]; simpl; [constructor|].
    rewrite andb_true_iff, negb_true_iff, dhas_false. intros [H1 H2]. constructor; auto.
    intros Hin. apply in_map_iff in Hin. destruct Hin as [[k v] [Hk Hin]]. simpl in Hk; subst k.
    rewrite dget_none_iff in H1. specialize (H1 _ _ Hin). rewrite keqb_refl in H1; discriminate.
  Qed.
  Lemma wfd_same_key d k1 v1 k2 v2 :
    wfd d = true -> In (k1, v1) d -> In (k2, v2) d -> keqb k1 k2 = true -> k1 = k2 /\ v1 = v2.
  Proof.
    induction d as [|[a b] r IH]; simpl; [tauto|].
    rewrite andb_true_iff, negb_true_iff, dhas_false, dget_none_iff.
    intros [H1 H2] [[= -> ->]|Hin1] [[= -> ->]|Hin2] He; auto.
    - rewrite keqb_sym in He. rewrite (H1 _ _ Hin2) in He. discriminate.
    - rewrite (H1 _ _ Hin1) in He. discriminate.
  Qed.

  Lemma wfd_dupdate d1 d2 : wfd d1 = true -> wfd (dupdate d1 d2) = true.
  Proof.
    unfold dupdate. revert d1; induction d2 as [|[a b] r IH]; simpl; intros d1 H; [assumption|].
    apply IH, wfd_dset, H.
  Qed.
  Lemma wfd_dict_of (l : dict V) : wfd (dict_of l) = true.
  Proof. apply wfd_dupdate; reflexivity. Qed.

  Lemma dget_dupdate d1 d2 k :
    dget (dupdate d1 d2) k =
    match dget (rev d2) k with Some v => Some v | None => dget d1 k end.
  Proof.
    unfold dupdate. revert d1; induction d2 as [|[a b] r IH]; simpl; intros d1; [reflexivity|].
    rewrite IH, dget_app, dget_dset. simpl.
    destruct (dget (rev r) k); [reflexivity|]. destruct (keqb a k); reflexivity.
  Qed.
  Lemma dget_rev_wfd d k : wfd d = true -> dget (rev d) k = dget d k.
  Proof.
    induction d as [|[a b] r IH]; simpl; [reflexivity|].
    rewrite andb_true_iff, negb_true_iff, dhas_false. intros [H1 H2].
    rewrite dget_app, IH by assumption. simpl.
    destruct (keqb a k) eqn:E.
    - rewrite <- (dget_keqb r _ _ E), H1. reflexivity.
    - destruct (dget r k); reflexivity.
  Qed.
  Lemma dget_dupdate_wf d1 d2 k :
    wfd d2 = true ->
    dget (dupdate d1 d2) k = match dget d2 k with Some v => Some v | None => dget d1 k end.
  Proof. intro H. rewrite dget_dupdate, dget_rev_wfd; auto. Qed.
  Lemma dget_dict_of (l : dict V) k : dget (dict_of l) k = dget (rev l) k.
  Proof. unfold dict_of. rewrite dget_dupdate. simpl. destruct (dget (rev l) k); reflexivity. Qed.

  Lemma dupdate_app_fresh d1 d2 :
    wfd (d1 ++ d2) = true -> dupdate d1 d2 = d1 ++ d2.
  Proof.
    unfold dupdate. revert d1; induction d2 as [|[a b] r IH]; simpl; intros d1 H.
    - rewrite app_nil_r; reflexivity.
    - assert (Hn : dget d1 a = None).
      { apply wfd_app in H. destruct H as (_ & _ & H).
        apply dget_none_iff. intros k' v Hin. specialize (H _ _ Hin). simpl in H.
        rewrite keqb_sym. destruct (keqb a k'); [discriminate|reflexivity]. }
      rewrite dset_notin by assumption. rewrite IH; rewrite <- app_assoc; simpl; [reflexivity|assumption].
  Qed.
  Lemma dict_of_wfd d : wfd d = true -> dict_of d = d.
  Proof. intro H. unfold dict_of. rewrite dupdate_app_fresh; auto. Qed.

  Lemma wfd_filter (p : key * V -> bool) d : wfd d = true -> wfd (filter p d) = true.
  Proof.
    induction d as [|[a b] r IH]; simpl; [reflexivity|].
    rewrite andb_true_iff, negb_true_iff, dhas_false. intros [H1 H2].
    destruct (p (a, b)); simpl; [|auto].
    rewrite andb_true_iff, negb_true_iff, dhas_false. split; [|auto].
    rewrite dget_none_iff in *. intros k' v Hin. apply filter_In in Hin. eapply H1; apply Hin.
  Qed.
  Lemma keyfilter_wfd p d : wfd d = true -> keyfilter p d = filter (fun kv => p (fst kv)) d.
  Proof. intro H. unfold keyfilter. apply dict_of_wfd, wfd_filter, H. Qed.

  Lemma dget_ddel d k k' :
    wfd d = true -> dget (ddel d k) k' = if keqb k k' then None else dget d k'.
  Proof.
    induction d as [|[a b] r IH]; simpl; [destruct (keqb k k'); reflexivity|].
    rewrite andb_true_iff, negb_true_iff, dhas_false. intros [H1 H2].
    destruct (keqb a k) eqn:E.
    - rewrite (keqb_l _ _ k' E). destruct (keqb k k') eqn:E'; [|reflexivity].
      rewrite <- (dget_keqb r _ _ (keqb_trans _ _ _ E E')). assumption.
    - simpl. rewrite IH by assumption. destruct (keqb a k') eqn:E'; [|reflexivity].
      destruct (keqb k k') eqn:E2; [|reflexivity].
      rewrite keqb_sym in E2. rewrite (keqb_trans _ _ _ E' E2) in E. discriminate.
  Qed.
  Lemma wfd_ddel d k : wfd d = true -> wfd (ddel d k) = true.
  Proof.
    induction d as [|[a b] r IH]; simpl; [reflexivity|].
    rewrite andb_true_iff, negb_true_iff, dhas_false. intros [H1 H2].
    destruct (keqb a k) eqn:E; [assumption|]. simpl.
    rewrite andb_true_iff, negb_true_iff, dhas_false. split; [|auto].
    rewrite dget_ddel by assumption. destruct (keqb k a); auto.
  Qed.
End Dict.

Lemma dhas_map_vals {V W} (f : key * V -> W) (d : dict V) k :
  dhas (map (fun kv => (fst kv, f kv)) d) k = dhas d k.
Proof.
  unfold dhas. induction d as [|[a b] r IH]; simpl; [reflexivity|].
  destruct (keqb a k); auto.
Qed.
Lemma wfd_map_vals {V W} (f : key * V -> W) (d : dict V) :
  wfd (map (fun kv => (fst kv, f kv)) d) = wfd d.
Proof.
  induction d as [|[a b] r IH]; simpl; [reflexivity|].
  rewrite dhas_map_vals, IH. reflexivity.
Qed.

Lemma dget_map_vals {V W} (f : key * V -> W) (d : dict V) k :
  (forall a b v, keqb a b = true -> f (a, v) = f (b, v)) ->
  dget (map (fun kv => (fst kv, f kv)) d) k = option_map (fun v => f (k, v)) (dget d k).
Proof.
  intro Hf. induction d as [|[a b] r IH]; simpl; [reflexivity|].
  destruct (keqb a k) eqn:E; simpl; [|assumption]. rewrite (Hf a k b E). reflexivity.
Qed.

(** ** Induction on values *)
Section ValInd.
  Variable P : val -> Prop.
  Hypothesis Hatom : forall k, P (VAtom k).
  Hypothesis Hlist : forall l, Forall P l -> P (VList l).
  Hypothesis Htup : forall l, Forall P l -> P (VTup l).
  Hypothesis Hdict : forall c d, Forall (fun kv => P (snd kv)) d -> P (VDict c d).
  Fixpoint val_ind' (v : val) : P v :=
    match v with
    | VAtom k => Hatom k
    | VList l => Hlist l ((fix go l : Forall P l :=
        match l with [] => Forall_nil _ | x :: r => Forall_cons _ (val_ind' x) (go r) end) l)
    | VTup l => Htup l ((fix go l : Forall P l :=
        match l with [] => Forall_nil _ | x :: r => Forall_cons _ (val_ind' x) (go r) end) l)
    | VDict c d => Hdict c d ((fix go d : Forall (fun kv => P (snd kv)) d :=
        match d with [] => Forall_nil _ | x :: r => Forall_cons _ (val_ind' (snd x)) (go r) end) d)
    end.
End ValInd.

Lemma depth_In c d k v : In (k, v) d -> depth v < depth (VDict c d).
Proof.
  intro H. simpl. apply PeanoNat.Nat.lt_succ_r.
  assert (G : Forall (fun n => n <= list_max (map (fun kv => depth (snd kv)) d))
                     (map (fun kv => depth (snd kv)) d)).
  { apply list_max_le. reflexivity. }
  rewrite Forall_forall in G. apply G. apply in_map_iff. exists (k, v); auto.
Qed.

Lemma wfv_dict c d : wfv (VDict c d) = true <-> wfd d = true /\ forall k v, In (k, v) d -> wfv v = true.
Proof.
  simpl. rewrite andb_true_iff, forallb_forall. split; intros [H1 H2]; split; auto.
  - intros k v Hin. apply (H2 (k, v) Hin).
  - intros [k v] Hin. simpl. eauto.
Qed.

Lemma isinst_dict mt v : isinst mt v = true -> exists c d, v = VDict c d /\ mt c = true.
Proof. destruct v; simpl; try discriminate. eauto. Qed.
