(** MetaTagIndex refines an insertion-ordered dict; where it does not. *)
From Verif Require Export Meta_Spec Index_Hard.

Section MetaLists.
  Context {J : Type}.
  Implicit Types l : list (string * J).

  Lemma put_entry_keys k (e : string * J) l : map fst (put_entry k e l) = put_in_place k (fst e) (map fst l).
  Proof. induction l as [|x r IH]; cbn; [reflexivity|]. destruct (String.eqb (fst x) k); cbn; congruence. Qed.
  Lemma put_same k (ks : list string) : put_in_place k k ks = ks.
  Proof. induction ks as [|x r IH]; cbn; [reflexivity|]. destruct (String.eqb_spec x k); congruence. Qed.
  Lemma put_entry_length k (e : string * J) l : List.length (put_entry k e l) = List.length l.
  Proof. induction l as [|x r IH]; cbn; [reflexivity|]. destruct (String.eqb (fst x) k); cbn; congruence. Qed.
  Lemma put_entry_nth k (e : string * J) l i v : NoDup (map fst l) -> nth_error l i = Some (k, v) ->
    forall j, nth_error (put_entry k e l) j = if Nat.eqb j i then Some e else nth_error l j.
  Proof.
    revert i. induction l as [|x r IH]; intros i Hd Hi j; [destruct i; discriminate|].
    cbn [map] in Hd. inversion Hd as [|? ? Hx Hd']; subst. cbn [put_entry].
    destruct (String.eqb_spec (fst x) k) as [E|Hxk].
    - destruct i as [|i].
      + destruct j; reflexivity.
      + cbn in Hi. destruct Hx. rewrite E. change k with (fst (k, v)). apply in_map. eapply nth_error_In; eauto.
    - destruct i as [|i]; [cbn in Hi; injection Hi as ->; cbn in Hxk; congruence|]. destruct j as [|j]; [reflexivity|]. cbn. apply IH; auto.
  Qed.
  Lemma swap_entry_keys k l : map fst (swap_entry k l) = swap_remove k (map fst l).
  Proof.
    destruct l as [|x r] using rev_ind; [cbn; unfold swap_remove; destruct (String.eqb (last [] "") k); reflexivity|].
    unfold swap_entry. rewrite rev_app_distr. cbn [rev app].
    rewrite map_app. cbn [map]. destruct (String.eqb_spec (fst x) k) as [<-|Hx].
    - now rewrite swap_last, rev_involutive.
    - rewrite swap_other by assumption. now rewrite put_entry_keys, rev_involutive.
  Qed.
  Lemma swap_entry_last l k v : swap_entry k (l ++ [(k, v)]) = l.
  Proof. unfold swap_entry. rewrite rev_app_distr. cbn. rewrite String.eqb_refl. apply rev_involutive. Qed.
  Lemma swap_entry_other l k e : fst e <> k -> swap_entry k (l ++ [e]) = put_entry k e l.
  Proof. intro Hk. unfold swap_entry. rewrite rev_app_distr. cbn. rewrite eqb_ne by assumption. now rewrite rev_involutive. Qed.
  Lemma nth_fst l i e : nth_error l i = Some e -> nth_error (map fst l) i = Some (fst e).
  Proof. intro H. rewrite nth_error_map, H. reflexivity. Qed.
  Lemma fst_nth l i k : nth_error (map fst l) i = Some k -> exists v, nth_error l i = Some (k, v).
  Proof. rewrite nth_error_map. destruct (nth_error l i) as [[a v]|]; cbn; [|discriminate]. intros [= ->]. eauto. Qed.
  Lemma value_of_nth l i k v : NoDup (map fst l) -> nth_error l i = Some (k, v) -> value_of k l = Some v.
  Proof.
    unfold value_of. revert i. induction l as [|x r IH]; intros i Hd Hi; [destruct i; discriminate|]. cbn [find].
    cbn [map] in Hd. inversion Hd as [|? ? Hx Hd']; subst.
    destruct (String.eqb_spec (fst x) k) as [E|Hxk].
    - destruct i as [|i]; [cbn in Hi; injection Hi as ->; reflexivity|]. destruct Hx. rewrite E. change k with (fst (k, v)).
      apply in_map. eapply nth_error_In; eauto.
    - destruct i as [|i]; [cbn in Hi; injection Hi as ->; cbn in Hxk; congruence|]. eapply IH; eauto.
  Qed.
  Lemma value_of_none l k : ~ In k (map fst l) -> value_of k l = None.
  Proof.
    unfold value_of. induction l as [|x r IH]; cbn; [reflexivity|]. intro Hn. rewrite eqb_ne by tauto. apply IH. tauto.
  Qed.
End MetaLists.
  Lemma meta_step_length {J} (enc : J -> res bytes) l o : List.length (snd (meta_step true enc l o)) <= S (List.length l).
  Proof.
    destruct o as [k w ok|k|k|]; cbn [meta_step]; try (cbn; lia).
    - destruct (position (ktext k) (map fst l)) as [i|]; [destruct ok; cbn [snd]; rewrite ?put_entry_length; lia|]. cbn. rewrite app_length. cbn. lia.
    - destruct (position (ktext k) (map fst l)) as [i|] eqn:E; cbn [snd]; [|lia]. apply position_some in E.
      rewrite <- (map_length fst (swap_entry (ktext k) l)), swap_entry_keys.
      destruct (exists_last (l := map fst l)) as (l' & z & El); [intros X; rewrite X in E; cbn in E; lia|]. rewrite El.
      pose proof (put_le (ktext k) z l') as X. pose proof (f_equal (@List.length _) El) as Y. rewrite map_length, app_length in Y. cbn in Y. lia.
  Qed.


Section Meta.
  Variable hash : bytes -> string.
  Variable K : string -> Prop.
  Hypothesis hash_inj : collision_free hash K.
  Variable I : string.
  Variable m : N.
  Notation H := {| hname := I; hid := m |}.
  Notation RepN := (RepN hash K I m).
  Context {J : Type} (enc : J -> res bytes) (dec : bytes -> res J).

  Definition cell (s : store) (i : nat) (v : option J) : Prop :=
    match v with
    | Some w => exists b, enc w = Ok b /\ b <> "" /\ dec b = Ok w /\ content s (val_address I (Z.of_nat i)) = Some b
    | None => names s (val_address I (Z.of_nat i)) = None
    end.
  Record MRep (l : list (string * option J)) (s : store) : Prop := mkMRep {
    m_rep : RepN (List.length (map fst l)) (map fst l) s;
    m_val : forall i k v, nth_error l i = Some (k, v) -> cell s i v;
    m_noval : forall i, ~ (0 <= i < Z.of_nat (List.length l))%Z -> names s (val_address I i) = None }.

  Lemma cell_same s s' i v : cell s i v -> same_at s s' (val_address I (Z.of_nat i)) -> cell s' i v.
  Proof.
    intros Hc Hs. destruct v as [w|]; cbn in *.
    - now rewrite (same_content _ _ _ Hs).
    - now rewrite (same_names _ _ _ Hs).
  Qed.
  Lemma cell_content s i v : cell s i v -> content s (val_address I (Z.of_nat i)) <> Some "".
  Proof. destruct v as [w|]; cbn; [intros (b & _ & Hb & _ & ->); congruence|apply content_absent]. Qed.

  Definition vals (a : string) : Prop := exists i, a = val_address I i.
  Lemma rep_not_val a : rep_names hash I a -> ~ vals a.
  Proof. intros [->|[[i ->]|[r ->]]] [j E]; revert E; adn hash I; try tauto. Qed.
  Lemma lock_not_val a : lock_names I a -> ~ vals a.
  Proof. intros [->|[[i ->]|[r ->]]] [j E]; revert E; adn hash I; try tauto. Qed.

  Lemma mrep_same l s s' : MRep l s -> (forall a, rep_names hash I a \/ vals a -> same_at s s' a) -> MRep l s'.
  Proof.
    intros [R V N] Hs. assert (Hv : forall i, same_at s s' (val_address I i)) by (intro; apply Hs; right; eexists; reflexivity).
    constructor.
    - eapply rep_same; eauto.
    - intros i k v Hi. eapply cell_same; eauto.
    - intros i Hi. rewrite (same_names _ _ _ (Hv _)). eauto.
  Qed.
  Lemma mrep_lock l s s' : MRep l s -> only_at (lock_names I) s s' -> MRep l s'.
  Proof.
    intros R O. eapply mrep_same; eauto. intros a Ha. apply O. intro L. destruct Ha as [Ha|Ha].
    - now apply (lock_not_rep hash I a L).
    - now apply (lock_not_val a L).
  Qed.

  (** *** add *)
  Definition put_value (i : Z) (v : option J) : prog unit :=
    match v with None => Ret tt | Some w => memorize enc w (val_address I i) true >>> Ret tt end.
  Lemma put_value_ok s i v : wf s -> (forall w, v = Some w -> stable enc dec w) ->
    content s (val_address I (Z.of_nat i)) <> Some "" ->
    exists s', run (put_value (Z.of_nat i) v) s = (Some (Ok tt), s') /\ wf s' /\ only_at (eq (val_address I (Z.of_nat i))) s s' /\
      forall old, cell s i old -> cell s' i (newer v old).
  Proof.
    intros W St Hc. destruct v as [w|]; cbn [put_value newer].
    - destruct (St w eq_refl) as (b & He & Hb & Hd).
      destruct (memorize_ok enc s w b (val_address I (Z.of_nat i)) true W He Hb Hc) as (s1 & j & R1 & W1 & A1 & O1); [discriminate|].
      exists s1. rewrite (run_bind_ok _ _ _ _ _ R1). split; [reflexivity|]. split; [exact W1|]. split; [exact O1|].
      intros old _. exists b. split; [exact He|]. split; [exact Hb|]. split; [exact Hd|]. apply (at_content _ _ _ _ A1).
    - exists s. split; [reflexivity|]. split; [exact W|]. split; [apply only_refl|]. auto.
  Qed.

  Lemma meta_add_body l s k v ok nl : wf s -> MRep l s -> plain_key K k -> (forall w, v = Some w -> stable enc dec w) ->
    (Z.of_nat (S (List.length l)) < 256 ^ Z.of_nat 8)%Z ->
    let '(o, l') := meta_step true enc l (MAdd k v ok) in
    exists r s', o = QPos r /\
      run (let! w := _add hash (mkIndex I H nl) k ok in put_value w v >>> Ret w) s = (Some r, s') /\
      wf s' /\ MRep l' s' /\ only_at (fun a => rep_names hash I a \/ vals a) s s'.
  Proof.
    intros W [R V N] P St L. cbn [meta_step].
    assert (Hl : List.length (map fst l) = List.length l) by apply map_length.
    destruct (position (ktext k) (map fst l)) as [i|] eqn:E.
    - rewrite run_bind, (add_old hash K hash_inj I m _ s k ok nl i W R P E).
      destruct ok.
      + apply position_some in E. destruct E as [Hi E]. destruct (fst_nth _ _ _ E) as [v0 E0].
        destruct (Z_of_nat_complete i) as [n ->]; [lia|]. rewrite Nat2Z.id in E, E0. rewrite Hl in Hi.
        pose proof (V _ _ _ E0) as C0.
        destruct (put_value_ok s n v W St (cell_content _ _ _ C0)) as (s1 & R1 & W1 & O1 & C1). specialize (C1 _ C0).
        assert (Hh : held (ktext k) l = v0) by (unfold held; now rewrite (value_of_nth _ _ _ _ (rep_nodup _ _ _ _ _ _ _ R) E0)).
        eexists _, s1. split; [reflexivity|]. rewrite (run_bind_ok _ _ _ _ _ R1). cbn [run].
        split; [reflexivity|]. split; [exact W1|]. split.
        * constructor.
          -- rewrite put_entry_keys. cbn [fst]. rewrite put_same.
             eapply rep_same; [exact R|]. intros a Ha. apply O1. intros <-. apply (rep_not_val _ Ha). eexists; reflexivity.
          -- intros q k' v' Hq. rewrite (put_entry_nth _ _ _ _ _ (rep_nodup _ _ _ _ _ _ _ R) E0) in Hq.
             destruct (Nat.eqb_spec q n) as [->|Hqi].
             ++ injection Hq as <- <-. rewrite Hh. exact C1.
             ++ eapply cell_same; [eauto|]. apply O1. adn hash I; try tauto.
          -- intros q Hq. rewrite put_entry_length in Hq. rewrite (same_names s s1); [auto|]. apply O1. adn hash I; try tauto.
        * eapply only_sub; [exact O1|]. intros a <-. right; eexists; reflexivity.
      + eexists _, s. split; [reflexivity|]. split; [reflexivity|]. split; [exact W|]. split; [constructor; auto|apply only_refl].
    - apply position_none in E. destruct (add_new hash K hash_inj I m (map fst l) s k ok nl W R P E) as (s1 & R1 & W1 & Rp1 & O1); [rewrite Hl; exact L|].
      rewrite (run_bind_ok _ _ _ _ _ R1).
      assert (Sv : forall i, same_at s s1 (val_address I i)).
      { intro i. apply O1. intro X. apply (add_names_rep hash I) in X. apply (rep_not_val _ X). eexists; reflexivity. }
      assert (N1 : names s1 (val_address I (Z.of_nat (List.length l))) = None) by (rewrite (same_names _ _ _ (Sv _)); apply N; lia).
      rewrite Hl in *.
      destruct (put_value_ok s1 (List.length l) v W1 St) as (s2 & R2 & W2 & O2 & C2); [now apply content_absent|].
      specialize (C2 None N1).
      eexists _, s2. split; [reflexivity|]. rewrite (run_bind_ok _ _ _ _ _ R2). cbn [run].
      split; [reflexivity|]. split; [exact W2|]. split.
      + constructor.
        * rewrite map_app. cbn [map fst]. eapply rep_same; [rewrite app_length, map_length; cbn [List.length]; rewrite Nat.add_1_r; rewrite app_length, map_length in Rp1; cbn [List.length] in Rp1; rewrite Nat.add_1_r in Rp1; exact Rp1|]. intros a Ha. apply O2. intros <-. apply (rep_not_val _ Ha). eexists; reflexivity.
        * intros q k' v' Hq. apply nth_snoc in Hq. destruct Hq as [[Hq1 Hq]|[-> E']].
          -- eapply cell_same; [eapply cell_same; [eauto|apply Sv]|]. apply O2. adn hash I; try tauto.
          -- injection E' as -> ->. destruct v; exact C2.
        * intros q Hq. rewrite app_length in Hq. cbn in Hq. rewrite (same_names s1 s2), (same_names s s1); [apply N; lia|apply Sv|].
          apply O2. adn hash I; try tauto.
      + intros a Ha. apply same_trans with s1; [apply O1|apply O2].
        * intro X. apply Ha. left. eapply add_names_rep; eauto.
        * intros <-. apply Ha. right; eexists; reflexivity.
  Qed.

  (** *** getitem, items *)
  Lemma meta_get_rep l s k nl : wf s -> MRep l s -> plain_key K k ->
    run (meta_getitem hash (mkIndex I H nl) k) s =
    (Some (match value_of (ktext k) l with Some (Some v) => enc v | Some None => Exc FileNotFoundError | None => Exc KeyError end), s).
  Proof.
    intros W [R V N] (Hne & Hraw & HK). unfold meta_getitem, check. rewrite Hraw, run_bind, (check_rep hash K hash_inj I m _ _ s _ nl W R HK).
    destruct (position (ktext k) (map fst l)) as [i|] eqn:E.
    - apply position_some in E. destruct E as [Hi E]. destruct (fst_nth _ _ _ E) as [v0 E0].
      rewrite (value_of_nth _ _ _ _ (rep_nodup _ _ _ _ _ _ _ R) E0).
      pose proof (V _ _ _ E0) as C0. destruct v0 as [w|]; cbn [cell] in C0; rewrite Z2Nat.id in C0 by lia; cbn [ix_name].
      + destruct C0 as (b0 & He0 & Hb0 & Hd0 & Hc0). destruct (content_at _ _ _ Hc0) as [j A].
        rewrite (run_bind_ok _ _ _ _ _ (attach_ok _ _ _ _ A Hb0)), (read_ok _ _ _ _ A), He0. reflexivity.
      + rewrite (run_bind_exc _ _ _ _ _ (attach_none _ _ C0)). reflexivity.
    - apply position_none in E. rewrite value_of_none by exact E. reflexivity.
  Qed.

  Lemma load_from_ok {B} (load : Z -> prog B) s (l : list B) : forall i,
    (forall j x, nth_error l j = Some x -> run (load (i + Z.of_nat j)%Z) s = (Some (Ok x), s)) ->
    run (load_from load (List.length l) i) s = (Some (Ok l), s).
  Proof.
    induction l as [|x l IH]; intros i Hl; cbn [List.length load_from]; [reflexivity|].
    pose proof (Hl 0 x eq_refl) as H0. replace (i + Z.of_nat 0)%Z with i in H0 by lia.
    rewrite (run_bind_ok _ _ _ _ _ H0). rewrite run_bind, IH; [reflexivity|].
    intros j y Hj. replace (i + 1 + Z.of_nat j)%Z with (i + Z.of_nat (S j))%Z by lia. now apply Hl.
  Qed.
  Lemma load_value_rep l s nl j k v : MRep l s -> nth_error l j = Some (k, v) ->
    run (load_value dec (mkIndex I H nl) (Z.of_nat j)) s = (Some (Ok v), s).
  Proof.
    intros [R V N] E. unfold load_value. cbn [ix_name]. pose proof (V _ _ _ E) as C. rewrite run_ptry. destruct v as [w|]; cbn in C.
    - destruct C as (b & He & Hb & Hd & Hc). destruct (content_at _ _ _ Hc) as [a' A'].
      rewrite (remember_ok dec s _ a' b w A' Hb Hd). reflexivity.
    - rewrite (remember_missing dec s _ C). reflexivity.
  Qed.
  Lemma meta_items_rep l s nl : wf s -> MRep l s ->
    run (meta_items dec (mkIndex I H nl)) s = (Some (Ok l), s).
  Proof.
    intros W M. pose proof (m_rep _ _ M) as R. unfold meta_items.
    rewrite (run_bind_ok _ _ _ _ _ (length_rep hash K I m _ _ s nl R)). rewrite Nat2Z.id.
    rewrite map_length. apply load_from_ok. cbn [Z.add].
    intros j [k v] E. unfold load_key. cbn [ix_name].
    pose proof (nth_fst _ _ _ E) as Ek. cbn [fst] in Ek.
    destruct (content_at _ _ _ (rep_key _ _ _ _ _ _ _ R _ _ Ek)) as [a A].
    assert (Hne : k <> "") by (eapply (rep_ne' hash K I m); eauto; eapply nth_error_In; eauto).
    rewrite run_bind, (run_bind_ok _ _ _ _ _ (attach_ok _ _ _ _ A Hne)), (read_ok _ _ _ _ A).
    rewrite run_bind, (load_value_rep l s nl j k v M E). reflexivity.
  Qed.

  (** *** remove, without lockout *)
  Lemma put_cells l z w k v0 i s1 s4 : NoDup (map fst l) -> nth_error l i = Some (k, v0) ->
    RepN (List.length (put_in_place k z (map fst l))) (put_in_place k z (map fst l)) s1 ->
    (forall q k' v', nth_error (l ++ [(z, w)]) q = Some (k', v') -> cell s1 q v') ->
    (forall q, ~ (0 <= q < Z.of_nat (S (List.length l)))%Z -> names s1 (val_address I q) = None) ->
    only_at (fun a => a = val_address I (Z.of_nat i) \/ a = val_address I (Z.of_nat (List.length l))) s1 s4 ->
    cell s4 i w -> names s4 (val_address I (Z.of_nat (List.length l))) = None ->
    MRep (put_entry k (z, w) l) s4.
  Proof.
    intros Hd E1 Rp1 V N O14 Ci Nl. constructor.
    - rewrite put_entry_keys. cbn [fst]. eapply rep_same; [exact Rp1|]. intros a Ha. apply O14.
      intros [->| ->]; apply (rep_not_val _ Ha); eexists; reflexivity.
    - intros q k' v' Hqq. rewrite (put_entry_nth _ _ _ _ _ Hd E1) in Hqq. destruct (Nat.eqb_spec q i) as [->|Hqi].
      + injection Hqq as <- <-. exact Ci.
      + assert (q < List.length l) by (apply nth_error_Some; congruence).
        eapply cell_same; [eapply V; now apply nth_app_l, Hqq|]. apply O14. intros [X|X]; revert X; adn hash I; try tauto.
    - intros q Hqq. rewrite put_entry_length in Hqq. destruct (Z.eq_dec q (Z.of_nat (List.length l))) as [->|Hne]; [exact Nl|].
      assert (i < List.length l) by (apply nth_error_Some; congruence).
      rewrite (same_names s1 s4); [apply N; lia|].
      apply O14. intros [X|X]; revert X; adn hash I; try tauto.
  Qed.

  Lemma meta_remove_rep l s k fuel : wf s -> MRep l s -> plain_key K k ->
    match position (ktext k) (map fst l) with
    | Some i => exists s', run (meta_remove hash fuel (mkIndex I H true) k) s =
          (Some (match held (ktext k) l, last_held l with None, None => Exc FileNotFoundError | _, _ => Ok i end), s') /\
        wf s' /\ MRep (swap_entry (ktext k) l) s' /\ only_at (fun a => rep_names hash I a \/ vals a) s s'
    | None => run (meta_remove hash fuel (mkIndex I H true) k) s = (Some (Exc KeyError), s)
    end.
  Proof.
    intros W [R V N] P. unfold meta_remove, tag_del_. cbn [with_lock ix_no_lockout ix_name].
    pose proof (del_rep hash K hash_inj I m (map fst l) s k true W R P) as HD.
    assert (Hl : List.length (map fst l) = List.length l) by apply map_length.
    destruct (position (ktext k) (map fst l)) as [i|] eqn:E.
    2:{ rewrite (run_bind_exc _ _ _ _ _ HD). reflexivity. }
    destruct HD as (s1 & R1 & W1 & Rp1 & O1). rewrite (run_bind_ok _ _ _ _ _ R1). cbn [fst snd]. rewrite Hl.
    apply position_some in E. destruct E as [Hi E]. rewrite Hl in Hi. destruct (fst_nth _ _ _ E) as [v0 E0].
    destruct (Z_of_nat_complete i) as [n ->]; [lia|]. rewrite Nat2Z.id in E, E0.
    assert (Sv : forall q, same_at s s1 (val_address I q)).
    { intro q. apply O1. intro X. apply (rep_not_val _ X). eexists; reflexivity. }
    pose proof (rep_nodup _ _ _ _ _ _ _ R) as Hd.
    assert (Hh : held (ktext k) l = v0) by (unfold held; now rewrite (value_of_nth _ _ _ _ Hd E0)). rewrite Hh.
    assert (V1 : forall q k' v', nth_error l q = Some (k', v') -> cell s1 q v') by (intros; eapply cell_same; eauto).
    assert (N1 : forall q, ~ (0 <= q < Z.of_nat (List.length l))%Z -> names s1 (val_address I q) = None).
    { intros q Hq. rewrite (same_names _ _ _ (Sv _)). auto. }
    pose proof (V1 _ _ _ E0) as C0.
    destruct (exists_last (l := l)) as (l' & [z w] & El); [intros ->; cbn in Hi; lia|]. subst l.
    assert (Hlast : last_held (l' ++ [(z, w)]) = w) by (unfold last_held; now rewrite rev_app_distr). rewrite Hlast.
    rewrite app_length in *. cbn [List.length] in *. rewrite Nat.add_1_r in *.
    replace (Z.of_nat (S (List.length l')) - 1)%Z with (Z.of_nat (List.length l')) by lia.
    assert (Ez : nth_error (l' ++ [(z, w)]) (List.length l') = Some (z, w)) by (rewrite nth_error_app2, Nat.sub_diag; [reflexivity|lia]).
    pose proof (V1 _ _ _ Ez) as Cz.
    destruct (nth_snoc _ _ _ _ E0) as [[Hq E1]|[Hq Ee]].
    - (* not the last *)
      replace (Z.of_nat n =? Z.of_nat (List.length l'))%Z with false by (symmetry; apply Z.eqb_neq; lia).
      assert (Hzk : z <> ktext k).
      { intros ->. assert (n = List.length l'); [|lia]. eapply (nodup_nth (map fst (l' ++ [(ktext k, w)]))); eauto. now apply nth_fst in Ez. }
      assert (Hdl : NoDup (map fst l')) by (rewrite map_app in Hd; cbn in Hd; apply nodup_snoc in Hd; apply Hd).
      rewrite swap_entry_other by exact Hzk. rewrite map_app in Rp1. cbn [map fst] in Rp1. rewrite swap_other in Rp1 by exact Hzk.
      rewrite run_bind. rewrite run_bind, exists_spec by exact W1.
      destruct w as [w|].
      + (* the last has a value: it is moved *)
        destruct Cz as (bz & Hez & Hbz & Hdz & Hcz). rewrite Hcz. cbn [run negb].
        rewrite run_bind. rewrite run_bind, exists_spec, Hcz by exact W1.
        destruct (content_at _ _ _ Hcz) as [jz Az].
        rewrite (run_bind_ok _ _ _ _ _ (attach_ok _ _ _ _ Az Hbz)), (run_bind_ok _ _ _ _ _ (read_ok _ _ _ _ Az)).
        destruct (open_fresh s1 (val_address I (Z.of_nat n)) (String.length bz) W1 (length_ne _ Hbz) (cell_content _ _ _ C0)) as (s2 & j2 & R2 & W2 & A2 & O2).
        rewrite (run_bind_ok _ _ _ _ _ R2).
        destruct (write_ok s2 _ j2 _ bz W2 A2) as (s3 & R3 & W3 & A3 & O3); [now rewrite zeros_length|].
        rewrite (run_bind_ok _ _ _ _ _ R3).
        assert (Az3 : at_ s3 (val_address I (Z.of_nat (List.length l'))) jz bz).
        { apply (at_same s2); [apply (at_same s1); [exact Az|apply O2]|apply O3]; adn hash I; try tauto. }
        destruct (delete_ok s3 _ jz bz false W3 Az3 Hbz) as (s4 & R4 & W4 & N4 & O4). rewrite R4. cbn [run].
        exists s4. split; [destruct v0; reflexivity|]. split; [exact W4|].
        assert (O14 : only_at (fun a => a = val_address I (Z.of_nat n) \/ a = val_address I (Z.of_nat (List.length l'))) s1 s4).
        { intros a Ha. apply same_trans with s2; [apply O2; intros <-; tauto|].
          apply same_trans with s3; [apply O3; intros <-; tauto|apply O4; intros <-; tauto]. }
        split.
        * apply (put_cells l' z (Some w) (ktext k) v0 n s1 s4); auto.
          exists bz. split; [exact Hez|]. split; [exact Hbz|]. split; [exact Hdz|].
          rewrite (same_content s3 s4); [apply (at_content _ _ _ _ A3)|]. apply O4. adn hash I; try tauto.
        * intros a Ha. apply same_trans with s1; [apply O1; tauto|apply O14]. intros [->| ->]; apply Ha; right; eexists; reflexivity.
      + (* the last has none *)
        cbn [cell] in Cz. rewrite (names_none _ _ Cz). cbn [run negb].
        destruct v0 as [v0|].
        * destruct C0 as (b0 & He0 & Hb0 & Hd0 & Hc0). destruct (content_at _ _ _ Hc0) as [j0 A0].
          destruct (delete_ok s1 _ j0 b0 true W1 A0 Hb0) as (s2 & R2 & W2 & N2 & O2). rewrite (run_bind_ok _ _ _ _ _ R2). cbn [run].
          exists s2. split; [reflexivity|]. split; [exact W2|].
          split.
          -- apply (put_cells l' z None (ktext k) (Some v0) n s1 s2); auto.
             ++ eapply only_sub; [exact O2|]. intros a <-. auto.
             ++ rewrite (same_names s1 s2); [exact Cz|]. apply O2. adn hash I; try tauto.
          -- intros a Ha. apply same_trans with s1; [apply O1; tauto|apply O2]. intros <-; apply Ha; right; eexists; reflexivity.
        * rewrite (run_bind_exc _ _ _ _ _ (delete_missing s1 _ true C0)). exists s1. split; [reflexivity|]. split; [exact W1|].
          split.
          -- apply (put_cells l' z None (ktext k) None n s1 s1); auto using only_refl.
          -- intros a Ha. apply O1. tauto.
    - (* the last *)
      injection Ee as <- <-. replace (Z.of_nat n =? Z.of_nat (List.length l'))%Z with true by (symmetry; apply Z.eqb_eq; lia).
      rewrite run_bind_ret. rewrite map_app in Rp1. cbn [map fst] in Rp1. rewrite swap_last in Rp1. rewrite swap_entry_last.
      assert (Hfin : forall s2, only_at (eq (val_address I (Z.of_nat n))) s1 s2 -> names s2 (val_address I (Z.of_nat n)) = None -> MRep l' s2).
      { intros s2 O2 N2. constructor.
        * eapply rep_same; [exact Rp1|]. intros a Ha. apply O2. intros <-; apply (rep_not_val _ Ha); eexists; reflexivity.
        * intros q k' v' Hqq. assert (q < List.length l') by (apply nth_error_Some; congruence).
          eapply cell_same; [eapply V1; now apply nth_app_l, Hqq|]. apply O2. adn hash I; try tauto.
        * intros q Hqq. destruct (Z.eq_dec q (Z.of_nat n)) as [->|Hne]; [exact N2|].
          rewrite (same_names s1 s2); [apply N1; lia|]. apply O2. adn hash I; try tauto. }
      destruct v0 as [v0|].
      + destruct C0 as (b0 & He0 & Hb0 & Hd0 & Hc0). destruct (content_at _ _ _ Hc0) as [j0 A0].
        destruct (delete_ok s1 _ j0 b0 true W1 A0 Hb0) as (s2 & R2 & W2 & N2 & O2). rewrite (run_bind_ok _ _ _ _ _ R2). cbn [run].
        exists s2. split; [reflexivity|]. split; [exact W2|]. split; [auto|].
        intros a Ha. apply same_trans with s1; [apply O1; tauto|apply O2]. intros <-; apply Ha; right; eexists; reflexivity.
      + rewrite (run_bind_exc _ _ _ _ _ (delete_missing s1 _ true C0)). exists s1. split; [reflexivity|]. split; [exact W1|].
        split; [apply Hfin; auto using only_refl|]. intros a Ha. apply O1. tauto.
  Qed.

  (** ** Histories *)
  Definition mown (a : string) : Prop := (rep_names hash I a \/ vals a) \/ lock_names I a.
  Lemma mown_names a : mown a <-> meta_names hash I a.
  Proof. unfold mown, meta_names, index_names, rep_names, vals. tauto. Qed.

  Lemma mlock_frame {A} nl c s fuel (body : prog A) l :
    wf s -> MRep l s -> quiet I c s -> (c + 1 < 256 ^ 5)%Z -> fuel <> 0 ->
    exists s1, wf s1 /\ MRep l s1 /\ forall r s2 l2, run body s1 = (Some r, s2) -> wf s2 -> MRep l2 s2 -> only_at (fun a => rep_names hash I a \/ vals a) s1 s2 ->
      exists s3 c3, run (with_lock nl fuel I body) s = (Some r, s3) /\ wf s3 /\ MRep l2 s3 /\ quiet I c3 s3 /\
        (c <= c3 <= c + 1)%Z /\ only_at mown s s3.
  Proof.
    intros W R Q Hc Hf.
    assert (Hlk : forall a, lock_names I a -> ~ (rep_names hash I a \/ vals a)).
    { intros a Ha [X|X]; [now apply (lock_not_rep hash I a Ha)|now apply (lock_not_val a Ha)]. }
    destruct nl.
    - exists s. split; [exact W|]. split; [exact R|]. intros r s2 l2 Hr W2 R2 O2. exists s2, c.
      split; [exact Hr|]. split; [exact W2|]. split; [exact R2|]. split.
      { eapply quiet_same; eauto. }
      split; [lia|]. eapply only_sub; [exact O2|]. unfold mown; auto.
    - destruct (with_lock_run I c s fuel body W Q Hc Hf) as (s1 & W1 & O1 & Hk). exists s1. split; [exact W1|].
      split; [eapply mrep_lock; eauto|]. intros r s2 l2 Hr W2 R2 O2.
      destruct (Hk r s2 Hr W2) as (s3 & R3 & W3 & O3 & Q3); [auto|].
      exists s3, (c + 1)%Z. split; [exact R3|]. split; [exact W3|]. split; [eapply mrep_lock; eauto|]. split; [exact Q3|].
      split; [lia|]. intros a Ha. apply same_trans with s1; [apply O1|apply same_trans with s2; [apply O2|apply O3]];
        intro; apply Ha; unfold mown; auto.
  Qed.

  Lemma mvisit_rep l s c v : wf s -> MRep l s -> quiet I c s -> (c + 1 < 256 ^ 5)%Z -> plain_mvisit enc dec K v ->
    (Z.of_nat (S (List.length l)) < 256 ^ Z.of_nat 8)%Z ->
    exists s' c', run (mvisit_prog hash enc dec I H v) s = (Some (Ok (fst (meta_step true enc l (mv_op v)))), s') /\
      wf s' /\ MRep (snd (meta_step true enc l (mv_op v))) s' /\ quiet I c' s' /\ (c <= c' <= c + 1)%Z /\ only_at mown s s'.
  Proof.
    intros W R Q Hc (Hf & Hp & Hst & Hnl) L. unfold mvisit_prog. destruct v as [nl fuel o]. cbn [mv_op mv_nl mv_fuel] in *.
    destruct o as [k w ok|k|k|].
    - specialize (Hp k eq_refl). unfold meta_add. cbn [ix_no_lockout ix_name].
      match goal with |- context [with_lock nl fuel I ?b] => destruct (mlock_frame nl c s fuel b l W R Q Hc Hf) as (s1 & W1 & R1 & Hk) end.
      pose proof (meta_add_body l s1 k w ok nl W1 R1 Hp ltac:(intros w' ->; eapply Hst; reflexivity) L) as HA. destruct (meta_step true enc l (MAdd k w ok)) as [o l'].
      destruct HA as (r & s2 & -> & Hr & W2 & R2 & O2). destruct (Hk r s2 l' Hr W2 R2 O2) as (s3 & c3 & R3 & W3 & Rp & Q3 & Hcc & O3).
      exists s3, c3. rewrite run_ptry, R3. cbn [fst snd]. split; [destruct r; reflexivity|]. auto.
    - specialize (Hp k eq_refl). rewrite (Hnl _ eq_refl). pose proof (meta_remove_rep l s k fuel W R Hp) as HD. cbn [meta_step].
      destruct (position (ktext k) (map fst l)) as [i|].
      + destruct HD as (s' & R' & W' & M' & O'). exists s', c. rewrite run_ptry, R'. cbn [run fst snd].
        split; [destruct (held (ktext k) l); [|destruct (last_held l)]; reflexivity|]. split; [exact W'|]. split; [exact M'|]. split; [|split; [lia|]].
        * eapply quiet_same; eauto. intros a Ha. apply O'. intros [X|X]; [now apply (lock_not_rep hash I a Ha)|now apply (lock_not_val a Ha)].
        * eapply only_sub; [exact O'|]. unfold mown; auto.
      + exists s, c. rewrite run_ptry, HD. cbn [run fst snd]. split; [reflexivity|]. split; [exact W|]. split; [exact R|]. split; [exact Q|].
        split; [lia|apply only_refl].
    - specialize (Hp k eq_refl). exists s, c. rewrite run_ptry, (meta_get_rep l s k nl W R Hp). cbn [meta_step fst snd].
      split; [destruct (value_of (ktext k) l) as [[w|]|]; [destruct (enc w)| |]; reflexivity|].
      split; [exact W|]. split; [exact R|]. split; [exact Q|]. split; [lia|apply only_refl].
    - exists s, c. rewrite run_bind, (meta_items_rep l s nl W R). cbn [run meta_step fst snd].
      split; [reflexivity|]. split; [exact W|]. split; [exact R|]. split; [exact Q|]. split; [lia|apply only_refl].
  Qed.

  Lemma mvisits_rep h : forall l s c, wf s -> MRep l s -> quiet I c s -> (c + Z.of_nat (List.length h) < 256 ^ 5)%Z ->
    Forall (plain_mvisit enc dec K) h -> (Z.of_nat (List.length l + List.length h) < 256 ^ Z.of_nat 8)%Z ->
    exists s' c', run (mvisits_prog hash enc dec I H h) s = (Some (Ok (fst (meta_run true enc l (map mv_op h)))), s') /\
      wf s' /\ MRep (snd (meta_run true enc l (map mv_op h))) s' /\ quiet I c' s' /\ (c <= c' <= c + Z.of_nat (List.length h))%Z /\ only_at mown s s'.
  Proof.
    induction h as [|v h IH]; intros l s c W R Q Hc F L.
    - exists s, c. cbn. split; [reflexivity|]. split; [exact W|]. split; [exact R|]. split; [exact Q|]. split; [lia|apply only_refl].
    - inversion F as [|? ? Hv Hh]; subst. cbn [mvisits_prog map meta_run List.length] in *.
      destruct (mvisit_rep l s c v W R Q) as (s1 & c1 & R1 & W1 & Rp1 & Q1 & Hc1 & O1); [lia|exact Hv|lia|].
      pose proof (meta_step_length enc l (mv_op v)) as Hl. destruct (meta_step true enc l (mv_op v)) as [o l1]. cbn [fst snd] in *.
      destruct (IH l1 s1 c1 W1 Rp1 Q1) as (s2 & c2 & R2 & W2 & Rp2 & Q2 & Hc2 & O2); [lia|exact Hh|lia|].
      destruct (meta_run true enc l1 (map mv_op h)) as [xs l2]. cbn [fst snd] in *.
      exists s2, c2. rewrite (run_bind_ok _ _ _ _ _ R1), (run_bind_ok _ _ _ _ _ R2). cbn [run].
      split; [reflexivity|]. split; [exact W2|]. split; [exact Rp2|]. split; [exact Q2|]. split; [lia|].
      eapply only_trans; eauto.
  Qed.
End Meta.

Lemma mrep_create hash K I {J} (enc : J -> res bytes) dec s nl : wf s -> vacant (meta_names hash I) s ->
  exists s', run (meta_index I true nl) s = (Some (Ok (mkIndex I {| hname := I; hid := next s |} nl)), s') /\
    wf s' /\ MRep hash K I (next s) enc dec [] s' /\ quiet I 0 s' /\ only_at (eq I) s s'.
Proof.
  intros W V. destruct (create_rep hash K I s nl W) as (s1 & R1 & W1 & Rp1 & Q1 & O1).
  { intros a Ha. apply V. left. exact Ha. }
  exists s1. unfold meta_index. rewrite (run_bind_ok _ _ _ _ _ R1).
  rewrite (run_bind_ok _ _ _ _ _ (attach_ok _ _ _ _ (rep_mem _ _ _ _ _ _ _ Rp1) (le8_ne _))). split; [reflexivity|].
  split; [exact W1|]. split; [|split; [exact Q1|exact O1]]. constructor; cbn; auto.
  - intros i k v Hi. destruct i; discriminate.
  - intros i _. rewrite (same_names s s1); [apply V; right; eauto|]. apply O1. adn hash I; try tauto.
Qed.

Lemma meta_history hash K I {J} (enc : J -> res bytes) dec s nl h : collision_free hash K -> wf s -> vacant (meta_names hash I) s ->
  Forall (plain_mvisit enc dec K) h -> (Z.of_nat (List.length h) < 256 ^ 5)%Z ->
  exists s', run (let! x := meta_index I true nl in mvisits_prog hash enc dec I (ix_mem x) h) s =
      (Some (Ok (fst (meta_run true enc [] (map mv_op h)))), s') /\
    wf s' /\ only_at (meta_names hash I) s s'.
Proof.
  intros HK W V F L. destruct (mrep_create hash K I enc dec s nl W V) as (s1 & R1 & W1 & Rp1 & Q1 & O1).
  destruct (mvisits_rep hash K HK I (next s) enc dec h [] s1 0 W1 Rp1 Q1) as (s2 & c2 & R2 & W2 & Rp2 & Q2 & _ & O2).
  - lia.
  - exact F.
  - cbn [List.length plus]. rewrite pow8. change (256 ^ 5)%Z with 1099511627776%Z in L. lia.
  - exists s2. rewrite (run_bind_ok _ _ _ _ _ R1). cbn [ix_mem]. rewrite R2. split; [reflexivity|]. split; [exact W2|].
    intros a Ha. apply same_trans with s1; [apply O1; intros <-; apply Ha; left; left; reflexivity|].
    apply O2. intro Ho. apply Ha. exact (proj1 (mown_names _ _ dec _) Ho).
Qed.

(** ** What a history leaves *)
Section After.
  Context {J : Type}.
  Implicit Types l : list (string * option J).

  Lemma value_of_snoc {V} k (l : list (string * V)) e : value_of k (l ++ [e]) =
    match value_of k l with Some v => Some v | None => if String.eqb (fst e) k then Some (snd e) else None end.
  Proof.
    unfold value_of. induction l as [|x r IH]; cbn; [destruct (String.eqb (fst e) k); reflexivity|].
    destruct (String.eqb (fst x) k); [reflexivity|exact IH].
  Qed.
  Lemma value_of_in {V} k (l : list (string * V)) : In k (map fst l) <-> value_of k l <> None.
  Proof.
    unfold value_of. induction l as [|x r IH]; cbn; [tauto|]. destruct (String.eqb_spec (fst x) k) as [E|E].
    - split; [discriminate|auto].
    - rewrite <- IH. tauto.
  Qed.
  (** Replacing the entry of [k'] by [e]. *)
  Lemma value_of_put {V} k k' (e : string * V) (l : list (string * V)) : NoDup (map fst l) -> In k' (map fst l) -> (fst e = k' \/ ~ In (fst e) (map fst l)) ->
    value_of k (put_entry k' e l) =
      if String.eqb (fst e) k then Some (snd e) else if String.eqb k' k then None else value_of k l.
  Proof.
    induction l as [|x r IH]; cbn [map put_entry]; [intros _ []|]. intros Hd Hin He. inversion Hd as [|? ? Hx Hd']; subst.
    destruct (String.eqb_spec (fst x) k') as [E|E].
    - unfold value_of at 1. cbn [find]. destruct (String.eqb_spec (fst e) k) as [Ek|Ek]; [reflexivity|]. fold (value_of k r).
      destruct (String.eqb_spec k' k) as [<-|Hk].
      + rewrite value_of_none; [reflexivity|]. rewrite <- E. exact Hx.
      + unfold value_of at 2. cbn [find]. rewrite eqb_ne by congruence. reflexivity.
    - assert (Hin' : In k' (map fst r)) by (destruct Hin; congruence).
      unfold value_of at 1. cbn [find]. destruct (String.eqb_spec (fst x) k) as [Ex|Ex].
      + destruct (String.eqb_spec (fst e) k) as [Ek|Ek].
        * destruct He as [He|He]; [congruence|]. destruct He. left. congruence.
        * rewrite eqb_ne by congruence. unfold value_of. cbn [find]. rewrite (proj2 (String.eqb_eq _ _) Ex). reflexivity.
      + fold (value_of k (put_entry k' e r)). assert (He' : fst e = k' \/ ~ In (fst e) (map fst r)) by (cbn in He; tauto). rewrite (IH Hd' Hin' He').
        destruct (String.eqb (fst e) k); [reflexivity|]. destruct (String.eqb k' k); [reflexivity|].
        unfold value_of at 2. cbn [find]. now rewrite eqb_ne.
  Qed.
  Lemma value_of_swap {V} k k' (l : list (string * V)) : NoDup (map fst l) -> In k' (map fst l) ->
    value_of k (swap_entry k' l) = if String.eqb k' k then None else value_of k l.
  Proof.
    destruct l as [|[z w] r _] using rev_ind; [intros _ []|]. rewrite map_app. cbn [map fst]. intros Hd Hin.
    apply nodup_snoc in Hd. destruct Hd as [Hd Hz].
    destruct (String.eqb_spec z k') as [<-|Hzk].
    - rewrite swap_entry_last, value_of_snoc. cbn [fst snd]. destruct (String.eqb_spec z k) as [<-|Hk].
      + now apply value_of_none.
      + destruct (value_of k r); reflexivity.
    - rewrite swap_entry_other by exact Hzk. apply in_app_or in Hin. destruct Hin as [Hin|[E|[]]]; [|congruence].
      rewrite value_of_put by (cbn; auto). cbn [fst snd]. rewrite value_of_snoc. cbn [fst snd].
      destruct (String.eqb_spec k' k) as [<-|Hk].
      + now rewrite eqb_ne.
      + destruct (String.eqb_spec z k) as [<-|Hk2].
        * now rewrite value_of_none.
        * destruct (value_of k r); reflexivity.
  Qed.

  Lemma meta_step_nodup st (enc : J -> res bytes) l o : NoDup (map fst l) -> NoDup (map fst (snd (meta_step st enc l o))).
  Proof.
    intro Hd. destruct o as [k v ok|k|k|]; cbn [meta_step]; try exact Hd.
    - destruct (position (ktext k) (map fst l)) as [i|] eqn:E.
      + destruct ok; cbn [snd]; [|exact Hd]. rewrite put_entry_keys. cbn [fst]. now rewrite put_same.
      + cbn [snd]. rewrite map_app. apply nodup_snoc. split; [exact Hd|now apply position_none].
    - destruct (position (ktext k) (map fst l)) as [i|] eqn:E; cbn [snd]; [|exact Hd]. rewrite swap_entry_keys.
      apply swap_remove_nodup; [exact Hd|]. apply position_iff. eauto.
  Qed.
  Lemma meta_run_nodup st (enc : J -> res bytes) h : forall l, NoDup (map fst l) -> NoDup (map fst (snd (meta_run st enc l h))).
  Proof.
    induction h as [|o h IH]; intros l Hd; [exact Hd|]. cbn [meta_run]. pose proof (meta_step_nodup st enc l o Hd) as Hd1.
    destruct (meta_step st enc l o) as [x l1]. cbn [snd] in Hd1. specialize (IH l1 Hd1). destruct (meta_run st enc l1 h). exact IH.
  Qed.
  Lemma meta_run_after st (enc : J -> res bytes) k h : forall l, NoDup (map fst l) ->
    value_of k (snd (meta_run st enc l h)) = meta_after k (value_of k l) h.
  Proof.
    induction h as [|o h IH]; intros l Hd; [reflexivity|]. cbn [meta_run]. pose proof (meta_step_nodup st enc l o Hd) as Hd1.
    destruct (meta_step st enc l o) as [x l1] eqn:E. cbn [snd] in Hd1. specialize (IH l1 Hd1). destruct (meta_run st enc l1 h) as [xs l2].
    cbn [snd] in *. rewrite IH. clear IH. destruct o as [k' v ok|k'|k'|]; cbn [meta_step meta_after] in *.
    - f_equal. destruct (position (ktext k') (map fst l)) as [i|] eqn:Ep.
      + assert (Hin : In (ktext k') (map fst l)) by (apply position_iff; eauto).
        destruct ok; injection E as <- <-.
        * rewrite value_of_put by (cbn; auto). cbn [fst snd]. destruct (String.eqb_spec (ktext k') k) as [Ek|Ek]; [|reflexivity].
          apply value_of_in in Hin. unfold held. rewrite Ek in *. destruct (value_of k l); [reflexivity|congruence].
        * destruct (String.eqb_spec (ktext k') k) as [Ek|Ek]; [|reflexivity].
          apply value_of_in in Hin. rewrite Ek in *. destruct (value_of k l); [reflexivity|congruence].
      + injection E as <- <-. apply position_none in Ep. rewrite value_of_snoc. cbn [fst snd].
        destruct (String.eqb_spec (ktext k') k) as [Ek|Ek].
        * rewrite <- Ek, value_of_none by exact Ep. reflexivity.
        * destruct (value_of k l); reflexivity.
    - f_equal. destruct (position (ktext k') (map fst l)) as [i|] eqn:Ep; injection E as <- <-.
      + apply value_of_swap; [exact Hd|]. apply position_iff; eauto.
      + apply position_none in Ep. destruct (String.eqb_spec (ktext k') k) as [Ek|Ek]; [|reflexivity].
        rewrite <- Ek. now apply value_of_none.
    - injection E as <- <-. reflexivity.
    - injection E as <- <-. reflexivity.
  Qed.
  Lemma value_of_spec {V} k v (l : list (string * V)) : NoDup (map fst l) -> (In (k, v) l <-> value_of k l = Some v).
  Proof.
    intro Hd. split.
    - intro Hin. apply In_nth_error in Hin. destruct Hin as [i Hi]. eapply value_of_nth; eauto.
    - unfold value_of. destruct (find _ l) as [[k' v']|] eqn:E; [|discriminate]. intros [= <-]. apply find_some in E.
      destruct E as [Hin E]. apply String.eqb_eq in E. cbn in E. subst. exact Hin.
  Qed.

  Lemma entries_after_spec (enc : J -> res bytes) h :
    NoDup (map fst (entries_after enc h)) /\
    forall k v, In (k, v) (entries_after enc h) <-> meta_after k None (map mv_op h) = Some v.
  Proof.
    assert (Hd : NoDup (map fst (entries_after enc h))) by (apply meta_run_nodup; constructor).
    split; [exact Hd|]. intros k v. rewrite (value_of_spec k v _ Hd). unfold entries_after.
    rewrite meta_run_after by constructor. reflexivity.
  Qed.

  (** With a value for every key removal never raises spuriously. *)
  Lemma meta_step_valued (enc : J -> res bytes) l o : valued o -> Forall (fun e => snd e <> None) l ->
    meta_step true enc l o = meta_step false enc l o /\ Forall (fun e => snd e <> None) (snd (meta_step true enc l o)).
  Proof.
    intros Hv F. assert (Hheld : forall k, In k (map fst l) -> held k l <> None).
    { intros k Hk. unfold held. apply value_of_in in Hk. unfold value_of in *. destruct (find _ l) as [e|] eqn:E; [|congruence].
      apply find_some in E. rewrite Forall_forall in F. apply F. apply E. }
    destruct o as [k v ok|k|k|]; cbn [meta_step]; try (split; [reflexivity|exact F]).
    - destruct (position (ktext k) (map fst l)) as [i|] eqn:E.
      + destruct ok; (split; [reflexivity|]); [|exact F]. cbn [snd]. clear E.
        destruct v as [v|]; [|destruct (Hv k true); reflexivity]. cbn [newer]. clear Hheld Hv. induction F as [|x r Hx Hr IH]; cbn [put_entry]; [constructor|].
        destruct (String.eqb (fst x) (ktext k)); constructor; auto; discriminate.
      + split; [reflexivity|]. apply Forall_app. split; [exact F|]. constructor; [|constructor]. cbn.
        destruct v; [discriminate|]. now destruct (Hv k ok).
    - destruct (position (ktext k) (map fst l)) as [i|] eqn:E; [|split; [reflexivity|exact F]]. split.
      + destruct (held (ktext k) l) eqn:Eh; [reflexivity|]. exfalso. revert Eh. apply Hheld. apply position_iff; eauto.
      + cbn [snd]. clear E Hheld. destruct l as [|x r _] using rev_ind; [constructor|]. apply Forall_app in F. destruct F as [F Fx].
        inversion Fx as [|? ? Hx _]; subst. destruct x as [z w]. destruct (String.eqb_spec z (ktext k)) as [->|Hz].
        * now rewrite swap_entry_last.
        * rewrite swap_entry_other by exact Hz. clear Fx. induction F as [|y r Hy Hr IH]; cbn [put_entry]; [constructor|].
          destruct (String.eqb (fst y) (ktext k)); constructor; auto.
  Qed.
  Lemma meta_run_valued (enc : J -> res bytes) h : Forall valued h -> forall l, Forall (fun e => snd e <> None) l ->
    meta_run true enc l h = meta_run false enc l h.
  Proof.
    induction 1 as [|o h Ho Hh IH]; intros l F; [reflexivity|]. cbn [meta_run].
    destruct (meta_step_valued enc l o Ho F) as [E F1]. rewrite <- E. destruct (meta_step true enc l o) as [x l1].
    cbn [snd] in F1. now rewrite (IH l1 F1).
  Qed.
End After.

Lemma meta_run_length {J} (enc : J -> res bytes) h : forall l, List.length (snd (meta_run true enc l h)) <= List.length l + List.length h.
Proof.
  induction h as [|o h IH]; intros l; cbn [meta_run List.length]; [cbn; lia|].
  pose proof (meta_step_length enc l o) as Hl. destruct (meta_step true enc l o) as [x l1]. cbn [snd] in Hl.
  specialize (IH l1). destruct (meta_run true enc l1 h) as [xs l2]. cbn [snd] in *. lia.
Qed.

Lemma mreached_rep {J} hash K I (enc : J -> res bytes) dec h m s : mreached hash K I enc dec h m s ->
  exists i c, m = mkHandle I i /\ wf s /\ MRep hash K I i enc dec (entries_after enc h) s /\ quiet I c s /\
    (c + 8 < 256 ^ 5)%Z /\ (Z.of_nat (List.length (entries_after enc h)) + 8 < 256 ^ Z.of_nat 8)%Z.
Proof.
  intros (HK & F & L & s0 & nl & r & W & V & -> & R).
  destruct (mrep_create hash K I enc dec s0 nl W V) as (s1 & R1 & W1 & Rp1 & Q1 & O1).
  assert (L5 : (256 ^ 5 = 1099511627776)%Z) by reflexivity.
  destruct (mvisits_rep hash K HK I (next s0) enc dec h [] s1 0 W1 Rp1 Q1) as (s2 & c2 & R2 & W2 & Rp2 & Q2 & Hc2 & O2).
  - lia.
  - exact F.
  - cbn [List.length plus]. rewrite pow8. lia.
  - rewrite (run_bind_ok _ _ _ _ _ R1) in R. cbn [ix_mem] in R. rewrite R2 in R. injection R as _ <-.
    exists (next s0), c2. split; [reflexivity|]. split; [exact W2|]. split; [exact Rp2|]. split; [exact Q2|]. split; [lia|].
    unfold entries_after. pose proof (meta_run_length enc (map mv_op h) []) as Hl. cbn [List.length] in Hl. rewrite map_length in Hl. rewrite pow8. lia.
Qed.

(** ** The nested lock *)
Lemma any_locked_spec I ns s : wf s ->
  run (any_locked I ns) s = (Some (Ok (existsb (fun n => match names s (lock_address I n) with Some _ => true | None => false end) ns)), s).
Proof.
  intro W. induction ns as [|n ns IH]; [reflexivity|]. cbn [any_locked existsb]. rewrite run_bind, exists_names by exact W.
  destruct (names s (lock_address I n)); [reflexivity|]. exact IH.
Qed.
Lemma count_down_in n f : forall x, In x (count_down n f) <-> (f <= x < f + Z.of_nat n)%Z.
Proof. induction n as [|n IH]; intro x; cbn [count_down In]; [lia|]. rewrite IH. lia. Qed.

Lemma acquire_loop_blocked fuel : forall l s n, wf s -> l_acquired l = false -> l_max_spins l = None ->
  (l_floor l <= n < l_number l)%Z -> names s (lock_address (l_name l) n) <> None ->
  run (acquire_loop fuel l) s = (None, s).
Proof.
  induction fuel as [|f IH]; intros l s n W Ha Hm Hn Hl; cbn [acquire_loop]; rewrite Ha; [reflexivity|].
  unfold check_acquirement. rewrite run_bind, run_bind, any_locked_spec by exact W.
  replace (existsb _ _) with true.
  2:{ symmetry. apply existsb_exists. exists n. split; [apply count_down_in; lia|]. destruct (names s _); congruence. }
  cbn [add_spin l_max_spins]. rewrite Hm. cbn [run fst snd].
  apply (IH _ s n); auto.
Qed.

Lemma enter_blocked I c s ch fuel : wf s -> at_ s (count_address I) ch (le_digits 5 c) -> (0 <= c < 256 ^ 5)%Z ->
  names s (marker_address I (c + 1)) <> None -> names s (lock_address I (c + 1)) <> None ->
  names s (marker_address I (c + 2)) = None -> names s (lock_address I (c + 2)) = None ->
  exists s', run (enter fuel (mkLock I (mkHandle (count_address I) ch) 0 0 None None false 0 None)) s = (None, s').
Proof.
  intros W A Hc M1 L1 M2 L2. unfold enter. rewrite run_ptry. unfold renumber. cbn [l_count l_marker l_name].
  rewrite (run_bind_ok _ _ _ _ _ (read_ok _ _ _ _ A)).
  rewrite from_le by (change (Z.of_nat 5) with 5%Z; lia).
  destruct fuel as [|f]; [cbn; eauto|]. rewrite run_bind. cbn [take_marker]. rewrite run_ptry.
  destruct (names s (marker_address I (c + 1))) as [i1|] eqn:E1; [|congruence].
  rewrite (create_exists s _ 1 i1 E1) by discriminate.
  destruct f as [|f]; [cbn; eauto|]. cbn [take_marker]. rewrite run_ptry. replace (c + 1 + 1)%Z with (c + 2)%Z by lia.
  destruct (create_ok s _ 1 W M2) as (s1 & R1 & W1 & A1 & O1); [discriminate|]. rewrite R1. cbn [run fst snd].
  rewrite run_bind. unfold acquire. cbn [l_name l_number]. rewrite run_ptry.
  assert (S1 : forall n, same_at s s1 (lock_address I n)) by (intro n; apply O1; adn hash0 I; try tauto).
  destruct (create_ok s1 (lock_address I (c + 2)) 1 W1) as (s2 & R2 & W2 & A2 & O2); [now rewrite (same_names _ _ _ (S1 _))|discriminate|].
  rewrite R2. rewrite (acquire_loop_blocked _ _ s2 (c + 1)%Z); [eauto|exact W2|reflexivity|reflexivity|cbn; lia|].
  cbn [set_lock l_name]. rewrite (same_names s1 s2), (same_names _ _ _ (S1 _)); [exact L1|]. apply O2. adn hash0 I; try tauto.
Qed.

(** A lock taken by its own holder is never acquired. *)
Lemma nested_lock {A B} I c s fuel fuel' (body : prog A) (k : A -> prog B) : wf s -> quiet I c s -> (c + 1 < 256 ^ 5)%Z ->
  exists s', run (with_lock false fuel I (let! r := with_lock false fuel' I body in k r)) s = (None, s').
Proof.
  intros W Q Hc. destruct (lock_init_ok I c s W Q) as (s0 & ch & R0 & W0 & A0 & O0).
  assert (Q0 : quiet I c s0).
  { destruct Q as (H0 & H1 & H2 & H3). split; [exact H0|]. split; [|split].
    - intro n. rewrite (same_names s s0); [apply H1|]. apply O0. adn hash0 I; try tauto.
    - intro n. rewrite (same_names s s0); [apply H2|]. apply O0. adn hash0 I; try tauto.
    - right. split; [apply (at_content _ _ _ _ A0)|lia]. }
  assert (Hc0 : (0 <= c)%Z) by apply Q.
  unfold with_lock at 1. rewrite (run_bind_ok _ _ _ _ _ R0).
  destruct fuel as [|f].
  { unfold enter. rewrite run_bind, run_ptry. unfold renumber. cbn [l_count l_marker l_name].
    rewrite (run_bind_ok _ _ _ _ _ (read_ok _ _ _ _ A0)). cbn. eauto. }
  destruct (enter_ok I c s0 ch (S f) W0 Q0 A0) as (s1 & mh & lh & R1 & W1 & (bm & Am) & (bl & Al) & O1); [lia|discriminate|].
  rewrite (run_bind_ok _ _ _ _ _ R1). rewrite run_ptry.
  assert (A1 : at_ s1 (count_address I) ch (le_digits 5 c)).
  { apply (at_same s0); [exact A0|]. apply O1. intros [E|E]; revert E; adn hash0 I; try tauto. }
  destruct (enter_blocked I c s1 ch fuel' W1 A1) as [s' R2].
  - lia.
  - rewrite (proj1 Am). discriminate.
  - rewrite (proj1 Al). discriminate.
  - rewrite (same_names s0 s1); [apply Q0|]. apply O1. intros [E|E]; revert E; adn hash0 I; try tauto.
  - rewrite (same_names s0 s1); [apply Q0|]. apply O1. intros [E|E]; revert E; adn hash0 I; try tauto.
  - exists s'. rewrite run_bind. unfold with_lock, lock_init. rewrite run_bind.
    rewrite (run_bind_ok _ _ _ _ _ (open_existing s1 (count_address I) 5 false ch _ A1 ltac:(apply le_ne; discriminate) ltac:(discriminate) eq_refl)).
    cbn [run]. rewrite (run_bind_stuck _ _ _ _ R2). reflexivity.
Qed.
