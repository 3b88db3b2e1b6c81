(** How composition.py calls steps: positional and keyword inserts. *)
From Coq Require Import Lia Sorted Permutation.
From Verif Require Export Comp_Spec.
From Verif Require Import Py_Facts.

(** ** Int keys *)

Lemma kint_norm k z : kint k = Some z <-> knorm k = KInt z.
Proof. destruct k as [|[]|i|s|s n]; cbn; split; congruence. Qed.
Lemma is_int_kint k : is_int k = true -> kint k = Some (kz k).
Proof. unfold kz. destruct k as [|[]|i|s|s n]; cbn; congruence. Qed.
Lemma keqb_kz a b : is_int a = true -> is_int b = true -> keqb a b = (kz a =? kz b)%Z.
Proof.
  intros Ha Hb. apply is_int_kint, kint_norm in Ha. apply is_int_kint, kint_norm in Hb.
  unfold keqb. rewrite Ha, Hb. destruct (Z.eqb_spec (kz a) (kz b)) as [->|N].
  - destruct (key_eq_dec _ _); congruence.
  - destruct (key_eq_dec _ _); congruence.
Qed.
Lemma keqb_is_int a b : keqb a b = true -> is_int a = is_int b.
Proof. rewrite keqb_true. destruct a as [|[]|i|s|s n], b as [|[]|j|t|t m]; cbn; congruence. Qed.
Lemma keqb_is_str a b : keqb a b = true -> is_str a = is_str b.
Proof. rewrite keqb_true. destruct a as [|[]|i|s|s n], b as [|[]|j|t|t m]; cbn; congruence. Qed.

(** ** Dictionaries *)

Lemma dget_filter {V} (p : key -> bool) (d : dict V) k :
  (forall a b, keqb a b = true -> p a = p b) ->
  dget (filter (fun kv => p (fst kv)) d) k = if p k then dget d k else None.
Proof.
  intro H. induction d as [|[a v] d IH]; cbn [filter dget fst]; [now destruct (p k)|].
  destruct (p a) eqn:Pa; cbn [dget]; destruct (keqb a k) eqn:E; rewrite ?IH; try reflexivity.
  - now rewrite <- (H _ _ E), Pa.
  - rewrite <- (H _ _ E), Pa. reflexivity.
Qed.
Lemma keyfilter_filter {V} (p : key -> bool) (d : dict V) : wfd d = true ->
  keyfilter p d = filter (fun kv => p (fst kv)) d.
Proof. intro H. unfold keyfilter. apply dict_of_wfd. now apply wfd_filter. Qed.

Lemma number_from_int {A} (l : list A) : forall i k, In k (dkeys (number_from i l)) -> is_int k = true.
Proof.
  induction l as [|x l IH]; intros i k; [contradiction|]. cbn. intros [<-|H]; [reflexivity|eauto].
Qed.
Lemma dget_number_from {A} (l : list A) : forall i z,
  dget (number_from i l) (KInt z) = if (z <? i)%Z then None else nth_error l (Z.to_nat (z - i)).
Proof.
  induction l as [|x l IH]; intros i z; cbn [number_from dget].
  - destruct (z <? i)%Z; [reflexivity|]. now destruct (Z.to_nat _).
  - destruct (keqb (KInt i) (KInt z)) eqn:E.
    + apply keqb_int in E. subst. rewrite Z.ltb_irrefl, Z.sub_diag. reflexivity.
    + assert (i <> z) by (intros ->; rewrite keqb_refl in E; discriminate). rewrite IH.
      destruct (Z.ltb_spec z i), (Z.ltb_spec z (i + 1)); try lia; [reflexivity|].
      replace (Z.to_nat (z - i)) with (S (Z.to_nat (z - (i + 1)))) by lia. reflexivity.
Qed.
Lemma wfd_number_from {A} (l : list A) : forall i, wfd (number_from i l) = true.
Proof.
  induction l as [|x l IH]; intro i; [reflexivity|]. cbn [number_from wfd]. rewrite IH, andb_true_r.
  unfold dhas. rewrite dget_number_from. destruct (Z.ltb_spec i (i + 1)); [reflexivity|lia].
Qed.
Lemma dict_of_number {A} (l : list A) i : dict_of (number_from i l) = number_from i l.
Proof. apply dict_of_wfd, wfd_number_from. Qed.

Lemma dget_in {V} (d : dict V) k v : dget d k = Some v -> exists k', keqb k' k = true /\ In (k', v) d.
Proof.
  induction d as [|[a b] d IH]; cbn; [discriminate|]. destruct (keqb a k) eqn:E.
  - intro H. injection H as ->. exists a. auto.
  - intro H. destruct (IH H) as (k' & A & B). eauto.
Qed.

(** ** The first free position *)

Section Opening.
  Context {V : Type}.
  Implicit Types args : dict V.

  Lemma opening_range f : forall i args,
    (i <= opening f i args <= i + Z.of_nat f)%Z /\
    (forall q, (i <= q < opening f i args)%Z -> dhas args (KInt q) = true) /\
    (opening f i args < i + Z.of_nat f -> dhas args (KInt (opening f i args)) = false)%Z.
  Proof.
    induction f as [|f IH]; intros i args; cbn [opening].
    - repeat split; intros; lia.
    - destruct (dhas args (KInt i)) eqn:E.
      + destruct (IH (i + 1)%Z args) as (A & B & C). split; [lia|]. split.
        * intros q Hq. destruct (Z.eq_dec q i) as [->|N]; [exact E|]. apply B. lia.
        * intro L. apply C. lia.
      + repeat split; intros; try lia. exact E.
  Qed.

  Lemma dhas_norm args z : dhas args (KInt z) = true -> In (KInt z) (map knorm (dkeys args)).
  Proof.
    unfold dhas. destruct (dget args (KInt z)) eqn:E; [|discriminate]. intros _.
    destruct (dget_in _ _ _ E) as (k & Hk & Hin). apply keqb_true in Hk. cbn in Hk. rewrite <- Hk.
    apply in_map. unfold dkeys. change k with (fst (k, v)). now apply in_map.
  Qed.

  Lemma too_many args n : (forall q, (0 <= q < Z.of_nat n)%Z -> dhas args (KInt q) = true) -> n <= List.length args.
  Proof.
    intro H.
    assert (L : List.length (map (fun i => KInt (Z.of_nat i)) (seq 0 n)) <= List.length (map knorm (dkeys args))).
    { apply NoDup_incl_length.
      - apply FinFun.Injective_map_NoDup; [|apply seq_NoDup]. intros a b E. injection E. lia.
      - intros k Hk. apply in_map_iff in Hk. destruct Hk as (i & <- & Hi). apply in_seq in Hi.
        apply dhas_norm, H. lia. }
    rewrite !map_length, seq_length in L. unfold dkeys in L. now rewrite map_length in L.
  Qed.

  Lemma opening_spec args :
    let p := opening (List.length args) 0 args in
    (0 <= p)%Z /\ dget args (KInt p) = None /\ (forall q, (0 <= q < p)%Z -> dget args (KInt q) <> None).
  Proof.
    intro p. destruct (opening_range (List.length args) 0 args) as (A & B & C). fold p in A, B, C.
    split; [lia|]. split.
    - destruct (Z.eq_dec p (Z.of_nat (List.length args))) as [E|N].
      + destruct (dget args (KInt p)) eqn:G; [exfalso|reflexivity].
        enough (S (List.length args) <= List.length args) by lia. apply too_many. intros q Hq.
        destruct (Z.eq_dec q p) as [->|N]; [unfold dhas; now rewrite G|]. apply B. lia.
      + specialize (C ltac:(lia)). unfold dhas in C. destruct (dget args (KInt p)); [discriminate|reflexivity].
    - intros q Hq. specialize (B q Hq). unfold dhas in B. now destruct (dget args (KInt q)).
  Qed.
End Opening.

(** ** Sorting *)

Lemma insert_perm k l : Permutation (insert_key k l) (k :: l).
Proof.
  induction l as [|x l IH]; cbn; [reflexivity|]. destruct (_ <=? _)%Z; [reflexivity|].
  rewrite IH. apply perm_swap.
Qed.
Lemma sort_perm l : Permutation (sort_keys l) l.
Proof. induction l as [|x l IH]; cbn; [reflexivity|]. rewrite insert_perm. now constructor. Qed.

Definition kle a b := (kz a <= kz b)%Z.
Lemma insert_sorted k l : StronglySorted kle l -> StronglySorted kle (insert_key k l).
Proof.
  induction 1 as [|x l Hs IH Hf]; cbn; [repeat constructor|].
  destruct (Z.leb_spec (kz k) (kz x)).
  - constructor; [now constructor|]. constructor; [exact H|].
    eapply Forall_impl; [|exact Hf]. unfold kle. intros; lia.
  - constructor; [exact IH|]. rewrite (insert_perm k l : Permutation _ _). constructor; [unfold kle; lia|exact Hf].
Qed.
Lemma sort_sorted l : StronglySorted kle (sort_keys l).
Proof. induction l as [|x l IH]; cbn; [constructor|]. now apply insert_sorted. Qed.

(** Distinct int keys, sorted strictly. *)
Lemma sort_strict (ks : list key) : NoDup (map kz ks) ->
  StronglySorted (fun a b => (kz a < kz b)%Z) (sort_keys ks).
Proof.
  intro N. assert (N' : NoDup (map kz (sort_keys ks))).
  { eapply Permutation_NoDup; [|exact N]. symmetry. apply Permutation_map, sort_perm. }
  pose proof (sort_sorted ks) as S. induction S as [|x l Hs IH Hf]; [constructor|].
  cbn in N'. inversion N' as [|? ? Hn Hd]; subst. constructor; [now apply IH|].
  apply Forall_forall. intros y Hy. rewrite Forall_forall in Hf. specialize (Hf y Hy). unfold kle in Hf.
  assert (kz x <> kz y) by (intro E; apply Hn; rewrite E; now apply in_map). lia.
Qed.

Lemma wfd_nodup {V} (d : dict V) : wfd d = true -> (forall k, In k (dkeys d) -> is_int k = true) ->
  NoDup (map kz (dkeys d)).
Proof.
  induction d as [|[k v] d IH]; intros Hw Hi; [constructor|].
  cbn [wfd] in Hw. apply andb_true_iff in Hw. destruct Hw as [H1 H2]. cbn [dkeys map fst].
  constructor; [|apply IH; [exact H2|intros k' Hk; apply Hi; now right]].
  intro Hin. apply in_map_iff in Hin. destruct Hin as (k' & E & Hk).
  apply negb_true_iff in H1. unfold dhas in H1. destruct (dget d k) eqn:G; [discriminate|].
  apply in_map_iff in Hk. destruct Hk as ([k'' v'] & E' & Hk). cbn in E'. subst k''.
  assert (keqb k k' = true).
  { rewrite keqb_kz; [apply Z.eqb_eq; now symmetry|apply Hi; now left|apply Hi; right; now apply (in_map fst) in Hk]. }
  rewrite (dget_keqb _ _ _ H) in G. rewrite dget_none_iff in G.
  rewrite (G k' v' Hk) in H || specialize (G k' v' Hk); rewrite keqb_refl in G; discriminate.
Qed.

(** ** Positional arguments *)

Section Placed.
  Context {V : Type}.
  Implicit Types (d args : dict V) (x : V).

  Lemma sorted_ext (l l' : list (Z * V)) :
    StronglySorted (fun a b => (fst a < fst b)%Z) l -> StronglySorted (fun a b => (fst a < fst b)%Z) l' ->
    (forall a, In a l <-> In a l') -> l = l'.
  Proof.
    intro S. revert l'. induction S as [|a l S IH F]; intros l' S' E.
    - destruct l' as [|b l']; [reflexivity|]. exfalso. apply (E b). now left.
    - destruct S' as [|b l' S' F'].
      + exfalso. apply (E a). now left.
      + rewrite Forall_forall in F, F'.
        assert (a = b).
        { destruct (proj1 (E a) (or_introl eq_refl)) as [H|H]; [now symmetry|].
          destruct (proj2 (E b) (or_introl eq_refl)) as [H'|H']; [exact H'|].
          apply F' in H. apply F in H'. lia. }
        subst b. f_equal. apply IH; [exact S'|]. intro c. split; intro H.
        * destruct (proj1 (E c) (or_intror H)) as [<-|H']; [|exact H']. apply F in H. lia.
        * destruct (proj2 (E c) (or_intror H)) as [<-|H']; [|exact H']. apply F' in H. lia.
  Qed.

  Lemma placed_unique (pv : Z -> option V) x l l' : placed pv x l -> placed pv x l' -> l = l'.
  Proof.
    intros (p & s & P0 & P1 & P2 & S & E & ->) (p' & s' & P0' & P1' & P2' & S' & E' & ->).
    assert (p = p').
    { destruct (Z.lt_trichotomy p p') as [L|[L|L]]; [exfalso|exact L|exfalso].
      - apply (P2' p); [lia|exact P1].
      - apply (P2 p'); [lia|exact P1']. }
    subst p'. f_equal. apply sorted_ext; [exact S|exact S'|]. intros [z v]. rewrite E, E'. reflexivity.
  Qed.
  Lemma placed_ext (pv pv' : Z -> option V) x l : (forall z, pv z = pv' z) -> placed pv x l -> placed pv' x l.
  Proof.
    intros H (p & s & P0 & P1 & P2 & S & E & ->). exists p, s. rewrite <- H.
    split; [exact P0|]. split; [exact P1|]. split; [intros q Hq; rewrite <- H; auto|].
    split; [exact S|]. split; [|reflexivity]. intros z v. rewrite <- H. apply E.
  Qed.

  Lemma mapM_get d ks : (forall k, In k ks -> dget d k <> None) ->
    exists vs, mapM (fun k => match dget d k with Some v => Ok v | None => Exc KeyError end) ks = Ok vs /\
      Forall2 (fun k v => dget d k = Some v) ks vs.
  Proof.
    induction ks as [|k ks IH]; intro H; [exists []; split; [reflexivity|constructor]|].
    destruct IH as (vs & A & B); [intros; apply H; now right|].
    destruct (dget d k) as [v|] eqn:E; [|exfalso; now apply (H k (or_introl eq_refl))].
    exists (v :: vs). cbn [mapM]. rewrite E. cbn [bind]. rewrite A. split; [reflexivity|]. now constructor.
  Qed.

  Lemma flow_placed args x : wfd args = true -> (forall k, In k (dkeys args) -> is_int k = true) ->
    exists l, _flow_signal x args = Ok l /\ placed (by_insert args) x l.
  Proof.
    intros Hw Hi. unfold _flow_signal. destruct (opening_spec args) as (P0 & P1 & P2).
    set (p := opening _ _ _) in *. clearbody p. cbn zeta in P0, P1, P2.
    set (d := dset args (KInt p) x).
    assert (Hd : wfd d = true) by now apply wfd_dset.
    assert (Hid : forall k, In k (dkeys d) -> is_int k = true).
    { intros k Hk. unfold d in Hk. rewrite (dset_notin _ _ _ P1) in Hk. unfold dkeys in Hk.
      rewrite map_app in Hk. apply in_app_iff in Hk. destruct Hk as [Hk|[<-|[]]]; [now apply Hi|reflexivity]. }
    assert (Hks : forall k, In k (sort_keys (dkeys d)) <-> In k (dkeys d)).
    { intro k. split; apply Permutation_in; [|symmetry]; apply sort_perm. }
    destruct (mapM_get d (sort_keys (dkeys d))) as (vs & A & B).
    { intros k Hk. apply Hks in Hk. apply in_map_iff in Hk. destruct Hk as ([k' v] & <- & Hk).
      cbn. rewrite (wfd_In_dget _ _ _ Hd Hk). discriminate. }
    exists vs. split; [exact A|].
    assert (HS := sort_strict _ (wfd_nodup d Hd Hid)).
    assert (HI : forall k, In k (sort_keys (dkeys d)) -> is_int k = true) by (intros k Hk; apply Hid, Hks, Hk).
    assert (Hdz : forall z, dget d (KInt z) = if (z =? p)%Z then Some x else dget args (KInt z)).
    { intro z. unfold d. rewrite dget_dset. destruct (Z.eqb_spec z p) as [->|N]; [now rewrite keqb_refl|].
      destruct (keqb (KInt p) (KInt z)) eqn:E; [|reflexivity]. apply keqb_int in E. congruence. }
    exists p, (combine (map kz (sort_keys (dkeys d))) vs).
    split; [exact P0|]. split; [exact P1|]. split; [exact P2|].
    assert (G : forall ks us, Forall2 (fun k v => dget d k = Some v) ks us ->
      (forall k, In k ks -> is_int k = true) -> StronglySorted (fun a b => (kz a < kz b)%Z) ks ->
      us = map snd (combine (map kz ks) us) /\
      (forall z v, In (z, v) (combine (map kz ks) us) <-> exists k, In k ks /\ kz k = z /\ dget d k = Some v) /\
      StronglySorted (fun a b => (fst a < fst b)%Z) (combine (map kz ks) us)).
    { clear. intros ks us F. induction F as [|k v ks us E F IH]; intros HI HS.
      - cbn. split; [reflexivity|]. split; [|constructor]. intros z v. split; [tauto|]. now intros (k & [] & _).
      - inversion HS as [|? ? HS' HF]; subst.
        destruct IH as (I1 & I2 & I3); [intros; apply HI; now right|exact HS'|].
        cbn [map combine snd]. split; [now rewrite <- I1|]. split.
        + intros z u. split.
          * intros [H|H]; [injection H as <- <-; exists k; cbn; auto|].
            apply I2 in H. destruct H as (k' & H & H'). exists k'. split; [now right|exact H'].
          * intros (k' & [<-|H] & E1 & E2); [left; congruence|]. right. apply I2. eauto.
        + constructor; [exact I3|]. apply Forall_forall. intros [z u] H. apply I2 in H.
          destruct H as (k' & H & <- & _). rewrite Forall_forall in HF. now apply HF. }
    destruct (G _ _ B HI HS) as (G1 & G2 & G3). split; [exact G3|]. split; [|exact G1].
    intros z v. rewrite G2. split.
    - intros (k & Hk & <- & E). pose proof (HI k Hk) as Hik. apply is_int_kint, kint_norm in Hik.
      assert (Ek : keqb k (KInt (kz k)) = true) by (apply keqb_true; exact Hik).
      rewrite (dget_keqb _ _ _ Ek), Hdz in E. destruct (Z.eqb_spec (kz k) p) as [Hp|N].
      + left. split; congruence.
      + right. exact E.
    - intro H. assert (E : dget d (KInt z) = Some v).
      { rewrite Hdz. destruct (Z.eqb_spec z p) as [->|N]; destruct H as [[H ->]|H]; try congruence.
        - unfold by_insert in H. rewrite P1 in H. discriminate.
        - exact H. }
      destruct (dget_in _ _ _ E) as (k & Hk & Hin). exists k.
      assert (In k (dkeys d)) by (apply (in_map fst) in Hin; exact Hin).
      split; [now apply Hks|]. split.
      + apply keqb_true in Hk. apply kint_norm in Hk. unfold kz. now rewrite Hk.
      + now rewrite (dget_keqb _ _ _ Hk).
  Qed.

  Lemma placed_none x : placed (by_insert []) x [x].
  Proof.
    exists 0%Z, [(0%Z, x)]. split; [lia|]. split; [reflexivity|]. split; [intros; lia|].
    split; [repeat constructor|]. split; [|reflexivity]. intros z v. cbn. split.
    - intros [H|[]]. injection H as <- <-. now left.
    - intros [[-> ->]|H]; [now left|discriminate].
  Qed.

  (** Positional and keyword inserts of a dictionary of inserts. *)
  Lemma dget_ints d z : wfd d = true -> dget (keyfilter is_int d) (KInt z) = dget d (KInt z).
  Proof. intro H. rewrite keyfilter_filter by exact H. rewrite dget_filter by exact keqb_is_int. reflexivity. Qed.
  Lemma ints_int d k : In k (dkeys (keyfilter is_int d)) -> wfd d = true -> is_int k = true.
  Proof.
    intros Hk H. rewrite keyfilter_filter in Hk by exact H. apply in_map_iff in Hk.
    destruct Hk as ([k' v] & <- & Hk). apply filter_In in Hk. apply Hk.
  Qed.
  Lemma wfd_ints d p : wfd d = true -> wfd (keyfilter p d) = true.
  Proof. intro H. rewrite keyfilter_filter by exact H. now apply wfd_filter. Qed.
End Placed.

(** ** Calls *)

Section Calls.
  Context {V W : Type}.
  Notation comp := (@comp V W).
  Implicit Types (c : comp) (d : dict V) (x : V).

  Lemma length0 {A} (l : list A) : Nat.eqb (List.length l) 0 = true -> l = [].
  Proof. destruct l; [reflexivity|discriminate]. Qed.

  (** What [call_step] takes from the inserts of a step. *)
  Lemma call_inserts c k :
    match dget (inserts c) k with
    | None => ([], [])
    | Some d => (keyfilter is_int d, keyfilter is_str d)
    end = (keyfilter is_int (inserts_at c k), keyfilter is_str (inserts_at c k)).
  Proof. unfold inserts_at. destruct (dget (inserts c) k); reflexivity. Qed.

  Lemma call_plain_lemma c k x n s f : wfd (inserts_at c k) = true -> dget (steps c) k = Some (Plain n s f) ->
    exists l, placed (by_insert (inserts_at c k)) x l /\
      call_step c k x = f l (filter (fun kv => is_str (fst kv)) (inserts_at c k)).
  Proof.
    intros Hw Hs. unfold call_step. rewrite Hs, call_inserts.
    rewrite (keyfilter_filter is_str) by exact Hw. set (d := inserts_at c k) in *. clearbody d.
    destruct (flow_placed (keyfilter is_int d) x) as (l & A & B).
    { now apply wfd_ints. }
    { intros k' Hk. now apply (ints_int d). }
    assert (E : forall z, by_insert (keyfilter is_int d) z = by_insert d z) by (intro; now apply dget_ints).
    destruct (Nat.eqb (List.length (keyfilter is_int d)) 0) eqn:L.
    - apply length0 in L. exists [x]. split; [|reflexivity].
      apply (placed_ext (by_insert (keyfilter is_int d)) _ _ _ E). rewrite L. apply placed_none.
    - exists l. rewrite A. split; [|reflexivity]. now apply (placed_ext (by_insert (keyfilter is_int d))).
  Qed.

  Lemma dkeys_dupdate_int d1 d2 : (forall k, In k (dkeys d1) -> is_int k = true) ->
    (forall k, In k (dkeys d2) -> is_int k = true) -> forall k, In k (dkeys (dupdate d1 d2)) -> is_int k = true.
  Proof.
    revert d1. induction d2 as [|[a v] d2 IH] using rev_ind; intros d1 H1 H2 k Hk; [now apply H1|].
    unfold dupdate in Hk. rewrite fold_left_app in Hk. cbn [fold_left fst snd] in Hk.
    fold (dupdate d1 d2) in Hk. rewrite dkeys_dset in Hk.
    assert (Ha : is_int a = true).
    { apply H2. unfold dkeys. rewrite map_app. apply in_app_iff. right. now left. }
    assert (IH' : forall k, In k (dkeys (dupdate d1 d2)) -> is_int k = true).
    { apply IH; [exact H1|]. intros k' Hk'. apply H2. unfold dkeys. rewrite map_app. apply in_app_iff. now left. }
    destruct (dhas _ _); [now apply IH'|]. apply in_app_iff in Hk. destruct Hk as [Hk|[<-|[]]]; auto.
  Qed.

  Lemma call_part_lemma c k x n s p : wfd (inserts_at c k) = true -> dget (steps c) k = Some (Part n s p) ->
    exists l,
      placed (by_partial (match p_args p with Some a => a | None => [] end) (inserts_at c k)) x l /\
      call_step c k x =
        p_func p l (match p_keywords p with
                    | Some kw => dupdate kw (filter (fun kv => is_str (fst kv)) (inserts_at c k))
                    | None => filter (fun kv => is_str (fst kv)) (inserts_at c k)
                    end).
  Proof.
    intros Hw Hs. unfold call_step. rewrite Hs, call_inserts. unfold _call_partial_step.
    rewrite (keyfilter_filter is_str) by exact Hw. set (d := inserts_at c k) in *. clearbody d.
    assert (D : match p_args p with
                | Some a => dupdate (dict_of (number_from 0 a)) (keyfilter is_int d)
                | None => keyfilter is_int d
                end = dupdate (number_from 0 (match p_args p with Some a => a | None => [] end)) (keyfilter is_int d)).
    { destruct (p_args p) as [a|]; [now rewrite dict_of_number|]. cbn [number_from].
      symmetry. apply dict_of_wfd, wfd_ints, Hw. }
    rewrite D. clear D. set (a := match p_args p with Some a => a | None => [] end). clearbody a.
    set (args := dupdate (number_from 0 a) (keyfilter is_int d)).
    assert (Ha : wfd args = true) by apply wfd_dupdate, wfd_number_from.
    assert (Hi : forall k, In k (dkeys args) -> is_int k = true).
    { apply dkeys_dupdate_int; [apply number_from_int|]. intros k' Hk. now apply (ints_int d). }
    assert (E : forall z, by_insert args z = by_partial a d z).
    { intro z. unfold by_insert, by_partial, args. rewrite dget_dupdate_wf by now apply wfd_ints.
      rewrite dget_ints by exact Hw. destruct (dget d (KInt z)); [reflexivity|].
      rewrite dget_number_from, Z.sub_0_r. reflexivity. }
    clearbody args. destruct (flow_placed args x Ha Hi) as (l & A & B).
    destruct (Nat.eqb (List.length args) 0) eqn:L.
    - apply length0 in L. exists [x]. split; [|reflexivity].
      apply (placed_ext (by_insert args) _ _ _ E). rewrite L. apply placed_none.
    - exists l. rewrite A. split; [|reflexivity]. now apply (placed_ext (by_insert args)).
  Qed.

  Lemma placed_partial (a : list V) x : placed (by_partial a []) x (a ++ [x]).
  Proof.
    exists (Z.of_nat (List.length a)), (combine (map Z.of_nat (seq 0 (List.length a + 1))) (a ++ [x])).
    assert (G : forall (l : list V) n,
      l = map snd (combine (map Z.of_nat (seq n (List.length l))) l) /\
      (forall z v, In (z, v) (combine (map Z.of_nat (seq n (List.length l))) l) <->
                   (Z.of_nat n <= z)%Z /\ nth_error l (Z.to_nat z - n) = Some v) /\
      StronglySorted (fun a b => (fst a < fst b)%Z) (combine (map Z.of_nat (seq n (List.length l))) l)).
    { clear. induction l as [|y l IH]; intro n; cbn [List.length seq map combine snd].
      - split; [reflexivity|]. split; [|constructor]. intros z v. cbn. split; [tauto|].
        intros [_ H]. destruct (Z.to_nat z - n); discriminate.
      - destruct (IH (S n)) as (I1 & I2 & I3). split; [now rewrite <- I1|]. split.
        + intros z v. split.
          * intros [H|H]; [injection H as <- <-; split; [lia|]; now rewrite Nat2Z.id, Nat.sub_diag|].
            apply I2 in H. destruct H as [H1 H2]. split; [lia|].
            replace (Z.to_nat z - n) with (S (Z.to_nat z - S n)) by lia. exact H2.
          * intros [H1 H2]. destruct (Z.eq_dec z (Z.of_nat n)) as [->|N].
            -- left. rewrite Nat2Z.id, Nat.sub_diag in H2. cbn in H2. congruence.
            -- right. apply I2. split; [lia|].
               replace (Z.to_nat z - n) with (S (Z.to_nat z - S n)) in H2 by lia. exact H2.
        + constructor; [exact I3|]. apply Forall_forall. intros [z v] H. apply I2 in H. cbn. lia. }
    destruct (G (a ++ [x]) 0) as (G1 & G2 & G3). rewrite app_length in G1, G2, G3. cbn [List.length] in G1, G2, G3.
    split; [lia|]. unfold by_partial. cbn [dget]. split.
    { destruct (_ <? _)%Z; [reflexivity|]. rewrite Nat2Z.id. apply nth_error_None. lia. }
    split.
    { intros q Hq. destruct (Z.ltb_spec q 0); [lia|]. apply nth_error_Some. lia. }
    split; [exact G3|]. split; [|exact G1].
    intros z v. rewrite G2, Nat.sub_0_r. destruct (Z.ltb_spec z 0) as [L|L].
    - split; [intros [H _]; lia|]. intros [[H _]|H]; [lia|discriminate].
    - destruct (Z.eq_dec z (Z.of_nat (List.length a))) as [->|N].
      + rewrite Nat2Z.id, nth_error_app2, Nat.sub_diag by lia. cbn [nth_error].
        rewrite (proj2 (nth_error_None a (List.length a))) by lia. split.
        * intros [_ H]. left. split; congruence.
        * intros [[_ ->]|H]; [split; [lia|reflexivity]|discriminate].
      + destruct (Nat.lt_ge_cases (Z.to_nat z) (List.length a)) as [L'|L'].
        * rewrite nth_error_app1 by exact L'. split; [intros [_ H]; now right|].
          intros [[H _]|H]; [lia|]. split; [lia|exact H].
        * rewrite (proj2 (nth_error_None (a ++ [x]) (Z.to_nat z))) by (rewrite app_length; cbn; lia).
          rewrite (proj2 (nth_error_None a (Z.to_nat z))) by lia. split; [intros [_ H]; discriminate|].
          intros [[H _]|H]; [lia|discriminate].
  Qed.

  (** Without inserts, a step is simply applied. *)
  Lemma call_applied c k x s : inserts_at c k = [] -> dget (steps c) k = Some s -> call_step c k x = applied s x.
  Proof.
    intros Hi Hs. destruct s as [n str f|n str p].
    - destruct (call_plain_lemma c k x n str f) as (l & A & ->); [now rewrite Hi|exact Hs|].
      rewrite Hi in *. cbn [filter applied]. now rewrite (placed_unique _ _ _ _ A (placed_none x)).
    - destruct (call_part_lemma c k x n str p) as (l & A & ->); [now rewrite Hi|exact Hs|].
      rewrite Hi in *. cbn [filter applied].
      rewrite (placed_unique _ _ _ _ A (placed_partial _ x)). now destruct (p_keywords p).
  Qed.
End Calls.
