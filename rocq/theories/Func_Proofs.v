(** Proofs about func.py. *)
From Verif Require Export Func_Spec.
From Verif Require Import Py_Facts.
From Coq Require Import Lia.

Lemma ebind_run {W A B} (m : eff W A) (k : A -> eff W B) w :
  ebind m k w = match m w with (Ok a, w') => k a w' | (Exc e, w') => (Exc e, w') end.
Proof. reflexivity. Qed.

(** ** are_in *)

(** Every item is checked, once, in order, whatever the outcome of the
    earlier checks. *)
Lemma are_in_checks_all {W I C} (contains : C -> I -> eff W bool) (op : bool -> bool -> bool) i items c w :
  are_in (fun b => b) contains (i :: items) (fun a b => eret (op a b)) c w =
  match emapM (contains c) (i :: items) w with
  | (Ok (b :: bs), w') => (Ok (fold_left op bs b), w')
  | (Ok [], w') => (Exc TypeError, w')
  | (Exc e, w') => (Exc e, w')
  end.
Proof.
  assert (G : forall l b w, efoldM (fun acc m => c0 <~ m ;; eret (op acc c0))
             (map (fun i0 => b0 <~ contains c i0 ;; eret b0) l) b w =
             match emapM (contains c) l w with
             | (Ok bs, w') => (Ok (fold_left op bs b), w')
             | (Exc e, w') => (Exc e, w')
             end).
  { clear. induction l as [|x r IH]; intros b w; [reflexivity|].
    cbn [map efoldM emapM]. rewrite !ebind_run.
    destruct (contains c x w) as [[y|e] w1]; [|reflexivity].
    unfold eret at 1 2. rewrite IH, ebind_run. destruct (emapM (contains c) r w1) as [[ys|e] w2]; reflexivity. }
  unfold are_in, reduce. cbn [map emapM]. rewrite !ebind_run.
  destruct (contains c i w) as [[b|e] w1]; [|reflexivity].
  unfold eret at 1. rewrite G, ebind_run. destruct (emapM (contains c) items w1) as [[bs|e] w2]; reflexivity.
Qed.

Lemma emapM_pure {W A B} (f : A -> eff W B) (g : A -> B) l w :
  (forall x w, f x w = (Ok (g x), w)) -> emapM f l w = (Ok (map g l), w).
Proof.
  intro H. induction l as [|x r IH]; [reflexivity|].
  cbn [emapM]. unfold ebind. rewrite H, IH. reflexivity.
Qed.

Lemma fold_andb l b : fold_left andb l b = b && forallb (fun x => x) l.
Proof. revert b; induction l as [|x r IH]; intro b; simpl; [now rewrite andb_true_r|]. now rewrite IH, andb_assoc. Qed.
Lemma fold_orb l b : fold_left orb l b = b || existsb (fun x => x) l.
Proof. revert b; induction l as [|x r IH]; intro b; simpl; [now rewrite orb_false_r|]. now rewrite IH, orb_assoc. Qed.
Lemma forallb_map {A} (p : A -> bool) l : forallb (fun x => x) (map p l) = forallb p l.
Proof. induction l; simpl; congruence. Qed.
Lemma existsb_map {A} (p : A -> bool) l : existsb (fun x => x) (map p l) = existsb p l.
Proof. induction l; simpl; congruence. Qed.

Lemma are_in_all {W I C} (contains : C -> I -> eff W bool) p items c w :
  pure_test (contains c) p -> items <> [] ->
  exists b, are_in (fun b => b) contains items and_ c w = (Ok b, w) /\
            (b = true <-> forall i, In i items -> p i = true).
Proof.
  intros Hp Hn. destruct items as [|i r]; [congruence|].
  exists (forallb p (i :: r)). split.
  - unfold and_. rewrite are_in_checks_all, (emapM_pure _ p) by exact Hp.
    cbn [map]. now rewrite fold_andb, forallb_map.
  - apply forallb_forall.
Qed.

Lemma are_in_any {W I C} (contains : C -> I -> eff W bool) p items c w :
  pure_test (contains c) p -> items <> [] ->
  exists b, are_in (fun b => b) contains items or_ c w = (Ok b, w) /\
            (b = true <-> exists i, In i items /\ p i = true).
Proof.
  intros Hp Hn. destruct items as [|i r]; [congruence|].
  exists (existsb p (i :: r)). split.
  - unfold or_. rewrite are_in_checks_all, (emapM_pure _ p) by exact Hp.
    cbn [map]. now rewrite fold_orb, existsb_map.
  - apply existsb_exists.
Qed.

(** ** Sets *)

Section Sets.
  Context {E : Type} (eqb : E -> E -> bool) (hashable : E -> bool) (HE : eq_test eqb hashable).

  Lemma mem_occurs x s : mem eqb x s = true <-> occurs eqb x s.
  Proof. unfold mem, occurs. rewrite existsb_exists. reflexivity. Qed.

  Definition hashed (l : list E) := forall x, In x l -> hashable x = true.

  Lemma to_set_ok l : hashed l -> exists s, to_set eqb hashable l = Ok s /\ hashed s /\
    (forall x, In x s -> In x l) /\ (forall x, hashable x = true -> (occurs eqb x s <-> occurs eqb x l)).
  Proof.
    induction l as [|a r IH]; intro H.
    - exists []. cbn. repeat split; auto.
    - destruct IH as [s [H1 [H2 [H3 H4]]]]; [intros x Hx; apply H; now right|].
      cbn [to_set]. rewrite (H a) by now left. rewrite H1. cbn [bind].
      assert (Ha : hashable a = true) by (apply H; now left).
      destruct (mem eqb a s) eqn:Em.
      + exists s. split; [reflexivity|]. split; [exact H2|]. split.
        * intros x Hx. right. apply H3, Hx.
        * intros x Hx. rewrite H4 by exact Hx. split.
          -- intros [y [Hy He]]. exists y. split; [now right|exact He].
          -- intros [y [[<-|Hy] He]]; [|exists y; split; assumption].
             apply mem_occurs in Em. destruct Em as [z [Hz Hz']].
             exists z. split; [apply H3, Hz|].
             eapply (eqt_trans _ _ HE x a z); auto.
      + exists (a :: s). split; [reflexivity|]. split.
        * intros x [<-|Hx]; [exact Ha|apply H2, Hx].
        * split; [intros x [<-|Hx]; [now left|right; apply H3, Hx]|].
          intros x Hx. split.
          -- intros [y [[<-|Hy] He]]; [exists a; split; [now left|exact He]|].
             destruct (proj1 (H4 x Hx)) as [z [Hz He']]; [exists y; split; assumption|].
             exists z. split; [now right|exact He'].
          -- intros [y [[<-|Hy] He]]; [exists a; split; [now left|exact He]|].
             destruct (proj2 (H4 x Hx)) as [z [Hz He']]; [exists y; split; assumption|].
             exists z. split; [now right|exact He'].
  Qed.

  Lemma set_and_spec a b x : hashed a -> hashed b -> hashable x = true ->
    (occurs eqb x (set_and eqb a b) <-> occurs eqb x a /\ occurs eqb x b).
  Proof.
    intros Ha Hb Hx. split.
    - intros [y [Hy He]]. apply filter_In in Hy. destruct Hy as [Hy Hm].
      apply mem_occurs in Hm. destruct Hm as [z [Hz He']]. split.
      + exists y; auto.
      + exists z; split; [exact Hz|]. apply (eqt_trans _ _ HE x y z); auto.
    - intros [[y [Hy He]] [z [Hz He']]]. exists y. split; [|exact He].
      apply filter_In. split; [exact Hy|]. apply mem_occurs. exists z. split; [exact Hz|].
      apply (eqt_trans _ _ HE y x z); auto. apply (eqt_sym _ _ HE); auto.
  Qed.

  Lemma set_and_hashed a b : hashed a -> hashed (set_and eqb a b).
  Proof. intros H x Hx. apply filter_In in Hx. apply H, Hx. Qed.

  Lemma fold_and sets s x : hashed s -> Forall hashed sets -> hashable x = true ->
    hashed (fold_left (set_and eqb) sets s) /\
    (occurs eqb x (fold_left (set_and eqb) sets s) <-> occurs eqb x s /\ Forall (occurs eqb x) sets).
  Proof.
    revert s. induction sets as [|t r IH]; intros s Hs Hr Hx; cbn [fold_left].
    - split; [exact Hs|]. split; [intro H; split; [exact H|constructor]|tauto].
    - inversion_clear Hr. destruct (IH (set_and eqb s t)) as [I1 I2]; auto using set_and_hashed.
      split; [exact I1|]. rewrite I2, set_and_spec by auto.
      split; [intros [[? ?] ?]; split; [assumption|constructor; assumption]|].
      intros [? HF]. inversion_clear HF. tauto.
  Qed.

  Lemma elements_drain (i : iterable E) : fst (drain i) = elements i.
  Proof. destruct i; reflexivity. Qed.

  Lemma sets_ok its : all_hashable hashable its ->
    exists sets, mapM (fun i => to_set eqb hashable (fst (drain i))) its = Ok sets /\
      List.length sets = List.length its /\ Forall hashed sets /\
      forall x, hashable x = true ->
        (Forall (occurs eqb x) sets <-> forall i, In i its -> occurs eqb x (elements i)).
  Proof.
    induction its as [|i r IH]; intro H.
    - exists []. repeat split; auto. intros _ j [].
    - destruct IH as [sets [H1 [H2 [H3 H4]]]]; [intros j x Hj; apply H; now right|].
      destruct (to_set_ok (elements i)) as [s [S1 [S2 [S3 S4]]]]; [intros x Hx; apply (H i); [now left|exact Hx]|].
      exists (s :: sets). cbn [mapM]. rewrite elements_drain, S1, H1. cbn.
      split; [reflexivity|]. split; [lia|]. split; [constructor; assumption|].
      intros x Hx. split.
      + intros HF j [<-|Hj]; inversion_clear HF; [apply S4; assumption|].
        apply (proj1 (H4 x Hx)); assumption.
      + intro G. constructor; [apply S4; [exact Hx|]; apply G; now left|].
        apply H4; [exact Hx|]. intros j Hj. apply G. now right.
  Qed.

  Lemma intersection_ok its : its <> [] -> all_hashable hashable its ->
    exists s its', intersection eqb hashable its = Ok (s, its') /\
      its' = map (fun i => snd (drain i)) its /\ hashed s /\
      forall x, hashable x = true ->
        (occurs eqb x s <-> forall i, In i its -> occurs eqb x (elements i)).
  Proof.
    intros Hn H. destruct (sets_ok its H) as [sets [H1 [H2 [H3 H4]]]].
    unfold intersection. rewrite H1. cbn [bind].
    destruct sets as [|s r]; [destruct its; cbn in H2; [congruence|lia]|].
    inversion_clear H3.
    exists (fold_left (set_and eqb) r s), (map (fun i => snd (drain i)) its).
    split; [reflexivity|]. split; [reflexivity|]. split.
    - assert (G : forall t, hashed s -> Forall hashed r -> In t (fold_left (set_and eqb) r s) -> hashable t = true).
      { clear - s. revert s. induction r as [|u r IH]; intros s t Hs Hr Ht; [apply Hs, Ht|].
        inversion_clear Hr. apply (IH (set_and eqb s u)); auto using set_and_hashed. }
      intros t Ht. apply G; assumption.
    - intros x Hx. rewrite <- H4 by exact Hx.
      destruct (fold_and r s x) as [_ G]; auto. rewrite G.
      split; [intros [? ?]; constructor; assumption|intro HF; inversion_clear HF; split; assumption].
  Qed.

  Lemma intersection_raises its :
    (its = [] \/ ~ all_hashable hashable its) <-> intersection eqb hashable its = Exc TypeError.
  Proof.
    split.
    - intros [->|H]; [reflexivity|].
      unfold intersection. enough (G : mapM (fun i => to_set eqb hashable (fst (drain i))) its = Exc TypeError)
        by now rewrite G.
      assert (T : forall l, (exists x, In x l /\ hashable x = false) -> to_set eqb hashable l = Exc TypeError).
      { clear. induction l as [|a r IH]; intros [x [Hx Hh]]; [destruct Hx|]. cbn [to_set].
        destruct (hashable a) eqn:Ea; [|reflexivity].
        destruct Hx as [->|Hx]; [congruence|]. rewrite IH; [reflexivity|eauto]. }
      assert (O : forall l, to_set eqb hashable l = Exc TypeError \/ hashed l).
      { clear HE. induction l as [|a r IH]; [right; intros ? []|]. cbn [to_set].
        destruct (hashable a) eqn:Ea; [|now left].
        destruct IH as [->|IH]; [now left|]. right. intros y [<-|Hy]; auto. }
      revert H. induction its as [|i r IH]; intro H.
      + exfalso. apply H. intros ? ? [].
      + cbn [mapM]. destruct (O (elements i)) as [Hi|Hi]; rewrite elements_drain.
        * rewrite Hi. reflexivity.
        * destruct (to_set_ok _ Hi) as [s [S1 _]]. rewrite S1. cbn [bind].
          rewrite IH; [reflexivity|]. intro G. apply H. intros j x [<-|Hj] Hx; [apply Hi, Hx|]. apply (G j x Hj Hx).
    - intro H. destruct its as [|i r]; [now left|right]. intro G.
      destruct (intersection_ok (i :: r)) as [s [its' [E1 _]]]; [discriminate|exact G|]. congruence.
  Qed.

  (** The elements of [l] that are not common to all. *)
  Lemma disjoint_ok its : its <> [] -> all_hashable hashable its -> (forall i, In i its -> again i) ->
    exists keep, disjoint eqb hashable its = Ok (map (fun i => filter keep (elements i)) its) /\
      forall x, hashable x = true ->
        (keep x = true <-> ~ forall i, In i its -> occurs eqb x (elements i)).
  Proof.
    intros Hn H Ha. destruct (intersection_ok its Hn H) as [s [its' [E1 [E2 [E3 E4]]]]].
    exists (fun x => negb (mem eqb x s)). split.
    - unfold disjoint. rewrite E1. cbn [bind]. subst its'. clear E1 Hn E4.
      induction its as [|i r IH]; [reflexivity|].
      cbn [map mapM]. destruct (Ha i) as [l ->]; [now left|]. cbn [drain snd fst elements].
      rewrite (filterM_ok _ (fun x => negb (mem eqb x s))).
      + rewrite IH; [reflexivity| |]; [intros j x Hj; apply H; now right|intros j Hj; apply Ha; now right].
      + intros x Hx. unfold in_set. rewrite (H (Again l) x); [reflexivity|now left|exact Hx].
    - intros x Hx. rewrite <- E4 by exact Hx. rewrite negb_true_iff, <- mem_occurs.
      destruct (mem eqb x s); split; congruence.
  Qed.

  (** An argument that is an iterator comes out empty. *)
  Lemma disjoint_iterator its j l out :
    disjoint eqb hashable its = Ok out -> nth_error its j = Some (Once l) -> nth_error out j = Some [].
  Proof.
    unfold disjoint. destruct (intersection eqb hashable its) as [[s its']|e] eqn:Ei; cbn [bind]; [|discriminate].
    unfold intersection in Ei. destruct (mapM _ its) as [sets|]; cbn [bind] in Ei; [|discriminate].
    destruct sets as [|s0 r]; [discriminate|]. injection Ei as _ <-. clear.
    revert j out. induction its as [|i r IH]; intros j out Ho Hj; [destruct j; discriminate|].
    cbn [map mapM] in Ho.
    destruct (filterM _ (fst (drain (snd (drain i))))) as [f|] eqn:Ef; cbn [bind] in Ho; [|discriminate].
    destruct (mapM _ (map _ r)) as [fs|] eqn:Efs; cbn [bind] in Ho; [|discriminate].
    injection Ho as <-. destruct j as [|j]; cbn in Hj |- *.
    - injection Hj as ->. cbn in Ef. congruence.
    - eapply IH; [reflexivity|exact Hj].
  Qed.

  Lemma disjoint_two a b : hashed a -> hashed b ->
    exists a' b', disjoint eqb hashable [Again a; Again b] = Ok [a'; b'] /\
      (forall x, In x a' <-> In x a /\ ~ occurs eqb x b) /\
      (forall x, In x b' <-> In x b /\ ~ occurs eqb x a) /\
      forall x y, In x a' -> In y b' -> eqb x y = false.
  Proof.
    intros Ha Hb.
    assert (HH : all_hashable hashable [Again a; Again b]).
    { intros i x [<-|[<-|[]]] Hx; [apply Ha|apply Hb]; exact Hx. }
    destruct (disjoint_ok [Again a; Again b]) as [keep [E0 K]]; [discriminate|exact HH|..].
    { intros i [<-|[<-|[]]]; eexists; reflexivity. }
    exists (filter keep a), (filter keep b). split; [exact E0|].
    assert (RA : forall x, In x a -> occurs eqb x a).
    { intros x Hx. exists x. split; [exact Hx|]. apply (eqt_refl _ _ HE). apply Ha, Hx. }
    assert (RB : forall x, In x b -> occurs eqb x b).
    { intros x Hx. exists x. split; [exact Hx|]. apply (eqt_refl _ _ HE). apply Hb, Hx. }
    assert (KA : forall x, In x (filter keep a) <-> In x a /\ ~ occurs eqb x b).
    { intro x. rewrite filter_In. split.
      - intros [Hx Hk]. split; [exact Hx|]. intro Ho. apply K in Hk; [|apply Ha, Hx]. apply Hk.
        intros i [<-|[<-|[]]]; cbn [elements]; [apply RA, Hx|exact Ho].
      - intros [Hx Hn]. split; [exact Hx|]. apply K; [apply Ha, Hx|]. intro G. apply Hn.
        apply (G (Again b)). right. now left. }
    assert (KB : forall x, In x (filter keep b) <-> In x b /\ ~ occurs eqb x a).
    { intro x. rewrite filter_In. split.
      - intros [Hx Hk]. split; [exact Hx|]. intro Ho. apply K in Hk; [|apply Hb, Hx]. apply Hk.
        intros i [<-|[<-|[]]]; cbn [elements]; [exact Ho|apply RB, Hx].
      - intros [Hx Hn]. split; [exact Hx|]. apply K; [apply Hb, Hx|]. intro G. apply Hn.
        apply (G (Again a)). now left. }
    split; [exact KA|]. split; [exact KB|].
    intros x y Hx Hy. apply KA in Hx. apply KB in Hy.
    destruct (eqb x y) eqn:Ee; [|reflexivity]. exfalso. apply (proj2 Hx). exists y. split; [apply Hy|exact Ee].
  Qed.
End Sets.

(** ** Wrappers *)

Lemma optionalize_spec {W V K} (none : V) (f : fn W V K) cb args kw w :
  optionalize none f cb args kw w =
  match f args kw w with
  | (Ok v, w') => (Ok v, w')
  | (Exc e, w') =>
      if is_Exception e then
        match cb e w' with
        | (Ok _, w'') => (Ok none, w'')
        | (Exc e', w'') => (Exc e', w'')
        end
      else (Exc e, w')
  end.
Proof.
  unfold optionalize, ecatch. destruct (f args kw w) as [[v|e] w']; [reflexivity|].
  destruct e; try reflexivity; cbn [is_Exception]; unfold ebind, eret; destruct (cb _ w') as [[?|?] ?]; reflexivity.
Qed.

Lemma next_all_spec {A} (d : A) (its : list (list A)) :
  next_all its =
  if forallb (fun l => negb (Nat.eqb (List.length l) 0)) its
  then (Some (row d its 0), map (skipn 1) its)
  else (None, left_over 0 its).
Proof.
  induction its as [|l r IH]; [reflexivity|].
  destruct l as [|x l]; cbn [next_all forallb List.length Nat.eqb negb andb left_over].
  - f_equal. f_equal. symmetry. apply (map_id r).
  - rewrite IH. destruct (forallb _ r); reflexivity.
Qed.

Lemma shortest_le {A} (l : list A) its : shortest l its <= List.length l /\ forall m, In m its -> shortest l its <= List.length m.
Proof.
  revert l. induction its as [|a r IH]; intro l; cbn [shortest]; [split; [lia|intros m []]|].
  destruct (IH a) as [I1 I2]. split; [lia|]. intros m [<-|Hm]; [lia|]. specialize (I2 m Hm). lia.
Qed.
Lemma shortest_reached {A} (l : list A) its : exists m, In m (l :: its) /\ List.length m = shortest l its.
Proof.
  revert l. induction its as [|a r IH]; intro l; cbn [shortest]; [exists l; split; [now left|reflexivity]|].
  destruct (IH a) as [m [Hm Hl]].
  destruct (PeanoNat.Nat.le_gt_cases (List.length l) (shortest a r)) as [H|H].
  - exists l. split; [now left|lia].
  - exists m. split; [now right|lia].
Qed.

Lemma skipn_skipn1 {A} n (l : list A) : skipn n (skipn 1 l) = skipn (S n) l.
Proof. destruct l; [now rewrite !skipn_nil|reflexivity]. Qed.
Lemma nth_skipn1 {A} (d : A) i l : nth i (skipn 1 l) d = nth (S i) l d.
Proof. destruct l; [destruct i; reflexivity|reflexivity]. Qed.

Lemma left_over_skip {A} n (its : list (list A)) :
  Forall (fun l => S n <= List.length l) its -> left_over n (map (skipn 1) its) = left_over (S n) its.
Proof.
  induction 1 as [|l r Hl Hr IH]; [reflexivity|]. cbn [map left_over].
  rewrite skipn_length. replace (Nat.eqb (List.length l - 1) n) with (Nat.eqb (List.length l) (S n)).
  - destruct (Nat.eqb (List.length l) (S n)).
    + f_equal. rewrite map_map. apply map_ext. intro a. apply skipn_skipn1.
    + rewrite IH. f_equal. apply skipn_skipn1.
  - destruct (Nat.eqb_spec (List.length l) (S n)), (Nat.eqb_spec (List.length l - 1) n); lia.
Qed.

Lemma shortest_skip {A} (l : list A) its :
  shortest (skipn 1 l) (map (skipn 1) its) = shortest l its - 1.
Proof.
  revert l. induction its as [|a r IH]; intro l; cbn [map shortest]; rewrite ?IH, ?skipn_length; lia.
Qed.

Lemma map_rounds_spec {W A B} (d : A) (func : list A -> eff W B) n l its w :
  shortest l its < n ->
  map_rounds n func (l :: its) w =
  match emapM func (map (row d (l :: its)) (seq 0 (shortest l its))) w with
  | (Ok ys, w') => (Ok (ys, left_over (shortest l its) (l :: its)), w')
  | (Exc e, w') => (Exc e, w')
  end.
Proof.
  revert l its w. induction n as [|n IH]; intros l its w H; [lia|].
  cbn [map_rounds]. rewrite (next_all_spec d).
  destruct (shortest_le l its) as [S1 S2].
  destruct (forallb (fun l0 => negb (Nat.eqb (List.length l0) 0)) (l :: its)) eqn:Ef.
  - assert (Hp : Forall (fun l0 => 1 <= List.length l0) (l :: its)).
    { rewrite forallb_forall in Ef. apply Forall_forall. intros x Hx. specialize (Ef x Hx).
      rewrite negb_true_iff in Ef. apply PeanoNat.Nat.eqb_neq in Ef. lia. }
    assert (Hs : 1 <= shortest l its).
    { destruct (shortest_reached l its) as [m [Hm <-]]. rewrite Forall_forall in Hp. apply Hp, Hm. }
    destruct (shortest l its) as [|k] eqn:Es; [lia|].
    change (seq 0 (S k)) with (0 :: seq 1 k). cbn [map emapM]. unfold ebind at 1 3.
    destruct (func (row d (l :: its) 0) w) as [[y|e] w1]; [|reflexivity].
    unfold ebind at 1. cbn [map]. rewrite IH by (rewrite shortest_skip; lia).
    rewrite shortest_skip, Es. replace (S k - 1) with k by lia.
    rewrite <- (seq_shift k 0), map_map.
    replace (map (row d (skipn 1 l :: map (skipn 1) its)) (seq 0 k))
      with (map (fun x => row d (l :: its) (S x)) (seq 0 k)).
    + unfold ebind, eret.
      destruct (emapM func (map (fun x => row d (l :: its) (S x)) (seq 0 k)) w1) as [[ys|e] w2]; [|reflexivity].
      cbn [fst snd].
      change (skipn 1 l :: map (skipn 1) its) with (map (skipn 1) (l :: its)).
      rewrite (left_over_skip k (l :: its)); [reflexivity|].
      constructor; [lia|]. apply Forall_forall. intros m Hm. specialize (S2 m Hm). lia.
    + apply map_ext. intro i. unfold row. cbn [map]. rewrite nth_skipn1. f_equal.
      rewrite map_map. apply map_ext. intro m. now rewrite nth_skipn1.
  - assert (Hz : shortest l its = 0).
    { apply not_true_iff_false in Ef. rewrite forallb_forall in Ef.
      destruct (shortest l its) as [|k] eqn:Es; [reflexivity|]. exfalso. apply Ef.
      intros x Hx. rewrite negb_true_iff. apply PeanoNat.Nat.eqb_neq.
      destruct Hx as [<-|Hx]; [lia|]. specialize (S2 x Hx). lia. }
    rewrite Hz. reflexivity.
Qed.

Lemma gmap_spec {W A B} (d : A) (func : list A -> eff W B) l its w :
  gmap func (l :: its) w =
  match emapM func (map (row d (l :: its)) (seq 0 (shortest l its))) w with
  | (Ok ys, w') => (Ok (ys, left_over (shortest l its) (l :: its)), w')
  | (Exc e, w') => (Exc e, w')
  end.
Proof.
  unfold gmap. apply map_rounds_spec. destruct (shortest_le l its). lia.
Qed.

(** filtern on effect-free predicates. *)
Lemma filtern_first {W A} (f : A -> eff W bool) p l1 x l2 w :
  pure_test f p -> (forall y, In y l1 -> p y = false) -> p x = true ->
  filtern f (l1 ++ x :: l2) w = (Ok (x, l2), w).
Proof.
  intros Hf Hl Hx. induction l1 as [|a r IH]; cbn [app filtern]; unfold ebind; rewrite Hf.
  - now rewrite Hx.
  - rewrite Hl by now left. apply IH. intros y Hy. apply Hl. now right.
Qed.
Lemma filtern_none {W A} (f : A -> eff W bool) p l w :
  pure_test f p -> (forall y, In y l -> p y = false) -> filtern f l w = (Exc StopIteration, w).
Proof.
  intros Hf Hl. induction l as [|a r IH]; cbn [filtern]; [reflexivity|]. unfold ebind. rewrite Hf, Hl by now left.
  apply IH. intros y Hy. apply Hl. now right.
Qed.
(** With effects: the function is called on the elements up to and including
    the one returned, in order. *)
Lemma filtern_calls {W A} (f : A -> eff W bool) l w x rest w' :
  filtern f l w = (Ok (x, rest), w') ->
  exists before, l = before ++ x :: rest /\
    emapM f (before ++ [x]) w = (Ok (map (fun _ => false) before ++ [true]), w').
Proof.
  revert w. induction l as [|a r IH]; intros w H; cbn [filtern] in H; [discriminate|].
  unfold ebind in H. destruct (f a w) as [[b|e] w1] eqn:Ef; [|discriminate].
  destruct b.
  - injection H as -> -> ->. exists []. split; [reflexivity|]. cbn. unfold ebind. rewrite Ef. reflexivity.
  - destruct (IH _ H) as [before [E1 E2]]. exists (a :: before). split; [now rewrite E1|].
    cbn. unfold ebind. rewrite Ef, E2. reflexivity.
Qed.

Lemma naturals_from n t : naturals_take n (Some t) = map (fun i => t + Z.of_nat i)%Z (seq 1 n).
Proof.
  revert t. induction n as [|n IH]; intro t; [reflexivity|].
  cbn [naturals_take naturals_next]. rewrite IH. change (seq 1 (S n)) with (1 :: seq 2 n). cbn [map]. f_equal.
  rewrite <- (seq_shift n 1), map_map. apply map_ext. intro i. lia.
Qed.
Lemma naturals_ok n : naturals_take n naturals = map Z.of_nat (seq 1 n).
Proof.
  destruct n as [|n]; [reflexivity|]. cbn [naturals_take naturals_next naturals].
  rewrite naturals_from. change (seq 1 (S n)) with (1 :: seq 2 n). cbn [map]. f_equal.
  rewrite <- (seq_shift n 1), map_map. apply map_ext. intro i. lia.
Qed.
