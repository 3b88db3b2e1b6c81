(** Lists, masks and rows. *)
From Verif Require Export Frame_Spec Py_Facts.
From Coq Require Export Lia.
Open Scope nat_scope.

(** ** Masks *)

Lemma mask_cons {A} b m (x : A) l : mask (b :: m) (x :: l) = if b then x :: mask m l else mask m l.
Proof. unfold mask. cbn [combine filter fst]. destruct b; reflexivity. Qed.
Lemma mask_nil_r {A} m : mask m (@nil A) = [].
Proof. destruct m; reflexivity. Qed.
Lemma mask_map {A} (f : A -> bool) l : mask (map f l) l = filter f l.
Proof. induction l as [|x r IH]; [reflexivity|]. cbn [map filter]. rewrite mask_cons, IH. reflexivity. Qed.
Lemma mask_of_map {A B} (g : A -> B) m l : mask m (map g l) = map g (mask m l).
Proof.
  revert m; induction l as [|x r IH]; intros [|b m]; try reflexivity.
  cbn [map]. rewrite !mask_cons, IH. destruct b; reflexivity.
Qed.
Lemma mask_len {A B} m (a : list A) (b : list B) : List.length a = List.length b -> List.length (mask m a) = List.length (mask m b).
Proof.
  revert a b; induction m as [|x m IH]; intros [|p a] [|q b] H; try discriminate; [reflexivity..|].
  rewrite !mask_cons. cbn in H. destruct x; cbn; rewrite (IH a b); auto.
Qed.
Lemma mask_dealt {A} (p : list bool) (l : list A) : List.length p = List.length l -> dealt p l (mask p l) (mask (map negb p) l).
Proof.
  revert l; induction p as [|b p IH]; intros [|x l] H; try discriminate; [constructor|].
  cbn [map]. rewrite !mask_cons. injection H as H. destruct b; cbn [negb]; constructor; auto.
Qed.
Lemma sorted_out_filter {A} (P : A -> Prop) f l : (forall x, In x l -> (f x = true <-> P x)) ->
  sorted_out P l (filter f l) (filter (fun x => negb (f x)) l).
Proof.
  induction l as [|x r IH]; intro H; [constructor|]. cbn [filter].
  assert (G := H x (or_introl eq_refl)).
  assert (I := IH (fun y h => H y (or_intror h))).
  destruct (f x); cbn [negb]; constructor; auto.
  - apply G; reflexivity.
  - intro C. apply G in C. discriminate.
Qed.
Lemma sorted_out_impl {A} (P Q : A -> Prop) l a b : (forall x, In x l -> (P x <-> Q x)) -> sorted_out P l a b -> sorted_out Q l a b.
Proof.
  intros H S. induction S; constructor; try (apply IHS; intros; apply H; now right);
    specialize (H x (or_introl eq_refl)); tauto.
Qed.
Lemma sorted_out_in {A} (P : A -> Prop) l a b : sorted_out P l a b -> forall x, In x a -> In x l /\ P x.
Proof.
  induction 1 as [|y l a b H S IH|y l a b H S IH]; intros x Hx; [destruct Hx| |].
  - destruct Hx as [E|Hx]; [subst x; split; [now left|exact H]|]. destruct (IH x Hx) as [I J]. split; [now right|exact J].
  - destruct (IH x Hx) as [I J]. split; [now right|exact J].
Qed.
Lemma sorted_out_det {A} (P : A -> Prop) l a b : sorted_out P l a b -> forall a' b', sorted_out P l a' b' -> a' = a /\ b' = b.
Proof.
  induction 1 as [|y l a b H S IH|y l a b H S IH]; intros a' b' S'; inversion S'; subst; auto; try contradiction.
  - match goal with S1 : sorted_out P l _ _ |- _ => destruct (IH _ _ S1); subst; auto end.
  - match goal with S1 : sorted_out P l _ _ |- _ => destruct (IH _ _ S1); subst; auto end.
Qed.

(** ** Labels *)

Lemma key_in_true k l : key_in k l = true <-> exists x, In x l /\ keqb k x = true.
Proof. unfold key_in. rewrite existsb_exists. reflexivity. Qed.
Lemma key_in_false k l : key_in k l = false <-> forall x, In x l -> keqb k x = false.
Proof.
  split.
  - intros H x Hx. destruct (keqb k x) eqn:E; [|reflexivity]. rewrite <- H. symmetry. apply key_in_true. eauto.
  - intro H. destruct (key_in k l) eqn:E; [|reflexivity]. apply key_in_true in E. destruct E as [x [Hx E]].
    rewrite (H x Hx) in E. discriminate.
Qed.
Lemma key_in_keqb k k' l : keqb k k' = true -> key_in k l = key_in k' l.
Proof. intro H. unfold key_in. induction l as [|x r IH]; [reflexivity|]. cbn. rewrite IH, (keqb_l _ _ _ H). reflexivity. Qed.

Definition keep_new {V} (seen : list key) (l : list (key * V)) : list (key * V) := mask (map negb (dup_from seen (map fst l))) l.
Lemma keep_new_cons {V} seen p (l : list (key * V)) :
  keep_new seen (p :: l) = if key_in (fst p) seen then keep_new (fst p :: seen) l else p :: keep_new (fst p :: seen) l.
Proof. unfold keep_new. cbn [map dup_from]. rewrite mask_cons. destruct (key_in (fst p) seen); reflexivity. Qed.
Lemma keep_new_spec {V} (l : list (key * V)) : forall seen,
  part (keep_new seen l) l /\ distinct_labels (map fst (keep_new seen l)) /\
  Forall (fun p => key_in (fst p) seen = false) (keep_new seen l) /\
  (forall k, key_in k seen = false -> find (labelled k) (keep_new seen l) = find (labelled k) l).
Proof.
  induction l as [|p l IH]; intro seen; [repeat split; constructor|].
  rewrite keep_new_cons. destruct (IH (fst p :: seen)) as (A & B & C & D).
  assert (C' : Forall (fun q => keqb (fst q) (fst p) = false /\ key_in (fst q) seen = false) (keep_new (fst p :: seen) l)).
  { eapply Forall_impl; [|exact C]. cbn. intros q H. apply orb_false_iff in H. exact H. }
  destruct (key_in (fst p) seen) eqn:E.
  - split; [now constructor|]. split; [exact B|]. split; [eapply Forall_impl; [|exact C']; intros q [? ?]; assumption|].
    intros k Hk. assert (N : keqb (fst p) k = false).
    { destruct (keqb (fst p) k) eqn:F; [|reflexivity]. rewrite (key_in_keqb _ _ _ F) in E. congruence. }
    cbn [find]. unfold labelled at 2. rewrite N. apply D. cbn. rewrite keqb_sym, N. exact Hk.
  - split; [now constructor|]. split.
    { cbn. split; [|exact B]. apply Forall_map. eapply Forall_impl; [|exact C']. intros q [? ?]; assumption. }
    split; [constructor; [exact E|eapply Forall_impl; [|exact C']; intros q [? ?]; assumption]|].
    intros k Hk. cbn [find]. unfold labelled at 1 3. destruct (keqb (fst p) k) eqn:N; [reflexivity|].
    apply D. cbn. rewrite keqb_sym, N. exact Hk.
Qed.
Lemma firsts_ok {V} (l : list (key * V)) : firsts l (mask (map negb (duplicated (map fst l))) l).
Proof. destruct (keep_new_spec l []) as (A & B & _ & D). split; [exact A|]. split; [exact B|]. intro k. now apply D. Qed.

Definition seen1 (n : key) (seen : list key) : nat := if key_in n seen then 1 else 0.
Lemma extra_repeated l : forall seen n, In n (mask (dup_from seen l) l) -> List.length (filter (keqb n) l) + seen1 n seen >= 2.
Proof.
  induction l as [|k l IH]; intros seen n H; [destruct H|].
  cbn [dup_from] in H. rewrite mask_cons in H. cbn [filter].
  assert (R : In n (mask (dup_from (k :: seen) l) l) ->
    List.length (if keqb n k then k :: filter (keqb n) l else filter (keqb n) l) + seen1 n seen >= 2).
  { intro G. apply IH in G. unfold seen1 in *. cbn [key_in existsb] in G. fold (key_in n seen) in G.
    destruct (keqb n k), (key_in n seen); cbn in *; lia. }
  destruct (key_in k seen) eqn:E; [|auto]. destruct H as [->|H]; [|auto].
  rewrite keqb_refl. unfold seen1. rewrite E. cbn. lia.
Qed.
Lemma repeated_extra l : forall seen n, List.length (filter (keqb n) l) >= 1 -> List.length (filter (keqb n) l) + seen1 n seen >= 2 ->
  exists n', In n' (mask (dup_from seen l) l) /\ keqb n n' = true.
Proof.
  induction l as [|k l IH]; intros seen n H1 H2; [cbn in H1; lia|].
  cbn [dup_from]. rewrite mask_cons. cbn [filter] in *.
  destruct (keqb n k) eqn:E.
  - destruct (key_in k seen) eqn:F; [exists k; split; [now left|auto]|].
    unfold seen1 in H2. rewrite (key_in_keqb _ _ _ E), F in H2. cbn in H2.
    apply IH; [lia|]. unfold seen1. cbn [key_in existsb]. rewrite E. cbn. lia.
  - destruct (IH (k :: seen) n) as [n' [I G]]; [lia| |].
    { unfold seen1 in *. cbn [key_in existsb]. rewrite E. exact H2. }
    exists n'. split; [|auto]. destruct (key_in k seen); [now right|auto].
Qed.

Lemma distinct_find {V} (l : list (key * V)) : distinct_labels (map fst l) -> forall p, In p l -> filter (labelled (fst p)) l = [p].
Proof.
  induction l as [|q l IH]; intros D p H; [destruct H|].
  cbn in D. destruct D as [D1 D2]. cbn [filter].
  assert (N : Forall (fun x : key * V => keqb (fst x) (fst q) = false) l) by (rewrite Forall_map in D1; exact D1).
  destruct H as [->|H].
  - unfold labelled at 1. rewrite keqb_refl. f_equal.
    clear -N. induction N; [reflexivity|]. cbn. unfold labelled at 1. rewrite H. exact IHN.
  - unfold labelled at 1. rewrite keqb_sym.
    rewrite Forall_forall in N. rewrite (N p H). auto.
Qed.
Lemma distinct_extra l seen : distinct_labels l -> Forall (fun k => key_in k seen = false) l -> mask (dup_from seen l) l = [].
Proof.
  revert seen; induction l as [|k l IH]; intros seen D N; [reflexivity|].
  cbn [dup_from]. rewrite mask_cons. inversion N; subst. rewrite H1. cbn in D. destruct D as [D1 D2].
  apply IH; [exact D2|]. rewrite Forall_forall in *. intros x Hx. cbn. rewrite (D1 x Hx). apply H2, Hx.
Qed.
Lemma distinct_wfd {V} (l : list (key * V)) : distinct_labels (map fst l) -> wfd l = true.
Proof.
  induction l as [|[k v] l IH]; intro D; [reflexivity|]. cbn in D. destruct D as [D1 D2].
  apply wfd_cons. split; [|auto].
  clear -D1. induction l as [|[k' v'] l IH]; [reflexivity|]. cbn in D1. inversion D1; subst.
  cbn. rewrite H1. auto.
Qed.
