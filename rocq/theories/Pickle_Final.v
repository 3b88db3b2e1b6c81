(** What holds of the codec. *)
From Verif Require Export Pickle_Proofs.
From Coq Require Import Lia.

Lemma item_ok_ops its : forallb item_ok its = true -> (forall n, ~ In (OFrame n) (ops its)) -> Forall plain_op (ops its).
Proof.
  induction its as [|[|o] its IH]; cbn; intros H Hn; [constructor|auto|]. apply andb_true_iff in H as [H1 H2]. constructor.
  - split; [exact H1|]. intros n ->. apply (Hn n). now left.
  - apply IH; [exact H2|]. intros n Hi. apply (Hn n). now right.
Qed.
Lemma saves_no_frame sv : (forall v m its m', sv v m = Some (its, m') -> forall n, ~ In (OFrame n) (ops its)) ->
  forall l m its m', saves sv l m = Some (its, m') -> forall n, ~ In (OFrame n) (ops its).
Proof.
  intros H l. induction l as [|v l IH]; intros m its m' E n; cbn in E; [injection E as <- <-; auto|].
  destruct (sv v m) as [[a m1]|] eqn:E1; [|discriminate]. destruct (saves sv l m1) as [[b m2]|] eqn:E2; [|discriminate]. injection E as <- <-.
  rewrite ops_app, in_app_iff. intros [Hi|Hi]; [eapply H|eapply IH]; eauto.
Qed.
Lemma batches_no_frame sv o : (forall n, o <> OFrame n) -> (forall v m its m', sv v m = Some (its, m') -> forall n, ~ In (OFrame n) (ops its)) ->
  forall ls m its m', batches sv o ls m = Some (its, m') -> forall n, ~ In (OFrame n) (ops its).
Proof.
  intros Ho H ls. induction ls as [|l ls IH]; intros m its m' E n; cbn in E; [injection E as <- <-; auto|].
  destruct (saves sv l m) as [[a m1]|] eqn:E1; [|discriminate]. destruct (batches sv o ls m1) as [[b m2]|] eqn:E2; [|discriminate]. injection E as <- <-.
  cbn. fold (ops (a ++ Op o :: b)). rewrite ops_app, in_app_iff. cbn. intros [Hi|[Hi|[Hi|Hi]]]; [discriminate|eapply saves_no_frame; eauto|eapply Ho; eauto|eapply IH; eauto].
Qed.
Lemma single_no_frame sv o : (forall n, o <> OFrame n) -> (forall v m its m', sv v m = Some (its, m') -> forall n, ~ In (OFrame n) (ops its)) ->
  forall l m its m', single sv o l m = Some (its, m') -> forall n, ~ In (OFrame n) (ops its).
Proof.
  intros Ho H l m its m' E n. unfold single in E. destruct (saves sv l m) as [[a m1]|] eqn:E1; [|discriminate]. injection E as <- <-.
  rewrite ops_app, in_app_iff. cbn. intros [Hi|[Hi|[]]]; [eapply saves_no_frame; eauto|eapply Ho; eauto].
Qed.
Lemma save_no_frame f h : forall v m its m', save f h v m = Some (its, m') -> forall n, ~ In (OFrame n) (ops its).
Proof.
  induction f as [|f IH]; intros v m its m' E n; [discriminate|]. cbn [save] in E.
  assert (Hne : forall n o, In o [OAppend; OAppends; OSetItem; OSetItems] -> o <> OFrame n) by (intros k o Hi ->; cbn in Hi; intuition discriminate).
  destruct v as [| | | | |x]; try (injection E as <- <-; cbn; intuition discriminate).
  destruct (index_of x m); [injection E as <- <-; cbn; intuition discriminate|].
  destruct (h x) as [[s|b|l|l|d]|]; [| | | | |discriminate]; try (injection E as <- <-; cbn; intuition discriminate).
  - destruct (save_list (save f h) l (m ++ [x])) as [[a m1]|] eqn:El; [|discriminate]. injection E as <- <-. cbn. intros [?|[?|Hi]]; try discriminate. revert Hi. fold (ops a).
    unfold save_list in El. destruct l as [|v1 [|v2 l]]; [injection El as <- <-; auto| |]; [eapply single_no_frame|eapply batches_no_frame]; eauto; intro; apply Hne; cbn; auto.
  - destruct (save_tuple (save f h) x l m) as [[a m1]|] eqn:El; [|discriminate]. injection E as <- <-. cbn. fold (ops a). unfold save_tuple in El.
    destruct (saves (save f h) l m) as [[b m2]|] eqn:Es; [|discriminate]. pose proof (saves_no_frame _ IH _ _ _ _ Es n) as Hb.
    assert (Hp : forall k, ~ In (OFrame n) (repeat OPop k)) by (intros k Hi; apply repeat_spec in Hi; discriminate).
    destruct (Nat.leb (List.length l) 3); destruct (index_of x m2); injection El as <- <-; cbn; try (fold (ops (b ++ [Op OPopMark; Op (OGet n0)]))); try (fold (ops (b ++ [Op OTuple; Op OMemoize])));
      rewrite ?ops_app, ?ops_pops, ?in_app_iff; cbn; intuition (try discriminate); eauto.
  - destruct (save_dict (save f h) d (m ++ [x])) as [[a m1]|] eqn:El; [|discriminate]. injection E as <- <-. cbn. intros [?|[?|Hi]]; try discriminate. revert Hi. fold (ops a).
    unfold save_dict in El. destruct d as [|[k1 v1] [|kv2 d]]; [injection El as <- <-; auto| |]; [eapply single_no_frame|eapply batches_no_frame]; eauto; intro; apply Hne; cbn; auto.
Qed.

Lemma reaches_child h v x n w : reaches h v x -> h x = Some n -> In w (children n) -> forall y, w = PRef y -> reaches h v y.
Proof.
  intros H Hn Hw y ->. induction H as [x|x nx u z Hx Hu H IH].
  - eapply reaches_on; eauto. constructor.
  - eapply reaches_on; eauto.
Qed.

(** What there is to load, and nothing is left. *)
Lemma load_dumps limit h v b : proper limit h v -> dumps limit h v = Some b -> short b -> exists c v' m',
  stk c = [v'] /\ Copy h [] m' c /\ same_pv (pair_at m' (memo c)) v v' /\
  forall junk fuel, (len (b ++ junk) < Z.of_nat fuel)%Z -> load limit fuel (b ++ junk) blank_mach = Some (c, junk).
Proof.
  intros HP E Hb. unfold dumps in E. destruct (save limit h v []) as [[its m']|] eqn:Es; [|discriminate]. destruct (forallb item_ok its) eqn:Ei; [|discriminate]. injection E as <-.
  assert (Hv : okv (fun x => reaches h v x) v) by (intros x ->; constructor).
  assert (C0 : Copy h [] [] blank_mach).
  { constructor; cbn; try constructor; try tauto. intros k x Hk. destruct k; discriminate. }
  destruct (save_ok h limit (fun x => reaches h v x) HP (fun x n w Hx Hn Hw => reaches_child h v x n w Hx Hn Hw) limit v [] its m' Hv Es [] blank_mach C0)
    as (c & vs & X & S & B & _ & _ & C & F).
  inversion F as [|? v' ? ? Fv Fn]; subst. inversion Fn; subst. exists c, v', m'. split; [exact S|]. split; [exact C|]. split; [exact Fv|].
  intros junk fuel Hl.
  assert (Hst : stream (OProto 5 :: ops its ++ [OStop]) (code (OProto 5) ++ frames None (its ++ [Op OStop]))).
  { constructor; [reflexivity|intros; discriminate|]. change (ops its ++ [OStop]) with ([] ++ ops its ++ ops [Op OStop]). rewrite <- ops_app. apply frames_stream; [constructor|reflexivity| |].
    - rewrite ops_app. apply Forall_app. split; [apply item_ok_ops; [exact Ei|]|repeat constructor; discriminate]. apply (save_no_frame _ _ _ _ _ _ Es).
    - assert (Hb' : (len (code (OProto 5) ++ frames None (its ++ [Op OStop])) < 2 ^ 64)%Z) by exact Hb. rewrite len_app in Hb'. pose proof (len_nonneg (code (OProto 5))).
      change (256 ^ 8)%Z with (2 ^ 64)%Z. lia. }
  apply (load_stream limit _ _ Hst (OProto 5 :: ops its)); auto.
Qed.

Lemma round_trip limit h v b : proper limit h v -> pickle_encode limit h v = Ok b -> short b ->
  exists h' v', is_copy h v h' v' /\ forall junk, pickle_decode limit (b ++ junk) = Ok (h', v').
Proof.
  unfold pickle_encode, pickle_decode. destruct (dumps limit h v) as [b0|] eqn:E; [|discriminate]. intros HP [= ->] Hb.
  destruct (load_dumps _ _ _ _ HP E Hb) as (c & v' & m' & S & C & Fv & HL). exists (cells c), v'. split.
  - exists (pair_at m' (memo c)). split; [intros x y z; eapply copy_fun; eauto|]. split; [intros x y z; eapply copy_inj; eauto|]. split; [|exact Fv].
    intros x y Hxy. destruct (copy_pair _ _ _ _ _ _ C Hxy) as (_ & n & Hn & Hc). destruct Hc as (n' & Hc & Hs); [tauto|]. exists n, n'. auto.
  - intro junk. unfold loads. rewrite HL, S; [reflexivity|]. unfold len. lia.
Qed.

Lemma truncated limit h v b p q : proper limit h v -> pickle_encode limit h v = Ok b -> short b -> b = (p ++ q)%string -> q <> ""%string ->
  pickle_decode limit p = Exc UnpicklingError.
Proof.
  unfold pickle_encode, pickle_decode. destruct (dumps limit h v) as [b0|] eqn:E; [|discriminate]. intros HP [= ->] Hb Epq Hq.
  destruct (load_dumps _ _ _ _ HP E Hb) as (c & v' & m' & S & C & Fv & HL).
  unfold loads. destruct (load limit (Datatypes.S (String.length p)) p blank_mach) as [[c1 r]|] eqn:El; [|reflexivity]. exfalso.
  assert (Hlen : String.length p <= String.length b).
  { subst b. pose proof (len_app p q) as X. unfold len in X. lia. }
  apply (load_more limit q) with (fuel' := Datatypes.S (String.length b)) in El; [|lia]. rewrite <- Epq in El.
  specialize (HL ""%string (Datatypes.S (String.length b))). rewrite app_nil_r' in HL. rewrite HL in El by (unfold len; lia). injection El as _ Er.
  destruct r; [|discriminate]. now apply Hq.
Qed.

(** ** The bytes depend on the shape only *)
Section Shape.
  Variables h h' : heap.
  Variable R : nat -> nat -> Prop.
  Hypothesis R_fun : forall x y z, R x y -> R x z -> y = z.
  Hypothesis R_inj : forall x y z, R x z -> R y z -> x = y.
  Hypothesis R_node : forall x y, R x y -> exists n n', h x = Some n /\ h' y = Some n' /\ same_node R n n'.

  Definition alike (a b : option (list item * list nat)) : Prop :=
    match a, b with
    | Some (i, m), Some (j, n) => i = j /\ Forall2 R m n
    | None, None => True
    | _, _ => False
    end.
  Lemma index_alike x y m n : R x y -> Forall2 R m n -> index_of x m = index_of y n.
  Proof.
    intros Hxy. induction 1 as [|a b m n Hab H IH]; cbn; [reflexivity|]. rewrite IH.
    destruct (Nat.eqb_spec x a) as [->|Na], (Nat.eqb_spec y b) as [->|Nb]; auto; exfalso.
    - apply Nb. eauto.
    - apply Na. eauto.
  Qed.
  Section Sv.
    Variables sv sv' : pv -> list nat -> option (list item * list nat).
    Hypothesis Hsv : forall v v' m m', same_pv R v v' -> Forall2 R m m' -> alike (sv v m) (sv' v' m').
    Lemma saves_alike l l' : Forall2 (same_pv R) l l' -> forall m m', Forall2 R m m' -> alike (saves sv l m) (saves sv' l' m').
    Proof.
      induction 1 as [|v v' l l' Hv H IH]; intros m m' Hm; cbn [saves]; [cbn; auto|].
      pose proof (Hsv _ _ _ _ Hv Hm) as H1. destruct (sv v m) as [[a m1]|], (sv' v' m') as [[a' m1']|]; try destruct H1; [|exact I]. subst a'.
      specialize (IH _ _ H1). destruct (saves sv l m1) as [[b m2]|], (saves sv' l' m1') as [[b' m2']|]; try destruct IH; [|exact I]. subst. cbn. auto.
    Qed.
    Lemma batches_alike o ls ls' : Forall2 (Forall2 (same_pv R)) ls ls' -> forall m m', Forall2 R m m' -> alike (batches sv o ls m) (batches sv' o ls' m').
    Proof.
      induction 1 as [|l l' ls ls' Hl H IH]; intros m m' Hm; cbn [batches]; [cbn; auto|].
      pose proof (saves_alike _ _ Hl _ _ Hm) as H1. destruct (saves sv l m) as [[a m1]|], (saves sv' l' m') as [[a' m1']|]; try destruct H1; [|exact I]. subst a'.
      specialize (IH _ _ H1). destruct (batches sv o ls m1) as [[b m2]|], (batches sv' o ls' m1') as [[b' m2']|]; try destruct IH; [|exact I]. subst. cbn. auto.
    Qed.
    Lemma single_alike o l l' m m' : Forall2 (same_pv R) l l' -> Forall2 R m m' -> alike (single sv o l m) (single sv' o l' m').
    Proof.
      intros Hl Hm. unfold single. pose proof (saves_alike _ _ Hl _ _ Hm) as H1. destruct (saves sv l m) as [[a m1]|], (saves sv' l' m') as [[a' m1']|]; try destruct H1; [|exact I].
      subst. cbn. auto.
    Qed.
    Lemma Forall2_firstn A B (Q : A -> B -> Prop) n l r : Forall2 Q l r -> Forall2 Q (firstn n l) (firstn n r).
    Proof. intro H. revert n. induction H; intros [|n]; cbn; constructor; auto. Qed.
    Lemma Forall2_skipn A B (Q : A -> B -> Prop) n l r : Forall2 Q l r -> Forall2 Q (skipn n l) (skipn n r).
    Proof. intro H. revert n. induction H; intros [|n]; cbn; auto. Qed.
    Lemma chunk_alike A B (Q : A -> B -> Prop) f n : forall l r, Forall2 Q l r -> Forall2 (Forall2 Q) (chunk f n l) (chunk f n r).
    Proof.
      induction f as [|f IH]; intros l r H; [constructor|]. cbn [chunk]. destruct H as [|a b l r Hab H]; [constructor|]. constructor.
      - apply Forall2_firstn. auto.
      - apply IH, Forall2_skipn. auto.
    Qed.
    Lemma flat_alike d d' : Forall2 (same_kv R) d d' -> Forall2 (same_pv R) (flat d) (flat d').
    Proof. induction 1 as [|a b d d' [H1 H2] H IH]; cbn; constructor; auto. Qed.
    Lemma list_alike l l' m m' : Forall2 (same_pv R) l l' -> Forall2 R m m' -> alike (save_list sv l m) (save_list sv' l' m').
    Proof.
      intros Hl Hm. unfold save_list. rewrite (Forall2_len _ _ _ _ _ Hl). destruct Hl as [|v v' l l' Hv Hl]; [cbn; auto|]. destruct Hl as [|w w' l l' Hw Hl].
      - apply single_alike; auto.
      - apply batches_alike; auto. apply chunk_alike. auto.
    Qed.
    Lemma dict_alike d d' m m' : Forall2 (same_kv R) d d' -> Forall2 R m m' -> alike (save_dict sv d m) (save_dict sv' d' m').
    Proof.
      intros Hl Hm. unfold save_dict. rewrite (Forall2_len _ _ _ _ _ Hl). destruct Hl as [|[k v] [k' v'] d d' Hv Hl]; [cbn; auto|]. destruct Hl as [|w w' l l' Hw Hl].
      - apply single_alike; auto. destruct Hv. auto.
      - apply batches_alike; auto. assert (HF : Forall2 (same_kv R) ((k, v) :: w :: l) ((k', v') :: w' :: l')) by auto.
        apply (chunk_alike _ _ _ (List.length ((k', v') :: w' :: l')) batch_size) in HF. revert HF.
        generalize (chunk (List.length ((k', v') :: w' :: l')) batch_size ((k, v) :: w :: l)) (chunk (List.length ((k', v') :: w' :: l')) batch_size ((k', v') :: w' :: l')).
        induction 1; cbn [map]; constructor; auto using flat_alike.
    Qed.
    Lemma tuple_alike x y l l' m m' : R x y -> Forall2 (same_pv R) l l' -> Forall2 R m m' -> alike (save_tuple sv x l m) (save_tuple sv' y l' m').
    Proof.
      intros Hxy Hl Hm. unfold save_tuple. rewrite (Forall2_len _ _ _ _ _ Hl). pose proof (saves_alike _ _ Hl _ _ Hm) as H1.
      destruct (saves sv l m) as [[a m1]|], (saves sv' l' m') as [[a' m1']|]; try destruct H1; [|exact I]. subst a'. rewrite (index_alike x y m1 m1') by auto.
      destruct (Nat.leb (List.length l') 3); destruct (index_of y m1'); cbn; auto using Forall2_app.
    Qed.
  End Sv.
  Lemma save_alike f : forall v v' m m', same_pv R v v' -> Forall2 R m m' -> alike (save f h v m) (save f h' v' m').
  Proof.
    induction f as [|f IH]; intros v v' m m' Hv Hm; [exact I|]. destruct Hv as [| | | | |x y Hxy]; cbn [save]; try (cbn; auto; fail).
    rewrite (index_alike x y m m') by auto. destruct (index_of y m'); [cbn; auto|]. destruct (R_node _ _ Hxy) as (n & n' & -> & -> & Hn).
    assert (Hm2 : Forall2 R (m ++ [x]) (m' ++ [y])) by (apply Forall2_app; auto).
    destruct Hn as [s|b|l l' Hl|l l' Hl|d d' Hd].
    - cbn. auto.
    - cbn. auto.
    - pose proof (list_alike _ _ IH _ _ _ _ Hl Hm2) as H1. destruct (save_list (save f h) l (m ++ [x])) as [[a m1]|], (save_list (save f h') l' (m' ++ [y])) as [[a' m1']|]; try destruct H1; [|exact I]. subst. cbn. auto.
    - pose proof (tuple_alike _ _ IH _ _ _ _ _ _ Hxy Hl Hm) as H1. destruct (save_tuple (save f h) x l m) as [[a m1]|], (save_tuple (save f h') y l' m') as [[a' m1']|]; try destruct H1; [|exact I]. subst. cbn. auto.
    - pose proof (dict_alike _ _ IH _ _ _ _ Hd Hm2) as H1. destruct (save_dict (save f h) d (m ++ [x])) as [[a m1]|], (save_dict (save f h') d' (m' ++ [y])) as [[a' m1']|]; try destruct H1; [|exact I]. subst. cbn. auto.
  Qed.
  Lemma shown_alike n : forall v v', same_pv R v v' -> shown n h v = shown n h' v'.
  Proof.
    induction n as [|n IH]; intros v v' Hv; destruct Hv as [| | | | |x y Hxy]; try reflexivity. cbn [shown]. destruct (R_node _ _ Hxy) as (nd & nd' & -> & -> & Hn).
    destruct Hn as [s|b|l l' Hl|l l' Hl|d d' Hd]; try reflexivity; f_equal.
    - induction Hl; cbn; f_equal; auto.
    - induction Hl; cbn; f_equal; auto.
    - induction Hd as [|a b d d' [H1 H2] H IHd]; cbn; f_equal; auto. f_equal; auto.
  Qed.
End Shape.
Lemma same_bytes limit h v h' v' : is_copy h v h' v' -> pickle_encode limit h v = pickle_encode limit h' v'.
Proof.
  intros (R & H1 & H2 & H3 & H4). unfold pickle_encode, dumps. pose proof (save_alike h h' R H1 H2 H3 limit v v' [] [] H4 (Forall2_nil _)) as H.
  destruct (save limit h v []) as [[a m1]|], (save limit h' v' []) as [[a' m1']|]; try destruct H; [|reflexivity]. now subst.
Qed.
Lemma same_shown h v h' v' : is_copy h v h' v' -> forall n, shown n h v = shown n h' v'.
Proof. intros (R & H1 & H2 & H3 & H4) n. eapply shown_alike; eauto. Qed.

(** ** When it can be pickled *)
Lemma batch_some : 0 < batch_size. Proof. unfold batch_size. lia. Qed.
Lemma long_len z : (Z.log2 (Z.abs z) < 2 ^ 30)%Z -> (len (long_bytes z) < 2147483648)%Z.
Proof.
  intro H. assert (Hb : (0 <= num_bits z <= 2 ^ 30)%Z).
  { unfold num_bits. destruct (z =? 0)%Z; [lia|]. pose proof (Z.log2_nonneg (Z.abs z)). lia. }
  assert (Hd : (0 <= num_bits z / 8 <= 2 ^ 27)%Z) by (split; [apply Z.div_pos; lia|apply Z.div_le_upper_bound; lia]).
  unfold long_bytes. match goal with |- context[if ?b then _ else _] => destruct b end; rewrite len_le; lia.
Qed.
Lemma utf8_len s : (len (utf8 s) <= 2 * len s)%Z.
Proof.
  induction s as [|c s IH]; [cbn; lia|]. unfold len in *. cbn [utf8]. destruct (Nat.ltb (nat_of_ascii c) 128); cbn [String.length] in *; lia.
Qed.

Section Pickled.
  Variable h : heap.
  Variable limit : nat.
  Variable P : nat -> Prop.
  Variable bound : nat.
  Hypothesis bound_small : (Z.of_nat bound <= 2 ^ 32)%Z.
  Hypothesis P_bound : forall x, P x -> x < bound.
  Hypothesis P_node : forall x, P x -> exists n, h x = Some n /\ n <> NTup [] /\
    (forall w, In w (children n) -> fits_pv w /\ okv P w) /\
    match n with NStr s | NBytes s => (Z.of_nat (String.length s) < 2 ^ 62)%Z | _ => True end.
  Definition sane (m : list nat) : Prop := NoDup m /\ forall x, In x m -> P x.
  Definition goodv (v : pv) : Prop := fits_pv v /\ okv P v.
  Definition fine (r : option (list item * list nat)) : Prop := match r with Some (its, m') => forallb item_ok its = true /\ sane m' | None => True end.
  Definition there (r : option (list item * list nat)) : Prop := r <> None.
  Lemma sane_get m k x : sane m -> nth_error m k = Some x -> item_ok (Op (OGet k)) = true.
  Proof.
    intros [Hd Hp] Hk. assert (Hl : List.length m <= bound).
    { rewrite <- (seq_length bound 0). apply NoDup_incl_length; [exact Hd|]. intros y Hy. apply in_seq. specialize (P_bound y (Hp y Hy)). lia. }
    assert (k < List.length m) by (apply nth_error_Some; congruence). cbn. apply Z.ltb_lt. change (Z.pow_pos 256 4) with (2 ^ 32)%Z. lia.
  Qed.
  Lemma sane_snoc m x : sane m -> P x -> ~ In x m -> sane (m ++ [x]).
  Proof. intros [H1 H2] Hx Hn. split; [now apply nodup_snoc|]. intro y. rewrite in_app_iff. cbn. intros [Hy|[<-|[]]]; auto. Qed.
  Section Sv.
    Variable sv : pv -> list nat -> option (list item * list nat).
    Hypothesis Hsv : forall v m, goodv v -> sane m -> fine (sv v m).
    Lemma saves_fine l : Forall goodv l -> forall m, sane m -> fine (saves sv l m).
    Proof.
      induction 1 as [|v l Hv H IH]; intros m Hm; cbn [saves]; [cbn; auto|]. pose proof (Hsv v m Hv Hm) as H1. destruct (sv v m) as [[a m1]|]; [|exact I]. destruct H1 as [H1 H2].
      specialize (IH m1 H2). destruct (saves sv l m1) as [[b m2]|]; [|exact I]. destruct IH as [I1 I2]. split; [|exact I2]. now rewrite forallb_app, H1, I1.
    Qed.
    Lemma batches_fine o ls : encodable o = true -> Forall (Forall goodv) ls -> forall m, sane m -> fine (batches sv o ls m).
    Proof.
      intro Ho. induction 1 as [|l ls Hl H IH]; intros m Hm; cbn [batches]; [cbn; auto|]. pose proof (saves_fine l Hl m Hm) as H1.
      destruct (saves sv l m) as [[a m1]|]; [|exact I]. destruct H1 as [H1 H2]. specialize (IH m1 H2). destruct (batches sv o ls m1) as [[b m2]|]; [|exact I]. destruct IH as [I1 I2].
      split; [|exact I2]. cbn [forallb item_ok encodable]. rewrite forallb_app, H1. cbn [forallb item_ok andb]. now rewrite Ho, I1.
    Qed.
    Lemma single_fine o l m : encodable o = true -> Forall goodv l -> sane m -> fine (single sv o l m).
    Proof.
      intros Ho Hl Hm. unfold single. pose proof (saves_fine l Hl m Hm) as H1. destruct (saves sv l m) as [[a m1]|]; [|exact I]. destruct H1 as [H1 H2].
      split; [|exact H2]. rewrite forallb_app, H1. cbn. now rewrite Ho.
    Qed.
    Lemma tuple_fine x l m : P x -> l <> [] -> Forall goodv l -> sane m -> fine (save_tuple sv x l m).
    Proof.
      intros Px Hne Hl Hm. unfold save_tuple. pose proof (saves_fine l Hl m Hm) as H1. destruct (saves sv l m) as [[a m1]|]; [|exact I]. destruct H1 as [H1 H2].
      destruct (Nat.leb_spec (List.length l) 3) as [H3|H3]; destruct (index_of x m1) as [k|] eqn:Ek.
      - apply index_of_some in Ek. split; [|exact H2]. rewrite !forallb_app, H1. cbn [andb]. apply andb_true_iff. split.
        + apply forallb_forall. intros i Hi. apply repeat_spec in Hi as ->. reflexivity.
        + cbn [forallb]. rewrite (sane_get _ _ _ H2 Ek). reflexivity.
      - apply index_of_none in Ek. split; [|now apply sane_snoc]. rewrite forallb_app, H1. cbn [forallb item_ok encodable andb].
        destruct l; [tauto|]. apply Nat.leb_le in H3. cbn [List.length Nat.leb] in *. now rewrite H3.
      - apply index_of_some in Ek. split; [|exact H2]. cbn [forallb]. rewrite forallb_app, H1. cbn [forallb item_ok andb]. fold (item_ok (Op (OGet k))). rewrite (sane_get _ _ _ H2 Ek). reflexivity.
      - apply index_of_none in Ek. split; [|now apply sane_snoc]. cbn [forallb]. now rewrite forallb_app, H1.
    Qed.
    Hypothesis Ht : forall v m, goodv v -> sv v m <> None.
  End Sv.
  Lemma good_children x n l : P x -> h x = Some n -> (forall w, In w l -> In w (children n)) -> Forall goodv l.
  Proof.
    intros Px Hn Hl. destruct (P_node x Px) as (n0 & E & _ & Hc & _). rewrite Hn in E. injection E as <-. apply Forall_forall. intros w Hw. apply Hc. auto.
  Qed.
  Lemma save_fine f : forall v m, goodv v -> sane m -> fine (save f h v m).
  Proof.
    induction f as [|f IH]; intros v m [Hv Ho] Hm; [exact I|]. cbn [save].
    assert (Hatom : (forall x, v <> PRef x) -> fine (Some ([Bound; Op (OPush v)], m))).
    { intro Hn. split; [|exact Hm]. cbn [forallb item_ok andb]. rewrite andb_true_r. destruct v; cbn [encodable fits_pv] in *; auto.
      - apply Z.ltb_lt. now apply long_len.
      - apply andb_true_iff. split; [apply Z.leb_le|apply Z.ltb_lt]; change (256 ^ 8)%Z with (2 ^ 64)%Z; lia.
      - now destruct (Hn x). }
    destruct v as [| | | | |x]; try (apply Hatom; discriminate). clear Hatom. assert (Px : P x) by now apply Ho.
    destruct (index_of x m) as [k|] eqn:Ek.
    { apply index_of_some in Ek. split; [|exact Hm]. cbn [forallb]. rewrite (sane_get _ _ _ Hm Ek). reflexivity. }
    apply index_of_none in Ek. destruct (P_node x Px) as (n & En & Hne & Hc & Hs). rewrite En. pose proof (sane_snoc m x Hm Px Ek) as Hm2.
    destruct n as [s|b|l|l|d].
    - split; [|exact Hm2]. cbn [forallb item_ok encodable andb]. rewrite andb_true_r. apply Z.ltb_lt. pose proof (utf8_len s). unfold len in *. change (256 ^ 8)%Z with (2 ^ 64)%Z. lia.
    - split; [|exact Hm2]. cbn [forallb item_ok encodable andb]. rewrite andb_true_r. apply Z.ltb_lt. unfold len. change (256 ^ 8)%Z with (2 ^ 64)%Z. lia.
    - assert (Hl : Forall goodv l) by (apply (good_children x (NList l)); auto).
      assert (H1 : fine (save_list (save f h) l (m ++ [x]))).
      { unfold save_list. destruct l as [|v1 [|v2 l]]; [cbn; auto|apply single_fine; auto|]. apply batches_fine; auto. apply chunks_in. now rewrite concat_chunk by auto using batch_some. }
      destruct (save_list (save f h) l (m ++ [x])) as [[a m1]|]; [|exact I]. destruct H1. split; auto.
    - assert (H1 : fine (save_tuple (save f h) x l m)).
      { apply tuple_fine; auto; [now intros ->|]. apply (good_children x (NTup l)); auto. }
      destruct (save_tuple (save f h) x l m) as [[a m1]|]; [|exact I]. destruct H1. split; auto.
    - assert (Hl : Forall goodv (flat d)) by (apply (good_children x (NDict d)); auto; intros w; apply in_flat).
      assert (H1 : fine (save_dict (save f h) d (m ++ [x]))).
      { unfold save_dict. destruct d as [|[k1 v1] [|kv2 d]]; [cbn; auto|apply single_fine; auto|]. apply batches_fine; auto. apply chunks_in.
        rewrite <- flat_concat. now rewrite concat_chunk by auto using batch_some. }
      destruct (save_dict (save f h) d (m ++ [x])) as [[a m1]|]; [|exact I]. destruct H1. split; auto.
  Qed.
End Pickled.

(** Nothing deeper than the limit is met. *)
Section Deep.
  Variable h : heap.
  Section Sv.
    Variable sv : pv -> list nat -> option (list item * list nat).
    Variable Q : pv -> Prop.
    Hypothesis Hsv : forall v m, Q v -> sv v m <> None.
    Lemma saves_there l : Forall Q l -> forall m, saves sv l m <> None.
    Proof.
      induction 1 as [|v l Hv H IH]; intro m; cbn [saves]; [discriminate|]. specialize (Hsv v m Hv). destruct (sv v m) as [[a m1]|]; [|tauto].
      specialize (IH m1). destruct (saves sv l m1) as [[b m2]|]; [discriminate|tauto].
    Qed.
    Lemma batches_there o ls : Forall (Forall Q) ls -> forall m, batches sv o ls m <> None.
    Proof.
      induction 1 as [|l ls Hl H IH]; intro m; cbn [batches]; [discriminate|]. pose proof (saves_there l Hl m) as H1. destruct (saves sv l m) as [[a m1]|]; [|tauto].
      specialize (IH m1). destruct (batches sv o ls m1) as [[b m2]|]; [discriminate|tauto].
    Qed.
    Lemma single_there o l m : Forall Q l -> single sv o l m <> None.
    Proof. intro Hl. unfold single. pose proof (saves_there l Hl m) as H1. destruct (saves sv l m) as [[a m1]|]; [discriminate|tauto]. Qed.
  End Sv.
  Lemma save_there f : forall n v m, nested h n v -> n < f -> save f h v m <> None.
  Proof.
    induction f as [|f IH]; intros n v m Hn Hf; [lia|]. cbn [save]. destruct Hn as [n v Hv|n x nd Hx Hc]; [destruct v; try discriminate; now destruct (Hv x)|].
    destruct (index_of x m); [discriminate|]. rewrite Hx.
    assert (HQ : forall l, (forall w, In w l -> In w (children nd)) -> Forall (nested h n) l) by (intros l Hl; apply Forall_forall; auto).
    assert (Hsv : forall v m, nested h n v -> save f h v m <> None) by (intros v0 m0 Hv0; apply (IH n); [exact Hv0|lia]).
    destruct nd as [s|b|l|l|d]; try discriminate.
    - specialize (HQ l (fun w H => H)). assert (H1 : save_list (save f h) l (m ++ [x]) <> None).
      { unfold save_list. destruct l as [|v1 [|v2 l]]; [discriminate|eapply single_there; eauto|]. eapply batches_there; eauto. apply chunks_in. now rewrite concat_chunk by auto using batch_some. }
      destruct (save_list (save f h) l (m ++ [x])) as [[a m1]|]; [discriminate|tauto].
    - specialize (HQ l (fun w H => H)). unfold save_tuple. pose proof (saves_there (save f h) (nested h n) Hsv l HQ m) as H1.
      destruct (saves (save f h) l m) as [[a m1]|]; [|tauto]. destruct (Nat.leb (List.length l) 3); destruct (index_of x m1); discriminate.
    - specialize (HQ (flat d) (fun w => in_flat w d)). assert (H1 : save_dict (save f h) d (m ++ [x]) <> None).
      { unfold save_dict. destruct d as [|[k1 v1] [|kv2 d]]; [discriminate|eapply single_there; eauto|]. eapply batches_there; eauto. apply chunks_in. rewrite <- flat_concat.
        now rewrite concat_chunk by auto using batch_some. }
      destruct (save_dict (save f h) d (m ++ [x])) as [[a m1]|]; [discriminate|tauto].
  Qed.
End Deep.

Lemma pickled limit h v n bound : proper limit h v -> fits h v -> nested h n v -> n < limit ->
  (forall x, reaches h v x -> x < bound) -> (Z.of_nat bound <= 2 ^ 32)%Z -> exists b, pickle_encode limit h v = Ok b.
Proof.
  intros HP [Hf1 Hf2] Hn Hl Hb Hs. unfold pickle_encode, dumps. pose proof (save_there h limit n v [] Hn Hl) as Ht.
  assert (H : fine (fun x => reaches h v x) (save limit h v [])).
  { apply (save_fine h (fun x => reaches h v x) bound Hs Hb).
    - intros x Hx. specialize (HP x Hx). destruct (h x) as [nd|] eqn:E; [|destruct HP]. exists nd. split; [reflexivity|]. destruct (Hf2 x nd Hx E) as [H1 H2].
      split; [intros ->; exact HP|]. split; [|exact H2]. intros w Hw. split; [auto|]. intros y ->. eapply reaches_child; eauto.
    - split; [exact Hf1|]. intros x ->. constructor.
    - split; [constructor|]. intros x []. }
  destruct (save limit h v []) as [[its m]|]; [|tauto]. destruct H as [H _]. rewrite H. eauto.
Qed.
