(** Loading gives a copy. *)
From Verif Require Export Pickle_Stream.
From Coq Require Import Lia.

(** ** Lists *)
Lemma index_of_some x m k : index_of x m = Some k -> nth_error m k = Some x.
Proof.
  revert k. induction m as [|y m IH]; intros k; cbn; [discriminate|]. destruct (Nat.eqb_spec x y) as [->|]; [now intros [= <-]|].
  destruct (index_of x m); [|discriminate]. cbn. intros [= <-]. cbn. auto.
Qed.
Lemma index_of_none x m : index_of x m = None -> ~ In x m.
Proof.
  induction m as [|y m IH]; cbn; [tauto|]. destruct (Nat.eqb_spec x y) as [->|N]; [discriminate|].
  destruct (index_of x m); [discriminate|]. intros _ [E|E]; [now apply N|]. now apply IH.
Qed.
Lemma concat_chunk A n (l : list A) f : 0 < n -> List.length l <= f -> List.concat (chunk f n l) = l.
Proof.
  intros Hn. revert l. induction f as [|f IH]; intros [|a l] Hl; cbn [chunk]; try reflexivity; [cbn in Hl; lia|].
  cbn [List.concat]. rewrite IH; [apply firstn_skipn|]. rewrite skipn_length. cbn [List.length] in *. lia.
Qed.
Lemma nodup_nth A (l : list A) i j a : NoDup l -> nth_error l i = Some a -> nth_error l j = Some a -> i = j.
Proof.
  intros H H1 H2. rewrite NoDup_nth_error in H. apply H; [|congruence]. apply nth_error_Some. congruence.
Qed.
Lemma nth_app_l A (l t : list A) k a : nth_error l k = Some a -> nth_error (l ++ t) k = Some a.
Proof. intro H. rewrite nth_error_app1; [exact H|]. apply nth_error_Some. congruence. Qed.
Lemma nodup_snoc A (l : list A) a : NoDup l -> ~ In a l -> NoDup (l ++ [a]).
Proof.
  intros H Hn. induction H as [|b l Hb H IH]; cbn; [repeat constructor; auto|]. constructor.
  - rewrite in_app_iff. cbn in *. intros [E|[E|[]]]; [auto|]. subst. tauto.
  - apply IH. cbn in Hn. tauto.
Qed.

(** ** Keys *)
Fixpoint tok (k : ktree) : list token :=
  match k with
  | KtNone => [TNone]
  | KtInt z => [TInt z]
  | KtStr s => [TStr s]
  | KtBytes b => [TBytes b]
  | KtTup l => TTup (List.length l) :: List.concat (map tok l)
  end.
Fixpoint ktree_all (Q : ktree -> Prop) (H0 : Q KtNone) (H1 : forall z, Q (KtInt z)) (H2 : forall s, Q (KtStr s)) (H3 : forall b, Q (KtBytes b))
  (H4 : forall l, Forall Q l -> Q (KtTup l)) (k : ktree) : Q k :=
  match k with
  | KtNone => H0
  | KtInt z => H1 z
  | KtStr s => H2 s
  | KtBytes b => H3 b
  | KtTup l => H4 l ((fix go (l : list ktree) : Forall Q l :=
                        match l with [] => Forall_nil Q | a :: r => Forall_cons a (ktree_all Q H0 H1 H2 H3 H4 a) (go r) end) l)
  end.
Lemma tok_inj : forall k1 k2 r1 r2, tok k1 ++ r1 = tok k2 ++ r2 -> k1 = k2 /\ r1 = r2.
Proof.
  induction k1 as [|z|s|b|l1 IH] using ktree_all; intros [|z'|s'|b'|l2] r1 r2; cbn; try discriminate; try (intros [= -> ->]; auto; fail).
  - intros [= ->]. auto.
  - intros [= El E]. assert (l1 = l2 /\ r1 = r2) as [-> ->]; [|auto].
    revert l2 El E. induction IH as [|a l1 Ha IH IHl]; intros [|b l2]; cbn; try discriminate; auto.
    intros [= El]. rewrite <- !app_assoc. intro E. apply Ha in E as [-> E]. apply IHl in E as [-> ->]; auto.
Qed.
Lemma tok_nodup ks : NoDup ks -> NoDup (map tok ks).
Proof.
  induction 1 as [|k ks Hk H IH]; cbn; constructor; auto. rewrite in_map_iff. intros (k' & E & Hi). apply Hk.
  destruct (tok_inj k' k [] []) as [-> _]; [now rewrite !app_nil_r|]. exact Hi.
Qed.
Lemma all_some_map A B (f : A -> option B) l r : Forall2 (fun a b => f a = Some b) l r -> all_some (map f l) = Some r.
Proof. induction 1 as [|a b l r E H IH]; cbn; [reflexivity|]. now rewrite E, IH. Qed.
Lemma set_key_new n h kt k v d ts : Forall2 (fun kv t => key_of n h (fst kv) = Some t) d ts -> ~ In kt ts -> set_key n h kt k v d = d ++ [(k, v)].
Proof.
  induction 1 as [|[k1 v1] t d ts E H IH]; cbn; [reflexivity|]. intro Hn. cbn [fst] in E. rewrite E.
  destruct (list_eq_dec token_eq_dec t kt) as [->|]; [tauto|]. rewrite IH; tauto.
Qed.
Lemma set_items_new n h dv : forall d ts tv, Forall2 (fun kv t => key_of n h (fst kv) = Some t) d ts ->
  Forall2 (fun kv t => key_of n h (fst kv) = Some t) dv tv -> NoDup (ts ++ tv) -> set_items n h (flat dv) d = Some (d ++ dv).
Proof.
  induction dv as [|[k v] dv IH]; intros d ts tv H1 H2 Hd; [cbn; now rewrite app_nil_r|]. inversion H2 as [|? t ? tv' Et H2']; subst.
  cbn [flat flat_map app fst snd set_items]. cbn [fst] in Et. rewrite Et.
  rewrite (set_key_new _ _ _ _ _ _ _ H1).
  - change (flat_map (fun kv => [fst kv; snd kv]) dv) with (flat dv). rewrite (IH _ (ts ++ [t]) tv').
    + now rewrite <- app_assoc.
    + apply Forall2_app; auto.
    + exact H2'.
    + now rewrite <- app_assoc.
  - apply NoDup_remove_2 in Hd. rewrite in_app_iff in Hd. tauto.
Qed.

(** ** Pairs of objects *)
Definition pair_at (m : list nat) (u : list pv) (x y : nat) : Prop := exists k, nth_error m k = Some x /\ nth_error u k = Some (PRef y).
Lemma pair_more m t u w x y : pair_at m u x y -> pair_at (m ++ t) (u ++ w) x y.
Proof. intros (k & H1 & H2). exists k. auto using nth_app_l. Qed.
Lemma same_pv_mono (R R' : nat -> nat -> Prop) v v' : (forall x y, R x y -> R' x y) -> same_pv R v v' -> same_pv R' v v'.
Proof. intros H []; constructor; auto. Qed.
Lemma Forall2_mono A B (P Q : A -> B -> Prop) l r : (forall a b, P a b -> Q a b) -> Forall2 P l r -> Forall2 Q l r.
Proof. intros H. induction 1; constructor; auto. Qed.
Definition same_kv (R : nat -> nat -> Prop) (a b : pv * pv) : Prop := same_pv R (fst a) (fst b) /\ same_pv R (snd a) (snd b).
Lemma same_kv_mono (R R' : nat -> nat -> Prop) a b : (forall x y, R x y -> R' x y) -> same_kv R a b -> same_kv R' a b.
Proof. intros H [H1 H2]. split; eapply same_pv_mono; eauto. Qed.
Lemma same_node_mono (R R' : nat -> nat -> Prop) n n' : (forall x y, R x y -> R' x y) -> same_node R n n' -> same_node R' n n'.
Proof.
  intros H []; constructor; try (eapply Forall2_mono; [|eassumption]; intros a b; now apply same_pv_mono).
  eapply Forall2_mono; [|eassumption]. intros a b. now apply same_kv_mono.
Qed.

Section Copy.
  Variable h : heap.
  Variable limit : nat.
  Variable P : nat -> Prop.
  Definition okv (v : pv) : Prop := forall x, v = PRef x -> P x.
  Hypothesis P_node : forall x, P x ->
    match h x with
    | None | Some (NTup []) => False
    | Some (NDict d) => exists ks, Forall2 (as_key h limit) (map fst d) ks /\ NoDup ks
    | Some _ => True
    end.
  Hypothesis P_child : forall x n w, P x -> h x = Some n -> In w (children n) -> okv w.

  Definition mutable (n : node) : Prop := match n with NList _ | NDict _ => True | _ => False end.
  Record Copy (opn : list nat) (m : list nat) (c : mach) : Prop := {
    c_len : List.length m = List.length (memo c);
    c_nodup : NoDup m;
    c_nodup' : NoDup (memo c);
    c_open : forall x n, In x opn -> h x = Some n -> mutable n;
    c_at : forall k x, nth_error m k = Some x -> exists y n, nth_error (memo c) k = Some (PRef y) /\ y < fresh_id c /\ h x = Some n /\
             (~ In x opn -> exists n', cells c y = Some n' /\ same_node (pair_at m (memo c)) n n') }.
  Definition ext (c c' : mach) : Prop :=
    fresh_id c <= fresh_id c' /\ (forall y, y < fresh_id c -> cells c' y = cells c y) /\ exists t, memo c' = memo c ++ t.
  Lemma ext_refl c : ext c c. Proof. split; [lia|]. split; [auto|]. exists []. now rewrite app_nil_r. Qed.
  Lemma ext_trans a b c : ext a b -> ext b c -> ext a c.
  Proof.
    intros (H1 & H2 & t & Ht) (K1 & K2 & t' & Ht'). split; [lia|]. split.
    - intros y Hy. rewrite K2 by lia. auto.
    - exists (t ++ t'). now rewrite Ht', Ht, app_assoc.
  Qed.

  Lemma copy_inj opn m c x x' y : Copy opn m c -> pair_at m (memo c) x y -> pair_at m (memo c) x' y -> x = x'.
  Proof. intros C (k & H1 & H2) (k' & H3 & H4). assert (k = k') as <- by (eapply nodup_nth; [apply (c_nodup' _ _ _ C)|eauto..]). congruence. Qed.
  Lemma copy_fun opn m c x y y' : Copy opn m c -> pair_at m (memo c) x y -> pair_at m (memo c) x y' -> y = y'.
  Proof. intros C (k & H1 & H2) (k' & H3 & H4). assert (k = k') as <- by (eapply nodup_nth; [apply (c_nodup _ _ _ C)|eauto..]). congruence. Qed.
  Lemma copy_pair opn m c x y : Copy opn m c -> pair_at m (memo c) x y -> y < fresh_id c /\ exists n, h x = Some n /\
    (~ In x opn -> exists n', cells c y = Some n' /\ same_node (pair_at m (memo c)) n n').
  Proof.
    intros C (k & H1 & H2). destruct (c_at _ _ _ C k x H1) as (y' & n & E & Hl & Hn & Hc). rewrite H2 in E. injection E as <-.
    split; [exact Hl|]. exists n. auto.
  Qed.

  Lemma copy_fixed opn m c x y n : Copy opn m c -> pair_at m (memo c) x y -> h x = Some n -> ~ mutable n ->
    exists n', cells c y = Some n' /\ same_node (pair_at m (memo c)) n n'.
  Proof.
    intros C Hp Hn Hm. destruct (copy_pair _ _ _ _ _ C Hp) as (_ & n0 & E & Hc). rewrite Hn in E. injection E as <-. apply Hc. intro Hi. apply Hm. eapply c_open; eauto.
  Qed.
  Lemma as_key_copy opn m c n : Copy opn m c -> forall v k v', as_key h n v k -> same_pv (pair_at m (memo c)) v v' -> key_of n (cells c) v' = Some (tok k).
  Proof.
    intro C. induction n as [|n IH]; intros v k v' Hk Hs; destruct Hs as [| | | | |x y Hp]; try (inversion Hk; subst; destruct n; reflexivity); try (inversion Hk; subst; reflexivity).
    inversion Hk as [| | | |? ? s Hx|? ? b Hx|? ? l ks Hx HA]; subst; destruct (copy_fixed _ _ _ _ _ _ C Hp Hx (fun F => F)) as (n' & Ec & Hn'); cbn [key_of]; rewrite Ec.
    - now inversion Hn'.
    - now inversion Hn'.
    - inversion Hn' as [| | |? t HB|]; subst.
      assert (HF : Forall2 (fun w q => key_of n (cells c) w = Some q) t (map tok ks) /\ List.length t = List.length ks).
      { clear - IH HA HB. revert t HB. induction HA as [|w q l ks Hw HA IHl]; intros t HB; inversion HB; subst; cbn; [split; constructor|].
        destruct (IHl _ H3) as [I1 I2]. split; [constructor; eauto|now f_equal]. }
      destruct HF as [HF HL]. rewrite (all_some_map _ _ _ _ _ HF). cbn. now rewrite HL.
  Qed.

  (** A new object. *)
  Lemma copy_push opn opn' m c c2 x n n' :
    Copy opn m c -> ~ In x m -> h x = Some n -> (opn' = opn \/ opn' = x :: opn /\ mutable n) ->
    cells c2 = set_cell (cells c) (fresh_id c) n' -> fresh_id c2 = S (fresh_id c) -> memo c2 = memo c ++ [PRef (fresh_id c)] ->
    (~ In x opn' -> same_node (pair_at (m ++ [x]) (memo c2)) n n') -> Copy opn' (m ++ [x]) c2.
  Proof.
    intros C Hx Hn Ho Ec Ef Em Hs.
    assert (Hold : forall y, In (PRef y) (memo c) -> y < fresh_id c).
    { intros y Hy. apply In_nth_error in Hy as [k Hk]. assert (k < List.length m) by (rewrite (c_len _ _ _ C); apply nth_error_Some; congruence).
      destruct (nth_error m k) as [z|] eqn:Ez; [|apply nth_error_None in Ez; lia]. destruct (c_at _ _ _ C k z Ez) as (y' & ? & E & Hl & _). congruence. }
    constructor.
    - rewrite Em, !app_length, (c_len _ _ _ C). reflexivity.
    - apply nodup_snoc; [apply C|exact Hx].
    - rewrite Em. apply nodup_snoc; [apply C|]. intro Hi. apply Hold in Hi. lia.
    - intros z nz Hz Ez. destruct Ho as [->|[-> Hm]]; [eapply c_open; eauto|]. destruct Hz as [<-|Hz]; [congruence|eapply c_open; eauto].
    - intros k z Hk. destruct (Nat.lt_ge_cases k (List.length m)) as [Hl|Hl].
      + rewrite nth_error_app1 in Hk by exact Hl. destruct (c_at _ _ _ C k z Hk) as (y & nz & Ey & Hy & Ez & Hc). exists y, nz.
        split; [rewrite Em; now apply nth_app_l|]. split; [lia|]. split; [exact Ez|]. intro Hz.
        destruct Hc as (nz' & E1 & E2); [destruct Ho as [->|[-> _]]; [auto|cbn in Hz; tauto]|]. exists nz'. split.
        * rewrite Ec. unfold set_cell. destruct (Nat.eqb_spec y (fresh_id c)); [lia|exact E1].
        * rewrite Em. eapply same_node_mono; [|exact E2]. intros a b. apply pair_more.
      + rewrite nth_error_app2 in Hk by exact Hl. destruct (k - List.length m) as [|q] eqn:Eq; [|cbn in Hk; destruct q; discriminate].
        injection Hk as <-. exists (fresh_id c), n. split.
        { rewrite Em, nth_error_app2 by (rewrite <- (c_len _ _ _ C); lia). rewrite <- (c_len _ _ _ C), Eq. reflexivity. }
        split; [lia|]. split; [exact Hn|]. intro Hz. exists n'. split; [rewrite Ec; unfold set_cell; now rewrite Nat.eqb_refl|auto].
  Qed.
  Lemma pair_last opn m c x y : Copy opn m c -> pair_at (m ++ [x]) (memo c ++ [PRef y]) x y.
  Proof.
    intro C. exists (List.length m). split; rewrite nth_error_app2 by (rewrite ?(c_len _ _ _ C); lia); [|rewrite <- (c_len _ _ _ C)]; now rewrite Nat.sub_diag.
  Qed.
  (** An open one changed, an open one done. *)
  Lemma copy_change opn m c c2 x y n' : Copy (x :: opn) m c -> pair_at m (memo c) x y ->
    cells c2 = set_cell (cells c) y n' -> fresh_id c2 = fresh_id c -> memo c2 = memo c -> Copy (x :: opn) m c2.
  Proof.
    intros C Hp Ec Ef Em. constructor; rewrite ?Em; try apply C. intros k z Hk. destruct (c_at _ _ _ C k z Hk) as (y2 & n & E & Hl & Hn & Hc).
    exists y2, n. split; [exact E|]. split; [lia|]. split; [exact Hn|]. intro Hz. destruct (Hc Hz) as (nz & E1 & E2). exists nz. split; [|exact E2].
    rewrite Ec. unfold set_cell. destruct (Nat.eqb_spec y2 y) as [->|]; [|exact E1]. exfalso. apply Hz. left. eapply copy_inj; eauto. exists k. auto.
  Qed.
  Lemma copy_close opn m c x y n n' : Copy (x :: opn) m c -> pair_at m (memo c) x y -> h x = Some n -> cells c y = Some n' ->
    same_node (pair_at m (memo c)) n n' -> Copy opn m c.
  Proof.
    intros C Hp Hn Hc Hs. constructor; try apply C.
    - intros z nz Hz. apply (c_open _ _ _ C). now right.
    - intros k z Hk. destruct (c_at _ _ _ C k z Hk) as (y2 & nz & E & Hl & Ez & Hz). exists y2, nz. split; [exact E|]. split; [exact Hl|]. split; [exact Ez|].
      intro Ho. destruct (Nat.eq_dec x z) as [<-|Hne]; [|apply Hz; cbn; tauto].
      assert (y2 = y) as -> by (eapply copy_fun; eauto; exists k; auto). exists n'. split; [exact Hc|]. congruence.
  Qed.

  (** ** Values onto the stack *)
  Definition saved (opn : list nat) (vs : list pv) (os : list opc) (m m' : list nat) : Prop :=
    forall c, Copy opn m c -> exists c' vs', execs limit os c = Some c' /\ stk c' = rev vs' ++ stk c /\ below c' = below c /\ ext c c' /\
      (exists t, m' = m ++ t) /\ Copy opn m' c' /\ Forall2 (same_pv (pair_at m' (memo c'))) vs vs'.

  Lemma saves_ok sv (Hsv : forall v m its m', okv v -> sv v m = Some (its, m') -> forall opn, saved opn [v] (ops its) m m') :
    forall l m its m', Forall okv l -> saves sv l m = Some (its, m') -> forall opn, saved opn l (ops its) m m'.
  Proof.
    induction l as [|v l IH]; intros m its m' Hl H opn; cbn [saves] in H.
    - injection H as <- <-. intros c C. exists c, []. cbn. split; [reflexivity|]. split; [reflexivity|]. split; [reflexivity|]. split; [apply ext_refl|].
      split; [exists []; now rewrite app_nil_r|]. auto.
    - inversion Hl as [|? ? Hv Hl']; subst. destruct (sv v m) as [[a m1]|] eqn:E1; [|discriminate]. destruct (saves sv l m1) as [[b m2]|] eqn:E2; [|discriminate]. injection H as <- <-.
      intros c C. destruct (Hsv _ _ _ _ Hv E1 opn c C) as (c1 & vs1 & X1 & S1 & B1 & T1 & (t1 & M1) & C1 & F1).
      destruct (IH _ _ _ Hl' E2 opn c1 C1) as (c2 & vs2 & X2 & S2 & B2 & T2 & (t2 & M2) & C2 & F2).
      exists c2, (vs1 ++ vs2). rewrite ops_app, execs_app, X1. split; [exact X2|]. split; [rewrite S2, S1, rev_app_distr, app_assoc; reflexivity|].
      split; [congruence|]. split; [eapply ext_trans; eauto|]. split; [exists (t1 ++ t2); now rewrite M2, M1, app_assoc|]. split; [exact C2|].
      change (v :: l) with ([v] ++ l). apply Forall2_app; [|exact F2]. eapply Forall2_mono; [|exact F1]. intros a0 b0. apply same_pv_mono.
      intros x y Hxy. destruct T2 as (_ & _ & w & Ew). rewrite M2, Ew. now apply pair_more.
  Qed.

  (** ** Filling lists and dictionaries *)
  Section Fill.
    Variable A : Type.
    Variable sameA : (nat -> nat -> Prop) -> A -> A -> Prop.
    Variable fl : list A -> list pv.
    Variable mkn : list A -> node.
    Variable il : bool.
    Variables op1 opb : opc.
    Hypothesis sameA_mono : forall (R R' : nat -> nat -> Prop) a b, (forall x y, R x y -> R' x y) -> sameA R a b -> sameA R' a b.
    Hypothesis fl_inv : forall R l vs', Forall2 (same_pv R) (fl l) vs' -> exists l', vs' = fl l' /\ Forall2 (sameA R) l l'.
    Hypothesis op1_is : forall a s c, stk c = rev (fl [a]) ++ s -> exec limit op1 c = extend limit il (fl [a]) s (below c) c.
    Hypothesis opb_is : forall s b c, below c = s :: b -> exec limit opb c = extend limit il (rev (stk c)) s b c.
    Variable x : nat.
    Variable all : list A.
    Hypothesis grow : forall opn m c y s0 b pre vs more pre' vs',
      Copy opn m c -> pair_at m (memo c) x y -> all = pre ++ vs ++ more -> cells c y = Some (mkn pre') ->
      Forall2 (sameA (pair_at m (memo c))) pre pre' -> Forall2 (sameA (pair_at m (memo c))) vs vs' ->
      extend limit il (fl vs') (PRef y :: s0) b c = Some (mkMach (PRef y :: s0) b (set_cell (cells c) y (mkn (pre' ++ vs'))) (fresh_id c) (memo c)).
    Variable sv : pv -> list nat -> option (list item * list nat).
    Hypothesis Hsv : forall v m its m', okv v -> sv v m = Some (its, m') -> forall opn, saved opn [v] (ops its) m m'.

    Definition grown (y : nat) (c c' : mach) : Prop :=
      fresh_id c <= fresh_id c' /\ (forall z, z < fresh_id c -> z <> y -> cells c' z = cells c z) /\ exists t, memo c' = memo c ++ t.

    Lemma one_batch opn m m' its l pre more c y s0 b pre' (a : list item) :
      Forall okv (fl l) -> saves sv (fl l) m = Some (its, m') -> all = pre ++ l ++ more ->
      Copy (x :: opn) m c -> pair_at m (memo c) x y -> cells c y = Some (mkn pre') -> Forall2 (sameA (pair_at m (memo c))) pre pre' ->
      exists c' l', execs limit (ops its) c = Some c' /\ stk c' = rev (fl l') ++ stk c /\ below c' = below c /\
        (exists t, m' = m ++ t) /\ Copy (x :: opn) m' c' /\ ext c c' /\ pair_at m' (memo c') x y /\ cells c' y = Some (mkn pre') /\
        Forall2 (sameA (pair_at m' (memo c'))) l l' /\ Forall2 (sameA (pair_at m' (memo c'))) pre pre' /\
        extend limit il (fl l') (PRef y :: s0) b c' = Some (mkMach (PRef y :: s0) b (set_cell (cells c') y (mkn (pre' ++ l'))) (fresh_id c') (memo c')).
    Proof.
      intros Hl E Ha C Hp Hy Hf. destruct (saves_ok sv Hsv _ _ _ _ Hl E (x :: opn) c C) as (c1 & vs1 & X1 & S1 & B1 & T1 & (t1 & M1) & C1 & F1).
      destruct (fl_inv _ _ _ F1) as (l' & -> & Fl). exists c1, l'. pose proof T1 as (T1a & T1b & w & Ew).
      assert (Hp1 : pair_at m' (memo c1) x y) by (rewrite M1, Ew; now apply pair_more).
      assert (Hy1 : cells c1 y = Some (mkn pre')) by (rewrite T1b; [exact Hy|eapply copy_pair; eauto]).
      assert (Hf1 : Forall2 (sameA (pair_at m' (memo c1))) pre pre').
      { eapply Forall2_mono; [|exact Hf]. intros u v. apply sameA_mono. intros p q. rewrite M1, Ew. apply pair_more. }
      split; [exact X1|]. split; [exact S1|]. split; [exact B1|]. split; [now exists t1|]. split; [exact C1|]. split; [exact T1|]. split; [exact Hp1|]. split; [exact Hy1|].
      split; [exact Fl|]. split; [exact Hf1|]. eapply grow; eauto.
    Qed.

    Definition filled opn m m' os c y pre' : Prop :=
      stk c = PRef y :: tl (stk c) -> Copy (x :: opn) m c -> pair_at m (memo c) x y -> cells c y = Some (mkn pre') ->
      exists c' all', execs limit os c = Some c' /\ stk c' = stk c /\ below c' = below c /\ grown y c c' /\ (exists t, m' = m ++ t) /\
        Copy (x :: opn) m' c' /\ pair_at m' (memo c') x y /\ cells c' y = Some (mkn all') /\ Forall2 (sameA (pair_at m' (memo c'))) all all'.

    Lemma batches_ok ls : forall pre m its m', Forall (fun l => Forall okv (fl l)) ls -> batches sv opb (map fl ls) m = Some (its, m') -> all = pre ++ List.concat ls ->
      forall opn c y pre', Forall2 (sameA (pair_at m (memo c))) pre pre' -> filled opn m m' (ops its) c y pre'.
    Proof.
      induction ls as [|l ls IH]; intros pre m its m' Hok E Ha opn c y pre' Hf Hst C Hp Hy; cbn [map batches List.concat] in *.
      - injection E as <- <-. rewrite app_nil_r in Ha. subst pre. exists c, pre'. split; [reflexivity|]. split; [reflexivity|]. split; [reflexivity|].
        split; [split; [lia|]; split; [auto|]; exists []; now rewrite app_nil_r|]. split; [exists []; now rewrite app_nil_r|]. auto.
      - apply Forall_inv_tail in Hok as Hok'. apply Forall_inv in Hok as Hl. clear Hok.
        destruct (saves sv (fl l) m) as [[a m1]|] eqn:E1; [|discriminate]. destruct (batches sv opb (map fl ls) m1) as [[b m2]|] eqn:E2; [|discriminate]. injection E as <- <-.
        set (c0 := mkMach [] (stk c :: below c) (cells c) (fresh_id c) (memo c)).
        assert (C0 : Copy (x :: opn) m c0) by (constructor; apply C).
        destruct (one_batch opn m m1 a l pre (List.concat ls) c0 y (tl (stk c)) (below c) pre' [] Hl E1 Ha C0 Hp Hy Hf)
          as (c1 & l' & X1 & S1 & B1 & (t1 & M1) & C1 & T1 & Hp1 & Hy1 & Fl & Fp & G1).
        set (c2 := mkMach (PRef y :: tl (stk c)) (below c) (set_cell (cells c1) y (mkn (pre' ++ l'))) (fresh_id c1) (memo c1)) in *.
        assert (X2 : exec limit opb c1 = Some c2).
        { cbn [c0 below stk] in *. rewrite (opb_is (stk c) (below c)) by exact B1. rewrite S1, app_nil_r, rev_involutive, Hst. exact G1. }
        assert (C2 : Copy (x :: opn) m1 c2) by (apply (copy_change opn m1 c1 c2 x y (mkn (pre' ++ l'))); auto).
        destruct (IH (pre ++ l) m1 b m2 Hok' E2) with (opn := opn) (c := c2) (y := y) (pre' := pre' ++ l') as (c3 & all' & X3 & S3 & B3 & G3 & (t3 & M3) & C3 & Hp3 & Hy3 & F3).
        + now rewrite <- app_assoc.
        + apply Forall2_app; auto.
        + reflexivity.
        + exact C2.
        + exact Hp1.
        + cbn [c2 cells]. unfold set_cell. now rewrite Nat.eqb_refl.
        + exists c3, all'. change (ops (Op OMark :: a ++ Op opb :: b)) with (OMark :: ops (a ++ Op opb :: b)). rewrite ops_app.
          change (ops (Op opb :: b)) with (opb :: ops b). cbn [execs exec]. fold c0. rewrite execs_app, X1. cbn [execs]. rewrite X2.
          split; [exact X3|]. split; [rewrite S3; cbn; now rewrite <- Hst|]. split; [rewrite B3; reflexivity|].
          split; [|split; [exists (t1 ++ t3); now rewrite M3, M1, app_assoc|auto]].
          destruct T1 as (T1a & T1b & w1 & Ew1), G3 as (G3a & G3b & w3 & Ew3). cbn [c0 c2 fresh_id cells memo] in *. split; [lia|]. split.
          * intros z Hz Hzy. rewrite G3b by (auto; lia). unfold set_cell. destruct (Nat.eqb_spec z y); [tauto|]. now apply T1b.
          * exists (w1 ++ w3). now rewrite Ew3, Ew1, app_assoc.
    Qed.
    Lemma single_ok e m its m' : Forall okv (fl [e]) -> single sv op1 (fl [e]) m = Some (its, m') -> all = [e] ->
      forall opn c y, filled opn m m' (ops its) c y [].
    Proof.
      intros Hok E Ha opn c y Hst C Hp Hy. unfold single in E. destruct (saves sv (fl [e]) m) as [[a m1]|] eqn:E1; [|discriminate]. injection E as <- <-.
      destruct (one_batch opn m m1 a [e] [] [] c y (tl (stk c)) (below c) [] [] Hok E1) as (c1 & l' & X1 & S1 & B1 & (t1 & M1) & C1 & T1 & Hp1 & Hy1 & Fl & Fp & G1); auto.
      inversion Fl as [|? e' ? ? Fe Fn]; subst. inversion Fn; subst.
      set (c2 := mkMach (PRef y :: tl (stk c)) (below c) (set_cell (cells c1) y (mkn ([] ++ [e']))) (fresh_id c1) (memo c1)) in *.
      exists c2, [e']. rewrite ops_app, execs_app, X1. cbn [ops flat_map app execs]. rewrite (op1_is e' (stk c) c1 S1), B1, Hst, G1. split; [reflexivity|].
      split; [now rewrite Hst|]. split; [reflexivity|]. destruct T1 as (T1a & T1b & w & Ew). split.
      - split; [exact T1a|]. split; [|now exists w]. intros z Hz Hzy. cbn [c2 cells]. unfold set_cell. destruct (Nat.eqb_spec z y); [tauto|]. now apply T1b.
      - split; [now exists t1|]. split; [apply (copy_change opn (m ++ t1) c1 c2 x y (mkn ([] ++ [e']))); auto|]. split; [exact Hp1|].
        split; [cbn [c2 cells]; unfold set_cell; now rewrite Nat.eqb_refl|exact Fl].
    Qed.
  End Fill.
    Lemma none_ok A (sameA : (nat -> nat -> Prop) -> A -> A -> Prop) mkn x opn m c y : filled A sameA mkn x [] opn m m [] c y [].
    Proof.
      intros Hst C Hp Hy. exists c, []. cbn. split; [reflexivity|]. split; [reflexivity|]. split; [reflexivity|].
      split; [split; [lia|]; split; [auto|]; exists []; now rewrite app_nil_r|]. split; [exists []; now rewrite app_nil_r|]. auto.
    Qed.

  (** A container made, memoized and filled. *)
  Lemma container_ok A (sameA : (nat -> nat -> Prop) -> A -> A -> Prop) mkn opn m m' x all os :
    ~ In x m -> h x = Some (mkn all) -> (forall l, mutable (mkn l)) ->
    (forall (R : nat -> nat -> Prop) l l', Forall2 (sameA R) l l' -> same_node R (mkn l) (mkn l')) ->
    (forall c y, filled A sameA mkn x all opn (m ++ [x]) m' os c y []) ->
    saved opn [PRef x] (ONew (mkn []) :: OMemoize :: os) m m'.
  Proof.
    intros Hx Hn Hm Hsn Hfill c C. cbn [execs exec alloc stk].
    set (c1 := mkMach (PRef (fresh_id c) :: stk c) (below c) (set_cell (cells c) (fresh_id c) (mkn [])) (S (fresh_id c)) (memo c ++ [PRef (fresh_id c)])).
    change (mkMach _ _ _ _ _) with c1.
    assert (C1 : Copy (x :: opn) (m ++ [x]) c1).
    { apply (copy_push opn (x :: opn) m c c1 x (mkn all) (mkn [])); auto. intro Hi. destruct Hi. now left. }
    assert (Hp : pair_at (m ++ [x]) (memo c1) x (fresh_id c)) by (eapply pair_last; eauto).
    destruct (Hfill c1 (fresh_id c)) as (c2 & all' & X2 & S2 & B2 & (G1 & G2 & w & Ew) & (t & Et) & C2 & Hp2 & Hy2 & F2); auto.
    { cbn [c1 cells]. unfold set_cell. now rewrite Nat.eqb_refl. }
    exists c2, [PRef (fresh_id c)]. split; [exact X2|]. split; [rewrite S2; reflexivity|]. split; [rewrite B2; reflexivity|].
    split; [|split; [exists (x :: t); rewrite Et, <- app_assoc; reflexivity|split]].
    - cbn [c1 fresh_id cells memo] in *. split; [lia|]. split.
      + intros y Hy. rewrite G2 by lia. unfold set_cell. destruct (Nat.eqb_spec y (fresh_id c)); [lia|reflexivity].
      + exists (PRef (fresh_id c) :: w). rewrite Ew, <- app_assoc. reflexivity.
    - eapply copy_close; eauto.
    - constructor; [|constructor]. constructor. exact Hp2.
  Qed.

  Lemma pops_ok : forall vs s c, stk c = rev vs ++ s -> execs limit (repeat OPop (List.length vs)) c = Some (mkMach s (below c) (cells c) (fresh_id c) (memo c)).
  Proof.
    intros vs s c. rewrite <- (rev_length vs). generalize (rev vs). intro l. revert c. induction l as [|v l IH]; intros c E; cbn [List.length repeat execs].
    - cbn in E. subst s. now destruct c.
    - cbn [exec]. rewrite E. cbn [app]. rewrite IH; reflexivity.
  Qed.
  Lemma ops_pops n : ops (repeat (Op OPop) n) = repeat OPop n.
  Proof. induction n; cbn; [reflexivity|]. now f_equal. Qed.

  Lemma Forall2_len A B (Q : A -> B -> Prop) l r : Forall2 Q l r -> List.length l = List.length r.
  Proof. induction 1; cbn; congruence. Qed.
  Lemma tuple_ok sv (Hsv : forall v m its m', okv v -> sv v m = Some (its, m') -> forall opn, saved opn [v] (ops its) m m') x l m its m' opn :
    h x = Some (NTup l) -> l <> [] -> Forall okv l -> save_tuple sv x l m = Some (its, m') -> saved opn [PRef x] (ops its) m m'.
  Proof.
    intros Hx Hne Hl E c C. unfold save_tuple in E. destruct (saves sv l m) as [[a m1]|] eqn:E1; [|discriminate].
    destruct (Nat.leb_spec (List.length l) 3) as [H3|H3].
    - destruct (saves_ok sv Hsv _ _ _ _ Hl E1 opn c C) as (c1 & vs & X1 & S1 & B1 & T1 & (t1 & M1) & C1 & F1). pose proof (Forall2_len _ _ _ _ _ F1) as HL.
      destruct (index_of x m1) as [k|] eqn:Ek; injection E as <- <-.
      + apply index_of_some in Ek. destruct (c_at _ _ _ C1 k x Ek) as (y & n & Em & Hy & En & Hc).
        exists (mkMach (PRef y :: stk c) (below c1) (cells c1) (fresh_id c1) (memo c1)), [PRef y].
        rewrite ops_app, execs_app, X1, ops_app, ops_pops, HL, execs_app, (pops_ok vs (stk c) c1 S1). cbn [ops flat_map app execs exec memo]. rewrite Em. cbn [below cells fresh_id].
        split; [reflexivity|]. split; [reflexivity|]. split; [exact B1|]. split; [exact T1|]. split; [now exists t1|]. split; [constructor; apply C1|].
        repeat constructor. exists k. auto.
      + apply index_of_none in Ek.
        set (c2 := mkMach (PRef (fresh_id c1) :: stk c) (below c1) (set_cell (cells c1) (fresh_id c1) (NTup vs)) (S (fresh_id c1)) (memo c1 ++ [PRef (fresh_id c1)])).
        exists c2, [PRef (fresh_id c1)]. rewrite !ops_app, !execs_app, X1. cbn [ops flat_map app execs exec]. rewrite S1.
        assert (Hle : (List.length l <=? List.length (rev vs ++ stk c))%nat = true) by (apply Nat.leb_le; rewrite app_length, rev_length; lia). rewrite Hle.
        assert (HF : firstn (List.length l) (rev vs ++ stk c) = rev vs) by (rewrite HL, <- (rev_length vs), firstn_app, Nat.sub_diag, firstn_all, firstn_O, app_nil_r; reflexivity).
        assert (HS : skipn (List.length l) (rev vs ++ stk c) = stk c) by (rewrite HL, <- (rev_length vs), skipn_app, Nat.sub_diag, skipn_all; reflexivity).
        rewrite HF, HS, rev_involutive. cbn [alloc stk below cells fresh_id memo].
        split; [reflexivity|]. split; [reflexivity|]. split; [exact B1|]. split.
        { eapply ext_trans; [exact T1|]. split; [cbn; lia|]. split; [|now exists [PRef (fresh_id c1)]]. intros z Hz. cbn [c2 cells]. unfold set_cell.
          destruct (Nat.eqb_spec z (fresh_id c1)); [lia|reflexivity]. }
        split; [exists (t1 ++ [x]); now rewrite M1, app_assoc|]. split.
        { apply (copy_push opn opn m1 c1 c2 x (NTup l) (NTup vs)); auto. intros _. constructor. eapply Forall2_mono; [|exact F1]. intros p q. apply same_pv_mono.
          intros u v. apply pair_more. }
        repeat constructor. eapply pair_last; eauto.
    - set (c0 := mkMach [] (stk c :: below c) (cells c) (fresh_id c) (memo c)). assert (C0 : Copy opn m c0) by (constructor; apply C).
      destruct (saves_ok sv Hsv _ _ _ _ Hl E1 opn c0 C0) as (c1 & vs & X1 & S1 & B1 & T1 & (t1 & M1) & C1 & F1). pose proof (Forall2_len _ _ _ _ _ F1) as HL.
      cbn [c0 stk below] in S1, B1. rewrite app_nil_r in S1.
      destruct (index_of x m1) as [k|] eqn:Ek; injection E as <- <-.
      + apply index_of_some in Ek. destruct (c_at _ _ _ C1 k x Ek) as (y & n & Em & Hy & En & Hc).
        exists (mkMach (PRef y :: stk c) (below c) (cells c1) (fresh_id c1) (memo c1)), [PRef y].
        change (ops (Op OMark :: a ++ [Op OPopMark; Op (OGet k)])) with (OMark :: ops (a ++ [Op OPopMark; Op (OGet k)])). rewrite ops_app. cbn [execs exec]. fold c0.
        rewrite execs_app, X1. cbn [ops flat_map app execs exec]. rewrite B1. cbn [memo]. rewrite Em. cbn [stk below cells fresh_id].
        split; [reflexivity|]. split; [reflexivity|]. split; [reflexivity|]. split; [exact T1|]. split; [now exists t1|]. split; [constructor; apply C1|].
        repeat constructor. exists k. auto.
      + apply index_of_none in Ek.
        set (c2 := mkMach (PRef (fresh_id c1) :: stk c) (below c) (set_cell (cells c1) (fresh_id c1) (NTup vs)) (S (fresh_id c1)) (memo c1 ++ [PRef (fresh_id c1)])).
        exists c2, [PRef (fresh_id c1)].
        change (ops (Op OMark :: a ++ [Op OTuple; Op OMemoize])) with (OMark :: ops (a ++ [Op OTuple; Op OMemoize])). rewrite ops_app. cbn [execs exec]. fold c0.
        rewrite execs_app, X1. cbn [ops flat_map app execs exec]. rewrite B1, S1.
        destruct (rev vs) as [|v0 r0] eqn:Er; [apply (f_equal (@List.length pv)) in Er; rewrite rev_length in Er; cbn in Er; lia|]. rewrite <- Er, rev_involutive.
        cbn [alloc stk below cells fresh_id memo].
        split; [reflexivity|]. split; [reflexivity|]. split; [reflexivity|]. split.
        { eapply (ext_trans c c1); [exact T1|]. split; [cbn; lia|]. split; [|now exists [PRef (fresh_id c1)]]. intros z Hz. cbn [c2 cells]. unfold set_cell.
          destruct (Nat.eqb_spec z (fresh_id c1)); [lia|reflexivity]. }
        split; [exists (t1 ++ [x]); now rewrite M1, app_assoc|]. split.
        { apply (copy_push opn opn m1 c1 c2 x (NTup l) (NTup vs)); auto. intros _. constructor. eapply Forall2_mono; [|exact F1]. intros p q. apply same_pv_mono.
          intros u v. apply pair_more. }
        repeat constructor. eapply pair_last; eauto.
  Qed.

  (** ** Lists and dictionaries *)
  Lemma list_fl_inv (R : nat -> nat -> Prop) l vs' : Forall2 (same_pv R) ((fun l => l) l) vs' -> exists l', vs' = l' /\ Forall2 (same_pv R) l l'.
  Proof. intro H. now exists vs'. Qed.
  Lemma dict_fl_inv (R : nat -> nat -> Prop) d vs' : Forall2 (same_pv R) (flat d) vs' -> exists d', vs' = flat d' /\ Forall2 (same_kv R) d d'.
  Proof.
    revert vs'. induction d as [|[k v] d IH]; intros vs' H; cbn in H.
    - inversion H; subst. exists []. auto.
    - inversion H as [|? k' ? r1 Hk H1]; subst. inversion H1 as [|? v' ? r2 Hv H2]; subst. destruct (IH _ H2) as (d' & -> & Hd).
      exists ((k', v') :: d'). split; [reflexivity|]. constructor; [split; auto|auto].
  Qed.
  Lemma list_grow x all opn m c y s0 b pre vs more (pre' vs' : list pv) :
    Copy opn m c -> pair_at m (memo c) x y -> all = pre ++ vs ++ more -> cells c y = Some (NList pre') ->
    Forall2 (same_pv (pair_at m (memo c))) pre pre' -> Forall2 (same_pv (pair_at m (memo c))) vs vs' ->
    extend limit true vs' (PRef y :: s0) b c = Some (mkMach (PRef y :: s0) b (set_cell (cells c) y (NList (pre' ++ vs'))) (fresh_id c) (memo c)).
  Proof. intros C Hp Ha Hy _ _. unfold extend. now rewrite Hy. Qed.
  Lemma keys_copy opn m c d d' ks : Copy opn m c -> Forall2 (as_key h limit) (map fst d) ks -> Forall2 (same_kv (pair_at m (memo c))) d d' ->
    Forall2 (fun kv t => key_of limit (cells c) (fst kv) = Some t) d' (map tok ks).
  Proof.
    intros C Hk Hs. revert ks Hk. induction Hs as [|a b d d' [Hab _] Hs IH]; intros ks Hk; inversion Hk; subst; cbn; constructor; auto.
    eapply as_key_copy; eauto.
  Qed.
  Lemma dict_grow x all opn m c y s0 b pre vs more (pre' vs' : list (pv * pv)) : P x -> h x = Some (NDict all) ->
    Copy opn m c -> pair_at m (memo c) x y -> all = pre ++ vs ++ more -> cells c y = Some (NDict pre') ->
    Forall2 (same_kv (pair_at m (memo c))) pre pre' -> Forall2 (same_kv (pair_at m (memo c))) vs vs' ->
    extend limit false (flat vs') (PRef y :: s0) b c = Some (mkMach (PRef y :: s0) b (set_cell (cells c) y (NDict (pre' ++ vs'))) (fresh_id c) (memo c)).
  Proof.
    intros Px Hx C Hp Ha Hy H1 H2. unfold extend. rewrite Hy. pose proof (P_node _ Px) as Hn. rewrite Hx in Hn. destruct Hn as (ks & Hk & Hd).
    rewrite Ha, !map_app in Hk. apply Forall2_app_inv_l in Hk as (k1 & k23 & Hk1 & Hk23 & ->). apply Forall2_app_inv_l in Hk23 as (k2 & k3 & Hk2 & _ & ->).
    rewrite (set_items_new limit (cells c) vs' pre' (map tok k1) (map tok k2)); [reflexivity|eapply keys_copy; eauto..|].
    rewrite <- map_app. apply tok_nodup. rewrite app_assoc in Hd. clear - Hd. induction (k1 ++ k2) as [|k l IH]; cbn in *; constructor; inversion Hd; subst; auto.
    intro Hi. apply H1. apply in_app_iff. auto.
  Qed.
  Lemma children_ok x n l : P x -> h x = Some n -> (forall w, In w l -> In w (children n)) -> Forall okv l.
  Proof. intros Px Hx Hl. apply Forall_forall. intros w Hw. eapply P_child; eauto. Qed.
  Lemma in_flat w d : In w (flat d) -> In w (children (NDict d)).
  Proof.
    cbn [children]. rewrite in_app_iff. induction d as [|[k v] d IH]; cbn; [tauto|]. intros [<-|[<-|H]]; [tauto|tauto|]. destruct (IH H); tauto.
  Qed.
  Lemma batch_pos : 0 < batch_size. Proof. unfold batch_size. lia. Qed.
  Lemma chunks_in A (Q : A -> Prop) ls : Forall Q (List.concat ls) -> Forall (Forall Q) ls.
  Proof. induction ls as [|l ls IH]; cbn; [constructor|]. intro H. apply Forall_app in H as [H1 H2]. constructor; auto. Qed.
  Lemma flat_app a b : flat (a ++ b) = flat a ++ flat b. Proof. apply flat_map_app. Qed.
  Lemma flat_concat ls : flat (List.concat ls) = List.concat (map flat ls).
  Proof. induction ls as [|l ls IH]; cbn [List.concat map]; [reflexivity|]. now rewrite flat_app, IH. Qed.

  Lemma leaf_ok opn m x n : ~ In x m -> h x = Some n -> (forall R, same_node R n n) -> saved opn [PRef x] [ONew n; OMemoize] m (m ++ [x]).
  Proof.
    intros Hx Hn Hs c C.
    exists (mkMach (PRef (fresh_id c) :: stk c) (below c) (set_cell (cells c) (fresh_id c) n) (S (fresh_id c)) (memo c ++ [PRef (fresh_id c)])), [PRef (fresh_id c)].
    split; [reflexivity|]. split; [reflexivity|]. split; [reflexivity|]. split.
    { split; [cbn; lia|]. split; [|now eexists]. intros z Hz. cbn [cells]. unfold set_cell. destruct (Nat.eqb_spec z (fresh_id c)); [lia|reflexivity]. }
    split; [now exists [x]|]. split; [apply (copy_push opn opn m c _ x n n); auto|]. constructor; [|constructor]. constructor. cbn [memo]. eapply pair_last; eauto.
  Qed.

  Lemma append_is (a : pv) s c : stk c = rev [a] ++ s -> exec limit OAppend c = extend limit true [a] s (below c) c.
  Proof. cbn [rev app exec]. intro E. now rewrite E. Qed.
  Lemma appends_is s b c : below c = s :: b -> exec limit OAppends c = extend limit true (rev (stk c)) s b c.
  Proof. cbn [exec]. intro E. now rewrite E. Qed.
  Lemma setitem_is a s c : stk c = rev (flat [a]) ++ s -> exec limit OSetItem c = extend limit false (flat [a]) s (below c) c.
  Proof. destruct a. cbn [flat flat_map rev app fst snd exec]. intro E. now rewrite E. Qed.
  Lemma setitems_is s b c : below c = s :: b -> exec limit OSetItems c = extend limit false (rev (stk c)) s b c.
  Proof. cbn [exec]. intro E. now rewrite E. Qed.

  Lemma save_ok : forall f v m its m', okv v -> save f h v m = Some (its, m') -> forall opn, saved opn [v] (ops its) m m'.
  Proof.
    induction f as [|f IH]; intros v m its m' Hv E opn; [discriminate|]. cbn [save] in E.
    assert (Hatom : (forall x, v <> PRef x) -> Some ([Bound; Op (OPush v)], m) = Some (its, m') -> saved opn [v] (ops its) m m').
    { intros Hn [= <- <-] c C. exists (mkMach (v :: stk c) (below c) (cells c) (fresh_id c) (memo c)), [v]. cbn. split; [reflexivity|]. split; [reflexivity|]. split; [reflexivity|].
      split; [exact (ext_refl c)|]. split; [exists []; now rewrite app_nil_r|]. split; [constructor; apply C|]. constructor; [|constructor].
      destruct v; try constructor. now destruct (Hn x). }
    destruct v as [| | | | |x]; try (apply Hatom; [intros; discriminate|exact E]). clear Hatom.
    assert (Px : P x) by now apply Hv. destruct (index_of x m) as [k|] eqn:Ek.
    - injection E as <- <-. apply index_of_some in Ek. intros c C. destruct (c_at _ _ _ C k x Ek) as (y & n & Em & Hy & En & Hc).
      exists (mkMach (PRef y :: stk c) (below c) (cells c) (fresh_id c) (memo c)), [PRef y]. cbn. rewrite Em. split; [reflexivity|]. split; [reflexivity|]. split; [reflexivity|].
      split; [exact (ext_refl c)|]. split; [exists []; now rewrite app_nil_r|]. split; [constructor; apply C|]. repeat constructor. exists k. auto.
    - apply index_of_none in Ek. destruct (h x) as [[s|b|l|l|d]|] eqn:Ex; [| | | | |discriminate].
      1, 2: injection E as <- <-; apply (leaf_ok opn m x _ Ek Ex); constructor.
      + destruct (save_list (save f h) l (m ++ [x])) as [[a m1]|] eqn:El; [|discriminate]. injection E as <- <-.
        assert (Hok : Forall okv l) by (eapply children_ok; eauto; cbn; auto).
        apply (container_ok pv same_pv NList opn m m1 x l (ops a)); auto; [exact (fun _ => I)|intros; now constructor|].
        intros c y. unfold save_list in El. destruct l as [|v1 [|v2 l]].
        * injection El as <- <-. apply none_ok.
        * eapply (single_ok pv same_pv (fun l => l) NList true OAppend same_pv_mono list_fl_inv append_is x [v1] (list_grow x [v1]) (save f h) IH); [exact Hok|exact El|reflexivity].
        * rewrite <- (map_id (chunk _ _ _)) in El. set (l0 := v1 :: v2 :: l) in *.
          eapply (batches_ok pv same_pv (fun l => l) NList true OAppend OAppends same_pv_mono list_fl_inv append_is appends_is x l0 (list_grow x l0) (save f h) IH); [|exact El| |constructor].
          -- apply chunks_in. rewrite concat_chunk by (auto using batch_pos). exact Hok.
          -- rewrite concat_chunk by (auto using batch_pos). reflexivity.
      + destruct (save_tuple (save f h) x l m) as [[a m1]|] eqn:El; [|discriminate]. injection E as <- <-.
        apply (tuple_ok (save f h) IH x l m a m1 opn); auto.
        * pose proof (P_node _ Px) as Hn. rewrite Ex in Hn. intros ->. exact Hn.
        * eapply children_ok; eauto; cbn; auto.
      + destruct (save_dict (save f h) d (m ++ [x])) as [[a m1]|] eqn:El; [|discriminate]. injection E as <- <-.
        assert (Hok : Forall okv (flat d)) by (apply (children_ok x (NDict d)); [exact Px|exact Ex|intro w; apply in_flat]).
        apply (container_ok (pv * pv) same_kv NDict opn m m1 x d (ops a)); auto; [exact (fun _ => I)|intros; now constructor|].
        intros c y. unfold save_dict in El. destruct d as [|[k1 v1] [|kv2 d]].
        * injection El as <- <-. apply none_ok.
        * eapply (single_ok (pv * pv) same_kv flat NDict false OSetItem same_kv_mono dict_fl_inv setitem_is x [(k1, v1)]
            (fun o m0 c0 y0 s0 b pre vs more pre' vs' => dict_grow x [(k1, v1)] o m0 c0 y0 s0 b pre vs more pre' vs' Px Ex) (save f h) IH); [exact Hok|exact El|reflexivity].
        * set (d0 := (k1, v1) :: kv2 :: d) in *. eapply (batches_ok (pv * pv) same_kv flat NDict false OSetItem OSetItems same_kv_mono dict_fl_inv setitem_is setitems_is x d0
            (fun o m0 c0 y0 s0 b pre vs more pre' vs' => dict_grow x d0 o m0 c0 y0 s0 b pre vs more pre' vs' Px Ex) (save f h) IH); [|exact El| |constructor].
          -- apply Forall_map. apply chunks_in. rewrite <- flat_concat, concat_chunk by (auto using batch_pos). exact Hok.
          -- rewrite concat_chunk by (auto using batch_pos). reflexivity.
  Qed.
End Copy.
