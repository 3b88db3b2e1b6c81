(** Aggregated Series, and sets of rows. *)
From Verif Require Export Frame_Proofs.
Open Scope nat_scope.

(** ** squeeze *)

Section Squeeze.
  Context {L V : Type} (lleb leqb : L -> L -> bool) (lnull : L -> bool) (vnull : V -> bool).
  Context (O : total_order lleb leqb).

  Lemma leqb_refl a : leqb a a = true.
  Proof. now apply (t_eq _ _ O). Qed.
  Lemma insert_in k l : increasing lleb l -> forall x, In x (insert_label lleb leqb k l) <-> x = k \/ In x l.
  Proof.
    induction l as [|h r IH]; intros S x; cbn [insert_label].
    - cbn. intuition.
    - inversion S; subst. destruct (leqb k h) eqn:E.
      + apply (t_eq _ _ O) in E. subst. cbn. intuition.
      + destruct (lleb k h); [cbn; intuition|]. cbn. rewrite (IH H1). intuition.
  Qed.
  Lemma insert_increasing k l : increasing lleb l -> increasing lleb (insert_label lleb leqb k l).
  Proof.
    induction l as [|h r IH]; intro S; cbn [insert_label].
    - constructor; constructor.
    - assert (S' := S). inversion S'; subst. destruct (leqb k h) eqn:E; [exact S|].
      assert (N : k <> h). { intros ->. rewrite leqb_refl in E. discriminate. }
      destruct (lleb k h) eqn:F.
      + constructor; [exact S|]. constructor; [auto|]. rewrite Forall_forall in *. intros y Hy.
        destruct (H2 y Hy) as [A B]. split; [eapply (t_trans _ _ O); eauto|].
        intros ->. apply B. apply (t_anti _ _ O); auto.
      + constructor; [apply IH, H1|]. apply Forall_forall. intros y Hy. apply insert_in in Hy; [|exact H1].
        destruct Hy as [->|Hy].
        * split; [|auto]. destruct (t_total _ _ O h k); [auto|congruence].
        * rewrite Forall_forall in H2. auto.
  Qed.
  Lemma groups_from s : forall acc, increasing lleb acc ->
    let g := fold_left (fun acc (p : L * V) => if lnull (fst p) then acc else insert_label lleb leqb (fst p) acc) s acc in
    increasing lleb g /\ forall k, In k g <-> In k acc \/ (lnull k = false /\ exists x, In (k, x) s).
  Proof.
    induction s as [|p s IH]; intros acc S; cbn [fold_left].
    - split; [exact S|]. intro k. split; [auto|]. intros [H|[_ [x []]]]; exact H.
    - destruct (lnull (fst p)) eqn:E.
      + destruct (IH acc S) as [A B]. split; [exact A|]. intro k. rewrite B. split.
        * intros [H|[H [x I]]]; [auto|]. right. split; [exact H|]. exists x. now right.
        * intros [H|[H [x [I|I]]]]; [auto| |].
          -- subst p. cbn in E. congruence.
          -- right. split; [exact H|]. exists x. exact I.
      + destruct (IH _ (insert_increasing (fst p) acc S)) as [A B]. split; [exact A|]. intro k. rewrite B, (insert_in _ _ S). split.
        * intros [[->|H]|[H [x I]]]; [|auto|].
          -- right. split; [exact E|]. exists (snd p). left. now destruct p.
          -- right. split; [exact H|]. exists x. now right.
        * intros [H|[H [x [I|I]]]]; [auto| |].
          -- subst p. cbn. auto.
          -- right. split; [exact H|]. exists x. exact I.
  Qed.
  Lemma increasing_filter {B} (f : L * B -> bool) (l : list (L * B)) : increasing lleb (map fst l) -> increasing lleb (map fst (filter f l)).
  Proof.
    induction l as [|p l IH]; intro S; [exact S|]. cbn [map] in S. inversion S; subst. cbn [filter].
    destruct (f p); [|auto]. cbn [map]. constructor; [apply IH; assumption|]. rewrite Forall_forall in *. intros y Hy. apply H2.
    apply in_map_iff in Hy. destruct Hy as [q [<- Hq]]. apply filter_In in Hq. apply in_map. tauto.
  Qed.
  Lemma squeeze_agg_ok agg s :
    increasing lleb (map fst (squeeze_agg lleb leqb lnull vnull agg s)) /\
    forall k v, In (k, v) (squeeze_agg lleb leqb lnull vnull agg s) <->
      lnull k = false /\ (exists x, In (k, x) s) /\ vnull v = false /\
      exists a b, sorted_out (fun p => fst p = k) s a b /\ v = agg (map snd a).
  Proof.
    unfold squeeze_agg. destruct (groups_from s [] ltac:(constructor)) as [A B]. fold (group_labels lleb leqb lnull s) in A, B.
    split.
    - apply increasing_filter. rewrite map_map. cbn. rewrite map_id. exact A.
    - intros k v. rewrite filter_In, in_map_iff. cbn [snd].
      assert (S : sorted_out (fun p : L * V => fst p = k) s (filter (fun p => leqb (fst p) k) s) (filter (fun p => negb (leqb (fst p) k)) s)).
      { apply sorted_out_filter. intros p _. apply (t_eq _ _ O). }
      split.
      + intros [[k' [E H]] N]. injection E as -> <-. apply B in H. destruct H as [[]|[H1 H2]].
        split; [exact H1|]. split; [exact H2|]. split; [now apply negb_true_iff|]. eexists _, _. split; [exact S|reflexivity].
      + intros (H1 & H2 & N & a & b & S' & ->). destruct (sorted_out_det _ _ _ _ S _ _ S') as [-> _]. split.
        * exists k. split; [reflexivity|]. apply B. auto.
        * now rewrite N.
  Qed.
End Squeeze.
Lemma squeeze_bool_ok {L} (lleb leqb : L -> L -> bool) (lnull : L -> bool) (O : total_order lleb leqb) (s : list (L * bool)) :
  increasing lleb (map fst (squeeze_bool lleb leqb lnull s)) /\
  forall k v, In (k, v) (squeeze_bool lleb leqb lnull s) <->
    lnull k = false /\ (exists x, In (k, x) s) /\ (v = true <-> In (k, true) s).
Proof.
  unfold squeeze_bool.
  destruct (squeeze_agg_ok lleb leqb lnull (fun _ => false) O (existsb (fun b => b)) s) as [A B]. split; [exact A|].
  intros k v. rewrite B.
  assert (X : forall a b, sorted_out (fun p : L * bool => fst p = k) s a b -> (existsb (fun b => b) (map snd a) = true <-> In (k, true) s)).
  { intros a b S. rewrite existsb_exists. split.
    - intros [x [Hx ->]]. apply in_map_iff in Hx. destruct Hx as [[k' v'] [E Hx]]. cbn in E. subst v'.
      apply (sorted_out_in _ _ _ _ S) in Hx. cbn in Hx. destruct Hx as [Hx ->]. exact Hx.
    - intro H. exists true. split; [|reflexivity]. apply in_map_iff. exists (k, true). split; [reflexivity|].
      clear -S H. induction S as [|y l a b P S IH|y l a b P S IH]; [destruct H| |].
      + destruct H as [->|H]; [now left|right; auto].
      + destruct H as [->|H]; [exfalso; now apply P|auto]. }
  split.
  - intros (H1 & H2 & _ & a & b & S & ->). split; [exact H1|]. split; [exact H2|]. eapply X, S.
  - intros (H1 & H2 & H3). split; [exact H1|]. split; [exact H2|]. split; [reflexivity|].
    assert (S : sorted_out (fun p : L * bool => fst p = k) s (filter (fun p => leqb (fst p) k) s) (filter (fun p => negb (leqb (fst p) k)) s)).
    { apply sorted_out_filter. intros p _. apply (t_eq _ _ O). }
    eexists _, _. split; [exact S|]. apply X in S. destruct v, (existsb _ _); try reflexivity; exfalso; intuition; discriminate.
Qed.

(** ** Rows of some columns *)

Section Rows.
  Context {cell : Type}.
  Context (isna : cell -> bool) (ceq : cell -> cell -> bool).
  Context (C : cells isna ceq).
  Implicit Types (df : frame cell) (r a b : list cell).

  Lemma same_sym a b : same_row ceq a b -> same_row ceq b a.
  Proof. induction 1; constructor; auto. now rewrite (c_sym _ _ C). Qed.
  Lemma same_trans a b : same_row ceq a b -> forall c, same_row ceq b c -> same_row ceq a c.
  Proof.
    induction 1 as [|x y a b H F IH]; intros c G; inversion G; subst; constructor.
    - eapply (c_trans _ _ C); eauto.
    - now apply IH.
  Qed.
  Lemma same_full a b : same_row ceq a b -> full_row isna a.
  Proof.
    induction 1 as [|x y a b H F IH]; constructor; auto.
    assert (E : ceq x x = true) by (eapply (c_trans _ _ C); [exact H|now rewrite (c_sym _ _ C)]).
    rewrite (c_refl _ _ C) in E. now apply negb_true_iff.
  Qed.
  Lemma full_same r : full_row isna r -> same_row ceq r r.
  Proof. induction 1; constructor; auto. rewrite (c_refl _ _ C), H. reflexivity. Qed.
  Lemma row_eqb_ok a b : row_eqb ceq a b = true <-> same_row ceq a b.
  Proof.
    revert b; induction a as [|x a IH]; intros [|y b]; cbn; split; intro H; try discriminate; try solve [constructor]; try solve [inversion H].
    - apply andb_true_iff in H. constructor; [tauto|]. now apply IH.
    - inversion H; subst. apply andb_true_iff. split; [auto|]. now apply IH.
  Qed.
  Lemma row_in_ok r l : row_in ceq r l = true <-> has_row ceq l r.
  Proof.
    unfold row_in. rewrite existsb_exists. unfold has_row. split; intros [x [H G]]; exists x; (split; [exact H|]); now apply row_eqb_ok.
  Qed.
  Lemma row_in_same a b l : same_row ceq a b -> row_in ceq a l = row_in ceq b l.
  Proof.
    intro H. apply eq_true_iff_eq. rewrite !row_in_ok. split; intros [x [I S]]; exists x; (split; [exact I|]).
    - eapply same_trans; [apply same_sym, H|exact S].
    - eapply same_trans; [exact H|exact S].
  Qed.
  Lemma has_row_same a b l : same_row ceq a b -> (has_row ceq l a <-> has_row ceq l b).
  Proof. intro H. rewrite <- !row_in_ok, (row_in_same _ _ _ H). reflexivity. Qed.
  Lemma has_row_cons r x l : has_row ceq (x :: l) r <-> same_row ceq r x \/ has_row ceq l r.
  Proof.
    unfold has_row. split.
    - intros [y [[->|H] S]]; [auto|]. right. eauto.
    - intros [S|[y [H S]]]; eexists; (split; [|exact S]); [now left|now right].
  Qed.
  Lemma has_row_app r l m : has_row ceq (l ++ m) r <-> has_row ceq l r \/ has_row ceq m r.
  Proof.
    unfold has_row. split.
    - intros [y [H S]]. apply in_app_or in H. destruct H; [left|right]; eauto.
    - intros [[y [H S]]|[y [H S]]]; exists y; (split; [apply in_or_app; auto|exact S]).
  Qed.
  Lemma has_row_filter f l r : (forall a b, same_row ceq a b -> f a = f b) -> (has_row ceq (filter f l) r <-> has_row ceq l r /\ f r = true).
  Proof.
    intro F. unfold has_row. split.
    - intros [y [H S]]. apply filter_In in H. destruct H as [H G]. split; [eauto|]. rewrite (F _ _ S). exact G.
    - intros [[y [H S]] G]. exists y. split; [|exact S]. apply filter_In. split; [exact H|]. rewrite <- (F _ _ S). exact G.
  Qed.

  (** Distinct rows *)
  Lemma distinct_apart l : apart ceq (distinct ceq l).
  Proof.
    induction l as [|r l IH]; [constructor|]. cbn [distinct]. destruct (row_in ceq r (distinct ceq l)) eqn:E; [exact IH|].
    constructor; [|exact IH]. apply Forall_forall. intros x Hx S.
    assert (row_in ceq r (distinct ceq l) = true) by (apply row_in_ok; exists x; auto). congruence.
  Qed.
  Lemma distinct_has l r : has_row ceq (distinct ceq l) r <-> has_row ceq l r.
  Proof.
    induction l as [|x l IH]; [reflexivity|]. cbn [distinct]. destruct (row_in ceq x (distinct ceq l)) eqn:E.
    - rewrite has_row_cons, <- IH. split; [auto|]. intros [S|H]; [|exact H]. apply row_in_ok in E. now apply (has_row_same _ _ _ S).
    - rewrite !has_row_cons, IH. reflexivity.
  Qed.
  Lemma full_b r : forallb (fun v => negb (isna v)) r = true <-> full_row isna r.
  Proof.
    rewrite forallb_forall. unfold full_row. rewrite Forall_forall. split; intros H x Hx; specialize (H x Hx); now apply negb_true_iff.
  Qed.
  Lemma value_keys_ok l r : has_row ceq (value_keys isna ceq l) r <-> full_row isna r /\ has_row ceq l r.
  Proof.
    unfold value_keys. rewrite distinct_has. rewrite has_row_filter.
    - rewrite full_b. tauto.
    - intros a b S. apply eq_true_iff_eq. rewrite !full_b. split; intro; [eapply same_full, same_sym, S|eapply same_full, S].
  Qed.
  Lemma filter_apart f l : apart ceq l -> apart ceq (filter f l).
  Proof.
    induction 1 as [|x l H F IH]; [constructor|]. cbn. destruct (f x); [|exact IH]. constructor; [|exact IH].
    rewrite Forall_forall in *. intros y Hy. apply filter_In in Hy. apply H. tauto.
  Qed.
  Lemma app_apart l m : apart ceq l -> apart ceq m -> (forall x y, In x l -> In y m -> ~ same_row ceq x y) -> apart ceq (l ++ m).
  Proof.
    intros A B H. induction A as [|x l F A IH]; [exact B|]. cbn. constructor.
    - apply Forall_app. split; [exact F|]. apply Forall_forall. intros y Hy. apply H; [now left|exact Hy].
    - apply IH. intros y z Hy Hz. apply H; [now right|exact Hz].
  Qed.
  Lemma set_op_ok m (a b : list (list cell)) : m <> NoSuchMethod -> apart ceq a -> apart ceq b -> exists out, set_op ceq m a b = Ok out /\ apart ceq out /\
    forall r, has_row ceq out r <-> set_meaning m (has_row ceq a r) (has_row ceq b r).
  Proof.
    intros M A B.
    assert (N : forall l r, negb (row_in ceq r l) = true <-> ~ has_row ceq l r).
    { intros l r. rewrite negb_true_iff, <- not_true_iff_false, row_in_ok. reflexivity. }
    assert (F1 : forall l x y, same_row ceq x y -> row_in ceq x l = row_in ceq y l) by (intros; now apply row_in_same).
    assert (F2 : forall l x y, same_row ceq x y -> negb (row_in ceq x l) = negb (row_in ceq y l)) by (intros l x y S; now rewrite (F1 l x y S)).
    assert (X : forall x l y m', In x l -> In y (filter (fun r => negb (row_in ceq r l)) m') -> ~ same_row ceq x y).
    { intros x l y m' Hx Hy S. apply filter_In in Hy. destruct Hy as [_ Hy]. apply N in Hy. apply Hy. exists x. split; [exact Hx|]. now apply same_sym. }
    destruct m; [| | | |congruence]; (eexists; split; [reflexivity|]); cbn [set_meaning]; split.
    - now apply filter_apart.
    - intro r. rewrite has_row_filter by auto. rewrite N. reflexivity.
    - now apply filter_apart.
    - intro r. rewrite has_row_filter by auto. rewrite row_in_ok. reflexivity.
    - apply app_apart; [exact A|now apply filter_apart|]. intros x y Hx Hy. eapply X; eauto.
    - intro r. rewrite has_row_app, has_row_filter by auto. rewrite N. split; [tauto|].
      intros [H|H]; [auto|]. destruct (row_in ceq r a) eqn:E; [left; now apply row_in_ok|]. right. split; [exact H|]. rewrite <- N, E. reflexivity.
    - apply app_apart; [now apply filter_apart|now apply filter_apart|]. intros x y Hx Hy. apply filter_In in Hx. eapply X; [exact (proj1 Hx)|exact Hy].
    - intro r. rewrite has_row_app, !has_row_filter by auto. rewrite !N. reflexivity.
  Qed.

  (** Selected columns *)
  Lemma loc_found df n : distinct_labels (names df) -> key_in n (names df) = true ->
    exists c, find (labelled n) (columns df) = Some c /\ loc_name df n = [c].
  Proof.
    intros D H. apply key_in_true in H. destruct H as [x [Hx K]]. apply in_map_iff in Hx. destruct Hx as [c [<- Hc]].
    assert (F := distinct_find _ D _ Hc).
    assert (E : loc_name df n = [c]).
    { unfold loc_name. rewrite <- F. apply filter_ext. intro q. unfold labelled. apply keqb_r, K. }
    exists c. split; [|exact E].
    assert (G : forall (p : key * list cell -> bool) l x, filter p l = [x] -> find p l = Some x).
    { intros p l y. induction l as [|z l IH]; [discriminate|]. cbn. destruct (p z); [|exact IH]. intro Q. now injection Q as -> _. }
    apply G. exact E.
  Qed.
  Lemma loc_missing df n : key_in n (names df) = false -> loc_name df n = [].
  Proof.
    intro H. unfold loc_name. rewrite key_in_false in H. unfold names in H.
    induction (columns df) as [|c l IH]; [reflexivity|]. cbn [filter].
    rewrite keqb_sym, (H (fst c)) by now left. apply IH. intros x Hx. apply H. now right.
  Qed.
  Lemma columns_found df cols : distinct_labels (names df) -> Forall (fun n => key_in n (names df) = true) cols -> exists sel,
    Forall2 (fun n c => find (labelled n) (columns df) = Some c) cols sel /\
    mapM (fun n => match loc_name df n with [] => Exc KeyError | l => Ok l end) cols = Ok (map (fun c => [c]) sel).
  Proof.
    intros D. induction 1 as [|n cols H F IH].
    - exists []. split; [constructor|reflexivity].
    - destruct IH as [sel [A B]]. destruct (loc_found df n D H) as [c [E G]].
      exists (c :: sel). split; [constructor; auto|]. cbn [mapM]. rewrite G. cbn [bind]. rewrite B. reflexivity.
  Qed.
  Lemma concat_single {A} (l : list A) : List.concat (map (fun x => [x]) l) = l.
  Proof. induction l as [|x l IH]; [reflexivity|]. cbn. now rewrite IH. Qed.
  Lemma find_in_columns df n c : find (labelled n) (columns df) = Some c -> In c (columns df).
  Proof. intro H. now apply find_some in H. Qed.
  Lemma sel_row df cols sel i : rectangular df -> i < List.length (labels df) ->
    Forall2 (fun n c => find (labelled n) (columns df) = Some c) cols sel ->
    cells_at df cols i (somes (row {| labels := labels df; columns := sel |} i)).
  Proof.
    intros R H F. unfold row. cbn [columns]. induction F as [|n c cols sel E F IH]; [constructor|].
    cbn [map somes]. destruct (nth_error (snd c) i) as [v|] eqn:G.
    - constructor; [exists c; auto|exact IH].
    - exfalso. apply nth_error_None in G. unfold rectangular in R. rewrite Forall_forall in R.
      rewrite (R c (find_in_columns _ _ _ E)) in G. lia.
  Qed.
  Lemma cells_at_fun df cols i r : cells_at df cols i r -> forall r', cells_at df cols i r' -> r' = r.
  Proof.
    induction 1 as [|n v cols r H F IH]; intros r' G; inversion G; subst; [reflexivity|].
    destruct H as (c & E & N), H2 as (c' & E' & N'). rewrite E in E'. injection E' as <-. rewrite N in N'. injection N' as <-.
    f_equal. now apply IH.
  Qed.
  Lemma select_ok df cols : rectangular df -> distinct_labels (names df) -> Forall (fun n => key_in n (names df) = true) cols ->
    exists l, select_rows df cols = Ok l /\ forall r, In r l <-> is_row df cols r.
  Proof.
    intros R D F. destruct (columns_found df cols D F) as [sel [A B]]. unfold select_rows. rewrite B. cbn [bind]. rewrite concat_single.
    eexists. split; [reflexivity|]. intro r. rewrite in_map_iff. split.
    - intros [i [<- Hi]]. apply in_seq in Hi. exists i. split; [lia|]. apply sel_row; auto. lia.
    - intros [i [Hi G]]. exists i. split; [|apply in_seq; lia].
      eapply cells_at_fun; [exact G|]. now apply sel_row.
  Qed.
  Lemma select_missing df cols n : In n cols -> key_in n (names df) = false -> select_rows df cols = Exc KeyError.
  Proof.
    intros I H. unfold select_rows.
    assert (E : mapM (fun n => match loc_name df n with [] => Exc KeyError | l => Ok l end) cols = Exc KeyError).
    { induction cols as [|m cols IH]; [destruct I|]. cbn [mapM].
      destruct I as [->|I]; [now rewrite (loc_missing _ _ H)|].
      destruct (loc_name df m); [reflexivity|]. cbn [bind]. rewrite (IH I). reflexivity. }
    rewrite E. reflexivity.
  Qed.
  Lemma keys_ok df cols l : (forall r, In r l <-> is_row df cols r) ->
    forall r, has_row ceq (value_keys isna ceq l) r <-> combination isna ceq df cols r.
  Proof.
    intros H r. rewrite value_keys_ok. unfold combination, has_row. split; intros [A [x [B S]]]; (split; [exact A|]); exists x; (split; [now apply H|exact S]).
  Qed.
  Lemma junction_ok df1 df2 cols m : rectangular df1 -> rectangular df2 -> distinct_labels (names df1) -> distinct_labels (names df2) ->
    Forall (fun n => key_in n (names df1) = true /\ key_in n (names df2) = true) cols -> m <> NoSuchMethod ->
    exists out, junction isna ceq df1 df2 cols m = Ok out /\ apart ceq out /\
      forall r, has_row ceq out r <-> set_meaning m (combination isna ceq df1 cols r) (combination isna ceq df2 cols r).
  Proof.
    intros R1 R2 D1 D2 F M.
    destruct (select_ok df1 cols R1 D1) as [l1 [E1 H1]]; [eapply Forall_impl; [|exact F]; cbn; tauto|].
    destruct (select_ok df2 cols R2 D2) as [l2 [E2 H2]]; [eapply Forall_impl; [|exact F]; cbn; tauto|].
    unfold junction. rewrite E1, E2. cbn [bind].
    destruct (set_op_ok m (value_keys isna ceq l1) (value_keys isna ceq l2) M) as (out & E & A & H).
    { apply distinct_apart. } { apply distinct_apart. }
    exists out. split; [exact E|]. split; [exact A|]. intro r. rewrite H.
    assert (K1 := keys_ok df1 cols l1 H1 r). assert (K2 := keys_ok df2 cols l2 H2 r).
    destruct m; cbn [set_meaning]; tauto.
  Qed.
  Lemma junction_missing df1 df2 cols m n : In n cols -> key_in n (names df1) = false \/ (key_in n (names df2) = false) ->
    junction isna ceq df1 df2 cols m = Exc KeyError.
  Proof.
    intros I H. unfold junction. destruct H as [H|H].
    - now rewrite (select_missing _ _ _ I H).
    - assert (G : forall l : list key, (exists r : list (list cell), select_rows df1 l = Ok r) \/ select_rows df1 l = Exc KeyError).
      { intro l. unfold select_rows. induction l as [|k l IH]; [left; eexists; reflexivity|]. cbn [mapM]. destruct (loc_name df1 k); [auto|]. cbn [bind].
        destruct (mapM _ l) as [x|e]; cbn [bind] in *; [left; eexists; reflexivity|]. destruct IH as [[r IH]|IH]; [discriminate|]. injection IH as ->. auto. }
      destruct (G cols) as [[r ->]| ->]; [|reflexivity]. cbn [bind]. now rewrite (select_missing _ _ _ I H).
  Qed.
  Lemma junction_method df1 df2 cols l1 l2 : select_rows df1 cols = Ok l1 -> select_rows df2 cols = Ok l2 ->
    junction isna ceq df1 df2 cols NoSuchMethod = Exc AttributeError.
  Proof. intros E1 E2. unfold junction. rewrite E1, E2. reflexivity. Qed.

  (** Records *)
  Lemma combine_keys (cols : list key) r : List.length r = List.length cols -> map fst (combine cols r) = cols.
  Proof. revert r; induction cols as [|k l IH]; intros [|v r] H; try discriminate; [reflexivity|]. cbn. f_equal. apply IH. now injection H. Qed.
  Lemma apart_perm l m : Permutation l m -> apart ceq l -> apart ceq m.
  Proof.
    intro P. assert (X : forall a b, ~ same_row ceq a b -> ~ same_row ceq b a) by (intros a b H S; apply H, same_sym, S).
    induction P; intro A.
    - exact A.
    - inversion A; subst. constructor; [|apply IHP; assumption]. eapply Permutation_Forall; [exact P|]. assumption.
    - inversion A; subst. inversion H2; subst. inversion H1; subst. constructor; [constructor; auto|]. constructor; auto.
    - apply IHP2, IHP1, A.
  Qed.
  Lemma has_perm l m r : Permutation l m -> has_row ceq l r -> has_row ceq m r.
  Proof. intros P [x [H S]]. exists x. split; [eapply Permutation_in; eauto|exact S]. Qed.
  Lemma unique_ok arrange df cols : (forall l, Permutation (arrange l) l) ->
    rectangular df -> distinct_labels (names df) -> distinct_labels cols -> Forall (fun n => key_in n (names df) = true) cols ->
    exists us, unique_to_records isna ceq arrange df cols = Ok (map (combine cols) us) /\ apart ceq us /\
      forall r, has_row ceq us r <-> combination isna ceq df cols r.
  Proof.
    intros P R D DC F. destruct (select_ok df cols R D F) as [l [E H]]. unfold unique_to_records. rewrite E. cbn [bind].
    exists (arrange (value_keys isna ceq l)). split; [|split].
    - f_equal. apply map_ext_in. intros r Hr. apply dict_of_wfd, distinct_wfd. rewrite combine_keys; [exact DC|].
      apply (Permutation_in _ (P _)) in Hr. 
      assert (G : In r l). { unfold value_keys in Hr. 
        assert (X : forall m, In r (distinct ceq m) -> In r m). { intro m. induction m as [|y m IH]; [auto|]. cbn [distinct]. destruct (row_in _ _ _); intro Q; [right; auto|]. destruct Q as [->|Q]; [now left|right; auto]. }
        apply X, filter_In in Hr. tauto. }
      apply H in G. destruct G as [i [_ G]]. clear -G. induction G; cbn; auto.
    - eapply apart_perm; [apply Permutation_sym, P|apply distinct_apart].
    - intro r. rewrite <- (keys_ok df cols l H r). split; apply has_perm; [apply P|apply Permutation_sym, P].
  Qed.
End Rows.
