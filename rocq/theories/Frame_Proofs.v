(** Duplicate columns, constants, row selection. *)
From Verif Require Export Frame_Lemmas.
Open Scope nat_scope.

Section P.
  Context {cell : Type}.
  Context (isna : cell -> bool) (ceq : cell -> cell -> bool).
  Implicit Types (df : frame cell).

  (** ** Duplicate columns *)

  Lemma check_ok df df' : check_and_drop ceq df = Ok df' -> labels df' = labels df /\ firsts (columns df) (columns df').
  Proof.
    unfold check_and_drop. destruct (mask _ (names df)) as [|n l] eqn:E.
    - intro H. injection H as <-. split; [reflexivity|].
      assert (M := firsts_ok (columns df)). 
      assert (G : forall (l : list (key * list cell)) seen, mask (dup_from seen (map fst l)) (map fst l) = [] -> mask (map negb (dup_from seen (map fst l))) l = l).
      { clear. intro l; induction l as [|c l IH]; intros seen H; [reflexivity|].
        cbn [map dup_from] in *. rewrite mask_cons in *. destruct (key_in (fst c) seen); [discriminate|]. cbn [negb]. now rewrite IH. }
      unfold duplicated in *. rewrite G in M by exact E. exact M.
    - destruct (forallb _ _); [|discriminate]. intro H. injection H as <-. split; [reflexivity|]. apply firsts_ok.
  Qed.
  Lemma check_raises (C : cells isna ceq) df e : check_and_drop ceq df = Exc e <->
    e = ValueError /\ exists c v, In c (columns df) /\ repeated (fst c) (names df) /\ In v (snd c) /\ isna v = true.
  Proof.
    unfold check_and_drop. remember (mask (duplicated (names df)) (names df)) as extra eqn:E.
    assert (X : forall c v, In c (columns df) -> repeated (fst c) (names df) -> In v (snd c) -> isna v = true ->
      forallb (fun n => forallb (fun c => forallb (fun v => ceq v v) (snd c)) (loc_name df n)) extra = false).
    { intros c v Hc R Hv N. apply not_true_is_false. intro F.
      destruct (repeated_extra (names df) [] (fst c)) as [n [In_ K]].
      { unfold repeated in R. lia. } { unfold repeated in R. lia. }
      fold (duplicated (names df)) in In_. rewrite <- E in In_.
      rewrite forallb_forall in F. specialize (F n In_). rewrite forallb_forall in F.
      specialize (F c). rewrite forallb_forall in F.
      assert (V : ceq v v = true). { apply F; [|exact Hv]. apply filter_In. split; [exact Hc|]. exact K. }
      rewrite (c_refl _ _ C), N in V. discriminate. }
    split.
    - intro H. destruct extra as [|n0 l0] eqn:Ex; [discriminate|].
      destruct (forallb _ _) eqn:F; [discriminate|]. injection H as <-. split; [reflexivity|].
      assert (F' : exists n, In n (n0 :: l0) /\ forallb (fun c => forallb (fun v => ceq v v) (snd c)) (loc_name df n) = false).
      { clear -F. revert F. generalize (n0 :: l0). intro l; induction l as [|n l IH]; [discriminate|]. cbn. intro H.
        apply andb_false_iff in H. destruct H as [H|H]; [exists n; auto|]. destruct (IH H) as [m [A B]]. exists m; auto. }
      destruct F' as [n [Hn F']].
      assert (F2 : exists c, In c (loc_name df n) /\ forallb (fun v => ceq v v) (snd c) = false).
      { clear -F'. revert F'. generalize (loc_name df n). intro l; induction l as [|c l IH]; [discriminate|]. cbn. intro H.
        apply andb_false_iff in H. destruct H as [H|H]; [exists c; auto|]. destruct (IH H) as [m [A B]]. exists m; auto. }
      destruct F2 as [c [Hc F2]].
      assert (F3 : exists v, In v (snd c) /\ ceq v v = false).
      { clear -F2. revert F2. generalize (snd c). intro l; induction l as [|v l IH]; [discriminate|]. cbn. intro H.
        apply andb_false_iff in H. destruct H as [H|H]; [exists v; auto|]. destruct (IH H) as [m [A B]]. exists m; auto. }
      destruct F3 as [v [Hv F3]]. apply filter_In in Hc. destruct Hc as [Hc K].
      exists c, v. split; [exact Hc|]. split; [|split; [exact Hv|]].
      + rewrite E in Hn. apply extra_repeated in Hn. unfold repeated, seen1 in *. cbn in Hn.
        erewrite filter_ext; [|intro a; exact (keqb_l _ _ a K)]. lia.
      + rewrite (c_refl _ _ C) in F3. destruct (isna v); [reflexivity|discriminate].
    - intros [-> (c & v & Hc & R & Hv & N)]. specialize (X c v Hc R Hv N).
      destruct extra; [discriminate X|]. rewrite X. reflexivity.
  Qed.
  Lemma check_distinct df : distinct_labels (names df) -> check_and_drop ceq df = Ok df.
  Proof.
    intro D. unfold check_and_drop, duplicated. rewrite distinct_extra; [reflexivity|exact D|].
    apply Forall_forall. reflexivity.
  Qed.

  (** ** Constants *)

  Lemma constant_ok (C : cells isna ceq) dropna s : constant_series isna ceq dropna s = true <-> constant isna ceq dropna s.
  Proof.
    unfold constant_series.
    assert (M : forall v, counted isna dropna s v <-> In v (if dropna then filter (fun v => negb (isna v)) s else s)).
    { intro v. unfold counted. destruct dropna.
      - rewrite filter_In, negb_true_iff. intuition.
      - split; [tauto|]. intro; split; [auto|discriminate]. }
    destruct (if dropna then _ else s) as [|v r] eqn:E.
    - split; [|reflexivity]. intros _ x y Hx. apply M in Hx. destruct Hx.
    - rewrite forallb_forall. split.
      + intros H x y Hx Hy. apply M in Hx, Hy. apply (c_trans _ _ C) with v; [auto|]. rewrite (c_sym _ _ C). auto.
      + intros H x Hx. apply H; apply M; [exact Hx|now left].
  Qed.
  Lemma flag_ok (C : cells isna ceq) dropna l c :
    key_in (fst c) (map fst (filter (fun c => constant_series isna ceq dropna (snd c)) l)) = true <-> constant_name isna ceq dropna l c.
  Proof.
    rewrite key_in_true. unfold constant_name. split.
    - intros [x [Hx K]]. apply in_map_iff in Hx. destruct Hx as [c' [<- H]]. apply filter_In in H. destruct H as [H1 H2].
      apply (constant_ok C) in H2. eauto.
    - intros [c' (H & K & H2)]. exists (fst c'). split; [|exact K]. apply in_map, filter_In. split; [exact H|]. now apply constant_ok.
  Qed.
  Lemma flags_out (C : cells isna ceq) dropna l :
    sorted_out (constant_name isna ceq dropna l) l (mask (constant_flags isna ceq dropna l) l) (mask (map negb (constant_flags isna ceq dropna l)) l).
  Proof.
    unfold constant_flags. rewrite map_map, !mask_map. apply sorted_out_filter. intros c _. apply flag_ok, C.
  Qed.
  Lemma constant_name_distinct dropna l c : distinct_labels (map fst l) -> In c l ->
    (constant_name isna ceq dropna l c <-> constant isna ceq dropna (snd c)).
  Proof.
    intros D H. split.
    - intros [c' (H' & K & G)]. assert (F := distinct_find _ D _ H').
      assert (I : In c (filter (labelled (fst c')) l)) by (apply filter_In; split; [exact H|exact K]).
      rewrite F in I. destruct I as [<-|[]]. exact G.
    - intro G. exists c. split; [exact H|]. split; [apply keqb_refl|exact G].
  Qed.

  Lemma constants_frames (C : cells isna ceq) df drop dropna : exists a b,
    extract_constants isna ceq df false drop HowRows dropna = Ok (AsFrame a, if drop then b else df) /\
    labels a = labels df /\ labels b = labels df /\
    sorted_out (constant_name isna ceq dropna (columns df)) (columns df) (columns a) (columns b).
  Proof.
    eexists _, _. split; [reflexivity|]. split; [reflexivity|]. split; [reflexivity|]. cbn [columns loc_columns].
    apply flags_out, C.
  Qed.

  Lemma part_distinct (l a : list (key * list cell)) : part a l -> distinct_labels (map fst l) -> distinct_labels (map fst a).
  Proof.
    intro P. assert (I : incl a l). { induction P; intros y Hy; [destruct Hy| |right; auto]. destruct Hy as [<-|Hy]; [now left|right; auto]. }
    clear I. induction P as [|x a l P IH|x a l P IH]; intro D; [exact D| |].
    - cbn in *. destruct D as [D1 D2]. split; [|auto]. rewrite Forall_map in *. rewrite Forall_forall in *. intros y Hy. apply D1.
      clear -P Hy. induction P; [destruct Hy| |right; auto]. destruct Hy as [<-|Hy]; [now left|right; auto].
    - cbn in D. destruct D as [D1 D2]. auto.
  Qed.
  Lemma sorted_out_part {A} (Q : A -> Prop) l a b : sorted_out Q l a b -> part a l.
  Proof. induction 1; constructor; auto. Qed.

  Lemma head_dict (l : list (key * list cell)) : Forall (fun c => snd c <> []) l ->
    Forall2 (fun p c => fst p = fst c /\ nth_error (snd c) 0 = Some (snd p))
      (somes (map (fun c => option_map (pair (fst c)) (nth_error (snd c) 0)) l)) l.
  Proof.
    induction 1 as [|[k [|v r]] l H F IH]; [constructor|destruct (H eq_refl)|].
    cbn. constructor; [split; reflexivity|exact IH].
  Qed.
  Lemma Forall2_keys {A B} (R : A -> B -> Prop) (d : list (key * A)) (c : list (key * B)) :
    Forall2 (fun p q => fst p = fst q /\ R (snd p) (snd q)) d c -> map fst d = map fst c.
  Proof. induction 1 as [|p q d c [H _] F IH]; [reflexivity|]. cbn. now rewrite H, IH. Qed.

  Lemma rect_ne df : rectangular df -> labels df <> [] -> Forall (fun c => snd c <> []) (columns df).
  Proof.
    intros R N. eapply Forall_impl; [|exact R]. cbn. intros c H E. rewrite E in H. destruct (labels df); [auto|discriminate].
  Qed.
  Lemma constants_dict (C : cells isna ceq) df drop dropna :
    rectangular df -> labels df <> [] -> distinct_labels (names df) -> exists d cs vs,
    extract_constants isna ceq df true drop HowRows dropna = Ok (AsDict d, if drop then {| labels := labels df; columns := vs |} else df) /\
    sorted_out (fun c => constant isna ceq dropna (snd c)) (columns df) cs vs /\
    Forall2 (fun p c => fst p = fst c /\ nth_error (snd c) 0 = Some (snd p)) d cs.
  Proof.
    intros R N D. cbn [extract_constants fst snd].
    set (m := constant_flags isna ceq dropna (columns df)).
    assert (S := flags_out C dropna (columns df)). fold m in S.
    assert (P := sorted_out_part _ _ _ _ S).
    assert (H := head_dict (mask m (columns df))).
    assert (NE : Forall (fun c => snd c <> []) (mask m (columns df))).
    { apply Forall_forall. intros c Hc. apply (sorted_out_in _ _ _ _ S) in Hc. destruct Hc as [Hc _].
      assert (X := rect_ne df R N). rewrite Forall_forall in X. apply X, Hc. }
    specialize (H NE).
    assert (K := Forall2_keys (fun v s => nth_error s 0 = Some v) _ _ H).
    unfold first_row_dict, loc_columns. cbn [labels columns].
    destruct (labels df) as [|i0 ir] eqn:E; [congruence|]. cbn [bind].
    eexists _, (mask m (columns df)), (mask (map negb m) (columns df)). split; [reflexivity|].
    split.
    - eapply sorted_out_impl; [|exact S]. intros c Hc. now apply constant_name_distinct.
    - rewrite dict_of_wfd; [exact H|]. apply distinct_wfd. rewrite K. eapply part_distinct; eauto.
  Qed.
  Lemma constants_value (C : cells isna ceq) dropna df k v d x r :
    rectangular df -> distinct_labels (names df) -> extract_constants isna ceq df true x HowRows dropna = Ok (AsDict d, r) ->
    In (k, v) d -> isna v = false ->
    exists s, In (k, s) (columns df) /\ constant isna ceq dropna s /\ (forall y, counted isna dropna s y -> ceq y v = true).
  Proof.
    intros R D E I N.
    destruct (labels df) as [|i0 ir] eqn:IE.
    { cbn in E. unfold first_row_dict, loc_columns in E. cbn [labels] in E. rewrite IE in E. discriminate. }
    assert (NE : labels df <> []) by (rewrite IE; discriminate).
    destruct (constants_dict C df x dropna R NE D) as (d' & cs & vs & E' & S & F).
    rewrite E in E'. injection E' as <- _.
    assert (X : exists c, In c cs /\ fst c = k /\ nth_error (snd c) 0 = Some v).
    { clear -F I. induction F as [|p c d cs [A B] F IH]; [destruct I|]. destruct I as [->|I].
      - exists c. split; [now left|]. auto.
      - destruct (IH I) as [c' [G1 G2]]. exists c'. split; [now right|exact G2]. }
    destruct X as [[k' s] (Hc & <- & Hv)]. cbn [fst snd] in *.
    apply (sorted_out_in _ _ _ _ S) in Hc. destruct Hc as [Hc G]. cbn [snd] in G.
    exists s. split; [exact Hc|]. split; [exact G|]. intros y Hy. apply G; [exact Hy|].
    split; [eapply nth_error_In; eauto|auto].
  Qed.
  Lemma constants_no_rows df drop dropna : labels df = [] ->
    extract_constants isna ceq df true drop HowRows dropna = Exc IndexError.
  Proof. intro E. cbn. unfold first_row_dict, loc_columns. cbn [labels]. rewrite E. reflexivity. Qed.
  Lemma constants_how df td drop dropna : extract_constants isna ceq df td drop HowOther dropna = Exc ValueError.
  Proof. reflexivity. Qed.

  (** ** Rows *)

  Lemma rows_of_map df (d : key) : rows_of df = map (fun i => (nth i (labels df) d, somes (row df i))) (seq 0 (List.length (labels df))).
  Proof.
    unfold rows_of. 
    assert (G : forall (l : list key) s, combine (seq s (List.length l)) l = map (fun i => (i, nth (i - s) l d)) (seq s (List.length l))).
    { intro l; induction l as [|k l IH]; intro s; [reflexivity|]. cbn [List.length seq combine map].
      rewrite Nat.sub_diag. f_equal. rewrite IH. apply map_ext_in. intros i Hi. apply in_seq in Hi.
      f_equal. destruct (i - s) eqn:E; [lia|]. cbn. f_equal. lia. }
    rewrite G, map_map. apply map_ext. intro i. cbn. now rewrite Nat.sub_0_r.
  Qed.
  Lemma rows_len df : List.length (rows_of df) = List.length (labels df).
  Proof. rewrite (rows_of_map df KNone), map_length, seq_length. reflexivity. Qed.
  Lemma rows_index df : map fst (rows_of df) = labels df.
  Proof.
    rewrite (rows_of_map df KNone), map_map. cbn.
    generalize (labels df). intro l. induction l as [|k l IH]; [reflexivity|]. cbn [List.length seq map nth]. f_equal.
    rewrite <- seq_shift, map_map. exact IH.
  Qed.
  Lemma self_nth {A} (l : list A) d : map (fun i => nth i l d) (seq 0 (List.length l)) = l.
  Proof.
    induction l as [|x l IH]; [reflexivity|]. cbn [List.length seq map nth]. f_equal. rewrite <- seq_shift, map_map. exact IH.
  Qed.
  Lemma rows_mask df m : rectangular df -> List.length m = List.length (labels df) ->
    rows_of (loc_rows df m) = mask m (rows_of df).
  Proof.
    intros R L. rewrite (rows_of_map df KNone), mask_of_map.
    set (n := List.length (labels df)) in *. set (P := mask m (seq 0 n)).
    assert (M : forall {A} (l : list A) d, List.length l = n -> mask m l = map (fun i => nth i l d) P).
    { intros A l d H. unfold P. rewrite <- mask_of_map, <- H, self_nth. reflexivity. }
    rewrite (rows_of_map _ KNone). cbn [labels loc_rows].
    assert (LP : List.length (mask m (labels df)) = List.length P).
    { unfold P. apply mask_len. rewrite seq_length. reflexivity. }
    rewrite LP. transitivity (map (fun j => (fun i => (nth i (labels df) KNone, somes (row df i))) (nth j P 0)) (seq 0 (List.length P))).
    - apply map_ext_in. intros j Hj. apply in_seq in Hj. f_equal.
      + rewrite (M _ (labels df) KNone eq_refl). rewrite nth_indep with (d' := nth 0 (labels df) KNone) by (rewrite map_length; lia).
        rewrite (map_nth (fun i => nth i (labels df) KNone)). reflexivity.
      + f_equal. unfold row. cbn [columns loc_rows]. rewrite map_map. apply map_ext_in. intros c Hc. cbn [snd].
        assert (H : List.length (snd c) = n). { unfold rectangular in R. rewrite Forall_forall in R. apply R, Hc. }
        destruct (snd c) as [|v s] eqn:E.
        { cbn in H. assert (Z : P = []). { unfold P. rewrite <- H. apply mask_nil_r. } rewrite Z in Hj. cbn in Hj. lia. }
        rewrite <- E in *. rewrite (M _ (snd c) v H). rewrite nth_error_map.
        rewrite (nth_error_nth' P 0) by lia. cbn [option_map]. symmetry. apply nth_error_nth'.
        assert (I : In (nth j P 0) P) by (apply nth_In; lia).
        rewrite H. revert I. generalize (nth j P 0). clear -L. unfold P. intros x Hx.
        assert (J : forall {A} m (l : list A) x, In x (mask m l) -> In x l).
        { clear. intros A m; induction m as [|b m IH]; intros [|y l] x H; try (cbn in H; tauto).
          rewrite mask_cons in H. destruct b; [destruct H as [->|H]; [now left|]|]; right; eapply IH; eauto. }
        apply J in Hx. apply in_seq in Hx. lia.
    - rewrite <- (map_map (fun j => nth j P 0) (fun i => (nth i (labels df) KNone, somes (row df i)))), self_nth. reflexivity.
  Qed.
  Lemma split_ok df p : rectangular df -> List.length p = List.length (labels df) ->
    dealt p (rows_of df) (rows_of (fst (split_on df p))) (rows_of (snd (split_on df p))) /\
    names (fst (split_on df p)) = names df /\ names (snd (split_on df p)) = names df.
  Proof.
    intros R L. unfold split_on. cbn [fst snd]. rewrite !rows_mask by (auto; now rewrite map_length). split.
    - apply mask_dealt. now rewrite rows_len.
    - split; cbn [fst snd]; unfold names, loc_rows; cbn [columns]; rewrite map_map; reflexivity.
  Qed.
  Lemma mask_rect df m : rectangular df -> rectangular (loc_rows df m).
  Proof.
    unfold rectangular. cbn [columns labels loc_rows]. intro R. rewrite Forall_map. eapply Forall_impl; [|exact R].
    cbn. intros c H. now apply mask_len.
  Qed.

  Lemma constants_columns (C : cells isna ceq) df drop dropna : rectangular df -> exists a b,
    extract_constants isna ceq df false drop HowColumns dropna = Ok (AsFrame a, if drop then b else df) /\
    names a = names df /\ names b = names df /\
    sorted_out (constant_name isna ceq dropna (rows_of df)) (rows_of df) (rows_of a) (rows_of b).
  Proof.
    intro R. eexists _, _. split; [reflexivity|].
    split; [cbn [fst snd]; unfold names, loc_rows; cbn [columns]; rewrite map_map; reflexivity|].
    split; [cbn [fst snd]; unfold names, loc_rows; cbn [columns]; rewrite map_map; reflexivity|].
    cbn [fst snd]. assert (L : List.length (constant_flags isna ceq dropna (rows_of df)) = List.length (labels df)).
    { unfold constant_flags. rewrite map_length. apply rows_len. }
    rewrite !rows_mask by (auto; now rewrite map_length). apply flags_out, C.
  Qed.
  Lemma first_row (a : frame cell) : rectangular a -> distinct_labels (names a) ->
    first_row_dict a = match rows_of a return res (dict cell) with [] => Exc IndexError | r :: _ => Ok (combine (names a) (snd r)) end.
  Proof.
    intros R D. unfold first_row_dict. rewrite (rows_of_map a KNone). destruct (labels a) as [|k l] eqn:E; [reflexivity|].
    cbn [List.length seq map snd]. f_equal.
    assert (H := head_dict (columns a) (rect_ne a R ltac:(rewrite E; discriminate))).
    assert (K := Forall2_keys (fun v s => nth_error s 0 = Some v) _ _ H).
    rewrite dict_of_wfd by (apply distinct_wfd; rewrite K; exact D).
    unfold names, row. clear -H. revert H. generalize (columns a). intro l. induction l as [|[n [|v s]] l IH]; intro H.
    - reflexivity.
    - cbn in *. exfalso. inversion H; subst.
      match goal with X : _ /\ _ |- _ => destruct X; discriminate end.
    - cbn in *. inversion H; subst. f_equal. apply IH. assumption.
  Qed.
  Lemma constants_columns_dict (C : cells isna ceq) df drop dropna : rectangular df -> distinct_labels (names df) -> exists a b,
    sorted_out (constant_name isna ceq dropna (rows_of df)) (rows_of df) (rows_of a) (rows_of b) /\
    extract_constants isna ceq df true drop HowColumns dropna =
      match rows_of a with
      | [] => Exc IndexError
      | r :: _ => Ok (AsDict (combine (names df) (snd r)), if drop then b else df)
      end.
  Proof.
    intros R D.
    set (m := constant_flags isna ceq dropna (rows_of df)).
    exists (loc_rows df m), (loc_rows df (map negb m)).
    assert (L : List.length m = List.length (labels df)).
    { unfold m, constant_flags. rewrite map_length. apply rows_len. }
    assert (NA : names (loc_rows df m) = names df) by (cbn [fst snd]; unfold names, loc_rows; cbn [columns]; rewrite map_map; reflexivity).
    split; [rewrite !rows_mask by (auto; now rewrite map_length); apply flags_out, C|].
    cbn [extract_constants fst snd]. fold m. rewrite first_row.
    - rewrite NA. destruct (rows_of (loc_rows df m)); reflexivity.
    - now apply mask_rect.
    - rewrite NA. exact D.
  Qed.

  (** ** Repeated rows *)

  Lemma repeat_each_nth {A} n (l : list A) i j : j < n -> nth_error (repeat_each n l) (i * n + j) = nth_error l i.
  Proof.
    intro H. revert i; induction l as [|x l IH]; intro i.
    - cbn. destruct (i * n + j), i; reflexivity.
    - cbn [repeat_each flat_map]. fold (repeat_each n l). destruct i as [|i].
      + cbn [Nat.mul Nat.add]. rewrite nth_error_app1 by (rewrite repeat_length; lia). cbn [nth_error].
        clear -H. revert j H. induction n as [|n IH]; intros [|j] H; try lia; cbn; [reflexivity|]. apply IH. lia.
      + rewrite nth_error_app2 by (rewrite repeat_length; lia). rewrite repeat_length.
        replace (S i * n + j - n) with (i * n + j) by lia. apply IH.
  Qed.
  Lemma repeat_each_len {A} n (l : list A) : List.length (repeat_each n l) = List.length l * n.
  Proof. induction l as [|x l IH]; [reflexivity|]. cbn. rewrite app_length, repeat_length. unfold repeat_each in IH. now rewrite IH. Qed.
  Lemma dupe_ok df n : rectangular df -> (0 <= n)%Z -> exists df', dupe_df_block df n = Ok df' /\
    rectangular df' /\ names df' = names df /\
    labels df' = map (fun i => KInt (Z.of_nat i)) (seq 0 (List.length (labels df) * Z.to_nat n)) /\
    forall i j, i < List.length (labels df) -> j < Z.to_nat n -> row df' (i * Z.to_nat n + j) = row df i.
  Proof.
    intros R H. unfold dupe_df_block. destruct (n <? 0)%Z eqn:E; [apply Z.ltb_lt in E; lia|].
    eexists. split; [reflexivity|]. split; [|split; [|split]].
    - unfold rectangular in *. cbn [columns labels]. rewrite Forall_map. eapply Forall_impl; [|exact R]. cbn. intros c Hc.
      rewrite repeat_each_len, Hc, map_length, seq_length. reflexivity.
    - unfold names. cbn [columns]. rewrite map_map. reflexivity.
    - reflexivity.
    - intros i j Hi Hj. unfold row. cbn [columns]. rewrite map_map. apply map_ext. intro c. cbn. now apply repeat_each_nth.
  Qed.
  Lemma dupe_negative df n : (n < 0)%Z -> dupe_df_block df n = Exc ValueError.
  Proof. intro H. unfold dupe_df_block. apply Z.ltb_lt in H. now rewrite H. Qed.
End P.
