(** Proofs about mosaic.py. *)
From Coq Require Import Lia Sorted Permutation QArith SpecFloat.
From Verif Require Export Mosaic_Spec Float_Proofs.
Open Scope nat_scope.

Section Proofs.
  Context {num row : Type}.
  Context (good : num -> bool) (leb ltb : num -> num -> bool) (add1 : num -> num).
  Context (linspace : num -> num -> nat -> list num).
  Context (key_of : row -> option num).
  Notation file := (@file num row).
  Notation record := (@record num).
  Context (ord : ordered good leb ltb).
  Implicit Types (lo hi : num).

  Notation o_total := (o_total good leb ltb ord).
  Notation o_trans := (o_trans good leb ltb ord).
  Notation o_good := (o_good good leb ltb ord).
  Notation o_ltb := (o_ltb good leb ltb ord).
  Notation o_refl := (o_refl good leb ltb ord).
  Notation ltb_iff := (ltb_iff good leb ltb ord).
  Notation ltb_leb := (ltb_leb good leb ltb ord).
  Notation lt_le_trans := (lt_le_trans good leb ltb ord).
  Notation le_lt_trans := (le_lt_trans good leb ltb ord).
  Notation not_lt := (not_lt good leb ltb ord).

  (** ** read_between *)

  Lemma filter_filter {A} (p q : A -> bool) (l : list A) : filter p (filter q l) = filter (fun x => q x && p x) l.
  Proof. induction l as [|x l IH]; [reflexivity|]. cbn. destruct (q x); cbn; [destruct (p x)|]; now rewrite IH. Qed.
  Lemma filter_ext_in' {A} (p q : A -> bool) (l : list A) : (forall x, In x l -> p x = q x) -> filter p l = filter q l.
  Proof. induction l as [|x l IH]; intro H; [reflexivity|]. cbn. rewrite (H x (or_introl eq_refl)), IH; auto. intros y Hy. apply H. now right. Qed.
  Lemma filter_none {A} (p : A -> bool) (l : list A) : (forall x, In x l -> p x = false) -> filter p l = [].
  Proof. induction l as [|x l IH]; intro H; [reflexivity|]. cbn. rewrite (H x (or_introl eq_refl)). apply IH. intros y Hy. apply H. now right. Qed.

  Lemma selects lo hi l : select key_of (fun v => leb lo v) (select key_of (fun v => ltb v hi) l) =
    filter (in_interval leb ltb key_of lo hi) l.
  Proof.
    unfold select. rewrite filter_filter. apply filter_ext_in'. intros r _. unfold in_interval.
    destruct (key_of r) as [v|]; [apply andb_comm|reflexivity].
  Qed.

  (** Row groups that are skipped have no rows in the interval. *)
  Lemma skipped lo hi mn mx l : bounds good leb key_of mn mx l -> ltb hi mn = true \/ ltb mx lo = true ->
    filter (in_interval leb ltb key_of lo hi) l = [].
  Proof.
    intros (_ & _ & H) S. apply filter_none. intros r Hr. unfold in_interval. destruct (key_of r) as [v|] eqn:E; [|reflexivity].
    destruct (leb lo v) eqn:L; [|reflexivity]. destruct (ltb v hi) eqn:U; [|reflexivity]. exfalso.
    destruct (o_good _ _ L) as [_ G]. destruct (H r v Hr E G) as [A B]. destruct S as [S|S].
    - pose proof (lt_le_trans _ _ _ (lt_le_trans _ _ _ S A) (o_refl v G)) as X.
      apply ltb_iff in X. apply ltb_leb in U. destruct X as (_ & _ & X). congruence.
    - pose proof (lt_le_trans _ _ _ S L) as X. apply ltb_iff in X. destruct X as (_ & _ & X). congruence.
  Qed.

  Lemma in_bounds_sound lo hi f r : sound good leb key_of f r ->
    exists b, in_bounds ltb lo hi r = Ok b /\ (b = false <-> apart ltb lo hi r).
  Proof.
    intros (g & mn & mx & _ & E1 & E2 & _). unfold in_bounds. rewrite E1, E2.
    assert (K : apart ltb lo hi r <-> ltb hi mn = true \/ ltb mx lo = true).
    { split; [intros (mn' & mx' & F1 & F2 & H); congruence|]. intro H. exists mn, mx. auto. }
    destruct (ltb hi mn) eqn:A.
    - exists false. split; [reflexivity|]. rewrite K. split; auto.
    - exists (negb (ltb mx lo)). split; [reflexivity|]. rewrite K. destruct (ltb mx lo); cbn; split; auto; try discriminate.
      intros [H|H]; discriminate.
  Qed.

  Lemma rows_at_cons (f : file) r meta g : nth_error f (row_group r) = Some g ->
    rows_at f (r :: meta) = rows g ++ rows_at f meta.
  Proof. intro E. unfold rows_at. cbn [flat_map]. now rewrite E. Qed.

  Lemma read_lemma lo hi f (meta : list record) : (forall r, In r meta -> sound good leb key_of f r) ->
    exists o, read_between leb ltb key_of f lo hi meta = Ok o /\
      match o with
      | None => (forall r, In r meta -> apart ltb lo hi r) /\ filter (in_interval leb ltb key_of lo hi) (rows_at f meta) = []
      | Some t => ~ (forall r, In r meta -> apart ltb lo hi r) /\ t = filter (in_interval leb ltb key_of lo hi) (rows_at f meta)
      end.
  Proof.
    intro H.
    assert (F : exists b, filterM (in_bounds ltb lo hi) meta = Ok b /\
      (forall r, In r b -> In r meta) /\ (b = [] <-> forall r, In r meta -> apart ltb lo hi r) /\
      exists gs, mapM (read_bounded leb ltb key_of f lo hi) b = Ok gs /\
        List.concat gs = filter (in_interval leb ltb key_of lo hi) (rows_at f meta)).
    { induction meta as [|r meta IH].
      - exists []. split; [reflexivity|]. split; [auto|]. split; [split; [intros _ r []|reflexivity]|]. exists []. split; reflexivity.
      - destruct (IH (fun r Hr => H r (or_intror Hr))) as (b & E & Sb & Nb & gs & Eg & Ec). clear IH.
        destruct (in_bounds_sound lo hi f r (H r (or_introl eq_refl))) as (x & Ex & Hx).
        pose proof (H r (or_introl eq_refl)) as (g & mn & mx & Eg' & E1 & E2 & B).
        cbn [filterM]. rewrite Ex. cbn [bind]. rewrite E. cbn [bind]. destruct x.
        + exists (r :: b). split; [reflexivity|]. split; [intros r' [<-|Hr]; [now left|right; auto]|]. split.
          { split; [discriminate|]. intro A. exfalso. assert (true = false) by (apply Hx, A; now left). discriminate. }
          cbn [mapM]. unfold read_bounded at 1. rewrite Eg'. cbn [bind]. rewrite Eg. cbn [bind]. eexists. split; [reflexivity|].
          cbn [List.concat]. rewrite (rows_at_cons f r meta g Eg'), filter_app, Ec, selects. reflexivity.
        + exists b. split; [reflexivity|]. split; [intros r' Hr; right; auto|]. split.
          { rewrite Nb. split; [intros A r' [<-|Hr]; [now apply Hx|auto]|intros A r' Hr; apply A; now right]. }
          exists gs. split; [exact Eg|]. rewrite (rows_at_cons f r meta g Eg'), filter_app, <- Ec.
          destruct (proj1 Hx eq_refl) as (mn' & mx' & F1 & F2 & S). assert (mn' = mn) by congruence. assert (mx' = mx) by congruence. subst.
          now rewrite (skipped lo hi mn mx (rows g) B S). }
    destruct F as (b & E & _ & N & gs & Eg & Ec). unfold read_between. rewrite E. cbn [bind].
    destruct b as [|r b].
    - exists None. split; [reflexivity|]. split; [now apply N|]. rewrite <- Ec. cbn in Eg. injection Eg as <-. reflexivity.
    - rewrite Eg. cbn [bind]. eexists. split; [reflexivity|]. split; [intro A; apply N in A; discriminate|exact Ec].
  Qed.

  (** ** Windows *)

  Notation inside := (in_interval leb ltb key_of).

  Lemma inside_eq lo hi r : inside lo hi r = match key_of r with Some v => leb lo v && ltb v hi | None => false end.
  Proof. reflexivity. Qed.
  Lemma windowed_cons a b (l : list num) : windowed2 (a :: b :: l) = (a, b) :: windowed2 (b :: l).
  Proof. reflexivity. Qed.
  Lemma windowed_snoc (l : list num) a b : windowed2 (l ++ [a; b]) = windowed2 (l ++ [a]) ++ [(a, b)].
  Proof.
    induction l as [|x l IH]; [reflexivity|]. destruct l as [|y l]; [reflexivity|].
    cbn [app] in *. rewrite !windowed_cons. cbn [app]. now rewrite IH.
  Qed.
  Lemma widen_cuts (l : list num) a b : widen add1 (windowed2 (l ++ [a; b])) = windowed2 (l ++ [a; add1 b]).
  Proof. unfold widen. rewrite windowed_snoc, rev_app_distr. cbn [rev app]. now rewrite rev_involutive, windowed_snoc. Qed.

  (** Rows in consecutive windows are the rows in the whole interval. *)
  Lemma split_interval lo c hi l : leb lo c = true -> leb c hi = true ->
    Permutation (filter (inside lo c) l ++ filter (inside c hi) l) (filter (inside lo hi) l).
  Proof.
    intros H1 H2. induction l as [|r l IH]; [constructor|]. cbn [filter].
    rewrite !(inside_eq _ _ r). destruct (key_of r) as [v|]; [|exact IH].
    destruct (good v) eqn:G.
    - destruct (o_good _ _ H1) as [G1 G2]. destruct (o_good _ _ H2) as [_ G3]. rewrite !o_ltb, G, G2, G3. cbn [andb].
      destruct (leb c v) eqn:Lc.
      + rewrite (o_trans lo c v H1 Lc). cbn [andb negb]. destruct (leb hi v); cbn [negb]; [exact IH|].
        symmetry. apply Permutation_cons_app. symmetry. exact IH.
      + assert (leb hi v = false) as -> by (destruct (leb hi v) eqn:E; [rewrite (o_trans c hi v H2 E) in Lc; discriminate|reflexivity]).
        cbn [andb negb]. destruct (leb lo v); cbn [andb]; [|exact IH]. cbn [app]. now apply perm_skip.
    - assert (N : forall a, leb a v = false) by (intro a; destruct (leb a v) eqn:E; [apply o_good in E; destruct E; congruence|reflexivity]).
      rewrite !N. exact IH.
  Qed.

  Lemma chain_perm l : forall (cs : list num) c, cs <> [] -> StronglySorted (fun a b => leb a b = true) (c :: cs) ->
    Permutation (flat_map (fun w => filter (inside (fst w) (snd w)) l) (windowed2 (c :: cs))) (filter (inside c (last cs c)) l).
  Proof.
    induction cs as [|d cs IH]; intros c N S; [now destruct N|]. rewrite windowed_cons. cbn [flat_map fst snd].
    destruct cs as [|e cs]; [cbn; now rewrite app_nil_r|].
    apply StronglySorted_inv in S. destruct S as [S Hc]. rewrite Forall_forall in Hc.
    rewrite (IH d); [|discriminate|exact S].
    assert (L : last (d :: e :: cs) c = last (e :: cs) d).
    { clear. cbn [last]. revert e. induction cs as [|x cs IH]; intro e; [reflexivity|]. apply IH. }
    rewrite L. apply split_interval; [apply Hc; now left|].
    apply StronglySorted_inv in S. destruct S as [_ Hd]. rewrite Forall_forall in Hd. apply Hd.
    clear. revert e. induction cs as [|x cs IH]; intro e; [now left|]. right. apply IH.
  Qed.

  (** ** Sorting *)

  Lemma insert_perm d r l : Permutation (insert_row leb key_of d r l) (r :: l).
  Proof.
    induction l as [|x l IH]; [reflexivity|]. cbn. destruct (before leb key_of d r x); [reflexivity|].
    rewrite IH. apply perm_swap.
  Qed.
  Lemma sort_perm d l : Permutation (fold_right (insert_row leb key_of d) [] l) l.
  Proof. induction l as [|x l IH]; [constructor|]. cbn. rewrite insert_perm. now apply perm_skip. Qed.

  Definition has_key r : Prop := exists v, key_of r = Some v /\ good v = true.
  Lemma before_le d r x : has_key r -> has_key x -> d <> OtherDirection ->
    if before leb key_of d r x then key_le leb key_of d r x else key_le leb key_of d x r.
  Proof.
    intros (v & Ev & Gv) (y & Ey & Gy) N. unfold before, key_le. rewrite Ev, Ey.
    destruct d; [| |now destruct N].
    - destruct (leb v y) eqn:E; [exists v, y; auto|]. exists y, v. repeat split; auto. destruct (o_total v y Gv Gy); congruence.
    - destruct (leb y v) eqn:E; [exists v, y; auto|]. exists y, v. repeat split; auto. destruct (o_total v y Gv Gy); congruence.
  Qed.
  Lemma key_le_trans d a b c : key_le leb key_of d a b -> key_le leb key_of d b c -> key_le leb key_of d a c.
  Proof.
    intros (x & y & A & B & H) (y' & z & B' & C & H'). rewrite B in B'. injection B' as <-. exists x, z. repeat split; auto.
    destruct d; eapply o_trans; eauto.
  Qed.
  Lemma insert_sorted d r l : d <> OtherDirection -> has_key r -> Forall has_key l ->
    StronglySorted (key_le leb key_of d) l -> StronglySorted (key_le leb key_of d) (insert_row leb key_of d r l).
  Proof.
    intros N Hr. induction l as [|x l IH]; intros Hl S; cbn; [repeat constructor|].
    apply Forall_cons_iff in Hl. destruct Hl as [Hx Hl]. apply StronglySorted_inv in S. destruct S as [S Sx].
    pose proof (before_le d r x Hr Hx N) as B. destruct (before leb key_of d r x).
    - constructor; [now constructor|]. constructor; [exact B|]. eapply Forall_impl; [|exact Sx]. intros z Hz. eapply key_le_trans; eauto.
    - constructor; [now apply IH|]. eapply Permutation_Forall; [symmetry; apply insert_perm|]. now constructor.
  Qed.
  Lemma sort_sorted d l : d <> OtherDirection -> Forall has_key l ->
    StronglySorted (key_le leb key_of d) (fold_right (insert_row leb key_of d) [] l).
  Proof.
    intros N. induction l as [|x l IH]; intro H; cbn; [constructor|]. apply Forall_cons_iff in H. destruct H as [Hx Hl].
    apply insert_sorted; auto. eapply Permutation_Forall; [symmetry; apply sort_perm|exact Hl].
  Qed.

  Lemma sorted_app d l1 l2 : StronglySorted (key_le leb key_of d) l1 -> StronglySorted (key_le leb key_of d) l2 ->
    (forall a b, In a l1 -> In b l2 -> key_le leb key_of d a b) -> StronglySorted (key_le leb key_of d) (l1 ++ l2).
  Proof.
    induction l1 as [|x l1 IH]; intros S1 S2 H; [exact S2|]. apply StronglySorted_inv in S1. destruct S1 as [S1 Sx]. cbn. constructor.
    - apply IH; auto. intros a b Ha. apply H. now right.
    - apply Forall_app. split; [exact Sx|]. apply Forall_forall. intros b Hb. apply H; [now left|exact Hb].
  Qed.

  (** ** The tables *)

  Definition window_rows (f : file) (meta : list record) (w : num * num) : list row :=
    filter (inside (fst w) (snd w)) (rows_at f meta).
  Definition sorted_window d f meta w := fold_right (insert_row leb key_of d) [] (window_rows f meta w).
  Definition nonempty {A} (t : list A) : bool := match t with [] => false | _ => true end.
  Definition tables_of d f meta ws := filter nonempty (map (sorted_window d f meta) ws).

  Lemma sort_nil d l : fold_right (insert_row leb key_of d) [] l = [] <-> l = [].
  Proof.
    split; [|intros ->; reflexivity]. intro H. apply Permutation_nil. rewrite <- H. apply sort_perm.
  Qed.

  Lemma write_lemma d f (meta : list record) p : d <> OtherDirection -> (forall r, In r meta -> sound good leb key_of f r) ->
    forall ws out, write_windows leb ltb key_of f meta d p ws out =
      (let (x, ts) := until (match p with Some q => q | None => Ok end) (tables_of d f meta ws) in (x, out ++ ts)).
  Proof.
    intros N Hm. induction ws as [|[lo hi] ws IH]; intro out; cbn [write_windows]; [cbn; now rewrite app_nil_r|].
    destruct (read_lemma lo hi f meta Hm) as (o & -> & Ho).
    assert (W : match o with Some t => t | None => [] end = window_rows f meta (lo, hi)).
    { unfold window_rows. cbn [fst snd]. destruct o as [t|]; destruct Ho as [_ ->]; reflexivity. }
    unfold tables_of. cbn [map filter]. change (sorted_window d f meta (lo, hi)) with (fold_right (insert_row leb key_of d) [] (window_rows f meta (lo, hi))). rewrite <- W.
    destruct o as [[|r t]|].
    - cbn [fold_right nonempty]. apply IH.
    - unfold sort_by. assert (S : forall B (x y : B), match d with OtherDirection => x | _ => y end = y) by (intros; destruct d; auto; now destruct N).
      rewrite S. cbn [bind].
      destruct (fold_right (insert_row leb key_of d) [] (r :: t)) as [|r' t'] eqn:E; [apply sort_nil in E; discriminate|].
      cbn [nonempty until]. destruct p as [q|].
      + cbn [until filter nonempty]. destruct (q (r' :: t')) as [u|e]; [|now rewrite app_nil_r]. rewrite IH. fold (tables_of d f meta ws).
        destruct (until q (tables_of d f meta ws)) as [x ts]. now rewrite <- app_assoc.
      + cbn [until]. rewrite IH. fold (tables_of d f meta ws). destruct (until Ok (tables_of d f meta ws)) as [x ts]. now rewrite <- app_assoc.
    - cbn [fold_right nonempty]. apply IH.
  Qed.
  (** With another direction nothing is written. *)
  Lemma write_other f (meta : list record) p : (forall r, In r meta -> sound good leb key_of f r) ->
    forall ws out, write_windows leb ltb key_of f meta OtherDirection p ws out =
      (match tables_of Ascending f meta ws with [] => Ok tt | _ => Exc ValueError end, out).
  Proof.
    intros Hm. induction ws as [|[lo hi] ws IH]; intro out; cbn [write_windows]; [reflexivity|].
    destruct (read_lemma lo hi f meta Hm) as (o & -> & Ho).
    assert (W : match o with Some t => t | None => [] end = window_rows f meta (lo, hi)).
    { unfold window_rows. cbn [fst snd]. destruct o as [t|]; destruct Ho as [_ ->]; reflexivity. }
    unfold tables_of. cbn [map filter]. change (sorted_window Ascending f meta (lo, hi)) with (fold_right (insert_row leb key_of Ascending) [] (window_rows f meta (lo, hi))). rewrite <- W.
    destruct o as [[|r t]|]; [cbn [fold_right nonempty]; apply IH| |cbn [fold_right nonempty]; apply IH].
    destruct (fold_right (insert_row leb key_of Ascending) [] (r :: t)) as [|r' t'] eqn:E; [apply sort_nil in E; discriminate|]. reflexivity.
  Qed.
  Lemma until_ok (ts : list (list row)) : until Ok ts = (Ok tt, ts).
  Proof. induction ts as [|t ts IH]; [reflexivity|]. cbn. now rewrite IH. Qed.

  Lemma concat_nonempty {A} (ls : list (list A)) : List.concat (filter nonempty ls) = List.concat ls.
  Proof. induction ls as [|[|x l] ls IH]; [reflexivity|exact IH|]. cbn. now rewrite IH. Qed.

  Lemma concat_perm d f meta ws :
    Permutation (List.concat (tables_of d f meta ws)) (flat_map (window_rows f meta) ws).
  Proof.
    unfold tables_of. rewrite concat_nonempty. induction ws as [|w ws IH]; [constructor|]. cbn.
    apply Permutation_app; [apply sort_perm|exact IH].
  Qed.

  Lemma window_keys f meta w : Forall has_key (window_rows f meta w).
  Proof.
    apply Forall_forall. intros r H. apply filter_In in H. destruct H as [_ H]. unfold in_interval in H.
    destruct (key_of r) as [v|] eqn:E; [|discriminate]. exists v. split; [exact E|]. apply andb_prop in H.
    now apply (o_good (fst w) v).
  Qed.

  Lemma windows_ge f meta : forall cs c, StronglySorted (fun a b => leb a b = true) (c :: cs) -> forall w r,
    In w (windowed2 (c :: cs)) -> In r (window_rows f meta w) -> exists v, key_of r = Some v /\ leb c v = true.
  Proof.
    induction cs as [|d cs IH]; intros c S w r Hw Hr; [destruct Hw|]. rewrite windowed_cons in Hw.
    apply StronglySorted_inv in S. destruct S as [S Hc]. rewrite Forall_forall in Hc. destruct Hw as [<-|Hw].
    - apply filter_In in Hr. destruct Hr as [_ Hr]. unfold in_interval in Hr. destruct (key_of r) as [v|]; [|discriminate].
      apply andb_prop in Hr. exists v. now split.
    - destruct (IH d S w r Hw Hr) as (v & E & L). exists v. split; [exact E|]. apply (o_trans c d v); [apply Hc; now left|exact L].
  Qed.
  Lemma windows_lt f meta lo hi r : In r (window_rows f meta (lo, hi)) -> exists v, key_of r = Some v /\ leb v hi = true.
  Proof.
    intro H. apply filter_In in H. destruct H as [_ H]. unfold in_interval in H. cbn [fst snd] in H. destruct (key_of r) as [v|]; [|discriminate].
    apply andb_prop in H. exists v. split; [reflexivity|]. now apply ltb_leb.
  Qed.

  Lemma concat_sorted f meta : forall cs c, StronglySorted (fun a b => leb a b = true) (c :: cs) ->
    StronglySorted (key_le leb key_of Ascending) (List.concat (tables_of Ascending f meta (windowed2 (c :: cs)))).
  Proof.
    intros cs c. unfold tables_of. rewrite concat_nonempty. revert c. induction cs as [|d cs IH]; intros c S; [constructor|].
    rewrite windowed_cons. cbn [map List.concat]. apply StronglySorted_inv in S. destruct S as [S Hc].
    apply sorted_app.
    - apply sort_sorted; [discriminate|apply window_keys].
    - now apply IH.
    - intros a b Ha Hb. assert (Ha' : In a (window_rows f meta (c, d))).
      { eapply Permutation_in; [apply (sort_perm Ascending)|exact Ha]. }
      destruct (windows_lt _ _ _ _ _ Ha') as (x & Ex & Lx).
      apply in_concat in Hb. destruct Hb as (t & Ht & Hb). apply in_map_iff in Ht. destruct Ht as (w & <- & Hw).
      assert (Hb' : In b (window_rows f meta w)) by (eapply Permutation_in; [apply (sort_perm Ascending)|exact Hb]).
      destruct (windows_ge f meta cs d S w b Hw Hb') as (y & Ey & Ly). exists x, y. repeat split; auto. eapply o_trans; eauto.
  Qed.

  (** ** Metadata *)

  Lemma mapM_app {A B} (h : A -> res B) (l1 l2 : list A) : mapM h (l1 ++ l2) = (a <- mapM h l1 ;; b <- mapM h l2 ;; Ok (a ++ b)).
  Proof.
    induction l1 as [|x l1 IH]; cbn [app mapM bind]; [now destruct (mapM h l2)|].
    destruct (h x); [|reflexivity]. cbn [bind]. rewrite IH. destruct (mapM h l1); [|reflexivity]. cbn [bind].
    now destruct (mapM h l2).
  Qed.
  Lemma mapM_map {A B} (h : A -> res B) k (l : list A) : (forall x, In x l -> h x = Ok (k x)) -> mapM h l = Ok (map k l).
  Proof.
    induction l as [|x l IH]; intro H; [reflexivity|]. cbn. rewrite (H x (or_introl eq_refl)). cbn. rewrite IH; [reflexivity|].
    intros y Hy. apply H. now right.
  Qed.

  Context (ncols c : nat) (column : string).
  Notation sound_file := (sound_file good leb key_of ncols c column).

  Definition rec_at (f : file) (cg : nat * nat) : record :=
    match nth_error f (snd cg) with
    | Some g => match nth_error (cols g) (fst cg) with
                | Some m => match statistics m with
                            | Some s => {| r_path := path m; r_min := s_min s; r_max := s_max s; row_group := snd cg; col_ix := fst cg |}
                            | None => {| r_path := ""; r_min := None; r_max := None; row_group := snd cg; col_ix := fst cg |}
                            end
                | None => {| r_path := ""; r_min := None; r_max := None; row_group := snd cg; col_ix := fst cg |}
                end
    | None => {| r_path := ""; r_min := None; r_max := None; row_group := snd cg; col_ix := fst cg |}
    end.

  Lemma records_ok f : sound_file f ->
    parquet_metadata_records ncols f = Ok (map (rec_at f) (list_prod (seq 0 ncols) (seq 0 (List.length f)))).
  Proof.
    intros [_ H]. unfold parquet_metadata_records. apply mapM_map. intros [x y] Hin. cbn [fst snd].
    apply in_prod_iff in Hin. rewrite !in_seq in Hin. unfold record_of, rec_at. cbn [fst snd].
    destruct (nth_error f y) as [g|] eqn:E; [|apply nth_error_None in E; lia].
    destruct (H g (nth_error_In _ _ E)) as (L & S & _).
    destruct (nth_error (cols g) x) as [m|] eqn:E2; [|apply nth_error_None in E2; lia].
    specialize (S m (nth_error_In _ _ E2)). now destruct (statistics m).
  Qed.

  Lemma relevant_ok f : sound_file f ->
    filter (fun r => String.eqb (r_path r) column) (map (rec_at f) (list_prod (seq 0 ncols) (seq 0 (List.length f)))) =
    map (fun i => rec_at f (c, i)) (seq 0 (List.length f)).
  Proof.
    intros [N H].
    assert (P : forall x y, x < ncols -> y < List.length f -> String.eqb (r_path (rec_at f (x, y))) column = Nat.eqb x c).
    { intros x y Hx Hy. unfold rec_at. cbn [fst snd]. destruct (nth_error f y) as [g|] eqn:E; [|apply nth_error_None in E; lia].
      destruct (H g (nth_error_In _ _ E)) as (L & S & s & mn & mx & Ec & _ & _ & _ & _ & U).
      destruct (nth_error (cols g) x) as [m|] eqn:E2; [|apply nth_error_None in E2; lia].
      pose proof (S m (nth_error_In _ _ E2)) as Sm. destruct (statistics m) as [sm|] eqn:Es; [|now destruct Sm]. cbn [r_path].
      destruct (Nat.eqb_spec x c) as [->|D].
      - rewrite E2 in Ec. injection Ec as ->. cbn. apply String.eqb_refl.
      - apply String.eqb_neq. intro Eq. apply D. eapply U; eauto. }
    assert (C : c < ncols).
    { destruct f as [|g f]; [now destruct N|]. destruct (H g (or_introl eq_refl)) as (L & _ & s & mn & mx & Ec & _).
      rewrite <- L. apply nth_error_Some. congruence. }
    assert (Q : forall k a, a + k <= ncols ->
      filter (fun r => String.eqb (r_path r) column) (map (rec_at f) (list_prod (seq a k) (seq 0 (List.length f)))) =
      if (Nat.leb a c && Nat.ltb c (a + k))%bool then map (fun i => rec_at f (c, i)) (seq 0 (List.length f)) else []).
    { induction k as [|k IH]; intros a Ha.
      - cbn [seq list_prod map filter]. rewrite Nat.add_0_r. destruct (Nat.leb_spec a c), (Nat.ltb_spec c a); try reflexivity; lia.
      - cbn [seq list_prod]. rewrite map_app, filter_app, IH by lia. rewrite map_map.
        assert (R : filter (fun r => String.eqb (r_path r) column) (map (fun x => rec_at f (a, x)) (seq 0 (List.length f))) =
                    if Nat.eqb a c then map (fun i => rec_at f (c, i)) (seq 0 (List.length f)) else []).
        { assert (G : forall l, (forall y, In y l -> y < List.length f) ->
            filter (fun r => String.eqb (r_path r) column) (map (fun x => rec_at f (a, x)) l) = if Nat.eqb a c then map (fun i => rec_at f (c, i)) l else []).
          { induction l as [|y l IHl]; intro Hl; [now destruct (Nat.eqb a c)|]. cbn [map filter]. rewrite P; [|lia|apply Hl; now left].
            rewrite IHl; [|intros z Hz; apply Hl; now right]. destruct (Nat.eqb_spec a c) as [->|D]; reflexivity. }
          apply G. intros y Hy. apply in_seq in Hy. lia. }
        rewrite R. destruct (Nat.eqb_spec a c) as [Eac|D], (Nat.leb_spec a c), (Nat.leb_spec (S a) c), (Nat.ltb_spec c (S a + k)), (Nat.ltb_spec c (a + S k));
          cbn [andb]; rewrite ?app_nil_r; try reflexivity; lia. }
    rewrite Q by lia. destruct (Nat.leb_spec 0 c), (Nat.ltb_spec c (0 + ncols)); try reflexivity; lia.
  Qed.

  Definition relevant f : list record := map (fun i => rec_at f (c, i)) (seq 0 (List.length f)).

  Lemma rec_in f r : sound_file f -> In r (relevant f) ->
    exists i g s mn mx, nth_error f i = Some g /\ r = {| r_path := column; r_min := Some mn; r_max := Some mx; row_group := i; col_ix := c |} /\
      nth_error (cols g) c = Some {| path := column; statistics := Some s |} /\ s_min s = Some mn /\ s_max s = Some mx /\
      leb mn mx = true /\ bounds good leb key_of mn mx (rows g).
  Proof.
    intros [_ H] Hr. apply in_map_iff in Hr. destruct Hr as (i & <- & Hi). apply in_seq in Hi.
    unfold rec_at. cbn [fst snd]. destruct (nth_error f i) as [g|] eqn:E; [|apply nth_error_None in E; lia].
    destruct (H g (nth_error_In _ _ E)) as (_ & _ & s & mn & mx & Ec & E1 & E2 & L & B & _).
    rewrite Ec. cbn [statistics path]. rewrite E1, E2. exists i, g, s, mn, mx. do 6 (split; [assumption || reflexivity|]). exact B.
  Qed.
  Lemma relevant_sound f : sound_file f -> forall r, In r (relevant f) -> sound good leb key_of f r.
  Proof.
    intros H r Hr. destruct (rec_in f r H Hr) as (i & g & s & mn & mx & E & -> & _ & _ & _ & _ & B).
    exists g, mn, mx. auto.
  Qed.
  Lemma relevant_rows f : rows_at f (relevant f) = all_rows f.
  Proof.
    unfold rows_at, relevant, all_rows. rewrite flat_map_concat_map, map_map, flat_map_concat_map.
    assert (G : forall i, row_group (rec_at f (c, i)) = i).
    { intro i. unfold rec_at. cbn [fst snd]. destruct (nth_error f i) as [g|]; [|reflexivity]. destruct (nth_error (cols g) c) as [m|]; [|reflexivity].
      now destruct (statistics m). }
    rewrite (map_ext _ (fun i => match nth_error f i with Some g => rows g | None => [] end)) by (intro i; now rewrite G).
    f_equal. clear. induction f as [|g f IH]; [reflexivity|]. cbn [List.length seq map]. f_equal. rewrite <- seq_shift, map_map. exact IH.
  Qed.

  (** Extremes. *)
  Lemma all_some (l : list num) : all_numbers (map Some l) = Ok l.
  Proof. unfold all_numbers. induction l as [|x l IH]; [reflexivity|]. cbn [map mapM bind]. rewrite IH. reflexivity. Qed.
  Lemma fold_max_ge (l : list num) : forall v, good v = true -> Forall (fun x => good x = true) l ->
    let m := fold_left (fun m x => if ltb m x then x else m) l v in
    In m (v :: l) /\ forall x, In x (v :: l) -> leb x m = true.
  Proof.
    induction l as [|y l IH]; intros v Gv Gl; cbn [fold_left].
    - split; [now left|]. intros x [<-|[]]. now apply o_refl.
    - apply Forall_cons_iff in Gl. destruct Gl as [Gy Gl]. set (v' := if ltb v y then y else v).
      assert (G' : good v' = true) by (unfold v'; now destruct (ltb v y)).
      destruct (IH v' G' Gl) as [A B]. split.
      + destruct A as [<-|A]; [unfold v'; destruct (ltb v y); [right; now left|now left]|right; now right].
      + assert (K : leb v v' = true /\ leb y v' = true).
        { unfold v'. destruct (ltb v y) eqn:E; split; try (now apply o_refl); [now apply ltb_leb|now apply not_lt]. }
        intros x [<-|[<-|Hx]].
        * apply (o_trans _ v'); [apply K|]. apply B. now left.
        * apply (o_trans _ v'); [apply K|]. apply B. now left.
        * apply B. now right.
  Qed.
  Lemma fold_min_le (l : list num) : forall v, good v = true -> Forall (fun x => good x = true) l ->
    let m := fold_left (fun m x => if ltb x m then x else m) l v in
    In m (v :: l) /\ forall x, In x (v :: l) -> leb m x = true.
  Proof.
    induction l as [|y l IH]; intros v Gv Gl; cbn [fold_left].
    - split; [now left|]. intros x [<-|[]]. now apply o_refl.
    - apply Forall_cons_iff in Gl. destruct Gl as [Gy Gl]. set (v' := if ltb y v then y else v).
      assert (G' : good v' = true) by (unfold v'; now destruct (ltb y v)).
      destruct (IH v' G' Gl) as [A B]. split.
      + destruct A as [<-|A]; [unfold v'; destruct (ltb y v); [right; now left|now left]|right; now right].
      + assert (K : leb v' v = true /\ leb v' y = true).
        { unfold v'. destruct (ltb y v) eqn:E; split; try (now apply o_refl); [now apply ltb_leb|now apply not_lt]. }
        intros x [<-|[<-|Hx]].
        * apply (o_trans _ v'); [|apply K]. apply B. now left.
        * apply (o_trans _ v'); [|apply K]. apply B. now left.
        * apply B. now right.
  Qed.

  Lemma extremes f : sound_file f -> exists mn mx,
    max_of ltb (map r_max (relevant f)) = Ok mx /\ min_of ltb (map r_min (relevant f)) = Ok mn /\
    has_min column f mn /\ has_max column f mx /\ leb mn mx = true /\
    forall r v, In r (all_rows f) -> key_of r = Some v -> good v = true -> leb mn v = true /\ leb v mx = true.
  Proof.
    intro H.
    assert (X : exists mns mxs, map r_min (relevant f) = map Some mns /\ map r_max (relevant f) = map Some mxs /\ mns <> [] /\ mxs <> [] /\
      Forall (fun x => good x = true) mns /\ Forall (fun x => good x = true) mxs /\
      (forall v, In v mns -> has_min column f v) /\ (forall v, In v mxs -> has_max column f v) /\
      (forall i g, nth_error f i = Some g -> exists mn mx, In mn mns /\ In mx mxs /\ leb mn mx = true /\ bounds good leb key_of mn mx (rows g))).
    { exists (flat_map (fun r => match r_min r with Some v => [v] | None => [] end) (relevant f)),
             (flat_map (fun r => match r_max r with Some v => [v] | None => [] end) (relevant f)).
      assert (R := fun r => rec_in f r H).
      assert (E1 : forall l, (forall r, In r l -> In r (relevant f)) ->
        map r_min l = map Some (flat_map (fun r => match r_min r with Some v => [v] | None => [] end) l) /\
        map r_max l = map Some (flat_map (fun r => match r_max r with Some v => [v] | None => [] end) l)).
      { induction l as [|r l IH]; intro Hl; [split; reflexivity|]. destruct (IH (fun r Hr => Hl r (or_intror Hr))) as [A B].
        destruct (R r (Hl r (or_introl eq_refl))) as (i & g & s & mn & mx & _ & -> & _). cbn. now rewrite A, B. }
      destruct (E1 (relevant f) (fun r Hr => Hr)) as [A B]. split; [exact A|]. split; [exact B|].
      assert (In1 : forall v, In v (flat_map (fun r => match r_min r with Some v => [v] | None => [] end) (relevant f)) <->
                    exists r, In r (relevant f) /\ r_min r = Some v).
      { intro v. rewrite in_flat_map. split; intros (r & Hr & Hv); exists r; (split; [exact Hr|]).
        - destruct (r_min r); [destruct Hv as [<-|[]]; reflexivity|destruct Hv].
        - rewrite Hv. now left. }
      assert (In2 : forall v, In v (flat_map (fun r => match r_max r with Some v => [v] | None => [] end) (relevant f)) <->
                    exists r, In r (relevant f) /\ r_max r = Some v).
      { intro v. rewrite in_flat_map. split; intros (r & Hr & Hv); exists r; (split; [exact Hr|]).
        - destruct (r_max r); [destruct Hv as [<-|[]]; reflexivity|destruct Hv].
        - rewrite Hv. now left. }
      assert (Nf : exists r0, In r0 (relevant f)).
      { destruct H as [N _]. destruct f as [|g f']; [now destruct N|]. cbn. eexists. left. reflexivity. }
      destruct Nf as (r0 & Hr0). destruct (R r0 Hr0) as (i0 & g0 & s0 & mn0 & mx0 & _ & E0 & _).
      split. { intro Z. assert (In mn0 []); [|contradiction]. rewrite <- Z. apply In1. exists r0. subst r0. now split. }
      split. { intro Z. assert (In mx0 []); [|contradiction]. rewrite <- Z. apply In2. exists r0. subst r0. now split. }
      split. { apply Forall_forall. intros v Hv. apply In1 in Hv. destruct Hv as (r & Hr & Ev).
        destruct (R r Hr) as (i & g & s & mn & mx & _ & -> & _ & _ & _ & _ & Bd). cbn in Ev. injection Ev as <-. apply Bd. }
      split. { apply Forall_forall. intros v Hv. apply In2 in Hv. destruct Hv as (r & Hr & Ev).
        destruct (R r Hr) as (i & g & s & mn & mx & _ & -> & _ & _ & _ & _ & Bd). cbn in Ev. injection Ev as <-. apply Bd. }
      split. { intros v Hv. apply In1 in Hv. destruct Hv as (r & Hr & Ev).
        destruct (R r Hr) as (i & g & s & mn & mx & Eg & -> & Ec & F1 & F2 & _). cbn in Ev. injection Ev as <-.
        exists g, {| path := column; statistics := Some s |}, s. repeat split; auto; eapply nth_error_In; eauto. }
      split. { intros v Hv. apply In2 in Hv. destruct Hv as (r & Hr & Ev).
        destruct (R r Hr) as (i & g & s & mn & mx & Eg & -> & Ec & F1 & F2 & _). cbn in Ev. injection Ev as <-.
        exists g, {| path := column; statistics := Some s |}, s. repeat split; auto; eapply nth_error_In; eauto. }
      intros i g Eg. assert (Hi : In (rec_at f (c, i)) (relevant f)).
      { apply in_map_iff. exists i. split; [reflexivity|]. apply in_seq. assert (i < List.length f) by (apply nth_error_Some; congruence). lia. }
      destruct (R _ Hi) as (i' & g' & s & mn & mx & Eg' & Er & _ & _ & _ & L & Bd).
      assert (i' = i).
      { assert (G : row_group (rec_at f (c, i)) = i).
        { unfold rec_at. cbn [fst snd]. destruct (nth_error f i) as [g1|]; [|reflexivity]. destruct (nth_error (cols g1) c) as [m|]; [|reflexivity].
          now destruct (statistics m). }
        rewrite Er in G. exact G. }
      subst i'. assert (g' = g) by congruence. subst g'. exists mn, mx. split; [apply In1; eexists; split; [exact Hi|rewrite Er; reflexivity]|].
      split; [apply In2; eexists; split; [exact Hi|rewrite Er; reflexivity]|]. now split. }
    destruct X as (mns & mxs & E1 & E2 & N1 & N2 & G1 & G2 & P1 & P2 & Hb).
    destruct mns as [|v1 l1]; [now destruct N1|]. destruct mxs as [|v2 l2]; [now destruct N2|].
    pose proof (proj1 (Forall_cons_iff _ _ _) G1) as [Gv1 Gl1]. pose proof (proj1 (Forall_cons_iff _ _ _) G2) as [Gv2 Gl2].
    destruct (fold_min_le l1 v1 Gv1 Gl1) as [A1 B1]. destruct (fold_max_ge l2 v2 Gv2 Gl2) as [A2 B2].
    exists (fold_left (fun m x => if ltb x m then x else m) l1 v1), (fold_left (fun m x => if ltb m x then x else m) l2 v2).
    unfold max_of, min_of. rewrite E1, E2. rewrite !all_some. cbn [map bind].
    split; [reflexivity|]. split; [reflexivity|]. split; [now apply P1|]. split; [now apply P2|]. split.
    - destruct H as [N _]. destruct f as [|g f']; [now destruct N|]. destruct (Hb 0 g eq_refl) as (mn & mx & I1 & I2 & L & _).
      apply (o_trans _ mn); [now apply B1|]. apply (o_trans _ mx); [exact L|now apply B2].
    - intros r v Hr Ev Gv. unfold all_rows in Hr. apply in_flat_map in Hr. destruct Hr as (g & Hg & Hr).
      apply In_nth_error in Hg. destruct Hg as (i & Eg). destruct (Hb i g Eg) as (mn & mx & I1 & I2 & _ & _ & _ & Bd).
      destruct (Bd r v Hr Ev Gv) as [L1 L2]. split; [apply (o_trans _ mn); [now apply B1|exact L1]|apply (o_trans _ mx); [exact L2|now apply B2]].
  Qed.

  (** ** sort_chunked *)

  Lemma snoc2 {A} (l : list A) : 2 <= List.length l -> exists p x y, l = p ++ [x; y].
  Proof.
    intro H. destruct (rev l) as [|y [|x p]] eqn:E; apply (f_equal (@rev A)) in E; rewrite rev_involutive in E; subst l; cbn in H; try lia.
    exists (rev p), x, y. cbn [rev]. now rewrite <- app_assoc.
  Qed.
  Lemma last_snoc2 {A} (p : list A) x y d : last (p ++ [x; y]) d = y.
  Proof. change [x; y] with ([x] ++ [y]). rewrite app_assoc. apply last_last. Qed.

  Lemma chunked_lemma f d p n : d <> OtherDirection -> sound_file f -> (2 <= n)%Z ->
    (forall mn mx, has_min column f mn -> has_max column f mx -> leb mn mx = true -> covers leb ltb add1 (linspace mn mx (Z.to_nat n)) mn mx) ->
    exists ts,
      sort_chunked leb ltb add1 linspace key_of ncols f column d p n =
        (let (x, out) := until (match p with Some q => q | None => Ok end) ts in (x, Some {| tables := out; closed := true |})) /\
      Permutation (List.concat ts) (filter (sortable good key_of) (all_rows f)) /\
      (forall t, In t ts -> t <> [] /\ StronglySorted (key_le leb key_of d) t) /\
      (d = Ascending -> StronglySorted (key_le leb key_of Ascending) (List.concat ts)).
  Proof.
    intros N H Hn Hc. unfold sort_chunked. rewrite (records_ok f H), (relevant_ok f H). fold (relevant f).
    destruct (extremes f H) as (mn & mx & -> & -> & A1 & A2 & L & Hk). cbn [bind].
    unfold make_windows. destruct (Z.ltb_spec n 0); [lia|]. destruct (Z.eqb_spec n 0); [lia|]. destruct (Z.eqb_spec n 1); [lia|].
    destruct (Hc mn mx A1 A2 L) as (e0 & r & Ee & Nr & L0 & S & Hmx & Hadd). rewrite Ee in *.
    set (cuts := removelast (e0 :: r) ++ [add1 (last (e0 :: r) e0)]).
    destruct (snoc2 (e0 :: r)) as (q & x & y & Eq); [destruct r; [now destruct Nr|cbn; lia]|].
    assert (Ec : cuts = q ++ [x; add1 y]).
    { unfold cuts. rewrite Eq, last_snoc2. change [x; y] with ([x] ++ [y]). rewrite app_assoc, removelast_last. now rewrite <- app_assoc. }
    assert (Ew : widen add1 (windowed2 (e0 :: r)) = windowed2 cuts) by (rewrite Eq, Ec; apply widen_cuts).
    rewrite Ew. rewrite (write_lemma d f (relevant f) p N (relevant_sound f H)). cbn [app].
    exists (tables_of d f (relevant f) (windowed2 cuts)). split.
    { destruct (until _ _); reflexivity. }
    rewrite Eq, last_snoc2 in Hmx, Hadd.
    assert (Sc : StronglySorted (fun a b => leb a b = true) cuts).
    { rewrite Ec. rewrite Eq in S. clear - S Hadd ord. induction q as [|z q IH].
      - cbn in *. apply StronglySorted_inv in S. destruct S as [_ S]. apply Forall_cons_iff in S. destruct S as [S _].
        repeat constructor. now apply (o_trans x y).
      - cbn in *. apply StronglySorted_inv in S. destruct S as [S F]. constructor; [now apply IH|].
        apply Forall_app in F. destruct F as [F1 F2]. apply Forall_app. split; [exact F1|].
        apply Forall_cons_iff in F2. destruct F2 as [F2 F3]. apply Forall_cons_iff in F3. destruct F3 as [F3 _].
        repeat constructor; [exact F2|]. now apply (o_trans z y). }
    destruct cuts as [|c0 cs] eqn:Ecuts; [destruct q; discriminate|].
    assert (c0 = e0) by (destruct q as [|z q]; cbn in Eq, Ec; congruence). subst c0.
    assert (Ncs : cs <> []) by (destruct q as [|z [|z' q]]; cbn in Ec; intros ->; congruence).
    assert (Lc : last cs e0 = add1 y).
    { assert (X : last (e0 :: cs) e0 = add1 y) by (rewrite Ec; apply last_snoc2). destruct cs; [now destruct Ncs|exact X]. }
    split; [|split].
    - rewrite concat_perm. unfold window_rows. rewrite relevant_rows.
      rewrite (chain_perm (all_rows f) cs e0 Ncs Sc), Lc.
      assert (E : filter (inside e0 (add1 y)) (all_rows f) = filter (sortable good key_of) (all_rows f)); [|rewrite E; reflexivity].
      apply filter_ext_in'. intros z Hz. unfold in_interval, sortable. destruct (key_of z) as [v|] eqn:Ev; [|reflexivity].
      destruct (good v) eqn:Gv.
      + destruct (Hk z v Hz Ev Gv) as [L1 L2]. rewrite (o_trans _ _ _ L0 L1). cbn. now apply (le_lt_trans v mx).
      + destruct (leb e0 v) eqn:E; [|reflexivity]. apply o_good in E. destruct E. congruence.
    - intros t Ht. apply filter_In in Ht. destruct Ht as [Ht1 Ht2]. apply in_map_iff in Ht1. destruct Ht1 as (w & <- & _).
      split; [intro Z; rewrite Z in Ht2; discriminate|]. apply sort_sorted; [exact N|apply window_keys].
    - intros ->. apply concat_sorted. exact Sc.
  Qed.

  Lemma other_lemma f p n ts : sound_file f -> (2 <= n)%Z ->
    sort_chunked leb ltb add1 linspace key_of ncols f column Ascending None n = (Ok tt, Some {| tables := ts; closed := true |}) ->
    sort_chunked leb ltb add1 linspace key_of ncols f column OtherDirection p n =
      (match ts with [] => Ok tt | _ => Exc ValueError end, Some {| tables := []; closed := true |}).
  Proof.
    intros H Hn. unfold sort_chunked. rewrite (records_ok f H), (relevant_ok f H). fold (relevant f).
    destruct (extremes f H) as (mn & mx & -> & -> & _). cbn [bind].
    unfold make_windows. destruct (Z.ltb_spec n 0); [lia|]. destruct (Z.eqb_spec n 0); [lia|]. destruct (Z.eqb_spec n 1); [lia|].
    rewrite (write_lemma Ascending f (relevant f) None) by (discriminate || apply (relevant_sound f H)). rewrite until_ok. cbn [app].
    rewrite (write_other f (relevant f) p (relevant_sound f H)). intros [= <-]. reflexivity.
  Qed.

  (** Too few chunks. *)
  Lemma few_chunks_lemma f d p n : sound_file f -> (n < 2)%Z ->
    exists e, sort_chunked leb ltb add1 linspace key_of ncols f column d p n =
      (Exc e, Some {| tables := []; closed := false |}).
  Proof.
    intros H Hn. unfold sort_chunked. rewrite (records_ok f H), (relevant_ok f H). fold (relevant f).
    destruct (extremes f H) as (mn & mx & -> & -> & _). cbn [bind]. unfold make_windows.
    destruct (Z.ltb_spec n 0); [eexists; reflexivity|]. destruct (Z.eqb_spec n 0); [eexists; reflexivity|].
    destruct (Z.eqb_spec n 1); [eexists; reflexivity|]. lia.
  Qed.
End Proofs.

(** ** Exact numbers *)

Lemma q_linspace_covers lo hi n : 2 <= n -> (lo <= hi)%Q -> covers Qle_bool q_ltb q_add1 (q_linspace lo hi n) lo hi.
Proof.
  intros Hn H. destruct n as [|[|n]]; [lia|lia|]. unfold q_linspace.
  set (step := ((hi - lo) / inject_Z (Z.of_nat (S (S n)) - 1))%Q).
  set (g := fun i => (lo + inject_Z (Z.of_nat i) * step)%Q).
  assert (P : (0 < inject_Z (Z.of_nat (S (S n)) - 1))%Q).
  { change 0%Q with (inject_Z 0). rewrite <- Zlt_Qlt. lia. }
  assert (St : (0 <= step)%Q).
  { unfold step. apply Qle_shift_div_l; [exact P|]. rewrite Qmult_0_l. rewrite Qle_minus_iff in H. exact H. }
  assert (G0 : (g 0%nat == lo)%Q) by (unfold g; cbn; ring).
  assert (GN : (g (S n) == hi)%Q).
  { unfold g, step. replace (Z.of_nat (S n)) with (Z.of_nat (S (S n)) - 1)%Z by lia. field. intro Z. rewrite Z in P. now apply Qlt_irrefl in P. }
  assert (Mono : forall i j, i <= j -> (g i <= g j)%Q).
  { intros i j Hij. unfold g. apply Qplus_le_r. apply Qmult_le_compat_r; [|exact St]. rewrite <- Zle_Qle. lia. }
  assert (EL : last (map g (seq 0 (S (S n)))) (g 0) = g (S n)).
  { rewrite (seq_S (S n) 0), map_app. cbn [map Nat.add]. apply last_last. }
  exists (g 0), (map g (seq 1 (S n))). split; [reflexivity|]. split; [discriminate|].
  split; [rewrite Qle_bool_iff, G0; apply Qle_refl|]. split.
  { change (StronglySorted (fun a b => Qle_bool a b = true) (map g (seq 0 (S (S n))))).
    generalize (S (S n)) as k. generalize 0 as a. intros a k. revert a. induction k as [|k IH]; intro a; [constructor|]. cbn [seq map]. constructor; [apply IH|].
    apply Forall_forall. intros x Hx. apply in_map_iff in Hx. destruct Hx as (i & <- & Hi). apply in_seq in Hi.
    rewrite Qle_bool_iff. apply Mono. lia. }
  change (g 0 :: map g (seq 1 (S n))) with (map g (seq 0 (S (S n)))).
  change (fun i => (lo + inject_Z (Z.of_nat i) * step)%Q) with g. rewrite EL.
  assert (Lt : (hi < q_add1 (g (S n)))%Q).
  { unfold q_add1. rewrite GN. rewrite <- (Qplus_0_r hi) at 1. apply Qplus_lt_r. reflexivity. }
  split.
  - unfold q_ltb. destruct (Qle_bool (q_add1 (g (S n))) hi) eqn:E; [|reflexivity]. apply Qle_bool_iff in E. exfalso.
    apply (Qlt_not_le _ _ Lt E).
  - apply Qle_bool_iff. rewrite GN at 1. now apply Qlt_le_weak.
Qed.

(** ** Together *)

Lemma sort_chunked_any : forall (num row : Type) good leb ltb add1 linspace (key_of : row -> option num) ncols c column f d n,
  ordered good leb ltb -> d <> OtherDirection -> sound_file good leb key_of ncols c column f -> (2 <= n)%Z ->
  (forall mn mx, has_min column f mn -> has_max column f mx -> leb mn mx = true ->
     covers leb ltb add1 (linspace mn mx (Z.to_nat n)) mn mx) ->
  exists ts,
    sort_chunked leb ltb add1 linspace key_of ncols f column d None n = (Ok tt, Some {| tables := ts; closed := true |}) /\
    Permutation (List.concat ts) (filter (sortable good key_of) (all_rows f)) /\
    (forall t, In t ts -> t <> [] /\ StronglySorted (key_le leb key_of d) t) /\
    (d = Ascending -> StronglySorted (key_le leb key_of Ascending) (List.concat ts)).
Proof.
  intros num row good leb ltb add1 linspace key_of ncols c column f d n ord N H Hn Hc.
  destruct (chunked_lemma good leb ltb add1 linspace key_of ord ncols c column f d None n N H Hn Hc) as (ts & E & R).
  exists ts. split; [|exact R]. rewrite E, until_ok. reflexivity.
Qed.
Lemma q_covers {row} (f : @file Q row) column n : (2 <= n)%Z -> forall mn mx, has_min column f mn -> has_max column f mx -> Qle_bool mn mx = true ->
  covers Qle_bool q_ltb q_add1 (q_linspace mn mx (Z.to_nat n)) mn mx.
Proof. intros Hn mn mx _ _ L. apply q_linspace_covers; [lia|now apply Qle_bool_iff]. Qed.
Lemma sort_chunked_q : forall (row : Type) (key_of : row -> option Q) ncols c column f d n,
  d <> OtherDirection -> sound_file (fun _ => true) Qle_bool key_of ncols c column f -> (2 <= n)%Z ->
  exists ts,
    sort_chunked Qle_bool q_ltb q_add1 q_linspace key_of ncols f column d None n = (Ok tt, Some {| tables := ts; closed := true |}) /\
    Permutation (List.concat ts) (filter (sortable (fun _ => true) key_of) (all_rows f)) /\
    (forall t, In t ts -> t <> [] /\ StronglySorted (key_le Qle_bool key_of d) t) /\
    (d = Ascending -> StronglySorted (key_le Qle_bool key_of Ascending) (List.concat ts)).
Proof.
  intros row key_of ncols c column f d n N H Hn.
  apply (sort_chunked_any Q row (fun _ => true) Qle_bool q_ltb q_add1 q_linspace key_of ncols c column f d n q_ordered N H Hn (q_covers f column n Hn)).
Qed.
Lemma sort_chunked_f : forall (row : Type) (key_of : row -> option spec_float) ncols c column f d n,
  d <> OtherDirection -> sound_file f_good SFleb key_of ncols c column f -> (2 <= n)%Z ->
  (forall mn mx, has_min column f mn -> has_max column f mx -> SFleb mn mx = true ->
     covers SFleb SFltb f_add1 (f_linspace mn mx (Z.to_nat n)) mn mx) ->
  exists ts,
    sort_chunked SFleb SFltb f_add1 f_linspace key_of ncols f column d None n = (Ok tt, Some {| tables := ts; closed := true |}) /\
    Permutation (List.concat ts) (filter (sortable f_good key_of) (all_rows f)) /\
    (forall t, In t ts -> t <> [] /\ StronglySorted (key_le SFleb key_of d) t) /\
    (d = Ascending -> StronglySorted (key_le SFleb key_of Ascending) (List.concat ts)).
Proof.
  intros row key_of ncols c column f d n. exact (sort_chunked_any spec_float row f_good SFleb SFltb f_add1 f_linspace key_of ncols c column f d n f_ordered).
Qed.
Lemma processor_q : forall (row : Type) (key_of : row -> option Q) ncols c column f d n p,
  d <> OtherDirection -> sound_file (fun _ => true) Qle_bool key_of ncols c column f -> (2 <= n)%Z ->
  exists ts,
    sort_chunked Qle_bool q_ltb q_add1 q_linspace key_of ncols f column d None n = (Ok tt, Some {| tables := ts; closed := true |}) /\
    sort_chunked Qle_bool q_ltb q_add1 q_linspace key_of ncols f column d (Some p) n =
      (fst (until p ts), Some {| tables := snd (until p ts); closed := true |}).
Proof.
  intros row key_of ncols c column f d n p N H Hn.
  unfold sort_chunked. rewrite (records_ok _ _ _ ncols c column f H), (relevant_ok _ _ _ ncols c column f H).
  fold (relevant c f). destruct (extremes _ _ _ key_of q_ordered ncols c column f H) as (mn & mx & -> & -> & _). cbn [bind].
  unfold make_windows. destruct (Z.ltb_spec n 0); [lia|]. destruct (Z.eqb_spec n 0); [lia|]. destruct (Z.eqb_spec n 1); [lia|].
  set (ws := widen q_add1 (windowed2 (q_linspace mn mx (Z.to_nat n)))).
  exists (tables_of Qle_bool q_ltb key_of d f (relevant c f) ws).
  rewrite !(write_lemma _ _ _ key_of q_ordered d f (relevant c f) _ N (relevant_sound _ _ key_of ncols c column f H)).
  rewrite until_ok. split; [reflexivity|]. cbn [app]. now destruct (until p _).
Qed.
Lemma few_chunks_q : forall (row : Type) (key_of : row -> option Q) ncols c column f d p n,
  sound_file (fun _ => true) Qle_bool key_of ncols c column f -> (n < 2)%Z ->
  exists e, sort_chunked Qle_bool q_ltb q_add1 q_linspace key_of ncols f column d p n = (Exc e, Some {| tables := []; closed := false |}).
Proof. intros row key_of ncols c column f d p n. exact (few_chunks_lemma _ _ _ _ _ key_of q_ordered ncols c column f d p n). Qed.
Lemma records_lemma : forall (num row : Type) good leb (key_of : row -> option num) ncols c column f,
  sound_file good leb key_of ncols c column f ->
  exists recs, parquet_metadata_records ncols f = Ok recs /\
    map (fun r => (col_ix r, row_group r)) recs = list_prod (seq 0 ncols) (seq 0 (List.length f)) /\
    map (@row_group num) (filter (fun r => String.eqb (r_path r) column) recs) = seq 0 (List.length f).
Proof.
  intros num row good leb key_of ncols c column f H. eexists. split; [apply (records_ok _ _ _ _ _ _ f H)|].
  assert (G : forall cg, col_ix (rec_at f cg) = fst cg /\ row_group (rec_at f cg) = snd cg).
  { intro cg. unfold rec_at. destruct (nth_error f (snd cg)) as [g|]; [|auto]. destruct (nth_error (cols g) (fst cg)) as [m|]; [|auto].
    destruct (statistics m); auto. }
  split.
  - rewrite map_map. rewrite <- (map_id (list_prod _ _)) at 2. apply map_ext. intros [x y]. destruct (G (x, y)) as [A B]. now rewrite A, B.
  - rewrite (relevant_ok _ _ _ _ _ _ f H), map_map. rewrite <- (map_id (seq 0 _)) at 2. apply map_ext. intro i. apply G.
Qed.
Lemma read_any : forall (num row : Type) good leb ltb (key_of : row -> option num) lo hi f meta,
  ordered good leb ltb -> (forall r, In r meta -> sound good leb key_of f r) ->
  exists o, read_between leb ltb key_of f lo hi meta = Ok o /\
    match o with
    | None => (forall r, In r meta -> apart ltb lo hi r) /\ filter (in_interval leb ltb key_of lo hi) (rows_at f meta) = []
    | Some t => ~ (forall r, In r meta -> apart ltb lo hi r) /\ t = filter (in_interval leb ltb key_of lo hi) (rows_at f meta)
    end.
Proof. intros num row good leb ltb key_of lo hi f meta ord. exact (read_lemma good leb ltb key_of ord lo hi f meta). Qed.

Lemma sorted_first {A} (P : A -> A -> Prop) x y l : StronglySorted P (x :: y :: l) -> P x y.
Proof. intro S. apply StronglySorted_inv in S. destruct S as [_ S]. apply Forall_cons_iff in S. apply S. Qed.

Lemma other_direction : forall (row : Type) (key_of : row -> option Q) ncols c column f p n,
  sound_file (fun _ => true) Qle_bool key_of ncols c column f -> (2 <= n)%Z ->
  sort_chunked Qle_bool q_ltb q_add1 q_linspace key_of ncols f column OtherDirection p n =
    (if existsb (sortable (fun _ => true) key_of) (all_rows f) then Exc ValueError else Ok tt, Some {| tables := []; closed := true |}).
Proof.
  intros row key_of ncols c column f p n H Hn.
  destruct (sort_chunked_q row key_of ncols c column f Ascending n ltac:(discriminate) H Hn) as (ts & E & P & F & _).
  rewrite (other_lemma (fun _ => true) Qle_bool q_ltb q_add1 q_linspace key_of q_ordered ncols c column f p n ts H Hn E). f_equal.
  destruct ts as [|t ts].
  - apply Permutation_nil in P. destruct (existsb _ _) eqn:X; [|reflexivity]. apply existsb_exists in X.
    destruct X as (r & Hr & Hs). assert (Hin : In r []) by (rewrite <- P; apply filter_In; now split). destruct Hin.
  - destruct (F t (or_introl eq_refl)) as [Ne _]. destruct t as [|r t]; [now destruct Ne|].
    assert (Hin : In r (filter (sortable (fun _ => true) key_of) (all_rows f))).
    { eapply Permutation_in; [exact P|]. left. reflexivity. }
    apply filter_In in Hin. destruct (existsb _ _) eqn:X; [reflexivity|].
    assert (X' : existsb (sortable (fun _ => true) key_of) (all_rows f) = true) by (apply existsb_exists; exists r; exact Hin). congruence.
Qed.

Lemma f_edges lo hi n d : 2 <= n -> List.length (f_linspace lo hi n) = n /\ last (f_linspace lo hi n) d = hi.
Proof.
  intro Hn. unfold f_linspace. rewrite map_length, seq_length. split; [reflexivity|].
  destruct n as [|n]; [lia|]. rewrite seq_S, map_app. cbn [map plus]. rewrite last_last.
  rewrite Nat.eqb_refl. destruct (Nat.ltb_spec 1 (S n)); [reflexivity|lia].
Qed.

(** ** Missing statistics *)
Lemma mapM_exc {A B} (h : A -> res B) e l : (forall y, In y l -> (exists b, h y = Ok b) \/ h y = Exc e) -> (exists x, In x l /\ h x = Exc e) -> mapM h l = Exc e.
Proof.
  intros Hall (x & Hx & E). induction l as [|y l IH]; [destruct Hx|]. cbn [mapM].
  destruct (Hall y (or_introl eq_refl)) as [[b Eb]|Ee]; [|now rewrite Ee]. rewrite Eb. cbn [bind].
  destruct Hx as [->|Hx]; [congruence|]. rewrite IH; auto. intros z Hz. apply Hall. now right.
Qed.
Lemma no_statistics {num row} leb ltb add1 linspace (key_of : row -> option num) ncols f column d p n g m :
  (forall gr, In gr f -> List.length (cols gr) = ncols) -> In g f -> In m (cols g) -> statistics m = None ->
  sort_chunked leb ltb add1 linspace key_of ncols f column d p n = (Exc TypeError, None).
Proof.
  intros Hf Hg Hm Hs. unfold sort_chunked, parquet_metadata_records. rewrite (mapM_exc _ TypeError); [reflexivity| |].
  - intros [c k] Hin. apply in_prod_iff in Hin as [Hc Hk]. apply in_seq in Hc, Hk. unfold record_of. cbn [fst snd].
    destruct (nth_error f k) as [gr|] eqn:Eg; [|apply nth_error_None in Eg; lia].
    destruct (nth_error (cols gr) c) as [m'|] eqn:Em; [|apply nth_error_None in Em; rewrite (Hf gr) in Em by (eapply nth_error_In; eauto); lia].
    destruct (statistics m'); [left; eexists; reflexivity|now right].
  - apply In_nth_error in Hg as (k & Eg). assert (Hc : In g f) by (eapply nth_error_In; eauto). apply In_nth_error in Hm as (c & Em).
    exists (c, k). split.
    + apply in_prod_iff. rewrite !in_seq. split; [|assert (nth_error f k <> None) by congruence; apply nth_error_Some in H; lia].
      assert (H : nth_error (cols g) c <> None) by congruence. apply nth_error_Some in H. rewrite (Hf g Hc) in H. lia.
    + unfold record_of. cbn [fst snd]. now rewrite Eg, Em, Hs.
Qed.
Lemma no_bounds {num row} leb ltb add1 linspace (key_of : row -> option num) ncols f column d p n recs r :
  parquet_metadata_records ncols f = Ok recs -> In r recs -> r_path r = column -> r_min r = None \/ r_max r = None ->
  sort_chunked leb ltb add1 linspace key_of ncols f column d p n = (Exc TypeError, Some {| tables := []; closed := false |}).
Proof.
  intros Hr Hin Hp Hn. unfold sort_chunked. rewrite Hr. set (rel := filter _ recs). assert (HI : In r rel) by (apply filter_In; split; [exact Hin|rewrite Hp; apply String.eqb_refl]).
  assert (HA : forall (h : record -> option num), h r = None -> all_numbers (map h rel) = Exc TypeError).
  { intros h E. unfold all_numbers. apply mapM_exc; [intros [x|] _; eauto|]. exists None. split; [|reflexivity]. rewrite <- E. now apply in_map. }
  assert (HN : forall h : record -> option num, all_numbers (map h rel) = Exc TypeError \/ exists v vs, all_numbers (map h rel) = Ok (v :: vs)).
  { intro h. unfold all_numbers. clear - HI. destruct rel as [|r0 rel]; [destruct HI|]. cbn [map mapM].
    destruct (h r0) as [v|]; [|now left]. cbn [bind]. clear HI. induction rel as [|r1 rel IH]; [right; exists v, []; reflexivity|]. cbn [map mapM].
    destruct (h r1) as [v1|]; [|now left]. cbn [bind]. destruct (mapM _ (map h rel)) as [vs|e]; cbn [bind] in *; [right; eauto|].
    destruct IH as [E|(a & b & E)]; [left; exact E|discriminate]. }
  assert (Hmx : max_of ltb (map (@r_max num) rel) = (vs <- all_numbers (map (@r_max num) rel) ;; match vs with [] => Exc ValueError | v :: r => Ok (fold_left (fun m x => if ltb m x then x else m) r v) end)).
  { destruct rel; [destruct HI|reflexivity]. }
  assert (Hmn : min_of ltb (map (@r_min num) rel) = (vs <- all_numbers (map (@r_min num) rel) ;; match vs with [] => Exc ValueError | v :: r => Ok (fold_left (fun m x => if ltb x m then x else m) r v) end)).
  { destruct rel; [destruct HI|reflexivity]. }
  rewrite Hmx, Hmn. destruct (HN (@r_max num)) as [E|(v & vs & E)]; rewrite E; cbn [bind]; [reflexivity|].
  destruct Hn as [Hn|Hn]; [rewrite (HA _ Hn); reflexivity|]. rewrite (HA _ Hn) in E. discriminate.
Qed.
