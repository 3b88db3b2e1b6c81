(** smash, typed_columns, unpack. *)
From Verif Require Import Addr_Facts.
From Verif Require Export Frame_Rows.
Open Scope nat_scope.

Lemma append_assoc_s (a b c : string) : ((a ++ b) ++ c)%string = (a ++ (b ++ c))%string.
Proof. induction a; cbn; [reflexivity|now f_equal]. Qed.

(** ** smash *)

Lemma join_ok l : join_strings l = String.concat "_" l.
Proof.
  destruct l as [|s r]; [reflexivity|]. cbn [join_strings].
  revert s; induction r as [|t r IH]; intro s; [reflexivity|]. cbn [fold_left]. rewrite IH.
  destruct r as [|u r]; cbn [String.concat]; [reflexivity|]. rewrite !append_assoc_s. reflexivity.
Qed.

Section Smash.
  Context {cell : Type}.
  Context (isna : cell -> bool) (ceq : cell -> cell -> bool) (cstr : cell -> string).
  Implicit Types (df : frame cell).

  Lemma mask_all {A B} (l : list A) (g : list B) : List.length l = List.length g -> mask (map (fun _ => true) g) l = l.
  Proof.
    revert l; induction g as [|x g IH]; intros [|y l] H; try discriminate; [reflexivity|]. cbn [map]. rewrite mask_cons. f_equal. apply IH. now injection H.
  Qed.
  Lemma flat_map_nth {A B} (f : A -> list B) n l : (forall x, In x l -> List.length (f x) = n) ->
    List.length (flat_map f l) = List.length l * n /\
    forall j i x, nth_error l j = Some x -> i < n -> nth_error (flat_map f l) (j * n + i) = nth_error (f x) i.
  Proof.
    induction l as [|y l IH]; intro H.
    - split; [reflexivity|]. intros [|j] i x E; discriminate.
    - destruct IH as [A1 A2]; [intros; apply H; now right|]. cbn [flat_map]. rewrite app_length, A1, (H y) by now left.
      split; [reflexivity|]. intros [|j] i x E Hi.
      + injection E as ->. cbn [Nat.mul Nat.add]. rewrite nth_error_app1; [reflexivity|]. rewrite (H x) by now left. exact Hi.
      + cbn in E. rewrite nth_error_app2 by (rewrite (H y) by (now left); lia). rewrite (H y) by now left.
        replace (S j * n + i - n) with (j * n + i) by lia. now apply A2.
  Qed.
  Lemma smash_ok df by_ : rectangular df -> distinct_labels (names df) -> Forall (fun n => key_in n (names df) = true) by_ ->
    key_in (KStr "value") (names df) = false -> exists out others rest,
    smash isna ceq cstr df by_ None = Ok out /\
    sorted_out (fun c => key_in (fst c) by_ = false) (columns df) others rest /\
    List.length out = List.length others * List.length (labels df) /\
    forall j i c, nth_error others j = Some c -> i < List.length (labels df) -> exists r v,
      cells_at df by_ i r /\ nth_error (snd c) i = Some v /\
      nth_error out (j * List.length (labels df) + i) = Some (String.concat "_" (map cstr r ++ [py_str (fst c)]), v).
  Proof.
    intros R D F V. destruct (columns_found df by_ D F) as [sel [A B]]. unfold smash. rewrite B. cbn [bind]. rewrite V, concat_single.
    set (n := List.length (labels df)).
    set (f := fun c : key * list cell => _).
    set (others := filter _ (columns df)).
    assert (LF : forall c, In c (columns df) -> List.length (f c) = n).
    { intros c Hc. unfold f. rewrite map_length, combine_length. unfold rectangular in R. rewrite Forall_forall in R. specialize (R c Hc). fold n in R.
      rewrite !mask_all; rewrite ?map_length, ?seq_length; [lia|exact R|reflexivity]. }
    assert (I : forall c, In c others -> In c (columns df)) by (intros c Hc; apply filter_In in Hc; tauto).
    destruct (flat_map_nth f n others) as [L N]; [auto|].
    exists (flat_map f others), others, (filter (fun c => negb (negb (key_in (fst c) by_))) (columns df)).
    split; [reflexivity|]. split; [|split; [exact L|]].
    - apply sorted_out_filter. intros c _. apply negb_true_iff.
    - intros j i c E Hi. rewrite (N j i c E Hi). clear N L.
      assert (Hc : In c (columns df)) by (apply I; eapply nth_error_In; eauto).
      assert (Lc : List.length (snd c) = n). { unfold rectangular in R. rewrite Forall_forall in R. apply R, Hc. }
      set (r := somes (row {| labels := labels df; columns := sel |} i)).
      assert (CA : cells_at df by_ i r) by (apply sel_row; auto).
      destruct (nth_error (snd c) i) as [v|] eqn:G; [|apply nth_error_None in G; lia].
      exists r, v. split; [exact CA|]. split; [reflexivity|].
      unfold f. rewrite !mask_all; rewrite ?map_length, ?seq_length; [|exact Lc|reflexivity].
      rewrite nth_error_map.
      assert (Q : forall {X Y} (a : list X) (b : list Y) i x y, nth_error a i = Some x -> nth_error b i = Some y -> nth_error (combine a b) i = Some (x, y)).
      { clear. intros X Y a. induction a as [|p a IH]; intros [|q b] [|i] x y H G; try discriminate.
        - cbn in *. congruence.
        - cbn in *. now apply IH. }
      erewrite Q; [|rewrite nth_error_map; rewrite (nth_error_nth' _ 0) by (rewrite seq_length; exact Hi); rewrite seq_nth by exact Hi; reflexivity|exact G].
      cbn [option_map fst snd]. rewrite join_ok. reflexivity.
  Qed.
  Lemma smash_value df by_ vals : rectangular df -> distinct_labels (names df) -> Forall (fun n => key_in n (names df) = true) by_ ->
    key_in (KStr "value") (names df) = true -> smash isna ceq cstr df by_ vals = Exc ValueError.
  Proof.
    intros R D F V. destruct (columns_found df by_ D F) as [sel [A B]]. unfold smash. rewrite B. cbn [bind]. now rewrite V.
  Qed.
  Lemma smash_missing df by_ vals n : In n by_ -> key_in n (names df) = false -> smash isna ceq cstr df by_ vals = Exc KeyError.
  Proof.
    intros I H. assert (S := select_missing df by_ n I H). unfold select_rows in S. unfold smash.
    destruct (mapM _ by_); [discriminate|]. injection S as ->. reflexivity.
  Qed.

  (** With values: the rows that have them. *)
  Lemma find_loc df m k : find (labelled k) (columns (loc_rows df m)) = option_map (fun c => (fst c, mask m (snd c))) (find (labelled k) (columns df)).
  Proof.
    cbn [columns loc_rows]. induction (columns df) as [|c l IH]; [reflexivity|]. cbn [map find]. unfold labelled at 1 3. cbn [fst].
    destruct (keqb (fst c) k); [reflexivity|exact IH].
  Qed.
  Lemma names_loc df m : names (loc_rows df m) = names df.
  Proof. unfold names, loc_rows; cbn [columns]; rewrite map_map; reflexivity. Qed.
  Lemma somes_row_sel df (sel : list (key * list cell)) i : somes (row {| labels := labels df; columns := sel |} i) = somes (map (fun c => nth_error (snd c) i) sel).
  Proof. reflexivity. Qed.
  Lemma mask_rows (sel : list (key * list cell)) m n (g : list cell -> list string) : Forall (fun c => List.length (snd c) = n) sel -> List.length m = n ->
    map (fun i => g (somes (map (fun c => nth_error (snd c) i) (map (fun c => (fst c, mask m (snd c))) sel)))) (seq 0 (List.length (mask m (seq 0 n)))) =
    mask m (map (fun i => g (somes (map (fun c => nth_error (snd c) i) sel))) (seq 0 n)).
  Proof.
    intros F L. rewrite mask_of_map. set (P := mask m (seq 0 n)).
    transitivity (map (fun i => g (somes (map (fun c => nth_error (snd c) i) sel))) (map (fun j => nth j P 0) (seq 0 (List.length P)))); [|now rewrite self_nth].
    rewrite map_map. apply map_ext_in. intros j Hj. apply in_seq in Hj. f_equal. f_equal. rewrite map_map. apply map_ext_in. intros c Hc. cbn [snd].
    rewrite Forall_forall in F. specialize (F c Hc).
    destruct (snd c) as [|v s] eqn:E.
    { cbn in F. assert (Z : P = []) by (unfold P; rewrite <- F; apply mask_nil_r). rewrite Z in Hj. cbn in Hj. lia. }
    rewrite <- E in *.
    assert (M : mask m (snd c) = map (fun i => nth i (snd c) v) P).
    { unfold P. rewrite <- mask_of_map, <- F, self_nth. reflexivity. }
    rewrite M, nth_error_map, (nth_error_nth' P 0) by lia. cbn [option_map]. symmetry. apply nth_error_nth'.
    assert (I : In (nth j P 0) P) by (apply nth_In; lia). rewrite F. revert I. generalize (nth j P 0). unfold P. intros x Hx.
    assert (J : forall {A} m (l : list A) x, In x (mask m l) -> In x l).
    { clear. intros A m; induction m as [|b m IH]; intros [|y l] x H; try (cbn in H; tauto).
      rewrite mask_cons in H. destruct b; [destruct H as [->|H]; [now left|]|]; right; eapply IH; eauto. }
    apply J in Hx. apply in_seq in Hx. lia.
  Qed.
  Lemma cin_ok v vs : cin isna ceq v vs = true <-> among isna ceq v vs.
  Proof.
    unfold cin, among. rewrite existsb_exists. split; intros [w [H G]]; exists w; (split; [exact H|]);
      rewrite orb_true_iff, andb_true_iff in *; exact G.
  Qed.
  Lemma smash_values df by_ vs : rectangular df -> distinct_labels (names df) -> Forall (fun n => key_in n (names df) = true) by_ -> exists m,
    List.length m = List.length (labels df) /\
    (forall i, i < List.length (labels df) -> exists r, cells_at df by_ i r /\ (nth i m false = true <-> Forall (fun v => among isna ceq v vs) r)) /\
    smash isna ceq cstr df by_ (Some vs) = smash isna ceq cstr (loc_rows df m) by_ None.
  Proof.
    intros R D F. destruct (columns_found df by_ D F) as [sel [A B]].
    set (n := List.length (labels df)).
    set (m := map (fun i => forallb (fun v => cin isna ceq v vs) (somes (row {| labels := labels df; columns := sel |} i))) (seq 0 n)).
    assert (Lm : List.length m = n) by (unfold m; rewrite map_length, seq_length; reflexivity).
    exists m. split; [exact Lm|]. split.
    - intros i Hi. exists (somes (row {| labels := labels df; columns := sel |} i)). split; [apply sel_row; auto|].
      unfold m. rewrite nth_indep with (d' := forallb (fun v => cin isna ceq v vs) (somes (row {| labels := labels df; columns := sel |} 0))) by (rewrite map_length, seq_length; exact Hi).
      rewrite (map_nth (fun i => forallb (fun v => cin isna ceq v vs) (somes (row {| labels := labels df; columns := sel |} i)))), seq_nth by exact Hi.
      cbn [Nat.add]. rewrite forallb_forall, Forall_forall. split; intros H v Hv; apply cin_ok, H, Hv.
    - destruct (columns_found (loc_rows df m) by_) as [sel' [A' B']]; [now rewrite names_loc|now rewrite names_loc|].
      unfold smash. rewrite B, B'. cbn [bind]. rewrite !concat_single, names_loc.
      destruct (key_in _ (names df)); [reflexivity|]. f_equal.
      assert (SS : sel' = map (fun c => (fst c, mask m (snd c))) sel).
      { clear -A A'. clearbody m. revert sel' A'. induction A as [|k c l sel H G IH]; intros sel' A'; inversion A'; subst; [reflexivity|].
        rewrite find_loc, H in H2. cbn in H2. injection H2 as <-. cbn. f_equal. now apply IH. }
      fold n. fold m. rewrite SS.
      assert (FL : Forall (fun c : key * list cell => List.length (snd c) = n) sel).
      { apply Forall_forall. intros c Hc.
        assert (X : In c (columns df)). { clear -A Hc. induction A as [|k c' l sel H G IH]; [destruct Hc|]. destruct Hc as [->|Hc]; [eapply find_in_columns; eauto|auto]. }
        unfold rectangular in R. rewrite Forall_forall in R. apply R, X. }
      assert (LL : List.length (labels (loc_rows df m)) = List.length (mask m (seq 0 n))).
      { cbn [labels loc_rows]. apply mask_len. rewrite seq_length. reflexivity. }
      cbn [columns loc_rows] in *. rewrite LL.
      assert (FF : filter (fun c : key * list cell => negb (key_in (fst c) by_)) (map (fun c => (fst c, mask m (snd c))) (columns df)) =
        map (fun c => (fst c, mask m (snd c))) (filter (fun c => negb (key_in (fst c) by_)) (columns df))).
      { generalize (columns df). intro l. induction l as [|c l IH]; [reflexivity|]. cbn. destruct (negb _); cbn; now rewrite IH. }
      rewrite FF, (flat_map_concat_map _ (map _ _)), map_map, <- flat_map_concat_map. clear FF.
      assert (FX : forall (X Y : Type) (f g : X -> list Y) l, (forall x, In x l -> f x = g x) -> flat_map f l = flat_map g l).
      { clear. intros X Y f g l H. induction l as [|x l IH]; [reflexivity|]. cbn. rewrite (H x) by now left. f_equal. apply IH. intros; apply H; now right. }
      apply FX. intros c Hc. cbn [fst snd]. f_equal.
      assert (Lc : List.length (snd c) = n). { apply filter_In in Hc. unfold rectangular in R. rewrite Forall_forall in R. apply R, Hc. }
      f_equal.
      + rewrite mask_all by (rewrite !map_length; reflexivity).
        symmetry. etransitivity; [|apply (mask_rows sel m n (map cstr) FL Lm)]. reflexivity.
      + rewrite mask_all; [reflexivity|]. rewrite seq_length. apply mask_len. rewrite seq_length. exact Lc.
  Qed.
End Smash.

(** ** Types *)

Lemma prefix_ok t s : prefix t s = true <-> exists rest, s = (t ++ rest)%string.
Proof.
  revert s; induction t as [|c t IH]; intro s.
  - split; [intros _; exists s; reflexivity|]. intros _. destruct s; reflexivity.
  - destruct s as [|d s]; cbn.
    + split; [discriminate|]. intros [r H]. discriminate.
    + destruct (ascii_dec c d) as [->|N].
      * rewrite IH. split; intros [r H]; exists r; [now f_equal|now injection H].
      * split; [discriminate|]. intros [r H]. congruence.
Qed.
Lemma matches_ok l s : matches l s = true <-> starts l s.
Proof.
  unfold starts. destruct l as [|t0 l0] eqn:E; [split; [auto|reflexivity]|]. cbn [matches]. rewrite <- E, existsb_exists. split.
  - intros [t [H P]]. apply prefix_ok in P. destruct P as [rest P]. right. exists t, rest. auto.
  - intros [H|[t [rest [H P]]]]; [congruence|]. exists t. split; [exact H|]. apply prefix_ok. eauto.
Qed.
Lemma matches_u_ok l s : matches_u l s = true <-> starts_u l s.
Proof.
  unfold matches_u, starts_u. rewrite orb_true_iff, matches_ok. split; (intros [H|H]; [auto|]).
  - destruct s as [|c s]; [discriminate|]. right. exists s.
    destruct (ascii_dec c "u"%char) as [->|N]; [split; [reflexivity|now apply matches_ok]|].
    exfalso. destruct c as [b0 b1 b2 b3 b4 b5 b6 b7]. destruct b0, b1, b2, b3, b4, b5, b6, b7; try discriminate; now apply N.
  - destruct H as [r [-> H]]. right. now apply matches_ok.
Qed.
Section Typed.
  Context {column : Type}.
  Implicit Types (df : list (@typed column)).
  Lemma typed_ok df names : distinct_labels (map t_name df) -> exists rest,
    sorted_out (fun c => starts_u (map lower names) (lower (t_type c))) df (typed_columns df names) rest.
  Proof.
    intro D. exists (filter (fun c => negb (matches_u (map lower names) (lower (t_type c)))) df).
    unfold typed_columns. set (f := fun c : typed => matches_u _ _).
    assert (E : flat_map (fun n => filter (fun c => keqb (t_name c) n) df) (map t_name (filter f df)) = filter f df).
    { assert (G : forall l, incl l df -> flat_map (fun n => filter (fun c => keqb (t_name c) n) df) (map t_name l) = l).
      { intro l. induction l as [|c l IH]; intro I; [reflexivity|]. cbn [map flat_map]. rewrite IH by (intros x Hx; apply I; now right).
        change (c :: l) with ([c] ++ l). f_equal. assert (Hc := I c (or_introl eq_refl)). clear -D Hc.
        induction df as [|d df IH]; [destruct Hc|]. cbn [map distinct_labels] in D. destruct D as [D1 D2]. rewrite Forall_map, Forall_forall in D1. cbn [filter].
        destruct Hc as [->|Hc].
        - rewrite keqb_refl. f_equal. clear -D1. induction df as [|d df IH]; [reflexivity|]. cbn. rewrite (D1 d) by now left. apply IH. intros; apply D1; now right.
        - rewrite keqb_sym, (D1 c Hc). auto. }
      apply G. intros x Hx. apply filter_In in Hx. tauto. }
    rewrite E. apply sorted_out_filter. intros c _. apply matches_u_ok.
  Qed.
  Lemma series_ok (s : @typed column) names : 
    (typed_series s names = Some s <-> starts (map lower names) (lower (t_type s))) /\
    (typed_series s names = None <-> ~ starts (map lower names) (lower (t_type s))).
  Proof.
    unfold typed_series. destruct (matches _ _) eqn:E.
    - apply matches_ok in E. split; split; auto; try discriminate. intro; contradiction.
    - assert (~ starts (map lower names) (lower (t_type s))) by (intro H; apply matches_ok in H; congruence).
      split; split; auto; try discriminate. intro; contradiction.
  Qed.
End Typed.
