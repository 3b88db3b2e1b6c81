(** unpack and unpack_column. *)
From Verif Require Import Addr_Facts.
From Verif Require Export Frame_More.
Open Scope nat_scope.

Section U.
  Context {cell : Type} (none nan : cell).

  Definition listed (s : list (key * option (list cell))) : list (key * list cell) := somes (map (fun p => option_map (pair (fst p)) (snd p)) s).
  Lemma width_ok (ls : list (list cell)) : longest ls (width ls).
  Proof.
    unfold width. induction ls as [|l ls [A B]]; [split; [intros l []|now left]|]. cbn [map fold_right]. split.
    - intros x [->|Hx]; [lia|]. specialize (A x Hx). lia.
    - destruct (Nat.max_spec (List.length l) (fold_right Nat.max 0 (map (@List.length cell) ls))) as [[H ->]|[H ->]].
      + destruct B as [B|[x [Hx E]]]; [now left|]. right. exists x. split; [now right|exact E].
      + right. exists l. split; [now left|reflexivity].
  Qed.
  Lemma longest_fun (ls : list (list cell)) v w : longest ls v -> longest ls w -> v = w.
  Proof.
    intros [A B] [C D]. apply Nat.le_antisymm.
    - destruct B as [->|[l [H <-]]]; [lia|auto].
    - destruct D as [->|[l [H <-]]]; [lia|auto].
  Qed.
  Lemma pad_nth n (l : list cell) i : nth i (pad none n l) none = nth i l none.
  Proof.
    unfold pad. destruct (Nat.lt_ge_cases i (List.length l)).
    - now apply app_nth1.
    - rewrite app_nth2 by lia. rewrite (nth_overflow l) by lia.
      generalize (i - List.length l). generalize (n - List.length l). intro a. induction a as [|a IH]; intros [|b]; cbn; auto.
  Qed.
  Lemma listed_ok s : exists kept rest, sorted_out (fun p => exists l, snd p = Some l) s kept rest /\
    map fst kept = map fst (listed s) /\ Forall2 (fun p l => snd p = Some l) kept (map snd (listed s)).
  Proof.
    induction s as [|[k [l|]] s IH].
    - exists [], []. split; [constructor|]. split; [reflexivity|constructor].
    - destruct IH as (a & b & A & B & D). exists ((k, Some l) :: a), b. split; [constructor; [now exists l|exact A]|].
      cbn. split; [now rewrite B|]. constructor; [reflexivity|exact D].
    - destruct IH as (a & b & A & B & D). exists a, ((k, None) :: b). split; [constructor; [intros [l H]; discriminate|exact A]|].
      split; [exact B|exact D].
  Qed.
  Lemma unpack_ok name s : exists kept rest ls,
    sorted_out (fun p => exists l, snd p = Some l) s kept rest /\ Forall2 (fun p l => snd p = Some l) kept ls /\
    fst (unpack none name s) = map fst kept /\
    longest ls (List.length (snd (unpack none name s))) /\
    forall i, i < List.length (snd (unpack none name s)) -> nth_error (snd (unpack none name s)) i = Some (part_name name i, map (fun l => nth i l none) ls).
  Proof.
    destruct (listed_ok s) as (a & b & A & B & D). exists a, b, (map snd (listed s)).
    split; [exact A|]. split; [exact D|]. unfold unpack. cbn [fst snd]. fold (listed s). rewrite map_length, seq_length.
    split; [now rewrite B|]. split; [apply width_ok|]. intros i Hi. rewrite nth_error_map.
    rewrite (nth_error_nth' _ 0) by (rewrite seq_length; exact Hi). rewrite seq_nth by exact Hi. cbn [option_map Nat.add].
    unfold part_name. do 2 f_equal. rewrite map_map. apply map_ext. intro p. apply pad_nth.
  Qed.

  (** Writing columns *)
  Lemma called_eq {V} k (c : string * V) : called k c = String.eqb (fst c) k.
  Proof. reflexivity. Qed.
  Lemma set_find ix uix name new l k :
    find (called k) (set_column nan ix uix name new l) =
    if String.eqb name k
    then Some (name, overwrite ix (match find (called name) l with Some o => snd o | None => repeat nan (List.length ix) end) uix new)
    else find (called k) l.
  Proof.
    induction l as [|c l IH]; cbn [set_column].
    - cbn [find]. rewrite !called_eq. cbn [fst]. destruct (String.eqb name k); reflexivity.
    - destruct (String.eqb (fst c) name) eqn:E.
      + cbn [find]. rewrite !called_eq. cbn [fst]. rewrite E. apply String.eqb_eq in E.
        destruct (String.eqb name k) eqn:F; [reflexivity|]. rewrite E, F. reflexivity.
      + cbn [find]. rewrite !called_eq. rewrite E. destruct (String.eqb (fst c) k) eqn:F.
        * destruct (String.eqb name k) eqn:G; [|reflexivity]. apply String.eqb_eq in F, G. rewrite F, <- G, String.eqb_refl in E. discriminate.
        * exact IH.
  Qed.
  Lemma set_names ix uix name new (l : list (string * list cell)) :
    map fst (set_column nan ix uix name new l) = if existsb (String.eqb name) (map fst l) then map fst l else map fst l ++ [name].
  Proof.
    induction l as [|c l IH]; [reflexivity|]. cbn [set_column map existsb]. rewrite String.eqb_sym.
    destruct (String.eqb name (fst c)) eqn:E; cbn [map orb fst].
    - apply String.eqb_eq in E. now rewrite E.
    - rewrite IH. destruct (existsb _ _); reflexivity.
  Qed.
  Lemma fold_find ix uix (new : list (string * list cell)) : NoDup (map fst new) -> forall l k,
    find (called k) (fold_left (fun l c => set_column nan ix uix (fst c) (snd c) l) new l) =
    match find (called k) new with
    | Some c => Some (k, overwrite ix (match find (called k) l with Some o => snd o | None => repeat nan (List.length ix) end) uix (snd c))
    | None => find (called k) l
    end.
  Proof.
    induction new as [|c new IH]; intros N l k; [reflexivity|]. cbn [map] in N. inversion N; subst. cbn [fold_left find].
    rewrite (IH H2). rewrite !called_eq. destruct (String.eqb (fst c) k) eqn:E.
    - apply String.eqb_eq in E. subst k.
      assert (Z : find (called (fst c)) new = None).
      { destruct (find _ new) as [d|] eqn:F; [|reflexivity]. apply find_some in F. destruct F as [F G]. apply String.eqb_eq in G.
        exfalso. apply H1. rewrite <- G. now apply in_map. }
      rewrite Z, set_find, String.eqb_refl. reflexivity.
    - rewrite set_find, E. reflexivity.
  Qed.
  Lemma fold_names ix uix (new : list (string * list cell)) : NoDup (map fst new) -> forall l,
    map fst (fold_left (fun l c => set_column nan ix uix (fst c) (snd c) l) new l) =
    map fst l ++ filter (fun n => negb (existsb (String.eqb n) (map fst l))) (map fst new).
  Proof.
    induction new as [|c new IH]; intros N l; [cbn; now rewrite app_nil_r|]. cbn [map] in N. inversion N; subst. cbn [fold_left map filter].
    rewrite (IH H2), set_names. destruct (existsb (String.eqb (fst c)) (map fst l)) eqn:E; cbn [negb]; [reflexivity|].
    rewrite <- app_assoc. cbn [app]. f_equal. f_equal. apply filter_ext_in. intros n Hn. f_equal.
    rewrite existsb_app. cbn. destruct (String.eqb n (fst c)) eqn:F; [|now rewrite orb_false_r].
    apply String.eqb_eq in F. subst. contradiction.
  Qed.

  Lemma part_name_inj name i j : part_name name i = part_name name j -> i = j.
  Proof.
    unfold part_name. intro H.
    assert (X : forall a b c : string, (a ++ b)%string = (a ++ c)%string -> b = c).
    { induction a as [|x a IH]; intros b c Q; [exact Q|]. cbn in Q. injection Q as Q. auto. }
    apply X in H. apply X in H. apply str_of_Z_inj in H. lia.
  Qed.
  Lemma unpack_names name s : map fst (snd (unpack none name s)) = map (part_name name) (seq 0 (width (map snd (listed s)))).
  Proof. unfold unpack. cbn [snd]. rewrite map_map. reflexivity. Qed.
  Lemma unpack_nodup name s : NoDup (map fst (snd (unpack none name s))).
  Proof.
    rewrite unpack_names. apply FinFun.Injective_map_NoDup; [|apply seq_NoDup]. intros i j. apply part_name_inj.
  Qed.
  Lemma unpack_find name s i : i < width (map snd (listed s)) ->
    find (called (part_name name i)) (snd (unpack none name s)) = Some (part_name name i, map (fun p => nth i (snd p) none) (listed s)).
  Proof.
    intro H. unfold unpack. cbn [snd]. fold (listed s). set (n := width _) in *.
    assert (G : forall l, In i l -> find (called (part_name name i)) (map (fun i => ((name ++ "_" ++ str_of_Z (Z.of_nat i))%string, map (fun p => nth i (pad none n (snd p)) none) (listed s))) l) =
      Some (part_name name i, map (fun p => nth i (snd p) none) (listed s))).
    { intro l. induction l as [|j l IH]; intro I; [destruct I|]. cbn [map find]. rewrite !called_eq. cbn [fst].
      fold (part_name name j). destruct (String.eqb (part_name name j) (part_name name i)) eqn:E.
      - apply String.eqb_eq, part_name_inj in E. subst j. do 2 f_equal. apply map_ext. intro p. apply pad_nth.
      - destruct I as [->|I]; [rewrite String.eqb_refl in E; discriminate|auto]. }
    apply G, in_seq. lia.
  Qed.

  (** Labels *)
  Lemma cell_at_map (f : list cell -> cell) (d : list (key * list cell)) k :
    cell_at (map fst d) (map (fun p => f (snd p)) d) k = option_map (fun p => f (snd p)) (find (labelled k) d).
  Proof.
    unfold cell_at. induction d as [|p d IH]; [reflexivity|]. cbn [map combine find]. unfold labelled at 1. cbn [fst].
    destruct (keqb (fst p) k); [reflexivity|exact IH].
  Qed.
  Lemma listed_find ix (col : list (option (list cell))) : distinct_labels ix -> forall j k o, nth_error ix j = Some k -> nth_error col j = Some o ->
    find (labelled k) (listed (combine ix col)) = option_map (pair k) o.
  Proof.
    revert col; induction ix as [|i ix IH]; intros [|c col] D [|j] k o E F; try discriminate.
    - cbn in E, F. injection E as ->. injection F as ->. cbn [combine]. destruct o as [l|].
      + cbn. unfold labelled. cbn. now rewrite keqb_refl.
      + cbn [listed map option_map somes fst snd]. cbn in D. destruct D as [D _]. clear -D.
        revert col; induction ix as [|i ix IH]; intros [|[l|] col]; try reflexivity; inversion D; subst; cbn.
        * unfold labelled at 1. cbn. rewrite H1. apply IH, H2.
        * apply IH, H2.
    - cbn in E, F, D. destruct D as [D1 D2]. cbn [combine]. specialize (IH col D2 j k o E F).
      assert (N : keqb i k = false). { rewrite Forall_forall in D1. rewrite keqb_sym. apply D1. eapply nth_error_In, E. }
      destruct c as [l|].
      + change (listed ((i, Some l) :: combine ix col)) with ((i, l) :: listed (combine ix col)). cbn [find]. unfold labelled at 1. cbn [fst]. now rewrite N.
      + exact IH.
  Qed.
  Lemma overwrite_nth ix (old : list cell) uix new j k v : nth_error ix j = Some k -> nth_error old j = Some v ->
    nth_error (overwrite ix old uix new) j = Some (match cell_at uix new k with Some w => w | None => v end).
  Proof.
    intros E F. unfold overwrite. rewrite nth_error_map.
    assert (Q : forall {X Y} (a : list X) (b : list Y) i x y, nth_error a i = Some x -> nth_error b i = Some y -> nth_error (combine a b) i = Some (x, y)).
    { clear. intros X Y a. induction a as [|p a IH]; intros [|q b] [|i] x y H G; try discriminate.
      - cbn in *. congruence.
      - cbn in *. now apply IH. }
    rewrite (Q _ _ _ _ _ _ _ E F). reflexivity.
  Qed.
  Lemma listed_in ix (col : list (option (list cell))) l : List.length col = List.length ix -> (In l (map snd (listed (combine ix col))) <-> In (Some l) col).
  Proof.
    revert col; induction ix as [|i ix IH]; intros [|c col] H; try discriminate; [reflexivity|]. injection H as H. specialize (IH col H).
    destruct c as [x|].
    - change (In l (x :: map snd (listed (combine ix col))) <-> In (Some l) (Some x :: col)). cbn. rewrite IH. split; (intros [Q|Q]; [left; congruence|auto]).
    - change (In l (map snd (listed (combine ix col))) <-> In (Some l) (None :: col)). cbn. rewrite IH. split; [auto|]. intros [Q|Q]; [discriminate|auto].
  Qed.

  Lemma unpack_column_ok (df : packed) name w : distinct_labels (p_index df) -> List.length (p_col df) = List.length (p_index df) ->
    Forall (fun c => List.length (snd c) = List.length (p_index df)) (p_others df) ->
    (forall l, In (Some l) (p_col df) -> List.length l <= w) -> (w = 0 \/ exists l, In (Some l) (p_col df) /\ List.length l = w) ->
    let out := fst (unpack_column none nan df name) in
    fst out = p_index df /\
    map fst (snd out) = map fst (p_others df) ++ filter (fun n => negb (existsb (String.eqb n) (map fst (p_others df)))) (map (part_name name) (seq 0 w)) /\
    (forall k, (forall i, i < w -> k <> part_name name i) -> find (called k) (snd out) = find (called k) (p_others df)) /\
    (forall i, i < w -> exists col, find (called (part_name name i)) (snd out) = Some (part_name name i, col) /\
      forall j o, nth_error (p_col df) j = Some o ->
        nth_error col j = match o with
                          | Some l => Some (nth i l none)
                          | None => match find (called (part_name name i)) (p_others df) with Some c => nth_error (snd c) j | None => Some nan end
                          end).
  Proof.
    intros D Lc Lo W1 W2. set (s := combine (p_index df) (p_col df)).
    assert (W : width (map snd (listed s)) = w).
    { eapply longest_fun; [apply width_ok|]. split.
      - intros l Hl. apply W1. now apply (listed_in _ _ _ Lc).
      - destruct W2 as [->|[l [H E]]]; [now left|]. right. exists l. split; [|exact E]. now apply (listed_in _ _ _ Lc). }
    unfold unpack_column. fold s. cbn [fst snd].
    assert (N := unpack_nodup name s).
    split; [reflexivity|]. split; [|split].
    - rewrite (fold_names _ _ _ N), unpack_names, W. reflexivity.
    - intros k Hk. rewrite (fold_find _ _ _ N). destruct (find (called k) (snd (unpack none name s))) as [c|] eqn:E; [|reflexivity].
      exfalso. apply find_some in E. destruct E as [E F]. apply String.eqb_eq in F. apply (in_map fst) in E. rewrite unpack_names, F, W in E.
      apply in_map_iff in E. destruct E as [i [G Hi]]. apply in_seq in Hi. apply (Hk i); [lia|now symmetry].
    - intros i Hi. rewrite (fold_find _ _ _ N), unpack_find by (rewrite W; exact Hi). cbn [snd].
      eexists. split; [reflexivity|]. intros j o Ho.
      assert (Hj : j < List.length (p_index df)). { rewrite <- Lc. apply nth_error_Some. congruence. }
      destruct (nth_error (p_index df) j) as [k|] eqn:Ek; [|apply nth_error_None in Ek; lia].
      set (old := match find _ (p_others df) with Some o => snd o | None => _ end).
      assert (Lold : List.length old = List.length (p_index df)).
      { unfold old. destruct (find _ (p_others df)) as [c|] eqn:E; [|apply repeat_length]. apply find_some in E. rewrite Forall_forall in Lo. apply Lo, E. }
      destruct (nth_error old j) as [v|] eqn:Ev; [|apply nth_error_None in Ev; lia].
      rewrite (overwrite_nth _ _ _ _ _ _ _ Ek Ev).
      change (fst (unpack none name s)) with (map fst (listed s)).
      rewrite (cell_at_map (fun l => nth i l none)). unfold s. rewrite (listed_find _ _ D _ _ _ Ek Ho).
      destruct o as [l|]; [reflexivity|]. cbn [option_map]. unfold old in Ev.
      destruct (find _ (p_others df)) as [c|]; [now symmetry|]. rewrite (nth_error_nth' _ nan) in Ev by (rewrite repeat_length; exact Hj).
      rewrite <- Ev. f_equal. clear. generalize (List.length (p_index df)). intro n. revert j; induction n as [|n IH]; intros [|j]; cbn; auto.
  Qed.
  Lemma unpack_column_argument (df : packed) name :
    p_others (snd (unpack_column none nan df name)) = snd (fst (unpack_column none nan df name)) /\
    p_index (snd (unpack_column none nan df name)) = p_index df /\ p_col (snd (unpack_column none nan df name)) = p_col df.
  Proof. repeat split. Qed.
End U.
