(** Proofs about downcasting. *)
From Coq Require Import Lia QArith Qabs SpecFloat.
From Verif Require Export Down_Spec Float_Proofs.
Open Scope Z_scope.

(** ** Integers *)

Lemma fold_min_spec l : forall v, let m := fold_left Z.min l v in In m (v :: l) /\ forall x, In x (v :: l) -> m <= x.
Proof.
  induction l as [|y l IH]; intro v; cbn [fold_left].
  - split; [now left|]. intros x [<-|[]]. lia.
  - destruct (IH (Z.min v y)) as [A B]. split.
    + destruct A as [A|A]; [|right; now right]. rewrite <- A. destruct (Z.min_spec v y) as [[_ ->]|[_ ->]]; [now left|right; now left].
    + pose proof (B _ (or_introl eq_refl)). intros x [<-|[<-|Hx]]; [lia|lia|]. apply B. now right.
Qed.
Lemma fold_max_spec l : forall v, let m := fold_left Z.max l v in In m (v :: l) /\ forall x, In x (v :: l) -> x <= m.
Proof.
  induction l as [|y l IH]; intro v; cbn [fold_left].
  - split; [now left|]. intros x [<-|[]]. lia.
  - destruct (IH (Z.max v y)) as [A B]. split.
    + destruct A as [A|A]; [|right; now right]. rewrite <- A. destruct (Z.max_spec v y) as [[_ ->]|[_ ->]]; [right; now left|now left].
    + pose proof (B _ (or_introl eq_refl)). intros x [<-|[<-|Hx]]; [lia|lia|]. apply B. now right.
Qed.

Lemma wrap_id dt z : int_type dt -> holds dt z -> wrap dt z = z.
Proof.
  intros (n & Hn & H) Hz. unfold holds, int_min, int_max, wrap in *.
  assert (0 < n) by (cbn in Hn; lia).
  destruct H as [-> | ->]; cbn [kind_of bits UInt Int] in *.
  - apply Z.mod_small. lia.
  - assert (2 ^ n = 2 * 2 ^ (n - 1)) by (rewrite <- Z.pow_succ_r by lia; f_equal; lia).
    rewrite Z.mod_small; lia.
Qed.

Lemma try_depths_spec src arr lib name k amin amax : forall l,
  match try_depths src arr lib name k amin amax l with
  | Ok r => exists before after d, l = before ++ d :: after /\ r = maybe_int src arr {| kind_of := k; bits := d |} lib name /\
      int_in_bounds amin amax {| kind_of := k; bits := d |} = true /\
      forall d', In d' before -> int_in_bounds amin amax {| kind_of := k; bits := d' |} = false
  | Exc e => forall d', In d' l -> int_in_bounds amin amax {| kind_of := k; bits := d' |} = false
  end.
Proof.
  induction l as [|d l IH]; cbn [try_depths]; [intros d' []|].
  destruct (int_in_bounds amin amax {| kind_of := k; bits := d |}) eqn:E.
  - exists [], l, d. split; [reflexivity|]. split; [reflexivity|]. split; [exact E|]. intros d' [].
  - destruct (try_depths src arr lib name k amin amax l) as [r|e].
    + destruct IH as (before & after & d0 & -> & -> & B & N). exists (d :: before), after, d0.
      split; [reflexivity|]. split; [reflexivity|]. split; [exact B|]. intros d' [<-|H]; auto.
    + intros d' [<-|H]; auto.
Qed.

Lemma downcast_int_lemma : forall src arr lib name, int_type src -> arr <> [] -> Forall (holds src) arr ->
  exists r, downcast_int src arr lib name = Ok r /\
    values r = arr /\ aerr r = 0 /\ rerr r = 0 /\ as_series r = series_of lib name /\
    kind_of (rtype r) = (if forallb (fun z => 0 <=? z) arr then UIntK else IntK) /\
    int_type (rtype r) /\ Forall (holds (rtype r)) arr /\ bits (rtype r) <= bits src /\
    forall n, In n depths -> n < bits (rtype r) -> ~ Forall (holds {| kind_of := kind_of (rtype r); bits := n |}) arr.
Proof.
  intros src arr lib name Hs Ne Hf. destruct arr as [|v l]; [now destruct Ne|]. unfold downcast_int, zmin, zmax. cbn [bind].
  destruct (fold_min_spec l v) as [A1 B1]. destruct (fold_max_spec l v) as [A2 B2].
  set (mn := fold_left Z.min l v) in *. set (mx := fold_left Z.max l v) in *. set (arr := v :: l) in *.
  set (k := if 0 <=? mn then UIntK else IntK).
  assert (Hk : k = if forallb (fun z => 0 <=? z) arr then UIntK else IntK).
  { unfold k. destruct (Z.leb_spec 0 mn) as [H|H].
    - assert (forallb (fun z => 0 <=? z) arr = true) as ->; [|reflexivity]. apply forallb_forall. intros x Hx. apply Z.leb_le. specialize (B1 x Hx). lia.
    - destruct (forallb (fun z => 0 <=? z) arr) eqn:E; [|reflexivity]. rewrite forallb_forall in E. specialize (E mn A1). apply Z.leb_le in E. lia. }
  assert (Bd : forall dt, int_in_bounds mn mx dt = true <-> Forall (holds dt) arr).
  { intro dt. assert (Hr : forall z, holds dt z <-> int_min dt <= z <= int_max dt).
    { intro z. unfold holds, int_min, int_max. destruct (kind_of dt); lia. }
    unfold int_in_bounds. rewrite andb_true_iff, !Z.leb_le, Forall_forall. split.
    - intros [H1 H2] x Hx. apply Hr. specialize (B1 x Hx). specialize (B2 x Hx). lia.
    - intro H. pose proof (proj1 (Hr mn) (H mn A1)). pose proof (proj1 (Hr mx) (H mx A2)). lia. }
  pose proof (try_depths_spec src arr lib name k mn mx depths) as T. fold depths.
  rewrite Forall_forall in Hf.
  (* the source type, or the unsigned type of its width, will do *)
  assert (Src : In (bits src) depths /\ int_in_bounds mn mx {| kind_of := k; bits := bits src |} = true).
  { destruct Hs as (n & Hn & Hs). assert (bits src = n) as Eb by (destruct Hs as [-> | ->]; reflexivity). rewrite Eb. split; [exact Hn|].
    apply Bd. apply Forall_forall. intros x Hx. pose proof (Hf mn A1) as Hmn. specialize (Hf x Hx). specialize (B1 x Hx).
    assert (0 < n) by (cbn in Hn; lia).
    assert (2 ^ n = 2 * 2 ^ (n - 1)) by (rewrite <- Z.pow_succ_r by lia; f_equal; lia). assert (0 < 2 ^ (n - 1)) by (apply Z.pow_pos_nonneg; lia).
    unfold holds, int_min, int_max, k in *. destruct (Z.leb_spec 0 mn); cbn [kind_of bits] in *; destruct Hs as [-> | ->]; cbn [kind_of bits UInt Int] in *; lia. }
  destruct (try_depths src arr lib name k mn mx depths) as [r|e].
  2:{ exfalso. destruct Src as [S1 S2]. rewrite (T _ S1) in S2. discriminate. }
  destruct T as (before & after & d & El & -> & Hd & Hb). eexists. split; [reflexivity|].
  assert (Inc : forall a b c, depths = a ++ b :: c -> forall n, In n depths -> n < b -> In n a).
  { intros a b c E n Hn Hlt. unfold depths in *.
    destruct a as [|a1 [|a2 [|a3 [|a4 a]]]]; cbn in E; injection E; intros; subst; cbn in Hn |- *; lia. }
  assert (Hin : In d depths) by (rewrite El; apply in_elt).
  assert (It : int_type {| kind_of := k; bits := d |}).
  { exists d. split; [exact Hin|]. unfold k. destruct (0 <=? mn); [left|right]; reflexivity. }
  assert (Hh : Forall (holds {| kind_of := k; bits := d |}) arr) by now apply Bd.
  unfold maybe_int. cbn [rtype values aerr rerr as_series kind_of bits].
  split. { destruct (dtype_eqb src _); [reflexivity|]. rewrite <- (map_id arr) at 2. apply map_ext_in. intros z Hz. rewrite Forall_forall in Hh. apply wrap_id; auto. }
  split; [reflexivity|]. split; [reflexivity|]. split; [reflexivity|]. split; [exact Hk|]. split; [exact It|]. split; [exact Hh|]. split.
  - destruct Src as [S1 S2]. destruct (Z.le_gt_cases d (bits src)) as [H|H]; [exact H|]. exfalso.
    rewrite (Hb _ (Inc _ _ _ El _ S1 H)) in S2. discriminate.
  - intros n Hn Hlt Hall. apply Bd in Hall. rewrite (Hb _ (Inc _ _ _ El _ Hn Hlt)) in Hall. discriminate.
Qed.

Lemma downcast_int_empty src lib name : downcast_int src [] lib name = Exc ValueError.
Proof. reflexivity. Qed.

(** ** Floats *)

Section Floats.
  Context {num : Type}.
  Context (good finite is_nan nonzero : num -> bool).
  Context (leb ltb : num -> num -> bool).
  Context (sub div : num -> num -> num) (abs : num -> num).
  Context (zero nan : num).
  Context (info_min info_max : dtype -> num).
  Context (cast : dtype -> num -> res num).
  Context (ok : numbers_ok good finite is_nan nonzero leb ltb nan cast).

  Let ord : ordered good leb ltb.
  Proof. apply ok. Qed.
  Let nan_good : forall x, is_nan x = negb (good x).
  Proof. apply ok. Qed.
  Let fin_good : forall x, finite x = true -> good x = true.
  Proof. apply ok. Qed.

  Notation max_from := (max_from ltb).
  Notation min_from := (min_from ltb).
  Notation nanmax := (nanmax is_nan ltb nan).

  Lemma max_from_spec l : forall v, good v = true -> (forall x, In x l -> good x = true) ->
    In (max_from v l) (v :: l) /\ forall x, In x (v :: l) -> leb x (max_from v l) = true.
  Proof.
    unfold Down_Model.max_from. induction l as [|y l IH]; intros v Gv Gl; cbn [fold_left].
    - split; [now left|]. intros x [<-|[]]. now apply (o_refl _ _ _ ord).
    - assert (Gy := Gl y (or_introl eq_refl)). set (v' := if ltb v y then y else v).
      assert (G' : good v' = true) by (unfold v'; now destruct (ltb v y)).
      destruct (IH v' G' (fun x Hx => Gl x (or_intror Hx))) as [A B].
      assert (K : leb v v' = true /\ leb y v' = true).
      { unfold v'. destruct (ltb v y) eqn:E; split; try (now apply (o_refl _ _ _ ord)); [now apply (ltb_leb _ _ _ ord)|now apply (not_lt _ _ _ ord)]. }
      split.
      + destruct A as [A|A]; [|right; now right]. rewrite <- A. unfold v'. destruct (ltb v y); [right; now left|now left].
      + intros x [<-|[<-|Hx]]; [apply (o_trans _ _ _ ord _ v'); [apply K|apply B; now left]|apply (o_trans _ _ _ ord _ v'); [apply K|apply B; now left]|apply B; now right].
  Qed.
  Lemma min_from_spec l : forall v, good v = true -> (forall x, In x l -> good x = true) ->
    In (min_from v l) (v :: l) /\ forall x, In x (v :: l) -> leb (min_from v l) x = true.
  Proof.
    unfold Down_Model.min_from. induction l as [|y l IH]; intros v Gv Gl; cbn [fold_left].
    - split; [now left|]. intros x [<-|[]]. now apply (o_refl _ _ _ ord).
    - assert (Gy := Gl y (or_introl eq_refl)). set (v' := if ltb y v then y else v).
      assert (G' : good v' = true) by (unfold v'; now destruct (ltb y v)).
      destruct (IH v' G' (fun x Hx => Gl x (or_intror Hx))) as [A B].
      assert (K : leb v' v = true /\ leb v' y = true).
      { unfold v'. destruct (ltb y v) eqn:E; split; try (now apply (o_refl _ _ _ ord)); [now apply (ltb_leb _ _ _ ord)|now apply (not_lt _ _ _ ord)]. }
      split.
      + destruct A as [A|A]; [|right; now right]. rewrite <- A. unfold v'. destruct (ltb y v); [right; now left|now left].
      + intros x [<-|[<-|Hx]]; [apply (o_trans _ _ _ ord _ v'); [|apply K]; apply B; now left|apply (o_trans _ _ _ ord _ v'); [|apply K]; apply B; now left|apply B; now right].
  Qed.

  (** The maximum is within the limit if everything is. *)
  Lemma nanmax_le t l : l <> [] -> (ltb t (nanmax l) = false <-> forall x, In x l -> ltb t x = false).
  Proof.
    intro Ne. unfold Down_Model.nanmax.
    assert (L : forall a b, leb a b = true -> ltb t b = false -> ltb t a = false).
    { intros a b H1 H2. destruct (ltb t a) eqn:E; [|reflexivity]. rewrite (lt_le_trans _ _ _ ord t a b E H1) in H2. discriminate. }
    assert (B : forall x, good x = false -> ltb t x = false).
    { intros x H. rewrite (o_ltb _ _ _ ord), H, andb_false_r. reflexivity. }
    destruct (filter (fun x => negb (is_nan x)) l) as [|v r] eqn:E.
    - assert (N : forall x, In x l -> good x = false).
      { intros x Hx. destruct (good x) eqn:G; [|reflexivity]. exfalso. assert (In x []) as []. rewrite <- E. apply filter_In. rewrite nan_good, G. now split. }
      destruct ok as (_ & _ & _ & [Hn|Hn] & _).
      + split; intros _; [intros x Hx; apply B; auto|now apply B].
      + destruct l as [|x l]; [now destruct Ne|]. specialize (N x (or_introl eq_refl)). rewrite Hn in N. discriminate.
    - assert (G : forall x, In x (v :: r) -> good x = true).
      { intros x Hx. rewrite <- E in Hx. apply filter_In in Hx. rewrite nan_good in Hx. destruct Hx as [_ Hx]. now destruct (good x). }
      destruct (max_from_spec r v (G v (or_introl eq_refl)) (fun x Hx => G x (or_intror Hx))) as [A M]. split.
      + intros H x Hx. destruct (good x) eqn:Gx; [|now apply B]. apply (L x (max_from v r)); [|exact H]. apply M. rewrite <- E. apply filter_In.
        rewrite nan_good, Gx. now split.
      + intros H. apply H. rewrite <- E in A. apply filter_In in A. apply A.
  Qed.
  Lemma nanmax_ge l x : In x l -> ltb (nanmax l) x = false.
  Proof.
    intro Hx. assert (Ne : l <> []) by (intros ->; destruct Hx).
    destruct (good x) eqn:Gx; [|rewrite (o_ltb _ _ _ ord), Gx, andb_false_r; reflexivity].
    unfold Down_Model.nanmax. destruct (filter (fun x => negb (is_nan x)) l) as [|v r] eqn:E.
    - exfalso. assert (In x []) as []. rewrite <- E. apply filter_In. rewrite nan_good, Gx. now split.
    - assert (G : forall x, In x (v :: r) -> good x = true).
      { intros y Hy. rewrite <- E in Hy. apply filter_In in Hy. rewrite nan_good in Hy. destruct Hy as [_ Hy]. now destruct (good y). }
      destruct (max_from_spec r v (G v (or_introl eq_refl)) (fun x Hx => G x (or_intror Hx))) as [A M].
      rewrite (o_ltb _ _ _ ord). rewrite M; [now rewrite andb_false_r|]. rewrite <- E. apply filter_In. rewrite nan_good, Gx. now split.
  Qed.

  Lemma in_map2 {A B C} (f : A -> B -> C) l1 l2 x : In x (map2 f l1 l2) <-> exists a b, In (a, b) (combine l1 l2) /\ x = f a b.
  Proof.
    unfold map2. rewrite in_map_iff. split; [intros ([a b] & <- & H); eauto|intros (a & b & H & ->)]. exists (a, b). auto.
  Qed.
  Lemma mapM_Forall2 {A B} (f : A -> res B) l : forall m, mapM f l = Ok m -> Forall2 (fun a b => f a = Ok b) l m.
  Proof.
    induction l as [|x l IH]; intros m E; cbn in E; [injection E as <-; constructor|].
    destruct (f x) as [y|] eqn:Ey; [|discriminate]. cbn in E. destruct (mapM f l) as [ys|]; [|discriminate]. cbn in E. injection E as <-.
    constructor; auto.
  Qed.
  Lemma mapM_exc {A B} (f : A -> res B) l e : mapM f l = Exc e -> exists x, In x l /\ f x = Exc e.
  Proof.
    induction l as [|x l IH]; cbn; [discriminate|]. destruct (f x) as [y|e'] eqn:Ey; cbn.
    - destruct (mapM f l) as [ys|]; cbn; [discriminate|]. intro E. injection E as <-. destruct (IH eq_refl) as (z & Hz & Ez). eauto.
    - intro E. injection E as <-. eauto.
  Qed.
  Lemma mapM_total {A B} (f : A -> res B) l : (forall x, In x l -> exists y, f x = Ok y) -> exists m, mapM f l = Ok m.
  Proof.
    intro H. destruct (mapM f l) as [m|e] eqn:E; [eauto|]. destruct (mapM_exc f l e E) as (x & Hx & Ex). destruct (H x Hx) as (y & Ey). congruence.
  Qed.
  Lemma Forall2_combine {A B} (P : A -> B -> Prop) l m : Forall2 P l m -> forall a b, In (a, b) (combine l m) -> P a b.
  Proof. induction 1 as [|x y l m H F IH]; intros a b Hab; [destruct Hab|]. destruct Hab as [E|Hab]; [injection E as <- <-; exact H|auto]. Qed.
  Lemma combine_fst {A B} (P : A -> B -> Prop) l m : Forall2 P l m -> forall a, In a l -> exists b, In (a, b) (combine l m).
  Proof.
    induction 1 as [|x y l m H F IH]; intros a Ha; [destruct Ha|]. destruct Ha as [<-|Ha]; [exists y; now left|].
    destruct (IH a Ha) as (b & Hb). exists b. now right.
  Qed.
  Lemma combine_ne {A B} (P : A -> B -> Prop) l m : Forall2 P l m -> l <> [] -> combine l m <> [].
  Proof. intros [|x y l' m' _ _] Ne; [now destruct Ne|discriminate]. Qed.

  Notation try_types := (try_types is_nan leb ltb sub div abs zero nan info_min info_max cast).

  (** The loop, over just the types it considers. *)
  Fixpoint try_order (w : Z) (arr nz : list num) (amin amax atol rtol : num) (nonfinite : bool) (lib : library) (name : option string)
      (l : list dtype) : res (@result num) :=
    match l with
    | [] => Ok (keep zero w arr lib name)
    | dt :: r =>
        let next := try_order w arr nz amin amax atol rtol nonfinite lib name r in
        if negb (in_bounds leb info_min info_max amin amax dt) then next
        else
          c <- mapM (cast dt) nz ;;
          let offsets := map abs (map2 sub nz c) in
          let ae := nanmax (map abs offsets) in
          if ltb atol ae then next
          else
            let re := nanmax (map abs (map2 div offsets nz)) in
            if ltb rtol re then next
            else if negb (is_float (kind_of dt)) && nonfinite then Exc AttributeError
            else maybe_float cast arr dt lib name ae re
    end.
  Lemma try_types_order w arr nz amin amax atol rtol nonfinite nillable lib name : In w [16; 32; 64; 128] ->
    try_types w arr nz amin amax atol rtol nonfinite nillable lib name kinds_and_numbers =
    try_order w arr nz amin amax atol rtol nonfinite lib name (order (negb (nonfinite && negb nillable)) w).
  Proof.
    intro Hw. cbn in Hw. decompose [or] Hw; subst; try contradiction; destruct nonfinite, nillable; reflexivity.
  Qed.

  Notation admissible := (admissible finite nonzero leb ltb sub div abs info_min info_max cast).
  Notation first_admissible := (first_admissible finite nonzero leb ltb sub div abs info_min info_max cast).
  Notation abs_within := (abs_within ltb sub abs).
  Notation rel_within := (rel_within ltb sub div abs).

  Lemma combine_offsets nz c v x : Forall2 (fun a b => True) nz c -> In (x, v) (combine (map abs (map2 sub nz c)) nz) ->
    exists b, In (v, b) (combine nz c) /\ x = abs (sub v b).
  Proof.
    induction 1 as [|a b nz c _ F IH]; intro H; [destruct H|]. cbn in H. destruct H as [E|H].
    - injection E as <- <-. exists b. split; [now left|reflexivity].
    - destruct (IH H) as (b' & Hb & ->). exists b'. split; [now right|reflexivity].
  Qed.
  Lemma offsets_combine nz c v b : Forall2 (fun a b => True) nz c -> In (v, b) (combine nz c) -> In (abs (sub v b), v) (combine (map abs (map2 sub nz c)) nz).
  Proof.
    induction 1 as [|a b' nz c _ F IH]; intro H; [destruct H|]. cbn in H |- *. destruct H as [E|H]; [injection E as -> ->; now left|right; auto].
  Qed.

  Section Loop.
    Context (w : Z) (arr : list num) (atol rtol : num) (lib : library) (name : option string).
    Let fin := filter finite arr.
    Let nz := filter nonzero fin.
    Context (amin amax : num).
    Context (Hne : nz <> []).
    Context (Hmin : In amin fin) (Hmax : In amax fin).
    Context (Hlo : forall x, In x fin -> leb amin x = true) (Hhi : forall x, In x fin -> leb x amax = true).

    Lemma in_fin x : In x fin <-> In x arr /\ finite x = true.
    Proof. apply filter_In. Qed.
    Lemma in_nz x : In x nz <-> In x arr /\ finite x = true /\ nonzero x = true.
    Proof. unfold nz. rewrite filter_In, in_fin. tauto. Qed.

    Lemma bounds_spec dt : in_bounds leb info_min info_max amin amax dt = true <-> in_range finite leb info_min info_max dt arr.
    Proof.
      unfold in_bounds, in_range. rewrite andb_true_iff. split.
      - intros [H1 H2] v Hv Fv. assert (In v fin) by now apply in_fin. split; eapply (o_trans _ _ _ ord); eauto.
      - intro H. apply in_fin in Hmin, Hmax. split; [apply (H amin); tauto|apply (H amax); tauto].
    Qed.

    (** Tolerances, in terms of the maxima. *)
    Lemma errors_spec dt c (F : Forall2 (fun v c => cast dt v = Ok c) nz c) :
      let offsets := map abs (map2 sub nz c) in
      (ltb atol (nanmax (map abs offsets)) = false <-> forall v b, In (v, b) (combine nz c) -> abs_within atol v b) /\
      (ltb rtol (nanmax (map abs (map2 div offsets nz))) = false <-> forall v b, In (v, b) (combine nz c) -> rel_within rtol v b).
    Proof.
      cbn zeta. pose proof (combine_ne _ _ _ F Hne) as Nc.
      assert (F' : Forall2 (fun (_ _ : num) => True) nz c) by (clear - F; induction F; constructor; auto).
      split.
      - rewrite nanmax_le.
        + split.
          * intros H v b Hvb. apply H. apply in_map, in_map, in_map2. eauto.
          * intros H x Hx. apply in_map_iff in Hx. destruct Hx as (y & <- & Hy). apply in_map_iff in Hy. destruct Hy as (z & <- & Hz).
            apply in_map2 in Hz. destruct Hz as (v & b & Hvb & ->). now apply H.
        + unfold map2. destruct (combine nz c); [now destruct Nc|discriminate].
      - rewrite nanmax_le.
        + split.
          * intros H v b Hvb. apply H. apply in_map, in_map2. exists (abs (sub v b)), v. split; [now apply offsets_combine|reflexivity].
          * intros H x Hx. apply in_map_iff in Hx. destruct Hx as (y & <- & Hy). apply in_map2 in Hy. destruct Hy as (o & v & Hov & ->).
            destruct (combine_offsets _ _ _ _ F' Hov) as (b & Hb & ->). now apply H.
        + destruct F' as [|a b l m _ _]; [now destruct Hne|discriminate].
    Qed.

    Lemma admissible_spec dt c (F : Forall2 (fun v c => cast dt v = Ok c) nz c) : in_range finite leb info_min info_max dt arr ->
      let offsets := map abs (map2 sub nz c) in
      (ltb atol (nanmax (map abs offsets)) = false /\ ltb rtol (nanmax (map abs (map2 div offsets nz))) = false) <-> admissible atol rtol dt arr.
    Proof.
      intro R. destruct (errors_spec dt c F) as [Ea Er]. cbn zeta. rewrite Ea, Er. split.
      - intros [A B]. split; [exact R|]. intros v Hv Fv Nv. assert (Hnz : In v nz) by now apply in_nz.
        destruct (combine_fst _ _ _ F v Hnz) as (b & Hb). exists b. split; [exact (Forall2_combine _ _ _ F v b Hb)|]. split; auto.
      - intros [_ H]. assert (K : forall v b, In (v, b) (combine nz c) -> abs_within atol v b /\ rel_within rtol v b).
        { intros v b Hvb. assert (Hnz : In v nz) by (eapply in_combine_l; eauto). apply in_nz in Hnz. destruct Hnz as (H1 & H2 & H3).
          destruct (H v H1 H2 H3) as (b' & Eb & A & B). pose proof (Forall2_combine _ _ _ F v b Hvb) as E. assert (b' = b) by congruence. subst. auto. }
        split; intros v b Hvb; now apply K.
    Qed.

    Notation outcome := (outcome finite nonzero leb ltb sub div abs info_min info_max cast zero w arr atol rtol lib name).

    Lemma outcome_skip dt l r : ~ admissible atol rtol dt arr -> outcome l r -> outcome (dt :: l) r.
    Proof.
      intros N O. assert (FA : forall dt', first_admissible atol rtol arr l dt' -> first_admissible atol rtol arr (dt :: l) dt').
      { intros dt' (b & a & -> & A & B). exists (dt :: b), a. split; [reflexivity|]. split; [exact A|]. intros x [<-|Hx]; auto. }
      destruct r as [[r|]|e]; cbn in *.
      - destruct O as [[E H]|(A & R)]; [left; split; [exact E|]; intros x [<-|Hx]; auto|right; split; auto].
      - exact O.
      - destruct O as [(d & v & Hd & R)|(E & Hn & d & A & K)]; [left; exists d, v; split; [now right|exact R]|right; split; [exact E|]; split; [exact Hn|]; exists d; auto].
    Qed.

    Lemma try_order_spec nonfinite : (nonfinite = false -> all_finite finite arr) -> (nonfinite = true -> exists v, In v arr /\ finite v = false) ->
      forall l, (forall dt, In dt l -> int_type dt \/ kind_of dt = FloatK) -> outcome l (try_order w arr nz amin amax atol rtol nonfinite lib name l).
    Proof.
      intros Hfin Hnon. induction l as [|dt l IH0]; intro Ht; cbn [try_order].
      2: pose proof (IH0 (fun dt Hd => Ht dt (or_intror Hd))) as IH; clear IH0.
      - left. split; [reflexivity|]. intros dt [].
      - destruct (in_bounds leb info_min info_max amin amax dt) eqn:Eb; cbn [negb].
        2:{ apply outcome_skip; [|exact IH]. intros [R _]. apply bounds_spec in R. congruence. }
        apply bounds_spec in Eb. destruct (mapM (cast dt) nz) as [c|e] eqn:Ec; cbn [bind].
        2:{ left. destruct (mapM_exc _ _ _ Ec) as (v & Hv & Ev). apply in_nz in Hv. exists dt, v. split; [now left|]. tauto. }
        apply mapM_Forall2 in Ec. pose proof (admissible_spec dt c Ec Eb) as A. cbn zeta in A. pose proof (errors_spec dt c Ec) as Er. cbn zeta in Er.
        set (ae := nanmax (map abs (map abs (map2 sub nz c)))) in *. set (re := nanmax (map abs (map2 div (map abs (map2 sub nz c)) nz))) in *.
        destruct (ltb atol ae) eqn:E1; [apply outcome_skip; [|exact IH]; intro X; apply A in X; destruct X; discriminate|].
        destruct (ltb rtol re) eqn:E2; [apply outcome_skip; [|exact IH]; intro X; apply A in X; destruct X; discriminate|].
        assert (Ad : admissible atol rtol dt arr) by (apply A; auto).
        assert (FA : first_admissible atol rtol arr (dt :: l) dt) by (exists [], l; split; [reflexivity|]; split; [exact Ad|intros x []]).
        destruct (negb (is_float (kind_of dt)) && nonfinite) eqn:En.
        { right. apply andb_prop in En. destruct En as [En ->]. split; [reflexivity|]. split; [now apply Hnon|]. exists dt. split; [exact FA|].
          intro K. rewrite K in En. discriminate. }
        unfold maybe_float.
        destruct (mapM_total (cast dt) arr) as (m & Em).
        { intros v Hv. destruct (finite v && nonzero v) eqn:Ef.
          - apply andb_prop in Ef. destruct Ef as [F N]. destruct Ad as [_ Ad]. destruct (Ad v Hv F N) as (b & Eb' & _). eauto.
          - apply ok; [exact Ef|]. destruct (Ht dt (or_introl eq_refl)) as [Hi|Hi]; [|now right]. destruct nonfinite; [right|left; split; [now apply Hfin|exact Hi]].
            destruct (kind_of dt); [discriminate|discriminate|reflexivity]. }
        rewrite Em. cbn [bind outcome]. right. cbn [rtype values aerr rerr as_series]. apply mapM_Forall2 in Em.
        split; [exact FA|]. split; [reflexivity|]. split; [exact Em|].
        split; [|split; [exact E1|split; [exact E2|destruct nonfinite; [left; destruct (kind_of dt); [discriminate|discriminate|reflexivity]|right; now apply Hfin]]]].
        intros v b Hv Fv Nv Eb'. assert (Hnz : In v nz) by now apply in_nz. destruct (combine_fst _ _ _ Ec v Hnz) as (b' & Hb).
        assert (b' = b) by (pose proof (Forall2_combine _ _ _ Ec v b' Hb); congruence). subst b'.
        assert (F' : Forall2 (fun (_ _ : num) => True) nz c) by (clear - Ec; induction Ec; constructor; auto).
        split; unfold Down_Spec.abs_within, Down_Spec.rel_within.
        + apply nanmax_ge. apply in_map, in_map, in_map2. eauto.
        + apply nanmax_ge. apply in_map, in_map2. exists (abs (sub v b)), v. split; [now apply offsets_combine|reflexivity].
    Qed.
  End Loop.

  Notation downcast_float := (downcast_float finite is_nan nonzero leb ltb sub div abs zero nan info_min info_max cast).

  Lemma filter_length {A} (p : A -> bool) l : (List.length (filter p l) <= List.length l)%nat.
  Proof. induction l as [|x l IH]; cbn; [lia|]. destruct (p x); cbn; lia. Qed.
  Lemma filter_short {A} (p : A -> bool) l : Nat.ltb (List.length (filter p l)) (List.length l) = negb (forallb p l).
  Proof.
    induction l as [|x l IH]; [reflexivity|]. cbn [filter forallb List.length]. destruct (p x); cbn [List.length andb negb].
    - exact IH.
    - apply Nat.ltb_lt. pose proof (filter_length p l). lia.
  Qed.

  Lemma downcast_lemma w arr atol rtol lib nillable name : In w [16; 32; 64; 128] -> (nillable = true -> lib = Pandas) ->
    some_nonzero finite nonzero arr ->
    outcome finite nonzero leb ltb sub div abs info_min info_max cast zero w arr atol rtol lib name
      (order (forallb finite arr || nillable) w) (downcast_float w arr atol rtol lib nillable name).
  Proof.
    intros Hw Hl (v0 & Hv0 & Fv0 & Nv0). set (nonfinite := negb (forallb finite arr)). unfold Down_Model.downcast_float.
    assert (E : forall A (x y : A), match nillable, lib with true, Numpy => x | _, _ => y end = y).
    { intros. destruct nillable; [rewrite Hl|]; auto. }
    rewrite E. clear E. destruct (filter finite arr) as [|v r] eqn:Ef.
    { exfalso. assert (In v0 []) as []. rewrite <- Ef. now apply filter_In. }
    rewrite <- Ef. assert (Hnz : In v0 (filter nonzero (filter finite arr))) by (rewrite !filter_In; auto).
    rewrite filter_short. fold nonfinite.
    destruct (filter nonzero (filter finite arr)) as [|u t] eqn:En; [destruct Hnz|]. rewrite <- En.
    rewrite try_types_order by exact Hw.
    replace (negb (nonfinite && negb nillable)) with (forallb finite arr || nillable) by (unfold nonfinite; destruct (forallb finite arr), nillable; reflexivity).
    assert (G : forall x, In x (v :: r) -> good x = true) by (intros x Hx; rewrite <- Ef in Hx; apply filter_In in Hx; now apply fin_good).
    destruct (min_from_spec r v (G v (or_introl eq_refl)) (fun x Hx => G x (or_intror Hx))) as [A1 B1].
    destruct (max_from_spec r v (G v (or_introl eq_refl)) (fun x Hx => G x (or_intror Hx))) as [A2 B2].
    rewrite <- Ef in A1, B1, A2, B2.
    apply try_order_spec; auto.
    - rewrite En. discriminate.
    - unfold nonfinite. intros H x Hx. destruct (forallb finite arr) eqn:E; [|discriminate]. rewrite forallb_forall in E. auto.
    - unfold nonfinite. intro H. clear - H. induction arr as [|x l IH]; [discriminate|]. cbn in H. destruct (finite x) eqn:Fx.
      + destruct (IH H) as (y & Hy & Fy). exists y. split; [now right|exact Fy].
      + exists x. split; [now left|exact Fx].
    - intros dt Hd. apply in_app_iff in Hd. destruct Hd as [Hd|Hd].
      + destruct (forallb finite arr || nillable); [|destruct Hd]. left. apply in_app_iff in Hd.
        destruct Hd as [Hd|Hd]; apply in_map_iff in Hd; destruct Hd as (n & <- & Hn); exists n; auto.
      + right. apply in_map_iff in Hd. destruct Hd as (n & <- & _). reflexivity.
  Qed.

  (** No finite values: unchanged. *)
  Lemma no_finite_lemma w arr atol rtol lib nillable name : (nillable = true -> lib = Pandas) -> (forall v, In v arr -> finite v = false) ->
    downcast_float w arr atol rtol lib nillable name =
      Ok (Dict {| rtype := Float w; values := arr; aerr := zero; rerr := zero; as_series := series_of lib name |}).
  Proof.
    intros Hl H. unfold Down_Model.downcast_float.
    assert (E : filter finite arr = []).
    { destruct (filter finite arr) as [|x l] eqn:E; [reflexivity|]. assert (Hx : In x (filter finite arr)) by (rewrite E; now left).
      apply filter_In in Hx. destruct Hx as [Hx Fx]. rewrite H in Fx; [discriminate|exact Hx]. }
    rewrite E. destruct nillable; [rewrite Hl by reflexivity|]; reflexivity.
  Qed.

  Lemma zero_filter arr : all_zero finite nonzero arr -> filter nonzero (filter finite arr) = [].
  Proof.
    intro H. destruct (filter nonzero (filter finite arr)) as [|x l] eqn:E; [reflexivity|].
    assert (Hx : In x (filter nonzero (filter finite arr))) by (rewrite E; now left). rewrite !filter_In in Hx.
    destruct Hx as [[Hx Fx] Nx]. rewrite (H x Hx Fx) in Nx. discriminate.
  Qed.
  (** Only zeros: the narrowest type. *)
  Lemma zeros_lemma w arr atol rtol lib nillable name : (nillable = true -> lib = Pandas) -> arr <> [] -> all_finite finite arr -> all_zero finite nonzero arr ->
    exists l, downcast_float w arr atol rtol lib nillable name =
        Ok (Dict {| rtype := UInt 8; values := l; aerr := zero; rerr := zero; as_series := series_of lib name |}) /\
      Forall2 (fun v c => cast (UInt 8) v = Ok c) arr l.
  Proof.
    intros Hl Ne Fa Z. unfold Down_Model.downcast_float.
    assert (E : forall A (x y : A), match nillable, lib with true, Numpy => x | _, _ => y end = y).
    { intros. destruct nillable; [rewrite Hl|]; auto. }
    rewrite E, (zero_filter arr Z), filter_short.
    assert (K : forallb finite arr = true) by now apply forallb_forall. rewrite K. cbn [negb].
    destruct (filter finite arr) as [|v r] eqn:Ef.
    { exfalso. destruct arr as [|x l]; [now destruct Ne|]. cbn in Ef. rewrite (Fa x (or_introl eq_refl)) in Ef. discriminate. }
    destruct (mapM_total (cast (UInt 8)) arr) as (m & Em).
    { intros x Hx. apply ok; [rewrite (Z x Hx (Fa x Hx)); apply andb_false_r|left; split; [now apply Fa|exists 8; split; [now left|now left]]]. }
    exists m. unfold maybe_float. change {| kind_of := UIntK; bits := 8 |} with (UInt 8). rewrite Em. split; [reflexivity|now apply mapM_Forall2].
  Qed.
  (** Only zeros and values that are not finite. *)
  Lemma zeros_nonfinite_lemma w arr atol rtol lib nillable name : (nillable = true -> lib = Pandas) -> ~ all_finite finite arr ->
    (exists v, In v arr /\ finite v = true) -> all_zero finite nonzero arr ->
    if nillable then downcast_float w arr atol rtol lib nillable name = Exc TypeError
    else exists l, downcast_float w arr atol rtol lib nillable name = Ok (Plain (Float 16) l) /\ Forall2 (fun v c => cast (Float 16) v = Ok c) arr l.
  Proof.
    intros Hl Nf (v0 & Hv0 & Fv0) Z. unfold Down_Model.downcast_float.
    assert (E : forall A (x y : A), match nillable, lib with true, Numpy => x | _, _ => y end = y).
    { intros. destruct nillable; [rewrite Hl|]; auto. }
    rewrite E, (zero_filter arr Z), filter_short.
    assert (K : forallb finite arr = false).
    { destruct (forallb finite arr) eqn:K; [|reflexivity]. exfalso. apply Nf. rewrite forallb_forall in K. exact K. }
    rewrite K. cbn [negb]. destruct (filter finite arr) as [|v r] eqn:Ef.
    { exfalso. assert (In v0 []) as []. rewrite <- Ef. now apply filter_In. }
    destruct nillable; cbn [negb]; [reflexivity|].
    destruct (mapM_total (cast (Float 16)) arr) as (m & Em).
    { intros x Hx. apply ok; [|right; reflexivity]. destruct (finite x) eqn:Fx; [cbn; now apply Z|reflexivity]. }
    exists m. change {| kind_of := FloatK; bits := 16 |} with (Float 16). rewrite Em. split; [reflexivity|now apply mapM_Forall2].
  Qed.
  Lemma nillable_numpy w arr atol rtol name : downcast_float w arr atol rtol Numpy true name = Exc TypeError.
  Proof. reflexivity. Qed.
End Floats.

(** ** Exact numbers *)

Lemma fits_zero dt : int_type dt -> q_fits dt 0 = true.
Proof.
  intros (n & Hn & H). unfold q_fits, int_min, int_max. destruct Hn as [<-|[<-|[<-|[<-|[]]]]]; destruct H as [-> | ->]; reflexivity.
Qed.
Lemma q_numbers round : numbers_ok (fun _ : Q => true) (fun _ => true) (fun _ => false) q_nonzero Qle_bool q_ltb 0%Q (q_cast round).
Proof.
  split; [exact q_ordered|]. split; [reflexivity|]. split; [auto|]. split; [now right|].
  intros dt v H K. unfold q_cast. destruct K as [[_ K]|K]; [|rewrite K; eauto].
  assert (E : q_trunc v = 0).
  { cbn in H. unfold q_nonzero in H. destruct (Qeq_bool v 0) eqn:E; [|discriminate]. apply Qeq_bool_iff in E.
    unfold Qeq in E. cbn in E. unfold q_trunc. replace (Qnum v) with 0 by lia. now rewrite Z.quot_0_l. }
  rewrite E, (fits_zero dt K). destruct (kind_of dt); eauto.
Qed.
Lemma quot_between a d lo hi : 0 < d -> lo <= 0 <= hi -> lo * d <= a <= hi * d -> lo <= Z.quot a d <= hi.
Proof.
  intros Hd H0 H. pose proof (Z.quot_rem' a d) as E. destruct (Z.le_gt_cases 0 a) as [P|P].
  - pose proof (Z.rem_bound_pos a d P Hd). nia.
  - pose proof (Z.rem_bound_pos (- a) d ltac:(lia) Hd) as B. rewrite Z.rem_opp_l in B by lia. nia.
Qed.
Lemma q_cast_range round dt v : (int_type dt \/ kind_of dt = FloatK) ->
  Qle_bool (q_info_min dt) v = true -> Qle_bool v (q_info_max dt) = true -> exists c, q_cast round dt v = Ok c.
Proof.
  intros H H1 H2. unfold q_cast. destruct H as [H|H]; [|rewrite H; eauto].
  assert (F : q_fits dt (q_trunc v) = true).
  { apply Qle_bool_iff in H1, H2. unfold q_info_min, q_info_max in *. unfold q_fits.
    pose proof (fits_zero dt H) as Z0. unfold q_fits in Z0. rewrite andb_true_iff, !Z.leb_le in Z0 |- *.
    assert (Q1 : int_min dt * Zpos (Qden v) <= Qnum v <= int_max dt * Zpos (Qden v)).
    { destruct H as (n & _ & [-> | ->]); unfold Qle in H1, H2; cbn [kind_of UInt Int inject_Z Qnum Qden] in *; lia. }
    apply quot_between; lia. }
  rewrite F. destruct (kind_of dt); eauto.
Qed.
Lemma q_cast_zero round dt v c : (int_type dt \/ kind_of dt = FloatK) -> (forall w x, x == 0 -> round w x == 0)%Q -> q_nonzero v = false -> q_cast round dt v = Ok c -> (c == 0)%Q.
Proof.
  intros H Hr N E. unfold q_nonzero in N. destruct (Qeq_bool v 0) eqn:Z; [|discriminate]. apply Qeq_bool_iff in Z.
  assert (T : q_trunc v = 0).
  { unfold Qeq in Z. cbn in Z. unfold q_trunc. replace (Qnum v) with 0 by lia. now rewrite Z.quot_0_l. }
  unfold q_cast in E. rewrite T in E. destruct (kind_of dt).
  - destruct (q_fits dt 0); [injection E as <-; reflexivity|discriminate].
  - destruct (q_fits dt 0); [injection E as <-; reflexivity|discriminate].
  - injection E as <-. now apply Hr.
Qed.
Lemma q_ltb_false a b : q_ltb a b = false <-> (b <= a)%Q.
Proof. unfold q_ltb. rewrite <- Qle_bool_iff. destruct (Qle_bool b a); cbn; split; auto; discriminate. Qed.
Lemma order_types ints w dt : In dt (order ints w) -> int_type dt \/ kind_of dt = FloatK.
Proof.
  intro Hd. apply in_app_iff in Hd. destruct Hd as [Hd|Hd].
  - destruct ints; [|destruct Hd]. left. apply in_app_iff in Hd.
    destruct Hd as [Hd|Hd]; apply in_map_iff in Hd; destruct Hd as (n & <- & Hn); exists n; auto.
  - right. apply in_map_iff in Hd. destruct Hd as (n & <- & _). reflexivity.
Qed.

Notation q_admissible round := (admissible (fun _ : Q => true) q_nonzero Qle_bool q_ltb Qminus Qdiv Qabs q_info_min q_info_max (q_cast round)).
Notation q_first_admissible round := (first_admissible (fun _ : Q => true) q_nonzero Qle_bool q_ltb Qminus Qdiv Qabs q_info_min q_info_max (q_cast round)).

Lemma Forall2_combine_in {A B} (P : A -> B -> Prop) (R : A -> B -> Prop) l m : Forall2 P l m -> (forall a b, In a l -> P a b -> R a b) -> Forall2 R l m.
Proof. induction 1 as [|x y l m H F IH]; intro K; constructor; [apply K; [now left|exact H]|]. apply IH. intros a b Ha. apply K. now right. Qed.

Lemma exact_lemma round w arr atol rtol lib nillable name : (forall w x, x == 0 -> round w x == 0)%Q ->
  In w [16; 32; 64; 128] -> (nillable = true -> lib = Pandas) -> (exists v, In v arr /\ ~ v == 0)%Q ->
  exists r, q_downcast round w arr atol rtol lib nillable name = Ok (Dict r) /\ as_series r = series_of lib name /\
    ((rtype r = Float w /\ values r = arr /\ forall dt, In dt (order true w) -> ~ q_admissible round atol rtol dt arr) \/
     (q_first_admissible round atol rtol arr (order true w) (rtype r) /\
      Forall2 (fun v c => q_cast round (rtype r) v = Ok c /\ Qabs (v - c) <= atol /\ Qabs (v - c) <= rtol * Qabs v)%Q arr (values r))).
Proof.
  intros Hr Hw Hl (v0 & Hv0 & N0).
  assert (Nz : q_nonzero v0 = true).
  { unfold q_nonzero. destruct (Qeq_bool v0 0) eqn:E; [|reflexivity]. apply Qeq_bool_iff in E. contradiction. }
  assert (SN : some_nonzero (fun _ : Q => true) q_nonzero arr) by (exists v0; auto).
  pose proof (downcast_lemma (fun _ => true) (fun _ : Q => true) (fun _ => false) q_nonzero Qle_bool q_ltb Qminus Qdiv Qabs 0%Q 0%Q q_info_min q_info_max
    (q_cast round) (q_numbers round) w arr atol rtol lib nillable name Hw Hl SN) as O.
  replace (forallb (fun _ : Q => true) arr) with true in O by (symmetry; apply forallb_forall; auto). cbn [orb] in O.
  unfold q_downcast. set (res := downcast_float _ _ _ _ _ _ _ _ _ _ _ _ _ _ _ _ _ _ _ _) in *.
  clearbody res. destruct res as [[r|]|e]; unfold outcome in O.
  - exists r. split; [reflexivity|]. destruct O as [[-> H]|(FA & S & F & B & Ea & Er & _)].
    + split; [reflexivity|]. left. auto.
    + split; [exact S|]. right. split; [exact FA|].
      assert (Hi : int_type (rtype r) \/ kind_of (rtype r) = FloatK).
      { destruct FA as (b & a & El & _). apply (order_types true w). rewrite El. apply in_elt. }
      assert (P0 : (0 <= atol)%Q).
      { destruct FA as (_ & _ & _ & [_ Ad] & _). destruct (Ad v0 Hv0 eq_refl Nz) as (c & _ & A & _). unfold abs_within in A. apply q_ltb_false in A.
        eapply Qle_trans; [|exact A]. apply Qabs_nonneg. }
      apply (Forall2_combine_in _ _ _ _ F). intros v c Hv Ec. split; [exact Ec|].
      destruct (q_nonzero v) eqn:Nv.
      * destruct (B v c Hv eq_refl Nv Ec) as [A R]. unfold abs_within, rel_within in A, R. apply q_ltb_false in A, R, Ea, Er.
        assert (A' : (Qabs (v - c) <= atol)%Q).
        { eapply Qle_trans; [|exact Ea]. eapply Qle_trans; [|exact A]. rewrite (Qabs_pos (Qabs (v - c))) by apply Qabs_nonneg. apply Qle_refl. }
        split; [exact A'|].
        assert (Pv : (0 < Qabs v)%Q).
        { unfold q_nonzero in Nv. destruct (Qlt_le_dec 0 (Qabs v)) as [P|P]; [exact P|]. exfalso.
          assert (E : (v == 0)%Q).
          { pose proof (Qle_Qabs v) as L1. pose proof (Qle_Qabs (- v)) as L2. rewrite Qabs_opp in L2. apply Qle_antisym.
            - eapply Qle_trans; eauto.
            - assert (L3 : (- v <= 0)%Q) by (eapply Qle_trans; eauto). apply Qopp_le_compat in L3. rewrite Qopp_involutive in L3. exact L3. }
          rewrite (proj2 (Qeq_bool_iff v 0) E) in Nv. discriminate. }
        assert (R' : (Qabs (Qabs (v - c) / v) <= rtol)%Q) by (eapply Qle_trans; eauto).
        unfold Qdiv in R'. rewrite Qabs_Qmult, Qabs_Qinv in R'. rewrite (Qabs_pos (Qabs (v - c))) in R' by apply Qabs_nonneg.
        apply (Qmult_le_compat_r _ _ (Qabs v)) in R'; [|now apply Qlt_le_weak].
        rewrite <- Qmult_assoc, (Qmult_comm (/ Qabs v)), Qmult_inv_r, Qmult_1_r in R'; [exact R'|]. intro E. rewrite E in Pv. discriminate.
      * pose proof (q_cast_zero round (rtype r) v c Hi Hr Nv Ec) as Zc.
        assert (Zv : (v == 0)%Q) by (unfold q_nonzero in Nv; destruct (Qeq_bool v 0) eqn:E; [now apply Qeq_bool_iff|discriminate]).
        assert (E : (Qabs (v - c) == 0)%Q) by (rewrite Zv, Zc; reflexivity). rewrite E. split; [exact P0|]. rewrite Zv. cbn [Qabs]. 
        replace (rtol * Qabs 0)%Q with (rtol * 0)%Q by reflexivity. rewrite Qmult_0_r. apply Qle_refl.
  - destruct O.
  - destruct O as [(dt & v & Hd & Hv & _ & R & Ec)|(_ & (v & _ & F) & _)]; [|discriminate].
    destruct (R v Hv eq_refl) as [R1 R2]. destruct (q_cast_range round dt v (order_types true w dt Hd) R1 R2) as (c & Ec'). congruence.
Qed.

(** ** Doubles *)

Lemma f_numbers : numbers_ok f_good f_finite f_nan f_nonzero SFleb SFltb S754_nan f_cast.
Proof.
  split; [exact f_ordered|]. split; [now intros []|]. split; [now intros []|]. split; [now left|].
  intros dt v H [[F K]|K]; unfold f_cast.
  - destruct v as [s| | |s m e]; try discriminate. cbn [f_trunc]. rewrite (fits_zero dt K). destruct (kind_of dt); eauto.
  - rewrite K. eauto.
Qed.

(** ** Frames *)

Lemma keqb_refl k : keqb k k = true.
Proof. unfold keqb. now destruct (key_eq_dec (knorm k) (knorm k)). Qed.
Lemma keys_eqb_refl l : keys_eqb l l = true.
Proof. induction l as [|k l IH]; [reflexivity|]. cbn. now rewrite keqb_refl, IH. Qed.

Lemma keqb_norm a b : keqb a b = true <-> knorm a = knorm b.
Proof. unfold keqb. destruct (key_eq_dec (knorm a) (knorm b)); split; congruence. Qed.
Lemma keqb_sym a b : keqb a b = keqb b a.
Proof. destruct (keqb a b) eqn:E, (keqb b a) eqn:E'; auto; rewrite keqb_norm in *; apply not_true_iff_false in E || apply not_true_iff_false in E'; rewrite keqb_norm in *; congruence. Qed.
Lemma keys_eqb_same a : forall b, keys_eqb a b = true <-> same_labels a b.
Proof.
  induction a as [|x a IH]; intros [|y b]; cbn; split; intro H; try discriminate; try constructor; try (now inversion H).
  - now apply andb_prop in H.
  - apply IH. now apply andb_prop in H.
  - inversion H; subst. apply andb_true_iff. split; [assumption|now apply IH].
Qed.
Lemma key_in_iff k l : key_in k l = true <-> has_label k l.
Proof.
  unfold key_in, has_label. rewrite existsb_exists. split; intros (x & H1 & H2); exists x; (split; [exact H1|]); now rewrite keqb_sym.
Qed.
Lemma unique_iff l : unique l = true <-> distinct l.
Proof.
  induction l as [|k l IH]; cbn [unique]; [split; [constructor|reflexivity]|]. rewrite andb_true_iff, negb_true_iff, IH. split.
  - intros [H1 H2]. constructor; [|exact H2]. apply Forall_forall. intros y Hy. destruct (keqb k y) eqn:E; [|reflexivity].
    assert (key_in k l = true); [|congruence]. apply key_in_iff. exists y. split; [exact Hy|]. now rewrite keqb_sym.
  - intro H. inversion H as [|? ? F1 F2]; subst. split; [|exact F2]. destruct (key_in k l) eqn:E; [|reflexivity].
    apply key_in_iff in E. destruct E as (y & Hy & Ey). rewrite Forall_forall in F1. specialize (F1 y Hy). rewrite keqb_sym in F1. congruence.
Qed.
Lemma range_distinct n : distinct (range_index n).
Proof.
  unfold range_index. generalize 0%nat as a. induction n as [|n IH]; intro a; cbn [seq map]; constructor; [|apply IH].
  apply Forall_forall. intros k Hk. apply in_map_iff in Hk. destruct Hk as (i & <- & Hi). apply in_seq in Hi.
  destruct (keqb _ _) eqn:E; [|reflexivity]. apply keqb_norm in E. cbn in E. injection E as E. lia.
Qed.
Lemma distinct_snoc l k : distinct l -> ~ has_label k l -> distinct (l ++ [k]).
Proof.
  induction l as [|x l IH]; intros D H; cbn; [repeat constructor|]. inversion D as [|? ? F1 F2]; subst. constructor.
  - apply Forall_app. split; [exact F1|]. constructor; [|constructor]. destruct (keqb x k) eqn:E; [|reflexivity]. destruct H. exists x. split; [now left|exact E].
  - apply IH; [exact F2|]. intros (y & Hy & Ey). apply H. exists y. split; [now right|exact Ey].
Qed.
Lemma label_app k a b : has_label k (a ++ b) <-> has_label k a \/ has_label k b.
Proof.
  unfold has_label. split.
  - intros (x & Hx & E). apply in_app_or in Hx. destruct Hx; [left|right]; eauto.
  - intros [(x & Hx & E)|(x & Hx & E)]; exists x; (split; [apply in_or_app; auto|exact E]).
Qed.
Lemma union_spec l : distinct (union_keys l) /\ forall k, has_label k (union_keys l) <-> has_label k l.
Proof.
  unfold union_keys.
  assert (G : forall l acc, distinct acc -> let u := fold_left (fun acc k => if key_in k acc then acc else acc ++ [k]) l acc in
    distinct u /\ forall k, has_label k u <-> has_label k acc \/ has_label k l).
  { clear l. induction l as [|x l IH]; intros acc D; cbn [fold_left].
    - split; [exact D|]. intro k. split; [auto|]. intros [H|(y & [] & _)]. exact H.
    - destruct (key_in x acc) eqn:E.
      + apply key_in_iff in E. destruct (IH acc D) as [D' H']. split; [exact D'|]. intro k. rewrite H'. split.
        * intros [H|(y & Hy & Ey)]; [now left|]. right. exists y. split; [now right|exact Ey].
        * intros [H|(y & [<-|Hy] & Ey)]; [now left| |right; now exists y].
          left. destruct E as (z & Hz & Ez). exists z. split; [exact Hz|]. rewrite keqb_norm in *. congruence.
      + assert (N : ~ has_label x acc) by (intro H; apply key_in_iff in H; congruence).
        destruct (IH _ (distinct_snoc _ _ D N)) as [D' H']. split; [exact D'|]. intro k. rewrite H', label_app. split.
        * intros [[H|(y & [<-|[]] & Ey)]|(y & Hy & Ey)]; [now left|right; exists x; split; [now left|exact Ey]|right; exists y; split; [now right|exact Ey]].
        * intros [H|(y & [<-|Hy] & Ey)]; [auto|left; right; exists x; split; [now left|exact Ey]|right; now exists y]. }
  destruct (G l [] ltac:(constructor)) as [D H]. split; [exact D|]. intro k. rewrite H. split; [intros [(y & [] & _)|?]; assumption|auto].
Qed.
Lemma at_label_spec {num} (s : @series num) k : under_label s k (at_label k (index_of s) (cells s)).
Proof.
  destruct s as [ix cs ct]. unfold under_label. cbn [index_of cells].
  assert (G : forall ix (cs : list (@cell num)), (exists j k', nth_error ix j = Some k' /\ keqb k' k = true /\ at_label k ix cs = nth_error cs j) \/
    (at_label k ix cs = None /\ ~ has_label k ix)).
  { clear. induction ix as [|x ix IH]; intro cs.
    - right. split; [destruct cs; reflexivity|]. intros (y & [] & _).
    - destruct (keqb x k) eqn:E.
      + left. exists 0%nat, x. split; [reflexivity|]. split; [exact E|]. destruct cs; cbn [at_label]; [reflexivity|]. now rewrite E.
      + destruct cs as [|v cs]; cbn [at_label].
        * destruct (IH []) as [(j & k' & H1 & H2 & _)|[_ H]].
          -- left. exists (S j), k'. auto.
          -- right. split; [reflexivity|]. intros (y & [<-|Hy] & Ey); [congruence|]. apply H. now exists y.
        * rewrite E. destruct (IH cs) as [(j & k' & H1 & H2 & H3)|[H1 H2]].
          -- left. exists (S j), k'. auto.
          -- right. split; [exact H1|]. intros (y & [<-|Hy] & Ey); [congruence|]. apply H2. now exists y. }
  apply G.
Qed.

Section Frames.
  Context {num : Type}.
  Context (good finite is_nan nonzero : num -> bool).
  Context (leb ltb : num -> num -> bool).
  Context (sub div : num -> num -> num) (abs : num -> num).
  Context (zero nan : num).
  Context (info_min info_max : dtype -> num).
  Context (cast : dtype -> num -> res num).
  Context (ok : numbers_ok good finite is_nan nonzero leb ltb nan cast).
  Notation downcast_float := (downcast_float finite is_nan nonzero leb ltb sub div abs zero nan info_min info_max cast).
  Notation downcast_columns := (downcast_columns finite is_nan nonzero leb ltb sub div abs zero nan info_min info_max cast).
  Notation recast_column := (recast_column finite is_nan nonzero leb ltb sub div abs zero nan info_min info_max cast).
  Notation downcast_df := (downcast_df finite is_nan nonzero leb ltb sub div abs zero nan info_min info_max cast).

  Notation recast_as := (recast_as finite is_nan nonzero leb ltb sub div abs zero nan info_min info_max cast).
  Lemma recast_spec atol rtol nillable index nc ns : column_ok (snd nc) -> recast_column atol rtol nillable index nc = Ok ns ->
    recast_as atol rtol nillable index nc ns.
  Proof.
    destruct nc as [name c]. cbn [snd fst]. intros Hc E. unfold Down_Model.recast_column in E. destruct c as [dt l|w l|l|l].
    - destruct Hc as (Ht & Ne & Hh). destruct (downcast_int_lemma dt l Pandas (Some name) Ht Ne Hh) as (r & Er & Ev & _ & _ & _ & _ & It & Hr & _).
      rewrite Er in E. cbn [bind] in E. injection E as <-. split; [reflexivity|]. cbn. exists (rtype r). now rewrite Ev.
    - destruct (downcast_float w l atol rtol Pandas nillable (Some name)) as [[r|]|] eqn:Er; cbn [bind] in E; try discriminate. injection E as <-.
      split; [reflexivity|]. cbn. exists r. auto.
    - injection E as <-. split; [reflexivity|]. cbn. auto.
    - discriminate.
  Qed.

  Lemma columns_spec atol rtol nillable index cols l : (forall n c, In (n, c) cols -> column_ok c) -> downcast_columns atol rtol nillable index cols = Ok l ->
    Forall2 (recast_as atol rtol nillable index) cols l.
  Proof.
    intros Hc E. apply mapM_Forall2 in E. apply (Forall2_combine_in _ _ _ _ E). intros [n c] ns Hin. apply recast_spec. cbn. eauto.
  Qed.

  Lemma recast_index atol rtol nillable index n c ns : height c = List.length index -> index = range_index (List.length index) \/ numeric c = true ->
    recast_as atol rtol nillable index (n, c) ns -> index_of (snd ns) = range_index (List.length index).
  Proof.
    intros Hh Hi [_ H]. destruct c as [dt l|w l|l|l]; cbn in *.
    - destruct H as (dt' & _ & _ & _ & _ & ->). now rewrite Hh.
    - destruct H as (r & _ & _ & _ & ->). now rewrite Hh.
    - destruct H as (_ & _ & ->). destruct Hi; [assumption|discriminate].
    - destruct H.
  Qed.

  Lemma same_index atol rtol nillable index cols l : cols <> [] -> frame_ok index cols -> (forall n c, In (n, c) cols -> column_ok c) ->
    index = range_index (List.length index) \/ (forall n c, In (n, c) cols -> numeric c = true) ->
    downcast_columns atol rtol nillable index cols = Ok l ->
    downcast_df atol rtol nillable index cols = Ok (range_index (List.length index), map (fun s => (fst s, map Some (cells (snd s)))) l) /\
    Forall2 (recast_as atol rtol nillable index) cols l.
  Proof.
    intros Ne Hf Hc Hi E. pose proof (columns_spec _ _ _ _ _ _ Hc E) as F. split; [|exact F].
    assert (Hl : forall s, In s l -> index_of (snd s) = range_index (List.length index)).
    { intros s Hs. clear E. induction F as [|[n c] s0 cols' l' R F IH]; [destruct Hs|]. destruct Hs as [<-|Hs].
      - apply (recast_index atol rtol nillable index n c); [apply (Hf n); now left| |exact R]. destruct Hi as [Hi|Hi]; [now left|right; apply (Hi n); now left].
      - destruct cols' as [|x cols']; [inversion F; subst; destruct Hs|]. apply IH; auto; try discriminate.
        + intros n' c' H. apply (Hf n'). now right.
        + intros n' c' H. apply (Hc n'). now right.
        + destruct Hi as [Hi|Hi]; [now left|right]. intros n' c' H. apply (Hi n'). now right. }
    unfold Down_Model.downcast_df. rewrite E. cbn [bind]. destruct l as [|[n0 s0] l]; [inversion F; subst; now destruct Ne|].
    unfold concat_series.
    assert (K : forallb (fun s => keys_eqb (index_of (snd s)) (index_of s0)) ((n0, s0) :: l) = true).
    { apply forallb_forall. intros s Hs. rewrite (Hl s Hs), <- (Hl (n0, s0) (or_introl eq_refl)). apply keys_eqb_refl. }
    rewrite K. rewrite <- (Hl (n0, s0) (or_introl eq_refl)). reflexivity.
  Qed.

  Lemma no_columns atol rtol nillable index : downcast_df atol rtol nillable index [] = Exc ValueError.
  Proof. reflexivity. Qed.

  Lemma mixed_index atol rtol nillable index cols l n1 c1 n2 c2 : frame_ok index cols -> (forall n c, In (n, c) cols -> column_ok c) ->
    In (n1, c1) cols -> numeric c1 = true -> In (n2, c2) cols -> numeric c2 = false -> ~ same_labels index (range_index (List.length index)) ->
    downcast_columns atol rtol nillable index cols = Ok l ->
    exists n0 s0 l', l = (n0, s0) :: l' /\ forallb (fun s => keys_eqb (index_of (snd s)) (index_of s0)) l = false /\
      (exists s, In s l /\ index_of (snd s) = index) /\
      (forall s, In s l -> index_of (snd s) = index \/ index_of (snd s) = range_index (List.length index)).
  Proof.
    intros Hf Hc I1 N1 I2 N2 Ns E. pose proof (columns_spec _ _ _ _ _ _ Hc E) as F. apply mapM_Forall2 in E.
    destruct (combine_fst _ _ _ F _ I1) as (s1 & Hs1). destruct (combine_fst _ _ _ F _ I2) as (s2 & Hs2).
    pose proof (Forall2_combine _ _ _ F _ _ Hs1) as R1. pose proof (Forall2_combine _ _ _ F _ _ Hs2) as R2.
    assert (X1 : index_of (snd s1) = range_index (List.length index)).
    { apply (recast_index atol rtol nillable index n1 c1); [now apply (Hf n1)|now right|exact R1]. }
    assert (X2 : index_of (snd s2) = index) by (destruct R2 as [_ R2]; destruct c2; try discriminate; apply R2).
    assert (Hin : forall s, In s l -> index_of (snd s) = index \/ index_of (snd s) = range_index (List.length index)).
    { intros s Hs. clear E Hs1 Hs2 I1 I2 Hc. revert Hf. induction F as [|[n c] s0 cols' l' R F IH]; intro Hf; [destruct Hs|]. destruct Hs as [<-|Hs].
      - destruct (numeric c) eqn:Ec; [right|left].
        + apply (recast_index atol rtol nillable index n c); [apply (Hf n); now left|now right|exact R].
        + destruct R as [_ R]. destruct c; try discriminate. apply R.
      - apply IH; auto. intros n' c' H. apply (Hf n'). now right. }
    apply in_combine_r in Hs1. apply in_combine_r in Hs2.
    destruct l as [|[n0 s0] l]; [destruct Hs1|]. exists n0, s0, l. split; [reflexivity|]. split; [|split; [now exists s2|exact Hin]].
    apply not_true_iff_false. intro A. rewrite forallb_forall in A. pose proof (A _ Hs1) as A1. pose proof (A _ Hs2) as A2. cbv beta in A1, A2. rewrite X1 in A1. rewrite X2 in A2.
    apply Ns. destruct (Hin (n0, s0) (or_introl eq_refl)) as [H0|H0]; cbn [snd] in H0; rewrite H0 in *.
    - apply keys_eqb_same in A1. clear - A1. induction A1; constructor; [now rewrite keqb_sym|assumption].
    - now apply keys_eqb_same.
  Qed.

  Lemma repeated_labels atol rtol nillable index cols l n1 c1 n2 c2 : frame_ok index cols -> (forall n c, In (n, c) cols -> column_ok c) ->
    In (n1, c1) cols -> numeric c1 = true -> In (n2, c2) cols -> numeric c2 = false -> ~ distinct index ->
    downcast_columns atol rtol nillable index cols = Ok l ->
    downcast_df atol rtol nillable index cols = Exc InvalidIndexError.
  Proof.
    intros Hf Hc I1 N1 I2 N2 Nd E.
    assert (Ns : ~ same_labels index (range_index (List.length index))).
    { intro S. apply Nd. assert (G : forall a b, same_labels a b -> distinct b -> distinct a).
      { clear. induction a as [|x a IH]; intros b S D; [constructor|]. inversion S as [|? y ? b' E F]; subst. inversion D as [|? ? D1 D2]; subst.
        constructor; [|now apply (IH b')]. apply Forall_forall. intros z Hz. destruct (keqb x z) eqn:Exz; [|reflexivity].
        assert (G : exists w, In w b' /\ keqb z w = true).
        { clear - Hz F. induction F as [|u v ? ? E F IH]; [destruct Hz|]. destruct Hz as [<-|Hz]; [exists v; split; [now left|exact E]|].
          destruct (IH Hz) as (w & Hw & Ew). exists w. split; [now right|exact Ew]. }
        destruct G as (w & Hw & Ew). rewrite Forall_forall in D1. specialize (D1 w Hw). apply not_true_iff_false in D1. destruct D1.
        rewrite keqb_norm in *. congruence. }
      exact (G _ _ S (range_distinct _)). }
    destruct (mixed_index atol rtol nillable index cols l n1 c1 n2 c2 Hf Hc I1 N1 I2 N2 Ns E) as (n0 & s0 & l' & El & A & (s & Hs & Xs) & _).
    unfold Down_Model.downcast_df. rewrite E. cbn [bind]. unfold concat_series. rewrite El in *. rewrite A.
    destruct (forallb (fun s => unique (index_of (snd s))) ((n0, s0) :: l')) eqn:U; [|reflexivity].
    rewrite forallb_forall in U. specialize (U s Hs). cbv beta in U. rewrite Xs in U. apply unique_iff in U. contradiction.
  Qed.

  Lemma joined_labels atol rtol nillable index cols l n1 c1 n2 c2 : frame_ok index cols -> (forall n c, In (n, c) cols -> column_ok c) ->
    In (n1, c1) cols -> numeric c1 = true -> In (n2, c2) cols -> numeric c2 = false ->
    distinct index -> ~ same_labels index (range_index (List.length index)) ->
    downcast_columns atol rtol nillable index cols = Ok l ->
    exists ix out, downcast_df atol rtol nillable index cols = Ok (ix, out) /\ distinct ix /\
      (forall k, has_label k ix <-> has_label k index \/ has_label k (range_index (List.length index))) /\
      Forall2 (fun s o => fst o = fst s /\ Forall2 (under_label (snd s)) ix (snd o)) l out.
  Proof.
    intros Hf Hc I1 N1 I2 N2 Di Ns E.
    destruct (mixed_index atol rtol nillable index cols l n1 c1 n2 c2 Hf Hc I1 N1 I2 N2 Ns E) as (n0 & s0 & l' & El & A & (s & Hs & Xs) & Hin).
    unfold Down_Model.downcast_df. rewrite E. cbn [bind]. unfold concat_series. rewrite El in A |- *. rewrite A. rewrite <- El.
    assert (U : forallb (fun s => unique (index_of (snd s))) l = true).
    { apply forallb_forall. intros x Hx. apply unique_iff. destruct (Hin x Hx) as [-> | ->]; [exact Di|apply range_distinct]. }
    rewrite U. eexists. eexists. split; [reflexivity|].
    destruct (union_spec (List.concat (map (fun s => index_of (snd s)) l))) as [D H]. split; [exact D|]. split.
    - intro k. rewrite H. split.
      + intros (x & Hx & Ex). apply in_concat in Hx. destruct Hx as (y & Hy & Hx). apply in_map_iff in Hy. destruct Hy as (t & <- & Ht).
        destruct (Hin t Ht) as [Et|Et]; rewrite Et in Hx; [left|right]; now exists x.
      + pose proof (columns_spec _ _ _ _ _ _ Hc E) as F. destruct (combine_fst _ _ _ F _ I1) as (s1 & Hs1). pose proof (Forall2_combine _ _ _ F _ _ Hs1) as R1.
        assert (X1 : index_of (snd s1) = range_index (List.length index)).
        { apply (recast_index atol rtol nillable index n1 c1); [now apply (Hf n1)|now right|exact R1]. }
        apply in_combine_r in Hs1.
        intros [(x & Hx & Ex)|(x & Hx & Ex)]; exists x; (split; [|exact Ex]); apply in_concat.
        * exists index. split; [|exact Hx]. apply in_map_iff. now exists s.
        * exists (range_index (List.length index)). split; [|exact Hx]. apply in_map_iff. now exists s1.
    - set (ix := union_keys _). clearbody ix. clear - l. induction l as [|x l IH]; cbn [map]; constructor; [|exact IH].
      cbn [fst snd]. split; [reflexivity|]. clear IH. induction ix as [|k ix IHx]; cbn [map]; [constructor|]. constructor; [apply at_label_spec|exact IHx].
  Qed.

  Lemma zero_column atol rtol index cols n w arr : In (n, FloatCol w arr) cols -> ~ all_finite finite arr ->
    (exists v, In v arr /\ finite v = true) -> all_zero finite nonzero arr ->
    exists e, downcast_df atol rtol false index cols = Exc e.
  Proof.
    intros Hin Nf Hv Hz. unfold Down_Model.downcast_df. destruct (downcast_columns atol rtol false index cols) as [l|e] eqn:E; [|eexists; reflexivity].
    exfalso. apply mapM_Forall2 in E. destruct (combine_fst _ _ _ E _ Hin) as (s & Hs). pose proof (Forall2_combine _ _ _ E _ _ Hs) as Er.
    unfold Down_Model.recast_column in Er.
    pose proof (zeros_nonfinite_lemma good finite is_nan nonzero leb ltb sub div abs zero nan info_min info_max cast ok w arr atol rtol Pandas false (Some n)
      (fun _ => eq_refl) Nf Hv Hz) as (m & Em & _). rewrite Em in Er. discriminate.
  Qed.
End Frames.

(** ** Limits and truncation *)

Lemma float_max_shape w p emax : In (w, p, emax) [(16, 11, 16); (32, 24, 128); (64, 53, 1024)] ->
  float_max w = (2 ^ p - 1) * 2 ^ (emax - p) /\ 0 < p /\ p <= emax.
Proof. intros [[= <- <- <-]|[[= <- <- <-]|[[= <- <- <-]|[]]]]; (split; [vm_compute; reflexivity|lia]). Qed.
Lemma float_max_largest w p emax : In (w, p, emax) [(16, 11, 16); (32, 24, 128); (64, 53, 1024)] ->
  (exists m e, 0 <= m < 2 ^ p /\ 0 <= e <= emax - p /\ float_max w = m * 2 ^ e) /\
  forall m e, 0 <= m < 2 ^ p -> 0 <= e <= emax - p -> m * 2 ^ e <= float_max w.
Proof.
  intro H. destruct (float_max_shape _ _ _ H) as (-> & Hp & Hem). assert (0 < 2 ^ p) by (apply Z.pow_pos_nonneg; lia). split.
  - exists (2 ^ p - 1), (emax - p). split; [lia|]. split; [lia|reflexivity].
  - intros m e Hm He. apply Z.mul_le_mono_nonneg; [lia|lia|apply Z.pow_nonneg; lia|apply Z.pow_le_mono_r; lia].
Qed.
Lemma f_trunc_quot s m e : f_trunc (S754_finite s m e) =
  Some (let v := if s : bool then Zneg m else Zpos m in if 0 <=? e then v * 2 ^ e else Z.quot v (2 ^ (- e))).
Proof.
  cbn. f_equal. destruct (Z.leb_spec 0 e) as [He|He]; destruct s.
  - change (Z.neg m) with (- Z.pos m). now rewrite Z.mul_opp_l.
  - reflexivity.
  - change (Z.neg m) with (- Z.pos m). assert (0 < 2 ^ (- e)) by (apply Z.pow_pos_nonneg; lia). rewrite Z.quot_opp_l by lia. rewrite Z.quot_div_nonneg by lia. reflexivity.
  - assert (0 < 2 ^ (- e)) by (apply Z.pow_pos_nonneg; lia). rewrite Z.quot_div_nonneg by lia. reflexivity.
Qed.
