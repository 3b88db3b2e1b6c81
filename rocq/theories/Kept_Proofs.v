(** Proofs about storing values with the default codec. *)
From Verif Require Import Addr_Facts Pickle_Final Sticky_Proofs.
From Verif Require Export Kept_Spec.
From Coq Require Import Lia.

(** ** From what is shown to what there is *)

Lemma map_some_Forall2 {A B} (f : A -> option B) l ks : map f l = map Some ks -> Forall2 (fun a b => f a = Some b) l ks.
Proof.
  revert ks. induction l as [|a l IH]; intros [|k ks] E; try discriminate; constructor; injection E as E1 E2; auto.
Qed.
Lemma tree_key_tup l ks :
  fold_right (fun k r => match k, r with Some a, Some b => Some (a :: b) | _, _ => None end) (Some []) (map tree_key l) = Some ks ->
  Forall2 (fun t k => tree_key t = Some k) l ks.
Proof.
  revert ks. induction l as [|a l IH]; intros ks E; cbn [map fold_right] in E.
  - injection E as <-. constructor.
  - destruct (tree_key a) eqn:Ea; [|discriminate]. destruct (fold_right _ _ _) eqn:Er; [|discriminate]. injection E as <-. constructor; auto.
Qed.

Lemma shown_key h n v k : tree_key (shown n h v) = Some k -> as_key h n v k.
Proof.
  revert v k. induction n as [|n IH]; intros v k E.
  - destruct v; cbn in E; try discriminate; injection E as <-; constructor.
  - destruct v; cbn [shown tree_key] in E; try (injection E as <-; constructor); try discriminate.
    destruct (h x) as [[s|b|l|l|d]|] eqn:Ex; cbn [tree_key] in E; try discriminate.
    + injection E as <-. now constructor.
    + injection E as <-. now constructor.
    + destruct (fold_right _ _ _) as [ks|] eqn:Er in E; [|discriminate]. injection E as <-. econstructor; [exact Ex|].
      apply tree_key_tup in Er. revert ks Er. clear Ex. induction l as [|a l IHl]; intros ks Er; inversion Er; subst; constructor; auto.
Qed.
Lemma as_key_more h n m v k : as_key h n v k -> n <= m -> as_key h m v k.
Proof.
  revert m v k. induction n as [|n IH]; intros m v k H Hm.
  - inversion H; subst; constructor.
  - destruct m as [|m]; [lia|]. inversion H; subst; try (constructor; assumption).
    econstructor; [eassumption|]. match goal with F : Forall2 _ _ _ |- _ => revert F end. generalize dependent l. intros l _ F. clear H.
    induction F; constructor; auto. apply IH; [assumption|lia].
Qed.

Lemma shown_in n h x nd w : h x = Some nd -> In w (children nd) -> value (shown (S n) h (PRef x)) -> value (shown n h w).
Proof.
  intros Ex Hw V. cbn [shown] in V. rewrite Ex in V. destruct nd as [s|b|l|l|d]; cbn [children] in Hw; try destruct Hw as [].
  - inversion V as [| | |? F| |]; subst. rewrite Forall_forall in F. apply F. now apply in_map.
  - inversion V as [| | | |? ? F|]; subst. rewrite Forall_forall in F. apply F. now apply in_map.
  - inversion V as [| | | | |? ? F1 F2]; subst. rewrite map_map in F1, F2. cbn in F1, F2. rewrite Forall_forall in F1, F2.
    apply in_app_or in Hw. destruct Hw as [Hw|Hw]; apply in_map_iff in Hw; destruct Hw as (kv & <- & Hkv).
    + apply F1. apply in_map_iff. now exists kv.
    + apply F2. apply in_map_iff. now exists kv.
Qed.
Lemma shown_small_in n h x nd w : h x = Some nd -> In w (children nd) -> small (shown (S n) h (PRef x)) -> small (shown n h w).
Proof.
  intros Ex Hw V. cbn [shown] in V. rewrite Ex in V. destruct nd as [s|b|l|l|d]; cbn [children] in Hw; try destruct Hw as [].
  - inversion V as [| | |? F| |]; subst. rewrite Forall_forall in F. apply F. now apply in_map.
  - inversion V as [| | | |? F|]; subst. rewrite Forall_forall in F. apply F. now apply in_map.
  - inversion V as [| | | | |? F1 F2]; subst. rewrite map_map in F1, F2. cbn in F1, F2. rewrite Forall_forall in F1, F2.
    apply in_app_or in Hw. destruct Hw as [Hw|Hw]; apply in_map_iff in Hw; destruct Hw as (kv & <- & Hkv).
    + apply F1. apply in_map_iff. now exists kv.
    + apply F2. apply in_map_iff. now exists kv.
Qed.

Lemma shown_reach h v x : reaches h v x -> forall n, value (shown n h v) ->
  exists m, m <= n /\ value (shown m h (PRef x)) /\ (small (shown n h v) -> small (shown m h (PRef x))).
Proof.
  induction 1 as [x|x nd w y Ex Hw H IH]; intros n V.
  - exists n. auto.
  - destruct n as [|n]; [inversion V|]. destruct (IH n (shown_in _ _ _ _ _ Ex Hw V)) as (m & Hm & Vm & Sm). exists m.
    split; [lia|]. split; [exact Vm|]. intro S. apply Sm. exact (shown_small_in _ _ _ _ _ Ex Hw S).
Qed.

Lemma shown_proper n h v : value (shown n h v) -> proper n h v.
Proof.
  intros V x Hx. destruct (shown_reach _ _ _ Hx n V) as (m & Hm & Vm & _). destruct m as [|m]; [inversion Vm|]. cbn [shown] in Vm.
  destruct (h x) as [[s|b|l|l|d]|] eqn:Ex; try exact I.
  - destruct l; [|exact I]. inversion Vm; subst. now contradiction (H0 eq_refl).
  - inversion Vm as [| | | | |? ks F1 F2 Ek Hd]; subst. exists ks. split; [|exact Hd]. rewrite !map_map in Ek. cbn in Ek.
    rewrite <- (map_map fst (fun k => tree_key (shown m h k))) in Ek. apply map_some_Forall2 in Ek. clear - Ek Hm. revert ks Ek.
    induction (map fst d) as [|k l IH]; intros ks Ek; inversion Ek; subst; constructor; auto. eapply as_key_more; [apply shown_key; eassumption|lia].
  - inversion Vm.
Qed.

Lemma shown_nested n h v : value (shown n h v) -> nested h (depth (shown n h v)) v.
Proof.
  revert v. induction n as [|n IH]; intros v V.
  - destruct v; cbn in *; try (apply ne_atom; discriminate). inversion V.
  - destruct v; try (apply ne_atom; discriminate). 
    cbn [shown]. destruct (h x) as [nd|] eqn:Ex; [|cbn [shown] in V; rewrite Ex in V; inversion V].
    assert (G : forall w, In w (children nd) -> nested h (depth (shown n h w)) w) by (intros w Hw; apply IH; eapply shown_in; eauto).
    assert (M : forall a b w, nested h a w -> a <= b -> nested h b w).
    { clear. induction a as [|a IHa]; intros b w N L; inversion N; subst; try (apply ne_atom; assumption).
      destruct b as [|b]; [lia|]. eapply ne_ref; [eassumption|]. intros w' Hw'. apply IHa; [auto|lia]. }
    assert (X : forall (f : pv -> nat) l w, In w l -> f w <= fold_right Nat.max 0 (map f l)).
    { clear. intros f. induction l as [|a l IHl]; intros w Hw; destruct Hw; subst; cbn; [lia|]. specialize (IHl _ H). lia. }
    destruct nd as [s|b|l|l|d]; cbn [depth]; (eapply ne_ref; [exact Ex|]); intros w Hw; cbn [children] in *; try destruct Hw as [];
      (eapply M; [now apply G|]).
    + rewrite map_map. now apply (X (fun w => depth (shown n h w))).
    + rewrite map_map. now apply (X (fun w => depth (shown n h w))).
    + rewrite map_map. cbn. clear - Hw. apply in_app_or in Hw. induction d as [|[k u] d IHd]; cbn in *; [tauto|].
      destruct Hw as [[->|Hw]|[->|Hw]]; try lia; [specialize (IHd (or_introl Hw))|specialize (IHd (or_intror Hw))]; lia.
Qed.

Lemma shown_fits n h v : value (shown n h v) -> small (shown n h v) -> fits h v.
Proof.
  intros V S. assert (A : forall m w, value (shown m h w) -> small (shown m h w) -> fits_pv w).
  { intros m w Vw Sw. destruct w; try exact I; destruct m; cbn in Sw; inversion Sw; subst; assumption. }
  split; [exact (A n v V S)|]. intros x nd Hx Ex. destruct (shown_reach _ _ _ Hx n V) as (m & Hm & Vm & Sm). specialize (Sm S).
  destruct m as [|m]; [inversion Vm|]. split.
  - intros w Hw. apply (A m); [eapply shown_in; eauto|eapply shown_small_in; eauto].
  - cbn [shown] in Sm. rewrite Ex in Sm. destruct nd; try exact I; inversion Sm; subst; assumption.
Qed.

(** ** The codec *)

Lemma keep_stable limit lay t b : storable limit lay t -> keep limit lay t = Ok b -> stable (keep limit lay) (take limit) t.
Proof.
  intros (V & L & Sh) E. exists b. split; [exact E|]. unfold looks_right in L.
  assert (HP : proper limit (fst (lay t)) (snd (lay t))) by (apply shown_proper; now rewrite L).
  destruct (round_trip _ _ _ _ HP E (Sh b E)) as (h' & v' & HC & HD). specialize (HD ""%string). rewrite app_nil_r' in HD. split.
  - intros ->. clear - E. unfold keep, pickle_encode, dumps in E. destruct (save _ _ _ _) as [[its m]|]; [|discriminate]. destruct (forallb _ _); discriminate.
  - unfold take. rewrite HD. cbn [bind fst snd]. f_equal. rewrite <- L. symmetry. now apply same_shown.
Qed.
Lemma keep_sound limit lay t : storable limit lay t -> sound_value (keep limit lay) (take limit) t.
Proof.
  intro H. destruct (keep limit lay t) as [b|e] eqn:E; [left; eapply keep_stable; eauto|right; eauto].
Qed.
Lemma keep_modest limit lay t : storable limit lay t -> modest limit lay t -> exists b, keep limit lay t = Ok b.
Proof.
  intros (V & L & _) (S & D & bound & Hb & Hz). unfold looks_right in L. unfold keep. eapply pickled with (n := depth t); [| | |exact D|exact Hb|exact Hz].
  - apply shown_proper. now rewrite L.
  - apply (shown_fits limit); now rewrite L.
  - assert (N := shown_nested limit (fst (lay t)) (snd (lay t))). rewrite L in N. now apply N.
Qed.

(** ** Objects of their own *)

Section Ind.
  Variable P : ptree -> Prop.
  Hypothesis Hatom : forall v, P (TrAtom v).
  Hypothesis Hstr : forall s, P (TrStr s).
  Hypothesis Hbytes : forall b, P (TrBytes b).
  Hypothesis Hlist : forall l, Forall P l -> P (TrList l).
  Hypothesis Htup : forall l, Forall P l -> P (TrTup l).
  Hypothesis Hdict : forall d, Forall (fun kv => P (fst kv) /\ P (snd kv)) d -> P (TrDict d).
  Hypothesis Hcut : P TrCut.
  Fixpoint ptree_ind' (t : ptree) : P t :=
    match t with
    | TrAtom v => Hatom v
    | TrStr s => Hstr s
    | TrBytes b => Hbytes b
    | TrList l => Hlist l ((fix go l : Forall P l := match l with [] => Forall_nil _ | t :: r => Forall_cons _ (ptree_ind' t) (go r) end) l)
    | TrTup l => Htup l ((fix go l : Forall P l := match l with [] => Forall_nil _ | t :: r => Forall_cons _ (ptree_ind' t) (go r) end) l)
    | TrDict d => Hdict d ((fix go d : Forall (fun kv => P (fst kv) /\ P (snd kv)) d :=
        match d with [] => Forall_nil _ | kv :: r => Forall_cons _ (conj (ptree_ind' (fst kv)) (ptree_ind' (snd kv))) (go r) end) d)
    | TrCut => Hcut
    end.
End Ind.

Fixpoint lay_all (l : list ptree) (acc : list node) : list pv * list node :=
  match l with
  | [] => ([], acc)
  | t :: r => let '(v, acc1) := lay_from t acc in let '(vs, acc2) := lay_all r acc1 in (v :: vs, acc2)
  end.
Fixpoint lay_items (d : list (ptree * ptree)) (acc : list node) : list (pv * pv) * list node :=
  match d with
  | [] => ([], acc)
  | (a, b) :: r =>
      let '(k, acc1) := lay_from a acc in let '(v, acc2) := lay_from b acc1 in
      let '(kvs, acc3) := lay_items r acc2 in ((k, v) :: kvs, acc3)
  end.
Lemma lay_list l acc : lay_from (TrList l) acc = let '(vs, acc1) := lay_all l acc in (PRef (List.length acc1), acc1 ++ [NList vs]).
Proof. reflexivity. Qed.
Lemma lay_tup l acc : lay_from (TrTup l) acc = let '(vs, acc1) := lay_all l acc in (PRef (List.length acc1), acc1 ++ [NTup vs]).
Proof. reflexivity. Qed.
Lemma lay_dict d acc : lay_from (TrDict d) acc = let '(kvs, acc1) := lay_items d acc in (PRef (List.length acc1), acc1 ++ [NDict kvs]).
Proof. reflexivity. Qed.

Definition laid (t : ptree) : Prop := forall acc v acc', lay_from t acc = (v, acc') -> value t ->
  (exists tl, acc' = acc ++ tl /\ List.length tl = objects t) /\ forall more n, depth t <= n -> shown n (fun x => nth_error (acc' ++ more) x) v = t.
Lemma lay_all_ok l : Forall laid l -> Forall value l -> forall acc vs acc', lay_all l acc = (vs, acc') ->
  (exists tl, acc' = acc ++ tl /\ List.length tl = list_sum (map objects l)) /\
  forall more n, fold_right Nat.max 0 (map depth l) <= n -> map (shown n (fun x => nth_error (acc' ++ more) x)) vs = l.
Proof.
  induction 1 as [|t l Ht Hl IH]; intros V acc vs acc' E.
  - injection E as <- <-. split; [exists []; split; [now rewrite app_nil_r|reflexivity]|reflexivity].
  - inversion V as [|? ? Vt Vl]; subst. cbn [lay_all] in E. destruct (lay_from t acc) as [v acc1] eqn:E1. destruct (lay_all l acc1) as [vs1 acc2] eqn:E2.
    injection E as <- <-. destruct (Ht _ _ _ E1 Vt) as ((tl1 & -> & L1) & S1). destruct (IH Vl _ _ _ E2) as ((tl2 & -> & L2) & S2). split.
    + exists (tl1 ++ tl2). split; [now rewrite app_assoc|]. rewrite app_length. unfold list_sum in *. cbn [map fold_right]. lia.
    + intros more n Hn. cbn [map fold_right] in *. f_equal; [|apply S2; lia]. rewrite <- app_assoc. apply S1. lia.
Qed.
Lemma lay_items_ok d : Forall (fun kv => laid (fst kv) /\ laid (snd kv)) d -> Forall value (map fst d) -> Forall value (map snd d) ->
  forall acc kvs acc', lay_items d acc = (kvs, acc') ->
  (exists tl, acc' = acc ++ tl /\ List.length tl = list_sum (map (fun kv => objects (fst kv) + objects (snd kv)) d)) /\
  forall more n, fold_right Nat.max 0 (map (fun kv => Nat.max (depth (fst kv)) (depth (snd kv))) d) <= n ->
    let h := (fun x => nth_error (acc' ++ more) x) in map (fun kv => (shown n h (fst kv), shown n h (snd kv))) kvs = d.
Proof.
  induction 1 as [|[a b] l [Ha Hb] Hl IH]; intros Vk Vv acc vs acc' E.
  - injection E as <- <-. split; [exists []; split; [now rewrite app_nil_r|reflexivity]|reflexivity].
  - inversion Vk as [|? ? Va Vl]; subst. inversion Vv as [|? ? Vb Vr]; subst. cbn [fst snd] in *. cbn [lay_items] in E.
    destruct (lay_from a acc) as [k acc1] eqn:E1. destruct (lay_from b acc1) as [v acc2] eqn:E2. destruct (lay_items l acc2) as [kvs acc3] eqn:E3.
    injection E as <- <-. destruct (Ha _ _ _ E1 Va) as ((tl1 & -> & L1) & S1). destruct (Hb _ _ _ E2 Vb) as ((tl2 & -> & L2) & S2).
    destruct (IH Vl Vr _ _ _ E3) as ((tl3 & -> & L3) & S3). split.
    + exists (tl1 ++ tl2 ++ tl3). split; [now rewrite !app_assoc|]. rewrite !app_length. unfold list_sum in *. cbn [map fold_right fst snd]. lia.
    + intros more n Hn. cbn [map fold_right fst snd] in *. f_equal; [f_equal|apply S3; lia]; rewrite <- !app_assoc.
      * rewrite (app_assoc acc tl1). apply S1. lia.
      * rewrite (app_assoc acc tl1), (app_assoc (acc ++ tl1) tl2). apply S2. lia.
Qed.
Lemma nth_here (l : list node) n more : nth_error ((l ++ [n]) ++ more) (List.length l) = Some n.
Proof. rewrite <- app_assoc. rewrite nth_error_app2 by lia. now rewrite Nat.sub_diag. Qed.
Lemma lay_ok t : laid t.
Proof.
  induction t as [v|s|b|l IH|l IH|d IH|] using ptree_ind'; intros acc u acc' E V.
  - injection E as <- <-. inversion V; subst. split; [exists []; split; [now rewrite app_nil_r|reflexivity]|]. intros more n _. destruct v; try (destruct n; reflexivity). now contradiction (H0 x).
  - injection E as <- <-. split; [now exists [NStr s]|]. intros more [|n] Hn; cbn [depth] in Hn; [lia|]. cbn [shown]. now rewrite nth_here.
  - injection E as <- <-. split; [now exists [NBytes b]|]. intros more [|n] Hn; cbn [depth] in Hn; [lia|]. cbn [shown]. now rewrite nth_here.
  - rewrite lay_list in E. destruct (lay_all l acc) as [vs acc1] eqn:E1. injection E as <- <-. inversion V as [| | |? F| |]; subst.
    destruct (lay_all_ok l IH F _ _ _ E1) as ((tl & -> & L) & S). split; [exists (tl ++ [NList vs]); split; [now rewrite app_assoc|rewrite app_length; cbn [objects List.length]; lia]|].
    intros more [|n] Hn; cbn [depth] in Hn; [lia|]. cbn [shown]. rewrite nth_here. f_equal. rewrite <- (app_assoc (acc ++ tl)). apply S. lia.
  - rewrite lay_tup in E. destruct (lay_all l acc) as [vs acc1] eqn:E1. injection E as <- <-. inversion V as [| | | |? ? F|]; subst.
    destruct (lay_all_ok l IH F _ _ _ E1) as ((tl & -> & L) & S). split; [exists (tl ++ [NTup vs]); split; [now rewrite app_assoc|rewrite app_length; cbn [objects List.length]; lia]|].
    intros more [|n] Hn; cbn [depth] in Hn; [lia|]. cbn [shown]. rewrite nth_here. f_equal. rewrite <- (app_assoc (acc ++ tl)). apply S. lia.
  - rewrite lay_dict in E. destruct (lay_items d acc) as [vs acc1] eqn:E1. injection E as <- <-. inversion V as [| | | | |? ks F1 F2 Ek Hd]; subst.
    destruct (lay_items_ok d IH F1 F2 _ _ _ E1) as ((tl & -> & L) & S). split; [exists (tl ++ [NDict vs]); split; [now rewrite app_assoc|rewrite app_length; cbn [objects List.length]; lia]|].
    intros more [|n] Hn; cbn [depth] in Hn; [lia|]. cbn [shown]. rewrite nth_here. f_equal. rewrite <- (app_assoc (acc ++ tl)). apply S. lia.
  - inversion V.
Qed.
Lemma unshared_right limit t : value t -> depth t <= limit -> looks_right limit unshared t.
Proof.
  intros V D. unfold looks_right, unshared. destruct (lay_from t []) as [v ns] eqn:E. cbn [fst snd].
  destruct (lay_ok t _ _ _ E V) as (_ & S). specialize (S [] limit D). rewrite app_nil_r in S. exact S.
Qed.
Lemma unshared_modest limit t : value t -> small t -> depth t < limit -> (Z.of_nat (objects t) <= 2 ^ 32)%Z -> modest limit unshared t.
Proof.
  intros V S D O. split; [exact S|]. split; [exact D|]. exists (objects t). split; [|exact O].
  assert (R := unshared_right limit t V (Nat.lt_le_incl _ _ D)). unfold looks_right in R. intros x Hx.
  assert (HP : proper limit (fst (unshared t)) (snd (unshared t))) by (apply shown_proper; now rewrite R). specialize (HP x Hx).
  unfold unshared in *. destruct (lay_from t []) as [v ns] eqn:E. cbn [fst snd] in *. destruct (lay_ok t _ _ _ E V) as ((tl & -> & <-) & _).
  cbn [app] in *. apply nth_error_Some. destruct (nth_error tl x); [discriminate|destruct HP].
Qed.

(** ** Notepad and Sticky *)

Lemma everyday_plain limit lay K v : everyday limit lay K v -> plain_pvisit (keep limit lay) (take limit) K v.
Proof.
  intros (F & HK & HV). split; [exact F|]. split; [exact HK|]. intros k t ok E. apply keep_sound. exact (proj1 (HV k t ok E)).
Qed.
Lemma everyday_ordinary limit lay K v : everyday limit lay K v -> ordinary (keep limit lay) is_none (pv_op v).
Proof.
  intros (_ & _ & HV) k t ok E. destruct (HV k t ok E) as (S & M & N). split; [exact N|]. exact (keep_modest _ _ _ S M).
Qed.
Lemma notepad_keeps hash K P limit lay s nl h v :
  collision_free hash K -> wf s -> vacant (pad_names hash P) s -> Forall (everyday limit lay K) (h ++ [v]) ->
  (2 * Z.of_nat (List.length h) + 8 < 256 ^ 5)%Z ->
  exists r s1 x s2, run (notepad P true nl >>> pvisits_prog hash (keep limit lay) (take limit) is_none P h) s = (Some (Ok r), s1) /\
    run (pvisit_prog hash (keep limit lay) (take limit) is_none P v) s1 = (Some (Ok x), s2) /\
    dict_answers (fun k => dict_after k None (map pv_op h)) (pv_op v) x.
Proof.
  intros HK W Vc F L. apply Forall_app in F. destruct F as [F Fv]. inversion Fv as [|? ? Hv _]; subst.
  assert (Fp : Forall (plain_pvisit (keep limit lay) (take limit) K) h) by (eapply Forall_impl; [|exact F]; intros a; apply everyday_plain).
  destruct (pad_history hash K P (keep limit lay) (take limit) is_none s nl h HK W Vc Fp ltac:(lia)) as (s1 & c & E & _).
  eexists _, s1. rewrite E. destruct (next_answer hash K P (keep limit lay) (take limit) is_none h s s1) with (v := v) as (x & s2 & Ex & D).
  - split; [exact HK|]. split; [exact Fp|]. split; [exact L|]. split; [exact W|]. split; [exact Vc|]. exists nl. eexists. exact E.
  - now apply everyday_plain.
  - apply Forall_map. eapply Forall_impl; [|exact F]. intros a. apply everyday_ordinary.
  - eapply everyday_ordinary; eauto.
  - eauto.
Qed.
Lemma sticky_keeps limit lay a s (T : ptree -> Prop) h o : uniform T ->
  wf s -> names s a = None -> Forall (everyday_sop limit lay) (h ++ [o]) -> (forall i t, In (SStick i t) (h ++ [o]) -> T t) ->
  exists outs x s', run (sops_prog (keep limit lay) (take limit) is_none (fun _ => mkSticky a None) (h ++ [o])) s = (Some (Ok (outs ++ [x])), s') /\
    (forall i v, o = SStick i v -> x = YDone (Ok tt)) /\
    (forall i, o = SRead i true -> x = YRead (last_stuck None h)).
Proof.
  intros (n & U) W N F HT. rewrite Forall_forall in F. apply (stick_last (keep limit lay) (take limit) is_none a h o s n W N).
  - apply Forall_forall. intros x Hx i t ->. destruct (F _ Hx i t eq_refl) as (S & M & I). destruct (keep_modest _ _ _ S M) as [b E]. split; [eapply keep_stable; eauto|exact I].
  - intros i t Hx. destruct (F _ Hx i t eq_refl) as (S & M & I). destruct (keep_modest _ _ _ S M) as [b E]. unfold width. rewrite E.
    eapply U; [eapply HT; eassumption|exact (proj1 (proj2 S))|exact E].
Qed.

Lemma atom_right limit lay v : (forall x, v <> PRef x) -> looks_right limit lay (TrAtom v) -> snd (lay (TrAtom v)) = v.
Proof.
  unfold looks_right. intros Hv. destruct (snd (lay (TrAtom v))) as [|b|z|z| |x]; try (destruct limit; cbn; congruence).
  destruct limit; cbn; [discriminate|]. destruct (fst (lay (TrAtom v)) x) as [[]|]; discriminate.
Qed.
Lemma keep_atom limit lay v b : (forall x, v <> PRef x) -> looks_right limit lay (TrAtom v) -> keep limit lay (TrAtom v) = Ok b ->
  b = (code (OProto 5) ++ close_frame (Some (code (OPush v) ++ code OStop)))%string.
Proof.
  intros Hv L. unfold keep. rewrite (atom_right _ _ _ Hv L). unfold pickle_encode, dumps. destruct limit as [|f]; [discriminate|].
  cbn [save]. destruct v as [|b0|z|z| |x]; try (now contradiction (Hv x));
    match goal with |- context [forallb ?p ?l] => destruct (forallb p l) end; intro E; try discriminate; injection E as <-; reflexivity.
Qed.
Lemma le_digits_len n z : String.length (le_digits n z) = n.
Proof. revert z. induction n as [|n IH]; intro z; cbn; [reflexivity|now rewrite IH]. Qed.
Lemma reversed_len s : String.length (reversed s) = String.length s.
Proof. induction s as [|c s IH]; cbn; [reflexivity|]. rewrite append_length. cbn. lia. Qed.
Lemma frame_len s n : String.length s = n -> 4 <= n -> String.length (code (OProto 5) ++ close_frame (Some s))%string = n + 11.
Proof.
  intros <- H. unfold close_frame. replace (4 <=? len s)%Z with true by (symmetry; apply Z.leb_le; unfold len; lia).
  rewrite !append_length. cbn [code]. rewrite !append_length, !le_digits_len. cbn. lia.
Qed.
Lemma floats_uniform : uniform a_float.
Proof.
  exists 21. intros limit lay x b (bits & ->) L E. rewrite (keep_atom limit lay (PFloat bits) b); [|discriminate|exact L|exact E].
  apply (frame_len _ 10); [|lia]. cbn [code]. rewrite !append_length, reversed_len, le_digits_len. reflexivity.
Qed.
Lemma bools_uniform : uniform a_bool.
Proof.
  exists 4. intros limit lay x b (v & ->) L E. rewrite (keep_atom limit lay (PBool v) b); [|discriminate|exact L|exact E]. destruct v; reflexivity.
Qed.
Lemma short_len s : String.length s < 4 -> String.length (code (OProto 5) ++ close_frame (Some s))%string = String.length s + 2.
Proof.
  intros H. unfold close_frame. replace (4 <=? len s)%Z with false by (symmetry; apply Z.leb_gt; unfold len; lia).
  rewrite !append_length. cbn [code]. rewrite !append_length, !le_digits_len. cbn. lia.
Qed.
Lemma int_len_1 z : (0 <= z < 256)%Z -> String.length (int_code z) = 2.
Proof.
  intro H. unfold int_code. replace ((-2147483648 <=? z) && (z <=? 2147483647))%Z with true by (symmetry; apply andb_true_intro; split; lia).
  replace ((0 <=? z) && (z <? 256))%Z with true by (symmetry; apply andb_true_intro; split; lia). reflexivity.
Qed.
Lemma int_len_2 z : (256 <= z < 65536)%Z -> String.length (int_code z) = 3.
Proof.
  intro H. unfold int_code. replace ((-2147483648 <=? z) && (z <=? 2147483647))%Z with true by (symmetry; apply andb_true_intro; split; lia).
  replace ((0 <=? z) && (z <? 256))%Z with false by (symmetry; apply andb_false_intro2; lia).
  replace ((0 <=? z) && (z <? 65536))%Z with true by (symmetry; apply andb_true_intro; split; lia). reflexivity.
Qed.
Lemma int_len_4 z : (-2147483648 <= z < 0)%Z \/ (65536 <= z < 2147483648)%Z -> String.length (int_code z) = 5.
Proof.
  intro H. unfold int_code. replace ((-2147483648 <=? z) && (z <=? 2147483647))%Z with true by (symmetry; apply andb_true_intro; split; lia).
  replace ((0 <=? z) && (z <? 256))%Z with false by (symmetry; destruct (0 <=? z)%Z eqn:A; [apply andb_false_intro2; lia|reflexivity]).
  replace ((0 <=? z) && (z <? 65536))%Z with false by (symmetry; destruct (0 <=? z)%Z eqn:A; [apply andb_false_intro2; lia|reflexivity]). reflexivity.
Qed.
Lemma ints_len limit lay z b : looks_right limit lay (TrAtom (PInt z)) -> keep limit lay (TrAtom (PInt z)) = Ok b ->
  ((0 <= z < 256)%Z -> String.length b = 5) /\ ((256 <= z < 65536)%Z -> String.length b = 15) /\
  ((-2147483648 <= z < 0)%Z \/ (65536 <= z < 2147483648)%Z -> String.length b = 17).
Proof.
  intros L E. rewrite (keep_atom limit lay (PInt z) b); [|discriminate|exact L|exact E]. cbn [code].
  split; [|split]; intro H.
  - assert (G : String.length (int_code z ++ byte 46) = 3) by (rewrite append_length, int_len_1 by exact H; reflexivity). rewrite short_len; rewrite G; lia.
  - rewrite (frame_len _ 4); [reflexivity|rewrite append_length, int_len_2 by exact H; reflexivity|lia].
  - rewrite (frame_len _ 6); [reflexivity|rewrite append_length, int_len_4 by exact H; reflexivity|lia].
Qed.
Lemma ints_uniform lo hi : (0 <= lo /\ hi <= 256 \/ 256 <= lo /\ hi <= 65536 \/ -2147483648 <= lo /\ hi <= 0 \/ 65536 <= lo /\ hi <= 2147483648)%Z -> uniform (an_int_in lo hi).
Proof.
  intro H. destruct H as [H|[H|[H|H]]]; [exists 5|exists 15|exists 17|exists 17]; intros limit lay x b (z & -> & Hz) L E;
    destruct (ints_len _ _ _ _ L E) as (A & B & C); [apply A|apply B|apply C|apply C]; lia.
Qed.
