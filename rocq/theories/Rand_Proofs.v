(** Random nested dictionaries. *)
From Coq Require Import Lia.
From Verif Require Export Rand_Spec Struct_Lemmas.

Lemma dset_twice {V} (d : dict V) k a b : dset (dset d k a) k b = dset d k b.
Proof.
  induction d as [|[x y] d IH]; cbn; [now rewrite keqb_refl|]. destruct (keqb x k) eqn:E; cbn; rewrite E; [reflexivity|]. now rewrite IH.
Qed.
Lemma nd_set_cons m k r v : r <> [] -> nd_set m (k :: r) v =
  vm <- nd_getitem m k ;; let (child, m1) := vm in child' <- nd_set child r v ;; nd_setitem m1 k child'.
Proof. destruct r; [congruence|reflexivity]. Qed.
(** Levels made by reading would be made by assigning. *)
Lemma nd_get_set p : forall m v m' q x, nd_get m p = Ok (v, m') -> q <> [] -> nd_set m' (p ++ q) x = nd_set m (p ++ q) x.
Proof.
  induction p as [|k r IH]; intros m v m' q x G Q; [cbn in G; congruence|]. cbn [nd_get] in G.
  destruct (nd_getitem m k) as [[child m1]|] eqn:E; [|discriminate]. cbn [bind] in G.
  destruct (nd_get child r) as [[w child']|] eqn:F; [|discriminate]. cbn [bind] in G.
  assert (RQ : r ++ q <> []) by (destruct r; [exact Q|discriminate]).
  cbn [app]. rewrite !nd_set_cons by exact RQ. rewrite E. cbn [bind].
  destruct m1 as [| | |c d1]; try discriminate. cbn [nd_setitem bind] in G. injection G as <- <-.
  cbn [nd_getitem]. rewrite dget_dset_eq. cbn [bind]. rewrite (IH _ _ _ q x F Q).
  destruct (nd_set child (r ++ q) x) as [c2|]; [|reflexivity]. cbn [bind nd_setitem]. now rewrite dset_twice.
Qed.

(** ** Trees of levels *)

Section Tree.
  Context (K : key -> Prop) (L : val -> Prop).
  Inductive tree : nat -> val -> Prop :=
  | tr n d : wfd d = true -> (forall k v, In (k, v) d -> K k /\ (L v \/ tree n v)) -> tree (S n) (VDict CNesting d).


  Lemma tree_dset n d k v : tree (S n) (VDict CNesting d) -> K k -> L v \/ tree n v -> tree (S n) (VDict CNesting (dset d k v)).
  Proof.
    intros Tr Kk Hv. inversion Tr as [n' d' Wd H]; subst. constructor; [now apply wfd_dset|]. intros k' v' I. apply In_dset in I.
    destruct I as [(_ & -> & [->|I])|I]; [auto| |now apply H]. split; [|exact Hv]. unfold dkeys in I. apply in_map_iff in I.
    destruct I as ([k2 v2] & <- & I). apply (H _ _ I).
  Qed.
  Lemma tree_empty n : tree (S n) (VDict CNesting []).
  Proof. constructor; [reflexivity|intros ? ? []]. Qed.
  Lemma tree_getitem n m k : tree (S n) m -> exists d, m = VDict CNesting d /\
    ((exists v, dget d k = Some v /\ nd_getitem m k = Ok (v, m) /\ (L v \/ tree n v)) \/
     (dget d k = None /\ nd_getitem m k = Ok (VDict CNesting [], VDict CNesting (dset d k (VDict CNesting []))))).
  Proof.
    intro Tr. inversion Tr as [n' d Wd H]; subst. exists d. split; [reflexivity|]. cbn [nd_getitem]. destruct (dget d k) as [v|] eqn:E; [left|right; auto].
    exists v. split; [reflexivity|]. split; [reflexivity|]. apply dget_In in E. destruct E as (k' & I & _). apply (H _ _ I).
  Qed.
  Context (LM : forall v, L v -> is_mapping v = false).
  Lemma nd_get_leaf v p x : is_mapping v = false -> nd_get v p = Ok x -> p = [] /\ x = (v, v).
  Proof. intros M G. destruct p as [|k r]; [cbn in G; split; congruence|]. destruct v; discriminate. Qed.
  Lemma nd_set_leaf v p x : is_mapping v = false -> nd_set v p x = Exc TypeError.
  Proof. intro M. destruct p as [|k [|k2 r]]; [reflexivity| |]; destruct v; try discriminate; reflexivity. Qed.
  Lemma tree_get p : forall n m v m', tree (List.length p + S n) m -> Forall K p -> nd_get m p = Ok (v, m') ->
    tree (List.length p + S n) m' /\ (L v \/ tree (S n) v).
  Proof.
    induction p as [|k r IH]; intros n m v m' Tr Kp G; [cbn in *; injection G as <- <-; auto|].
    inversion Kp as [|? ? Kk Kr]; subst. cbn [List.length plus] in *. destruct (tree_getitem _ _ k Tr) as (d & -> & [(c & E & G1 & Hc)|[E G1]]);
      cbn [nd_get] in G; rewrite G1 in G; cbn [bind] in G.
    - destruct (nd_get c r) as [[w c']|] eqn:F; [|discriminate]. cbn [bind nd_setitem] in G. injection G as <- <-.
      destruct Hc as [Hc|Hc].
      + destruct (nd_get_leaf _ _ _ (LM _ Hc) F) as [-> X]. injection X as -> ->. split; [|now left]. apply tree_dset; auto.
      + destruct (IH _ _ _ _ Hc Kr F) as [T1 T2]. split; [|exact T2]. apply tree_dset; auto.
    - destruct (nd_get (VDict CNesting []) r) as [[w c']|] eqn:F; [|discriminate]. cbn [bind nd_setitem] in G. injection G as <- <-. rewrite dset_twice.
      assert (T0 : tree (List.length r + S n) (VDict CNesting [])) by (rewrite Nat.add_succ_r; apply tree_empty).
      destruct (IH _ _ _ _ T0 Kr F) as [T1 T2]. split; [|exact T2]. apply tree_dset; auto.
  Qed.
  Lemma tree_set p x : L x -> forall n m, tree n m -> (List.length p <= n)%nat -> Forall K p ->
    match nd_set m p x with Ok m' => tree n m' | Exc e => e = TypeError end.
  Proof.
    intro Lx. induction p as [|k r IH]; intros n m Tr Le Kp; [reflexivity|]. inversion Kp as [|? ? Kk Kr]; subst.
    destruct n as [|n]; [inversion Tr|]. cbn [List.length] in Le. destruct r as [|k2 r].
    - inversion Tr; subst. cbn. apply tree_dset; auto.
    - rewrite nd_set_cons by discriminate. destruct (tree_getitem _ _ k Tr) as (d & -> & [(c & E & G1 & Hc)|[E G1]]); rewrite G1; cbn [bind].
      + destruct Hc as [Hc|Hc]; [rewrite nd_set_leaf by auto; reflexivity|]. specialize (IH n c Hc ltac:(lia) Kr).
        destruct (nd_set c (k2 :: r) x); [|exact IH]. cbn [bind nd_setitem]. apply tree_dset; auto.
      + cbn [List.length] in Le. destruct n as [|n]; [lia|]. specialize (IH (S n) _ (tree_empty n) ltac:(cbn; lia) Kr).
        destruct (nd_set (VDict CNesting []) (k2 :: r) x); [|exact IH]. cbn [bind nd_setitem]. rewrite dset_twice. apply tree_dset; auto.
  Qed.
  Lemma tree_depth n : forall m, tree n m -> (depth m <= n)%nat.
  Proof.
    induction n as [|n IH]; intros m Tr; inversion Tr as [n' d Wd H]; subst. apply depth_le_max. intros k v I.
    destruct (H k v I) as [_ [Hv|Hv]]; [|now apply IH]. apply LM in Hv. destruct v; try discriminate; cbn; lia.
  Qed.
  Context (LW : forall v, L v -> wfv v = true).
  Lemma tree_wfv n : forall m, tree n m -> wfv m = true.
  Proof.
    induction n as [|n IH]; intros m Tr; inversion Tr as [n' d Wd H]; subst. apply wfv_dict. split; [exact Wd|]. intros k v I.
    destruct (H k v I) as [_ [Hv|Hv]]; auto.
  Qed.
End Tree.

(** ** Assignments *)

Lemma leaf_dset d k v : (list_sum (map (fun kv => leaf_count (snd kv)) (dset d k v)) + match dget d k with Some w => leaf_count w | None => 0 end =
  list_sum (map (fun kv => leaf_count (snd kv)) d) + leaf_count v)%nat.
Proof.
  induction d as [|[a b] d IH]; cbn [dset dget map list_sum fold_right snd]; [lia|]. destruct (keqb a k); cbn [map fold_right snd]; unfold list_sum in *; cbn [fold_right]; lia.
Qed.
Lemma leaf_set p x : is_mapping x = false -> forall m m', nd_set m p x = Ok m' -> (leaf_count m' <= leaf_count m + 1)%nat.
Proof.
  intro Mx. assert (X : leaf_count x = 1%nat) by (destruct x; try discriminate; reflexivity).
  induction p as [|k r IH]; intros m m' S; [discriminate|]. destruct r as [|k2 r].
  - destruct m as [| | |c d]; try discriminate. cbn in S. injection S as <-. cbn [leaf_count]. pose proof (leaf_dset d k x). lia.
  - rewrite nd_set_cons in S by discriminate. destruct m as [| | |c d]; try discriminate. cbn [nd_getitem] in S. destruct (dget d k) as [w|] eqn:E.
    + cbn [bind] in S. destruct (nd_set w (k2 :: r) x) as [w'|] eqn:F; [|discriminate]. cbn in S. injection S as <-. cbn [leaf_count].
      pose proof (leaf_dset d k w'). rewrite E in H. specialize (IH _ _ F). lia.
    + destruct c; try discriminate. cbn [bind] in S. destruct (nd_set _ (k2 :: r) x) as [w'|] eqn:F; [|discriminate]. cbn in S. injection S as <-.
      rewrite dset_twice. cbn [leaf_count]. pose proof (leaf_dset d k w'). rewrite E in H. specialize (IH _ _ F). cbn in IH. lia.
Qed.
Definition nonempty (v : val) : bool := match v with VDict _ [] => false | _ => true end.
Lemma full_dset d k v : forallb (fun kv => nonempty (snd kv) && inner_full (snd kv)) d = true -> nonempty v = true -> inner_full v = true ->
  forallb (fun kv => nonempty (snd kv) && inner_full (snd kv)) (dset d k v) = true.
Proof.
  intros H N F. induction d as [|[a b] d IH]; cbn; [now rewrite N, F|]. cbn in H. apply andb_true_iff in H. destruct H as [H1 H2].
  destruct (keqb a k); cbn; [rewrite N, F; exact H2|]. rewrite H1. now apply IH.
Qed.
Lemma dset_nonempty c d k v : nonempty (VDict c (dset d k v)) = true.
Proof. destruct d as [|[a b] d]; [reflexivity|]. cbn. destruct (keqb a k); reflexivity. Qed.
Lemma full_In d k v : forallb (fun kv => nonempty (snd kv) && inner_full (snd kv)) d = true -> dget d k = Some v -> inner_full v = true.
Proof.
  intros H E. apply dget_In in E. destruct E as (k' & I & _). rewrite forallb_forall in H. specialize (H _ I). apply andb_true_iff in H. apply H.
Qed.
Lemma full_set p x : nonempty x = true -> inner_full x = true -> forall m m', inner_full m = true -> nd_set m p x = Ok m' -> inner_full m' = true /\ nonempty m' = true.
Proof.
  intros Nx Fx. induction p as [|k r IH]; intros m m' F S; [discriminate|]. destruct r as [|k2 r].
  - destruct m as [| | |c d]; try discriminate. cbn [nd_set nd_setitem] in S. injection S as <-. split; [|apply dset_nonempty]. now apply full_dset.
  - rewrite nd_set_cons in S by discriminate. destruct m as [| | |c d]; try discriminate. cbn [nd_getitem] in S. destruct (dget d k) as [w|] eqn:E.
    + cbn [bind] in S. destruct (nd_set w (k2 :: r) x) as [w'|] eqn:G; [|discriminate]. cbn [bind nd_setitem] in S. injection S as <-.
      destruct (IH _ _ (full_In _ _ _ F E) G) as [F' N']. split; [|apply dset_nonempty]. now apply full_dset.
    + destruct c; try discriminate. cbn [bind] in S. destruct (nd_set _ (k2 :: r) x) as [w'|] eqn:G; [|discriminate]. cbn [bind nd_setitem] in S. injection S as <-.
      rewrite dset_twice. destruct (IH (VDict CNesting []) _ eq_refl G) as [F' N']. split; [|apply dset_nonempty]. now apply full_dset.
Qed.

(** ** Plain dictionaries *)

Lemma plainified_leaves v : leaf_count (plainified v) = leaf_count v.
Proof.
  induction v as [k|l _|l _|c d IH] using val_ind'; try reflexivity. cbn [plainified]. destruct (is_dict_cls c); [|reflexivity]. cbn [leaf_count]. rewrite map_map. f_equal.
  apply map_ext_Forall. exact IH.
Qed.
Lemma plainified_depth v : depth (plainified v) = depth v.
Proof.
  induction v as [k|l _|l _|c d IH] using val_ind'; try reflexivity. cbn [plainified]. destruct (is_dict_cls c); [|reflexivity]. cbn [depth]. rewrite map_map. do 2 f_equal.
  apply map_ext_Forall. exact IH.
Qed.
Lemma plainified_nonempty v : nonempty (plainified v) = nonempty v.
Proof. destruct v as [| | |c [|[a b] d]]; try reflexivity; cbn; destruct (is_dict_cls c); reflexivity. Qed.
Lemma plainified_full v : inner_full (plainified v) = inner_full v.
Proof.
  induction v as [k|l _|l _|c d IH] using val_ind'; try reflexivity. cbn [plainified]. destruct (is_dict_cls c); [|reflexivity]. cbn [inner_full].
  induction IH as [|[a b] d H IH IH2]; [reflexivity|]. cbn [map forallb snd fst] in *. rewrite H, IH2. f_equal. f_equal. apply plainified_nonempty.
Qed.

(** ** The generator *)

Section Rand.
  Context {R T : Type} (pick : nat -> R -> nat * R) (coin : R -> bool * R) (randval : T -> eff R val) (hash : val -> res key).

  Lemma choice_In {A} (l : list A) r : match choice pick l r with (Ok x, _) => In x l | (Exc e, r') => l = [] /\ e = IndexError /\ r' = r end.
  Proof.
    destruct l as [|x l]; [cbn; auto|]. unfold choice. destruct (pick (List.length (x :: l)) r) as [i r'].
    destruct (Nat.ltb i (List.length (x :: l))) eqn:E; [apply Nat.ltb_lt in E; now apply nth_In|]. apply Nat.ltb_ge in E. rewrite nth_overflow by exact E. now left.
  Qed.
  Context (types keytypes : list T) (PV : plain_values randval types).
  Notation K := (key_from randval hash keytypes).
  Notation L := (from_types randval types).
  Let LM v : L v -> is_mapping v = false. Proof. intro H. apply (PV v H). Qed.
  Let LW v : L v -> wfv v = true. Proof. intro H. apply (PV v H). Qed.

  Lemma mapM_id_app (a b : list (res key)) ks : mapM (fun k => k) (a ++ b) = Ok ks ->
    exists k1 k2, ks = k1 ++ k2 /\ mapM (fun k => k) a = Ok k1 /\ mapM (fun k => k) b = Ok k2.
  Proof.
    revert ks; induction a as [|x a IH]; intros ks H; [exists [], ks; auto|]. cbn [mapM app] in *. destruct x as [k|]; [|discriminate]. cbn [bind] in *.
    destruct (mapM (fun k => k) (a ++ b)) as [ks'|] eqn:E; [|discriminate]. cbn [bind] in H. injection H as <-. destruct (IH _ eq_refl) as (k1 & k2 & -> & E1 & E2).
    exists (k :: k1), k2. rewrite E1. auto.
  Qed.
  Lemma mapM_id_snoc (a : list (res key)) k k1 : mapM (fun k => k) a = Ok k1 -> mapM (fun k => k) (a ++ [Ok k]) = Ok (k1 ++ [k]).
  Proof.
    revert k1; induction a as [|x a IH]; intros k1 H; [cbn in H; injection H as <-; reflexivity|]. cbn [mapM app] in *. destruct x as [y|]; [|discriminate]. cbn [bind] in *.
    destruct (mapM (fun k => k) a) as [ks'|]; [|discriminate]. cbn [bind] in H. injection H as <-. now rewrite (IH _ eq_refl).
  Qed.
  Lemma mapM_id_In (a : list (res key)) ks : mapM (fun k => k) a = Ok ks -> List.length ks = List.length a /\ forall k, In k ks -> In (Ok k) a.
  Proof.
    revert ks; induction a as [|x a IH]; intros ks H; [cbn in H; injection H as <-; split; [reflexivity|intros ? []]|]. cbn [mapM] in H. destruct x as [y|]; [|discriminate]. cbn [bind] in *.
    destruct (mapM (fun k => k) a) as [ks'|]; [|discriminate]. cbn [bind] in H. injection H as <-. destruct (IH _ eq_refl) as [E I].
    split; [cbn; now rewrite E|]. intros k [->|J]; [now left|right; auto].
  Qed.
  Definition fine (keys : list (res key)) : Prop := forall k, In (Ok k) keys -> K k.
  Lemma fine_path keys ks : fine keys -> mapM (fun k => k) keys = Ok ks -> Forall K ks.
  Proof. intros F H. apply mapM_id_In in H. destruct H as [_ I]. apply Forall_forall. intros k J. apply F, I, J. Qed.

  Lemma get_in_ok n m keys v m1 : fine keys -> tree K L (List.length keys + S n) m -> get_in keys m = Ok (v, m1) ->
    exists ks, mapM (fun k => k) keys = Ok ks /\ List.length ks = List.length keys /\ tree K L (List.length keys + S n) m1 /\ (L v \/ tree K L (S n) v) /\
      forall q x, q <> [] -> nd_set m1 (ks ++ q) x = nd_set m (ks ++ q) x.
  Proof.
    intros F Tr G. unfold get_in in G. destruct (mapM (fun k => k) keys) as [ks|] eqn:E; [|discriminate]. cbn [bind] in G.
    destruct (mapM_id_In _ _ E) as [Le _]. exists ks. split; [reflexivity|]. split; [exact Le|]. rewrite <- Le in *.
    destruct (tree_get K L LM ks n m v m1 Tr (fine_path _ _ F E) G) as [T1 T2]. split; [exact T1|]. split; [exact T2|].
    intros q x Q. eapply nd_get_set; eassumption.
  Qed.
  Lemma pick_key_ok n m keys r : fine keys -> tree K L (List.length keys + S n) m ->
    match pick_key_at_level pick coin randval hash m keys keytypes r with
    | (Ok (k, m1), _) => fine (keys ++ [k]) /\ tree K L (List.length keys + S n) m1 /\
        exists ks, mapM (fun k => k) keys = Ok ks /\ forall q x, q <> [] -> nd_set m1 (ks ++ q) x = nd_set m (ks ++ q) x
    | (Exc e, _) => e = AttributeError \/ (e = IndexError /\ keytypes = []) \/ exists t r1 r2, In t keytypes /\ randval t r1 = (Exc e, r2)
    end.
  Proof.
    intros F Tr. unfold pick_key_at_level. destruct (get_in keys m) as [[v m1]|] eqn:G; [|now left].
    destruct (get_in_ok n m keys v m1 F Tr G) as (ks & E & Le & T1 & T2 & Q). destruct v as [| | |c d]; try now left.
    assert (Kd : forall k w, In (k, w) d -> is_nesting w = true -> K k).
    { intros k w I N. destruct T2 as [T2|T2]; [apply LM in T2; discriminate|]. inversion T2 as [n' d' Wd H]; subst. apply (H _ _ I). }
    set (nk := map fst (filter (fun kv => is_nesting (snd kv)) d)).
    assert (Kn : forall k, In k nk -> K k).
    { intros k I. apply in_map_iff in I. destruct I as ([k' w] & <- & I). apply filter_In in I. destruct I as [I N]. eapply Kd; eauto. }
    unfold ebind. destruct ((match nk with [] => eret true | _ => toss coin end) r) as [[fresh|e] r1] eqn:Fr.
    2:{ exfalso. destruct nk; [discriminate|]. unfold toss in Fr. destruct (coin r). discriminate. }
    destruct fresh.
    - assert (C := choice_In keytypes r1). destruct (choice pick keytypes r1) as [[t|e] r2]; [|right; left; tauto].
      destruct (randval t r2) as [[v|e] r3] eqn:V; [|right; right; eauto]. unfold eret. split; [|split; [exact T1|eauto]].
      intros k I. apply in_app_iff in I. destruct I as [I|[I|[]]]; [now apply F|]. exists v. split; [exists t, r2, r3; auto|exact I].
    - assert (C := choice_In nk r1). destruct (choice pick nk r1) as [[k0|e] r2].
      + unfold eret. split; [|split; [exact T1|eauto]]. intros k I. apply in_app_iff in I. destruct I as [I|[I|[]]]; [now apply F|]. injection I as ->. auto.
      + destruct C as [C _]. rewrite C in Fr. discriminate.
  Qed.
  Lemma pick_keys_ok lev : forall n m keys r, fine keys -> tree K L (List.length keys + lev + S n) m ->
    match pick_keys pick coin randval hash lev m keys keytypes r with
    | (Ok (keys', m'), _) => fine keys' /\ List.length keys' = (List.length keys + lev)%nat /\ tree K L (List.length keys + lev + S n) m' /\
        forall ks, mapM (fun k => k) keys' = Ok ks -> forall q x, q <> [] -> nd_set m' (ks ++ q) x = nd_set m (ks ++ q) x
    | (Exc e, _) => e = AttributeError \/ (e = IndexError /\ keytypes = []) \/ exists t r1 r2, In t keytypes /\ randval t r1 = (Exc e, r2)
    end.
  Proof.
    induction lev as [|lev IH]; intros n m keys r F Tr; cbn [pick_keys].
    - unfold eret. rewrite Nat.add_0_r in *. auto.
    - unfold ebind. replace (List.length keys + S lev + S n)%nat with (List.length keys + S (lev + S n))%nat in * by lia.
      assert (P := pick_key_ok (lev + S n) m keys r F Tr).
      destruct (pick_key_at_level pick coin randval hash m keys keytypes r) as [[[k m1]|e] r1]; [|exact P].
      destruct P as (F1 & T1 & ks0 & E0 & Q0). cbn [fst snd].
      assert (Le : List.length (keys ++ [k]) = S (List.length keys)) by (rewrite app_length; cbn; lia).
      specialize (IH n m1 (keys ++ [k]) r1 F1). rewrite Le in IH. replace (S (List.length keys) + lev + S n)%nat with (List.length keys + S (lev + S n))%nat in IH by lia.
      specialize (IH T1). destruct (pick_keys pick coin randval hash lev m1 (keys ++ [k]) keytypes r1) as [[[keys' m']|e] r2] eqn:Pk; [|exact IH].
      destruct IH as (F2 & L2 & T2 & Q2). split; [exact F2|]. split; [lia|]. split; [exact T2|]. intros ks E q x Q. rewrite (Q2 _ E q x Q).
      assert (Pre : exists new, keys' = keys ++ new).
      { clear -Pk. assert (G : forall lev m keys r keys' m' r', pick_keys pick coin randval hash lev m keys keytypes r = (Ok (keys', m'), r') -> exists new, keys' = keys ++ new).
        { clear. induction lev as [|lev IH]; intros m keys r keys' m' r' H; cbn [pick_keys] in H; [unfold eret in H; injection H as <- <- <-; exists []; now rewrite app_nil_r|].
          unfold ebind in H. destruct (pick_key_at_level pick coin randval hash m keys keytypes r) as [[[k m1]|e] r1]; [|discriminate].
          destruct (IH _ _ _ _ _ _ H) as [new ->]. cbn [fst]. rewrite <- app_assoc. eauto. }
        destruct (G _ _ _ _ _ _ _ Pk) as [new ->]. rewrite <- app_assoc. eauto. }
      destruct Pre as [new ->]. destruct (mapM_id_app _ _ _ E) as (k1 & k2 & -> & E1 & _). rewrite E0 in E1. injection E1 as <-.
      rewrite <- app_assoc. apply Q0. destruct k2; [exact Q|discriminate].
  Qed.
  Lemma add_entry_ok maxdepth m r : tree K L maxdepth m ->
    match add_entry pick coin randval hash maxdepth types keytypes m r with
    | (Ok m', _) => tree K L maxdepth m' /\ exists e, entry_ok randval hash maxdepth types keytypes e /\ nd_set m (fst e) (snd e) = Ok m'
    | (Exc e, _) => e = AttributeError \/ e = TypeError \/ (e = IndexError /\ (keytypes = [] \/ types = [])) \/
                    (exists t r1 r2, (In t keytypes \/ In t types) /\ randval t r1 = (Exc e, r2)) \/ (exists v, from_types randval keytypes v /\ hash v = Exc e)
    end.
  Proof.
    intro Tr. unfold add_entry, ebind. assert (C := choice_In (seq 0 maxdepth) r).
    destruct (choice pick (seq 0 maxdepth) r) as [[lev|e] r1].
    2:{ destruct C as [C _]. destruct maxdepth; [inversion Tr|discriminate]. }
    apply in_seq in C. destruct C as [_ C]. cbn in C.
    assert (F0 : fine []) by (intros ? []).
    destruct maxdepth as [|md]; [lia|]. assert (Em : exists n, S md = (lev + S n)%nat) by (exists (md - lev)%nat; lia). destruct Em as [n Em].
    rewrite Em in *. assert (P := pick_keys_ok lev n m [] r1 F0 Tr).
    destruct (pick_keys pick coin randval hash lev m [] keytypes r1) as [[[keys m1]|e] r2].
    2:{ destruct P as [P|[[P P']|(t & a & b & I & P)]]; [auto|auto 6|]. do 3 right. left. exists t, a, b. auto. }
    destruct P as (F & Le & T1 & Q). cbn [List.length plus] in *.
    assert (C2 := choice_In types r2). destruct (choice pick types r2) as [[t|e] r3]; [|destruct C2 as (C2 & -> & _); auto 8].
    destruct (randval t r3) as [[v|e] r4] eqn:V.
    2:{ do 3 right. left. exists t, r3, r4. auto. }
    assert (Lv : L v) by (exists t, r3, r4; auto).
    cbn [fst snd]. assert (Gi := fun v m1 => get_in_ok n m1 keys v). rewrite Le in Gi.
    destruct (get_in keys m1) as [[lv m2]|e] eqn:G; unfold eret.
    - destruct (Gi lv m1 m2 F T1 G) as (ks & E & Lk & T2 & _ & Q2).
      assert (C3 := choice_In keytypes r4). destruct (choice pick keytypes r4) as [[kt|e] r5]; [|destruct C3 as (C3 & -> & _); auto 8].
      destruct (randval kt r5) as [[kv|e] r6] eqn:KV; [|do 3 right; left; exists kt, r5, r6; auto].
      assert (FK : from_types randval keytypes kv) by (exists kt, r5, r6; auto).
      unfold eof. destruct (hash kv) as [k|e] eqn:Hk.
      + rewrite (mapM_id_snoc _ _ _ E). cbn [bind]. rewrite Q2 by discriminate. rewrite (Q _ E) by discriminate.
        assert (Kp : Forall K (ks ++ [k])). { apply Forall_app. split; [eapply fine_path; eassumption|]. constructor; [|constructor]. exists kv. auto. }
        assert (Ts := tree_set K L LM (ks ++ [k]) v Lv (lev + S n) m Tr). rewrite app_length in Ts. cbn [List.length] in Ts. specialize (Ts ltac:(lia) Kp).
        destruct (nd_set m (ks ++ [k]) v) as [m'|e] eqn:S; [|auto]. split; [exact Ts|]. exists (ks ++ [k], v). split; [|exact S].
        unfold entry_ok. cbn [fst snd]. rewrite app_length. cbn [List.length]. split; [lia|]. split; [exact Kp|exact Lv].
      + assert (X : mapM (fun k => k) (keys ++ [Exc e]) = Exc e).
        { clear -E. revert ks E. induction keys as [|y ys IH]; intros ks E; [reflexivity|]. cbn [mapM app] in *. destruct y as [k0|]; [|discriminate]. cbn [bind] in *.
          destruct (mapM (fun k => k) ys) as [l|]; [|discriminate]. now rewrite (IH _ eq_refl). }
        rewrite X. cbn [bind]. do 4 right. eauto.
    - assert (C3 := choice_In keytypes r4). destruct (choice pick keytypes r4) as [[kt|e3] r5]; [|destruct C3 as (C3 & -> & _); auto 8].
      destruct (randval kt r5) as [[kv|e3] r6] eqn:KV; [|do 3 right; left; exists kt, r5, r6; auto]. unfold eraise. auto.
  Qed.
  Lemma entries_ok maxdepth l : forall m r, tree K L maxdepth m ->
    match efoldM (fun m (_ : nat) => add_entry pick coin randval hash maxdepth types keytypes m) l m r with
    | (Ok m', _) => tree K L maxdepth m' /\ exists h, List.length h = List.length l /\ Forall (entry_ok randval hash maxdepth types keytypes) h /\
        foldM (fun m e => nd_set m (fst e) (snd e)) h m = Ok m'
    | (Exc e, _) => e = AttributeError \/ e = TypeError \/ (e = IndexError /\ (keytypes = [] \/ types = [])) \/
                    (exists t r1 r2, (In t keytypes \/ In t types) /\ randval t r1 = (Exc e, r2)) \/ (exists v, from_types randval keytypes v /\ hash v = Exc e)
    end.
  Proof.
    induction l as [|x l IH]; intros m r Tr; cbn [efoldM].
    - unfold eret. split; [exact Tr|]. exists []. auto.
    - unfold ebind. assert (A := add_entry_ok maxdepth m r Tr). destruct (add_entry pick coin randval hash maxdepth types keytypes m r) as [[m1|e] r1]; [|exact A].
      destruct A as (T1 & e & E & S). specialize (IH m1 r1 T1).
      destruct (efoldM (fun m (_ : nat) => add_entry pick coin randval hash maxdepth types keytypes m) l m1 r1) as [[m2|e2] r2]; [|exact IH].
      destruct IH as (T2 & h & Lh & Fh & S2). split; [exact T2|]. exists (e :: h). cbn [List.length foldM]. rewrite S. cbn [bind]. auto.
  Qed.
End Rand.

(** ** Distinct paths *)

Lemma nd_set_peek p x : forall m m' q, nd_set m p x = Ok m' -> diverge p q = true -> peek m q = None -> peek m' q = None.
Proof.
  induction p as [|k r IH]; intros m m' q S D N; [discriminate|]. destruct q as [|k' q]; [discriminate|]. cbn [diverge] in D.
  assert (St : forall c d w, (keqb k k' = true -> peek w q = None) -> peek (VDict c d) (k' :: q) = None -> peek (VDict c (dset d k w)) (k' :: q) = None).
  { intros c d w Hw Hd. cbn [peek] in *. destruct (keqb k k') eqn:E.
    - rewrite dget_dset, E. now apply Hw.
    - rewrite dget_dset_ne by exact E. exact Hd. }
  destruct r as [|k2 r].
  - destruct m as [| | |c d]; try discriminate. cbn [nd_set nd_setitem] in S. injection S as <-. apply St; [|exact N]. intro E. rewrite E in D. discriminate.
  - rewrite nd_set_cons in S by discriminate. destruct m as [| | |c d]; try discriminate. cbn [nd_getitem] in S. destruct (dget d k) as [w|] eqn:E.
    + cbn [bind] in S. destruct (nd_set w (k2 :: r) x) as [w'|] eqn:F; [|discriminate]. cbn [bind nd_setitem] in S. injection S as <-.
      apply St; [|exact N]. intro Q. rewrite Q in D. eapply IH; [exact F|exact D|]. cbn [peek] in N. rewrite <- (dget_keqb d k k' Q), E in N. exact N.
    + destruct c; try discriminate. cbn [bind] in S. destruct (nd_set (VDict CNesting []) (k2 :: r) x) as [w'|] eqn:F; [|discriminate]. cbn [bind nd_setitem] in S. injection S as <-.
      rewrite dset_twice. apply St; [|exact N]. intro Q. rewrite Q in D. eapply IH; [exact F|exact D|]. destruct q; [destruct r; discriminate|reflexivity].
Qed.
Lemma leaf_set_new p x : forall m m', nd_set m p x = Ok m' -> peek m p = None -> leaf_count m' = (leaf_count m + leaf_count x)%nat.
Proof.
  induction p as [|k r IH]; intros m m' S N; [discriminate|]. destruct r as [|k2 r].
  - destruct m as [| | |c d]; try discriminate. cbn [nd_set nd_setitem] in S. injection S as <-. cbn [leaf_count]. pose proof (leaf_dset d k x) as H.
    cbn [peek] in N. destruct (dget d k); [discriminate|]. lia.
  - rewrite nd_set_cons in S by discriminate. destruct m as [| | |c d]; try discriminate. cbn [nd_getitem] in S. cbn [peek] in N. destruct (dget d k) as [w|] eqn:E.
    + cbn [bind] in S. destruct (nd_set w (k2 :: r) x) as [w'|] eqn:F; [|discriminate]. cbn [bind nd_setitem] in S. injection S as <-. cbn [leaf_count].
      pose proof (leaf_dset d k w') as H. rewrite E in H. specialize (IH _ _ F N). lia.
    + destruct c; try discriminate. cbn [bind] in S. destruct (nd_set (VDict CNesting []) (k2 :: r) x) as [w'|] eqn:F; [|discriminate]. cbn [bind nd_setitem] in S. injection S as <-.
      rewrite dset_twice. cbn [leaf_count]. pose proof (leaf_dset d k w') as H. rewrite E in H. specialize (IH _ _ F eq_refl). cbn [leaf_count map list_sum fold_right] in IH. lia.
Qed.
Lemma distinct_leaves h : forall m m', ForallOrdPairs (fun a b => diverge (fst a) (fst b) = true) h ->
  Forall (fun e => peek m (fst e) = None /\ is_mapping (snd e) = false) h ->
  foldM (fun m e => nd_set m (fst e) (snd e)) h m = Ok m' -> leaf_count m' = (leaf_count m + List.length h)%nat.
Proof.
  induction h as [|[p x] h IH]; intros m m' O F S; [cbn in *; injection S as <-; lia|]. cbn [foldM fst snd] in S.
  destruct (nd_set m p x) as [m1|] eqn:E; [|discriminate]. cbn [bind] in S. inversion O as [|? ? O1 O2]; subst. inversion F as [|? ? [N Mx] F2]; subst. cbn [fst snd] in *.
  assert (X : leaf_count x = 1%nat) by (destruct x; try discriminate; reflexivity). assert (H := leaf_set_new _ _ _ _ E N).
  rewrite (IH m1 m' O2); [cbn [List.length]; lia| |exact S]. rewrite Forall_forall in *. intros e I. specialize (F2 e I). specialize (O1 e I). destruct F2 as [F2 F3]. split; [|exact F3].
  eapply nd_set_peek; eassumption.
Qed.

(** ** As stated *)

Section Stated.
  Context {R T : Type} (pick : nat -> R -> nat * R) (coin : R -> bool * R) (randval : T -> eff R val) (hash : val -> res key).
  Notation rnd := (random_nested_dict pick coin randval hash).
  Notation keys_of types keytypes := (match keytypes with Some l => l | None => types end).

  Lemma rand_history fuel quantity maxdepth types keytypes r v r' : plain_values randval types -> 1 <= maxdepth <= fuel ->
    rnd fuel quantity maxdepth types keytypes r = (Ok v, r') ->
    exists h m, List.length h = quantity /\ Forall (entry_ok randval hash maxdepth types (keys_of types keytypes)) h /\
      foldM (fun m e => nd_set m (fst e) (snd e)) h (VDict CNesting []) = Ok m /\ v = plainified m.
  Proof.
    intros PV Hm H. unfold random_nested_dict, ebind in H. set (kt := keys_of types keytypes) in *.
    destruct maxdepth as [|md]; [lia|].
    assert (T0 : tree (key_from randval hash kt) (from_types randval types) (S md) (VDict CNesting [])) by apply tree_empty.
    assert (E := entries_ok pick coin randval hash types kt PV (S md) (seq 0 quantity) (VDict CNesting []) r T0).
    destruct (efoldM _ (seq 0 quantity) (VDict CNesting []) r) as [[m|e] r1]; [|discriminate]. destruct E as (Tr & h & Lh & Fh & S).
    inversion Tr as [n d Wd Hd]; subst.
    destruct (todict_spec fuel d) as (p & s & Ht & Hp & _).
    - apply (tree_wfv _ _ (fun v H => proj2 (PV v H)) _ _ Tr).
    - pose proof (tree_depth _ _ (fun v H => proj1 (PV v H)) _ _ Tr). lia.
    - unfold eof, eret in H. rewrite Ht in H. cbn [fst] in H. injection H as <- <-. exists h, (VDict CNesting d). rewrite seq_length in Lh. auto.
  Qed.
  Lemma rand_shape fuel quantity maxdepth types keytypes r v r' : plain_values randval types -> 1 <= maxdepth <= fuel ->
    rnd fuel quantity maxdepth types keytypes r = (Ok v, r') ->
    is_mapping v = true /\ no_nesting v = true /\ inner_full v = true /\ depth v <= maxdepth /\ leaf_count v <= quantity.
  Proof.
    intros PV Hm H. destruct (rand_history _ _ _ _ _ _ _ _ PV Hm H) as (h & m & Lh & Fh & Sh & ->).
    split; [|split; [apply plainified_no_nesting|]].
    - assert (G : forall h m m', is_mapping m = true -> foldM (fun m e => nd_set m (fst e) (snd e)) h m = Ok m' -> is_mapping m' = true).
      { clear. induction h as [|[p x] h IH]; intros m m' M S; [cbn in S; congruence|]. cbn [foldM fst snd] in S. destruct (nd_set m p x) as [m1|] eqn:E; [|discriminate]. cbn [bind] in S.
        apply (IH m1 m'); [|exact S]. destruct m as [| | |c d]; try discriminate. destruct p as [|k [|k2 p]]; [discriminate| |].
        - cbn in E. injection E as <-. reflexivity.
        - rewrite nd_set_cons in E by discriminate. destruct (nd_getitem _ k) as [[a b]|]; [|discriminate]. cbn [bind] in E.
          destruct (nd_set a _ x); [|discriminate]. cbn [bind] in E. destruct b; try discriminate. cbn in E. injection E as <-. reflexivity. }
      specialize (G h (VDict CNesting []) m eq_refl Sh). destruct m as [| | |c d]; try discriminate. cbn. destruct (is_dict_cls c); reflexivity.
    - rewrite plainified_full, plainified_depth, plainified_leaves.
      set (kt := keys_of types keytypes) in *. destruct maxdepth as [|md]; [lia|].
      assert (T0 : tree (key_from randval hash kt) (from_types randval types) (S md) (VDict CNesting [])) by apply tree_empty.
      assert (F0 : inner_full (VDict CNesting []) = true) by reflexivity. assert (C0 : leaf_count (VDict CNesting []) = 0) by reflexivity.
      assert (G : forall h m m', Forall (entry_ok randval hash (S md) types kt) h -> tree (key_from randval hash kt) (from_types randval types) (S md) m -> inner_full m = true ->
                foldM (fun m e => nd_set m (fst e) (snd e)) h m = Ok m' ->
                inner_full m' = true /\ depth m' <= S md /\ leaf_count m' <= leaf_count m + List.length h).
      { clear -PV. induction h as [|[p x] h IH]; intros m m' F Tr Fu Sh.
        - cbn in Sh. injection Sh as <-. split; [exact Fu|]. split; [|cbn; lia]. apply (tree_depth _ _ (fun v H => proj1 (PV v H)) _ _ Tr).
        - cbn [foldM fst snd] in Sh. destruct (nd_set m p x) as [m1|] eqn:E; [|discriminate]. cbn [bind] in Sh. inversion F as [|? ? (Lp & Kp & Lx) F2]; subst. cbn [fst snd] in *.
          destruct (PV _ Lx) as [Mx Wx].
          assert (Ts := tree_set _ _ (fun v H => proj1 (PV v H)) p x Lx (S md) m Tr ltac:(lia) Kp). rewrite E in Ts.
          destruct (full_set p x ltac:(destruct x; try discriminate; reflexivity) ltac:(destruct x; try discriminate; reflexivity) _ _ Fu E) as [Fu1 _].
          destruct (IH m1 m' F2 Ts Fu1 Sh) as (A & B & C). split; [exact A|]. split; [exact B|]. pose proof (leaf_set p x Mx _ _ E). cbn [List.length]. lia. }
      destruct (G _ _ _ Fh T0 F0 Sh) as (A & B & C). rewrite C0 in C. split; [exact A|]. split; [exact B|lia].
  Qed.
  Lemma rand_distinct maxdepth types keytypes h m : plain_values randval types -> 
    Forall (entry_ok randval hash maxdepth types keytypes) h -> ForallOrdPairs (fun a b => diverge (fst a) (fst b) = true) h ->
    foldM (fun m e => nd_set m (fst e) (snd e)) h (VDict CNesting []) = Ok m -> leaf_count (plainified m) = List.length h.
  Proof.
    intros PV F O S. rewrite plainified_leaves. rewrite (distinct_leaves h (VDict CNesting []) m O); [reflexivity| |exact S].
    eapply Forall_impl; [|exact F]. intros [p x] (Lp & _ & Lx). cbn [fst snd] in *. split; [|apply (PV _ Lx)]. destruct p; [cbn in Lp; lia|reflexivity].
  Qed.
  Lemma rand_raises fuel quantity maxdepth types keytypes r e r' : plain_values randval types -> 1 <= maxdepth <= fuel ->
    rnd fuel quantity maxdepth types keytypes r = (Exc e, r') ->
    e = AttributeError \/ e = TypeError \/ (e = IndexError /\ (keys_of types keytypes = [] \/ types = [])) \/
    (exists t r1 r2, (In t (keys_of types keytypes) \/ In t types) /\ randval t r1 = (Exc e, r2)) \/
    (exists v, from_types randval (keys_of types keytypes) v /\ hash v = Exc e).
  Proof.
    intros PV Hm H. unfold random_nested_dict, ebind in H. set (kt := keys_of types keytypes) in *.
    destruct maxdepth as [|md]; [lia|].
    assert (T0 : tree (key_from randval hash kt) (from_types randval types) (S md) (VDict CNesting [])) by apply tree_empty.
    assert (E := entries_ok pick coin randval hash types kt PV (S md) (seq 0 quantity) (VDict CNesting []) r T0).
    destruct (efoldM _ (seq 0 quantity) (VDict CNesting []) r) as [[m|e0] r1]; [|injection H as <- <-; exact E]. destruct E as (Tr & _).
    exfalso. inversion Tr as [n d Wd Hd]; subst. destruct (todict_spec fuel d) as (p & s & Ht & Hp & _).
    - apply (tree_wfv _ _ (fun v H => proj2 (PV v H)) _ _ Tr).
    - pose proof (tree_depth _ _ (fun v H => proj1 (PV v H)) _ _ Tr). lia.
    - unfold eof, eret in H. rewrite Ht in H. discriminate.
  Qed.
  (** One level only: nothing can collide with a leaf. *)
  Lemma rand_flat fuel quantity types keytypes r : plain_values randval types -> 1 <= fuel -> types <> [] -> keys_of types keytypes <> [] ->
    (forall t s, exists v s', randval t s = (Ok v, s')) -> (forall v, from_types randval (keys_of types keytypes) v -> exists k, hash v = Ok k) ->
    exists v r', rnd fuel quantity 1 types keytypes r = (Ok v, r').
  Proof.
    intros PV Hf Ht Hk Rv Hh. unfold random_nested_dict, ebind. set (kt := keys_of types keytypes) in *.
    assert (C : forall A (l : list A) s, l <> [] -> exists x s', choice pick l s = (Ok x, s') /\ In x l).
    { intros A l s N. assert (G := choice_In pick l s). destruct (choice pick l s) as [[x|e] s']; [eauto|tauto]. }
    assert (A : forall d s, exists d' s', add_entry pick coin randval hash 1 types kt (VDict CNesting d) s = (Ok (VDict CNesting d'), s')).
    { intros d s. unfold add_entry, ebind. cbn [seq]. destruct (C _ [0] s ltac:(discriminate)) as (l & s1 & E1 & [<-|[]]). rewrite E1. cbn [pick_keys]. unfold eret.
      destruct (C _ types s1 Ht) as (t & s2 & E2 & _). rewrite E2. destruct (Rv t s2) as (v & s3 & E3). rewrite E3. cbn [fst snd get_in mapM bind nd_get].
      destruct (C _ kt s3 Hk) as (t2 & s4 & E4 & I4). rewrite E4. destruct (Rv t2 s4) as (v2 & s5 & E5). rewrite E5.
      destruct (Hh v2) as [k Ek]; [exists t2, s4, s5; auto|]. rewrite Ek. unfold eof. cbn. eauto. }
    assert (F : forall l d s, exists d' s', efoldM (fun m (_ : nat) => add_entry pick coin randval hash 1 types kt m) l (VDict CNesting d) s = (Ok (VDict CNesting d'), s')).
    { induction l as [|x l IH]; intros d s; cbn [efoldM]; [unfold eret; eauto|]. unfold ebind. destruct (A d s) as (d1 & s1 & E). rewrite E. apply IH. }
    assert (T0 : tree (key_from randval hash kt) (from_types randval types) 1 (VDict CNesting [])) by apply tree_empty.
    assert (E := entries_ok pick coin randval hash types kt PV 1 (seq 0 quantity) (VDict CNesting []) r T0).
    destruct (F (seq 0 quantity) [] r) as (d & r1 & E1). rewrite E1 in *. destruct E as [Tr _].
    destruct (todict_spec fuel d) as (p & s & Htd & Hp & _).
    - apply (tree_wfv _ _ (fun v H => proj2 (PV v H)) _ _ Tr).
    - pose proof (tree_depth _ _ (fun v H => proj1 (PV v H)) _ _ Tr). lia.
    - unfold eof, eret. rewrite Htd. eauto.
  Qed.
End Stated.
