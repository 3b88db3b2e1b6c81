(** Readers of a TagIndex while one process adds keys to it. *)
From Verif Require Export Live_Core Index_Hard.

(** ** The lock disturbs only its own names *)

Section LockCalm.
  Variable I : string.

  Lemma calm_create (N : string -> Prop) s a size : wf s -> names s a = None -> size <> 0 -> N a -> calmly N (shm_create a size) s.
  Proof.
    intros W Hn Hs Ha. destruct (stages_create s a size W Hn Hs) as (sh & s' & _ & W' & _ & O' & Wh & _ & Oh & St).
    assert (Hsub : forall x, a = x -> N x) by (intros x <-; exact Ha).
    eapply calmly_stages; [exact St|]. constructor; [|constructor; [|constructor; [|constructor]]].
    - split; [exact W|apply only_refl].
    - split; [exact Wh|eapply only_sub; eauto].
    - split; [exact W'|eapply only_sub; eauto].
  Qed.
  Lemma crash_create_exists s a size i : names s a = Some i -> size <> 0 -> forall n, crash n (shm_create a size) s = s.
  Proof.
    intros Hn Hs n. destruct size as [|z]; [congruence|]. unfold shm_create, prim, pbind. cbn [ptry of_res].
    destruct n as [|n]; [reflexivity|]. cbn [crash step]. rewrite Hn. cbn. destruct n; reflexivity.
  Qed.
  Lemma calm_write (N : string -> Prop) s h b : wf s -> (exists b', at_ s (hname h) (hid h) b' /\ String.length b = String.length b') -> N (hname h) ->
    calmly N (shm_write h b) s.
  Proof.
    destruct h as [a i]. cbn [hname hid]. intros W (b' & A & Hl) Ha. destruct (write_ok s a i b' b W A Hl) as (s' & R & W' & _ & O').
    eapply calmly_stages; [eapply stages_write; exact R|]. constructor; [|constructor; [|constructor]].
    - split; [exact W|apply only_refl].
    - split; [exact W'|]. eapply only_sub; [exact O'|]. intros x <-; exact Ha.
  Qed.
  Lemma calm_unlink (N : string -> Prop) s h i : wf s -> names s (hname h) = Some i -> N (hname h) -> calmly N (shm_unlink h) s.
  Proof.
    destruct h as [a j]. cbn [hname]. intros W Hn Ha. destruct (unlink_ok s a i W Hn) as (s' & R & W' & _ & O').
    eapply calmly_stages; [eapply stages_unlink; apply (R j)|]. constructor; [|constructor; [|constructor]].
    - split; [exact W|apply only_refl].
    - split; [exact W'|]. eapply only_sub; [exact O'|]. intros x <-; exact Ha.
  Qed.
  Lemma calm_read (N : string -> Prop) s h : wf s -> calmly N (shm_read h) s.
  Proof. intro W. apply calmly_still; [exact W|]. intro. apply crash_read. Qed.
  Lemma calm_exists (N : string -> Prop) s a : wf s -> calmly N (exists_block a) s.
  Proof. intro W. apply calmly_still; [exact W|]. intro. apply crash_exists. Qed.
  Lemma calm_attach (N : string -> Prop) s a : wf s -> calmly N (shm_attach a) s.
  Proof. intro W. apply calmly_still; [exact W|]. intro. apply crash_attach. Qed.

  Lemma calm_lock_init c s : wf s -> quiet I c s -> calmly (lock_names I) (lock_init I) s.
  Proof.
    intros W (H0 & _ & _ & [[Hn ->]|[Hc _]]); unfold lock_init.
    - destruct (open_new s (count_address I) 5 false W Hn) as (s1 & R & W1 & _ & _); [discriminate|].
      eapply calmly_bind; [|exact R|apply calmly_ret; exact W1]. unfold open_block.
      destruct (create_ok s (count_address I) 5 W Hn) as (s2 & R2 & W2 & _ & _); [discriminate|].
      eapply calmly_ptry; [apply calm_create; auto; left; reflexivity|exact R2|apply calmly_ret; exact W2].
    - destruct (content_at _ _ _ Hc) as [i A].
      eapply calmly_bind; [|apply (open_existing s (count_address I) 5 false i _ A); [discriminate|discriminate|reflexivity]|apply calmly_ret; exact W].
      unfold open_block. eapply calmly_ptry; [apply calmly_still; [exact W|apply (crash_create_exists s _ 5 i); [apply A|discriminate]]|
        apply (create_exists s _ 5 i); [apply A|discriminate]|]. cbn. apply calm_attach. exact W.
  Qed.

  Lemma calm_enter c s ch fuel : wf s -> quiet I c s -> at_ s (count_address I) ch (le_digits 5 c) ->
    (c < 256 ^ 5)%Z -> fuel <> 0 ->
    calmly (lock_names I) (enter fuel (mkLock I (mkHandle (count_address I) ch) 0 0 None None false 0 None)) s.
  Proof.
    intros W (H0 & H1 & H2 & _) A Hc Hf. destruct fuel as [|f]; [congruence|]. unfold enter.
    destruct (create_ok s (marker_address I (c + 1)) 1 W (H1 _)) as (s1 & R1 & W1 & A1 & O1); [discriminate|].
    assert (N1 : forall n, names s1 (lock_address I n) = None).
    { intro n. rewrite (same_names s s1); [apply H2|]. apply O1. adn hash0 I; try tauto. }
    destruct (create_ok s1 (lock_address I (c + 1)) 1 W1 (N1 _)) as (s2 & R2 & W2 & A2 & O2); [discriminate|].
    assert (Rm : run (take_marker (S f) I (c + 1)) s = (Some (Ok ((c + 1)%Z, mkHandle (marker_address I (c + 1)) (next s))), s1)).
    { cbn [take_marker]. rewrite run_ptry, R1. reflexivity. }
    assert (Cm : calmly (lock_names I) (take_marker (S f) I (c + 1)) s).
    { cbn [take_marker]. eapply calmly_ptry; [apply calm_create; auto; right; left; eauto|exact R1|apply calmly_ret; exact W1]. }
    set (l0 := mkLock I (mkHandle (count_address I) ch) 0 0 None None false 0 None).
    set (l1 := mkLock I (mkHandle (count_address I) ch) (c + 1) c (Some (mkHandle (marker_address I (c + 1)) (next s))) None false 0 None).
    assert (Rr : run (renumber (S f) l0) s = (Some (Ok l1), s1)).
    { unfold renumber, l0. cbn [l_count l_marker l_name]. rewrite (run_bind_ok _ _ _ _ _ (read_ok _ _ _ _ A)).
      rewrite from_le by (change (Z.of_nat 5) with 5%Z; lia). rewrite (run_bind_ok _ _ _ _ _ Rm). reflexivity. }
    eapply calmly_ptry; [|exact Rr|].
    { unfold renumber, l0. cbn [l_count l_marker l_name]. eapply calmly_bind; [apply calm_read; exact W|apply (read_ok _ _ _ _ A)|].
      rewrite from_le by (change (Z.of_nat 5) with 5%Z; lia). eapply calmly_bind; [exact Cm|exact Rm|apply calmly_ret; exact W1]. }
    cbv iota beta.
    set (l2 := mkLock I (mkHandle (count_address I) ch) (c + 1) c (Some (mkHandle (marker_address I (c + 1)) (next s)))
                 (Some (mkHandle (lock_address I (c + 1)) (next s1))) true 0 None).
    assert (Ne : names s2 (lock_address I c) = None).
    { rewrite (same_names s1 s2); [apply N1|]. apply O2. adn hash0 I. }
    assert (Rl : run (acquire_loop (S f) (set_lock l1 (mkHandle (lock_address I (c + 1)) (next s1)))) s2 = (Some (Ok (l2, Ok tt)), s2) /\
                 forall n, crash n (acquire_loop (S f) (set_lock l1 (mkHandle (lock_address I (c + 1)) (next s1)))) s2 = s2).
    { unfold l1, set_lock. cbn [acquire_loop l_acquired l_name l_count l_number l_floor l_marker l_lock l_spins l_max_spins]. unfold check_acquirement. cbn [l_name l_number l_floor].
      replace (Z.to_nat (c + 1 - c)) with 1 by lia. cbn [count_down any_locked Nat.add]. replace (c + Z.of_nat 0)%Z with c by lia.
      assert (Ra : run (let! b := exists_block (lock_address I c) in if b then Ret true else Ret false) s2 = (Some (Ok false), s2)).
      { rewrite run_bind, exists_names by exact W2. rewrite Ne. reflexivity. }
      assert (Ca : forall n, crash n (let! b := exists_block (lock_address I c) in if b then Ret true else Ret false) s2 = s2).
      { intro n. rewrite crash_bind, exists_names, crash_exists, Ne by exact W2. cbn [fst snd]. destruct (Nat.leb _ _); [reflexivity|].
        destruct (n - _); reflexivity. }
      split.
      - rewrite run_bind, run_bind, Ra. cbn [run snd fst]. destruct f; reflexivity.
      - intro n. rewrite crash_bind. rewrite (run_bind_ok _ _ _ _ _ Ra). rewrite crash_bind, Ca, Ra. cbn [run fst snd].
        destruct (Nat.leb _ _).
        + destruct (Nat.leb _ _); [reflexivity|]. destruct (n - _); reflexivity.
        + destruct f; destruct (n - _); reflexivity. }
    destruct Rl as [Rl Cl].
    assert (Rq : run (acquire (S f) l1) s1 = (Some (Ok (l2, Ok tt)), s2)).
    { unfold acquire. cbn [l_name l_number l1]. rewrite run_ptry, R2. exact Rl. }
    eapply calmly_bind; [|exact Rq|apply calmly_ret; exact W2].
    unfold acquire. cbn [l_name l_number l1]. eapply calmly_ptry; [apply calm_create; auto; right; right; eauto|exact R2|].
    cbv iota beta. apply calmly_still; [exact W2|exact Cl].
  Qed.

  Lemma calm_release c s ch mh lh m : wf s ->
    (exists b, at_ s (count_address I) ch b /\ String.length b = 5) ->
    (exists b, at_ s (marker_address I c) mh b) -> (exists b, at_ s (lock_address I c) lh b) ->
    (0 <= c < 256 ^ 5)%Z ->
    calmly (lock_names I) (release (mkLock I (mkHandle (count_address I) ch) c m
                   (Some (mkHandle (marker_address I c) mh)) (Some (mkHandle (lock_address I c) lh)) true 0 None)) s.
  Proof.
    intros W (b & A & Hb) (bm & Am) (bl & Al) Hc. unfold release. cbn [l_acquired l_number l_count l_lock l_marker].
    rewrite to_bytes_in by (change (Z.of_nat 5) with 5%Z; lia). cbn [of_res].
    destruct (write_ok s _ ch b (le_digits 5 c) W A) as (s1 & R1 & W1 & A1 & O1); [now rewrite le_length|].
    destruct (unlink_ok s1 (lock_address I c) lh W1) as (s2 & R2 & W2 & N2 & O2).
    { rewrite (same_names s s1); [apply Al|]. apply O1. adn hash0 I; try tauto. }
    assert (Nm : names s2 (marker_address I c) = Some mh).
    { rewrite (same_names s1 s2), (same_names s s1); [apply Am| |]; [apply O1|apply O2]; adn hash0 I; try tauto. }
    destruct (unlink_ok s2 (marker_address I c) mh W2 Nm) as (s3 & R3 & W3 & N3 & O3).
    eapply calmly_bind; [|rewrite run_bind_ret; exact R1|].
    { apply (calm_write _ s (mkHandle (count_address I) ch)); [exact W| |left; reflexivity]. exists b. rewrite le_length. split; [exact A|congruence]. }
    cbn [release_block]. eapply calmly_bind; [|apply (R2 lh)|].
    { apply (calm_unlink _ _ _ lh); [exact W1| |right; right; now exists c]. cbn [hname]. rewrite (same_names s s1); [apply Al|]. apply O1. adn hash0 I; try tauto. }
    eapply calmly_bind; [|apply (R3 mh)|apply calmly_ret; exact W3].
    apply (calm_unlink _ _ _ mh); [exact W2|exact Nm|right; left; now exists c].
  Qed.
End LockCalm.

(** Listing only looks. *)
Lemma keys_still x n : forall i s k, crash k (keys_from x n i) s = s.
Proof.
  induction n as [|n IH]; intros i s k; cbn [keys_from]; [destruct k; reflexivity|].
  set (p := ptry _ _ _).
  assert (Hp : (forall k, crash k p s = s) /\ snd (run p s) = s).
  { unfold p. split.
    - intro j. rewrite crash_ptry, crash_bind, run_bind, crash_attach. pose proof (attach_store s (key_address (ix_name x) i)) as E.
      destruct (run (shm_attach (key_address (ix_name x) i)) s) as [[[h|e]|] s']; cbn [fst snd] in *; subst s'.
      + rewrite crash_read. unfold shm_read. rewrite run_prim. cbn [step]. destruct (mem s (hid h)); cbn [fst snd];
          repeat (match goal with |- context [Nat.leb ?a ?b] => destruct (Nat.leb a b) end); try reflexivity;
          match goal with |- crash ?x _ _ = _ => destruct x; reflexivity end.
      + repeat (match goal with |- context [Nat.leb ?a ?b] => destruct (Nat.leb a b) end); try reflexivity;
          try (match goal with |- crash ?x _ _ = _ => destruct x; reflexivity end); destruct e; match goal with |- crash ?x _ _ = _ => destruct x; reflexivity end.
      + repeat (match goal with |- context [Nat.leb ?a ?b] => destruct (Nat.leb a b) end); try reflexivity;
          try (match goal with |- crash ?x _ _ = _ => destruct x; reflexivity end).
    - rewrite run_ptry, run_bind. pose proof (attach_store s (key_address (ix_name x) i)) as E.
      destruct (run (shm_attach (key_address (ix_name x) i)) s) as [[[h|e]|] s']; cbn [fst snd] in *; subst s'; try reflexivity.
      + unfold shm_read. rewrite run_prim. cbn [step]. destruct (mem s (hid h)); reflexivity.
      + destruct e; reflexivity. }
  destruct Hp as [Hp1 Hp2]. rewrite crash_bind, Hp1, Hp2. destruct (Nat.leb _ _); [reflexivity|].
  destruct (fst (run p s)) as [[o|e]|]; try (match goal with |- crash ?x _ _ = _ => destruct x; reflexivity end).
  assert (Hr : snd (run (keys_from x n (i + 1)) s) = s).
  { specialize (IH (i + 1)%Z s (cost (keys_from x n (i + 1)) s)). now rewrite crash_done in IH by lia. }
  rewrite crash_bind, IH, Hr. destruct (Nat.leb _ _); [reflexivity|].
  destruct (fst (run (keys_from x n (i + 1)) s)) as [[l|e]|]; match goal with |- crash ?x _ _ = _ => destruct x; reflexivity end.
Qed.
Lemma update_still x s : wf s -> forall n, crash n (update x) s = s.
Proof.
  intros W n. unfold update, update_length. rewrite crash_bind, crash_bind, crash_read, run_bind. unfold shm_read. rewrite run_prim. cbn [step].
  destruct (mem s (hid (ix_mem x))); cbn [fst snd run].
  - destruct (Nat.leb _ _); [destruct (Nat.leb _ _); [reflexivity|match goal with |- crash ?x _ _ = _ => destruct x; reflexivity end]|].
    apply keys_still.
  - destruct (Nat.leb _ _); [destruct (Nat.leb _ _); [reflexivity|match goal with |- crash ?x _ _ = _ => destruct x; reflexivity end]|].
    match goal with |- crash ?x _ _ = _ => destruct x; reflexivity end.
Qed.

Section Live.
  Variable hash : bytes -> string.
  Variable K : string -> Prop.
  Hypothesis hash_inj : collision_free hash K.
  Variable I : string.
  Variable m : N.
  Notation H := {| hname := I; hid := m |}.
  Notation RepN := (RepN hash K I m).
  Notation Rep ks s := (RepN (List.length ks) ks s).

  (** The keys in the end. *)
  Variable F : list string.
  Hypothesis F_nodup : NoDup F.
  Hypothesis F_K : Forall K F.
  Hypothesis F_ne : Forall (fun k => k <> "") F.
  Hypothesis F_len : (Z.of_nat (List.length F) < 256 ^ Z.of_nat 8)%Z.

  (** *** Phases.  Key number [j] goes through the phases 7 j + 1 (length
      written), + 2 (key block half made), + 3 (zeroed), + 4 (written),
      + 5 (name block half made), + 6 (zeroed), + 7 (written). *)
  Definition kcell (g j : nat) (k : string) : option bytes :=
    if Nat.leb (7 * j + 4) g then Some k
    else if Nat.leb (7 * j + 3) g then Some (zeros (String.length k))
    else if Nat.leb (7 * j + 2) g then Some "" else None.
  Definition ncell (g j : nat) : option bytes :=
    if Nat.leb (7 * j + 7) g then Some (len8 j)
    else if Nat.leb (7 * j + 6) g then Some (zeros 8)
    else if Nat.leb (7 * j + 5) g then Some "" else None.
  Definition glen (g : nat) : nat := (g + 6) / 7.

  Record Inv (g : nat) (s : store) : Prop := mkInv {
    inv_wf : wf s;
    inv_mem : at_ s I m (len8 (glen g));
    inv_le : g <= 7 * List.length F;
    inv_key : forall j k, nth_error F j = Some k -> content s (key_address I (Z.of_nat j)) = kcell g j k;
    inv_name : forall j k, nth_error F j = Some k -> content s (name_address hash I k) = ncell g j;
    inv_noname : forall r, (forall k, In k F -> hash k <> hash r) -> names s (name_address hash I r) = None }.

  Definition keeps (s s' : store) : Prop :=
    forall a i, rep_names hash I a -> names s a = Some i -> names s' a = Some i.
  Lemma keeps_refl s : keeps s s.
  Proof. intros a i _ H. exact H. Qed.
  Lemma keeps_trans s1 s2 s3 : keeps s1 s2 -> keeps s2 s3 -> keeps s1 s3.
  Proof. intros H1 H2 a i Ha Hn. apply H2; [exact Ha|]. now apply H1. Qed.

  Lemma glen7 L : glen (7 * L) = L.
  Proof. unfold glen. symmetry. apply (Nat.div_unique _ 7 _ 6); lia. Qed.
  Lemma glen_next L c : 1 <= c <= 7 -> glen (7 * L + c) = S L.
  Proof. intro. unfold glen. symmetry. apply (Nat.div_unique _ 7 _ (c - 1)); lia. Qed.

  Lemma F_hash i j x y : nth_error F i = Some x -> nth_error F j = Some y -> i <> j -> hash x <> hash y.
  Proof.
    intros Hi Hj Hij E. apply Hij. apply (nodup_nth F i j x); auto. rewrite Hj. f_equal. symmetry.
    rewrite Forall_forall in F_K. apply hash_inj; auto; apply F_K; eapply nth_error_In; eauto.
  Qed.

  Lemma inv_lock g s s' : Inv g s -> wf s' -> only_at (lock_names I) s s' -> Inv g s'.
  Proof.
    intros V W O. assert (Hs : forall a, rep_names hash I a -> same_at s s' a).
    { intros a Ha. apply O. intro L. now apply (lock_not_rep hash I a L). }
    assert (Hk : forall i, same_at s s' (key_address I i)) by (intro; apply Hs; right; left; eauto).
    assert (Hn : forall r, same_at s s' (name_address hash I r)) by (intro; apply Hs; right; right; eauto).
    constructor; auto.
    - apply (at_same s); [apply V|apply Hs; left; reflexivity].
    - apply V.
    - intros j k E. rewrite (same_content _ _ _ (Hk _)). now apply V.
    - intros j k E. rewrite (same_content _ _ _ (Hn _)). now apply V.
    - intros r E. rewrite (same_names _ _ _ (Hn _)). now apply V.
  Qed.

  (** An index between two operations. *)
  Lemma inv_rep ks r s : wf s -> Rep ks s -> F = ks ++ r -> Inv (7 * List.length ks) s.
  Proof.
    intros W R HF. constructor.
    - exact W.
    - rewrite glen7. apply R.
    - rewrite HF, app_length. lia.
    - intros j k Hj. unfold kcell. destruct (Nat.lt_ge_cases j (List.length ks)) as [Hl|Hl].
      + replace (Nat.leb (7 * j + 4) _) with true by (symmetry; apply Nat.leb_le; lia).
        rewrite HF, nth_error_app1 in Hj by exact Hl. now apply (rep_key _ _ _ _ _ _ _ R).
      + replace (Nat.leb (7 * j + 4) _) with false by (symmetry; apply Nat.leb_gt; lia).
        replace (Nat.leb (7 * j + 3) _) with false by (symmetry; apply Nat.leb_gt; lia).
        replace (Nat.leb (7 * j + 2) _) with false by (symmetry; apply Nat.leb_gt; lia).
        apply names_none. apply (rep_nokey _ _ _ _ _ _ _ R). lia.
    - intros j k Hj. unfold ncell. destruct (Nat.lt_ge_cases j (List.length ks)) as [Hl|Hl].
      + replace (Nat.leb (7 * j + 7) _) with true by (symmetry; apply Nat.leb_le; lia).
        rewrite HF, nth_error_app1 in Hj by exact Hl. now apply (rep_name _ _ _ _ _ _ _ R).
      + replace (Nat.leb (7 * j + 7) _) with false by (symmetry; apply Nat.leb_gt; lia).
        replace (Nat.leb (7 * j + 6) _) with false by (symmetry; apply Nat.leb_gt; lia).
        replace (Nat.leb (7 * j + 5) _) with false by (symmetry; apply Nat.leb_gt; lia).
        apply names_none. apply (rep_noname _ _ _ _ _ _ _ R). intros x Hx E.
        apply In_nth_error in Hx. destruct Hx as [i Hi]. assert (i < List.length ks) by (apply nth_error_Some; congruence).
        assert (Hi' : nth_error F i = Some x) by (rewrite HF, nth_error_app1; auto).
        revert E. apply (F_hash i j x k Hi' Hj). lia.
    - intros x Hx. apply (rep_noname _ _ _ _ _ _ _ R). intros k Hk. apply Hx. rewrite HF. apply in_or_app. auto.
  Qed.

  (** *** The phases of adding key number [L] *)
  Lemma inv_phase_on ks k r s s' c : Rep ks s -> F = ks ++ k :: r -> wf s' -> 1 <= c <= 7 ->
    (forall a, rep_names hash I a -> ~ add_names hash I ks k a -> same_at s s' a) ->
    at_ s' I m (len8 (S (List.length ks))) ->
    content s' (key_address I (Z.of_nat (List.length ks))) = kcell (7 * List.length ks + c) (List.length ks) k ->
    content s' (name_address hash I k) = ncell (7 * List.length ks + c) (List.length ks) ->
    Inv (7 * List.length ks + c) s'.
  Proof.
    intros R HF W' Hc O Am Ak An. set (L := List.length ks) in *.
    assert (Wl : List.length F = L + S (List.length r)) by (rewrite HF, app_length; cbn; lia).
    assert (HL : nth_error F L = Some k) by (rewrite HF, nth_error_app2 by (fold L; lia); fold L; now rewrite Nat.sub_diag).
    assert (HFs : forall j x, j < L -> nth_error F j = Some x -> nth_error ks j = Some x).
    { intros j x Hj E. now rewrite HF, nth_error_app1 in E by exact Hj. }
    assert (Hkey : forall i, i <> Z.of_nat L -> same_at s s' (key_address I i)).
    { intros i Hi. apply O; [right; left; eauto|]. intros [E|[E|E]]; revert E; adn hash I; try tauto. }
    assert (Hname : forall x, hash x <> hash k -> same_at s s' (name_address hash I x)).
    { intros x Hx. apply O; [right; right; eauto|]. intros [E|[E|E]]; revert E; adn hash I; try tauto. }
    constructor; auto.
    - rewrite glen_next by exact Hc. exact Am.
    - rewrite Wl. lia.
    - intros j x Hj. destruct (Nat.eq_dec j L) as [->|Hne]; [replace x with k by congruence; exact Ak|].
      rewrite (same_content s s') by (apply Hkey; lia). unfold kcell. destruct (Nat.lt_ge_cases j L) as [Hl|Hl].
      + replace (Nat.leb (7 * j + 4) _) with true by (symmetry; apply Nat.leb_le; lia). apply (rep_key _ _ _ _ _ _ _ R). now apply HFs.
      + replace (Nat.leb (7 * j + 4) _) with false by (symmetry; apply Nat.leb_gt; lia).
        replace (Nat.leb (7 * j + 3) _) with false by (symmetry; apply Nat.leb_gt; lia).
        replace (Nat.leb (7 * j + 2) _) with false by (symmetry; apply Nat.leb_gt; lia).
        apply names_none. apply (rep_nokey _ _ _ _ _ _ _ R). fold L. lia.
    - intros j x Hj. destruct (Nat.eq_dec j L) as [->|Hne]; [replace x with k by congruence; exact An|].
      rewrite (same_content s s') by (apply Hname; eapply F_hash; eauto). unfold ncell. destruct (Nat.lt_ge_cases j L) as [Hl|Hl].
      + replace (Nat.leb (7 * j + 7) _) with true by (symmetry; apply Nat.leb_le; lia). apply (rep_name _ _ _ _ _ _ _ R). now apply HFs.
      + replace (Nat.leb (7 * j + 7) _) with false by (symmetry; apply Nat.leb_gt; lia).
        replace (Nat.leb (7 * j + 6) _) with false by (symmetry; apply Nat.leb_gt; lia).
        replace (Nat.leb (7 * j + 5) _) with false by (symmetry; apply Nat.leb_gt; lia).
        apply names_none. apply (rep_noname _ _ _ _ _ _ _ R). intros y Hy E. apply In_nth_error in Hy. destruct Hy as [i Hi].
        assert (i < L) by (apply nth_error_Some; congruence).
        revert E. apply (F_hash i j y x); auto; [|lia]. rewrite HF. now apply nth_app_l.
    - intros x Hx. rewrite (same_names s s').
      + apply (rep_noname _ _ _ _ _ _ _ R). intros y Hy. apply Hx. rewrite HF. apply in_or_app; auto.
      + apply Hname. intro E. apply (Hx k); [rewrite HF; apply in_or_app; right; left; reflexivity|congruence].
  Qed.
  Lemma inv_phase ks k r s s' c : Rep ks s -> F = ks ++ k :: r -> wf s' -> 1 <= c <= 7 ->
    only_at (add_names hash I ks k) s s' ->
    at_ s' I m (len8 (S (List.length ks))) ->
    content s' (key_address I (Z.of_nat (List.length ks))) = kcell (7 * List.length ks + c) (List.length ks) k ->
    content s' (name_address hash I k) = ncell (7 * List.length ks + c) (List.length ks) ->
    Inv (7 * List.length ks + c) s'.
  Proof. intros R HF W' Hc O. apply (inv_phase_on ks k r s); auto. Qed.

  Lemma keeps_same s s' (N : string -> Prop) : only_at N s s' -> (forall a i, N a -> rep_names hash I a -> names s a = Some i -> names s' a = Some i) -> (forall a, N a \/ ~ N a) -> keeps s s'.
  Proof.
    intros O HN HD a i Ha Hn. destruct (HD a) as [Hy|Hy]; [now apply HN|]. rewrite (same_names s s'); [exact Hn|]. now apply O.
  Qed.
  Lemma keeps_one s s' b : only_at (eq b) s s' -> (forall i, names s b = Some i -> names s' b = Some i) -> keeps s s'.
  Proof.
    intros O Hb. apply (keeps_same s s' (eq b) O).
    - intros a i <- _. apply Hb.
    - intro a. destruct (string_dec b a); auto.
  Qed.

  Notation trail := (trail Inv keeps).

  Lemma trail_one {A} (p : prog A) g g' s s' r (Q : res A -> nat -> store -> Prop) : cost p s = 1 -> run p s = (Some r, s') -> g <= g' ->
    Inv g s -> Inv g' s' -> keeps s s' -> Q r g' s' -> trail p g s Q.
  Proof.
    intros Hc R Hg V V' Hk HQ.
    assert (E1 : crash 1 p s = s') by (rewrite crash_done by lia; now rewrite R).
    apply (trail_crash Inv keeps p (fun n => match n with O => g | _ => g' end) s Q r s').
    - intros [|[|n]] Hn; [rewrite crash_zero; exact V|rewrite E1; exact V'|lia].
    - intros [|n] Hn; [|lia]. rewrite crash_zero, E1. auto.
    - exact R.
    - rewrite Hc. exact HQ.
  Qed.

  Lemma trail_open_new a size ow g s (Q : res handle -> nat -> store -> Prop) : wf s -> names s a = None -> size <> 0 -> Inv g s ->
    (forall sh, wf sh -> at_ sh a (next s) "" -> only_at (eq a) s sh -> Inv (g + 1) sh) ->
    (forall s', wf s' -> at_ s' a (next s) (zeros size) -> only_at (eq a) s s' ->
       Inv (g + 2) s' /\ Q (Ok (mkHandle a (next s))) (g + 2) s') ->
    trail (open_block a size true ow) g s Q.
  Proof.
    intros W Hn Hs V H1 H2. unfold open_block. apply trail_ptry.
    destruct (create_ok s a size W Hn Hs) as (s' & R & W' & A' & O').
    destruct (create_crash s a size W Hn Hs) as (Hc & E2 & sh & E1 & Wh & Ah & Oh). rewrite R in E2. cbn [snd] in E2.
    assert (E3 : crash 3 (shm_create a size) s = s') by (rewrite crash_done by lia; now rewrite R).
    destruct (H2 s' W' A' O') as [V' HQ].
    assert (K1 : keeps s sh) by (apply (keeps_one _ _ a Oh); intros i Hi; congruence).
    assert (K2 : keeps sh s').
    { intros b i Hb Hi. destruct (string_dec a b) as [<-|Hne].
      - rewrite (proj1 Ah) in Hi. injection Hi as <-. apply A'.
      - rewrite (same_names s s') by (apply O'; congruence). now rewrite (same_names s sh) in Hi by (apply Oh; congruence). }
    apply (trail_crash Inv keeps (shm_create a size) (fun n => match n with 0 => g | 1 => g + 1 | _ => g + 2 end) s _ (Ok (mkHandle a (next s))) s').
    - rewrite Hc. intros [|[|[|[|n]]]] Hn'; [rewrite crash_zero; exact V|rewrite E1; auto|rewrite E2; exact V'|rewrite E3; exact V'|lia].
    - rewrite Hc. intros [|[|[|n]]] Hn'; [rewrite crash_zero, E1|rewrite E1, E2|rewrite E2, E3|lia]; (split; [lia|]); auto using keeps_refl.
    - exact R.
    - rewrite Hc. cbn. split; [exact V'|exact HQ].
  Qed.

  Lemma trail_check ks s k nl g (Q : res (option Z) -> nat -> store -> Prop) : wf s -> Rep ks s -> Inv g s -> K k -> Q (Ok (position k ks)) g s ->
    trail (check_raw hash (mkIndex I H nl) k) g s Q.
  Proof.
    intros W R V Hk HQ. apply (trail_still Inv keeps keeps_refl _ g s Q (Ok (position k ks))); auto.
    - intro n. unfold check_raw. cbn [ix_name]. rewrite crash_bind, exists_names, crash_exists by exact W.
      cbn [fst snd]. destruct (Nat.leb n _); [reflexivity|]. destruct (names s (name_address hash I k)).
      + rewrite crash_bind, crash_attach, attach_store. destruct (Nat.leb _ _); [reflexivity|].
        destruct (fst (run (shm_attach _) s)) as [[h|e]|].
        * rewrite crash_bind, crash_read. destruct (Nat.leb _ _); [reflexivity|]. unfold shm_read. rewrite run_prim. cbn [fst snd step].
          destruct (mem s (hid h)); cbn [fst snd]; match goal with |- crash ?x _ _ = _ => destruct x; reflexivity end.
        * match goal with |- crash ?x _ _ = _ => destruct x; reflexivity end.
        * match goal with |- crash ?x _ _ = _ => destruct x; reflexivity end.
      + match goal with |- crash ?x _ _ = _ => destruct x; reflexivity end.
    - apply (check_rep hash K hash_inj I m (List.length ks)); assumption.
  Qed.

  Lemma trail_length ks s nl g (Q : res Z -> nat -> store -> Prop) : Rep ks s -> Inv g s -> Q (Ok (Z.of_nat (List.length ks))) g s ->
    trail (update_length (mkIndex I H nl)) g s Q.
  Proof.
    intros R V HQ. apply (trail_still Inv keeps keeps_refl _ g s Q (Ok (Z.of_nat (List.length ks)))); auto.
    - intro n. unfold update_length. cbn [ix_mem]. rewrite crash_bind, crash_read.
      destruct (Nat.leb n _); [reflexivity|]. rewrite (read_ok _ _ _ _ (rep_mem _ _ _ _ _ _ _ R)). cbn [fst snd]. destruct (n - _); reflexivity.
    - eapply (length_rep hash K I m (List.length ks)). exact R.
  Qed.

  Lemma kcell_1 L k c : c < 2 -> kcell (7 * L + c) L k = None.
  Proof.
    intro. unfold kcell. replace (Nat.leb (7 * L + 4) _) with false by (symmetry; apply Nat.leb_gt; lia).
    replace (Nat.leb (7 * L + 3) _) with false by (symmetry; apply Nat.leb_gt; lia).
    now replace (Nat.leb (7 * L + 2) _) with false by (symmetry; apply Nat.leb_gt; lia).
  Qed.
  Lemma kcell_2 L k : kcell (7 * L + 2) L k = Some "".
  Proof.
    unfold kcell. replace (Nat.leb (7 * L + 4) _) with false by (symmetry; apply Nat.leb_gt; lia).
    replace (Nat.leb (7 * L + 3) _) with false by (symmetry; apply Nat.leb_gt; lia). now rewrite Nat.leb_refl.
  Qed.
  Lemma kcell_3 L k : kcell (7 * L + 3) L k = Some (zeros (String.length k)).
  Proof. unfold kcell. replace (Nat.leb (7 * L + 4) _) with false by (symmetry; apply Nat.leb_gt; lia). now rewrite Nat.leb_refl. Qed.
  Lemma kcell_4 L k c : 4 <= c -> kcell (7 * L + c) L k = Some k.
  Proof. intro. unfold kcell. now replace (Nat.leb (7 * L + 4) _) with true by (symmetry; apply Nat.leb_le; lia). Qed.
  Lemma ncell_4 L c : c < 5 -> ncell (7 * L + c) L = None.
  Proof.
    intro. unfold ncell. replace (Nat.leb (7 * L + 7) _) with false by (symmetry; apply Nat.leb_gt; lia).
    replace (Nat.leb (7 * L + 6) _) with false by (symmetry; apply Nat.leb_gt; lia).
    now replace (Nat.leb (7 * L + 5) _) with false by (symmetry; apply Nat.leb_gt; lia).
  Qed.
  Lemma ncell_5 L : ncell (7 * L + 5) L = Some "".
  Proof.
    unfold ncell. replace (Nat.leb (7 * L + 7) _) with false by (symmetry; apply Nat.leb_gt; lia).
    replace (Nat.leb (7 * L + 6) _) with false by (symmetry; apply Nat.leb_gt; lia). now rewrite Nat.leb_refl.
  Qed.
  Lemma ncell_6 L : ncell (7 * L + 6) L = Some (zeros 8).
  Proof. unfold ncell. replace (Nat.leb (7 * L + 7) _) with false by (symmetry; apply Nat.leb_gt; lia). now rewrite Nat.leb_refl. Qed.
  Lemma ncell_7 L : ncell (7 * L + 7) L = Some (len8 L).
  Proof. unfold ncell. now rewrite Nat.leb_refl. Qed.

  Lemma trail_add_new ks r s k ok nl : wf s -> Rep ks s -> plain_key K k -> F = ks ++ ktext k :: r ->
    trail (_add hash (mkIndex I H nl) k ok) (7 * List.length ks) s (fun _ g _ => g = 7 * List.length (ks ++ [ktext k])).
  Proof.
    intros W R (Hne & Hraw & HK) HF.
    assert (Hin : ~ In (ktext k) ks).
    { intro Hin. rewrite HF in F_nodup. apply NoDup_remove_2 in F_nodup. apply F_nodup, in_or_app. auto. }
    pose proof (inv_rep ks _ s W R HF) as V0.
    assert (Hp : position (ktext k) ks = None) by now apply position_none.
    assert (Hlen : (Z.of_nat (S (List.length ks)) < 256 ^ Z.of_nat 8)%Z).
    { rewrite HF, app_length in F_len. cbn [List.length] in F_len. lia. }
    unfold _add, check. rewrite Hraw. apply trail_bind. apply (trail_check ks); auto. rewrite Hp. cbv iota beta.
    apply trail_bind. apply (trail_length ks); auto. cbv iota beta. cbn [ix_mem ix_name].
    set (L := List.length ks) in *.
    replace (Z.of_nat L + 1)%Z with (Z.of_nat (S L)) by lia. rewrite to_bytes_in by lia. cbn [of_res].
    change (pbind (Ret ?a) ?f) with (f a). cbv beta.
    pose proof (rep_nokey _ _ _ _ _ _ _ R) as Hnokey.
    pose proof (rep_noname _ _ _ _ _ _ _ R _ (rep_in_hash hash K hash_inj I m _ ks s _ R HK Hin)) as Hnoname.
    destruct (write_ok s I m _ (len8 (S L)) W (rep_mem _ _ _ _ _ _ _ R)) as (s1 & R1 & W1 & A1 & O1); [now rewrite !le_length|].
    assert (N1 : names s1 (key_address I (Z.of_nat L)) = None).
    { rewrite (same_names s s1); [apply Hnokey; fold L; lia|]. apply O1. adn hash I; try tauto. }
    assert (Nn1 : names s1 (name_address hash I (ktext k)) = None).
    { rewrite (same_names s s1); [exact Hnoname|]. apply O1. adn hash I; try tauto. }
    (* any store that differs from s1 at the key block only *)
    assert (P1 : forall x c, wf x -> only_at (eq (key_address I (Z.of_nat L))) s1 x -> 1 <= c <= 4 ->
                 content x (key_address I (Z.of_nat L)) = kcell (7 * L + c) L (ktext k) -> Inv (7 * L + c) x).
    { intros x c Wx Ox Hc Hk. apply (inv_phase ks (ktext k) r s); auto; [lia| | |].
      - intros a Ha. unfold add_names in Ha. apply same_trans with s1; [apply O1; intros <-; tauto|apply Ox; intros <-; tauto].
      - apply (at_same s1); [exact A1|]. apply Ox. adn hash I; try tauto.
      - fold L. rewrite ncell_4 by lia. apply names_none. rewrite (same_names s1 x); [exact Nn1|]. apply Ox. adn hash I; try tauto. }
    apply trail_bind. apply (trail_one _ _ (7 * L + 1) s s1 (Ok tt)); auto using cost_write; try lia.
    { apply P1; auto using only_refl; try lia. rewrite kcell_1 by lia. now apply names_none. }
    { apply (keeps_one _ _ I O1). intros i Hi. rewrite (proj1 (rep_mem _ _ _ _ _ _ _ R)) in Hi. injection Hi as <-. apply A1. }
    apply trail_bind. apply trail_open_new; auto; [now apply length_ne| | |].
    { apply P1; auto using only_refl; try lia. rewrite kcell_1 by lia. now apply names_none. }
    { intros sh Wh Ah Oh. replace (7 * L + 1 + 1) with (7 * L + 2) by lia. apply P1; auto; try lia. rewrite kcell_2. apply (at_content _ _ _ _ Ah). }
    intros s2 W2 A2 O2. replace (7 * L + 1 + 2) with (7 * L + 3) by lia.
    assert (V2 : Inv (7 * L + 3) s2).
    { apply P1; auto; try lia. rewrite kcell_3. apply (at_content _ _ _ _ A2). }
    split; [exact V2|].
    destruct (write_ok s2 _ (next s1) _ (ktext k) W2 A2) as (s3 & R3 & W3 & A3 & O3); [now rewrite zeros_length|].
    assert (V3 : Inv (7 * L + 4) s3).
    { apply P1; auto; try lia; try (eapply only_trans; eauto; fail). rewrite kcell_4 by lia. apply (at_content _ _ _ _ A3). }
    apply trail_bind. apply (trail_one _ _ (7 * L + 4) s2 s3 (Ok tt)); auto using cost_write; try lia.
    { apply (keeps_one _ _ _ O3). intros i Hi. rewrite (proj1 A2) in Hi. injection Hi as <-. apply A3. }
    rewrite to_bytes_in by lia. cbn [of_res]. change (pbind (Ret ?a) ?f) with (f a). cbv beta.
    assert (O13 : only_at (eq (key_address I (Z.of_nat L))) s1 s3) by exact (only_trans _ _ _ _ O2 O3).
    assert (N3 : names s3 (name_address hash I (ktext k)) = None).
    { rewrite (same_names s1 s3); [exact Nn1|]. apply O13. adn hash I; try tauto. }
    assert (P3 : forall x c, wf x -> only_at (eq (name_address hash I (ktext k))) s3 x -> 5 <= c <= 7 ->
                 content x (name_address hash I (ktext k)) = ncell (7 * L + c) L -> Inv (7 * L + c) x).
    { intros x c Wx Ox Hc Hk. apply (inv_phase ks (ktext k) r s); auto; [lia| | |].
      - intros a Ha. unfold add_names in Ha. apply same_trans with s1; [apply O1; intros <-; tauto|].
        apply same_trans with s3; [apply O13; intros <-; tauto|apply Ox; intros <-; tauto].
      - apply (at_same s3); [apply (at_same s1); [exact A1|apply O13]|apply Ox]; adn hash I; try tauto.
      - fold L. rewrite kcell_4 by lia. rewrite (same_content s3 x); [apply (at_content _ _ _ _ A3)|]. apply Ox. adn hash I; try tauto. }
    apply trail_bind. apply trail_open_new; auto.
    { intros sh Wh Ah Oh. replace (7 * L + 4 + 1) with (7 * L + 5) by lia. apply P3; auto; try lia. rewrite ncell_5. apply (at_content _ _ _ _ Ah). }
    intros s4 W4 A4 O4. replace (7 * L + 4 + 2) with (7 * L + 6) by lia.
    assert (V4 : Inv (7 * L + 6) s4).
    { apply P3; auto; try lia. rewrite ncell_6. apply (at_content _ _ _ _ A4). }
    split; [exact V4|].
    destruct (write_ok s4 _ (next s3) _ (len8 L) W4 A4) as (s5 & R5 & W5 & A5 & O5); [now rewrite le_length, zeros_length|].
    assert (V5 : Inv (7 * L + 7) s5).
    { apply P3; auto; try lia; try (eapply only_trans; eauto; fail). rewrite ncell_7. apply (at_content _ _ _ _ A5). }
    apply trail_bind. apply (trail_one _ _ (7 * L + 7) s4 s5 (Ok tt)); auto using cost_write; try lia.
    { apply (keeps_one _ _ _ O5). intros i Hi. rewrite (proj1 A4) in Hi. injection Hi as <-. apply A5. }
    split; [exact V5|]. rewrite app_length. fold L. cbn. lia.
  Qed.

  Lemma trail_calm {A} (p : prog A) g s r s' (Q : res A -> nat -> store -> Prop) : calmly (lock_names I) p s -> Inv g s ->
    run p s = (Some r, s') -> Q r g s' -> trail p g s Q.
  Proof.
    intros C V R HQ. apply (trail_crash Inv keeps p (fun _ => g) s Q r s'); auto.
    - intros n _. destruct (C n) as [W O]. now apply (inv_lock g s).
    - intros n _. split; [lia|]. intros a i Ha Hn. destruct (C n) as [_ O]. destruct (C (S n)) as [_ O'].
      assert (Hl : ~ lock_names I a) by (intro L; now apply (lock_not_rep hash I a L)).
      rewrite (same_names s _ a (O' a Hl)). rewrite <- Hn. symmetry. apply (same_names s _ a (O a Hl)).
  Qed.

  Lemma trail_with_lock {A} nl c fuel (body : prog A) g s (Q Q' : res A -> nat -> store -> Prop) :
    wf s -> quiet I c s -> (c + 1 < 256 ^ 5)%Z -> fuel <> 0 -> Inv g s ->
    (forall s1, wf s1 -> only_at (lock_names I) s s1 ->
       trail body g s1 (fun r g' s2 => Q r g' s2 /\ wf s2 /\ forall a, lock_names I a -> same_at s1 s2 a)) ->
    (forall r g' s2 s3 c3, Q r g' s2 -> wf s3 -> only_at (lock_names I) s2 s3 -> quiet I c3 s3 -> (c <= c3 <= c + 1)%Z -> Q' r g' s3) ->
    trail (with_lock nl fuel I body) g s Q'.
  Proof.
    intros W Q0 Hc Hf V Hb HQ. destruct nl.
    { unfold with_lock. eapply trail_mono; [|apply (Hb s W (only_refl _ _))]. intros r g' s' V' (H1 & W' & Hs).
      apply (HQ r g' s' s' c H1); auto using only_refl; [|lia]. apply (quiet_same I c s s' Q0). intros a Ha. auto. }
    unfold with_lock.
    destruct (lock_init_ok I c s W Q0) as (s0 & ch & R0 & W0 & A0 & O0).
    apply trail_bind. apply (trail_calm _ _ _ _ _ _ (calm_lock_init I c s W Q0) V R0).
    assert (Oq : only_at (lock_names I) s s0) by (eapply only_sub; [exact O0|]; intros a <-; left; reflexivity).
    pose proof (inv_lock _ _ _ V W0 Oq) as V0.
    assert (Q1 : quiet I c s0).
    { destruct Q0 as (H0 & H1 & H2 & H3). split; [exact H0|]. split; [|split].
      - intro n. rewrite (same_names s s0); [apply H1|]. apply O0. adn hash0 I; try tauto.
      - intro n. rewrite (same_names s s0); [apply H2|]. apply O0. adn hash0 I; try tauto.
      - right. split; [apply (at_content _ _ _ _ A0)|lia]. }
    destruct (enter_ok I c s0 ch fuel W0 Q1 A0) as (s1 & mh & lh & R1 & W1 & (bm & Am) & (bl & Al) & O1); [lia|exact Hf|].
    apply trail_bind. apply (trail_calm _ _ _ _ _ _ (calm_enter I c s0 ch fuel W0 Q1 A0 ltac:(lia) Hf) V0 R1).
    assert (O01 : only_at (lock_names I) s s1).
    { eapply only_trans; [exact Oq|]. eapply only_sub; [exact O1|]. intros a [->| ->]; unfold lock_names; eauto. }
    apply trail_ptry. eapply trail_mono; [|apply (Hb s1 W1 O01)]. cbv beta. intros r g' s2 V2 (Hq & W2 & Hs).
    assert (B1 : exists b, at_ s2 (count_address I) ch b /\ String.length b = 5).
    { exists (le_digits 5 c). split; [|apply le_length]. apply (at_same s1); [apply (at_same s0); [exact A0|]|apply Hs; left; reflexivity].
      apply O1. intros [E|E]; revert E; adn hash0 I; try tauto. }
    assert (B2 : exists b, at_ s2 (marker_address I (c + 1)) mh b).
    { exists bm. apply (at_same s1); [exact Am|]. apply Hs. right; left; eauto. }
    assert (B3 : exists b, at_ s2 (lock_address I (c + 1)) lh b).
    { exists bl. apply (at_same s1); [exact Al|]. apply Hs. right; right; eauto. }
    assert (Hc0 : (0 <= c + 1 < 256 ^ 5)%Z) by (destruct Q0 as [? _]; lia).
    destruct (release_ok I (c + 1) s2 ch mh lh c W2 B1 B2 B3 Hc0) as (s3 & R3 & W3 & A3 & Nm & Nl & O3).
    pose proof (calm_release I (c + 1) s2 ch mh lh c W2 B1 B2 B3 Hc0) as C3.
    assert (O23 : only_at (lock_names I) s2 s3).
    { intros a Ha. apply O3. intro E. apply Ha. unfold lock_names. destruct E as [E|[E|E]]; eauto. }
    assert (Q3 : quiet I (c + 1) s3).
    { destruct Q1 as (H0 & H1 & H2 & _). split; [lia|]. split; [|split].
      * intro n. destruct (Z.eq_dec n (c + 1)) as [->|Hn]; [exact Nm|].
        rewrite (same_names s2 s3), (same_names s1 s2), (same_names s0 s1); [apply H1| | |].
        -- apply O1. intros [E|E]; revert E; adn hash0 I; try tauto.
        -- apply Hs. right; left; eauto.
        -- apply O3. intros [E|[E|E]]; revert E; adn hash0 I; try tauto.
      * intro n. destruct (Z.eq_dec n (c + 1)) as [->|Hn]; [exact Nl|].
        rewrite (same_names s2 s3), (same_names s1 s2), (same_names s0 s1); [apply H2| | |].
        -- apply O1. intros [E|E]; revert E; adn hash0 I; try tauto.
        -- apply Hs. right; right; eauto.
        -- apply O3. intros [E|[E|E]]; revert E; adn hash0 I; try tauto.
      * right. split; [apply (at_content _ _ _ _ A3)|lia]. }
    pose proof (inv_lock _ _ _ V2 W3 O23) as V3.
    assert (HQ3 : Q' r g' s3) by (apply (HQ r g' s2 s3 (c + 1)%Z); auto; lia).
    destruct r as [x|e]; apply trail_bind; apply (trail_calm _ _ _ _ _ _ C3 V2 R3); (split; [exact V3|exact HQ3]).
  Qed.

  (** *** Histories without removals *)
  Lemma tags_grow ops : Forall (fun o => match o with IRemove _ => False | _ => True end) ops ->
    forall ks, exists r, snd (tags_run ks ops) = ks ++ r.
  Proof.
    induction 1 as [|o ops Ho _ IH]; intro ks; cbn [tags_run]; [exists []; now rewrite app_nil_r|].
    assert (E : exists r, snd (tags_step ks o) = ks ++ r).
    { destruct o as [k ok|k|k|]; cbn [tags_step]; try contradiction; try (exists []; cbn [snd]; now rewrite app_nil_r).
      destruct (position (ktext k) ks); cbn [snd]; [exists []; now rewrite app_nil_r|eauto]. }
    destruct E as [r E]. destruct (tags_step ks o) as [x ks1]. cbn [snd] in E. subst ks1.
    destruct (IH (ks ++ r)) as [r2 E2]. destruct (tags_run (ks ++ r) ops) as [xs ks2]. cbn [snd] in *. exists (r ++ r2). now rewrite app_assoc.
  Qed.

  Lemma trail_visit ks s c v r (Q : res iout -> nat -> store -> Prop) :
    wf s -> Rep ks s -> quiet I c s -> (c + 1 < 256 ^ 5)%Z -> plain_visit K v ->
    match v_op v with IRemove _ => False | _ => True end ->
    F = snd (tags_step ks (v_op v)) ++ r ->
    (forall s' c', wf s' -> Rep (snd (tags_step ks (v_op v))) s' -> quiet I c' s' -> (c <= c' <= c + 1)%Z ->
       Q (Ok (fst (tags_step ks (v_op v)))) (7 * List.length (snd (tags_step ks (v_op v)))) s') ->
    trail (visit_prog hash I H v) (7 * List.length ks) s Q.
  Proof.
    intros W R Q0 Hc [Hf Hp] Hop HF HQ.
    assert (V : exists r', F = ks ++ r').
    { destruct (tags_grow [v_op v]) with (ks := ks) as [r1 E1]; [auto|]. cbn [tags_run] in E1.
      destruct (tags_step ks (v_op v)) as [x ks1]. cbn [snd] in *. subst ks1. rewrite HF, <- app_assoc. eauto. }
    destruct V as [r' HF']. pose proof (inv_rep ks r' s W R HF') as V0.
    assert (L : (Z.of_nat (List.length (snd (tags_step ks (v_op v)))) < 256 ^ Z.of_nat 8)%Z).
    { rewrite HF, app_length in F_len. lia. }
    unfold visit_prog. destruct v as [nl fuel o]. cbn [v_op v_nl v_fuel] in *. destruct o as [k ok|k|k|]; [|contradiction| |].
    - specialize (Hp k eq_refl). unfold tag_add. cbn [ix_no_lockout ix_name].
      apply trail_ptry.
      apply (trail_with_lock nl c fuel _ _ s (fun q g' s2 => OPos q = fst (tags_step ks (IAdd k ok)) /\ g' = 7 * List.length (snd (tags_step ks (IAdd k ok))) /\
               Rep (snd (tags_step ks (IAdd k ok))) s2)); auto.
      + intros s1 W1 O1. pose proof (rep_lock hash K I m _ ks s s1 R O1) as R1. cbn [tags_step] in *.
        destruct (position (ktext k) ks) as [i|] eqn:E; cbn [fst snd] in *.
        * destruct Hp as (Hne & Hraw & HK). unfold _add, check. rewrite Hraw. apply trail_bind.
          apply (trail_check ks); auto; [now apply (inv_rep ks r')|]. rewrite E. cbv iota beta. pose proof (inv_rep ks r' s1 W1 R1 HF') as V1.
          destruct ok; (split; [exact V1|]); repeat split; auto using same_refl; apply R1 || apply W1.
        * rewrite <- app_assoc in HF. cbn [app] in HF. pose proof Hp as Hp'.
          apply position_none in E. rewrite app_length in L. cbn in L.
          destruct (add_new hash K hash_inj I m ks s1 k ok nl W1 R1 Hp E) as (s2 & Rr & W2 & R2 & O2); [lia|].
          eapply trail_mono; [|eapply trail_run; [eapply trail_add_new; eauto|exact Rr]]. cbv beta.
          intros q g' s2' V2 (Hg & -> & ->). split; [split; [reflexivity|split; [exact Hg|exact R2]]|]. split; [exact W2|].
          intros a Ha. apply O2. intro Hx. apply (lock_not_rep hash I a Ha). eapply add_names_rep; eauto.
      + intros q g' s2 s3 c3 (E & -> & R2) W3 O3 Q3 Hc3.
        pose proof (rep_lock hash K I m _ _ s2 s3 R2 O3) as R3. specialize (HQ s3 c3 W3 R3 Q3 Hc3). rewrite <- E in HQ.
        destruct q; (split; [now apply (inv_rep _ r)|exact HQ]).
    - specialize (Hp k eq_refl). destruct Hp as (Hne & Hraw & HK). unfold check. rewrite Hraw. apply trail_bind.
      apply (trail_check ks); auto. split; [exact V0|]. apply (HQ s c); auto. lia.
    - apply trail_bind. apply (trail_still Inv keeps keeps_refl _ _ s _ (Ok ks)); auto.
      + apply update_still. exact W.
      + now apply (update_rep hash K I m).
      + split; [exact V0|]. apply (HQ s c); auto. lia.
  Qed.

  Lemma trail_visits h : forall ks s c, wf s -> Rep ks s -> quiet I c s -> (c + Z.of_nat (List.length h) < 256 ^ 5)%Z ->
    Forall (plain_visit K) h -> removes_nothing h -> F = snd (tags_run ks (map v_op h)) ->
    trail (visits_prog hash I H h) (7 * List.length ks) s
      (fun q g s' => q = Ok (fst (tags_run ks (map v_op h))) /\ g = 7 * List.length F).
  Proof.
    induction h as [|v h IH]; intros ks s c W R Q Hc Fp Fr HF; cbn [visits_prog map tags_run] in *.
    - cbn [snd fst] in *. subst ks. split; [apply (inv_rep F []); auto; now rewrite app_nil_r|auto].
    - inversion Fp as [|? ? Hv Hh]; subst. inversion Fr as [|? ? Hv' Hh']; subst. cbn [List.length] in Hc.
      assert (Hops : Forall (fun o => match o with IRemove _ => False | _ => True end) (map v_op h)).
      { unfold removes_nothing in Hh'. rewrite Forall_forall in *. intros o Ho. apply in_map_iff in Ho. destruct Ho as (w & <- & Hw). exact (Hh' w Hw). }
      destruct (tags_grow (map v_op h) Hops (snd (tags_step ks (v_op v)))) as [r Er].
      apply trail_bind. apply (trail_visit ks s c v r); auto; [lia| |].
      { rewrite HF. destruct (tags_step ks (v_op v)) as [x ks1]. cbn [snd] in *. destruct (tags_run ks1 (map v_op h)) as [xs ks2]. exact Er. }
      intros s' c' W' R' Q' Hc'. apply trail_bind.
      destruct (tags_step ks (v_op v)) as [x ks1]. cbn [fst snd] in *.
      eapply trail_mono; [|apply (IH ks1 s' c'); auto; [lia|]].
      + cbv beta. intros q g s2 V2 (-> & ->). destruct (tags_run ks1 (map v_op h)) as [xs ks2]. cbn [fst snd] in *.
        split; [exact V2|]. auto.
      + destruct (tags_run ks1 (map v_op h)) as [xs ks2]. exact HF.
  Qed.
End Live.
