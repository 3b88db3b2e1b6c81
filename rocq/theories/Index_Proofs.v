(** TagIndex refines an insertion-ordered set. *)
From Verif Require Export Lock_Proofs.

(** ** Lists of keys *)

Lemma position_some k ks i : position k ks = Some i ->
  (0 <= i < Z.of_nat (List.length ks))%Z /\ nth_error ks (Z.to_nat i) = Some k.
Proof.
  revert i. induction ks as [|x r IH]; intros i; cbn [position List.length]; [discriminate|].
  destruct (String.eqb_spec x k) as [->|Hx].
  - intros [= <-]. split; [lia|reflexivity].
  - destruct (position k r) as [j|]; [|discriminate]. intros [= <-]. destruct (IH j eq_refl) as [Hj Hn].
    split; [lia|]. replace (Z.to_nat (j + 1)) with (S (Z.to_nat j)) by lia. exact Hn.
Qed.
Lemma position_none k ks : position k ks = None <-> ~ In k ks.
Proof.
  induction ks as [|x r IH]; cbn [position In]; [tauto|].
  destruct (String.eqb_spec x k) as [->|Hx]; [split; [discriminate|tauto]|].
  destruct (position k r); split; try discriminate; try tauto.
  intro H. exfalso. destruct IH as [_ IH]. discriminate IH. tauto.
Qed.
Lemma position_in k ks : In k ks -> exists i, position k ks = Some i.
Proof. intro H. destruct (position k ks) as [i|] eqn:E; [eauto|]. apply position_none in E. tauto. Qed.
Lemma nodup_nth {A} (l : list A) i j x : NoDup l -> nth_error l i = Some x -> nth_error l j = Some x -> i = j.
Proof.
  intros Hd Hi Hj. apply NoDup_nth_error with (l := l); auto; [|congruence]. apply nth_error_Some. congruence.
Qed.

Lemma put_length k z ks : List.length (put_in_place k z ks) = List.length ks.
Proof. induction ks as [|x r IH]; cbn; [reflexivity|]. destruct (String.eqb x k); cbn; congruence. Qed.
Lemma put_nth k z ks i : NoDup ks -> nth_error ks i = Some k ->
  forall j, nth_error (put_in_place k z ks) j = if Nat.eqb j i then Some z else nth_error ks j.
Proof.
  revert i. induction ks as [|x r IH]; intros i Hd Hi j; [destruct i; discriminate|].
  inversion Hd as [|? ? Hx Hd']; subst. cbn [put_in_place].
  destruct (String.eqb_spec x k) as [->|Hxk].
  - destruct i as [|i]; [|cbn in Hi; destruct Hx; eapply nth_error_In; eauto].
    destruct j; reflexivity.
  - destruct i as [|i]; [cbn in Hi; congruence|]. destruct j as [|j]; [reflexivity|]. cbn. apply IH; auto.
Qed.
Lemma put_in k z ks x : In x (put_in_place k z ks) -> x = z \/ In x ks.
Proof.
  induction ks as [|y r IH]; cbn; [tauto|]. destruct (String.eqb_spec y k); cbn; intuition.
Qed.

Lemma swap_last ks z : swap_remove z (ks ++ [z]) = ks.
Proof. unfold swap_remove. rewrite last_last, String.eqb_refl. apply removelast_last. Qed.
Lemma swap_other ks z k : z <> k -> swap_remove k (ks ++ [z]) = put_in_place k z ks.
Proof. intro H. unfold swap_remove. rewrite last_last, eqb_ne by assumption. now rewrite removelast_last. Qed.

Lemma nth_app_l {A} (l l' : list A) i x : nth_error l i = Some x -> nth_error (l ++ l') i = Some x.
Proof. intro H. rewrite nth_error_app1; [exact H|]. apply nth_error_Some. congruence. Qed.
Lemma nth_snoc {A} (l : list A) z i x : nth_error (l ++ [z]) i = Some x ->
  (i < List.length l /\ nth_error l i = Some x) \/ (i = List.length l /\ x = z).
Proof.
  intro H. destruct (Nat.lt_ge_cases i (List.length l)) as [Hl|Hl].
  - left. rewrite nth_error_app1 in H by assumption. auto.
  - right. rewrite nth_error_app2 in H by assumption. destruct (i - List.length l) as [|d] eqn:E.
    + cbn in H. split; [lia|congruence].
    + cbn in H. destruct d; discriminate.
Qed.
Lemma nodup_snoc {A} (l : list A) z : NoDup (l ++ [z]) <-> NoDup l /\ ~ In z l.
Proof.
  split.
  - intro H. pose proof (NoDup_remove l [] z H) as [H1 H2]. rewrite app_nil_r in *. auto.
  - intros [H1 H2]. apply NoDup_Add with (a := z) (l := l); [|auto].
    pose proof (Add_app z l []) as H. now rewrite app_nil_r in H.
Qed.

Lemma put_nodup k z ks i : NoDup ks -> nth_error ks i = Some k -> ~ In z ks -> NoDup (put_in_place k z ks).
Proof.
  intros Hd Hi Hz. apply NoDup_nth_error. intros a b Ha. rewrite !(put_nth k z ks i) by assumption.
  rewrite put_length in Ha.
  assert (forall c, nth_error ks c = Some z -> False) by (intros c Hc; apply Hz; eapply nth_error_In; eauto).
  destruct (Nat.eqb_spec a i) as [->|Ea]; destruct (Nat.eqb_spec b i) as [->|Eb]; auto.
  - intro E. symmetry in E. exfalso; eauto.
  - intro E. exfalso; eauto.
  - intro E. apply NoDup_nth_error with (l := ks); auto.
Qed.

(** ** Representation *)

Notation len8 n := (le_digits 8 (Z.of_nat n)).
Lemma pow8 : (256 ^ Z.of_nat 8 = 18446744073709551616)%Z.
Proof. reflexivity. Qed.

Section Rep.
  Variable hash : bytes -> string.
  Variable K : string -> Prop.
  Hypothesis hash_inj : collision_free hash K.
  Variable I : string.
  Variable m : N.
  Notation H := {| hname := I; hid := m |}.

  (** The store holds an index with keys [ks] whose length field is [n]. *)
  Record RepN (n : nat) (ks : list string) (s : store) : Prop := mkRep {
    rep_mem : at_ s I m (len8 n);
    rep_key : forall i k, nth_error ks i = Some k -> content s (key_address I (Z.of_nat i)) = Some k;
    rep_nokey : forall i, ~ (0 <= i < Z.of_nat (List.length ks))%Z -> names s (key_address I i) = None;
    rep_name : forall i k, nth_error ks i = Some k -> content s (name_address hash I k) = Some (len8 i);
    rep_noname : forall r, (forall k, In k ks -> hash k <> hash r) -> names s (name_address hash I r) = None;
    rep_nodup : NoDup ks;
    rep_ne : Forall (fun k => k <> "") ks;
    rep_K : Forall K ks;
    rep_le : List.length ks <= n;
    rep_len : (Z.of_nat n < 256 ^ Z.of_nat 8)%Z }.
  (** The store holds an index with keys [ks]. *)
  Notation Rep ks s := (RepN (List.length ks) ks s).

  (** Names that hold the representation. *)
  Definition rep_names (a : string) : Prop :=
    a = I \/ (exists i, a = key_address I i) \/ (exists r, a = name_address hash I r).

  Lemma rep_same n ks s s' : RepN n ks s -> (forall a, rep_names a -> same_at s s' a) -> RepN n ks s'.
  Proof.
    intros R Hs.
    assert (Hk : forall i, same_at s s' (key_address I i)) by (intro; apply Hs; right; left; eauto).
    assert (Hn : forall r, same_at s s' (name_address hash I r)) by (intro; apply Hs; right; right; eauto).
    constructor; try apply R.
    - apply (at_same s); [apply R|apply Hs; left; reflexivity].
    - intros i k E. rewrite (same_content _ _ _ (Hk _)). eapply rep_key; eauto.
    - intros i E. rewrite (same_names _ _ _ (Hk _)). eapply rep_nokey; eauto.
    - intros i k E. rewrite (same_content _ _ _ (Hn _)). eapply rep_name; eauto.
    - intros r E. rewrite (same_names _ _ _ (Hn _)). eapply rep_noname; eauto.
  Qed.

  Lemma lock_not_rep a : lock_names I a -> ~ rep_names a.
  Proof.
    intros L [->|[[i ->]|[r ->]]]; destruct L as [E|[[n E]|[n E]]]; revert E; adn hash I; try tauto.
  Qed.

  Lemma rep_lock n ks s s' : RepN n ks s -> only_at (lock_names I) s s' -> RepN n ks s'.
  Proof. intros R O. apply (rep_same n ks s); [exact R|]. intros a Ha. apply O. intro L. now apply (lock_not_rep a L). Qed.

  Lemma rep_in_hash n ks s k : RepN n ks s -> K k -> ~ In k ks -> forall x, In x ks -> hash x <> hash k.
  Proof.
    intros R Hk Hn x Hx E. apply Hn. replace k with x; [exact Hx|]. apply hash_inj; auto.
    pose proof (rep_K _ _ _ R) as F. rewrite Forall_forall in F. auto.
  Qed.
  Lemma rep_nth_hash n ks s i j k k' : RepN n ks s -> nth_error ks i = Some k -> nth_error ks j = Some k' -> i <> j -> hash k <> hash k'.
  Proof.
    intros R Hi Hj Hij E. apply Hij. apply (nodup_nth ks i j k); [apply R|exact Hi|]. rewrite Hj. f_equal. symmetry.
    pose proof (rep_K _ _ _ R) as F. rewrite Forall_forall in F. apply hash_inj; auto; apply F; eapply nth_error_In; eauto.
  Qed.

  (** *** check *)
  Lemma rep_pos n ks s i k : RepN n ks s -> nth_error ks i = Some k -> (0 <= Z.of_nat i < 256 ^ Z.of_nat 8)%Z.
  Proof. intros R Hi. assert (i < List.length ks) by (apply nth_error_Some; congruence). pose proof (rep_len _ _ _ R). pose proof (rep_le _ _ _ R). lia. Qed.

  Lemma check_present n ks s i k nl : wf s -> RepN n ks s -> nth_error ks i = Some k ->
    run (check_raw hash (mkIndex I H nl) k) s = (Some (Ok (Some (Z.of_nat i))), s).
  Proof.
    intros W R Hi. unfold check_raw. cbn [ix_name].
    rewrite run_bind, exists_spec by assumption. rewrite (rep_name _ _ _ R _ _ Hi).
    destruct (content_at _ _ _ (rep_name _ _ _ R _ _ Hi)) as [j A].
    rewrite (run_bind_ok _ _ _ _ _ (attach_ok _ _ _ _ A ltac:(discriminate))).
    rewrite (run_bind_ok _ _ _ _ _ (read_ok _ _ _ _ A)). cbn [run].
    rewrite from_le by (eapply rep_pos; eauto). reflexivity.
  Qed.
  Lemma check_absent n ks s k nl : wf s -> RepN n ks s -> (forall x, In x ks -> hash x <> hash k) ->
    run (check_raw hash (mkIndex I H nl) k) s = (Some (Ok None), s).
  Proof.
    intros W R Hk. unfold check_raw. cbn [ix_name].
    rewrite run_bind, exists_names by assumption. rewrite (rep_noname _ _ _ R _ Hk). reflexivity.
  Qed.
  Lemma check_rep n ks s k nl : wf s -> RepN n ks s -> K k ->
    run (check_raw hash (mkIndex I H nl) k) s = (Some (Ok (position k ks)), s).
  Proof.
    intros W R Hk. destruct (position k ks) as [i|] eqn:E.
    - apply position_some in E. destruct E as [Hi E]. rewrite (check_present _ ks s _ _ nl W R E).
      do 3 f_equal. f_equal. lia.
    - apply (check_absent n ks); auto. apply position_none in E. eapply rep_in_hash; eauto.
  Qed.

  (** *** update *)
  Lemma length_rep n ks s nl : RepN n ks s -> run (update_length (mkIndex I H nl)) s = (Some (Ok (Z.of_nat n)), s).
  Proof.
    intro R. unfold update_length. cbn [ix_mem]. rewrite (run_bind_ok _ _ _ _ _ (read_ok _ _ _ _ (rep_mem _ _ _ R))).
    cbn [run]. rewrite from_le; [reflexivity|]. pose proof (rep_len _ _ _ R). lia.
  Qed.
  Lemma keys_from_rep s nl l i :
    (forall j k, nth_error l j = Some k -> content s (key_address I (i + Z.of_nat j)) = Some k /\ k <> "") ->
    run (keys_from (mkIndex I H nl) (List.length l) i) s = (Some (Ok l), s).
  Proof.
    revert i. induction l as [|k l IH]; intros i Hl; cbn [List.length keys_from]; [reflexivity|].
    destruct (Hl 0 k eq_refl) as [Hc Hne]. replace (i + Z.of_nat 0)%Z with i in Hc by lia.
    destruct (content_at _ _ _ Hc) as [j A].
    rewrite run_bind, run_ptry. cbn [ix_name]. rewrite (run_bind_ok _ _ _ _ _ (attach_ok _ _ _ _ A Hne)).
    rewrite (read_ok _ _ _ _ A). cbn [run]. rewrite run_bind, IH; [reflexivity|].
    intros a x Ha. replace (i + 1 + Z.of_nat a)%Z with (i + Z.of_nat (S a))%Z by lia. apply Hl. exact Ha.
  Qed.
  Lemma rep_ne' n ks s k : RepN n ks s -> In k ks -> k <> "".
  Proof. intros R Hk. pose proof (rep_ne _ _ _ R) as F. rewrite Forall_forall in F. auto. Qed.
  Lemma update_rep ks s nl : Rep ks s -> run (update (mkIndex I H nl)) s = (Some (Ok ks), s).
  Proof.
    intro R. unfold update. rewrite (run_bind_ok _ _ _ _ _ (length_rep _ ks s nl R)). rewrite Nat2Z.id.
    apply keys_from_rep. intros j k Hj. split; [apply (rep_key _ _ _ R); exact Hj|].
    eapply rep_ne'; eauto. eapply nth_error_In; eauto.
  Qed.

  (** *** add *)
  Definition add_names (ks : list string) (k : string) (a : string) : Prop :=
    a = I \/ a = key_address I (Z.of_nat (List.length ks)) \/ a = name_address hash I k.

  (** A store in which the three writes of _add have been made. *)
  Lemma rep_added_on ks k s s' : Rep ks s -> K k -> ~ In k ks -> k <> "" ->
    (Z.of_nat (S (List.length ks)) < 256 ^ Z.of_nat 8)%Z ->
    at_ s' I m (len8 (S (List.length ks))) ->
    content s' (key_address I (Z.of_nat (List.length ks))) = Some k ->
    content s' (name_address hash I k) = Some (len8 (List.length ks)) ->
    (forall a, rep_names a -> ~ add_names ks k a -> same_at s s' a) -> Rep (ks ++ [k]) s'.
  Proof.
    intros R Hk Hn Hne Hlen Am Ak An O.
    assert (Hkey : forall i, i <> Z.of_nat (List.length ks) -> same_at s s' (key_address I i)).
    { intros i Hi. apply O; [unfold rep_names; eauto|]. intros [E|[E|E]]; revert E; adn hash I; try tauto. }
    assert (Hname : forall r, hash r <> hash k -> same_at s s' (name_address hash I r)).
    { intros r Hr. apply O; [unfold rep_names; eauto|]. intros [E|[E|E]]; revert E; adn hash I; try tauto. }
    constructor.
    - rewrite app_length. cbn [List.length]. rewrite Nat.add_1_r. exact Am.
    - intros i x Hi. apply nth_snoc in Hi. destruct Hi as [[Hl Hi]|[-> ->]]; [|exact Ak].
      rewrite (same_content s s') by (apply Hkey; lia). eapply rep_key; eauto.
    - intros i Hi. rewrite app_length in Hi. cbn in Hi. rewrite (same_names s s') by (apply Hkey; lia).
      eapply rep_nokey; eauto. lia.
    - intros i x Hi. apply nth_snoc in Hi. destruct Hi as [[Hl Hi]|[-> ->]]; [|exact An].
      rewrite (same_content s s'); [eapply rep_name; eauto|]. apply Hname. eapply rep_in_hash; eauto. eapply nth_error_In; eauto.
    - intros r Hr. rewrite (same_names s s').
      + eapply rep_noname; eauto. intros x Hx. apply Hr, in_or_app. auto.
      + apply Hname. intro E. apply (Hr k); [apply in_or_app; right; left; reflexivity|congruence].
    - apply nodup_snoc. split; [apply R|exact Hn].
    - apply Forall_app. split; [apply R|auto].
    - apply Forall_app. split; [apply R|auto].
    - lia.
    - rewrite app_length. cbn. lia.
  Qed.
  Lemma rep_added ks k s s' : Rep ks s -> K k -> ~ In k ks -> k <> "" ->
    (Z.of_nat (S (List.length ks)) < 256 ^ Z.of_nat 8)%Z ->
    at_ s' I m (len8 (S (List.length ks))) ->
    content s' (key_address I (Z.of_nat (List.length ks))) = Some k ->
    content s' (name_address hash I k) = Some (len8 (List.length ks)) ->
    only_at (add_names ks k) s s' -> Rep (ks ++ [k]) s'.
  Proof. intros. eapply rep_added_on; eauto. Qed.

  Lemma content_absent s a x : names s a = None -> content s a <> Some x.
  Proof. intros E. rewrite names_none by assumption. discriminate. Qed.

  (** The writes of _add where the blocks it makes are missing. *)
  Lemma add_at n s k ok nl : wf s -> at_ s I m (len8 n) -> names s (key_address I (Z.of_nat n)) = None ->
    names s (name_address hash I (kraw k)) = None -> ktext k <> "" -> (Z.of_nat (S n) < 256 ^ Z.of_nat 8)%Z ->
    exists s', run (_add hash (mkIndex I H nl) k ok) s = (Some (Ok (Z.of_nat n)), s') /\
      wf s' /\ at_ s' I m (len8 (S n)) /\
      content s' (key_address I (Z.of_nat n)) = Some (ktext k) /\
      content s' (name_address hash I (kraw k)) = Some (len8 n) /\
      only_at (fun a => a = I \/ a = key_address I (Z.of_nat n) \/ a = name_address hash I (kraw k)) s s'.
  Proof.
    intros W A N0 Nn Hne Hlen. unfold _add, check.
    assert (R0 : run (check_raw hash (mkIndex I H nl) (kraw k)) s = (Some (Ok None), s)).
    { unfold check_raw. cbn [ix_name]. rewrite run_bind, exists_names by assumption. rewrite Nn. reflexivity. }
    rewrite (run_bind_ok _ _ _ _ _ R0). unfold update_length. cbn [ix_mem]. rewrite run_bind, (run_bind_ok _ _ _ _ _ (read_ok _ _ _ _ A)).
    cbn [run]. rewrite from_le by lia. cbn [ix_mem ix_name].
    replace (Z.of_nat n + 1)%Z with (Z.of_nat (S n)) by lia.
    rewrite to_bytes_in by lia. cbn [of_res]. rewrite run_bind_ret.
    destruct (write_ok s _ m _ (len8 (S n)) W A) as (s1 & R1 & W1 & A1 & O1); [now rewrite !le_length|].
    rewrite (run_bind_ok _ _ _ _ _ R1).
    assert (N1 : names s1 (key_address I (Z.of_nat n)) = None).
    { rewrite (same_names s s1); [exact N0|]. apply O1. adn hash I; try tauto. }
    destruct (open_fresh s1 (key_address I (Z.of_nat n)) (String.length (ktext k)) W1) as (s2 & i2 & R2 & W2 & A2 & O2).
    { now apply length_ne. } { now apply content_absent. }
    rewrite (run_bind_ok _ _ _ _ _ R2).
    destruct (write_ok s2 _ i2 _ (ktext k) W2 A2) as (s3 & R3 & W3 & A3 & O3); [now rewrite zeros_length|].
    rewrite (run_bind_ok _ _ _ _ _ R3). rewrite to_bytes_in by lia. cbn [of_res]. rewrite run_bind_ret.
    assert (N3 : names s3 (name_address hash I (kraw k)) = None).
    { rewrite (same_names s2 s3), (same_names s1 s2), (same_names s s1).
      - exact Nn.
      - apply O1. adn hash I; try tauto.
      - apply O2. adn hash I; try tauto.
      - apply O3. adn hash I; try tauto. }
    destruct (open_new s3 (name_address hash I (kraw k)) 8 false W3 N3) as (s4 & R4 & W4 & A4 & O4); [discriminate|].
    rewrite (run_bind_ok _ _ _ _ _ R4).
    destruct (write_ok s4 _ (next s3) _ (len8 n) W4 A4) as (s5 & R5 & W5 & A5 & O5); [now rewrite le_length, zeros_length|].
    rewrite (run_bind_ok _ _ _ _ _ R5). exists s5. cbn [run]. split; [reflexivity|]. split; [exact W5|].
    split; [|split; [|split]].
    - apply (at_same s1); [exact A1|]. apply same_trans with s2; [apply O2|apply same_trans with s3; [apply O3|
      apply same_trans with s4; [apply O4|apply O5]]]; adn hash I; try tauto.
    - rewrite (same_content s3 s5); [apply (at_content _ _ _ _ A3)|].
      apply same_trans with s4; [apply O4|apply O5]; adn hash I; try tauto.
    - apply (at_content _ _ _ _ A5).
    - intros a Ha. apply same_trans with s1; [apply O1; intros <-; tauto|].
      apply same_trans with s2; [apply O2; intros <-; tauto|]. apply same_trans with s3; [apply O3; intros <-; tauto|].
      apply same_trans with s4; [apply O4; intros <-; tauto|apply O5; intros <-; tauto].
  Qed.

  (** ... for a key whose hash is new, whatever its text. *)
  Lemma add_run n ks s k ok nl : wf s -> RepN n ks s -> ktext k <> "" -> (forall x, In x ks -> hash x <> hash (kraw k)) ->
    (Z.of_nat (S n) < 256 ^ Z.of_nat 8)%Z ->
    exists s', run (_add hash (mkIndex I H nl) k ok) s = (Some (Ok (Z.of_nat n)), s') /\
      wf s' /\ at_ s' I m (len8 (S n)) /\
      content s' (key_address I (Z.of_nat n)) = Some (ktext k) /\
      content s' (name_address hash I (kraw k)) = Some (len8 n) /\
      only_at (fun a => a = I \/ a = key_address I (Z.of_nat n) \/ a = name_address hash I (kraw k)) s s'.
  Proof.
    intros W R Hne Hh Hlen. apply add_at; auto.
    - apply R.
    - apply (rep_nokey _ _ _ R). pose proof (rep_le _ _ _ R). lia.
    - apply (rep_noname _ _ _ R). exact Hh.
  Qed.

  Lemma add_new ks s k ok nl : wf s -> Rep ks s -> plain_key K k -> ~ In (ktext k) ks ->
    (Z.of_nat (S (List.length ks)) < 256 ^ Z.of_nat 8)%Z ->
    exists s', run (_add hash (mkIndex I H nl) k ok) s = (Some (Ok (Z.of_nat (List.length ks))), s') /\
      wf s' /\ Rep (ks ++ [ktext k]) s' /\ only_at (add_names ks (ktext k)) s s'.
  Proof.
    intros W R (Hne & Hraw & HK) Hin Hlen.
    pose proof (rep_in_hash _ _ _ _ R HK Hin) as Hh.
    destruct (add_run (List.length ks) ks s k ok nl W R Hne) as (s' & Rr & W' & Am & Ak & An & O); [now rewrite Hraw|exact Hlen|].
    rewrite Hraw in *. exists s'. split; [exact Rr|]. split; [exact W'|]. split; [|exact O].
    apply (rep_added ks (ktext k) s); auto.
  Qed.

  Lemma add_old ks s k ok nl i : wf s -> Rep ks s -> plain_key K k -> position (ktext k) ks = Some i ->
    run (_add hash (mkIndex I H nl) k ok) s = (Some (if ok then Ok i else Exc FileExistsError), s).
  Proof.
    intros W R (Hne & Hraw & HK) Hi. unfold _add, check. rewrite Hraw, run_bind, (check_rep (List.length ks) ks), Hi by assumption.
    destruct ok; reflexivity.
  Qed.

  (** *** remove *)
  Lemma rep_removed_last_on ks k s s' : Rep (ks ++ [k]) s ->
    at_ s' I m (len8 (List.length ks)) ->
    names s' (key_address I (Z.of_nat (List.length ks))) = None ->
    names s' (name_address hash I k) = None ->
    (forall a, rep_names a -> ~ add_names ks k a -> same_at s s' a) -> Rep ks s'.
  Proof.
    intros R Am Nk Nn O.
    pose proof (rep_nodup _ _ _ R) as Hd. apply nodup_snoc in Hd. destruct Hd as [Hd Hin].
    pose proof (rep_K _ _ _ R) as FK. apply Forall_app in FK. destruct FK as [FK FKk]. inversion FKk as [|? ? HKk _]; subst.
    assert (Hh : forall x, In x ks -> hash x <> hash k).
    { intros x Hx E. apply Hin. replace k with x; [exact Hx|]. rewrite Forall_forall in FK. apply hash_inj; auto. }
    assert (Hkey : forall i, i <> Z.of_nat (List.length ks) -> same_at s s' (key_address I i)).
    { intros i Hi. apply O; [unfold rep_names; eauto|]. intros [E|[E|E]]; revert E; adn hash I; try tauto. }
    assert (Hname : forall r, hash r <> hash k -> same_at s s' (name_address hash I r)).
    { intros r Hr. apply O; [unfold rep_names; eauto|]. intros [E|[E|E]]; revert E; adn hash I; try tauto. }
    constructor; auto.
    - intros i x Hi. assert (i < List.length ks) by (apply nth_error_Some; congruence).
      rewrite (same_content s s') by (apply Hkey; lia). apply (rep_key _ _ _ R). now apply nth_app_l.
    - intros i Hi. destruct (Z.eq_dec i (Z.of_nat (List.length ks))) as [->|Hi']; [exact Nk|].
      rewrite (same_names s s') by (apply Hkey; exact Hi'). apply (rep_nokey _ _ _ R). rewrite app_length. cbn. lia.
    - intros i x Hi. rewrite (same_content s s').
      + apply (rep_name _ _ _ R). now apply nth_app_l.
      + apply Hname, Hh. eapply nth_error_In; eauto.
    - intros r Hr. destruct (string_dec (hash r) (hash k)) as [E|E].
      + unfold name_address in *. rewrite E. exact Nn.
      + rewrite (same_names s s') by (apply Hname; exact E). apply (rep_noname _ _ _ R).
        intros x Hx. apply in_app_or in Hx. destruct Hx as [Hx|[<-|[]]]; [auto|congruence].
    - pose proof (rep_ne _ _ _ R) as F. apply Forall_app in F. apply F.
    - pose proof (rep_len _ _ _ R) as L. rewrite app_length in L. cbn in L. lia.
  Qed.
  Lemma rep_removed_last ks k s s' : Rep (ks ++ [k]) s ->
    at_ s' I m (len8 (List.length ks)) ->
    names s' (key_address I (Z.of_nat (List.length ks))) = None ->
    names s' (name_address hash I k) = None ->
    only_at (add_names ks k) s s' -> Rep ks s'.
  Proof. intros. eapply rep_removed_last_on; eauto. Qed.

  Definition swap_names (ks : list string) (k z : string) (i : nat) (a : string) : Prop :=
    a = I \/ a = key_address I (Z.of_nat (List.length ks)) \/ a = name_address hash I k \/
    a = key_address I (Z.of_nat i) \/ a = name_address hash I z.

  Lemma rep_swapped_on ks z k i s s' : Rep (ks ++ [z]) s -> nth_error ks i = Some k ->
    at_ s' I m (len8 (List.length ks)) ->
    names s' (key_address I (Z.of_nat (List.length ks))) = None ->
    names s' (name_address hash I k) = None ->
    content s' (key_address I (Z.of_nat i)) = Some z ->
    content s' (name_address hash I z) = Some (len8 i) ->
    (forall a, rep_names a -> ~ swap_names ks k z i a -> same_at s s' a) -> Rep (put_in_place k z ks) s'.
  Proof.
    intros R Hi Am Nk Nn Ak An O.
    pose proof (rep_nodup _ _ _ R) as Hd. apply nodup_snoc in Hd. destruct Hd as [Hd Hin].
    assert (Hh : forall a b x y, nth_error (ks ++ [z]) a = Some x -> nth_error (ks ++ [z]) b = Some y -> a <> b -> hash x <> hash y)
      by (intros; eapply rep_nth_hash; eauto).
    assert (Hz : nth_error (ks ++ [z]) (List.length ks) = Some z) by (rewrite nth_error_app2, Nat.sub_diag; [reflexivity|lia]).
    assert (Hil : i < List.length ks) by (apply nth_error_Some; congruence).
    assert (Hkey : forall j, j <> Z.of_nat (List.length ks) -> j <> Z.of_nat i -> same_at s s' (key_address I j)).
    { intros j Hj Hj'. apply O; [unfold rep_names; eauto|]. intros [E|[E|[E|[E|E]]]]; revert E; adn hash I; try tauto. }
    assert (Hname : forall r, hash r <> hash k -> hash r <> hash z -> same_at s s' (name_address hash I r)).
    { intros r Hr Hr'. apply O; [unfold rep_names; eauto|]. intros [E|[E|[E|[E|E]]]]; revert E; adn hash I; try tauto. }
    assert (Hall : forall P : string -> Prop, Forall P (ks ++ [z]) -> Forall P (put_in_place k z ks)).
    { intros P F. rewrite Forall_forall in *. intros x Hx. apply put_in in Hx. apply F, in_or_app. destruct Hx as [->|Hx]; cbn; auto. }
    constructor.
    - rewrite put_length. exact Am.
    - intros j x Hj. rewrite (put_nth k z ks i) in Hj by assumption. destruct (Nat.eqb_spec j i) as [->|Hji]; [congruence|].
      assert (j < List.length ks) by (apply nth_error_Some; congruence).
      rewrite (same_content s s') by (apply Hkey; lia). apply (rep_key _ _ _ R). now apply nth_app_l.
    - intros j Hj. rewrite put_length in Hj. destruct (Z.eq_dec j (Z.of_nat (List.length ks))) as [->|Hj']; [exact Nk|].
      rewrite (same_names s s') by (apply Hkey; lia). apply (rep_nokey _ _ _ R). rewrite app_length. cbn. lia.
    - intros j x Hj. rewrite (put_nth k z ks i) in Hj by assumption. destruct (Nat.eqb_spec j i) as [->|Hji]; [congruence|].
      assert (j < List.length ks) by (apply nth_error_Some; congruence).
      rewrite (same_content s s'); [apply (rep_name _ _ _ R); now apply nth_app_l|].
      apply Hname; [eapply (Hh j i)|eapply (Hh j (List.length ks))]; eauto using nth_app_l; lia.
    - intros r Hr. destruct (string_dec (hash r) (hash k)) as [E|E].
      + unfold name_address in *. rewrite E. exact Nn.
      + destruct (string_dec (hash r) (hash z)) as [E'|E'].
        * exfalso. apply (Hr z); [|congruence]. apply nth_error_In with i. rewrite (put_nth k z ks i) by assumption. now rewrite Nat.eqb_refl.
        * rewrite (same_names s s') by (apply Hname; assumption). apply (rep_noname _ _ _ R). intros x Hx.
          apply In_nth_error in Hx. destruct Hx as [j Hj]. apply nth_snoc in Hj. destruct Hj as [[Hl Hj]|[-> ->]]; [|congruence].
          destruct (Nat.eq_dec j i) as [->|Hji]; [congruence|].
          apply Hr. apply nth_error_In with j. rewrite (put_nth k z ks i) by assumption. rewrite (proj2 (Nat.eqb_neq j i) Hji). exact Hj.
    - eapply put_nodup; eauto.
    - apply Hall. apply R.
    - apply Hall. apply R.
    - lia.
    - rewrite put_length. pose proof (rep_len _ _ _ R) as L. rewrite app_length in L. cbn in L. lia.
  Qed.
  Lemma rep_swapped ks z k i s s' : Rep (ks ++ [z]) s -> nth_error ks i = Some k ->
    at_ s' I m (len8 (List.length ks)) ->
    names s' (key_address I (Z.of_nat (List.length ks))) = None ->
    names s' (name_address hash I k) = None ->
    content s' (key_address I (Z.of_nat i)) = Some z ->
    content s' (name_address hash I z) = Some (len8 i) ->
    only_at (swap_names ks k z i) s s' -> Rep (put_in_place k z ks) s'.
  Proof. intros. eapply rep_swapped_on; eauto. Qed.

  Lemma le8_ne n : le_digits 8 n <> "".
  Proof. apply le_ne. discriminate. Qed.

  Lemma del_last ks s k nl : wf s -> Rep (ks ++ [ktext k]) s -> kraw k = ktext k ->
    exists s', run (_delitem hash (mkIndex I H nl) k) s =
        (Some (Ok (Z.of_nat (List.length ks), Z.of_nat (S (List.length ks)))), s') /\
      wf s' /\ Rep ks s' /\ only_at (add_names ks (ktext k)) s s'.
  Proof.
    intros W R Hraw. unfold _delitem, check. rewrite Hraw.
    assert (Hz : nth_error (ks ++ [ktext k]) (List.length ks) = Some (ktext k))
      by (rewrite nth_error_app2, Nat.sub_diag; [reflexivity|lia]).
    rewrite (run_bind_ok _ _ _ _ _ (check_present _ _ s _ _ nl W R Hz)).
    rewrite (run_bind_ok _ _ _ _ _ (length_rep _ _ s nl R)). cbn [ix_mem ix_name].
    rewrite app_length. cbn [List.length]. rewrite Nat.add_1_r.
    replace (Z.of_nat (S (List.length ks)) - 1)%Z with (Z.of_nat (List.length ks)) by lia. rewrite Z.eqb_refl.
    assert (Hne : ktext k <> "") by (eapply rep_ne'; eauto; eapply nth_error_In; eauto).
    destruct (content_at _ _ _ (rep_key _ _ _ R _ _ Hz)) as [j Aj].
    destruct (delete_ok s _ j _ false W Aj Hne) as (s1 & R1 & W1 & N1 & O1).
    rewrite (run_bind_ok _ _ _ _ _ R1).
    destruct (content_at _ _ _ (rep_name _ _ _ R _ _ Hz)) as [j2 Aj2].
    assert (Aj2' : at_ s1 (name_address hash I (ktext k)) j2 (len8 (List.length ks))).
    { apply (at_same s); [exact Aj2|]. apply O1. adn hash I; try tauto. }
    destruct (delete_ok s1 _ j2 _ false W1 Aj2' (le8_ne _)) as (s2 & R2 & W2 & N2 & O2).
    rewrite (run_bind_ok _ _ _ _ _ R2).
    pose proof (rep_len _ _ _ R) as L. rewrite app_length in L. cbn in L.
    rewrite to_bytes_in by lia. cbn [of_res]. rewrite run_bind_ret.
    assert (Am : at_ s2 I m (len8 (S (List.length ks)))).
    { apply (at_same s1); [apply (at_same s)|apply O2; adn hash I; try tauto].
      - pose proof (rep_mem _ _ _ R) as A. rewrite app_length in A. cbn [List.length] in A. rewrite Nat.add_1_r in A. exact A.
      - apply O1. adn hash I; try tauto. }
    destruct (write_ok s2 _ m _ (len8 (List.length ks)) W2 Am) as (s3 & R3 & W3 & A3 & O3); [now rewrite !le_length|].
    rewrite (run_bind_ok _ _ _ _ _ R3). cbn [run]. exists s3. split; [reflexivity|]. split; [exact W3|].
    assert (O : only_at (add_names ks (ktext k)) s s3).
    { unfold add_names. intros a Ha. apply same_trans with s1; [apply O1; intros <-; tauto|].
      apply same_trans with s2; [apply O2; intros <-; tauto|apply O3; intros <-; tauto]. }
    split; [|exact O]. apply (rep_removed_last ks (ktext k) s); auto.
    - rewrite (same_names s2 s3), (same_names s1 s2); [exact N1| |]; [apply O2|apply O3]; adn hash I; try tauto.
    - rewrite (same_names s2 s3); [exact N2|]. apply O3. adn hash I; try tauto.
  Qed.

  Lemma del_swap ks s z k i nl : wf s -> Rep (ks ++ [z]) s -> nth_error ks i = Some (ktext k) -> kraw k = ktext k ->
    exists s', run (_delitem hash (mkIndex I H nl) k) s = (Some (Ok (Z.of_nat i, Z.of_nat (S (List.length ks)))), s') /\
      wf s' /\ Rep (put_in_place (ktext k) z ks) s' /\ only_at (swap_names ks (ktext k) z i) s s'.
  Proof.
    intros W R Hi Hraw. unfold _delitem, check. rewrite Hraw.
    assert (Hi' : nth_error (ks ++ [z]) i = Some (ktext k)) by now apply nth_app_l.
    assert (Hil : i < List.length ks) by (apply nth_error_Some; congruence).
    assert (Hz : nth_error (ks ++ [z]) (List.length ks) = Some z)
      by (rewrite nth_error_app2, Nat.sub_diag; [reflexivity|lia]).
    assert (Hkz : hash (ktext k) <> hash z) by (eapply (rep_nth_hash _ _ _ i (List.length ks)); eauto; lia).
    rewrite (run_bind_ok _ _ _ _ _ (check_present _ _ s _ _ nl W R Hi')).
    rewrite (run_bind_ok _ _ _ _ _ (length_rep _ _ s nl R)). cbn [ix_mem ix_name].
    rewrite app_length. cbn [List.length]. rewrite Nat.add_1_r.
    replace (Z.of_nat (S (List.length ks)) - 1)%Z with (Z.of_nat (List.length ks)) by lia.
    replace (Z.of_nat i =? Z.of_nat (List.length ks))%Z with false by (symmetry; apply Z.eqb_neq; lia).
    assert (Hne : z <> "") by (eapply rep_ne'; eauto; eapply nth_error_In; eauto).
    destruct (content_at _ _ _ (rep_key _ _ _ R _ _ Hz)) as [jz Az].
    rewrite run_bind.
    rewrite (run_bind_ok _ _ _ _ _ (attach_ok _ _ _ _ Az Hne)).
    rewrite (run_bind_ok _ _ _ _ _ (read_ok _ _ _ _ Az)).
    destruct (open_fresh s (key_address I (Z.of_nat i)) (String.length z) W) as (s1 & i1 & R1 & W1 & A1 & O1).
    { now apply length_ne. }
    { rewrite (rep_key _ _ _ R _ _ Hi'). assert (ktext k <> "") by (eapply rep_ne'; eauto; eapply nth_error_In; eauto). congruence. }
    rewrite (run_bind_ok _ _ _ _ _ R1).
    destruct (write_ok s1 _ i1 _ z W1 A1) as (s2 & R2 & W2 & A2 & O2); [now rewrite zeros_length|].
    rewrite (run_bind_ok _ _ _ _ _ R2).
    destruct (content_at _ _ _ (rep_name _ _ _ R _ _ Hz)) as [jn An].
    assert (An2 : at_ s2 (name_address hash I z) jn (len8 (List.length ks))).
    { apply (at_same s1); [apply (at_same s); [exact An|apply O1]|apply O2]; adn hash I; try tauto. }
    rewrite (run_bind_ok _ _ _ _ _ (attach_ok _ _ _ _ An2 (le8_ne _))).
    pose proof (rep_len _ _ _ R) as L. rewrite app_length in L. cbn in L.
    rewrite to_bytes_in by lia. cbn [of_res]. rewrite run_bind_ret.
    destruct (write_ok s2 _ jn _ (len8 i) W2 An2) as (s3 & R3 & W3 & A3 & O3); [now rewrite !le_length|].
    rewrite (run_bind_ok _ _ _ _ _ R3).
    destruct (unlink_ok s3 (key_address I (Z.of_nat (List.length ks))) jz W3) as (s4 & R4 & W4 & N4 & O4).
    { cut (at_ s3 (key_address I (Z.of_nat (List.length ks))) jz z); [intro X; apply X|].
      apply (at_same s2); [apply (at_same s1); [apply (at_same s); [exact Az|apply O1]|apply O2]|apply O3]; adn hash I; try tauto. }
    rewrite (R4 jz).
    destruct (content_at _ _ _ (rep_name _ _ _ R _ _ Hi')) as [jk Ak].
    assert (Ak4 : at_ s4 (name_address hash I (ktext k)) jk (len8 i)).
    { apply (at_same s3); [apply (at_same s2); [apply (at_same s1); [apply (at_same s); [exact Ak|apply O1]|apply O2]|apply O3]|apply O4];
        adn hash I; try tauto. congruence. }
    destruct (delete_ok s4 _ jk _ false W4 Ak4 (le8_ne _)) as (s5 & R5 & W5 & N5 & O5).
    rewrite (run_bind_ok _ _ _ _ _ R5).
    rewrite to_bytes_in by lia. cbn [of_res]. rewrite run_bind_ret.
    assert (Am : at_ s5 I m (len8 (S (List.length ks)))).
    { pose proof (rep_mem _ _ _ R) as A. rewrite app_length in A. cbn [List.length] in A. rewrite Nat.add_1_r in A.
      apply (at_same s4); [apply (at_same s3); [apply (at_same s2); [apply (at_same s1); [apply (at_same s); [exact A|apply O1]|apply O2]|apply O3]|apply O4]|apply O5];
        adn hash I; try tauto. }
    destruct (write_ok s5 _ m _ (len8 (List.length ks)) W5 Am) as (s6 & R6 & W6 & A6 & O6); [now rewrite !le_length|].
    rewrite (run_bind_ok _ _ _ _ _ R6). cbn [run]. exists s6. split; [reflexivity|]. split; [exact W6|].
    assert (O : only_at (swap_names ks (ktext k) z i) s s6).
    { unfold swap_names. intros a Ha. apply same_trans with s1; [apply O1; intros <-; tauto|].
      apply same_trans with s2; [apply O2; intros <-; tauto|]. apply same_trans with s3; [apply O3; intros <-; tauto|].
      apply same_trans with s4; [apply O4; intros <-; tauto|]. apply same_trans with s5; [apply O5; intros <-; tauto|apply O6; intros <-; tauto]. }
    split; [|exact O]. apply (rep_swapped ks z (ktext k) i s); auto.
    - rewrite (same_names s5 s6), (same_names s4 s5); [exact N4| |]; [apply O5|apply O6]; adn hash I; try tauto.
    - rewrite (same_names s5 s6); [exact N5|]. apply O6. adn hash I; try tauto.
    - apply (at_content s6 _ i1).
      apply (at_same s5); [apply (at_same s4); [apply (at_same s3); [apply (at_same s2); [exact A2|apply O3]|apply O4]|apply O5]|apply O6];
        adn hash I; try tauto.
    - apply (at_content s6 _ jn).
      apply (at_same s5); [apply (at_same s4); [apply (at_same s3); [exact A3|apply O4]|apply O5]|apply O6];
        adn hash I; try tauto.
  Qed.

  Lemma swap_names_rep ks k z i a : swap_names ks k z i a -> rep_names a.
  Proof. intros [->|[->|[->|[->| ->]]]]; unfold rep_names; eauto. Qed.
  Lemma add_names_rep ks k a : add_names ks k a -> rep_names a.
  Proof. intros [->|[->| ->]]; unfold rep_names; eauto. Qed.

  Lemma del_rep ks s k nl : wf s -> Rep ks s -> plain_key K k ->
    match position (ktext k) ks with
    | Some i => exists s', run (_delitem hash (mkIndex I H nl) k) s = (Some (Ok (i, Z.of_nat (List.length ks))), s') /\
        wf s' /\ Rep (swap_remove (ktext k) ks) s' /\ only_at rep_names s s'
    | None => run (_delitem hash (mkIndex I H nl) k) s = (Some (Exc KeyError), s)
    end.
  Proof.
    intros W R (Hne & Hraw & HK). destruct (position (ktext k) ks) as [i|] eqn:E.
    - apply position_some in E. destruct E as [Hi E].
      destruct (exists_last (l := ks)) as (l & z & El); [intros ->; cbn in Hi; lia|]. subst ks.
      destruct (nth_snoc _ _ _ _ E) as [[Hl Hn]|[Hl <-]].
      + destruct (del_swap l s z k _ nl W R Hn Hraw) as (s' & Rr & W' & R' & O'). exists s'.
        rewrite Rr. rewrite app_length. cbn [List.length]. rewrite Nat.add_1_r. rewrite Z2Nat.id by lia.
        split; [reflexivity|]. split; [exact W'|]. split; [|eapply only_sub; [exact O'|]; intros a; apply swap_names_rep].
        rewrite swap_other; [exact R'|]. intros ->. pose proof (rep_nodup _ _ _ R) as Hd. apply nodup_snoc in Hd.
        apply Hd. eapply nth_error_In; eauto.
      + destruct (del_last l s k nl W R Hraw) as (s' & Rr & W' & R' & O'). exists s'.
        rewrite Rr. rewrite app_length. cbn [List.length]. rewrite Nat.add_1_r.
        replace (Z.of_nat (List.length l)) with i by lia.
        split; [reflexivity|]. split; [exact W'|]. split; [|eapply only_sub; [exact O'|]; intros a; apply add_names_rep].
        rewrite swap_last. exact R'.
    - unfold _delitem, check. rewrite Hraw, run_bind, (check_rep (List.length ks) ks), E by assumption. reflexivity.
  Qed.

  Lemma add_rep ks s k ok nl : wf s -> Rep ks s -> plain_key K k ->
    (Z.of_nat (S (List.length ks)) < 256 ^ Z.of_nat 8)%Z ->
    let '(o, ks') := tags_step ks (IAdd k ok) in
    exists r s', o = OPos r /\ run (_add hash (mkIndex I H nl) k ok) s = (Some r, s') /\
        wf s' /\ Rep ks' s' /\ only_at rep_names s s'.
  Proof.
    intros W R P L. cbn [tags_step]. destruct (position (ktext k) ks) as [i|] eqn:E.
    - eexists _, s. split; [reflexivity|]. rewrite (add_old ks s k ok nl i) by assumption. auto using only_refl.
    - apply position_none in E. destruct (add_new ks s k ok nl W R P E L) as (s' & Rr & W' & R' & O').
      eexists _, s'. split; [reflexivity|]. rewrite Rr. split; [reflexivity|]. split; [exact W'|]. split; [exact R'|].
      eapply only_sub; [exact O'|]. apply add_names_rep.
  Qed.

  (** ** Histories *)

  Definition own (a : string) : Prop := rep_names a \/ lock_names I a.
  Lemma own_index a : own a <-> index_names hash I a.
  Proof. unfold own, rep_names, index_names. tauto. Qed.

  Lemma lock_frame {A} nl c s fuel (body : prog A) ks :
    wf s -> Rep ks s -> quiet I c s -> (c + 1 < 256 ^ 5)%Z -> fuel <> 0 ->
    exists s1, wf s1 /\ Rep ks s1 /\ forall r s2 ks2, run body s1 = (Some r, s2) -> wf s2 -> Rep ks2 s2 -> only_at rep_names s1 s2 ->
      exists s3 c3, run (with_lock nl fuel I body) s = (Some r, s3) /\ wf s3 /\ Rep ks2 s3 /\ quiet I c3 s3 /\
        (c <= c3 <= c + 1)%Z /\ only_at own s s3.
  Proof.
    intros W R Q Hc Hf. destruct nl.
    - exists s. split; [exact W|]. split; [exact R|]. intros r s2 ks2 Hr W2 R2 O2. exists s2, c.
      split; [exact Hr|]. split; [exact W2|]. split; [exact R2|]. split.
      { eapply quiet_same; eauto. intros a Ha. apply O2. now apply lock_not_rep. }
      split; [lia|]. eapply only_sub; [exact O2|]. unfold own; auto.
    - destruct (with_lock_run I c s fuel body W Q Hc Hf) as (s1 & W1 & O1 & Hk). exists s1. split; [exact W1|].
      split; [eapply rep_lock; eauto|]. intros r s2 ks2 Hr W2 R2 O2.
      destruct (Hk r s2 Hr W2) as (s3 & R3 & W3 & O3 & Q3).
      { intros a Ha. apply O2. now apply lock_not_rep. }
      exists s3, (c + 1)%Z. split; [exact R3|]. split; [exact W3|]. split; [eapply rep_lock; eauto|]. split; [exact Q3|].
      split; [lia|]. intros a Ha. apply same_trans with s1; [apply O1|apply same_trans with s2; [apply O2|apply O3]];
        intro; apply Ha; unfold own; auto.
  Qed.

  Lemma visit_rep ks s c v : wf s -> Rep ks s -> quiet I c s -> (c + 1 < 256 ^ 5)%Z -> plain_visit K v ->
    (Z.of_nat (S (List.length ks)) < 256 ^ Z.of_nat 8)%Z ->
    exists s' c', run (visit_prog hash I H v) s = (Some (Ok (fst (tags_step ks (v_op v)))), s') /\
      wf s' /\ Rep (snd (tags_step ks (v_op v))) s' /\ quiet I c' s' /\ (c <= c' <= c + 1)%Z /\ only_at own s s'.
  Proof.
    intros W R Q Hc [Hf Hp] L. unfold visit_prog. destruct v as [nl fuel o]. cbn [v_op v_nl v_fuel] in *.
    destruct o as [k ok|k|k|].
    - specialize (Hp k eq_refl). unfold tag_add. cbn [ix_no_lockout ix_name].
      destruct (lock_frame nl c s fuel (_add hash (mkIndex I H nl) k ok) ks W R Q Hc Hf) as (s1 & W1 & R1 & Hk).
      pose proof (add_rep ks s1 k ok nl W1 R1 Hp L) as HA. destruct (tags_step ks (IAdd k ok)) as [o ks'].
      destruct HA as (r & s2 & -> & Hr & W2 & R2 & O2). destruct (Hk r s2 ks' Hr W2 R2 O2) as (s3 & c3 & R3 & W3 & Rp & Q3 & Hcc & O3).
      exists s3, c3. rewrite run_ptry, R3. cbn [fst snd]. split; [destruct r; reflexivity|]. auto.
    - specialize (Hp k eq_refl). unfold tag_remove, tag_del_. cbn [ix_no_lockout ix_name].
      destruct (lock_frame nl c s fuel (_delitem hash (mkIndex I H nl) k) ks W R Q Hc Hf) as (s1 & W1 & R1 & Hk).
      pose proof (del_rep ks s1 k nl W1 R1 Hp) as HD. cbn [tags_step]. destruct (position (ktext k) ks) as [i|].
      + destruct HD as (s2 & Hr & W2 & R2 & O2). destruct (Hk _ _ _ Hr W2 R2 O2) as (s3 & c3 & R3 & W3 & Rp & Q3 & Hcc & O3).
        exists s3, c3. rewrite run_ptry, (run_bind_ok _ _ _ _ _ R3). cbn [run fst snd]. split; [reflexivity|]. auto.
      + destruct (Hk _ _ _ HD W1 R1 (only_refl _ _)) as (s3 & c3 & R3 & W3 & Rp & Q3 & Hcc & O3).
        exists s3, c3. rewrite run_ptry, (run_bind_exc _ _ _ _ _ R3). cbn [run fst snd]. split; [reflexivity|]. auto.
    - specialize (Hp k eq_refl). destruct Hp as (_ & Hraw & HK). exists s, c.
      unfold check. rewrite Hraw, run_bind, (check_rep (List.length ks) ks) by assumption. cbn [run fst snd tags_step].
      split; [reflexivity|]. split; [exact W|]. split; [exact R|]. split; [exact Q|]. split; [lia|apply only_refl].
    - exists s, c. rewrite run_bind, (update_rep ks) by assumption. cbn [run fst snd tags_step].
      split; [reflexivity|]. split; [exact W|]. split; [exact R|]. split; [exact Q|]. split; [lia|apply only_refl].
  Qed.

  Lemma put_le k z ks : List.length (swap_remove k (ks ++ [z])) <= S (List.length ks).
  Proof.
    destruct (string_dec z k) as [->|E]; [rewrite swap_last; lia|]. rewrite swap_other by assumption. rewrite put_length. lia.
  Qed.
  Lemma step_length ks o : List.length (snd (tags_step ks o)) <= S (List.length ks).
  Proof.
    destruct o as [k ok|k|k|]; cbn [tags_step]; try destruct (position (ktext k) ks) as [i|] eqn:E; cbn [snd]; try lia.
    - rewrite app_length. cbn. lia.
    - apply position_some in E. destruct (exists_last (l := ks)) as (l & z & ->); [intros ->; cbn in E; lia|].
      pose proof (put_le (ktext k) z l). rewrite app_length. cbn. lia.
  Qed.

  Lemma visits_rep h : forall ks s c, wf s -> Rep ks s -> quiet I c s -> (c + Z.of_nat (List.length h) < 256 ^ 5)%Z ->
    Forall (plain_visit K) h -> (Z.of_nat (List.length ks + List.length h) < 256 ^ Z.of_nat 8)%Z ->
    exists s' c', run (visits_prog hash I H h) s = (Some (Ok (fst (tags_run ks (map v_op h)))), s') /\
      wf s' /\ Rep (snd (tags_run ks (map v_op h))) s' /\ quiet I c' s' /\ (c <= c' <= c + Z.of_nat (List.length h))%Z /\ only_at own s s'.
  Proof.
    induction h as [|v h IH]; intros ks s c W R Q Hc F L.
    - exists s, c. cbn. split; [reflexivity|]. split; [exact W|]. split; [exact R|]. split; [exact Q|]. split; [lia|apply only_refl].
    - inversion F as [|? ? Hv Hh]; subst. cbn [visits_prog map tags_run List.length] in *.
      destruct (visit_rep ks s c v W R Q) as (s1 & c1 & R1 & W1 & Rp1 & Q1 & Hc1 & O1); [lia|exact Hv|lia|].
      pose proof (step_length ks (v_op v)) as Hl. destruct (tags_step ks (v_op v)) as [o ks1]. cbn [fst snd] in *.
      destruct (IH ks1 s1 c1 W1 Rp1 Q1) as (s2 & c2 & R2 & W2 & Rp2 & Q2 & Hc2 & O2); [lia|exact Hh|lia|].
      destruct (tags_run ks1 (map v_op h)) as [xs ks2]. cbn [fst snd] in *.
      exists s2, c2. rewrite (run_bind_ok _ _ _ _ _ R1), (run_bind_ok _ _ _ _ _ R2). cbn [run].
      split; [reflexivity|]. split; [exact W2|]. split; [exact Rp2|]. split; [exact Q2|]. split; [lia|].
      eapply only_trans; eauto.
  Qed.

  (** ** Making and attaching *)
  Lemma attach_rep n ks s nl : wf s -> RepN n ks s -> run (tag_index I false nl) s = (Some (Ok (mkIndex I H nl)), s).
  Proof.
    intros W R. unfold tag_index. rewrite run_bind. rewrite run_bind, exists_spec by assumption.
    rewrite (at_content _ _ _ _ (rep_mem _ _ _ R)). cbn [run negb].
    rewrite (run_bind_ok _ _ _ _ _ (attach_ok _ _ _ _ (rep_mem _ _ _ R) (le8_ne _))). reflexivity.
  Qed.
End Rep.

Lemma create_rep hash K I s nl : wf s -> vacant (index_names hash I) s ->
  exists s', run (tag_index I true nl) s = (Some (Ok (mkIndex I {| hname := I; hid := next s |} nl)), s') /\
    wf s' /\ RepN hash K I (next s) 0 [] s' /\ quiet I 0 s' /\ only_at (eq I) s s'.
Proof.
  intros W V. unfold tag_index. rewrite run_bind_ret.
  destruct (create_ok s I 8 W) as (s' & R & W' & A & O); [apply V; left; reflexivity|discriminate|].
  rewrite (run_bind_ok _ _ _ _ _ R). exists s'. split; [reflexivity|]. split; [exact W'|].
  assert (V' : forall a, index_names hash I a -> a <> I -> names s' a = None).
  { intros a Ha Hn. rewrite (same_names s s'); [auto|]. apply O. congruence. }
  split; [|split; [|exact O]].
  - constructor; cbn; try constructor.
    + apply A. + apply A.
    + intros i k Hi. destruct i; discriminate.
    + intros i _. apply V'; [right; left; eauto|adn hash I; try tauto].
    + intros i k Hi. destruct i; discriminate.
    + intros r _. apply V'; [right; right; left; eauto|adn hash I; try tauto].
  - split; [lia|]. split; [|split].
    + intro n. apply V'; [right; right; right; right; left; eauto|adn hash I; try tauto].
    + intro n. apply V'; [right; right; right; right; right; eauto|adn hash I; try tauto].
    + left. split; [|reflexivity]. apply V'; [right; right; right; left; reflexivity|adn hash I; try tauto].
Qed.

(** A created index, used by any handles, one operation at a time. *)
Lemma index_history hash K I s nl h : collision_free hash K -> wf s -> vacant (index_names hash I) s ->
  Forall (plain_visit K) h -> (Z.of_nat (List.length h) < 256 ^ 5)%Z ->
  exists s', run (let! x := tag_index I true nl in visits_prog hash I (ix_mem x) h) s =
      (Some (Ok (fst (tags_run [] (map v_op h)))), s') /\
    wf s' /\ only_at (index_names hash I) s s' /\
    (forall nl', run (tag_index I false nl') s' = (Some (Ok (mkIndex I {| hname := I; hid := next s |} nl')), s')).
Proof.
  intros HK W V F L. destruct (create_rep hash K I s nl W V) as (s1 & R1 & W1 & Rp1 & Q1 & O1).
  destruct (visits_rep hash K HK I (next s) h [] s1 0 W1 Rp1 Q1) as (s2 & c2 & R2 & W2 & Rp2 & Q2 & _ & O2).
  - lia.
  - exact F.
  - cbn [List.length plus]. rewrite pow8. change (256 ^ 5)%Z with 1099511627776%Z in L. lia.
  - exists s2. rewrite (run_bind_ok _ _ _ _ _ R1). cbn [ix_mem]. rewrite R2. split; [reflexivity|]. split; [exact W2|].
    split.
    + intros a Ha. apply same_trans with s1; [apply O1; intros <-; apply Ha; left; reflexivity|].
      apply O2. intro Ho. apply Ha. now apply own_index.
    + intro nl'. eapply attach_rep; eauto.
Qed.
