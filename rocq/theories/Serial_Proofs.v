(** Guarded operations happen one after another. *)
From Verif Require Export Serial_Body Conc_Lemmas Live_Lemmas.

(** ** What a turn does to the store *)
Section Frame.
  Variable I : string.
  Variable fuel : nat.
  Variable ch : N.
  Variable k0 : Z.
  Notation Inv := (Conc_Mutex.Inv I fuel ch k0).

  Lemma Inv_wf K c : Inv K c -> wf (shared c).
  Proof. intros (t & g & e & (W & _) & _). exact W. Qed.
  Lemma Inv_leaving K c i p r : Inv K c -> procs c i = Leaving p r -> r = Ok tt.
  Proof. intros (t & g & e & _ & _ & _ & HP & _) Hi. specialize (HP i). rewrite Hi in HP. apply HP. Qed.

  Lemma go_shared i c : shared (go fuel i c) = match stage_step fuel (procs c i) (shared c) with Some (_, s, _) => s | None => shared c end.
  Proof. unfold go. destruct (stage_step fuel (procs c i) (shared c)) as [[[st s] o]|]; reflexivity. Qed.

  (** A turn outside the guarded section touches the lock's blocks only. *)
  Lemma go_lock K c i : Inv K c -> (k0 + Z.of_nat K < 256 ^ 5)%Z -> only_at (lock_names I) (shared c) (shared (go fuel i c)).
  Proof.
    intros (t & g & en & HS & HG & HK & HP & _) Hb. rewrite go_shared. assert (Hroom : (g_m g < 256 ^ 5)%Z) by (unfold room in HK; destruct en; lia).
    specialize (HP i). destruct HS as (W & A & LL & MM & OO & PP). destruct HG as (G0 & G1 & G2 & G3 & G4 & G5).
    destruct (procs c i) as [p|l|p|p|l|p r|r]; cbn [pinv] in HP.
    + destruct HP as [_ HP]. destruct p as [l|e| |B o k]; try apply only_refl. cbn [stage_step prog_step].
      unfold init_ok in HP. cbn [wpt] in HP. specialize (HP (shared c) (fun x => x)). destruct (step o (shared c)) as [r s2].
      destruct HP as [E _]. unfold nothing in E. subst s2. apply only_refl.
    + apply only_refl.
    + destruct HP as (_ & _ & (cc & _ & HE) & _). destruct p as [[l [u|x]]|x| |B o k]; try apply only_refl.
      cbn [stage_step prog_step]. unfold Conc_Proofs.enter_ok in HE. cbn [wpt] in HE. specialize (HE (shared c) (env_refl I ch _ _ W)).
      destruct (step o (shared c)) as [r s2]. destruct HE as [[_ O2] _]. eapply only_sub; [exact O2|]. intros a [->| ->]; [apply ln_marker|apply ln_lock].
    + destruct HP as (n & f & _ & _ & _ & _ & _ & HP & _). destruct p as [[l [u|e]]|e| |B o k]; try apply only_refl; cbn [stage_step prog_step].
      unfold wait_ok in HP. cbn [wp] in HP. specialize (HP (shared c) (Rw_refl I n f (shared c))). destruct (step o (shared c)) as [r s2].
      destruct HP as [E _]. unfold nothing in E. subst s2. apply only_refl.
    + apply only_refl.
    + destruct HP as [-> [(l & f & n & On & Hl & HC)|[_ (l & ->)]]]; [|apply only_refl].
      destruct HC as [(-> & -> & Ev & Ew)|[(-> & -> & Ev & Ew)|(-> & Hlt)]].
      * assert (Hh : (g_h g <= g_m g)%Z) by (apply G3, Ev).
        destruct (rel_step1 I ch (g_h g) f l (shared c) _ Hl W A) as (s' & Es & W' & A' & O'); [apply le_length|lia|].
        cbn [stage_step]. destruct (release l) eqn:E; cbn [prog_step] in Es; try discriminate. cbn [prog_step]. rewrite Es.
        eapply only_sub; [exact O'|]. intros a <-. apply ln_count.
      * assert (Hh : (g_h g <= g_m g)%Z) by (apply G3, Ev).
        destruct (rel_step2 I ch (g_h g) f l (shared c) Hl W) as (s' & Es & W' & A' & O'); [apply LL; [apply settled_in|]; lia|].
        cbn [stage_step]. destruct (rel2 l) eqn:E; cbn [prog_step] in Es; try discriminate. cbn [prog_step]. rewrite Es.
        eapply only_sub; [exact O'|]. intros a <-. apply ln_lock.
      * destruct (rel_step3 I ch n f l (shared c) Hl W) as (s' & Es & W' & A' & O'); [eapply PP; eauto|].
        cbn [stage_step]. destruct (rel3 l) eqn:E; cbn [prog_step] in Es; try discriminate. cbn [prog_step]. rewrite Es.
        eapply only_sub; [exact O'|]. intros a <-. apply ln_marker.
    + apply only_refl.
  Qed.
End Frame.

(** ** Programs that come to an end *)
Fixpoint whole {A} (p : prog A) : Prop :=
  match p with Ret _ | Raise _ => True | Stuck => False | Do _ k => forall r, whole (k r) end.
Lemma whole_ptry {A B} (p : prog A) (k : A -> prog B) h : whole p -> (forall a, whole (k a)) -> (forall e, whole (h e)) -> whole (ptry p k h).
Proof. intros H HK HH. induction p as [a|e| |C o f IH]; cbn in *; auto. Qed.
Lemma whole_bind {A B} (p : prog A) (k : A -> prog B) : whole p -> (forall a, whole (k a)) -> whole (pbind p k).
Proof. intros H HK. apply whole_ptry; cbn; auto. Qed.
Lemma whole_res {A} (r : res A) : whole (of_res r).
Proof. destruct r; exact Logic.I. Qed.
Lemma whole_prim {A} (o : op A) : whole (prim o).
Proof. intro r. apply whole_res. Qed.
Ltac whole_tac := repeat first
  [ exact Logic.I | solve [auto] | match goal with |- whole (prim _) => apply whole_prim | |- whole (of_res _) => apply whole_res end
  | apply whole_bind; [|intro] | apply whole_ptry; [|intro|intro]
  | match goal with |- whole (match ?x with _ => _ end) => destruct x end ].
Lemma whole_guarded hash x o : whole (guarded hash x o).
Proof.
  assert (Hc : forall a n, whole (shm_create a n)) by (intros a [|n]; unfold shm_create; whole_tac).
  assert (Ha : forall a, whole (shm_attach a)) by (intro a; unfold shm_attach; whole_tac).
  assert (Hr : forall h, whole (shm_read h)) by (intro h; unfold shm_read; whole_tac).
  assert (Hw : forall h b, whole (shm_write h b)) by (intros h b; unfold shm_write; whole_tac).
  assert (Hu : forall h, whole (shm_unlink h)) by (intro h; unfold shm_unlink; whole_tac).
  assert (Ho : forall a n c w, whole (open_block a n c w)) by (intros; unfold open_block; whole_tac; auto).
  assert (Hx : forall a, whole (exists_block a)) by (intros; unfold exists_block; whole_tac; auto).
  assert (Hd : forall a m, whole (delete_block a m)) by (intros; unfold delete_block; whole_tac; auto).
  assert (Hk : forall k, whole (check hash x k)) by (intro k; unfold check, check_raw; whole_tac; auto).
  assert (Hl : whole (update_length x)) by (unfold update_length; whole_tac; auto).
  assert (Hf : forall n i, whole (keys_from x n i)).
  { induction n as [|n IH]; intro i; cbn [keys_from]; whole_tac; auto. }
  destruct o as [k ok|k|k|]; cbn [guarded].
  - unfold _add. whole_tac; auto.
  - unfold _delitem. whole_tac; auto.
  - whole_tac.
  - unfold update. whole_tac; auto.
Qed.

(** ** Coming to the guarded section *)
Definition past (st : stage) : Prop := match st with Inside _ | Leaving _ _ | Finished _ => True | _ => False end.
Lemma stage_enters fuel st s st' s' o : stage_step fuel st s = Some (st', s', o) ->
  match st with
  | Inside _ => st' = Leaving (match st with Inside l => release l | _ => Stuck end) (Ok tt) /\ s' = s /\ o = None
  | Leaving _ _ | Finished _ => o = None /\ past st' /\ forall l, st' <> Inside l
  | _ => (exists l, st' = Inside l /\ o = Some (l_number l)) \/
         (o = None /\ (~ past st' \/ (exists e, st' = Finished (Exc e)) \/ exists p e, st' = Leaving p (Exc e)))
  end.
Proof.
  destruct st as [p|l|p|p|l|p r|r]; cbn [stage_step].
  - destruct p as [l|e| |B o' k]; cbn [prog_step]; try discriminate.
    + intros [= <- <- <-]. right. split; [reflexivity|]. left. cbn. auto.
    + intros [= <- <- <-]. right. split; [reflexivity|]. right. left. eauto.
    + destruct (step o' s) as [r s2]. intros [= <- <- <-]. right. split; [reflexivity|]. left. cbn. auto.
  - intros [= <- <- <-]. right. split; [reflexivity|]. left. cbn. auto.
  - destruct p as [[l [u|e]]|e| |B o' k]; cbn [prog_step]; try discriminate.
    + intros [= <- <- <-]. right. split; [reflexivity|]. left. cbn. auto.
    + destruct (is_Exception e); intros [= <- <- <-]; right; (split; [reflexivity|]); right; eauto.
    + intros [= <- <- <-]. right. split; [reflexivity|]. right. left. eauto.
    + destruct (step o' s) as [r s2]. intros [= <- <- <-]. right. split; [reflexivity|]. left. cbn. auto.
  - destruct p as [[l [u|e]]|e| |B o' k]; cbn [prog_step]; try discriminate.
    + intros [= <- <- <-]. left. eauto.
    + destruct (is_Exception e); intros [= <- <- <-]; right; (split; [reflexivity|]); right; eauto.
    + intros [= <- <- <-]. right. split; [reflexivity|]. right. left. eauto.
    + destruct (step o' s) as [r s2]. intros [= <- <- <-]. right. split; [reflexivity|]. left. cbn. auto.
  - intros [= <- <- <-]. auto.
  - destruct p as [l|e| |B o' k]; cbn [prog_step]; try discriminate; try (destruct (step o' s) as [r' s2]);
      intros [= <- <- <-]; (split; [reflexivity|]); (split; [exact Logic.I|discriminate]).
  - discriminate.
Qed.

Lemma go_stage fuel i c : procs (go fuel i c) i = match stage_step fuel (procs c i) (shared c) with Some (st, _, _) => st | None => procs c i end.
Proof. unfold go. destruct (stage_step fuel (procs c i) (shared c)) as [[[st s] o]|]; cbn [procs]; [apply set_same|reflexivity]. Qed.
Lemma go_served fuel i c : served (go fuel i c) =
  match stage_step fuel (procs c i) (shared c) with Some (_, _, Some n) => served c ++ [n] | _ => served c end.
Proof. unfold go. destruct (stage_step fuel (procs c i) (shared c)) as [[[st s] [n|]]|]; reflexivity. Qed.
Lemma todo_same f i p : set_todo f i p i = p. Proof. unfold set_todo. now rewrite Nat.eqb_refl. Qed.
Lemma todo_other f i p j : j <> i -> set_todo f i p j = f j. Proof. intro H. unfold set_todo. now rewrite (proj2 (Nat.eqb_neq j i) H). Qed.
Lemma keys_by_snoc ks ops l i : keys_by ks ops (l ++ [i]) = snd (tags_step (keys_by ks ops l) (ops i)).
Proof.
  unfold keys_by. rewrite map_app, tags_run_app. cbn [map tags_run]. destruct (tags_run ks (map ops l)) as [xs ks1]. cbn [fst snd].
  destruct (tags_step ks1 (ops i)) as [x ks2]. reflexivity.
Qed.
Lemma keys_by_length ks ops l : List.length (keys_by ks ops l) <= List.length ks + List.length l.
Proof.
  induction l as [|i l IH] using rev_ind; [cbn; lia|]. rewrite keys_by_snoc, app_length. cbn [List.length].
  pose proof (step_length (keys_by ks ops l) (ops i)). lia.
Qed.
Lemma snoc_split {A} (l : list A) x l1 y l2 : l ++ [x] = l1 ++ y :: l2 -> (l2 = [] /\ l1 = l /\ y = x) \/ exists l3, l2 = l3 ++ [x] /\ l = l1 ++ y :: l3.
Proof.
  intro E. destruct (exists_last (l := y :: l2)) as (q & z & Eq); [discriminate|]. rewrite Eq, app_assoc in E. apply app_inj_tail in E. destruct E as [E ->].
  destruct q as [|y' q]; cbn in Eq; injection Eq as -> ->.
  - left. rewrite app_nil_r in E. auto.
  - right. exists q. split; [reflexivity|exact E].
Qed.

Section Serial.
  Variable hash : bytes -> string.
  Variable K : string -> Prop.
  Hypothesis hash_inj : collision_free hash K.
  Variable I : string.
  Variable m : N.
  Notation H := {| hname := I; hid := m |}.
  Notation RepN := (RepN hash K I m).
  Notation Rep ks s := (RepN (List.length ks) ks s).
  Notation N := (rep_names hash I).
  Notation w := (wp (others N) (mine N)).
  Variable fuel : nat.
  Variable ch : BinNums.N.
  Variable k0 : Z.
  Variable ops : nat -> iop.
  Hypothesis ops_plain : forall i k, op_key (ops i) = Some k -> plain_key K k.
  Variable ks0 : list string.
  Notation keys l := (keys_by ks0 ops l).

  Definition due (l : list nat) (i : nat) (out : iout) (s : store) : Prop :=
    out = fst (tags_step (keys l) (ops i)) /\ wf s /\ Rep (keys (l ++ [i])) s.
  Record SI (n : nat) (g : gconfig) : Prop := mkSI {
    si_lock : Conc_Mutex.Inv I fuel ch k0 n (users g);
    si_nodup : NoDup (order g);
    si_past : forall i, In i (order g) <-> past (procs (users g) i);
    si_todo : forall i, ~ In i (order g) -> todo g i = guarded hash (mkIndex I H false) (ops i);
    si_done : forall l i r, order g = l ++ i :: r -> ~ inside (users g) i ->
      outcome (todo g i) = Some (Ok (fst (tags_step (keys l) (ops i))));
    si_free : (forall i, ~ inside (users g) i) -> Rep (keys (order g)) (shared (users g));
    si_held : forall i, inside (users g) i -> exists l, order g = l ++ [i] /\
      w (todo g i) (due l i) (fun _ _ => False) (shared (users g));
    si_served : List.length (served (users g)) = List.length (order g);
    si_whole : forall i, whole (todo g i) }.

  Lemma rep_others n ks s s' : RepN n ks s -> others N s s' -> RepN n ks s'.
  Proof. intros R [_ Hs]. eapply rep_same; eauto. Qed.
  Lemma lock_others s s' : wf s' -> only_at (lock_names I) s s' -> others N s s'.
  Proof. intros W O. split; [exact W|]. intros a Ha. apply O. intro L. exact (lock_not_rep hash I a L Ha). Qed.
  Lemma due_others l i out s s' : due l i out s -> others N s s' -> due l i out s'.
  Proof. intros (E & W & R) Ho. split; [exact E|]. split; [apply Ho|eapply rep_others; eauto]. Qed.
  Lemma held_others p l i s s' : w p (due l i) (fun _ _ => False) s -> others N s s' -> w p (due l i) (fun _ _ => False) s'.
  Proof. apply wp_stable; [apply others_trans|apply due_others|auto]. Qed.

  (** Anything that only the blocks of others feel. *)
  Lemma SI_env n g s : SI n g -> wf s -> (forall a, index_names hash I a -> same_at (shared (users g)) s a) ->
    SI n (mkG (mkConfig (procs (users g)) s (served (users g))) (todo g) (order g)).
  Proof.
    intros [H1 H2 H3 H4 H5 H6 H7 H8 H9] W Hs.
    assert (Ho : others N (shared (users g)) s).
    { split; [exact W|]. intros a Ha. apply Hs. unfold index_names. unfold rep_names in Ha. tauto. }
    constructor; cbn [users todo order shared procs served]; auto.
    - apply Inv_env; auto. intros a Ha; apply Hs; right; right; right; exact Ha.
    - intro Hn. eapply rep_others; [apply H6, Hn|exact Ho].
    - intros i Hi. destruct (H7 i Hi) as (l & E & Hw). exists l. split; [exact E|]. eapply held_others; eauto.
  Qed.

  Lemma SI_turn n g i : SI n g -> orderly I (users g) i -> (k0 + Z.of_nat n < 256 ^ 5)%Z ->
    (Z.of_nat (List.length ks0) < 256 ^ 5)%Z -> SI (asks (users g) i + n) (guarded_turn fuel i g).
  Proof.
    intros [H1 H2 H3 H4 H5 H6 H7 H8 H9] HU Hb Hlen. unfold guarded_turn.
    assert (He : Conc_Mutex.Inv I fuel ch k0 (asks (users g) i + n) (go fuel i (users g))) by (apply Inv_go; [exact H1|lia|exact HU]).
    pose proof (Inv_wf I fuel ch k0 _ _ He) as Wg.
    pose proof (Inv_short I fuel ch k0 _ _ H1) as Hsh. pose proof (Inv_low I fuel ch k0 _ _ H1) as Hlow.
    pose proof (go_lock I fuel ch k0 n (users g) i H1 Hb) as Ol.
    assert (Ho : others N (shared (users g)) (shared (go fuel i (users g)))) by (now apply lock_others).
    assert (Outer : ~ inside (users g) i ->
      (exists l', procs (go fuel i (users g)) i = Inside l' /\ List.length (served (go fuel i (users g))) = S (List.length (served (users g))) /\ ~ past (procs (users g) i)) \/
      ((forall l', procs (go fuel i (users g)) i <> Inside l') /\ List.length (served (go fuel i (users g))) = List.length (served (users g)) /\
        (past (procs (go fuel i (users g)) i) <-> past (procs (users g) i))) ->
      SI (asks (users g) i + n) (mkG (go fuel i (users g)) (todo g) (match procs (go fuel i (users g)) i with Inside _ => order g ++ [i] | _ => order g end))).
    { set (c := go fuel i (users g)) in *. intros Hni [(l' & El & Esv & Hp)|(Hn & Esv & Hp)].
      - rewrite El. assert (Hic : inside c i) by (exists l'; exact El).
        assert (Hno : forall j, ~ inside (users g) j).
        { intros j [lj Hj]. assert (Hji : j <> i) by (intros ->; apply Hni; exists lj; exact Hj).
          apply Hji, (Inv_mutex I fuel ch k0 (asks (users g) i + n) c); [exact He|exists lj; unfold c; now rewrite go_other|exact Hic]. }
        assert (Hin : ~ In i (order g)) by (rewrite H3; exact Hp).
        constructor; cbn [users todo order]; auto.
        + apply nodup_snoc. auto.
        + intro j. rewrite in_app_iff. cbn [In]. destruct (Nat.eq_dec j i) as [->|Hji]; [rewrite El; cbn; tauto|].
          unfold c. rewrite go_other by exact Hji. rewrite <- H3. intuition congruence.
        + intros j Hj. apply H4. intro Hx. apply Hj, in_or_app. auto.
        + intros l1 j r E Hj. apply snoc_split in E. destruct E as [(_ & _ & ->)|(l3 & _ & E)]; [destruct Hj; exact Hic|].
          apply (H5 l1 j l3 E). apply Hno.
        + intro Hall. destruct (Hall i). exact Hic.
        + intros j Hj. assert (j = i) by (apply (Inv_mutex I fuel ch k0 (asks (users g) i + n) c); [exact He|exact Hj|exact Hic]). subst j. exists (order g). split; [reflexivity|].
          rewrite (H4 i Hin). pose proof (keys_by_length ks0 ops (order g)) as Hkl.
          pose proof (w_guarded hash K hash_inj I m (keys (order g)) (shared c) (ops i) false Wg) as Hw.
          eapply wp_mono; [| |apply Hw].
          * intros out s' (E & W & R). split; [exact E|]. split; [exact W|]. rewrite keys_by_snoc. exact R.
          * auto.
          * eapply rep_others; [apply H6, Hno|exact Ho].
          * intros k Hk. eapply ops_plain; eauto.
          * rewrite pow8. change (256 ^ 5)%Z with 1099511627776%Z in *. lia.
        + rewrite app_length. cbn [List.length]. lia.
      - replace (match procs c i with Inside _ => order g ++ [i] | _ => order g end) with (order g).
        2:{ destruct (procs c i) eqn:Ec; try reflexivity. destruct (Hn _ eq_refl). }
        assert (Hsame : forall j, inside c j <-> inside (users g) j).
        { intro j. destruct (Nat.eq_dec j i) as [->|Hji]; [|unfold inside, c; now rewrite go_other].
          split; [intros [l' Hl]; destruct (Hn _ Hl)|intro Hx; destruct (Hni Hx)]. }
        constructor; cbn [users todo order]; auto.
        + intro j. rewrite H3. destruct (Nat.eq_dec j i) as [->|Hji]; [symmetry; exact Hp|unfold c; now rewrite go_other].
        + intros l1 j r E Hj. apply (H5 l1 j r E). rewrite <- Hsame. exact Hj.
        + intro Hall. eapply rep_others; [apply H6|exact Ho]. intro j. rewrite <- Hsame. apply Hall.
        + intros j Hj. rewrite Hsame in Hj. destruct (H7 j Hj) as (q & Eq & Hw). exists q. split; [exact Eq|]. eapply held_others; eauto.
        + rewrite Esv. exact H8. }
    destruct (procs (users g) i) as [p|l|p|p|l|p r|r] eqn:Ei.
    5:{ (* in the guarded section *)
      assert (Hi : inside (users g) i) by (exists l; exact Ei).
      destruct (H7 i Hi) as (q & Eq & Hw).
      destruct (todo g i) as [out|e| |B o k] eqn:Et; cbn [prog_step outcome].
      - (* over *)
        cbn [wp] in Hw. destruct Hw as (Eo & W & R).
        assert (Es : stage_step fuel (procs (users g) i) (shared (users g)) = Some (Leaving (release l) (Ok tt), shared (users g), None)) by (rewrite Ei; reflexivity).
        assert (Hout : forall j, ~ inside (go fuel i (users g)) j).
        { intros j [l' Hj]. destruct (Nat.eq_dec j i) as [->|Hji].
          - rewrite go_stage, Es in Hj. discriminate.
          - rewrite go_other in Hj by exact Hji. apply Hji, (Inv_mutex I fuel ch k0 n (users g)); [exact H1|exists l'; exact Hj|exact Hi]. }
        constructor; cbn [users todo order]; auto.
        + intro j. rewrite H3. destruct (Nat.eq_dec j i) as [->|Hji]; [rewrite go_stage, Es, Ei; cbn; tauto|now rewrite go_other].
        + intros l1 j r E _. destruct (Nat.eq_dec j i) as [->|Hji].
          * rewrite Et. cbn [outcome]. rewrite Eo. do 4 f_equal. rewrite Eq in E. apply snoc_split in E. destruct E as [(_ & -> & _)|(l3 & _ & E)]; [reflexivity|].
            exfalso. rewrite Eq in H2. apply nodup_snoc in H2. apply H2. rewrite E. apply in_or_app. right. now left.
          * apply (H5 l1 j r E). intro Hj. apply Hji, (Inv_mutex I fuel ch k0 n (users g)); auto.
        + intros _. rewrite go_shared, Es. rewrite Eq. exact R.
        + intros j Hj. destruct (Hout j Hj).
        + rewrite go_served, Es. exact H8.
      - destruct Hw.
      - specialize (H9 i). rewrite Et in H9. destruct H9.
      - (* one operation *)
        cbn [wp] in Hw. assert (W : wf (shared (users g))) by (eapply Inv_wf; eauto).
        specialize (Hw (shared (users g)) (conj W (fun a _ => same_refl _ a))).
        destruct (step o (shared (users g))) as [r s2] eqn:Es. destruct Hw as [[W2 O2] Hw].
        constructor; cbn [users todo order shared procs served]; auto.
        + assert (Hl : forall a, lock_names I a -> same_at (shared (users g)) s2 a) by (intros a Ha; apply O2; now apply lock_not_rep).
          apply (Inv_more I fuel ch k0 n); [|lia]. apply Inv_env; auto.
        + intros j Hj. rewrite todo_other; [apply H4, Hj|]. intros ->. apply Hj, H3. rewrite Ei. exact Logic.I.
        + intros l1 j r' E Hj. destruct (Nat.eq_dec j i) as [->|Hji]; [destruct Hj; exact Hi|]. rewrite todo_other by exact Hji. apply (H5 l1 j r' E Hj).
        + intro Hn. destruct (Hn i). exact Hi.
        + intros j Hj. assert (j = i) by (apply (Inv_mutex I fuel ch k0 n (users g)); [exact H1|exact Hj|exact Hi]). subst j. exists q. split; [exact Eq|]. rewrite todo_same. exact Hw.
        + intro j. destruct (Nat.eq_dec j i) as [->|Hji]; [rewrite todo_same|rewrite todo_other by exact Hji; apply H9].
          specialize (H9 i). rewrite Et in H9. exact (H9 r). }
    all: apply Outer; [intros [lx Hx]; congruence|].
    all: rewrite go_stage, go_served; destruct (stage_step fuel (procs (users g) i) (shared (users g))) as [[[st' s'] o]|] eqn:Es;
       [|rewrite Ei; right; split; [discriminate|split; [reflexivity|tauto]]].
    all: pose proof (stage_enters _ _ _ _ _ _ Es) as Hs; rewrite Ei in Hs.
    all: assert (Est : procs (go fuel i (users g)) i = st') by (rewrite go_stage, Es; reflexivity).
    all: try solve [destruct Hs as [(l' & -> & ->)|(-> & [Hp|[(e & ->)|(p' & e & ->)]])];
       [left; exists l'; (split; [reflexivity|]); (split; [rewrite app_length; cbn; lia|cbn; tauto])
       |right; (split; [intros l' ->; apply Hp; exact Logic.I|]); (split; [reflexivity|cbn; tauto])
       |exfalso; pose proof (Inv_finished I fuel ch k0 _ _ _ _ He Est); discriminate
       |exfalso; pose proof (Inv_leaving I fuel ch k0 _ _ _ _ _ He Est); discriminate]].
    all: destruct Hs as (-> & Hp & Hn); right; (split; [exact Hn|]); (split; [reflexivity|cbn; tauto]).
  Qed.
End Serial.
