(** Programs on some shared memory names while other processes use other
    names. *)
From Verif Require Export Conc_Proofs Index_Proofs.

Section Quiet.
  Variable N : string -> Prop.

  (** What the others do to the names [N]: nothing.  What the program does:
      nothing to other names. *)
  Definition others (s s' : store) : Prop := wf s' /\ forall a, N a -> same_at s s' a.
  Definition mine (s s' : store) : Prop := wf s' /\ only_at N s s'.
  Notation w := (wp others mine).
  Lemma others_trans s1 s2 s3 : others s1 s2 -> others s2 s3 -> others s1 s3.
  Proof. intros [_ H1] [W H2]. split; [exact W|]. intros a Ha. eapply same_trans; eauto. Qed.
  Lemma mine_refl s : wf s -> mine s s.
  Proof. intro W. split; [exact W|apply only_refl]. Qed.

  (** A store that is [s0] except for the names in [L], which hold what [L]
      says. *)
  Definition cell : Type := option (BinNums.N * bytes).
  Fixpoint seen (L : list (string * cell)) (a : string) : option cell :=
    match L with
    | [] => None
    | (x, c) :: r => if String.eqb x a then Some c else seen r a
    end.
  Definition has (s : store) (a : string) (c : cell) : Prop :=
    match c with Some (i, b) => at_ s a i b | None => names s a = None end.
  Definition st (s0 : store) (L : list (string * cell)) (s : store) : Prop :=
    wf s /\ forall a, N a -> match seen L a with Some c => has s a c | None => same_at s0 s a end.
  Definition val (s0 : store) (L : list (string * cell)) (a : string) (c : cell) : Prop :=
    match seen L a with Some c' => c' = c | None => has s0 a c end.

  Lemma has_same s s' a c : has s a c -> same_at s s' a -> has s' a c.
  Proof. destruct c as [[i b]|]; cbn; [apply at_same|]. intros H S. now rewrite (same_names _ _ _ S). Qed.
  Lemma st_refl s : wf s -> st s [] s.
  Proof. intro W. split; [exact W|]. intros a _. apply same_refl. Qed.
  Lemma st_others s0 L s s' : st s0 L s -> others s s' -> st s0 L s'.
  Proof.
    intros [W H] [W' S]. split; [exact W'|]. intros a Ha. specialize (H a Ha). specialize (S a Ha).
    destruct (seen L a); [eapply has_same; eauto|eapply same_trans; eauto].
  Qed.
  Lemma st_set s0 L s s' a c : st s0 L s -> wf s' -> only_at (eq a) s s' -> has s' a c -> st s0 ((a, c) :: L) s'.
  Proof.
    intros [W H] W' O Hc. split; [exact W'|]. intros x Hx. cbn [seen]. destruct (String.eqb_spec a x) as [<-|Hn]; [exact Hc|].
    specialize (H x Hx). specialize (O x Hn). destruct (seen L x); [eapply has_same; eauto|eapply same_trans; eauto].
  Qed.
  Lemma st_shadow s0 L s a c c' : st s0 ((a, c) :: (a, c') :: L) s -> st s0 ((a, c) :: L) s.
  Proof. intros [W H]. split; [exact W|]. intros x Hx. specialize (H x Hx). cbn [seen] in *. destruct (String.eqb a x); exact H. Qed.
  Lemma st_val s0 L s a c : st s0 L s -> N a -> val s0 L a c -> has s a c.
  Proof. intros [W H] Ha. unfold val. specialize (H a Ha). destruct (seen L a); [now intros <-|]. intro Hc. eapply has_same; eauto. Qed.
  Lemma val_hit s0 L a c : val s0 ((a, c) :: L) a c.
  Proof. unfold val. cbn. now rewrite String.eqb_refl. Qed.
  Lemma val_miss s0 L a c x c' : x <> a -> val s0 L a c -> val s0 ((x, c') :: L) a c.
  Proof. intros Hn. unfold val. cbn. now rewrite eqb_ne. Qed.
  Lemma val_base s0 a c : has s0 a c -> val s0 [] a c.
  Proof. auto. Qed.

  (** *** Single operations *)
  Lemma step_create s a : wf s -> names s a = None ->
    exists s', step (OCreate a) s = (Ok (next s), s') /\ wf s' /\ at_ s' a (next s) "" /\ only_at (eq a) s s'.
  Proof.
    intros W Na. cbn [step]. rewrite Na. eexists. split; [reflexivity|]. split; [|split].
    - pose proof (step_wf (OCreate a) s W) as X. cbn [step] in X. rewrite Na in X. apply X, Logic.I.
    - split; cbn; unfold upd_name, upd_mem; rewrite ?String.eqb_refl, ?N.eqb_refl; reflexivity.
    - intros x Hx. split; cbn; unfold upd_name, upd_mem; [now rewrite eqb_ne by congruence|]. intros i Hi.
      destruct (N.eqb_spec i (next s)) as [Ei|]; [|reflexivity]. subst i. destruct W as (_ & M1 & X1). destruct (M1 _ _ Hi). apply X1. lia.
  Qed.
  Lemma step_trunc s a i b n : wf s -> at_ s a i b ->
    exists s', step (OTrunc i n) s = (Ok tt, s') /\ wf s' /\ at_ s' a i (zeros n) /\ only_at (eq a) s s'.
  Proof.
    intros W A. cbn [step]. eexists. split; [reflexivity|]. split; [|split].
    - apply (step_wf (OTrunc i n) s W). cbn. rewrite (proj2 A). discriminate.
    - split; cbn; [apply A|]. unfold upd_mem. now rewrite N.eqb_refl.
    - intros x Hx. split; cbn; unfold upd_mem; [reflexivity|]. intros j Hj. destruct (N.eqb_spec j i) as [Ei|]; [|reflexivity].
      subst j. destruct Hx. symmetry. apply (proj1 W _ _ i Hj), A.
  Qed.

  Lemma w_attach {E} s0 L s a i b (Q : handle -> store -> Prop) : st s0 L s -> N a -> val s0 L a (Some (i, b)) -> b <> "" ->
    (forall s', st s0 L s' -> Q (mkHandle a i) s') -> w (shm_attach a) Q E s.
  Proof.
    intros HS Ha V Hb HQ. cbn [shm_attach prim pbind ptry wp]. intros s1 H1. pose proof (st_others _ _ _ _ HS H1) as HS1.
    destruct (st_val _ _ _ _ _ HS1 Ha V) as [N1 M1]. cbn [step]. rewrite N1. split; [apply mine_refl, HS1|].
    cbn [of_res ptry]. intros s2 H2. pose proof (st_others _ _ _ _ HS1 H2) as HS2.
    destruct (st_val _ _ _ _ _ HS2 Ha V) as [N2 M2]. cbn [step]. rewrite M2. destruct b as [|c b]; [congruence|].
    split; [apply mine_refl, HS2|]. apply HQ, HS2.
  Qed.
  Lemma w_attach_none {Q} s0 L s a (E : exn -> store -> Prop) : st s0 L s -> N a -> val s0 L a None ->
    (forall s', st s0 L s' -> E FileNotFoundError s') -> w (shm_attach a) Q E s.
  Proof.
    intros HS Ha V HE. cbn [shm_attach prim pbind ptry wp]. intros s1 H1. pose proof (st_others _ _ _ _ HS H1) as HS1.
    pose proof (st_val _ _ _ _ _ HS1 Ha V) as N1. cbn [has] in N1. cbn [step]. rewrite N1. split; [apply mine_refl, HS1|]. apply HE, HS1.
  Qed.
  Lemma w_read {E} s0 L s a i b (Q : bytes -> store -> Prop) : st s0 L s -> N a -> val s0 L a (Some (i, b)) ->
    (forall s', st s0 L s' -> Q b s') -> w (shm_read (mkHandle a i)) Q E s.
  Proof.
    intros HS Ha V HQ. cbn [shm_read hid prim wp]. intros s1 H1. pose proof (st_others _ _ _ _ HS H1) as HS1.
    destruct (st_val _ _ _ _ _ HS1 Ha V) as [N1 M1]. cbn [step]. rewrite M1. split; [apply mine_refl, HS1|]. apply HQ, HS1.
  Qed.
  Lemma w_write {E} s0 L s a i b b' (Q : unit -> store -> Prop) : st s0 L s -> N a -> val s0 L a (Some (i, b)) ->
    String.length b' = String.length b -> (forall s', st s0 ((a, Some (i, b')) :: L) s' -> Q tt s') -> w (shm_write (mkHandle a i) b') Q E s.
  Proof.
    intros HS Ha V Hl HQ. cbn [shm_write hid prim wp]. intros s1 H1. pose proof (st_others _ _ _ _ HS H1) as HS1.
    destruct (write_ok s1 a i b b' (proj1 HS1) (st_val _ _ _ _ _ HS1 Ha V) Hl) as (s2 & R & W2 & A2 & O2).
    unfold shm_write in R. rewrite run_prim in R. cbn [hid] in R. destruct (step (OWrite i b') s1) as [r s3]. cbn [fst snd] in R.
    injection R as E1 E2. subst r s3. split; [split; [exact W2|eapply only_sub; [exact O2|intros x <-; exact Ha]]|].
    cbn [of_res wp]. apply HQ. eapply st_set; eauto.
  Qed.
  Lemma w_unlink {E} s0 L s a i b (Q : unit -> store -> Prop) j : st s0 L s -> N a -> val s0 L a (Some (i, b)) ->
    (forall s', st s0 ((a, None) :: L) s' -> Q tt s') -> w (shm_unlink (mkHandle a j)) Q E s.
  Proof.
    intros HS Ha V HQ. cbn [shm_unlink hname prim wp]. intros s1 H1. pose proof (st_others _ _ _ _ HS H1) as HS1.
    destruct (unlink_ok s1 a i (proj1 HS1) (proj1 (st_val _ _ _ _ _ HS1 Ha V))) as (s2 & R & W2 & A2 & O2).
    specialize (R j). unfold shm_unlink in R. rewrite run_prim in R. cbn [hname] in R. destruct (step (OUnlink a) s1) as [r s3]. cbn [fst snd] in R.
    injection R as E1 E2. subst r s3. split; [split; [exact W2|eapply only_sub; [exact O2|intros x <-; exact Ha]]|].
    cbn [of_res wp]. apply HQ. eapply st_set; eauto.
  Qed.
  Lemma w_create {E} s0 L s a size (Q : handle -> store -> Prop) : st s0 L s -> N a -> val s0 L a None -> size <> 0 ->
    (forall i s', st s0 ((a, Some (i, zeros size)) :: L) s' -> Q (mkHandle a i) s') -> w (shm_create a size) Q E s.
  Proof.
    intros HS Ha V Hz HQ. destruct size as [|z]; [congruence|]. cbn [shm_create prim pbind ptry wp].
    intros s1 H1. pose proof (st_others _ _ _ _ HS H1) as HS1.
    destruct (step_create s1 a (proj1 HS1) (st_val _ _ _ _ _ HS1 Ha V)) as (s2 & E2 & W2 & A2 & O2). rewrite E2.
    split; [split; [exact W2|eapply only_sub; [exact O2|intros x <-; exact Ha]]|]. cbn [of_res ptry].
    pose proof (st_set _ _ _ _ _ (Some (next s1, "")) HS1 W2 O2 A2) as HS2. generalize dependent (next s1). intros ix _ A2 HS2.
    intros s3 H3. pose proof (st_others _ _ _ _ HS2 H3) as HS3.
    destruct (step_trunc s3 a ix "" (S z) (proj1 HS3) (st_val _ _ _ _ _ HS3 Ha (val_hit _ _ _ _))) as (s4 & E4 & W4 & A4 & O4). rewrite E4.
    split; [split; [exact W4|eapply only_sub; [exact O4|intros x <-; exact Ha]]|]. cbn [of_res ptry].
    pose proof (st_shadow _ _ _ _ _ _ (st_set _ _ _ _ _ (Some (ix, zeros (S z))) HS3 W4 O4 A4)) as HS4.
    intros s5 H5. pose proof (st_others _ _ _ _ HS4 H5) as HS5. destruct (st_val _ _ _ _ _ HS5 Ha (val_hit _ _ _ _)) as [N5 M5].
    cbn [step]. rewrite M5. split; [apply mine_refl, HS5|]. cbn [zeros of_res ptry]. apply HQ, HS5.
  Qed.
  Lemma w_create_old {Q} s0 L s a i b size (E : exn -> store -> Prop) : st s0 L s -> N a -> val s0 L a (Some (i, b)) -> size <> 0 ->
    (forall s', st s0 L s' -> E FileExistsError s') -> w (shm_create a size) Q E s.
  Proof.
    intros HS Ha V Hz HE. destruct size as [|z]; [congruence|]. cbn [shm_create prim pbind ptry wp].
    intros s1 H1. pose proof (st_others _ _ _ _ HS H1) as HS1. destruct (st_val _ _ _ _ _ HS1 Ha V) as [N1 M1]. cbn [step]. rewrite N1.
    split; [apply mine_refl, HS1|]. apply HE, HS1.
  Qed.

  (** *** memutilz *)
  Lemma w_exists {E} s0 L s a i b (Q : bool -> store -> Prop) : st s0 L s -> N a -> val s0 L a (Some (i, b)) -> b <> "" ->
    (forall s', st s0 L s' -> Q true s') -> w (exists_block a) Q E s.
  Proof. intros HS Ha V Hb HQ. unfold exists_block. apply wp_ptry. eapply w_attach; eauto. Qed.
  Lemma w_exists_not {E} s0 L s a (Q : bool -> store -> Prop) : st s0 L s -> N a -> val s0 L a None ->
    (forall s', st s0 L s' -> Q false s') -> w (exists_block a) Q E s.
  Proof. intros HS Ha V HQ. unfold exists_block. apply wp_ptry. eapply w_attach_none; eauto. Qed.
  Lemma w_delete {E} s0 L s a i b mo (Q : unit -> store -> Prop) : st s0 L s -> N a -> val s0 L a (Some (i, b)) -> b <> "" ->
    (forall s', st s0 ((a, None) :: L) s' -> Q tt s') -> w (delete_block a mo) Q E s.
  Proof.
    intros HS Ha V Hb HQ. unfold delete_block. apply wp_ptry, wp_bind. eapply w_attach; eauto. intros s1 HS1. eapply w_unlink; eauto.
  Qed.
  Lemma w_open_new {E} s0 L s a size ow (Q : handle -> store -> Prop) : st s0 L s -> N a -> val s0 L a None -> size <> 0 ->
    (forall i s', st s0 ((a, Some (i, zeros size)) :: L) s' -> Q (mkHandle a i) s') -> w (open_block a size true ow) Q E s.
  Proof. intros HS Ha V Hz HQ. unfold open_block. apply wp_ptry. eapply w_create; eauto. Qed.
  Lemma w_open_over {E} s0 L s a i b size (Q : handle -> store -> Prop) : st s0 L s -> N a -> val s0 L a (Some (i, b)) -> b <> "" -> size <> 0 ->
    (forall i s', st s0 ((a, Some (i, zeros size)) :: L) s' -> Q (mkHandle a i) s') -> w (open_block a size true true) Q E s.
  Proof.
    intros HS Ha V Hb Hz HQ. unfold open_block. apply wp_ptry. eapply w_create_old; eauto. intros s1 HS1.
    apply wp_bind. eapply w_attach; eauto. intros s2 HS2. apply wp_bind. eapply w_unlink; eauto. intros s3 HS3.
    eapply w_create; eauto using val_hit. intros j s4 HS4. apply HQ. eapply st_shadow; eauto.
  Qed.
End Quiet.
