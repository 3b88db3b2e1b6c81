(** Crash points of sequenced programs, and exact views of an index in any
    store. *)
From Verif Require Export Index_Proofs.

(** Number of primitive operations a run makes. *)
Fixpoint cost {A} (p : prog A) (s : store) : nat :=
  match p with
  | Do o k => S (cost (k (fst (step o s))) (snd (step o s)))
  | _ => 0
  end.

Lemma crash_ptry {A B} (p : prog A) (k : A -> prog B) h : forall n s,
  crash n (ptry p k h) s =
  if Nat.leb n (cost p s) then crash n p s
  else crash (n - cost p s)
         (match fst (run p s) with Some (Ok a) => k a | Some (Exc e) => h e | None => Stuck end) (snd (run p s)).
Proof.
  induction p as [a|e| |X o q IH]; intros n s; cbn [of_res ptry cost run fst snd].
  - destruct n; cbn [Nat.leb]; [destruct (k a); reflexivity|reflexivity].
  - destruct n; cbn [Nat.leb]; [destruct (h e); reflexivity|reflexivity].
  - destruct n; reflexivity.
  - destruct n as [|n]; [reflexivity|]. cbn [crash Nat.leb Nat.sub]. destruct (step o s) as [r s'] eqn:E. cbn [fst snd].
    rewrite IH. reflexivity.
Qed.
Lemma crash_bind {A B} (p : prog A) (k : A -> prog B) n s :
  crash n (pbind p k) s =
  if Nat.leb n (cost p s) then crash n p s
  else crash (n - cost p s)
         (match fst (run p s) with Some (Ok a) => k a | Some (Exc e) => Raise e | None => Stuck end) (snd (run p s)).
Proof. apply crash_ptry. Qed.

Lemma crash_bind_ok {A B} (p : prog A) (k : A -> prog B) n s a s' : run p s = (Some (Ok a), s') ->
  crash n (pbind p k) s = if Nat.leb n (cost p s) then crash n p s else crash (n - cost p s) (k a) s'.
Proof. intro R. rewrite crash_bind, R. reflexivity. Qed.

Lemma crash_done {A} (p : prog A) : forall n s, cost p s <= n -> crash n p s = snd (run p s).
Proof.
  induction p as [a|e| |X o q IH]; intros n s Hn; cbn [run cost snd] in *; try (destruct n; reflexivity).
  destruct n as [|n]; [lia|]. cbn [crash]. destruct (step o s) as [r s'] eqn:E. cbn [fst snd] in *. apply IH. lia.
Qed.
Lemma crash_zero {A} (p : prog A) s : crash 0 p s = s.
Proof. destruct p; reflexivity. Qed.

(** Single primitive operations. *)
Lemma crash_read h s n : crash n (shm_read h) s = s.
Proof.
  destruct n as [|n]; [reflexivity|]. unfold shm_read, prim. cbn [crash step].
  destruct (mem s (hid h)); destruct n; reflexivity.
Qed.
Lemma cost_read h s : cost (shm_read h) s = 1.
Proof. unfold shm_read, prim. cbn [cost]. destruct (fst (step (ORead (hid h)) s)); reflexivity. Qed.
Lemma cost_write h b s : cost (shm_write h b) s = 1.
Proof. unfold shm_write, prim. cbn [cost]. destruct (fst (step (OWrite (hid h) b) s)); reflexivity. Qed.
Lemma cost_unlink h s : cost (shm_unlink h) s = 1.
Proof. unfold shm_unlink, prim. cbn [cost]. destruct (fst (step (OUnlink (hname h)) s)); reflexivity. Qed.
Lemma crash_attach a s n : crash n (shm_attach a) s = s.
Proof.
  destruct n as [|n]; [reflexivity|]. unfold shm_attach, prim, pbind. cbn [of_res ptry crash step].
  destruct (names s a) as [i|]; [|destruct n; reflexivity]. cbn [of_res ptry]. destruct n as [|n]; [reflexivity|]. cbn [crash step].
  destruct (mem s i) as [[|]|]; destruct n; reflexivity.
Qed.
Lemma cost_attach a i b s : at_ s a i b -> b <> "" -> cost (shm_attach a) s = 2.
Proof.
  intros [Hn Hm] Hb. unfold shm_attach, prim, pbind. cbn [of_res ptry cost step]. rewrite Hn. cbn [fst snd of_res ptry cost step]. rewrite Hm.
  destruct b; [congruence|]. reflexivity.
Qed.
Lemma cost_attach_none a s : names s a = None -> cost (shm_attach a) s = 1.
Proof. intros Hn. unfold shm_attach, prim, pbind. cbn [of_res ptry cost step]. rewrite Hn. reflexivity. Qed.

Lemma crash_exists a s n : crash n (exists_block a) s = s.
Proof.
  unfold exists_block. rewrite crash_ptry, crash_attach. destruct (Nat.leb n _); [reflexivity|].
  rewrite attach_store. destruct (fst (run (shm_attach a) s)) as [[?|[]]|]; destruct (n - _); reflexivity.
Qed.
Lemma cost_ptry {A B} (p : prog A) (k : A -> prog B) h : forall s,
  cost (ptry p k h) s = cost p s +
    cost (match fst (run p s) with Some (Ok a) => k a | Some (Exc e) => h e | None => Stuck end) (snd (run p s)).
Proof.
  induction p as [a|e| |X o q IH]; intros s; cbn [of_res ptry cost run fst snd plus]; try reflexivity.
  destruct (step o s) as [r s'] eqn:E. cbn [fst snd]. rewrite IH. reflexivity.
Qed.
Lemma cost_exists a i b s : at_ s a i b -> b <> "" -> cost (exists_block a) s = 2.
Proof.
  intros A Hb. unfold exists_block. rewrite cost_ptry, (cost_attach a i b s A Hb), (attach_ok _ _ _ _ A Hb). reflexivity.
Qed.
Lemma cost_exists_none a s : names s a = None -> cost (exists_block a) s = 1.
Proof.
  intros A. unfold exists_block. rewrite cost_ptry, (cost_attach_none a s A), (attach_none _ _ A). reflexivity.
Qed.

(** Creating a block: half made in between. *)
Lemma create_crash s a size : wf s -> names s a = None -> size <> 0 ->
  cost (shm_create a size) s = 3 /\
  crash 2 (shm_create a size) s = snd (run (shm_create a size) s) /\
  exists sh, crash 1 (shm_create a size) s = sh /\ wf sh /\ at_ sh a (next s) "" /\ only_at (eq a) s sh.
Proof.
  intros W Hn Hs. destruct size as [|z]; [congruence|]. unfold shm_create, prim, pbind. cbn [of_res ptry cost crash step].
  rewrite Hn. cbn [fst snd of_res ptry cost crash step].
  assert (Hm : forall f b, upd_mem f (next s) b (next s) = Some b).
  { intros. unfold upd_mem. now rewrite N.eqb_refl. }
  split; [|split].
  - rewrite ?Hm. cbn [fst snd names mem next cost step]. rewrite ?Hm. reflexivity.
  - cbn [run step]. rewrite Hn. cbn [fst snd of_res ptry run step mem]. rewrite ?Hm. reflexivity.
  - eexists. split; [reflexivity|]. destruct W as (Hinj & Hmem & Hnext).
    assert (Hold : forall x i, names s x = Some i -> i <> next s).
    { intros x i Hx ->. apply (Hmem _ _ Hx). apply Hnext. lia. }
    split; [|split].
    + repeat split; cbn [names mem next]; unfold upd_name, upd_mem.
      * intros x y i. destruct (String.eqb_spec x a) as [->|Hx]; destruct (String.eqb_spec y a) as [->|Hy]; try congruence.
        -- intros [= <-] H. destruct (Hold _ _ H eq_refl).
        -- intros H [= <-]. destruct (Hold _ _ H eq_refl).
        -- apply Hinj.
      * intros x i. destruct (N.eqb_spec i (next s)); [discriminate|].
        destruct (String.eqb_spec x a); [congruence|]. apply Hmem.
      * intros i Hi. destruct (N.eqb_spec i (next s)); [lia|]. apply Hnext. lia.
    + split; cbn [names mem]; unfold upd_name, upd_mem; rewrite ?String.eqb_refl, ?N.eqb_refl; reflexivity.
    + intros x Hx. split; cbn [names mem]; unfold upd_name, upd_mem.
      * rewrite eqb_ne by congruence. reflexivity.
      * intros i Hi. specialize (Hold _ _ Hi). apply N.eqb_neq in Hold. rewrite Hold. reflexivity.
Qed.

(** ** Exact views *)

(** What the key blocks say, in order. *)
Fixpoint collect (cells : list (option string)) : res (list string) :=
  match cells with
  | [] => Ok []
  | None :: r => collect r
  | Some "" :: _ => Exc ValueError
  | Some b :: r => match collect r with Ok l => Ok (b :: l) | Exc e => Exc e end
  end.

Lemma keys_from_cells x s : wf s -> forall cells i,
  (forall j, j < List.length cells -> nth_error cells j = Some (content s (key_address (ix_name x) (i + Z.of_nat j)))) ->
  run (keys_from x (List.length cells) i) s = (Some (collect cells), s).
Proof.
  intros W. induction cells as [|c r IH]; intros i Hc; cbn [List.length keys_from]; [reflexivity|].
  pose proof (Hc 0 ltac:(cbn; lia)) as H0. cbn [nth_error] in H0. replace (i + Z.of_nat 0)%Z with i in H0 by lia.
  injection H0 as H0.
  assert (Hr : run (keys_from x (List.length r) (i + 1)) s = (Some (collect r), s)).
  { apply IH. intros j Hj. replace (i + 1 + Z.of_nat j)%Z with (i + Z.of_nat (S j))%Z by lia. apply (Hc (S j)). cbn. lia. }
  rewrite run_bind, run_ptry. destruct c as [b|].
  - symmetry in H0. destruct (content_at _ _ _ H0) as [n A]. destruct b as [|ch b].
    + rewrite (run_bind_exc _ _ _ _ _ (attach_empty _ _ _ A)). reflexivity.
    + rewrite (run_bind_ok _ _ _ _ _ (attach_ok _ _ _ _ A ltac:(discriminate))), (read_ok _ _ _ _ A). cbn [run].
      rewrite run_bind, Hr. cbn [collect]. destruct (collect r); reflexivity.
  - symmetry in H0. apply content_none in H0; [|exact W]. rewrite (run_bind_exc _ _ _ _ _ (attach_none _ _ H0)). cbn [run].
    rewrite run_bind, Hr. cbn [collect]. destruct (collect r); reflexivity.
Qed.

Lemma update_cells x s i cells : wf s -> ix_mem x = mkHandle (ix_name x) i -> at_ s (ix_name x) i (len8 (List.length cells)) ->
  (Z.of_nat (List.length cells) < 256 ^ Z.of_nat 8)%Z ->
  (forall j, j < List.length cells -> nth_error cells j = Some (content s (key_address (ix_name x) (Z.of_nat j)))) ->
  run (update x) s = (Some (collect cells), s).
Proof.
  intros W Hm A L Hc. unfold update, update_length. rewrite Hm. rewrite run_bind, (run_bind_ok _ _ _ _ _ (read_ok _ _ _ _ A)).
  cbn [run]. rewrite from_le by lia. rewrite Nat2Z.id. apply keys_from_cells; [exact W|]. intros j Hj. now apply Hc.
Qed.

Definition found (c : option bytes) : res (option Z) :=
  match c with None => Ok None | Some "" => Exc ValueError | Some b => Ok (Some (from_bytes b)) end.
Lemma check_found hash x raw s : wf s ->
  run (check_raw hash x raw) s = (Some (found (content s (name_address hash (ix_name x) raw))), s).
Proof.
  intro W. unfold check_raw. rewrite run_bind, exists_spec by assumption.
  destruct (content s (name_address hash (ix_name x) raw)) as [b|] eqn:E; [|reflexivity].
  destruct (content_at _ _ _ E) as [i A]. destruct b as [|c b].
  - rewrite (run_bind_exc _ _ _ _ _ (attach_empty _ _ _ A)). reflexivity.
  - rewrite (run_bind_ok _ _ _ _ _ (attach_ok _ _ _ _ A ltac:(discriminate))), (run_bind_ok _ _ _ _ _ (read_ok _ _ _ _ A)). reflexivity.
Qed.

Lemma collect_all ks : Forall (fun k => k <> "") ks -> forall cells r, collect cells = r ->
  collect (map Some ks ++ cells) = match r with Ok l => Ok (ks ++ l) | Exc e => Exc e end.
Proof.
  intros F cells r <-. induction F as [|k ks Hk F IH]; cbn [map app collect]; [destruct (collect cells); reflexivity|].
  destruct k; [congruence|]. rewrite IH. destruct (collect cells); reflexivity.
Qed.
Lemma collect_hole ks n : Forall (fun k => k <> "") ks -> collect (map Some ks ++ repeat None n) = Ok ks.
Proof.
  intro F. rewrite (collect_all ks F _ (Ok [])); [now rewrite app_nil_r|]. induction n; [reflexivity|exact IHn].
Qed.

(** ** The set of stores a crash can leave *)

Definition stages {A} (p : prog A) (s : store) (l : list store) : Prop :=
  forall s', (exists n, crash n p s = s') <-> In s' l.

Lemma crash_min {A} (p : prog A) n s : crash n p s = crash (Nat.min n (cost p s)) p s.
Proof.
  destruct (Nat.le_ge_cases n (cost p s)); [now rewrite Nat.min_l|].
  rewrite Nat.min_r by assumption. rewrite !crash_done; auto.
Qed.
Lemma stages_ptry {A B} (p : prog A) (k : A -> prog B) h s l1 l2 r s1 : stages p s l1 -> run p s = (Some r, s1) ->
  stages (match r with Ok a => k a | Exc e => h e end) s1 l2 -> stages (ptry p k h) s (l1 ++ l2).
Proof.
  intros H1 R H2 s'. rewrite in_app_iff, <- (H1 s'), <- (H2 s'). split.
  - intros [n <-]. rewrite crash_ptry, R. cbn [fst snd]. destruct (Nat.leb n (cost p s)); [left; eauto|right].
    exists (n - cost p s). destruct r; reflexivity.
  - intros [[n <-]|[n <-]].
    + exists (Nat.min n (cost p s)). rewrite crash_ptry, (proj2 (Nat.leb_le _ _) (Nat.le_min_r _ _)). symmetry. apply crash_min.
    + exists (cost p s + n). rewrite crash_ptry, R. cbn [fst snd]. destruct (Nat.leb_spec (cost p s + n) (cost p s)) as [Hl|Hl].
      * replace n with 0 by lia. rewrite crash_zero. rewrite crash_done by lia. rewrite R. reflexivity.
      * replace (cost p s + n - cost p s) with n by lia. destruct r; reflexivity.
Qed.
Lemma stages_bind {A B} (p : prog A) (k : A -> prog B) s l1 l2 a s1 : stages p s l1 -> run p s = (Some (Ok a), s1) ->
  stages (k a) s1 l2 -> stages (pbind p k) s (l1 ++ l2).
Proof. intros H1 R H2. unfold pbind. eapply stages_ptry; eauto. Qed.
Lemma stages_bind_exc {A B} (p : prog A) (k : A -> prog B) s l1 e s1 : stages p s l1 -> run p s = (Some (Exc e), s1) ->
  stages (pbind p k) s (l1 ++ [s1]).
Proof.
  intros H1 R. unfold pbind. eapply stages_ptry; eauto. cbn. intro s'. cbn. split; [intros [n <-]; left; destruct n; reflexivity|].
  intros [<-|[]]. exists 0. reflexivity.
Qed.
Lemma stages_ret {A} (a : A) s : stages (Ret a) s [s].
Proof. intro s'. cbn. split; [intros [n <-]; left; destruct n; reflexivity|]. intros [<-|[]]. exists 0. reflexivity. Qed.
Lemma stages_const {A} (p : prog A) s : (forall n, crash n p s = s) -> stages p s [s].
Proof. intros H s'. cbn. split; [intros [n <-]; left; symmetry; apply H|]. intros [<-|[]]. exists 0. apply H. Qed.
Lemma stages_read h s : stages (shm_read h) s [s].
Proof. apply stages_const. intro. apply crash_read. Qed.
Lemma stages_attach a s : stages (shm_attach a) s [s].
Proof. apply stages_const. intro. apply crash_attach. Qed.
Lemma stages_exists a s : stages (exists_block a) s [s].
Proof. apply stages_const. intro. apply crash_exists. Qed.
Lemma stages_one {A} (p : prog A) s r s1 : cost p s = 1 -> run p s = (r, s1) -> stages p s [s; s1].
Proof.
  intros Hc R s'. cbn. split.
  - intros [n <-]. rewrite crash_min, Hc. destruct n as [|n]; [left; now rewrite crash_zero|right; left].
    replace (Nat.min (S n) 1) with 1 by lia. rewrite crash_done by lia. now rewrite R.
  - intros [<-|[<-|[]]]; [exists 0; apply crash_zero|exists 1]. rewrite crash_done by lia. now rewrite R.
Qed.
Lemma stages_write h b s r s1 : run (shm_write h b) s = (r, s1) -> stages (shm_write h b) s [s; s1].
Proof. apply stages_one, cost_write. Qed.
Lemma stages_unlink h s r s1 : run (shm_unlink h) s = (r, s1) -> stages (shm_unlink h) s [s; s1].
Proof. apply stages_one, cost_unlink. Qed.
Lemma stages_sub {A} (p : prog A) s l l' : stages p s l -> (forall x, In x l <-> In x l') -> stages p s l'.
Proof. intros H E s'. rewrite (H s'). apply E. Qed.

Lemma stages_create s a size : wf s -> names s a = None -> size <> 0 ->
  exists sh s', run (shm_create a size) s = (Some (Ok {| hname := a; hid := next s |}), s') /\
    wf s' /\ at_ s' a (next s) (zeros size) /\ only_at (eq a) s s' /\
    wf sh /\ at_ sh a (next s) "" /\ only_at (eq a) s sh /\
    stages (shm_create a size) s [s; sh; s'].
Proof.
  intros W Hn Hs. destruct (create_ok s a size W Hn Hs) as (s' & R & W' & A' & O').
  destruct (create_crash s a size W Hn Hs) as (Hc & H2 & sh & H1 & Wh & Ah & Oh).
  exists sh, s'. repeat (split; [assumption|]). rewrite R in H2. cbn [snd] in H2.
  assert (H3 : crash 3 (shm_create a size) s = s') by (rewrite crash_done by lia; now rewrite R).
  intro x. cbn. split.
  - intros [n <-]. rewrite crash_min, Hc. destruct n as [|[|[|n]]]; cbn [Nat.min]; [left|right; left|right; right; left..];
      symmetry; auto using crash_zero. replace (Nat.min n 0) with 0 by lia. auto.
  - intros [<-|[<-|[<-|[]]]]; [exists 0; apply crash_zero|exists 1; auto|exists 3; auto].
Qed.

Lemma stages_open_new s a size ow : wf s -> names s a = None -> size <> 0 ->
  exists sh s', run (open_block a size true ow) s = (Some (Ok {| hname := a; hid := next s |}), s') /\
    wf s' /\ at_ s' a (next s) (zeros size) /\ only_at (eq a) s s' /\
    wf sh /\ at_ sh a (next s) "" /\ only_at (eq a) s sh /\
    stages (open_block a size true ow) s [s; sh; s'].
Proof.
  intros W Hn Hs. destruct (stages_create s a size W Hn Hs) as (sh & s' & R & W' & A' & O' & Wh & Ah & Oh & St).
  exists sh, s'. unfold open_block. rewrite run_ptry, R. repeat (split; [assumption||reflexivity|]).
  eapply stages_sub; [eapply stages_ptry; [exact St|exact R|apply stages_ret]|]. intro x. cbn. tauto.
Qed.

(** Overwriting: removed, half made, zeroed. *)
Lemma stages_open_over s a size i b : wf s -> at_ s a i b -> b <> "" -> size <> 0 ->
  exists s1 sh s' j, run (open_block a size true true) s = (Some (Ok {| hname := a; hid := j |}), s') /\
    wf s' /\ at_ s' a j (zeros size) /\ only_at (eq a) s s' /\
    wf sh /\ at_ sh a j "" /\ only_at (eq a) s sh /\
    wf s1 /\ names s1 a = None /\ only_at (eq a) s s1 /\
    stages (open_block a size true true) s [s; s1; sh; s'].
Proof.
  intros W A Hb Hs. pose proof (create_exists s a size i (proj1 A) Hs) as Rc.
  assert (Hcost : cost (shm_create a size) s = 1).
  { destruct size; [congruence|]. unfold shm_create, prim, pbind. cbn [of_res ptry cost step]. rewrite (proj1 A). reflexivity. }
  destruct (unlink_ok s a i W (proj1 A)) as (s1 & Ru & W1 & N1 & O1).
  destruct (stages_create s1 a size W1 N1 Hs) as (sh & s' & R & W' & A' & O' & Wh & Ah & Oh & St).
  exists s1, sh, s', (next s1). unfold open_block.
  split. { rewrite run_ptry, Rc. rewrite (run_bind_ok _ _ _ _ _ (attach_ok _ _ _ _ A Hb)), (run_bind_ok _ _ _ _ _ (Ru i)). exact R. }
  split; [assumption|]. split; [assumption|]. split; [eapply only_trans; eauto|]. split; [assumption|]. split; [assumption|].
  split; [eapply only_trans; eauto|]. split; [assumption|]. split; [assumption|]. split; [assumption|].
  eapply stages_sub.
  - eapply stages_ptry; [eapply (stages_one _ _ _ _ Hcost Rc)|exact Rc|]. cbv iota beta.
    eapply stages_bind; [apply stages_attach|apply (attach_ok _ _ _ _ A Hb)|].
    eapply stages_bind; [eapply stages_unlink; apply (Ru i)|apply (Ru i)|]. exact St.
  - intro x. cbn. tauto.
Qed.

Lemma stages_delete s a i b mo : wf s -> at_ s a i b -> b <> "" ->
  exists s', run (delete_block a mo) s = (Some (Ok tt), s') /\
    wf s' /\ names s' a = None /\ only_at (eq a) s s' /\ stages (delete_block a mo) s [s; s'].
Proof.
  intros W A Hb. destruct (unlink_ok s a i W (proj1 A)) as (s' & R & W' & N' & O'). exists s'.
  assert (Ra : run (let! h := shm_attach a in shm_unlink h) s = (Some (Ok tt), s'))
    by (rewrite (run_bind_ok _ _ _ _ _ (attach_ok _ _ _ _ A Hb)); apply R).
  unfold delete_block. rewrite run_ptry, Ra. repeat (split; [assumption||reflexivity|]).
  eapply stages_sub.
  - eapply stages_ptry; [|exact Ra|apply stages_ret].
    eapply stages_bind; [apply stages_attach|apply (attach_ok _ _ _ _ A Hb)|]. eapply stages_unlink. apply R.
  - intro x. cbn. tauto.
Qed.
