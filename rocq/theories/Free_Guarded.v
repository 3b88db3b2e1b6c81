(** Guarded operations can always be brought to the end. *)
From Verif Require Export Serial_Lemmas Free_Proofs.

Lemma rounds_app hash I fuel R m n g1 g2 g3 : rounds hash I fuel R n g1 g2 -> rounds hash I fuel R m g2 g3 -> rounds hash I fuel R (m + n) g1 g3.
Proof. intros H1 H2. induction H2 as [g|m g g' i HE IH HR|m g g' s HE IH W Hs]; cbn; [exact H1|constructor; auto|constructor; auto]. Qed.

Section Guarded.
  Variable hash : bytes -> string.
  Variable K : string -> Prop.
  Hypothesis hash_inj : collision_free hash K.
  Variable I : string.
  Variable m : N.
  Variable fuel : nat.
  Variable ch : N.
  Variable k0 : Z.
  Variable ops : nat -> iop.
  Hypothesis ops_plain : forall i k, op_key (ops i) = Some k -> plain_key K k.
  Variable ks0 : list string.
  Hypothesis ks0_short : (Z.of_nat (List.length ks0) < 256 ^ 5)%Z.
  Notation SI := (SI hash K I m fuel ch k0 ops ks0).

  Definition goes (g g' : gconfig) : Prop := exists n, rounds hash I fuel (orderly I) n g g'.
  Lemma goes_refl g : goes g g. Proof. exists 0. constructor. Qed.
  Lemma goes_trans g1 g2 g3 : goes g1 g2 -> goes g2 g3 -> goes g1 g3.
  Proof. intros [n H1] [n' H2]. exists (n' + n). eapply rounds_app; eauto. Qed.
  Lemma goes_turn g i : orderly I (users g) i -> goes g (guarded_turn fuel i g).
  Proof. intro H. exists 1. constructor; [constructor|exact H]. Qed.

  Lemma go_good n g i : SI n g -> (k0 + Z.of_nat n < 256 ^ 5)%Z -> orderly I (users g) i -> ~ inside (users g) i ->
    exists g', goes g g' /\ SI (asks (users g) i + n) g' /\ users g' = go fuel i (users g).
  Proof.
    intros HS Hb HO Hn. exists (guarded_turn fuel i g). split; [now apply goes_turn|]. split; [now apply SI_turn|].
    unfold guarded_turn. destruct (procs (users g) i) eqn:E; try reflexivity. destruct Hn. eexists; eauto.
  Qed.

  (** The guarded section is done to its end. *)
  Lemma leave_good n g i : SI n g -> (k0 + Z.of_nat n < 256 ^ 5)%Z -> orderly I (users g) i -> inside (users g) i ->
    exists g' s, goes g g' /\ SI n g' /\ wf s /\ (forall a, lock_names I a -> same_at (shared (users g)) s a) /\
      users g' = go fuel i (mkConfig (procs (users g)) s (served (users g))).
  Proof.
    intros HS Hb HO [l Hl]. remember (todo g i) as p eqn:Ep. revert g HS HO Hl Ep. induction p as [out|e| |B o f IH]; intros g HS HO Hl Ep.
    - exists (guarded_turn fuel i g), (shared (users g)). split; [now apply goes_turn|]. split.
      { pose proof (SI_turn _ _ hash_inj _ _ _ _ _ _ ops_plain _ _ _ i HS HO Hb ks0_short) as H1. unfold asks in H1. rewrite Hl in H1. exact H1. }
      split; [eapply Inv_wf, si_lock; eauto|]. split; [intros a _; apply same_refl|]. unfold guarded_turn. rewrite Hl, <- Ep. cbn [prog_step outcome users].
      now destruct (users g).
    - destruct (si_held _ _ _ _ _ _ _ _ _ _ _ HS i) as (q & _ & Hw); [now exists l|]. rewrite <- Ep in Hw. destruct Hw.
    - pose proof (si_whole _ _ _ _ _ _ _ _ _ _ _ HS i) as Hw. rewrite <- Ep in Hw. destruct Hw.
    - pose proof (SI_turn _ _ hash_inj _ _ _ _ _ _ ops_plain _ _ _ i HS HO Hb ks0_short) as H1. unfold asks in H1. rewrite Hl in H1. cbn [Nat.add] in H1.
      destruct (si_held _ _ _ _ _ _ _ _ _ _ _ HS i) as (q & _ & Hw); [now exists l|]. rewrite <- Ep in Hw. cbn [wp] in Hw.
      assert (W : wf (shared (users g))) by (eapply Inv_wf, si_lock; eauto).
      specialize (Hw (shared (users g)) (conj W (fun a _ => same_refl _ a))). destruct (step o (shared (users g))) as [r s2] eqn:Es. destruct Hw as [[W2 O2] _].
      assert (Et : guarded_turn fuel i g = mkG (mkConfig (procs (users g)) s2 (served (users g))) (set_todo (todo g) i (f r)) (order g)).
      { unfold guarded_turn. rewrite Hl, <- Ep. cbn [prog_step]. now rewrite Es. }
      rewrite Et in H1. destruct (IH r _ H1) as (g' & s & R & S' & Ws & Hs & Eg).
      + exact HO.
      + exact Hl.
      + cbn [todo]. now rewrite todo_same.
      + cbn [users procs shared served] in *. exists g', s. split; [eapply goes_trans; [|exact R]; rewrite <- Et; now apply goes_turn|].
        split; [exact S'|]. split; [exact Ws|]. split; [|exact Eg].
        intros a Ha. eapply same_trans; [apply O2; now apply lock_not_rep|now apply Hs].
  Qed.

  Lemma all_guarded is n t g : SI n g -> InvT I fuel ch k0 n t (users g) -> (forall i, t i < fuel) ->
    (k0 + Z.of_nat (n + List.length is) < 256 ^ 5)%Z -> n + List.length is <= fuel -> 0 < fuel ->
    exists g', goes g g' /\ moved_on _ users g g' /\ SI (n + List.length is) g' /\ forall i, In i is -> procs (users g') i = Finished (Ok tt).
  Proof.
    intros HS HT Ht Hb Hf H0.
    destruct (all_served I fuel ch k0 gconfig users goes SI) with (is := is) (K := n) (t := t) (c := g) as (g' & R & M & [_ S'] & E);
      auto using goes_refl, go_good, leave_good.
    - intros x y z. apply goes_trans.
    - intros K1 K2 x H1 HK. eapply SI_more; eauto.
    - exists g'. auto.
  Qed.
End Guarded.

Lemma guarded_no_deadlock hash K I h0 m s k ops fuel n g is :
  reached hash K I h0 m s -> lock_used I k s -> (forall i key, op_key (ops i) = Some key -> plain_key K key) ->
  (k + Z.of_nat (n + List.length is) < 256 ^ 5)%Z -> (Z.of_nat (List.length h0 + n) + 8 < 256 ^ 5)%Z -> n + List.length is < fuel ->
  rounds hash I fuel (orderly I) n (g_start hash I m ops s) g ->
  let keys l := keys_by (keys_after h0) ops l in
  exists n' g', rounds hash I fuel (orderly I) n' g g' /\
    (forall i, In i is -> procs (users g') i = Finished (Ok tt) /\
       exists l r, order g' = l ++ i :: r /\ outcome (todo g' i) = Some (Ok (fst (tags_step (keys l) (ops i))))) /\
    (forall i, procs (users g') i = procs (users g) i \/ procs (users g') i = Finished (Ok tt)) /\
    ((forall i, In i is \/ not_begun I (users g) i) ->
       shows hash K I m (shared (users g')) (keys (order g')) /\
       free_lock I (k + Z.of_nat (List.length (order g'))) (shared (users g'))).
Proof.
  intros HR HF HO Hb Hl Hf HE keys. assert (Hb0 : (k + Z.of_nat n < 256 ^ 5)%Z) by lia. destruct (rounds_SI _ _ _ _ _ _ _ _ _ _ _ HR HF HO Hb0 Hl HE) as (mi & ch & -> & HS & H0 & n' & Hn & HX).
  destruct (InvT_reach I fuel ch k n' _ _ H0 HX) as (t & Ht & HT); [lia|].
  assert (Hk : List.length (keys_after h0) <= List.length h0).
  { unfold keys_after. pose proof (tags_run_length (map v_op h0) []) as X. rewrite map_length in X. exact X. }
  assert (Hks : (Z.of_nat (List.length (keys_after h0)) < 256 ^ 5)%Z) by lia.
  destruct (all_guarded hash K (proj1 HR) I mi fuel ch k ops HO (keys_after h0) Hks is n t g) as (g' & [q R] & M & S' & E).
  - exact HS.
  - eapply InvT_more; eauto.
  - intro i. specialize (Ht i). lia.
  - exact Hb.
  - lia.
  - lia.
  - destruct (SI_serial _ _ _ _ _ _ _ _ _ _ _ (proj1 HR) S') as (D1 & D2 & D3 & D4 & D5).
    exists q, g'. split; [exact R|]. split; [|split; [exact M|]].
    + intros i Hi. specialize (E i Hi). split; [exact E|].
      assert (Hin : In i (order g')) by (apply D2; unfold past_entry; now rewrite E).
      apply in_split in Hin as (l & r & El). exists l, r. split; [exact El|]. apply (D3 l i r El). intros [x Hx]. congruence.
    + intro Hall. assert (HA : forall i, finished (users g') i \/ not_begun I (users g') i).
      { intro i. destruct (M i) as [Ei|Ei]; [|left; now exists (Ok tt)]. destruct (Hall i) as [Hi|Hi]; [left; exists (Ok tt); now apply E|right].
        unfold not_begun in *. congruence. }
      split; [|apply D5, HA]. apply D4. intros i [x Hx]. destruct (HA i) as [[r Hr]|Hr]; [|unfold not_begun in Hr]; congruence.
Qed.
