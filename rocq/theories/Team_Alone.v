(** One process alone does what the sequential operation does. *)
From Verif Require Export Team_Lemmas.
From Verif Require Import Serial_Lemmas.

Section Alone.
  Context {V : Type} (hash : bytes -> string) (enc : V -> res bytes) (dec : bytes -> res V) (isnone : V -> bool).
  Variables (fuel : nat) (p : pad) (ops : nat -> pop V) (i : nat).
  Notation turn := (team_turn enc fuel p ops i).
  Notation play n t := (team_play enc fuel p ops (repeat i n) t).

  Definition comes (t t' : team V) : Prop := exists n, play n t = t'.
  Lemma comes_refl t : comes t t. Proof. now exists 0. Qed.
  Lemma comes_step t t' : comes (turn t) t' -> comes t t'.
  Proof. intros [n E]. exists (S n). exact E. Qed.
  Lemma comes_trans t1 t2 t3 : comes t1 t2 -> comes t2 t3 -> comes t1 t3.
  Proof. intros [n E] H. revert t1 E. induction n as [|n IH]; intros t1 E; cbn in E; [now subst t2|]. apply comes_step, IH, E. Qed.

  Lemma on_same (t : team V) : guards t = on_store (board_of t) (guards t).
  Proof. now destruct t as [[[x y z] u v] f]. Qed.
  Lemma comes_before q : forall t r s', acts t i = Before q -> run q (board_of t) = (Some r, s') ->
    exists t', comes t t' /\ acts t' i = Before (at_end r) /\ guards t' = on_store s' (guards t).
  Proof.
    induction q as [x|e| |B o k IH]; intros t r s' Ea Er; cbn [run] in Er.
    - injection Er as <- <-. exists t. split; [apply comes_refl|]. split; [exact Ea|apply on_same].
    - injection Er as <- <-. exists t. split; [apply comes_refl|]. split; [exact Ea|apply on_same].
    - discriminate.
    - destruct (step o (board_of t)) as [b s1] eqn:Es. pose (t1 := mkTeam (on_store s1 (guards t)) (set_act (acts t) i (Before (k b)))).
      assert (E1 : turn t = t1) by (unfold team_turn; rewrite Ea; cbn [prog_step]; now rewrite Es).
      destruct (IH b t1 r s') as (t' & C & A & G); [apply act_same|exact Er|]. exists t'. split; [apply comes_step; now rewrite E1|]. split; [exact A|]. exact G.
  Qed.
  Lemma comes_after q : forall t r s', acts t i = After q -> run q (board_of t) = (Some r, s') ->
    exists t', comes t t' /\ acts t' i = After (at_end r) /\ guards t' = on_store s' (guards t).
  Proof.
    induction q as [x|e| |B o k IH]; intros t r s' Ea Er; cbn [run] in Er.
    - injection Er as <- <-. exists t. split; [apply comes_refl|]. split; [exact Ea|apply on_same].
    - injection Er as <- <-. exists t. split; [apply comes_refl|]. split; [exact Ea|apply on_same].
    - discriminate.
    - destruct (step o (board_of t)) as [b s1] eqn:Es. pose (t1 := mkTeam (on_store s1 (guards t)) (set_act (acts t) i (After (k b)))).
      assert (E1 : turn t = t1) by (unfold team_turn; rewrite Ea; cbn [prog_step]; now rewrite Es).
      destruct (IH b t1 r s') as (t' & C & A & G); [apply act_same|exact Er|]. exists t'. split; [apply comes_step; now rewrite E1|]. split; [exact A|]. exact G.
  Qed.
  Lemma finished_turn g r : procs (users g) i = Finished r -> guarded_turn fuel i g = g.
  Proof.
    intro E. unfold guarded_turn. rewrite E. assert (Eg : go fuel i (users g) = users g) by (unfold go; rewrite E; reflexivity). rewrite Eg, E. now destruct g.
  Qed.
  Lemma finished_play n : forall g r, procs (users g) i = Finished r -> guarded_play fuel (repeat i n) g = g.
  Proof. induction n as [|n IH]; intros g r E; cbn; [reflexivity|]. rewrite (finished_turn g r E). eauto. Qed.
  Lemma comes_through n : forall t r, acts t i = Through -> procs (users (guarded_play fuel (repeat i n) (guards t))) i = Finished r ->
    comes t (mkTeam (guarded_play fuel (repeat i n) (guards t)) (acts t)).
  Proof.
    induction n as [|n IH]; intros t r Ea Ef; cbn [repeat guarded_play] in *; [destruct t; apply comes_refl|].
    assert (D : (exists r', procs (users (guards t)) i = Finished r') \/ forall r', procs (users (guards t)) i <> Finished r') by (destruct (procs (users (guards t)) i); eauto; right; congruence).
    destruct D as [[r' E]|Hn].
    - rewrite (finished_turn _ r' E) in *. rewrite (finished_play n _ r' E) in *. destruct t; apply comes_refl.
    - assert (E1 : turn t = mkTeam (guarded_turn fuel i (guards t)) (acts t)).
      { unfold team_turn. rewrite Ea. destruct (procs (users (guards t)) i) eqn:E; try reflexivity. destruct (Hn _ eq_refl). }
      apply comes_step. rewrite E1. apply (IH (mkTeam (guarded_turn fuel i (guards t)) (acts t)) r); auto.
  Qed.

  (** The lock around a body that catches its exceptions. *)
  Lemma lock_done {A B} I (body : prog A) (F : res A -> B) s r s' : run (with_lock false fuel I body) s = (Some r, s') ->
    exists r2, run (with_lock false fuel I (ptry body (fun a => Ret (F (Ok a))) (fun e => Ret (F (Exc e))))) s = (Some r2, s') /\
      (r2 = Ok (F r) \/ exists e, r = Exc e /\ r2 = Exc e).
  Proof.
    unfold with_lock. rewrite !run_bind. destruct (run (lock_init I) s) as [[[l0|e]|] s1]; [|intros [= <- <-]; exists (Exc e); eauto|discriminate].
    rewrite !run_bind. destruct (run (enter fuel l0) s1) as [[[l|e]|] s2]; [|intros [= <- <-]; exists (Exc e); eauto|discriminate].
    rewrite !run_ptry. destruct (run body s2) as [[[a|e]|] s3]; [| |discriminate]; cbn [run]; rewrite !run_bind;
      destruct (run (release l) s3) as [[[u|e']|] s4]; try discriminate; cbn [run]; intros [= <- <-]; eexists; (split; [reflexivity|]); eauto.
  Qed.

  Hypothesis p_open : ix_no_lockout (p_index p) = false.
  Notation I := (ix_name (p_index p)).
  Notation M := (ix_mem (p_index p)).
  Notation start s := (team_start hash dec isnone p ops s).
  Lemma p_eq : mkIndex I M false = p_index p.
  Proof. rewrite <- p_open. now destruct (p_index p). Qed.

  Definition ends_with (s : store) (x : pout V) (s' : store) : Prop := exists n, over_with (play n (start s)) i x /\ board_of (play n (start s)) = s'.

  (** Over without the lock. *)
  Lemma ends_before s x s' : run (before dec isnone p (ops i)) s = (Some (Ok (Some x)), s') -> ends_with s x s'.
  Proof.
    intro Hr. destruct (comes_before _ (start s) _ _ eq_refl Hr) as (t1 & C1 & A1 & G1).
    assert (C2 : comes t1 (mkTeam (guards t1) (set_act (acts t1) i (After (Ret x))))).
    { exists 1. cbn. unfold team_turn. rewrite A1. reflexivity. }
    destruct (comes_trans _ _ _ C1 C2) as [n E]. exists n. rewrite E. split; [apply act_same|]. unfold board_of. cbn [guards]. now rewrite G1.
  Qed.
  (** Through the lock. *)
  Lemma ends_after s s1 r s2 x s' : run (before dec isnone p (ops i)) s = (Some (Ok None), s1) ->
    run (with_lock false fuel I (guarded hash (mkIndex I M false) (at_index (ops i)))) s1 = (Some r, s2) ->
    run (after enc p (ops i) r) s2 = (Some (Ok x), s') -> ends_with s x s'.
  Proof.
    intros Hb Hg Ha. destruct (comes_before _ (start s) _ _ eq_refl Hb) as (t1 & C1 & A1 & G1). cbn [at_end] in A1.
    pose (t2 := mkTeam (guards t1) (set_act (acts t1) i Through)).
    assert (C2 : comes t1 t2) by (exists 1; cbn; unfold team_turn; rewrite A1; reflexivity).
    destruct (Serial_Lemmas.alone hash I M (fun j => at_index (ops j)) fuel i s1 r s2 Hg) as (n & Hs & Hp). cbv zeta in Hs, Hp.
    assert (E2 : guards t2 = g_start hash I M (fun j => at_index (ops j)) s1) by (unfold t2; cbn [guards]; rewrite G1; reflexivity).
    set (g3 := guarded_play fuel (repeat i n) (g_start hash I M (fun j => at_index (ops j)) s1)) in *.
    assert (C3 : comes t2 (mkTeam g3 (acts t2))).
    { unfold g3. rewrite <- E2. destruct (procs (users g3) i) as [q|l|q|q|l|q r'|r'] eqn:Ep; try contradiction.
      apply (comes_through n t2 r'); [apply act_same|]. rewrite E2. exact Ep. }
    pose (t4 := mkTeam g3 (set_act (acts t2) i (After (after enc p (ops i) r)))).
    assert (C4 : comes (mkTeam g3 (acts t2)) t4).
    { exists 1. cbn [repeat team_play]. unfold team_turn. cbn [acts guards]. unfold t2 at 1. cbn [acts]. rewrite act_same.
      destruct (procs (users g3) i) as [q|l|q|q|l|q r'|r']; try contradiction. destruct r' as [u|e]; [rewrite Hp|rewrite <- Hp]; reflexivity. }
    destruct (comes_after _ t4 _ _ (act_same _ _ _) ltac:(unfold board_of, t4; cbn [guards]; rewrite Hs; exact Ha)) as (t5 & C5 & A5 & G5).
    destruct (comes_trans _ _ _ C1 (comes_trans _ _ _ C2 (comes_trans _ _ _ C3 (comes_trans _ _ _ C4 C5)))) as [k E].
    exists k. rewrite E. split; [exact A5|]. unfold board_of. now rewrite G5.
  Qed.

  Lemma done_run {A} (q : prog A) s : run (Pad_Spec.done q) s = match run q s with (Some r, s') => (Some (Ok r), s') | (None, s') => (None, s') end.
  Proof. unfold Pad_Spec.done. rewrite run_ptry. destruct (run q s) as [[[a|e]|] s']; reflexivity. Qed.

  Lemma alone_op s x s' :
    run (match ops i with
         | PSet k w ok => let! r := Pad_Spec.done (np_set hash enc fuel p k w false ok) in Ret (WDone r)
         | PGet k => let! r := Pad_Spec.done (np_getitem dec isnone p k) in Ret (WGot r)
         | PGetDefault k => let! r := Pad_Spec.done (np_get dec isnone p k) in Ret (WGotDefault r)
         | PDel k => let! r := Pad_Spec.done (np_del hash fuel p k) in Ret (WDone r)
         | PKeys => let! l := np_keys p in Ret (WKeys l)
         | PItems => let! r := Pad_Spec.done (np_items dec isnone p) in Ret (WItems r)
         | PClear => Stuck
         end) s = (Some (Ok x), s') -> ends_with s x s'.
  Proof.
    destruct (ops i) as [k w ok|k|k|k| | |] eqn:Eo; intro Hr.
    - rewrite run_bind, done_run in Hr. unfold np_set in Hr. destruct (kisstr k && starts_index (ktext k)) eqn:Ek.
      + cbn [run] in Hr. injection Hr as <- <-. apply ends_before. rewrite Eo. cbn [before]. now rewrite Ek.
      + rewrite run_ptry, run_bind in Hr. unfold tag_add in Hr. rewrite p_open in Hr.
        destruct (run (with_lock false fuel I (_add hash (p_index p) k ok)) s) as [[r|] s2] eqn:El; [|discriminate].
        destruct (lock_done I _ (fun r => OPos r) s r s2 El) as (r2 & El2 & Hr2).
        apply (ends_after s s r2 s2); rewrite ?Eo; [cbn [before]; now rewrite Ek|cbn [at_index guarded]; rewrite p_eq; exact El2|].
        destruct r as [z|e].
        * destruct Hr2 as [->|(e & X & _)]; [|discriminate]. cbn [after]. rewrite run_ptry.
          destruct (run (memorize enc w (pad_address (p_prefix p) (ktext k)) ok) s2) as [[[u|e]|] s3]; [exact Hr| |discriminate].
          destruct e; exact Hr.
        * destruct Hr2 as [->|(e' & [= <-] & ->)]; cbn [after]; destruct e; exact Hr.
    - apply ends_before. rewrite Eo. cbn [before]. rewrite run_bind in Hr. rewrite run_bind. destruct (run (Pad_Spec.done (np_getitem dec isnone p k)) s) as [[[r|e]|] s1]; try discriminate.
      cbn [run] in *. inversion Hr; subst. reflexivity.
    - apply ends_before. rewrite Eo. cbn [before]. rewrite run_bind in Hr. rewrite run_bind. destruct (run (Pad_Spec.done (np_get dec isnone p k)) s) as [[[r|e]|] s1]; try discriminate.
      cbn [run] in *. inversion Hr; subst. reflexivity.
    - rewrite run_bind, done_run in Hr. unfold np_del in Hr. destruct (reserved_name k) eqn:Ek.
      + cbn [run] in Hr. injection Hr as <- <-. apply ends_before. rewrite Eo. cbn [before]. now rewrite Ek.
      + rewrite run_ptry, run_bind in Hr. destruct (run (delete_block (pad_address (p_prefix p) (ktext k)) false) s) as [[[u|e]|] s1] eqn:Ed; [| |discriminate].
        * unfold tag_remove, tag_del_ in Hr. rewrite p_open, run_bind in Hr.
          destruct (run (with_lock false fuel I (_delitem hash (p_index p) k)) s1) as [[r|] s2] eqn:El; [|discriminate].
          destruct (lock_done I _ (fun r => OPos (match r with Ok a => Ok (fst a) | Exc e => Exc e end)) s1 r s2 El) as (r2 & El2 & Hr2).
          apply (ends_after s s1 r2 s2); rewrite ?Eo; [cbn [before]; rewrite Ek, run_ptry, Ed; reflexivity|cbn [at_index guarded]; rewrite p_eq; exact El2|].
          destruct r as [z|e].
          -- destruct Hr2 as [->|(e & X & _)]; [|discriminate]. exact Hr.
          -- destruct Hr2 as [->|(e' & [= <-] & ->)]; cbn [after gone]; destruct e; exact Hr.
        * apply ends_before. rewrite Eo. cbn [before]. rewrite Ek, run_ptry, Ed. unfold gone. destruct e; cbn [run] in *; injection Hr as <- <-; reflexivity.
    - apply ends_before. rewrite Eo. cbn [before]. rewrite run_bind in Hr. rewrite run_bind. destruct (run (np_keys p) s) as [[[r|e]|] s1]; try discriminate.
      cbn [run] in *. inversion Hr; subst. reflexivity.
    - apply ends_before. rewrite Eo. cbn [before]. rewrite run_bind in Hr. rewrite run_bind. destruct (run (Pad_Spec.done (np_items dec isnone p)) s) as [[[r|e]|] s1]; try discriminate.
      cbn [run] in *. inversion Hr; subst. reflexivity.
    - discriminate.
  Qed.
End Alone.

Lemma notepad_open P nl s pd s' : run (notepad P false nl) s = (Some (Ok pd), s') -> ix_no_lockout (p_index pd) = nl.
Proof.
  unfold notepad, tag_index. rewrite !run_bind. intro Hr. destruct (run (exists_block (pad_index P)) s) as [[[b|e]|] s1]; try discriminate. cbn [run] in Hr.
  destruct (negb b); [discriminate|]. rewrite run_bind in Hr. destruct (run (shm_attach (pad_index P)) s1) as [[[m|e]|] s2]; try discriminate. cbn [run] in Hr. now injection Hr as <- _.
Qed.
Lemma alone_visit {V} hash P (enc : V -> res bytes) dec isnone fuel pd ops i s x s' :
  run (notepad P false false) s = (Some (Ok pd), s) -> ops i <> PClear ->
  run (pvisit_prog hash enc dec isnone P (mkPVisit false fuel (ops i))) s = (Some (Ok x), s') ->
  exists n, let t := team_play enc fuel pd ops (repeat i n) (team_start hash dec isnone pd ops s) in over_with t i x /\ board_of t = s'.
Proof.
  intros HN Hc Hr. unfold pvisit_prog in Hr. cbn [pv_nl pv_fuel pv_op] in Hr. rewrite (run_bind_ok _ _ _ _ _ HN) in Hr.
  apply (alone_op hash enc dec isnone fuel pd ops i (notepad_open _ _ _ _ _ HN) s x s'). destruct (ops i); auto. congruence.
Qed.
