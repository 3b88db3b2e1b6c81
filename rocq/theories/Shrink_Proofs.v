(** How readers end, whatever happens around them. *)
From Coq Require Import Lia.
From Verif Require Export Shrink_Spec Crowd_Proofs.

(** Every way in which [p] may end, the store changing as it likes at any
    time, is in [Q]. *)
Fixpoint ends {A} (Q : res A -> Prop) (p : prog A) : Prop :=
  match p with
  | Ret a => Q (Ok a)
  | Raise e => Q (Exc e)
  | Stuck => True
  | Do o k => forall s, ends Q (k (fst (step o s)))
  end.
Lemma ends_ptry {A B} (p : prog A) (k : A -> prog B) h Q :
  ends (fun r => match r with Ok a => ends Q (k a) | Exc e => ends Q (h e) end) p -> ends Q (ptry p k h).
Proof. induction p as [a|e| |C o f IH]; cbn; auto. Qed.
Lemma ends_bind {A B} (p : prog A) (k : A -> prog B) (Q : res B -> Prop) :
  ends (fun r => match r with Ok a => ends Q (k a) | Exc e => Q (Exc e) end) p -> ends Q (pbind p k).
Proof. intro H. apply ends_ptry. exact H. Qed.
Lemma ends_mono {A} (p : prog A) (Q Q' : res A -> Prop) : (forall r, Q r -> Q' r) -> ends Q p -> ends Q' p.
Proof. intro H. induction p as [a|e| |C o f IH]; cbn; auto. Qed.

Lemma ends_attach a : ends (fun r => match r with Ok _ => True | Exc e => e = ValueError \/ e = FileNotFoundError end) (shm_attach a).
Proof.
  cbn [shm_attach prim pbind ptry ends]. intro s. cbn [step]. destruct (names s a) as [i|]; cbn; auto.
  intro s1. destruct (mem s1 i) as [[|? ?]|]; cbn; auto.
Qed.
Lemma ends_read h : ends (fun r => match r with Ok _ => True | Exc e => e = ValueError end) (shm_read h).
Proof. cbn [shm_read prim ends]. intro s. cbn [step]. destruct (mem s (hid h)); cbn; auto. Qed.

Lemma ends_check hash x k : ends (fun r => match r with Ok _ => True | Exc e => e = ValueError \/ e = FileNotFoundError end) (check hash x k).
Proof.
  unfold check, check_raw, exists_block. apply ends_bind, ends_ptry. eapply ends_mono; [|apply ends_attach].
  intros [h|e]; [intros _|intros [->| ->]]; cbn [ends]; auto.
  - apply ends_bind. eapply ends_mono; [|apply ends_attach]. intros [h'|e]; auto. intros _.
    apply ends_bind. eapply ends_mono; [|apply ends_read]. intros [b|e]; cbn; auto.
  - apply ends_bind. eapply ends_mono; [|apply ends_attach]. intros [h'|e]; auto. intros _.
    apply ends_bind. eapply ends_mono; [|apply ends_read]. intros [b|e]; cbn; auto.
Qed.
Lemma ends_keys x n : forall i, ends (fun r => match r with Ok _ => True | Exc e => e = ValueError end) (keys_from x n i).
Proof.
  induction n as [|n IH]; intro i; cbn [keys_from]; [exact Logic.I|]. apply ends_bind, ends_ptry, ends_bind.
  assert (H : forall o : option string, ends (fun r => match r with Ok _ => True | Exc e => e = ValueError end)
    (pbind (keys_from x n (i + 1)) (fun l => Ret match o with Some b => b :: l | None => l end))).
  { intro o. apply ends_bind. eapply ends_mono; [|apply IH]. intros [l|e]; cbn; auto. }
  eapply ends_mono; [|apply ends_attach]. intros [h|e].
  - intros _. eapply ends_mono; [|apply ends_read]. intros [b|e]; [intros _; apply (H (Some b))|intros ->; reflexivity].
  - intros [->| ->]; [reflexivity|apply (H None)].
Qed.
Lemma ends_update x : ends (fun r => match r with Ok _ => True | Exc e => e = ValueError end) (update x).
Proof.
  unfold update, update_length. apply ends_bind, ends_bind. eapply ends_mono; [|apply ends_read].
  intros [b|e]; cbn [ends]; auto. intros _. apply ends_keys.
Qed.

Definition reader_end (r : list visit) (o : res (list iout)) : Prop :=
  match o with
  | Ok outs => Forall2 fits_op r outs
  | Exc e => e = ValueError \/ e = FileNotFoundError /\ exists k, In (ICheck k) (map v_op r)
  end.
Lemma ends_visits hash I m r : only_looks r -> ends (reader_end r) (visits_prog hash I m r).
Proof.
  induction 1 as [|v h Hv _ IH]; cbn [visits_prog]; [constructor|]. apply ends_bind.
  assert (HT : forall a, fits_op v a -> ends (reader_end (v :: h)) (let! xs := visits_prog hash I m h in Ret (a :: xs))).
  { intros a Ha. apply ends_bind. eapply ends_mono; [|exact IH]. intros [outs|e]; cbn; [intro F; constructor; auto|].
    intros [->|[-> [k Hk]]]; [now left|right; split; [reflexivity|exists k; now right]]. }
  unfold visit_prog. unfold fits_op in HT. destruct (v_op v) as [| |k|] eqn:Ev; try contradiction; apply ends_bind.
  - eapply ends_mono; [|apply ends_check]. intros [o|e]; cbn [ends]; [intros _; apply (HT (OFound o)); exact Logic.I|].
    intros [->| ->]; [now left|right; split; [reflexivity|exists k; left; exact Ev]].
  - eapply ends_mono; [|apply ends_update]. intros [l|e]; cbn [ends]; [intros _; apply (HT (OKeys l)); exact Logic.I|now left].
Qed.

Lemma ends_turn {A} (Q : res A -> Prop) ps j s ps' s' : Forall (ends Q) ps -> turn ps j s = (ps', s') -> Forall (ends Q) ps'.
Proof.
  intros HL. unfold turn. destruct (nth_error ps j) as [p|] eqn:Ej; [|intros [= <- <-]; auto].
  destruct p as [a|e| |B o k]; cbn [prog_step]; try (intros [= <- <-]; auto).
  rewrite (list_split _ _ _ Ej) in HL. apply Forall_app in HL. destruct HL as [H1 H2]. inversion H2 as [|? ? Hx H3]; subst. cbn [ends] in Hx.
  specialize (Hx s). destruct (step o s) as [r s2]. intros [= <- <-]. apply Forall_app. split; [exact H1|]. constructor; auto.
Qed.
Lemma ends_watched {A} (Q : res A -> Prop) hash I fuel R n g0 (ps0 : list (prog A)) g ps : watched hash I fuel R n g0 ps0 g ps ->
  Forall (ends Q) ps0 -> Forall (ends Q) ps.
Proof.
  induction 1 as [g0 ps0|n g0 ps0 g ps i HE IH HU|n g0 ps0 g ps s HE IH W Hs|n g0 ps0 g ps j ps' s HE IH Ht]; intro HF; auto.
  exact (ends_turn Q _ _ _ _ _ (IH HF) Ht).
Qed.

Lemma beside_ends ks0 ops g r o : beside ks0 ops g r o -> reader_end r o.
Proof.
  intros (hash & K & I & h0 & m & s & k & fuel & n & p & _ & _ & _ & _ & _ & HL & _ & HW & Ho & _).
  pose proof (ends_watched (reader_end r) _ _ _ _ _ _ _ _ _ HW (Forall_cons _ (ends_visits hash I m r HL) (Forall_nil _))) as HF.
  inversion HF as [|? ? Hp _]; subst. destruct p as [a|e| |B o1 k1]; cbn in Ho; try discriminate; injection Ho as <-; exact Hp.
Qed.
