(** Proofs about debug=True. *)
From Verif Require Export Pad_Lemmas Debug_Spec.

(** ** Programs that log *)

Section Agree.
  Variables (debug dir : bool) (here : nat -> string) (shown : exn -> string).
  Hypothesis writable : dir = true \/ debug = false.
  Notation ag := (agrees debug).

  Lemma ag_same {A} (m : dprog A) p q : ag m p -> (forall s, run q s = run p s) -> ag m q.
  Proof. intros H E w s. destruct (H w s) as (new & Hn & R). exists new. rewrite E. auto. Qed.
  Lemma ag_ret {A} (a : A) : ag (dret a) (Ret a).
  Proof. intros w s. exists []. rewrite app_nil_r. auto. Qed.
  Lemma ag_raise {A} e : ag (draise e : dprog A) (Raise e).
  Proof. intros w s. exists []. rewrite app_nil_r. auto. Qed.
  Lemma ag_silent {A} (p : prog A) : ag (silent p) p.
  Proof.
    intros w s. exists []. rewrite app_nil_r. split; [reflexivity|]. unfold silent. rewrite run_ptry.
    destruct (run p s) as [[[a|e]|] s']; reflexivity.
  Qed.
  Lemma ag_try {A B} (m : dprog A) p (k : A -> dprog B) k' h h' : ag m p -> (forall a, ag (k a) (k' a)) ->
    (forall e, ag (h e) (h' e)) -> ag (dtry m k h) (ptry p k' h').
  Proof.
    intros Hm Hk Hh w s. destruct (Hm w s) as (n1 & E1 & R1). unfold dtry. rewrite run_ptry.
    destruct (run p s) as [[[a|e]|] s'].
    - destruct (Hk a (w ++ n1) s') as (n2 & E2 & R2). exists (n1 ++ n2). split.
      + intro D. now rewrite E1, E2.
      + rewrite (run_bind_ok _ _ _ _ _ R1). cbn [fst snd]. rewrite R2, app_assoc. reflexivity.
    - destruct (Hh e (w ++ n1) s') as (n2 & E2 & R2). exists (n1 ++ n2). split.
      + intro D. now rewrite E1, E2.
      + rewrite (run_bind_ok _ _ _ _ _ R1). cbn [fst snd]. rewrite R2, app_assoc. reflexivity.
    - exists []. split; [reflexivity|]. apply (run_bind_stuck _ _ _ _ R1).
  Qed.
  Lemma ag_bind {A B} (m : dprog A) p (k : A -> dprog B) k' : ag m p -> (forall a, ag (k a) (k' a)) ->
    ag (dbind m k) (pbind p k').
  Proof. intros Hm Hk. apply ag_try; auto using @ag_raise. Qed.
  Lemma ag_say n t : ag (say debug dir here n t) (Ret tt).
  Proof.
    intros w s. unfold say, log. destruct debug.
    - destruct writable as [->|]; [|discriminate]. eexists. split; [discriminate|]. reflexivity.
    - exists []. rewrite app_nil_r. auto.
  Qed.
  Lemma ag_say_try {B} n t (k : unit -> dprog B) h p : ag (k tt) p -> ag (dtry (say debug dir here n t) k h) p.
  Proof.
    intros Hk w s. destruct (ag_say n t w s) as (n1 & E1 & R1). destruct (Hk (w ++ n1) s) as (n2 & E2 & R2).
    exists (n1 ++ n2). split.
    - intro D. now rewrite E1, E2.
    - unfold dtry. rewrite (run_bind_ok _ _ _ _ _ R1). cbn [fst snd]. rewrite R2, app_assoc. reflexivity.
  Qed.
  Lemma ag_say_bind {B} n t (k : unit -> dprog B) p : ag (k tt) p -> ag (dbind (say debug dir here n t) k) p.
  Proof. apply ag_say_try. Qed.

  (** *** The lock *)

  Lemma first_locked_any name ns s :
    run (any_locked name ns) s =
    match run (first_locked name ns) s with
    | (Some (Ok o), s') => (Some (Ok (match o with Some _ => true | None => false end)), s')
    | (Some (Exc e), s') => (Some (Exc e), s')
    | (None, s') => (None, s')
    end.
  Proof.
    revert s. induction ns as [|n r IH]; intro s; cbn [any_locked first_locked]; [reflexivity|].
    rewrite !run_bind. destruct (run (exists_block (lock_address name n)) s) as [[[b|e]|] s']; try reflexivity.
    destruct b; [reflexivity|apply IH].
  Qed.

  Lemma ag_renumber fuel l :
    ag (d_renumber debug dir here fuel l) (ptry (renumber fuel l) (fun l1 => Ret (l1, Ok tt)) (fun e => Ret (l, Exc e))).
  Proof. apply ag_try; [apply ag_silent| |]; intros; [apply ag_say_try|]; apply ag_ret. Qed.

  Lemma ag_wait l :
    ag (d_wait debug dir here l)
      (let l' := add_spin l in
       match l_max_spins l' with
       | Some m => if (m <? l_spins l')%Z then Ret (l', Exc TimeoutError) else Ret (l', Ok tt)
       | None => Ret (l', Ok tt)
       end).
  Proof.
    unfold d_wait. cbv zeta. destruct (l_max_spins (add_spin l)) as [m|]; [|apply ag_ret].
    destruct (m <? l_spins (add_spin l))%Z; [apply ag_say_try|]; apply ag_ret.
  Qed.

  Lemma ag_check l : ag (d_check_acquirement debug dir here l) (check_acquirement l).
  Proof.
    unfold d_check_acquirement, check_acquirement.
    eapply ag_same.
    - apply ag_bind; [apply ag_silent|]. intro o.
      instantiate (1 := fun o => if match o with Some _ => true | None => false end
        then let l' := add_spin l in
             match l_max_spins l' with
             | Some m => if (m <? l_spins l')%Z then Ret (l', Exc TimeoutError) else Ret (l', Ok false)
             | None => Ret (l', Ok false)
             end
        else Ret (l, Ok true)).
      cbv beta. destruct o as [n|]; [|apply ag_say_try, ag_ret]. apply ag_say_try.
      eapply ag_same; [apply ag_bind; [apply ag_wait|intro; apply ag_ret]|]. cbv zeta. intro s.
      destruct (l_max_spins (add_spin l)) as [m|]; [|reflexivity]. destruct (m <? l_spins (add_spin l))%Z; reflexivity.
    - intro s. rewrite !run_bind, first_locked_any.
      match goal with |- context [run (first_locked ?a ?b) s] => destruct (run (first_locked a b) s) as [[[o|e]|] s'] end; reflexivity.
  Qed.

  Lemma ag_acquire_loop fuel : forall l, ag (d_acquire_loop debug dir here fuel l) (acquire_loop fuel l).
  Proof.
    induction fuel as [|f IH]; intro l; cbn [d_acquire_loop acquire_loop]; destruct (l_acquired l); try apply ag_ret.
    - apply ag_silent.
    - apply ag_bind; [apply ag_check|]. intros [l' [b|e]]; cbn [fst snd]; [apply IH|apply ag_ret].
  Qed.

  Lemma ag_acquire fuel l : ag (d_acquire debug dir here fuel l) (acquire fuel l).
  Proof.
    apply ag_try; [apply ag_silent| |].
    - intro h. apply ag_say_try, ag_acquire_loop.
    - intro e. destruct e; try apply ag_ret. apply ag_say_try, ag_acquire_loop.
  Qed.

  Lemma ag_release_block l t o : ag (d_release_block debug dir here l t o) (release_block o).
  Proof.
    destruct o as [h|]; cbn [d_release_block release_block]; [|apply ag_ret].
    eapply ag_same; [apply ag_bind; [apply ag_silent|intro; apply ag_say]|].
    intro s. rewrite run_bind. destruct (run (shm_unlink h) s) as [[[[]|e]|] s']; reflexivity.
  Qed.
  Lemma ag_release l : ag (d_release debug dir here l) (release l).
  Proof.
    unfold d_release, release. apply ag_bind.
    - destruct (l_acquired l); [|apply ag_ret].
      eapply ag_same; [apply ag_bind; [apply ag_silent|intro; apply ag_say]|].
      intro s. rewrite (run_bind _ (fun _ => Ret tt)).
      match goal with |- context [run ?p s] => destruct (run p s) as [[[[]|e]|] s'] end; reflexivity.
    - intro. apply ag_bind; [apply ag_release_block|]. intro. apply ag_bind; [apply ag_release_block|]. intro. apply ag_ret.
  Qed.

  Lemma ag_enter fuel l : ag (d_enter debug dir here shown fuel l) (enter fuel l).
  Proof.
    assert (F : forall (l : lockst) (e : exn),
      ag (if is_Exception e then dbind (say debug dir here (own l) ("crashing out: " ++ shown e))
                                   (fun _ => dbind (d_release debug dir here l) (fun _ => draise e)) else draise e : dprog lockst)
         (if is_Exception e then release l >>> Raise e else Raise e)).
    { intros l' e. destruct (is_Exception e); [|apply ag_raise]. apply ag_say_bind, ag_bind; [apply ag_release|]. intro. apply ag_raise. }
    unfold d_enter, enter. cbv zeta. eapply ag_same.
    - apply ag_bind; [apply ag_renumber|]. intro l1.
      instantiate (1 := fun l1 => match snd l1 with
        | Ok _ => let! lr := acquire fuel (fst l1) in
                  match snd lr with Ok _ => Ret (fst lr) | Exc e => if is_Exception e then release (fst lr) >>> Raise e else Raise e end
        | Exc e => if is_Exception e then release (fst l1) >>> Raise e else Raise e end).
      cbv beta. destruct (snd l1) as [[]|e]; [|apply F]. apply ag_bind; [apply ag_acquire|]. intros [l2 [[]|e]]; cbn [fst snd]; [apply ag_ret|apply F].
    - intro s. rewrite run_bind, !run_ptry. destruct (run (renumber fuel l) s) as [[[l1|e]|] s']; reflexivity.
  Qed.

  Lemma ag_with_lock {A} nl fuel name (b : dprog A) b' : ag b b' ->
    ag (d_with_lock debug dir here shown nl fuel name b) (with_lock nl fuel name b').
  Proof.
    intro Hb. unfold d_with_lock, with_lock. destruct nl; [exact Hb|].
    apply ag_bind; [apply ag_silent|]. intro l0. apply ag_bind; [apply ag_enter|]. intro l1.
    apply ag_try; [exact Hb| |]; intro; apply ag_bind;
      try (unfold d_exit; apply ag_say_bind, ag_release); intro; [apply ag_ret|apply ag_raise].
  Qed.

  (** *** Indexes *)
  Variable hash : bytes -> string.

  Ltac seq s := repeat (rewrite ?run_bind; match goal with
    | |- context [run ?p s] => destruct (run p s) as [[[?|?]|] ?] end).

  Lemma bind_assoc {A B C} (p : prog A) (f : A -> prog B) (g : B -> prog C) s :
    run (pbind (pbind p f) g) s = run (let! a := p in let! b := f a in g b) s.
  Proof. rewrite !run_bind. destruct (run p s) as [[[a|e]|] s']; try reflexivity. now rewrite run_bind. Qed.
  Lemma bind_ext {A B} (p : prog A) (f g : A -> prog B) s : (forall a s', run (f a) s' = run (g a) s') ->
    run (pbind p f) s = run (pbind p g) s.
  Proof. intro E. rewrite !run_bind. destruct (run p s) as [[[a|e]|] s']; auto. Qed.

  Lemma ag_add x k ok : ag (d_add debug dir here hash x k ok) (_add hash x k ok).
  Proof.
    unfold d_add, _add. apply ag_bind; [apply ag_silent|]. intros [p|].
    - destruct ok; [apply ag_say_bind, ag_ret|apply ag_raise].
    - apply ag_bind; [apply ag_silent|]. intro n. eapply ag_same.
      + apply ag_bind; [apply ag_silent|]. intro. apply ag_say_bind, ag_ret.
      + intro s. rewrite bind_assoc. apply bind_ext. intros b s1. rewrite bind_assoc. apply bind_ext. intros u s2.
        rewrite bind_assoc. apply bind_ext. intros h s3. rewrite bind_assoc. apply bind_ext. intros u' s4.
        rewrite bind_assoc. apply bind_ext. intros p s5. rewrite bind_assoc. apply bind_ext. intros nb s6. reflexivity.
  Qed.
  Lemma ag_delitem x k : ag (d_delitem debug dir here hash x k) (_delitem hash x k).
  Proof.
    unfold d_delitem, _delitem. apply ag_bind; [apply ag_silent|]. intros [p|]; [|apply ag_raise].
    apply ag_bind; [apply ag_silent|]. intro n. eapply ag_same.
    - apply ag_bind.
      + instantiate (1 := if (p =? n - 1)%Z then _ else _). destruct (p =? n - 1)%Z.
        * apply ag_bind; [apply ag_silent|intro; apply ag_say].
        * apply ag_bind; [apply ag_silent|intro; apply ag_say].
      + intro. apply ag_bind; [apply ag_silent|]. intro. apply ag_say_bind, ag_ret.
    - intro s. cbv beta. destruct (p =? n - 1)%Z.
      + rewrite (bind_assoc _ (fun _ => Ret tt)). apply bind_ext. intros u s1. rewrite run_bind_ret, bind_assoc. apply bind_ext.
        intros u1 s2. rewrite bind_assoc. reflexivity.
      + rewrite (bind_assoc _ (fun _ => Ret tt)). apply bind_ext. intros u s1. rewrite run_bind_ret, bind_assoc. apply bind_ext.
        intros u1 s2. rewrite bind_assoc. reflexivity.
  Qed.

  Lemma ag_tag_add fuel x k vg ok : ag (d_tag_add debug dir here shown hash fuel x k vg ok) (tag_add hash fuel x k vg ok).
  Proof. unfold d_tag_add, tag_add. destruct vg; [apply ag_raise|apply ag_with_lock, ag_add]. Qed.
  Lemma ag_tag_del fuel x k : ag (d_tag_del debug dir here shown hash fuel x k) (tag_del_ hash fuel x k).
  Proof. apply ag_with_lock, ag_delitem. Qed.
  Lemma ag_tag_remove fuel x k : ag (d_tag_remove debug dir here shown hash fuel x k) (tag_remove hash fuel x k).
  Proof. apply ag_bind; [apply ag_tag_del|]. intro. apply ag_ret. Qed.

  Lemma ag_meta_add {J} (jenc : J -> res bytes) fuel x k v ok :
    ag (d_meta_add debug dir here shown hash jenc fuel x k v ok) (meta_add hash jenc fuel x k v ok).
  Proof.
    apply ag_with_lock. apply ag_bind; [apply ag_add|]. intro p. apply ag_bind; [apply ag_silent|]. intro. apply ag_ret.
  Qed.
  Lemma ag_meta_remove fuel x k : ag (d_meta_remove debug dir here shown hash fuel x k) (meta_remove hash fuel x k).
  Proof.
    apply ag_with_lock. apply ag_bind; [apply ag_tag_del|]. intro r. cbv zeta. eapply ag_same.
    - apply ag_bind; [apply ag_silent|]. intro. apply ag_ret.
    - intro s. rewrite bind_assoc. reflexivity.
  Qed.

  (** *** Notepads *)
  Lemma ag_np_set {V} (enc : V -> res bytes) vstr fuel p k v mg ok :
    ag (d_np_set debug dir here shown hash enc vstr fuel p k v mg ok) (np_set hash enc fuel p k v mg ok).
  Proof.
    unfold d_np_set, np_set. destruct (kisstr k && starts_index (ktext k)); [apply ag_raise|]. eapply ag_same.
    - apply ag_try.
      + apply ag_bind; [apply ag_tag_add|]. intro. apply ag_bind; [apply ag_silent|]. intro. apply ag_say.
      + intro. apply ag_ret.
      + intro e. instantiate (1 := fun e => match e with FileExistsError => Raise KeyError | _ => Raise e end). destruct e; apply ag_raise.
    - intro s. rewrite !run_ptry, !run_bind. destruct (run (tag_add hash fuel (p_index p) k mg ok) s) as [[[i|e]|] s']; try reflexivity.
      rewrite run_bind. destruct (run (memorize enc v (pad_address (p_prefix p) (ktext k)) ok) s') as [[[a|e]|] s2]; reflexivity.
  Qed.
  Lemma ag_np_del fuel p k : ag (d_np_del debug dir here shown hash fuel p k) (np_del hash fuel p k).
  Proof.
    unfold d_np_del, np_del. destruct (reserved_name k); [apply ag_raise|]. apply ag_try.
    - apply ag_bind; [apply ag_silent|]. intro. apply ag_tag_remove.
    - intro. apply ag_ret.
    - intro e. destruct e; apply ag_raise.
  Qed.
  Lemma ag_gp_set jenc itemsize fuel p k a ok :
    ag (d_gp_set debug dir here shown hash jenc itemsize fuel p k a ok) (gp_set hash jenc itemsize fuel p k a ok).
  Proof.
    unfold d_gp_set, gp_set. destruct (kisstr k && starts_index (ktext k)); [apply ag_raise|].
    apply ag_bind; [apply ag_silent|]. intro md. apply ag_bind; [apply ag_meta_add|]. intro. apply ag_ret.
  Qed.
  Lemma ag_gp_del fuel p k : ag (d_gp_del debug dir here shown hash fuel p k) (gp_del hash fuel p k).
  Proof.
    unfold d_gp_del, gp_del. destruct (reserved_name k); [apply ag_raise|]. apply ag_try.
    - apply ag_bind; [apply ag_silent|]. intro. apply ag_meta_remove.
    - intro. apply ag_ret.
    - intro e. destruct e; apply ag_raise.
  Qed.
End Agree.
