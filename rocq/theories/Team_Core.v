(** Operations on different keys, and single operations of a Notepad while
    other processes use other keys. *)
From Verif Require Export Team_Spec Pad_Proofs Serial_Proofs.

(** ** Operations on different keys *)
Section Lists.
  Context {V : Type} (enc : V -> res bytes) (isnone : V -> bool).
  Implicit Types l : list (string * option V).
  Notation step := (pad_step enc isnone).

  Lemma position_value {A} k (l : list (string * A)) : (exists i, position k (map fst l) = Some i) <-> value_of k l <> None.
  Proof. rewrite position_iff. apply value_of_in. Qed.
  Lemma pad_position_none {A} k (l : list (string * A)) : position k (map fst l) = None <-> value_of k l = None.
  Proof. rewrite position_none, value_of_in. destruct (value_of k l); split; intro H; try congruence; auto. exfalso. apply H. discriminate. Qed.

  Lemma key_step_nodup l o k : pop_key o = Some k -> NoDup (map fst l) -> NoDup (map fst (snd (step l o))).
  Proof.
    intros Hk Hd. destruct o as [j v ok|j|j|j| | |]; cbn [pad_step] in *; try discriminate; auto.
    - destruct (position (ktext j) (map fst l)) as [i|] eqn:E.
      + destruct ok; [|exact Hd]. destruct (enc v); cbn [snd]; [|exact Hd]. rewrite put_entry_keys. cbn [fst]. now rewrite put_same.
      + apply position_none in E. destruct (enc v); cbn [snd]; rewrite map_app; cbn [map fst]; apply nodup_snoc; auto.
    - destruct (value_of (ktext j) l) as [[v|]|] eqn:E; cbn [snd]; auto. rewrite swap_entry_keys. apply swap_remove_nodup; auto. eapply value_in; eauto.
  Qed.
  Lemma key_step_other l o k k' : pop_key o = Some k -> NoDup (map fst l) -> ktext k <> k' -> value_of k' (snd (step l o)) = value_of k' l.
  Proof.
    intros Hk Hd Hn. destruct o as [j v ok|j|j|j| | |]; cbn [pad_step pop_key] in *; try discriminate; auto; injection Hk as ->.
    - destruct (position (ktext k) (map fst l)) as [i|] eqn:E.
      + assert (Hin : In (ktext k) (map fst l)) by (apply position_iff; eauto). destruct ok; [|reflexivity]. destruct (enc v); cbn [snd]; [|reflexivity].
        rewrite value_of_put by (cbn; auto). cbn [fst]. now rewrite !eqb_ne.
      + destruct (enc v); cbn [snd]; rewrite value_of_snoc; cbn [fst snd]; rewrite eqb_ne by exact Hn; destruct (value_of k' l); reflexivity.
    - destruct (value_of (ktext k) l) as [[v|]|] eqn:E; cbn [snd]; auto. rewrite value_of_swap; [now rewrite eqb_ne|exact Hd|eapply value_in; eauto].
  Qed.
  Lemma key_step_own l l' o k : pop_key o = Some k -> NoDup (map fst l) -> NoDup (map fst l') -> value_of (ktext k) l = value_of (ktext k) l' ->
    fst (step l o) = fst (step l' o) /\ value_of (ktext k) (snd (step l o)) = value_of (ktext k) (snd (step l' o)).
  Proof.
    intros Hk Hd Hd' E. destruct o as [j v ok|j|j|j| | |]; cbn [pad_step pop_key] in *; try discriminate; injection Hk as ->.
    - destruct (position (ktext k) (map fst l)) as [i|] eqn:E1; destruct (position (ktext k) (map fst l')) as [i'|] eqn:E2.
      + assert (H1 : In (ktext k) (map fst l)) by (apply position_iff; eauto). assert (H2 : In (ktext k) (map fst l')) by (apply position_iff; eauto).
        destruct ok; [|auto]. destruct (enc v); cbn [fst snd]; [|auto]. split; [reflexivity|]. rewrite !value_of_put by (cbn; auto). cbn [fst snd]. now rewrite String.eqb_refl.
      + exfalso. apply pad_position_none in E2. rewrite E2 in E. apply pad_position_none in E. congruence.
      + exfalso. apply pad_position_none in E1. rewrite E1 in E. symmetry in E. apply pad_position_none in E. congruence.
      + apply pad_position_none in E1, E2. destruct (enc v); cbn [fst snd]; (split; [reflexivity|]); rewrite !value_of_snoc, E1, E2; reflexivity.
    - rewrite E. auto.
    - rewrite E. auto.
    - rewrite E. destruct (value_of (ktext k) l') as [[v|]|] eqn:E2; cbn [fst snd]; [|split; congruence|split; congruence]. split; [reflexivity|].
      rewrite !value_of_swap by (auto; eapply value_in; eauto). now rewrite String.eqb_refl.
  Qed.
  (** Seen by the index. *)
  Lemma key_step_index l o k : pop_key o = Some k -> writes o -> (o = PDel k -> held (ktext k) l <> None) ->
    map fst (snd (step l o)) = snd (tags_step (map fst l) (at_index o)).
  Proof.
    intros Hk Hw Hh. destruct o as [j v ok|j|j|j| | |]; try destruct Hw; cbn [pop_key pad_step at_index tags_step] in *; injection Hk as ->.
    - destruct (position (ktext k) (map fst l)) as [i|]; [|destruct (enc v); cbn [snd]; rewrite map_app; reflexivity].
      destruct ok; [|reflexivity]. destruct (enc v); cbn [snd]; [|reflexivity]. rewrite put_entry_keys. cbn [fst]. apply put_same.
    - specialize (Hh eq_refl). unfold held in Hh. destruct (value_of (ktext k) l) as [[v|]|] eqn:E; try congruence. cbn [snd].
      destruct (proj2 (position_value (ktext k) l)) as [i ->]; [congruence|]. apply swap_entry_keys.
  Qed.
  Lemma tags_step_other ks o k k' : op_key o = Some k -> NoDup ks -> ktext k <> k' -> (In k' (snd (tags_step ks o)) <-> In k' ks).
  Proof.
    intros Hk Hd Hn. destruct o as [j ok|j|j|]; cbn [tags_step op_key] in *; try discriminate; injection Hk as ->; [| |tauto].
    - destruct (position (ktext k) ks); cbn [snd]; [tauto|]. rewrite in_app_iff. cbn [In]. intuition.
    - destruct (position (ktext k) ks) as [i|] eqn:E; cbn [snd]; [|tauto]. rewrite swap_remove_in; [|exact Hd|apply position_iff; eauto]. intuition.
  Qed.

  (** Reading and failing deletions change nothing. *)
  Definition locks l (o : pop V) : Prop :=
    match o with PSet _ _ _ => True | PDel k => held (ktext k) l <> None | _ => False end.
  Lemma locks_dec l o : {locks l o} + {~ locks l o}.
  Proof. destruct o as [j v ok|j|j|j| | |]; cbn; auto. destruct (held (ktext j) l); [left; discriminate|right; auto]. Qed.
  Lemma locks_writes l o : locks l o -> writes o.
  Proof. destruct o; cbn; auto. Qed.
  Lemma key_step_idle l o k : pop_key o = Some k -> ~ locks l o -> snd (step l o) = l.
  Proof.
    intros Hk Hn. destruct o as [j v ok|j|j|j| | |]; cbn [pad_step pop_key locks] in *; try discriminate; auto; [tauto|].
    unfold held in Hn. destruct (value_of (ktext j) l) as [[v|]|]; cbn [snd]; auto. destruct Hn. discriminate.
  Qed.
  Lemma locks_held l l' o k : pop_key o = Some k -> value_of (ktext k) l = value_of (ktext k) l' -> locks l o -> locks l' o.
  Proof. intros Hk E. destruct o; cbn in *; auto. injection Hk as ->. unfold held. now rewrite E. Qed.

  Lemma pad_run_app h1 h2 : forall l, pad_run enc isnone l (h1 ++ h2) =
    (fst (pad_run enc isnone l h1) ++ fst (pad_run enc isnone (snd (pad_run enc isnone l h1)) h2), snd (pad_run enc isnone (snd (pad_run enc isnone l h1)) h2)).
  Proof.
    induction h1 as [|o h1 IH]; intro l; cbn [app pad_run fst snd]; [destruct (pad_run enc isnone l h2); reflexivity|].
    destruct (step l o) as [x l1]. rewrite IH. destruct (pad_run enc isnone l1 h1) as [xs l2]. reflexivity.
  Qed.

  Section Many.
    Variable ops : nat -> pop V.
    Variable key : nat -> ikey.
    Hypothesis key_ok : forall i, pop_key (ops i) = Some (key i).
    Hypothesis apart : forall i j, i <> j -> writes (ops i) -> ktext (key i) <> ktext (key j).
    Variable l0 : list (string * option V).
    Hypothesis l0_nodup : NoDup (map fst l0).
    Definition after_these (is : list nat) : list (string * option V) := snd (pad_run enc isnone l0 (map ops is)).
    Lemma after_snoc is i : after_these (is ++ [i]) = snd (step (after_these is) (ops i)).
    Proof. unfold after_these. rewrite map_app, pad_run_app. cbn [map snd pad_run]. destruct (step (snd (pad_run enc isnone l0 (map ops is))) (ops i)). reflexivity. Qed.
    Lemma after_nodup is : NoDup (map fst (after_these is)).
    Proof. induction is as [|i is IH] using rev_ind; [exact l0_nodup|]. rewrite after_snoc. eapply key_step_nodup; eauto. Qed.
    Lemma after_other is k : (forall i, In i is -> writes (ops i) -> ktext (key i) <> k) -> value_of k (after_these is) = value_of k l0.
    Proof.
      induction is as [|i is IH] using rev_ind; intro Hn; [reflexivity|]. rewrite after_snoc.
      assert (IH' : value_of k (after_these is) = value_of k l0) by (apply IH; intros j Hj; apply Hn, in_or_app; auto).
      destruct (locks_dec (after_these is) (ops i)) as [Hl|Hl]; [|erewrite key_step_idle; eauto].
      erewrite key_step_other; eauto; [apply after_nodup|]. apply Hn; [apply in_or_app; right; now left|eapply locks_writes; eauto].
    Qed.
    Lemma after_away is i : ~ In i is -> value_of (ktext (key i)) (after_these is) = value_of (ktext (key i)) l0.
    Proof. intro Hi. apply after_other. intros j Hj Hw. apply apart; [intros ->; auto|exact Hw]. Qed.
    Lemma after_result is i : ~ In i is -> fst (step (after_these is) (ops i)) = fst (step l0 (ops i)).
    Proof. intro Hi. eapply key_step_own; eauto using after_nodup, after_away. Qed.
    Lemma after_in is i : NoDup is -> In i is -> value_of (ktext (key i)) (after_these is) = value_of (ktext (key i)) (snd (step l0 (ops i))).
    Proof.
      induction is as [|j is IH] using rev_ind; intros Hd Hi; [destruct Hi|]. apply nodup_snoc in Hd as [Hd Hj]. rewrite after_snoc.
      destruct (Nat.eq_dec j i) as [->|Hn].
      - eapply key_step_own; eauto using after_nodup, after_away.
      - apply in_app_or in Hi as [Hi|[Hi|[]]]; [|congruence]. destruct (locks_dec (after_these is) (ops j)) as [Hl|Hl]; [|erewrite key_step_idle; eauto].
        erewrite key_step_other; eauto; [apply after_nodup|]. apply apart; [exact Hn|eapply locks_writes; eauto].
    Qed.
    Lemma after_keys is : NoDup is -> (forall i, In i is -> locks l0 (ops i)) ->
      map fst (after_these is) = keys_by (map fst l0) (fun i => at_index (ops i)) is.
    Proof.
      induction is as [|j is IH] using rev_ind; intros Hd Hl; [reflexivity|]. apply nodup_snoc in Hd as [Hd Hj]. rewrite after_snoc, keys_by_snoc.
      assert (Hlj : locks (after_these is) (ops j)) by (eapply locks_held; [apply key_ok|symmetry; now apply after_away|apply Hl, in_or_app; right; now left]).
      rewrite <- IH; [|exact Hd|intros i Hi; apply Hl, in_or_app; auto]. eapply key_step_index; eauto.
      - eapply locks_writes; eauto.
      - intro E. rewrite E in Hlj. exact Hlj.
    Qed.
    (** The same processes, and some more that change nothing. *)
    Lemma after_idle is js : (forall j, In j js -> ~ In j is /\ ~ locks l0 (ops j)) -> NoDup js -> after_these (is ++ js) = after_these is.
    Proof.
      induction js as [|j js IH] using rev_ind; intros Hj Hd; [now rewrite app_nil_r|]. apply nodup_snoc in Hd as [Hd Hjj].
      rewrite app_assoc, after_snoc, IH; [|intros x Hx; apply Hj, in_or_app; auto|exact Hd].
      destruct (Hj j) as [Hi Hl]; [apply in_or_app; right; now left|]. eapply key_step_idle; [apply key_ok|]. intro X. apply Hl. exact (locks_held (after_these is) l0 _ _ (key_ok j) (after_away is j Hi) X).
    Qed.
    (** The index alone. *)
    Lemma keys_nodup is : NoDup (keys_by (map fst l0) (fun i => at_index (ops i)) is).
    Proof. induction is as [|i is IH] using rev_ind; [exact l0_nodup|]. rewrite keys_by_snoc. now apply tags_step_nodup. Qed.
    Lemma keys_away is i : ~ In i is -> (In (ktext (key i)) (keys_by (map fst l0) (fun i => at_index (ops i)) is) <-> In (ktext (key i)) (map fst l0)).
    Proof.
      induction is as [|j is IH] using rev_ind; intro Hi; [tauto|]. rewrite keys_by_snoc.
      rewrite <- IH by (intro X; apply Hi, in_or_app; auto). assert (Hji : j <> i) by (intros ->; apply Hi, in_or_app; right; now left).
      assert (Ek := key_ok j). assert (Hap := apart j i Hji). destruct (ops j) as [x v ok|x|x|x| | |]; cbn [pop_key at_index writes] in *; try discriminate; injection Ek as ->.
      - eapply tags_step_other; [reflexivity|apply keys_nodup|auto].
      - reflexivity.
      - reflexivity.
      - eapply tags_step_other; [reflexivity|apply keys_nodup|auto].
    Qed.
  End Many.
End Lists.

(** ** Single operations while others use other keys *)
Lemma wp_weaken {A} (R G G' : store -> store -> Prop) (p : prog A) Q E : (forall s s', G s s' -> G' s s') ->
  forall s, wp R G p Q E s -> wp R G' p Q E s.
Proof.
  intro HG. induction p as [a|e| |B o k IH]; cbn; intros s Hp; auto. intros s1 H1. specialize (Hp s1 H1). destruct (step o s1) as [r s2].
  destruct Hp as [H2 H3]. auto.
Qed.

Section Slots.
  Variable P : string.
  Context {V : Type} (enc : V -> res bytes) (dec : bytes -> res V) (isnone : V -> bool).
  Notation slot := (slot P enc dec).
  Notation addr k := (pad_address P k).
  Notation w k := (wp (others (eq (addr k))) (mine (eq (addr k)))).

  Lemma slot_has s k o : slot s k o -> exists c, has s (addr k) c /\
    match o with Some v => exists i b, c = Some (i, b) /\ enc v = Ok b /\ b <> "" /\ dec b = Ok v | None => c = None end.
  Proof.
    destruct o as [v|]; cbn [Pad_Proofs.slot]; [|intro Hn; exists None; auto].
    intros (b & He & Hb & Hd & Hc). destruct (content_at _ _ _ Hc) as [i A]. exists (Some (i, b)). split; [exact A|]. exists i, b. auto.
  Qed.
  Lemma w_slot s k o : wf s -> slot s k o -> exists c, st (eq (addr k)) s [(addr k, c)] s /\
    match o with Some v => exists i b, c = Some (i, b) /\ enc v = Ok b /\ b <> "" /\ dec b = Ok v | None => c = None end.
  Proof.
    intros W Hs. destruct (slot_has s k o Hs) as (c & Hc & Ho). exists c. split; [|exact Ho]. split; [exact W|]. intros a <-. cbn [seen]. now rewrite String.eqb_refl.
  Qed.
  Lemma st_slot s0 L s k v i b : st (eq (addr k)) s0 ((addr k, Some (i, b)) :: L) s -> enc v = Ok b -> b <> "" -> dec b = Ok v -> slot s k (Some v).
  Proof.
    intros HS He Hb Hd. exists b. repeat split; auto. eapply at_content. exact (st_val _ _ _ _ _ _ HS eq_refl (val_hit _ _ _ _)).
  Qed.
  Lemma st_none s0 L s k : st (eq (addr k)) s0 ((addr k, None) :: L) s -> slot s k None.
  Proof. intro HS. exact (st_val _ _ _ _ _ _ HS eq_refl (val_hit _ _ _ _)). Qed.

  Lemma w_del_some s k v (Q : unit -> store -> Prop) E : wf s -> slot s k (Some v) -> (forall s', wf s' -> slot s' k None -> Q tt s') ->
    w k (delete_block (addr k) false) Q E s.
  Proof.
    intros W Hs HQ. destruct (w_slot s k (Some v) W Hs) as (c & HS & i & b & -> & He & Hb & Hd).
    eapply w_delete; [exact HS|reflexivity|apply val_hit|exact Hb|]. intros s' HS'. apply HQ; [apply HS'|eapply st_none; exact HS'].
  Qed.
  Lemma w_del_none s k Q (E : exn -> store -> Prop) : wf s -> slot s k None -> (forall s', wf s' -> slot s' k None -> E FileNotFoundError s') ->
    w k (delete_block (addr k) false) Q E s.
  Proof.
    intros W Hs HE. destruct (w_slot s k None W Hs) as (c & HS & ->). unfold delete_block. apply wp_ptry, wp_bind.
    eapply w_attach_none; [exact HS|reflexivity|apply val_hit|]. intros s' HS'. cbn [wp]. apply HE; [apply HS'|eapply st_none; exact HS'].
  Qed.
  Lemma w_memorize s k o v b ok (Q : string -> store -> Prop) E : wf s -> slot s k o -> enc v = Ok b -> b <> "" -> dec b = Ok v -> (o <> None -> ok = true) ->
    (forall s', wf s' -> slot s' k (Some v) -> Q (addr k) s') -> w k (memorize enc v (addr k) ok) Q E s.
  Proof.
    intros W Hs He Hb Hd Ho HQ. destruct (w_slot s k o W Hs) as (c & HS & Hc). unfold memorize. apply wp_bind.
    assert (Hlen : String.length b <> 0) by (destruct b; [congruence|discriminate]).
    assert (Hrest : forall s1, st (eq (addr k)) s [(addr k, c)] s1 ->
      w k (let! encoded := of_res (enc v) in let! block := open_block (addr k) (String.length encoded) true true in shm_write block encoded >>> Ret (addr k)) Q E s1).
    { intros s1 H1. rewrite He. cbn [of_res pbind ptry]. apply wp_bind.
      assert (Hend : forall i s2, st (eq (addr k)) s [(addr k, Some (i, zeros (String.length b))); (addr k, c)] s2 ->
        w k (shm_write (mkHandle (addr k) i) b >>> Ret (addr k)) Q E s2).
      { intros i s2 H2. apply wp_bind. eapply w_write; [exact H2|reflexivity|apply val_hit|now rewrite zeros_length|]. intros s3 H3. cbn [wp].
        apply HQ; [apply H3|eapply st_slot; eauto]. }
      destruct o as [v'|].
      - destruct Hc as (i & b' & -> & _ & Hb' & _). eapply w_open_over; [exact H1|reflexivity|apply val_hit|exact Hb'|exact Hlen|]. exact Hend.
      - subst c. eapply w_open_new; [exact H1|reflexivity|apply val_hit|exact Hlen|]. exact Hend. }
    destruct ok; [cbn [wp]; now apply Hrest|]. destruct o as [v'|]; [specialize (Ho ltac:(discriminate)); discriminate|]. subst c.
    eapply w_exists_not; [exact HS|reflexivity|apply val_hit|]. intros s1 H1. now apply Hrest.
  Qed.
  Lemma w_memorize_not s k o v e ok Q (E : exn -> store -> Prop) : wf s -> slot s k o -> enc v = Exc e -> (o <> None -> ok = true) ->
    (forall s', wf s' -> slot s' k o -> E e s') -> w k (memorize enc v (addr k) ok) Q E s.
  Proof.
    intros W Hs He Ho HE. unfold memorize. apply wp_bind. destruct ok; [cbn [wp]; rewrite He; cbn; auto|].
    destruct o as [v'|]; [specialize (Ho ltac:(discriminate)); discriminate|]. destruct (w_slot s k None W Hs) as (c & HS & ->).
    eapply w_exists_not; [exact HS|reflexivity|apply val_hit|]. intros s1 H1. rewrite He. cbn. apply HE; [apply H1|eapply st_none; exact H1].
  Qed.

  (** Reading changes nothing at all. *)
  Definition still (s s' : store) : Prop := wf s' /\ s' = s.
  Notation r k := (wp (others (eq (addr k))) still).
  Lemma slot_others s s' k o : slot s k o -> others (eq (addr k)) s s' -> slot s' k o.
  Proof. intros Hs [_ H]. eapply slot_same; [exact Hs|]. now apply H. Qed.
  Lemma r_remember s k o (Q : V -> store -> Prop) (E : exn -> store -> Prop) : wf s -> slot s k o ->
    (forall s', wf s' -> slot s' k o -> match o with Some v => Q v s' | None => E FileNotFoundError s' end) ->
    r k (remember dec (addr k)) Q E s.
  Proof.
    intros W Hs HQ. unfold remember, fetch_block_bytes. cbn [shm_attach prim pbind ptry wp]. intros s1 H1. pose proof (slot_others _ _ _ _ Hs H1) as Hs1.
    destruct o as [v|].
    - destruct Hs1 as (b & He & Hb & Hd & Hc) eqn:X; clear X. destruct (content_at _ _ _ Hc) as [i [N1 M1]]. cbn [step]. rewrite N1.
      split; [split; [apply H1|reflexivity]|]. cbn [of_res ptry]. intros s2 H2. assert (Hs2 := slot_others s1 s2 k (Some v) ltac:(exists b; auto) H2).
      destruct Hs2 as (b2 & He2 & Hb2 & Hd2 & Hc2) eqn:X; clear X. destruct (content_at _ _ _ Hc2) as [i2 [N2 M2]].
      assert (i2 = i) as ->. { destruct H2 as [_ H2]. specialize (H2 _ eq_refl). rewrite (same_names _ _ _ H2) in N2. congruence. }
      assert (b2 = b) as -> by congruence. cbn [step]. rewrite M2. destruct b as [|c b]; [congruence|].
      split; [split; [apply H2|reflexivity]|]. cbn [of_res ptry hid shm_read prim pbind]. intros s3 H3. assert (Hs3 := slot_others s2 s3 k (Some v) ltac:(exists (String c b); auto) H3).
      destruct Hs3 as (b3 & He3 & Hb3 & Hd3 & Hc3) eqn:X; clear X. destruct (content_at _ _ _ Hc3) as [i3 [N3 M3]].
      assert (i3 = i) as ->. { destruct H3 as [_ H3]. specialize (H3 _ eq_refl). rewrite (same_names _ _ _ H3) in N3. congruence. }
      assert (b3 = String c b) as -> by congruence. cbn [step]. rewrite M3. split; [split; [apply H3|reflexivity]|]. cbn [of_res ptry]. rewrite Hd. cbn [of_res wp].
      apply (HQ s3); [apply H3|exists (String c b); auto].
    - cbn [Pad_Proofs.slot] in Hs1. cbn [step]. rewrite Hs1. split; [split; [apply H1|reflexivity]|]. cbn [of_res ptry wp]. apply (HQ s1); [apply H1|exact Hs1].
  Qed.
  Lemma r_getitem nl m s k o (Q : V -> store -> Prop) (E : exn -> store -> Prop) : wf s -> slot s (ktext k) o ->
    (forall s', wf s' -> slot s' (ktext k) o -> match look isnone (Some o) with Ok v => Q v s' | Exc e => E e s' end) ->
    r (ktext k) (np_getitem dec isnone (mkPad P (mkIndex (pad_index P) m nl)) k) Q E s.
  Proof.
    intros W Hs HQ. unfold np_getitem. cbn [p_prefix]. apply wp_bind. eapply r_remember; [exact W|exact Hs|]. intros s' W' Hs'. specialize (HQ s' W' Hs').
    cbn [look] in HQ. destruct o as [v|]; [|exact HQ]. destruct (isnone v); exact HQ.
  Qed.
End Slots.
