(** Operations of several processes at one Notepad. *)
From Verif Require Export Team_Core.
From Verif Require Import Serial_Lemmas.

Lemma whole_before {V} dec isnone p (o : pop V) : o <> PClear -> whole (before dec isnone p o).
Proof.
  assert (Ha : forall a, whole (shm_attach a)) by (intro a; unfold shm_attach; whole_tac).
  assert (Hr : forall h, whole (shm_read h)) by (intro h; unfold shm_read; whole_tac).
  assert (Hu : forall h, whole (shm_unlink h)) by (intro h; unfold shm_unlink; whole_tac).
  assert (Hd : forall a m, whole (delete_block a m)) by (intros; unfold delete_block; whole_tac; auto).
  assert (Hg : forall k, whole (np_getitem dec isnone p k)) by (intro k; unfold np_getitem, remember, fetch_block_bytes; whole_tac; auto).
  assert (Hf : forall n i, whole (keys_from (p_index p) n i)) by (induction n as [|n IH]; intro i; cbn [keys_from]; whole_tac; auto).
  assert (Hk : whole (np_keys p)) by (unfold np_keys, update, update_length; whole_tac; auto).
  assert (Hl : forall ks, whole (for_list (fun k => let! v := np_getitem dec isnone p (skey k) in Ret (k, v)) ks)) by (induction ks as [|k ks IH]; cbn [for_list]; whole_tac; auto).
  intro Ho. destruct o as [k v ok|k|k|k| | |]; cbn [before]; unfold done, np_get, np_items; try congruence; whole_tac; auto.
Qed.
Lemma whole_memorize {V} (enc : V -> res bytes) v a ok : whole (memorize enc v a ok).
Proof.
  assert (Hc : forall a n, whole (shm_create a n)) by (intros b [|n]; unfold shm_create; whole_tac).
  assert (Ha : forall a, whole (shm_attach a)) by (intro b; unfold shm_attach; whole_tac).
  assert (Hw : forall h b, whole (shm_write h b)) by (intros h b; unfold shm_write; whole_tac).
  assert (Hu : forall h, whole (shm_unlink h)) by (intro h; unfold shm_unlink; whole_tac).
  assert (Ho : forall a n c w, whole (open_block a n c w)) by (intros; unfold open_block; whole_tac; auto).
  assert (Hx : forall a, whole (exists_block a)) by (intros; unfold exists_block; whole_tac; auto).
  unfold memorize. whole_tac; auto.
Qed.
Lemma whole_next {A} (p q : prog A) s s' : whole p -> prog_step p s = Some (q, s') -> whole q.
Proof. destruct p as [a|e| |B o k]; cbn; try discriminate. intro Hw. destruct (step o s) as [r s2]. intros [= <- _]. apply Hw. Qed.

Lemma join_nodup {A} (a b : list A) : NoDup a -> NoDup b -> (forall x, In x a -> In x b -> False) -> NoDup (a ++ b).
Proof.
  intros Ha Hb Hn. induction a as [|x a IH]; cbn [app]; [exact Hb|]. inversion Ha as [|? ? Hx Ha']; subst. constructor.
  - intro X. apply in_app_or in X as [X|X]; [auto|]. apply (Hn x); cbn; auto.
  - apply IH; [exact Ha'|]. intros y Hy. apply Hn. now right.
Qed.

Section Team.
  Variable hash : bytes -> string.
  Variable K : string -> Prop.
  Hypothesis hash_inj : collision_free hash K.
  Variable P : string.
  Variable m : N.
  Context {V : Type} (enc : V -> res bytes) (dec : bytes -> res V) (isnone : V -> bool).
  Notation I := (pad_index P).
  Notation H := {| hname := pad_index P; hid := m |}.
  Notation Rep ks s := (RepN hash K I m (List.length ks) ks s).
  Notation p := (mkPad P (mkIndex I H false)).
  Notation slot := (slot P enc dec).
  Variable fuel : nat.
  Variable ch : N.
  Variable k0 : Z.
  Variable ops : nat -> pop V.
  Hypothesis ops_own : own_keys enc dec K ops.
  Variable l0 : list (string * option V).
  Hypothesis l0_nodup : NoDup (map fst l0).
  Hypothesis l0_plain : Forall (fun k => starts_index k = false) (map fst l0).
  Variable is : list nat.
  Hypothesis is_nodup : NoDup is.
  Hypothesis l0_short : (Z.of_nat (List.length l0) < 256 ^ 5)%Z.
  Notation step := (pad_step enc isnone).
  Notation iops := (fun i => at_index (ops i)).
  Notation keys l := (keys_by (map fst l0) iops l).
  Notation SI := (SI hash K I m fuel ch k0 iops (map fst l0)).

  Definition key (i : nat) : ikey := match pop_key (ops i) with Some k => k | None => skey "" end.
  Lemma key_ok i : pop_key (ops i) = Some (key i).
  Proof. destruct ops_own as [Hk _]. destruct (Hk i) as (k & E & _). unfold key. now rewrite E. Qed.
  Lemma key_pad i : pad_key K (key i).
  Proof. destruct ops_own as [Hk _]. destruct (Hk i) as (k & E & Hp). unfold key. now rewrite E. Qed.
  Lemma key_apart i j : i <> j -> writes (ops i) -> ktext (key i) <> ktext (key j).
  Proof. intros Hn Hw. destruct ops_own as (_ & _ & Ha). eapply Ha; eauto using key_ok. Qed.
  Lemma key_plain i : starts_index (ktext (key i)) = false.
  Proof. apply key_pad. Qed.
  Lemma iops_plain i k : op_key (iops i) = Some k -> plain_key K k.
  Proof.
    intro E. cbn beta in E. assert (k = key i) as ->; [|apply key_pad]. pose proof (key_ok i) as Ek. destruct (ops i); cbn [pop_key at_index op_key] in *; congruence.
  Qed.

  Notation addr i := (pad_address P (ktext (key i))).
  Notation result i := (fst (step l0 (ops i))).
  Notation final i := (held (ktext (key i)) (snd (step l0 (ops i)))).
  Definition halfway (i : nat) : option V := match ops i with PDel _ => None | _ => held (ktext (key i)) l0 end.
  Definition Rely (i : nat) : store -> store -> Prop := others (eq (addr i)).
  Definition Guar (i : nat) : store -> store -> Prop := mine (fun a => writes (ops i) /\ addr i = a).
  Definition QB (i : nat) (r : option (pout V)) (s : store) : Prop :=
    match r with
    | Some x => x = result i /\ ~ locks l0 (ops i) /\ slot s (ktext (key i)) (final i)
    | None => locks l0 (ops i) /\ slot s (ktext (key i)) (halfway i)
    end.
  Definition QA (i : nat) (x : pout V) (s : store) : Prop := x = result i /\ slot s (ktext (key i)) (final i).
  Notation never := (fun _ _ => False).

  Definition doing (i : nat) (g : gconfig) (a : act V) : Prop :=
    let s := shared (users g) in
    match a with
    | Before q => not_begun I (users g) i /\ whole q /\ wp (Rely i) (Guar i) q (QB i) never s
    | Through => locks l0 (ops i) /\ slot s (ktext (key i)) (halfway i)
    | After q => (locks l0 (ops i) -> procs (users g) i = Finished (Ok tt)) /\ (~ locks l0 (ops i) -> not_begun I (users g) i) /\
        whole q /\ wp (Rely i) (Guar i) q (QA i) never s
    end.
  Record TI (n : nat) (t : team V) : Prop := mkTI {
    ti_si : SI n (guards t);
    ti_doing : forall i, doing i (guards t) (acts t i);
    ti_away : forall i, ~ In i is -> not_begun I (users (guards t)) i;
    ti_rest : forall k, starts_index k = false -> (forall i, In i is -> writes (ops i) -> ktext (key i) <> k) -> slot (board_of t) k (held k l0) }.

  Lemma Rely_trans i s1 s2 s3 : Rely i s1 s2 -> Rely i s2 s3 -> Rely i s1 s3.
  Proof. apply others_trans. Qed.
  Lemma slot_rely i s s' o : slot s (ktext (key i)) o -> Rely i s s' -> slot s' (ktext (key i)) o.
  Proof. intros Hs Hr. eapply slot_others; eauto. Qed.
  Lemma QB_stable i r s s' : QB i r s -> Rely i s s' -> QB i r s'.
  Proof. destruct r as [x|]; cbn; intros HQ HR; intuition (eauto using slot_rely). Qed.
  Lemma QA_stable i x s s' : QA i x s -> Rely i s s' -> QA i x s'.
  Proof. unfold QA. intros [E Hs] HR. eauto using slot_rely. Qed.

  (** *** The programs *)
  Lemma mine_guar i s s' : writes (ops i) -> mine (eq (addr i)) s s' -> Guar i s s'.
  Proof. intros Hw [W O]. split; [exact W|]. eapply only_sub; [exact O|]. auto. Qed.
  Lemma still_guar i s s' : still s s' -> Guar i s s'.
  Proof. intros [W ->]. split; [exact W|apply only_refl]. Qed.

  Lemma starts_reserved k : starts_index (ktext k) = false -> reserved_name k = false.
  Proof. apply reserved_starts. Qed.
  Lemma before_ok i s : wf s -> slot s (ktext (key i)) (held (ktext (key i)) l0) -> wp (Rely i) (Guar i) (before dec isnone p (ops i)) (QB i) never s.
  Proof.
    intros W Hs. pose proof (key_ok i) as Ek. pose proof (key_plain i) as Hp.
    assert (Hidle : ~ locks l0 (ops i) -> final i = held (ktext (key i)) l0) by (intro Hn; erewrite key_step_idle by eauto using key_ok; reflexivity).
    destruct (ops i) as [k v ok|k|k|k| | |] eqn:Eo; cbn [pop_key] in Ek; try discriminate; injection Ek as Ek; rewrite Ek in *; cbn [before p_prefix].
    - rewrite Hp, andb_false_r. cbn [wp QB]. rewrite Eo. split; [exact Logic.I|]. unfold halfway. now rewrite Eo.
    - apply wp_bind. apply (wp_weaken _ still); [apply still_guar|]. apply wp_ptry. unfold Rely. eapply r_getitem; [exact W|exact Hs|].
      intros s' W' Hs'. assert (Hn : ~ locks l0 (PGet (V := V) (key i))) by (cbn; auto).
      assert (E : look isnone (Some (held (ktext (key i)) l0)) = look isnone (value_of (ktext (key i)) l0)).
      { unfold held. destruct (value_of (ktext (key i)) l0) as [[v|]|]; reflexivity. }
      destruct (look isnone (Some (held (ktext (key i)) l0))) as [v|e]; cbn [wp QB]; rewrite Eo; cbn [pad_step fst]; rewrite <- E; (split; [reflexivity|]); (split; [exact Hn|]); exact Hs'.
    - apply wp_bind. apply (wp_weaken _ still); [apply still_guar|]. apply wp_ptry. unfold np_get. apply wp_ptry. unfold Rely. eapply r_getitem; [exact W|exact Hs|].
      intros s' W' Hs'. assert (Hn : ~ locks l0 (PGetDefault (V := V) (key i))) by (cbn; auto).
      assert (E : fst (step l0 (PGetDefault (key i))) =
        WGotDefault (match look isnone (Some (held (ktext (key i)) l0)) with Ok v => Ok (Some v) | Exc KeyError => Ok None | Exc e => Exc e end)).
      { cbn [pad_step fst]. unfold held, look. destruct (value_of (ktext (key i)) l0) as [[v|]|]; try reflexivity. destruct (isnone v); reflexivity. }
      destruct (look isnone (Some (held (ktext (key i)) l0))) as [v|e]; cbn [wp QB]; [|destruct e; cbn [wp QB]]; rewrite Eo, E; (split; [reflexivity|]); (split; [exact Hn|]); exact Hs'.
    - rewrite starts_reserved by exact Hp. apply (wp_weaken _ (mine (eq (addr i)))); [intros x y; apply mine_guar; rewrite Eo; exact Logic.I|]. apply wp_ptry.
      destruct (held (ktext (key i)) l0) as [v|] eqn:Eh.
      + unfold Rely. eapply w_del_some; [exact W|exact Hs|]. intros s' W' Hs'. cbn [wp QB]. rewrite Eo. cbn [locks]. rewrite Eh. split; [discriminate|].
        unfold halfway. now rewrite Eo.
      + unfold Rely. eapply w_del_none; [exact W|exact Hs|]. intros s' W' Hs'. cbn [wp QB gone]. rewrite Eo. split; [|split].
        * cbn [pad_step fst]. unfold held in Eh. destruct (value_of (ktext (key i)) l0) as [[v|]|]; [discriminate|reflexivity|reflexivity].
        * cbn [locks]. rewrite Eh. auto.
        * rewrite Hidle; [exact Hs'|]. cbn [locks]. rewrite Eh. auto.
  Qed.

  Lemma after_ok i s l : wf s -> ~ In i l -> locks l0 (ops i) -> slot s (ktext (key i)) (halfway i) ->
    wp (Rely i) (Guar i) (after enc p (ops i) (Ok (fst (tags_step (keys l) (at_index (ops i)))))) (QA i) never s /\
    whole (after enc p (ops i) (Ok (fst (tags_step (keys l) (at_index (ops i)))))).
  Proof.
    intros W Hi Hl Hs. pose proof (key_ok i) as Ek. pose proof (keys_away ops key key_ok key_apart l0 l0_nodup l i Hi) as Hin. unfold halfway in Hs.
    destruct ops_own as (_ & Hsound & _). specialize (Hsound i).
    destruct (ops i) as [k v ok|k|k|k| | |] eqn:Eo; cbn [pop_key locks] in *; try discriminate; try contradiction; injection Ek as Ek; rewrite Ek in *; cbn [at_index tags_step].
    - assert (Hw : writes (ops i)) by (rewrite Eo; exact Logic.I). specialize (Hsound _ _ _ eq_refl).
      assert (Hrest : forall z, (held (ktext (key i)) l0 <> None -> ok = true) ->
        match enc v with
        | Ok _ => result i = WDone (Ok tt) /\ final i = Some v
        | Exc e => result i = WDone (Exc (as_key e)) /\ final i = held (ktext (key i)) l0
        end ->
        wp (Rely i) (Guar i) (after enc p (PSet (key i) v ok) (Ok (OPos (Ok z)))) (QA i) never s /\ whole (after enc p (PSet (key i) v ok) (Ok (OPos (Ok z))))).
      { intros z Hok Hres. cbn [after p_prefix]. split; [|apply whole_ptry; [apply whole_memorize|intro; exact Logic.I|intro; exact Logic.I]].
        apply (wp_weaken _ (mine (eq (addr i)))); [intros x y; now apply mine_guar|]. apply wp_ptry. unfold Rely. destruct Hsound as [(b & He & Hb & Hd)|[e He]]; rewrite He in Hres.
        - eapply w_memorize; [exact W|exact Hs|exact He|exact Hb|exact Hd|exact Hok|]. intros s' W' Hs'. cbn [wp]. unfold QA. destruct Hres as [R1 R2]. rewrite R1, R2. auto.
        - eapply w_memorize_not; [exact W|exact Hs|exact He|exact Hok|]. intros s' W' Hs'. cbn [wp]. unfold QA. destruct Hres as [R1 R2]. rewrite R1, R2. auto. }
      rewrite Eo in Hrest. cbn [pad_step] in Hrest.
      destruct (position (ktext (key i)) (keys l)) as [z|] eqn:E.
      + assert (Hk : In (ktext (key i)) (map fst l0)) by (apply Hin, position_iff; eauto). destruct (position_in _ _ Hk) as [z0 E0]. rewrite E0 in *.
        destruct ok; cbn [fst].
        * destruct (enc v) as [b|e] eqn:Ee; cbn [fst snd] in *; apply Hrest; auto. split; [reflexivity|]. rewrite held_put by auto. now rewrite String.eqb_refl.
        * cbn [after wp as_key]. split; [|exact Logic.I]. unfold QA. rewrite Eo. cbn [pad_step]. rewrite E0. cbn [fst snd]. split; [reflexivity|exact Hs].
      + assert (Hk : ~ In (ktext (key i)) (map fst l0)) by (rewrite <- Hin; now apply position_none). pose proof (proj2 (position_none _ _) Hk) as E0. rewrite E0 in *.
        pose proof (held_absent _ _ Hk) as Eh. pose proof (value_of_none _ _ Hk) as Ev. cbn [fst].
        destruct (enc v) as [b|e] eqn:Ee; cbn [fst snd] in *; apply Hrest; try (rewrite Eh; congruence).
        * split; [reflexivity|]. rewrite held_snoc, Ev. cbn [fst snd]. now rewrite String.eqb_refl.
        * split; [reflexivity|]. rewrite held_snoc, Ev, Eh. cbn [fst snd]. now rewrite String.eqb_refl.
    - destruct (value_of (ktext (key i)) l0) as [o|] eqn:Ev; unfold held in Hl; rewrite Ev in Hl; [|destruct Hl; reflexivity]. destruct o as [v|]; [|destruct Hl; reflexivity].
      assert (Hk : In (ktext (key i)) (keys l)) by (apply Hin; eapply value_in; eauto). destruct (position_in _ _ Hk) as [z E]. rewrite E. cbn [fst after wp].
      split; [|exact Logic.I]. unfold QA. rewrite Eo. cbn [pad_step]. rewrite Ev. cbn [fst snd]. split; [reflexivity|].
      rewrite held_swap; [now rewrite String.eqb_refl|exact l0_nodup|eapply value_in; eauto].
  Qed.

  (** *** Moves *)
  Lemma doing_env i g g' a : doing i g a -> procs (users g') i = procs (users g) i -> Rely i (shared (users g)) (shared (users g')) -> doing i g' a.
  Proof.
    intros HD Hp HR. unfold doing, not_begun in *. destruct a as [q| |q]; rewrite ?Hp.
    - destruct HD as (H1 & H2 & H3). split; [exact H1|]. split; [exact H2|]. eapply wp_stable; [apply Rely_trans|apply QB_stable|auto|exact H3|exact HR].
    - destruct HD as [H1 H2]. split; [exact H1|]. eapply slot_rely; eauto.
    - destruct HD as (H1 & H2 & H3 & H4). split; [exact H1|]. split; [exact H2|]. split; [exact H3|].
      eapply wp_stable; [apply Rely_trans|apply QA_stable|auto|exact H4|exact HR].
  Qed.
  Lemma act_same f i (a : act V) : set_act f i a i = a. Proof. unfold set_act. now rewrite Nat.eqb_refl. Qed.
  Lemma act_other f i (a : act V) j : j <> i -> set_act f i a j = f j. Proof. intro Hn. unfold set_act. now rewrite (proj2 (Nat.eqb_neq j i) Hn). Qed.

  Lemma guar_rely i j s s' : i <> j -> Guar i s s' -> Rely j s s'.
  Proof.
    intros Hn [W O]. split; [exact W|]. intros a <-. apply O. intros [Hw E]. apply pad_inj in E. exact (key_apart i j Hn Hw E).
  Qed.
  Lemma guar_rest i s s' k : Guar i s s' -> (writes (ops i) -> ktext (key i) <> k) -> same_at s s' (pad_address P k).
  Proof. intros [_ O] Hn. apply O. intros [Hw E]. apply pad_inj in E. exact (Hn Hw E). Qed.
  Lemma guar_index i s s' a : Guar i s s' -> index_names hash I a -> same_at s s' a.
  Proof. intros [_ O] Ha. apply O. intros [_ <-]. exact (index_pad_away hash P _ (key_plain i) Ha). Qed.

  (** One operation of [i] on its own block. *)
  Lemma TI_own n t i s a : TI n t -> In i is -> Guar i (board_of t) s -> doing i (on_store s (guards t)) a -> TI n (mkTeam (on_store s (guards t)) (set_act (acts t) i a)).
  Proof.
    intros [H1 H2 HA H3] Hi HG HD. constructor; cbn [guards acts].
    - apply SI_env; [exact H1|apply HG|]. intros b Hb. eapply guar_index; eauto.
    - intro j. destruct (Nat.eq_dec j i) as [->|Hj]; [now rewrite act_same|]. rewrite act_other by exact Hj. eapply doing_env; [apply H2|reflexivity|].
      cbn. eapply guar_rely; [|exact HG]. auto.
    - exact HA.
    - intros k Hk Hn. cbn. eapply slot_same; [apply H3; auto|]. eapply guar_rest; eauto.
  Qed.
  Lemma TI_pass n t i a : TI n t -> doing i (guards t) a -> TI n (mkTeam (guards t) (set_act (acts t) i a)).
  Proof.
    intros [H1 H2 HA H3] HD. constructor; cbn [guards acts]; auto. intro j. destruct (Nat.eq_dec j i) as [->|Hj]; [now rewrite act_same|]. now rewrite act_other.
  Qed.

  (** A turn at the lock or inside touches blocks of the index only. *)
  Lemma turn_index n g j : SI n g -> (k0 + Z.of_nat n < 256 ^ 5)%Z ->
    only_at (index_names hash I) (shared (users g)) (shared (users (guarded_turn fuel j g))).
  Proof.
    intros HS Hb. assert (Hgo : only_at (index_names hash I) (shared (users g)) (shared (go fuel j (users g)))).
    { eapply only_sub; [eapply go_lock; [apply HS|exact Hb]|]. intros a Ha. right; right; right; exact Ha. }
    unfold guarded_turn. destruct (procs (users g) j) as [q|l|q|q|l|q r|r] eqn:Ej; cbn [users]; auto.
    destruct (si_held _ _ _ _ _ _ _ _ _ _ _ HS j (ex_intro _ l Ej)) as (x & _ & Hw).
    destruct (todo g j) as [out|e| |B o f]; cbn [prog_step outcome users]; auto; [apply only_refl|].
    cbn [wp] in Hw. assert (W : wf (shared (users g))) by (eapply Inv_wf; apply HS). specialize (Hw (shared (users g)) (conj W (fun a _ => same_refl _ a))).
    destruct (Shm_Model.step o (shared (users g))) as [r s2]. destruct Hw as [[_ O] _]. cbn [users shared]. eapply only_sub; [exact O|].
    intros a Ha. unfold index_names. unfold rep_names in Ha. tauto.
  Qed.
  Lemma turn_procs j g i : i <> j -> procs (users (guarded_turn fuel j g)) i = procs (users g) i.
  Proof.
    intro Hn. unfold guarded_turn. assert (E : procs (go fuel j (users g)) i = procs (users g) i) by (now apply go_other).
    destruct (procs (users g) j); cbn [users]; auto. destruct (prog_step (todo g j) (shared (users g))) as [[q s]|]; cbn [users]; auto.
    destruct (outcome (todo g j)); cbn [users]; auto.
  Qed.

  Lemma TI_more n n' t : TI n t -> n <= n' -> TI n' t.
  Proof. intros [H1 H2 HA H3] Hn. constructor; auto. eapply SI_more; eauto. Qed.
  Lemma TI_guard n t i : TI n t -> In i is -> orderly I (users (guards t)) i -> acts t i = Through -> (k0 + Z.of_nat n < 256 ^ 5)%Z ->
    TI (asks (users (guards t)) i + n) (mkTeam (guarded_turn fuel i (guards t)) (acts t)).
  Proof.
    intros [H1 H2 HA H3] Hi HO Ei Hb. assert (HS' : SI (asks (users (guards t)) i + n) (guarded_turn fuel i (guards t))).
    { apply SI_turn; auto; [apply iops_plain|now rewrite map_length]. }
    pose proof (turn_index n (guards t) i H1 Hb) as Oi. assert (W' : wf (shared (users (guarded_turn fuel i (guards t))))) by (eapply Inv_wf; apply HS').
    assert (Hr : forall k, starts_index k = false -> same_at (board_of t) (shared (users (guarded_turn fuel i (guards t)))) (pad_address P k)).
    { intros k Hk. apply Oi. now apply index_pad_away. }
    constructor; cbn [guards acts].
    - exact HS'.
    - intro j. assert (HR : Rely j (shared (users (guards t))) (shared (users (guarded_turn fuel i (guards t))))).
      { split; [exact W'|]. intros a <-. apply Hr, key_plain. }
      destruct (Nat.eq_dec j i) as [->|Hj]; [|eapply doing_env; [apply H2|now apply turn_procs|exact HR]].
      specialize (H2 i). rewrite Ei in *. cbn [doing] in *. destruct H2 as [L S]. split; [exact L|]. eapply slot_rely; eauto.
    - intros j Hj. unfold not_begun. rewrite turn_procs by congruence. now apply HA.
    - intros k Hk Hn. eapply slot_same; [apply H3; auto|]. now apply Hr.
  Qed.

  Lemma TI_turn n t i : TI n t -> In i is -> (acts t i = Through -> orderly I (users (guards t)) i) -> (k0 + Z.of_nat n < 256 ^ 5)%Z ->
    TI ((match acts t i with Through => asks (users (guards t)) i | _ => 0 end) + n) (team_turn enc fuel p ops i t).
  Proof.
    intros HT Hi HO Hb. assert (W : wf (board_of t)) by (eapply Inv_wf; apply HT). assert (HD := ti_doing _ _ HT i). unfold team_turn.
    assert (HR : Rely i (board_of t) (board_of t)) by (split; [exact W|intros; apply same_refl]).
    destruct (acts t i) as [q| |q] eqn:Ea; cbn [doing] in HD.
    - destruct HD as (H1 & H2 & H3). destruct q as [r|e| |B o k]; cbn [prog_step outcome wp] in *.
      + destruct r as [x|]; cbn [QB] in H3.
        * apply TI_pass; [exact HT|]. cbn [doing whole wp]. destruct H3 as (E & Hn & Hs). split; [tauto|]. split; [auto|]. split; [exact Logic.I|]. split; auto.
        * apply TI_pass; [exact HT|]. exact H3.
      + destruct H3.
      + destruct H2.
      + specialize (H3 (board_of t) HR). specialize (H2 (fst (Shm_Model.step o (board_of t)))). destruct (Shm_Model.step o (board_of t)) as [r s2]. destruct H3 as [HG H3].
        apply TI_own; [exact HT|exact Hi|exact HG|]. cbn [doing]. auto.
    - specialize (HO eq_refl). destruct HD as [L S].
      assert (HG : TI (asks (users (guards t)) i + n) (mkTeam (guarded_turn fuel i (guards t)) (acts t))) by (apply TI_guard; auto).
      pose proof (ti_si _ _ HT) as HS.
      destruct (procs (users (guards t)) i) as [q|l|q|q|l|q r|r] eqn:Ei; try exact HG. destruct r as [[]|e].
      2:{ exfalso. pose proof (Inv_finished I fuel ch k0 _ _ _ _ (si_lock _ _ _ _ _ _ _ _ _ _ _ HS) Ei). discriminate. }
      assert (Hin : In i (order (guards t))) by (apply (si_past _ _ _ _ _ _ _ _ _ _ _ HS); rewrite Ei; exact Logic.I).
      destruct (in_split _ _ Hin) as (x & y & Eo). rewrite (si_done _ _ _ _ _ _ _ _ _ _ _ HS x i y Eo) by (intros [l Hl]; congruence).
      apply (TI_more n); [|lia]. apply TI_pass; [exact HT|].
      destruct (after_ok i (board_of t) x W) as [A1 A2]; auto.
      { pose proof (si_nodup _ _ _ _ _ _ _ _ _ _ _ HS) as Hd. rewrite Eo in Hd. apply NoDup_remove_2 in Hd. intro X. apply Hd, in_or_app. auto. }
      cbn [doing]. split; [auto|]. split; [tauto|]. auto.
    - destruct HD as (H1 & H2 & H3 & H4). destruct q as [r|e| |B o k]; cbn [prog_step wp] in *; try exact HT.
      specialize (H4 (board_of t) HR). specialize (H3 (fst (Shm_Model.step o (board_of t)))). destruct (Shm_Model.step o (board_of t)) as [r s2]. destruct H4 as [HG H4].
      apply TI_own; [exact HT|exact Hi|exact HG|]. cbn [doing on_store users procs]. auto.
  Qed.
  Lemma TI_env n t s : TI n t -> wf s -> (forall a, pad_names hash P a -> same_at (board_of t) s a) -> TI n (mkTeam (on_store s (guards t)) (acts t)).
  Proof.
    intros [H1 H2 HA H3] W Hs. constructor; cbn [guards acts].
    - apply SI_env; [exact H1|exact W|]. intros a Ha. apply Hs. now left.
    - intro j. eapply doing_env; [apply H2|reflexivity|]. split; [exact W|]. intros a <-. apply Hs. right. eexists. split; [apply key_plain|reflexivity].
    - exact HA.
    - intros k Hk Hn. cbn. eapply slot_same; [apply H3; auto|]. apply Hs. right. eauto.
  Qed.
  Lemma TI_start s : wf s -> Rep (map fst l0) s -> (forall k, starts_index k = false -> slot s k (held k l0)) ->
    Conc_Mutex.Inv I fuel ch k0 0 (at_start I s) -> TI 0 (team_start hash dec isnone p ops s).
  Proof.
    intros W R Sl HI. constructor.
    - constructor; cbn [guards team_start users todo order g_start at_start procs served shared List.length In p_index ix_name ix_mem].
      + exact HI.
      + constructor.
      + intro j. cbn. tauto.
      + reflexivity.
      + intros l j r E. destruct l; discriminate.
      + intros _. exact R.
      + intros j [l Hj]. discriminate Hj.
      + reflexivity.
      + intro j. apply whole_guarded.
    - intro i. cbn [acts team_start doing]. split; [reflexivity|]. split.
      + apply whole_before. pose proof (key_ok i) as E. intro X. rewrite X in E. discriminate.
      + apply before_ok; [exact W|]. apply Sl, key_plain.
    - reflexivity.
    - intros k Hk _. apply Sl, Hk.
  Qed.

  Lemma moves_keep n t t' : team_moves hash enc fuel p ops is n t t' -> TI 0 t -> (k0 + Z.of_nat n < 256 ^ 5)%Z -> TI n t'.
  Proof.
    induction 1 as [t|n t t' i HM IH Hi HO|n t t' s HM IH W Hs]; intros H0 Hb.
    - exact H0.
    - assert (HT : TI n t') by (apply IH; [exact H0|lia]). eapply TI_more; [apply TI_turn; [exact HT|exact Hi|exact HO|lia]|].
      destruct (acts t' i); try lia. pose proof (asks_one (users (guards t')) i). lia.
    - assert (HT : TI n t') by (apply IH; [exact H0|lia]). apply (TI_more n); [|lia]. now apply TI_env.
  Qed.

  (** *** What that means *)
  Lemma TI_result n t i x : TI n t -> over_with t i x -> x = result i /\ slot (board_of t) (ktext (key i)) (final i).
  Proof. intros HT Ho. pose proof (ti_doing _ _ HT i) as HD. unfold over_with in Ho. rewrite Ho in HD. cbn [doing wp] in HD. apply HD. Qed.

  Lemma TI_locked n t i : TI n t -> In i (order (guards t)) -> locks l0 (ops i).
  Proof.
    intros HT Hi. apply (si_past _ _ _ _ _ _ _ _ _ _ _ (ti_si _ _ HT)) in Hi. pose proof (ti_doing _ _ HT i) as HD. unfold doing, not_begun in HD.
    destruct (acts t i) as [q| |q].
    - destruct HD as [E _]. rewrite E in Hi. destruct Hi.
    - apply HD.
    - destruct HD as (_ & H2 & _). destruct (locks_dec l0 (ops i)) as [L|L]; [exact L|]. rewrite (H2 L) in Hi. destruct Hi.
  Qed.
  Lemma TI_store n t : TI n t -> (forall i, In i is -> over t i) ->
    exists l, Permutation l is /\
      (forall l1 i l2, l = l1 ++ i :: l2 -> over_with t i (fst (step (snd (pad_run enc isnone l0 (map ops l1))) (ops i)))) /\
      PRep hash K P m enc dec (snd (pad_run enc isnone l0 (map ops l))) (board_of t) /\
      free_lock I (k0 + Z.of_nat (List.length (order (guards t)))) (board_of t) /\ List.length (order (guards t)) <= List.length is.
  Proof.
    intros HT Hin. pose proof (ti_si _ _ HT) as HS. set (g := guards t) in *.
    assert (HQ : forall i, procs (users g) i = Finished (Ok tt) /\ In i is /\ locks l0 (ops i) \/ not_begun I (users g) i /\ ~ (In i is /\ locks l0 (ops i))).
    { intro i. destruct (in_dec Nat.eq_dec i is) as [Hi|Hi]; [|right; split; [now apply (ti_away _ _ HT)|tauto]]. destruct (Hin i Hi) as [x Hx].
      pose proof (ti_doing _ _ HT i) as HD. unfold doing in HD. rewrite Hx in HD. destruct HD as (H1 & H2 & _). destruct (locks_dec l0 (ops i)) as [L|L]; [left|right]; auto. split; [auto|tauto]. }
    pose proof (si_nodup _ _ _ _ _ _ _ _ _ _ _ HS) as Hod.
    assert (Hord : forall i, In i (order g) <-> In i is /\ locks l0 (ops i)).
    { intro i. rewrite (si_past _ _ _ _ _ _ _ _ _ _ _ HS i). destruct (HQ i) as [[-> HL]|[E HL]]; [cbn; tauto|]. unfold not_begun in E. rewrite E. cbn. tauto. }
    set (idle := filter (fun i => if locks_dec l0 (ops i) then false else true) is).
    assert (Hidle : forall i, In i idle <-> In i is /\ ~ locks l0 (ops i)).
    { intro i. unfold idle. rewrite filter_In. destruct (locks_dec l0 (ops i)); intuition congruence. }
    assert (Hnd : NoDup idle) by (now apply NoDup_filter).
    exists (order g ++ idle).
    assert (HP : Permutation (order g ++ idle) is).
    { apply NoDup_Permutation; [|exact is_nodup|].
      - apply join_nodup; auto. intros i H1 H2. apply Hord in H1. apply Hidle in H2. tauto.
      - intro i. rewrite in_app_iff, Hord, Hidle. destruct (locks_dec l0 (ops i)); tauto. }
    assert (Eafter : snd (pad_run enc isnone l0 (map ops (order g ++ idle))) = after_these enc isnone ops l0 (order g)).
    { apply (after_idle enc isnone ops key key_ok key_apart l0 l0_nodup); [|exact Hnd]. intros j Hj. apply Hidle in Hj. split; [rewrite Hord; tauto|tauto]. }
    assert (Hno : forall i, ~ inside (users g) i).
    { intros i [l Hl]. destruct (HQ i) as [[E _]|[E _]]; unfold not_begun in *; congruence. }
    split; [exact HP|]. split; [|split; [|split]].
    - intros l1 i l2 E. assert (Hi : In i is) by (eapply Permutation_in; [exact HP|]; rewrite E; apply in_or_app; right; now left).
      destruct (Hin i Hi) as [x Hx]. destruct (TI_result n t i x HT Hx) as [-> _].
      assert (X : ~ In i l1).
      { assert (Y : NoDup (order g ++ idle)) by (eapply Permutation_NoDup; [apply Permutation_sym; exact HP|exact is_nodup]). rewrite E in Y. apply NoDup_remove_2 in Y. intro Z. apply Y, in_or_app. auto. }
      pose proof (after_result enc isnone ops key key_ok key_apart l0 l0_nodup l1 i X) as Er. unfold after_these in Er. rewrite Er. exact Hx.
    - rewrite Eafter. pose proof (after_keys enc isnone ops key key_ok key_apart l0 l0_nodup (order g) Hod ltac:(intros i Hi; now apply Hord)) as Ekeys. constructor.
      + rewrite Ekeys. exact (si_free _ _ _ _ _ _ _ _ _ _ _ HS Hno).
      + intros k Hk. destruct (List.find (fun i => String.eqb (ktext (key i)) k) (order g)) as [i|] eqn:Ef.
        * apply find_some in Ef as [Hi Ek]. apply String.eqb_eq in Ek. subst k. unfold held.
          rewrite (after_in enc isnone ops key key_ok key_apart l0 l0_nodup _ i Hod Hi). apply Hord in Hi as [Hi _]. destruct (Hin i Hi) as [x Hx]. apply (TI_result n t i x HT Hx).
        * assert (Hn : forall i, In i (order g) -> ktext (key i) <> k).
          { intros i Hi E. pose proof (find_none _ _ Ef i Hi) as X. cbn in X. apply String.eqb_neq in X. auto. }
          unfold held. rewrite (after_other enc isnone ops key key_ok l0 l0_nodup) by (intros i Hi _; now apply Hn).
          change (match value_of k l0 with Some v => v | None => None end) with (held k l0).
          destruct (List.find (fun i => String.eqb (ktext (key i)) k) is) as [i|] eqn:Ei.
          -- apply find_some in Ei as [Hi Ek]. apply String.eqb_eq in Ek. subst k. destruct (Hin i Hi) as [x Hx]. destruct (TI_result n t i x HT Hx) as [_ Hs].
             assert (L : ~ locks l0 (ops i)) by (intro L; apply (Hn i); [now apply Hord|reflexivity]). erewrite key_step_idle in Hs by eauto using key_ok. exact Hs.
          -- apply (ti_rest _ _ HT k Hk). intros i Hi _ E. pose proof (find_none _ _ Ei i Hi) as X. cbn in X. apply String.eqb_neq in X. auto.
      + apply Forall_forall. intros k Hk. destruct (List.find (fun i => String.eqb (ktext (key i)) k) (order g)) as [i|] eqn:Ef.
        * apply find_some in Ef as [Hi Ek]. apply String.eqb_eq in Ek. subst k. apply key_plain.
        * rewrite Forall_forall in l0_plain. apply l0_plain. apply value_of_in. apply value_of_in in Hk.
          rewrite (after_other enc isnone ops key key_ok l0 l0_nodup) in Hk; [exact Hk|]. intros i Hi _ E. pose proof (find_none _ _ Ef i Hi) as X. cbn in X. apply String.eqb_neq in X. auto.
    - rewrite <- (si_served _ _ _ _ _ _ _ _ _ _ _ HS). eapply Inv_clean; [apply HS|]. intro i. destruct (HQ i) as [[E _]|[E _]]; [left; eexists; exact E|right; exact E].
    - apply NoDup_incl_length; [exact Hod|]. intros i Hi. now apply Hord in Hi.
  Qed.
End Team.
