(** Several processes at one Notepad: statements ready for Team_Props.v. *)
From Verif Require Export Team_Proofs.
From Verif Require Import Serial_Lemmas Done_Proofs.

(** ** What comes before and after the lock is short *)
Lemma before_brief {V} dec isnone p (o : pop V) k s : pop_key o = Some k -> brief any 8 (before dec isnone p o) s.
Proof.
  intro Hk. unfold brief. destruct o as [j v ok|j|j|j| | |]; try discriminate; cbn [before].
  - destruct (kisstr j && starts_index (ktext j)); exact Logic.I.
  - unfold Pad_Spec.done, np_getitem, remember, fetch_block_bytes. brfs.
  - unfold Pad_Spec.done, np_get, np_getitem, remember, fetch_block_bytes. brfs.
  - destruct (reserved_name j); [exact Logic.I|]. unfold delete_block. brfs.
Qed.
Lemma after_brief {V} enc p (o : pop V) r s : whole (after enc p o r) -> brief any 16 (after enc p o r) s.
Proof.
  intro Hw. unfold brief. destruct o as [j v ok|j|j|j| | |], r as [[[z|e]|x|x]|e]; cbn [after] in *; try exact Logic.I; try destruct Hw.
  unfold memorize, open_block, exists_block. brfs.
Qed.

Lemma gturns_glue hash I fuel b1 b2 g g1 g2 : gturns hash I fuel b1 g g1 -> gturns hash I fuel b2 g1 g2 -> gturns hash I fuel (b1 ++ b2) g g2.
Proof.
  induction 1 as [g|g i r g' HO HT IH|g i r g' HO HT IH|g s r g' W Hs HT IH]; intro H2; cbn; auto.
  - apply gturns_go; auto.
  - apply gturns_held; auto.
  - eapply gturns_env; eauto.
Qed.

Section Team.
  Variable hash : bytes -> string.
  Variable K : string -> Prop.
  Hypothesis hash_inj : collision_free hash K.
  Variable P : string.
  Variable m : N.
  Context {V : Type} (enc : V -> res bytes) (dec : bytes -> res V) (isnone : V -> bool).
  Notation I := (pad_index P).
  Notation H := {| hname := pad_index P; hid := m |}.
  Notation p := (mkPad P (mkIndex I H false)).
  Variable fuel : nat.
  Variable ch : N.
  Variable k0 : Z.
  Variable ops : nat -> pop V.
  Hypothesis ops_own : own_keys enc dec K ops.
  Variable l0 : list (string * option V).
  Hypothesis l0_nodup : NoDup (map fst l0).
  Hypothesis l0_plain : Forall (fun k => starts_index k = false) (map fst l0).
  Variable is : list nat.
  Hypothesis is_nodup : NoDup is.
  Hypothesis l0_short : (Z.of_nat (List.length l0) < 256 ^ 5)%Z.
  Hypothesis room : (k0 + Z.of_nat (List.length is) < 256 ^ 5)%Z.
  Notation TI := (TI hash K P m enc dec isnone fuel ch k0 ops l0 is).
  Notation turns := (team_turns hash enc fuel p ops).
  Notation turn := (team_turn enc fuel p ops).
  Notation locker i := (locks l0 (ops i)).

  Definition TU (t : team V) : Prop :=
    exists n, TI n t /\ n + Fair_Proofs.sum is (fun j => unasked (procs (users (guards t)) j)) <= List.length is.

  Lemma turn_unasked i g : In i is -> asks (users g) i + Fair_Proofs.sum is (fun j => unasked (procs (users (guarded_turn fuel i g)) j)) <=
    Fair_Proofs.sum is (fun j => unasked (procs (users g) j)).
  Proof.
    intro Hi. pose proof (sum_unasked (fun _ => True) fuel (fun _ => IUpdate) ltac:(intros ? ? X; discriminate X) [] is is_nodup i (users g) Hi) as Hs. unfold guarded_turn.
    destruct (procs (users g) i) as [q|l|q|q|l|q r|r] eqn:Ei; cbn [users]; try exact Hs.
    destruct (prog_step (todo g i) (shared (users g))) as [[q s]|]; cbn [users procs]; [unfold asks; rewrite Ei; cbn; lia|].
    destruct (outcome (todo g i)); cbn [users]; [exact Hs|unfold asks; rewrite Ei; cbn; lia].
  Qed.
  Lemma TU_turn t i : TU t -> In i is -> (acts t i = Through -> orderly I (users (guards t)) i) -> TU (turn i t).
  Proof.
    intros (n & HT & Hn) Hi HO. assert (Hb : (k0 + Z.of_nat n < 256 ^ 5)%Z) by lia.
    pose proof (TI_turn hash K hash_inj P m enc dec isnone fuel ch k0 ops ops_own l0 l0_nodup is l0_short n t i HT Hi HO Hb) as HT'.
    eexists. split; [exact HT'|]. pose proof (turn_unasked i (guards t) Hi) as Hu. unfold team_turn.
    destruct (acts t i) as [q| |q] eqn:Ea.
    - destruct (prog_step q (board_of t)) as [[q' s]|]; cbn; [exact Hn|]. destruct (outcome q) as [[[x|]|e]|]; cbn; exact Hn.
    - destruct (procs (users (guards t)) i) as [q|l|q|q|l|q r|r] eqn:Ei; cbn [guards]; try lia.
      destruct r as [u|e]; [destruct (outcome (todo (guards t) i))|]; cbn [guards]; try (unfold asks; rewrite Ei; cbn; lia); lia.
    - destruct (prog_step q (board_of t)) as [[q' s]|]; cbn; exact Hn.
  Qed.
  Lemma TU_env t s : TU t -> wf s -> (forall a, pad_names hash P a -> same_at (board_of t) s a) -> TU (mkTeam (on_store s (guards t)) (acts t)).
  Proof. intros (n & HT & Hn) W Hs. exists n. split; [|exact Hn]. eapply TI_env; eauto. Qed.
  Lemma TU_turns b t t' : turns b t t' -> incl b is -> TU t -> TU t'.
  Proof.
    induction 1 as [t|t i b t' HO HT IH|t i b t' Ha HO HT IH|t s b t' W Hs HT IH]; intros Hb HU; auto.
    - apply IH; [intros x Hx; apply Hb; now right|]. apply TU_turn; auto. apply Hb. now left.
    - apply IH; [intros x Hx; apply Hb; now right|exact HU].
    - apply IH; [exact Hb|]. now apply TU_env.
  Qed.
  Lemma turns_split b1 b2 t t' : turns (b1 ++ b2) t t' -> exists t1, turns b1 t t1 /\ turns b2 t1 t'.
  Proof.
    intro HT. remember (b1 ++ b2) as b eqn:E. revert b1 E. induction HT as [t|t i b t' HO HT IH|t i b t' Ha HO HT IH|t s b t' W Hs HT IH]; intros b1 E.
    - destruct b1; [|discriminate]. cbn in E. subst b2. exists t. split; constructor.
    - destruct b1 as [|j b1]; cbn in E; [subst b2; exists t; split; [constructor|now constructor 2]|]. injection E as <- E.
      destruct (IH b1 E) as (c1 & H1 & H2). exists c1. split; [now constructor 2|exact H2].
    - destruct b1 as [|j b1]; cbn in E; [subst b2; exists t; split; [constructor|now constructor 3]|]. injection E as <- E.
      destruct (IH b1 E) as (c1 & H1 & H2). exists c1. split; [now constructor 3|exact H2].
    - destruct (IH b1 E) as (c1 & H1 & H2). exists c1. split; [econstructor 4; eauto|exact H2].
  Qed.

  (** *** Before the lock *)
  Definition lags (r : nat) (a : act V) : Prop := match a with Before q => exists d, (forall s, brief any d q s) /\ d < r | _ => True end.
  Lemma brief_next {A} d (q q' : prog A) s s' : (forall s, brief any d q s) -> prog_step q s = Some (q', s') -> exists d', d = S d' /\ forall s, brief any d' q' s.
  Proof.
    intros HB E. destruct q as [a|e| |B o k]; cbn in E; try discriminate. destruct (brief_go d o k s s (HB s)) as (d' & -> & Hd). destruct (step o s) as [r s2].
    injection E as <- <-. exists d'. split; [reflexivity|]. intro s1. eapply brief_any. exact Hd.
  Qed.
  Lemma turn_act_other i t j : j <> i -> acts (turn i t) j = acts t j.
  Proof.
    intro Hj. unfold team_turn. destruct (acts t i) as [q| |q].
    - destruct (prog_step q (board_of t)) as [[q' s]|]; cbn [acts]; [now apply act_other|]. destruct (outcome q) as [[[x|]|e]|]; cbn [acts]; try reflexivity; now apply act_other.
    - destruct (procs (users (guards t)) i) as [q|l|q|q|l|q r|r]; cbn [acts]; try reflexivity. destruct r as [u|e]; [destruct (outcome (todo (guards t) i))|]; cbn [acts]; try reflexivity; now apply act_other.
    - destruct (prog_step q (board_of t)) as [[q' s]|]; cbn [acts]; [now apply act_other|reflexivity].
  Qed.
  Lemma lags_turn n t i r : TI n t -> lags (S r) (acts t i) -> lags r (acts (turn i t) i).
  Proof.
    intros HT HL. pose proof (ti_doing _ _ _ _ _ _ _ _ _ _ _ _ _ _ _ HT i) as HD. unfold team_turn. destruct (acts t i) as [q| |q] eqn:Ea; cbn [lags doing] in *.
    - destruct HL as (d & HB & Hd). destruct (prog_step q (board_of t)) as [[q' s]|] eqn:Eq; cbn [acts].
      + rewrite act_same. cbn [lags]. destruct (brief_next d q q' _ _ HB Eq) as (d' & -> & HB'). exists d'. split; [exact HB'|lia].
      + destruct HD as (_ & Hw & Hp). destruct q as [x|e| |B o k]; cbn in Hw, Hp; try contradiction.
        * cbn [outcome]. destruct x as [x|]; cbn [acts]; rewrite act_same; exact Logic.I.
        * cbn in Eq. destruct (step o (board_of t)). discriminate.
    - destruct (procs (users (guards t)) i) as [q|l|q|q|l|q r'|r']; cbn [acts]; rewrite ?Ea; try exact Logic.I.
      destruct r' as [u|e]; [destruct (outcome (todo (guards t) i))|]; cbn [acts]; rewrite ?act_same, ?Ea; exact Logic.I.
    - destruct (prog_step q (board_of t)) as [[q' s]|]; cbn [acts]; rewrite ?act_same, ?Ea; exact Logic.I.
  Qed.
  Lemma lags_more r r' a : lags r a -> r <= r' -> lags r' a.
  Proof. destruct a; cbn; auto. intros (d & HB & Hd) Hr. exists d. split; [exact HB|lia]. Qed.
  Lemma lags_turns b t t' i r : turns b t t' -> incl b is -> TU t -> lags r (acts t i) -> lags r (acts t' i).
  Proof.
    intros HT. revert r. induction HT as [t|t j b t' HO HT IH|t j b t' Ha HO HT IH|t s b t' W Hs HT IH]; intros r Hb HU HL; auto.
    - assert (Hj : In j is) by (apply Hb; now left). apply IH; [intros x Hx; apply Hb; now right|now apply TU_turn|].
      destruct (Nat.eq_dec i j) as [->|Hn]; [|now rewrite turn_act_other]. destruct HU as (n & HT' & _). apply (lags_turn n); [exact HT'|]. eapply lags_more; eauto.
    - apply IH; auto. intros x Hx; apply Hb; now right.
    - apply IH; auto. now apply TU_env.
  Qed.
  Lemma lags_piece b t t' i r : turns b t t' -> incl b is -> TU t -> In i b -> lags (S r) (acts t i) -> lags r (acts t' i).
  Proof.
    intros HT. induction HT as [t|t j b t' HO HT IH|t j b t' Ha HO HT IH|t s b t' W Hs HT IH]; intros Hb HU Hi HL.
    - destruct Hi.
    - assert (Hj : In j is) by (apply Hb; now left). assert (Hb' : incl b is) by (intros x Hx; apply Hb; now right).
      destruct (Nat.eq_dec i j) as [->|Hn].
      + eapply lags_turns; [exact HT|exact Hb'|now apply TU_turn|]. destruct HU as (n & HT' & _). now apply (lags_turn n).
      + destruct Hi as [Hi|Hi]; [congruence|]. apply IH; auto; [now apply TU_turn|]. now rewrite turn_act_other.
    - assert (Hb' : incl b is) by (intros x Hx; apply Hb; now right). destruct (Nat.eq_dec i j) as [->|Hn].
      + eapply lags_turns; [exact HT|exact Hb'|exact HU|]. rewrite Ha. exact Logic.I.
      + destruct Hi as [Hi|Hi]; [congruence|]. apply IH; auto.
    - apply IH; auto. now apply TU_env.
  Qed.
  Lemma lags_pieces bs : forall t t' r, turns (List.concat bs) t t' -> (forall b, In b bs -> covers is b) -> TU t ->
    (forall i, In i is -> lags (List.length bs + r) (acts t i)) -> forall i, In i is -> lags r (acts t' i).
  Proof.
    induction bs as [|b bs IH]; intros t t' r HT HB HU HL i Hi; cbn [List.concat List.length plus] in *.
    - eapply lags_turns; [exact HT|intros x []|exact HU|now apply HL].
    - apply turns_split in HT as (t1 & T1 & T2). destruct (HB b (or_introl eq_refl)) as [B1 B2].
      eapply (IH t1); [exact T2|intros x Hx; apply HB; now right|eapply TU_turns; eauto| |exact Hi].
      intros j Hj. eapply lags_piece; [exact T1|exact B2|exact HU|now apply B1|now apply HL].
  Qed.
  Definition out (a : act V) : Prop := match a with Before _ => False | _ => True end.
  Lemma lags_out a : lags 0 a -> out a.
  Proof. destruct a; cbn; auto. intros (d & _ & Hd). lia. Qed.
  Lemma out_lags a : out a -> lags 0 a.
  Proof. destruct a; cbn; auto. intros []. Qed.

  (** *** At the lock *)
  Lemma finished_still g i : procs (users g) i = Finished (Ok tt) -> guarded_turn fuel i g = g.
  Proof.
    intro E. unfold guarded_turn. rewrite E. assert (Eg : go fuel i (users g) = users g) by (unfold go; rewrite E; reflexivity). rewrite Eg, E. now destruct g.
  Qed.
  Lemma finished_orderly g i : procs (users g) i = Finished (Ok tt) -> orderly I (users g) i.
  Proof.
    intros E j _ _. rewrite E. split; [discriminate|]. split; [intros [q Hq]; congruence|]. intros (n & k & r & X). discriminate X.
  Qed.
  Lemma through_finished n t i : TI n t -> acts t i = Through -> procs (users (guards t)) i = Finished (Ok tt) -> guards (turn i t) = guards t.
  Proof.
    intros HT Ea Ep. unfold team_turn. rewrite Ea, Ep. pose proof (ti_si _ _ _ _ _ _ _ _ _ _ _ _ _ _ _ HT) as HS.
    assert (Hin : In i (order (guards t))) by (apply (si_past _ _ _ _ _ _ _ _ _ _ _ HS); rewrite Ep; exact Logic.I).
    destruct (in_split _ _ Hin) as (x & y & Eo). rewrite (si_done _ _ _ _ _ _ _ _ _ _ _ HS x i y Eo) by (intros [l Hl]; congruence). reflexivity.
  Qed.
  Lemma through_guard t i : acts t i = Through -> (forall r, procs (users (guards t)) i <> Finished r) -> guards (turn i t) = guarded_turn fuel i (guards t).
  Proof. intros Ea Hn. unfold team_turn. rewrite Ea. destruct (procs (users (guards t)) i) eqn:E; try reflexivity. destruct (Hn _ eq_refl). Qed.
  Lemma TU_finished t i r : TU t -> procs (users (guards t)) i = Finished r -> r = Ok tt.
  Proof. intros (n & HT & _) E. pose proof (ti_si _ _ _ _ _ _ _ _ _ _ _ _ _ _ _ HT) as HS. exact (Inv_finished I fuel ch k0 _ _ _ _ (si_lock _ _ _ _ _ _ _ _ _ _ _ HS) E). Qed.
  Lemma outside_guard n t i : TI n t -> In i is -> acts t i <> Through -> exists s, wf s /\ (forall a, index_names hash I a -> same_at (board_of t) s a) /\ guards (turn i t) = on_store s (guards t).
  Proof.
    intros HT Hi Ha. assert (W : wf (board_of t)) by (pose proof (ti_si _ _ _ _ _ _ _ _ _ _ _ _ _ _ _ HT) as HS; eapply Inv_wf; apply HS).
    assert (Hsame : exists s, wf s /\ (forall a, index_names hash I a -> same_at (board_of t) s a) /\ guards t = on_store s (guards t)).
    { exists (board_of t). split; [exact W|]. split; [intros; apply same_refl|]. destruct t as [[[x y z] u v] f]. reflexivity. }
    pose proof (ti_doing _ _ _ _ _ _ _ _ _ _ _ _ _ _ _ HT i) as HD. unfold team_turn.
    assert (HR : Rely P ops i (board_of t) (board_of t)) by (split; [exact W|intros; apply same_refl]).
    destruct (acts t i) as [q| |q] eqn:Ea; [| |]; cbn [doing] in HD; [| congruence |].
    - destruct HD as (_ & _ & Hw). destruct (prog_step q (board_of t)) as [[q' s]|] eqn:Eq.
      + destruct q as [x|e| |B o k]; cbn in Eq; try discriminate. cbn [wp] in Hw. specialize (Hw (board_of t) HR). destruct (step o (board_of t)) as [r s2].
        injection Eq as _ <-. destruct Hw as [HG _]. exists s2. split; [apply HG|]. split; [|reflexivity]. intros a Hx. eapply guar_index; eauto.
      + destruct (outcome q) as [[[x|]|e]|]; exact Hsame.
    - destruct HD as (_ & _ & _ & Hw). destruct (prog_step q (board_of t)) as [[q' s]|] eqn:Eq; [|exact Hsame].
      destruct q as [x|e| |B o k]; cbn in Eq; try discriminate. cbn [wp] in Hw. specialize (Hw (board_of t) HR). destruct (step o (board_of t)) as [r s2].
      injection Eq as _ <-. destruct Hw as [HG _]. exists s2. split; [apply HG|]. split; [|reflexivity]. intros a Hx. eapply guar_index; eauto.
  Qed.
  Definition lockers : list nat := filter (fun i => if locks_dec l0 (ops i) then true else false) is.
  Lemma lockers_in i : In i lockers <-> In i is /\ locker i.
  Proof. unfold lockers. rewrite filter_In. destruct (locks_dec l0 (ops i)); intuition congruence. Qed.

  (** What a piece of the schedule is to the index. *)
  Lemma project b t t' : turns b t t' -> incl b is -> TU t ->
    exists b', gturns hash I fuel b' (guards t) (guards t') /\ incl b' lockers /\ List.length b' <= List.length b /\
      ((forall i, In i lockers -> out (acts t i)) -> forall i, In i b -> locker i -> In i b').
  Proof.
    induction 1 as [t|t i b t' HO HT IH|t i b t' Ha HO HT IH|t s b t' W Hs HT IH]; intros Hb HU.
    - exists []. split; [constructor|]. split; [intros x []|]. split; [lia|]. intros _ i [].
    - assert (Hi : In i is) by (apply Hb; now left). assert (Hb' : incl b is) by (intros x Hx; apply Hb; now right).
      pose proof (TU_turn t i HU Hi HO) as HU'. destruct (IH Hb' HU') as (b' & G & I' & L & C). pose proof HU as (n & HTI & _). cbn [List.length].
      assert (Hout : (forall j, In j lockers -> out (acts t j)) -> forall j, In j lockers -> out (acts (turn i t) j)).
      { intros Ho j Hj. destruct (Nat.eq_dec j i) as [->|Hn]; [|rewrite turn_act_other; auto]. apply lags_out. apply (lags_turn n); [exact HTI|]. eapply lags_more; [apply out_lags, Ho, Hj|lia]. }
      assert (Hin : acts t i = Through -> In i lockers).
      { intro E. apply lockers_in. split; [exact Hi|]. pose proof (ti_doing _ _ _ _ _ _ _ _ _ _ _ _ _ _ _ HTI i) as HD. rewrite E in HD. apply HD. }
      assert (Dec : acts t i = Through \/ acts t i <> Through) by (destruct (acts t i); [right|left|right]; congruence).
      destruct Dec as [Ea|Ea].
      + exists (i :: b'). specialize (HO Ea).
        assert (G' : gturns hash I fuel (i :: b') (guards t) (guards t')).
        { assert (D2 : (exists r, procs (users (guards t)) i = Finished r) \/ forall r, procs (users (guards t)) i <> Finished r) by (destruct (procs (users (guards t)) i); eauto; right; congruence).
          destruct D2 as [[r Er]|Hn].
          - rewrite (TU_finished t i r HU Er) in Er. apply gturns_go; [exact HO|]. rewrite finished_still by exact Er. rewrite <- (through_finished n t i HTI Ea Er). exact G.
          - apply gturns_go; [exact HO|]. rewrite <- through_guard by auto. exact G. }
        split; [exact G'|]. split; [intros x [<-|Hx]; auto|]. cbn [List.length]. split; [lia|]. intros Ho j [->|Hj] Hl; [now left|]. right. apply C; auto.
      + destruct (outside_guard n t i HTI Hi Ea) as (s & W & Hs & Eg).
        assert (Genv : gturns hash I fuel b' (guards t) (guards t')) by (apply (gturns_env hash I fuel (guards t) s b' (guards t') W Hs); unfold on_store in Eg; rewrite <- Eg; exact G).
        destruct (locks_dec l0 (ops i)) as [Lk|Lk].
        * destruct (acts t i) as [q| |q] eqn:Eq; [|congruence|].
          -- exists b'. split; [exact Genv|]. split; [exact I'|]. split; [lia|]. intros Ho. exfalso. specialize (Ho i (proj2 (lockers_in i) (conj Hi Lk))). rewrite Eq in Ho. exact Ho.
          -- exists (i :: b'). pose proof (ti_doing _ _ _ _ _ _ _ _ _ _ _ _ _ _ _ HTI i) as HD. rewrite Eq in HD. cbn [doing] in HD. destruct HD as (HF & _). specialize (HF Lk).
             split; [|split; [intros x [<-|Hx]; [now apply lockers_in|auto]|cbn [List.length]; split; [lia|]]].
             ++ apply gturns_go; [now apply finished_orderly|]. now rewrite finished_still.
             ++ intros Ho j [->|Hj] Hl; [now left|]. right. apply C; auto.
        * exists b'. split; [exact Genv|]. split; [exact I'|]. split; [lia|]. intros Ho j [->|Hj] Hl; [contradiction|]. apply C; auto.
    - assert (Hi : In i is) by (apply Hb; now left). assert (Hb' : incl b is) by (intros x Hx; apply Hb; now right).
      destruct (IH Hb' HU) as (b' & G & I' & L & C). exists (i :: b'). cbn [List.length]. split; [now apply gturns_held|]. split; [|split; [lia|]].
      + intros x [<-|Hx]; [|auto]. apply lockers_in. split; [exact Hi|]. destruct HU as (n & HTI & _). pose proof (ti_doing _ _ _ _ _ _ _ _ _ _ _ _ _ _ _ HTI i) as HD. rewrite Ha in HD. apply HD.
      + intros Ho j [->|Hj] Hl; [now left|]. right. apply C; auto.
    - destruct (IH Hb (TU_env t s HU W Hs)) as (b' & G & I' & L & C). exists b'. split; [|auto]. apply (gturns_env hash I fuel (guards t) s); [exact W| |exact G].
      intros a Hx. apply Hs. now left.
  Qed.
  Lemma project_pieces bs : forall t t', turns (List.concat bs) t t' -> (forall b, In b bs -> covers is b) -> TU t -> (forall i, In i is -> out (acts t i)) ->
    exists bs', gturns hash I fuel (List.concat bs') (guards t) (guards t') /\ (forall b, In b bs' -> covers lockers b) /\
      List.length bs' = List.length bs /\ List.length (List.concat bs') <= List.length (List.concat bs) .
  Proof.
    induction bs as [|b bs IH]; intros t t' HT HB HU HO; cbn [List.concat] in HT.
    - destruct (project [] t t' HT ltac:(intros x []) HU) as (b' & G & _ & L & _). destruct b'; [|cbn in L; lia]. exists []. cbn. split; [exact G|]. split; [intros b []|]. split; lia.
    - apply turns_split in HT as (t1 & T1 & T2). destruct (HB b (or_introl eq_refl)) as [B1 B2].
      destruct (project b t t1 T1 B2 HU) as (b' & G & I' & L & C).
      destruct (IH t1 t' T2) as (bs' & G2 & C2 & L2 & M2); [intros x Hx; apply HB; now right|eapply TU_turns; eauto| |].
      { intros i Hi. apply lags_out. eapply lags_turns; [exact T1|exact B2|exact HU|]. now apply out_lags, HO. }
      exists (b' :: bs'). cbn [List.concat List.length]. split; [eapply gturns_glue; eauto|]. split; [|split; [lia|rewrite !app_length; lia]].
      intros x [<-|Hx]; [|auto]. split; [|exact I']. intros i Hi. apply lockers_in in Hi as [Hi Hl]. apply C; auto. intros j Hj. apply HO. now apply lockers_in in Hj.
  Qed.

  (** *** After the lock *)
  Definition ends (t : team V) (i : nat) (r : nat) : Prop :=
    match acts t i with
    | Before _ => False
    | Through => procs (users (guards t)) i = Finished (Ok tt) /\ 16 < r
    | After q => exists d, (forall s, brief any d q s) /\ d <= r
    end.
  Lemma ends_more t i r r' : ends t i r -> r <= r' -> ends t i r'.
  Proof. unfold ends. destruct (acts t i); auto; [intros [H1 H2] Hr; split; [exact H1|lia]|]. intros (d & HB & Hd) Hr. exists d. split; [exact HB|lia]. Qed.
  Lemma ends_turn t i r : TU t -> In i is -> (acts t i = Through -> orderly I (users (guards t)) i) -> ends t i (S r) -> ends (turn i t) i r.
  Proof.
    intros HU Hi HO HE. pose proof (TU_turn t i HU Hi HO) as (n' & HT' & _). pose proof (ti_doing _ _ _ _ _ _ _ _ _ _ _ _ _ _ _ HT' i) as HD'.
    destruct HU as (n & HT & Hn). pose proof (ti_si _ _ _ _ _ _ _ _ _ _ _ _ _ _ _ HT) as HS. pose proof (ti_doing _ _ _ _ _ _ _ _ _ _ _ _ _ _ _ HT i) as HD. revert HD'.
    unfold ends, team_turn in *. destruct (acts t i) as [q| |q] eqn:Ea.
    - destruct HE.
    - destruct HE as [Ep Hr]. rewrite Ep. assert (Hin : In i (order (guards t))) by (apply (si_past _ _ _ _ _ _ _ _ _ _ _ HS); rewrite Ep; exact Logic.I).
      destruct (in_split _ _ Hin) as (x & y & Eo). rewrite (si_done _ _ _ _ _ _ _ _ _ _ _ HS x i y Eo) by (intros [l Hl]; congruence). cbn [acts]. rewrite act_same. cbn [doing].
      intros (_ & _ & Hw & _). exists 16. split; [|lia]. intro s. now apply after_brief.
    - intros _. destruct HE as (d & HB & Hd). destruct HD as (_ & _ & Hw & Hp). destruct (prog_step q (board_of t)) as [[q' s]|] eqn:Eq; cbn [acts].
      + rewrite act_same. destruct (brief_next d q q' _ _ HB Eq) as (d' & -> & HB'). exists d'. split; [exact HB'|lia].
      + rewrite Ea. exists 0. split; [|lia]. intro s. unfold brief. destruct q as [x|e| |B o k]; cbn in *; auto. destruct (step o (board_of t)). discriminate.
  Qed.
  Lemma ends_turn_other t i j r : TU t -> In j is -> (acts t j = Through -> orderly I (users (guards t)) j) -> i <> j -> ends t i r -> ends (turn j t) i r.
  Proof.
    intros HU Hj HO Hn HE. unfold ends in *. rewrite turn_act_other by exact Hn. destruct (acts t i) as [q| |q] eqn:Ea; auto. destruct HE as [Ep Hr]. split; [|exact Hr].
    rewrite <- Ep. unfold team_turn. destruct (acts t j) as [q| |q].
    - destruct (prog_step q (board_of t)) as [[q' s]|]; cbn; auto. destruct (outcome q) as [[[x|]|e]|]; reflexivity.
    - assert (E : procs (users (guarded_turn fuel j (guards t))) i = procs (users (guards t)) i) by (now apply turn_procs).
      destruct (procs (users (guards t)) j) as [q|l|q|q|l|q r'|r'] eqn:Ej; cbn [guards]; auto. destruct r' as [u|e]; [destruct (outcome (todo (guards t) j))|]; cbn [guards]; auto.
    - destruct (prog_step q (board_of t)) as [[q' s]|]; reflexivity.
  Qed.
  Lemma ends_turns b t t' i r : turns b t t' -> incl b is -> TU t -> ends t i r -> ends t' i r.
  Proof.
    intros HT. induction HT as [t|t j b t' HO HT IH|t j b t' Ha HO HT IH|t s b t' W Hs HT IH]; intros Hb HU HE; auto.
    - assert (Hj : In j is) by (apply Hb; now left). apply IH; [intros x Hx; apply Hb; now right|now apply TU_turn|].
      destruct (Nat.eq_dec i j) as [->|Hn]; [|now apply ends_turn_other]. apply ends_turn; auto. eapply ends_more; eauto.
    - apply IH; auto. intros x Hx; apply Hb; now right.
    - apply IH; auto. now apply TU_env.
  Qed.
  Lemma ends_piece b t t' i r : turns b t t' -> incl b is -> TU t -> In i b -> ends t i (S r) -> ends t' i r.
  Proof.
    intros HT. induction HT as [t|t j b t' HO HT IH|t j b t' Ha HO HT IH|t s b t' W Hs HT IH]; intros Hb HU Hi HE.
    - destruct Hi.
    - assert (Hj : In j is) by (apply Hb; now left). assert (Hb' : incl b is) by (intros x Hx; apply Hb; now right).
      destruct (Nat.eq_dec i j) as [->|Hn].
      + eapply ends_turns; [exact HT|exact Hb'|now apply TU_turn|]. now apply ends_turn.
      + destruct Hi as [Hi|Hi]; [congruence|]. apply IH; auto; [now apply TU_turn|]. now apply ends_turn_other.
    - assert (Hb' : incl b is) by (intros x Hx; apply Hb; now right). destruct (Nat.eq_dec i j) as [->|Hn].
      + exfalso. unfold ends in HE. rewrite Ha in HE. destruct HE as [Ep _]. apply HO. now apply finished_orderly.
      + destruct Hi as [Hi|Hi]; [congruence|]. apply IH; auto.
    - apply IH; auto. now apply TU_env.
  Qed.
  Lemma ends_pieces bs : forall t t' r, turns (List.concat bs) t t' -> (forall b, In b bs -> covers is b) -> TU t ->
    (forall i, In i is -> ends t i (List.length bs + r)) -> forall i, In i is -> ends t' i r.
  Proof.
    induction bs as [|b bs IH]; intros t t' r HT HB HU HL i Hi; cbn [List.concat List.length plus] in *.
    - eapply ends_turns; [exact HT|intros x []|exact HU|now apply HL].
    - apply turns_split in HT as (t1 & T1 & T2). destruct (HB b (or_introl eq_refl)) as [B1 B2].
      eapply (IH t1); [exact T2|intros x Hx; apply HB; now right|eapply TU_turns; eauto| |exact Hi].
      intros j Hj. eapply ends_piece; [exact T1|exact B2|exact HU|now apply B1|now apply HL].
  Qed.
  Lemma ends_over t i : TU t -> ends t i 0 -> over t i.
  Proof.
    intros (n & HT & _) HE. pose proof (ti_doing _ _ _ _ _ _ _ _ _ _ _ _ _ _ _ HT i) as HD. unfold ends, over, over_with in *. destruct (acts t i) as [q| |q].
    - destruct HE.
    - lia.
    - destruct HE as (d & HB & Hd). assert (d = 0) as -> by lia. specialize (HB (board_of t)). destruct HD as (_ & _ & _ & Hp). unfold brief in HB.
      destruct q as [x|e| |B o k]; cbn in HB, Hp; try contradiction. eauto.
  Qed.

  Definition short (a : act V) : Prop := match a with After q => forall s, brief any 16 q s | _ => True end.
  Lemma short_turn t i j : TU t -> In i is -> (acts t i = Through -> orderly I (users (guards t)) i) -> short (acts t j) -> short (acts (turn i t) j).
  Proof.
    intros HU Hi HO HS. destruct (Nat.eq_dec j i) as [->|Hn]; [|now rewrite turn_act_other].
    pose proof (TU_turn t i HU Hi HO) as (n' & HT' & _). pose proof (ti_doing _ _ _ _ _ _ _ _ _ _ _ _ _ _ _ HT' i) as HD'. revert HD'.
    unfold team_turn. destruct (acts t i) as [q| |q] eqn:Ea.
    - destruct (prog_step q (board_of t)) as [[q' s]|]; cbn [acts]; [rewrite act_same; intros _; exact Logic.I|].
      destruct (outcome q) as [[[x|]|e]|]; cbn [acts]; rewrite ?act_same, ?Ea; intros _; try exact Logic.I. intro s. exact Logic.I.
    - destruct (procs (users (guards t)) i) as [q|l|q|q|l|q r|r]; cbn [acts]; rewrite ?Ea; try (intros _; exact Logic.I).
      destruct r as [u|e]; [destruct (outcome (todo (guards t) i))|]; cbn [acts]; rewrite ?act_same, ?Ea; cbn [doing short]; try (intros _; exact Logic.I);
        intros (_ & _ & Hw & _) s; now apply after_brief.
    - intros _. destruct (prog_step q (board_of t)) as [[q' s]|] eqn:Eq; cbn [acts]; rewrite ?act_same, ?Ea; [|exact HS].
      cbn [short] in *. destruct (brief_next 16 q q' _ _ HS Eq) as (d' & Ed & HB). intro s1. apply (brief_more any q' d' 16); [lia|apply HB].
  Qed.
  Lemma short_turns b t t' : turns b t t' -> incl b is -> TU t -> (forall j, short (acts t j)) -> forall j, short (acts t' j).
  Proof.
    induction 1 as [t|t i b t' HO HT IH|t i b t' Ha HO HT IH|t s b t' W Hs HT IH]; intros Hb HU HS; auto.
    - assert (Hi : In i is) by (apply Hb; now left). apply IH; [intros x Hx; apply Hb; now right|now apply TU_turn|]. intro j. now apply short_turn.
    - apply IH; auto. intros x Hx; apply Hb; now right.
    - apply IH; auto. now apply TU_env.
  Qed.

  Lemma pieces_incl bs : (forall b, In b bs -> covers is b) -> incl (List.concat bs) is.
  Proof. intros HB x Hx. apply in_concat in Hx as (b & Hb & Hx). now apply (HB b Hb). Qed.

  (** *** All of it *)
  Lemma all_over s bs t : TI 0 (team_start hash dec isnone p ops s) -> free_lock I k0 s -> RepN hash K I m (List.length (map fst l0)) (map fst l0) s ->
    (forall b, In b bs -> covers is b) -> enough_team (List.length is) <= List.length bs -> List.length (List.concat bs) < fuel ->
    turns (List.concat bs) (team_start hash dec isnone p ops s) t ->
    TU t /\ forall i, In i is -> over t i.
  Proof.
    intros H0 HF HR HB He Hl HT. unfold enough_team, enough_guarded in He.
    assert (U0 : TU (team_start hash dec isnone p ops s)).
    { exists 0. split; [exact H0|]. cbn [plus]. clear. unfold Fair_Proofs.sum. induction is as [|j r IH]; cbn [map list_sum fold_right List.length]; [lia|]. unfold list_sum in IH. cbn in *. lia. }
    set (A := firstn 9 bs). set (R := skipn 9 bs). set (q := List.length R - 17). set (B := firstn q R). set (C := skipn q R).
    assert (EA : bs = A ++ B ++ C) by (unfold A, B, C; rewrite firstn_skipn; unfold R; now rewrite firstn_skipn).
    assert (LA : List.length A = 9) by (unfold A; rewrite firstn_length; lia).
    assert (LR : List.length R = List.length bs - 9) by (unfold R; now rewrite skipn_length).
    assert (LC : List.length C = 17) by (unfold C; rewrite skipn_length; unfold q; lia).
    assert (LB : enough_guarded (List.length is) <= List.length B) by (unfold B; rewrite firstn_length; unfold q, enough_guarded; lia).
    clearbody A B C. clear R q LR. subst bs. rewrite !concat_app in HT, Hl. rewrite !app_length in Hl.
    apply turns_split in HT as (t1 & TA & HT). apply turns_split in HT as (t2 & TB & TC).
    assert (CA : forall b, In b A -> covers is b) by (intros b Hb; apply HB, in_or_app; now left).
    assert (CB : forall b, In b B -> covers is b) by (intros b Hb; apply HB, in_or_app; right; apply in_or_app; now left).
    assert (CC : forall b, In b C -> covers is b) by (intros b Hb; apply HB, in_or_app; right; apply in_or_app; now right).
    pose proof (TU_turns _ _ _ TA (pieces_incl A CA) U0) as U1. pose proof (TU_turns _ _ _ TB (pieces_incl B CB) U1) as U2. pose proof (TU_turns _ _ _ TC (pieces_incl C CC) U2) as U3.
    assert (O1 : forall i, In i is -> out (acts t1 i)).
    { intros i Hi. apply lags_out. eapply (lags_pieces A); [exact TA|exact CA|exact U0| |exact Hi]. intros j Hj. cbn [team_start acts lags]. exists 8. split; [|lia].
      intro s1. eapply before_brief. eapply key_ok, ops_own. }
    assert (S2 : forall j, short (acts t2 j)).
    { eapply short_turns; [exact TB|now apply pieces_incl|exact U1|]. eapply short_turns; [exact TA|now apply pieces_incl|exact U0|]. intro j. exact Logic.I. }
    assert (O2 : forall i, In i is -> out (acts t2 i)).
    { intros i Hi. apply lags_out. eapply lags_turns; [exact TB|now apply pieces_incl|exact U1|]. now apply out_lags, O1. }
    destruct (project _ _ _ TA (pieces_incl A CA) U0) as (a' & GA & IA & LA' & _).
    destruct (project_pieces B t1 t2 TB CB U1 O1) as (B' & GB & CB' & LB' & MB').
    assert (Hlk : List.length lockers <= List.length is) by (apply NoDup_incl_length; [apply NoDup_filter, is_nodup|intros i Hi; now apply lockers_in in Hi]).
    assert (Hen : enough_guarded (List.length lockers) <= enough_guarded (List.length is)).
    { unfold enough_guarded, enough. nia. }
    assert (D : done_in_order hash K I H k0 (map fst l0) (fun i => at_index (ops i)) lockers (guards t2)).
    { destruct B' as [|b1 B']; [exfalso; cbn in LB'; unfold enough_guarded in LB; lia|].
      eapply (guarded_done_from hash K I m s k0 (map fst l0) _ fuel lockers ((a' ++ b1) :: B')); auto.
      - intros i key Ek. eapply iops_plain; eauto.
      - intros i _. pose proof (key_ok K enc dec ops ops_own i) as Ek. destruct (ops i); try exact Logic.I; discriminate Ek.
      - apply NoDup_filter, is_nodup.
      - lia.
      - now rewrite map_length.
      - intros b [<-|Hb]; [|apply CB'; now right]. destruct (CB' b1 (or_introl eq_refl)) as [X Y]. split; [intros i Hi; apply in_or_app; right; now apply X|]. apply incl_app; auto.
      - cbn [List.length] in *. lia.
      - cbn [List.concat] in *. rewrite !app_length in *. lia.
      - cbn [List.concat]. rewrite <- app_assoc. eapply gturns_glue; [exact GA|]. exact GB. }
    split; [exact U3|]. intros i Hi. apply ends_over; [exact U3|]. eapply (ends_pieces C); [exact TC|exact CC|exact U2| |exact Hi].
    intros j Hj. unfold ends. specialize (O2 j Hj). specialize (S2 j). destruct (acts t2 j) as [q| |q] eqn:Ea; [destruct O2| |].
    - split; [|lia]. apply D. apply lockers_in. split; [exact Hj|]. destruct U2 as (n & HT2 & _). pose proof (ti_doing _ _ _ _ _ _ _ _ _ _ _ _ _ _ _ HT2 j) as HD. rewrite Ea in HD. apply HD.
    - exists 16. split; [exact S2|lia].
  Qed.
End Team.

(** ** From the history of a notepad *)
Lemma slot_get {V} P (enc : V -> res bytes) dec isnone s k l x : slot P enc dec s (ktext k) (held (ktext k) l) ->
  run (np_getitem dec isnone (mkPad P x) k) s = (Some (look isnone (value_of (ktext k) l)), s).
Proof.
  intro Sl. unfold np_getitem. cbn [p_prefix]. unfold held in Sl. unfold look. destruct (value_of (ktext k) l) as [[v|]|]; cbn [slot] in Sl.
  - destruct Sl as (b & He & Hb & Hd & Hc). destruct (content_at _ _ _ Hc) as [j A].
    rewrite (run_bind_ok _ _ _ _ _ (remember_ok dec s _ j b v A Hb Hd)). destruct (isnone v); reflexivity.
  - now rewrite (run_bind_exc _ _ _ _ _ (remember_missing dec s _ Sl)).
  - now rewrite (run_bind_exc _ _ _ _ _ (remember_missing dec s _ Sl)).
Qed.
Lemma pad_start {V} hash K P (enc : V -> res bytes) dec isnone h s0 s k (pd : pad) :
  preached hash K P enc dec isnone h s0 s -> lock_used (pad_index P) k s -> run (notepad P false false) s = (Some (Ok pd), s) ->
  let l0 := pad_after enc isnone h in
  exists m, pd = mkPad P (mkIndex (pad_index P) (mkHandle (pad_index P) m) false) /\ collision_free hash K /\ wf s /\ PRep hash K P m enc dec l0 s /\ free_lock (pad_index P) k s /\
    NoDup (map fst l0) /\ (Z.of_nat (List.length l0) < 256 ^ 5)%Z.
Proof.
  intros HP [K1 K2] HN l0. destruct (preached_rep _ _ _ _ _ _ _ _ _ HP) as (HC & W & _ & c & R & (Q0 & Q1 & Q2 & _) & Hc). exists (next s0).
  pose proof (notepad_attach _ _ _ _ _ _ _ _ false W R) as E. rewrite E in HN. injection HN as <-. split; [reflexivity|]. split; [exact HC|]. split; [exact W|]. split; [exact R|].
  split; [repeat split; auto; apply W|]. split; [exact (rep_nodup _ _ _ _ _ _ _ (pr_rep _ _ _ _ _ _ _ _ R))|]. fold l0 in Hc. lia.
Qed.
Lemma run_length {V} enc isnone (os : list (pop V)) : (forall o, In o os -> pop_key o <> None) -> forall l, List.length (snd (pad_run enc isnone l os)) <= List.length l + List.length os.
Proof.
  induction os as [|o os IH]; intros Ho l; cbn [pad_run List.length]; [cbn; lia|].
  assert (Hs : List.length (snd (pad_step enc isnone l o)) <= S (List.length l)).
  { specialize (Ho o (or_introl eq_refl)). destruct o as [k v ok|k|k|k| | |]; cbn [pop_key] in Ho; try congruence; cbn [pad_step snd]; try lia.
    - destruct (position _ _); [destruct ok|]; destruct (enc v); cbn [snd]; rewrite ?app_length, ?put_entry_length; cbn [List.length]; lia.
    - destruct (value_of (ktext k) l) as [[v|]|] eqn:E; cbn [snd]; try lia. pose proof (swap_entry_length (ktext k) l (value_in _ _ _ E)). lia. }
  destruct (pad_step enc isnone l o) as [x l1]. cbn [snd] in Hs. specialize (IH (fun o Hin => Ho o (or_intror Hin)) l1). destruct (pad_run enc isnone l1 os) as [xs l2]. cbn [snd] in *. lia.
Qed.
Lemma together {V} hash K P (enc : V -> res bytes) dec isnone k l0 ops is m t l n : collision_free hash K -> own_keys enc dec K ops -> (List.length l = List.length is) -> n <= List.length is -> wf (board_of t) ->
  (forall l1 i l2, l = l1 ++ i :: l2 -> over_with t i (fst (pad_step enc isnone (snd (pad_run enc isnone l0 (map ops l1))) (ops i)))) ->
  Permutation l is -> PRep hash K P m enc dec (snd (pad_run enc isnone l0 (map ops l))) (board_of t) -> free_lock (pad_index P) (k + Z.of_nat n) (board_of t) ->
  (k + Z.of_nat n < 256 ^ 5)%Z -> done_together hash enc dec isnone K P k l0 ops is t.
Proof.
  intros HC HO HL Hn W HR HP R HF Hk. exists l. split; [exact HP|]. split; [exact HR|]. split; [|exists (k + Z.of_nat n)%Z; split; [lia|exact HF]].
  intros h Hh Hb. pose proof (run_length enc isnone (map ops l) ltac:(intros o Ho; apply in_map_iff in Ho as (i & <- & _); destruct HO as [Hi _]; destruct (Hi i) as (kk & Ek & _); congruence) l0) as HX. rewrite map_length in HX.
  assert (HQ : quiet (pad_index P) (k + Z.of_nat n) (board_of t)).
  { destruct HF as (_ & F0 & F1 & F2 & F3). split; [exact F0|]. split; [exact F2|]. split; [exact F3|]. right. split; [exact F1|exact Hk]. }
  destruct (pvisits_rep hash K HC P m enc dec isnone h _ _ _ W R HQ Hh) as (s' & c' & E & _); [lia|]. now rewrite E.
Qed.

Section Final.
  Context {V : Type} (hash : bytes -> string) (K : string -> Prop) (P : string) (enc : V -> res bytes) (dec : bytes -> res V) (isnone : V -> bool).
  Variables (h : list (pvisit V)) (s0 s : store) (k : Z) (pd : pad) (ops : nat -> pop V) (is : list nat) (fuel : nat).
  Hypothesis HP : preached hash K P enc dec isnone h s0 s.
  Hypothesis HU : lock_used (pad_index P) k s.
  Hypothesis HN : run (notepad P false false) s = (Some (Ok pd), s).
  Hypothesis HO : own_keys enc dec K ops.
  Notation start := (team_start hash dec isnone pd ops s).

  Lemma moves_TI n t : (k + Z.of_nat n < 256 ^ 5)%Z -> team_moves hash enc fuel pd ops is n start t ->
    exists m ch, collision_free hash K /\ (pd = mkPad P (mkIndex (pad_index P) (mkHandle (pad_index P) m) false)) /\
      TI hash K P m enc dec isnone fuel ch k ops (pad_after enc isnone h) is n t /\ NoDup (map fst (pad_after enc isnone h)) /\
      Forall (fun k => starts_index k = false) (map fst (pad_after enc isnone h)).
  Proof.
    intros Hk HM. destruct (pad_start hash K P enc dec isnone h s0 s k pd HP HU HN) as (m & -> & HC & W & R & HF & Hnd & Hlen).
    destruct (start_inv (pad_index P) fuel k s HF) as [ch H0]. exists m, ch. split; [exact HC|]. split; [reflexivity|]. split; [|split; [exact Hnd|apply R]].
    eapply moves_keep; eauto. apply TI_start; auto; apply R.
  Qed.

  Lemma seen_at_once n t : (k + Z.of_nat n < 256 ^ 5)%Z -> team_moves hash enc fuel pd ops is n start t ->
    (forall i x, over_with t i x -> x = fst (pad_step enc isnone (pad_after enc isnone h) (ops i)) /\
       forall key, pop_key (ops i) = Some key ->
         run (np_getitem dec isnone pd key) (board_of t) = (Some (look isnone (value_of (ktext key) (snd (pad_step enc isnone (pad_after enc isnone h) (ops i))))), board_of t)) /\
    (forall key, pad_key K key -> (forall i key', In i is -> writes (ops i) -> pop_key (ops i) = Some key' -> ktext key' <> ktext key) ->
       run (np_getitem dec isnone pd key) (board_of t) = (Some (look isnone (value_of (ktext key) (pad_after enc isnone h))), board_of t)).
  Proof.
    intros Hk HM. destruct (moves_TI n t Hk HM) as (m & ch & HC & -> & HT & Hnd & Hpl). split.
    - intros i x Hx. destruct (TI_result _ _ _ _ _ _ _ _ _ _ _ _ _ _ _ _ _ HT Hx) as [-> Hs]. split; [reflexivity|]. intros key Ek. eapply slot_get.
      rewrite (key_ok K enc dec ops HO i) in Ek. injection Ek as <-. exact Hs.
    - intros key Hkey Hno. eapply slot_get. apply (ti_rest _ _ _ _ _ _ _ _ _ _ _ _ _ _ _ HT); [apply Hkey|]. intros i Hi Hw. eapply Hno; eauto. eapply key_ok; eauto.
  Qed.

  Lemma all_together n t : NoDup is -> (k + Z.of_nat (n + List.length is) < 256 ^ 5)%Z -> team_moves hash enc fuel pd ops is n start t ->
    (forall i, In i is -> over t i) -> done_together hash enc dec isnone K P k (pad_after enc isnone h) ops is t.
  Proof.
    intros Hnd Hk HM Hov. destruct (moves_TI n t ltac:(lia) HM) as (m & ch & HC & -> & HT & Hn0 & Hpl).
    destruct (TI_store _ _ _ _ _ _ _ _ _ _ _ HO _ Hn0 Hpl _ Hnd _ _ HT Hov) as (l & HPm & HR & HPR & HF & Hlen).
    eapply (together _ _ _ _ _ _ _ _ _ _ m _ l); eauto; [now apply Permutation_length|apply HF|lia].
  Qed.

  Lemma all_done_together bs t : NoDup is -> (k + Z.of_nat (List.length is) < 256 ^ 5)%Z -> (forall b, In b bs -> covers is b) ->
    enough_team (List.length is) <= List.length bs -> List.length (List.concat bs) < fuel ->
    team_turns hash enc fuel pd ops (List.concat bs) start t -> done_together hash enc dec isnone K P k (pad_after enc isnone h) ops is t.
  Proof.
    intros Hnd Hk HB He Hl HM. destruct (pad_start hash K P enc dec isnone h s0 s k pd HP HU HN) as (m & -> & HC & W & R & HF & Hn0 & Hlen).
    destruct (start_inv (pad_index P) fuel k s HF) as [ch H0].
    assert (HT : TI hash K P m enc dec isnone fuel ch k ops (pad_after enc isnone h) is 0 (team_start hash dec isnone (mkPad P (mkIndex (pad_index P) (mkHandle (pad_index P) m) false)) ops s)) by (apply TI_start; auto; apply R).
    destruct (all_over hash K HC P m enc dec isnone fuel ch k ops HO _ Hn0 is Hnd Hlen Hk s bs t HT HF (pr_rep _ _ _ _ _ _ _ _ R) HB He Hl HM) as [(n & HT' & Hn) Hov].
    destruct (TI_store _ _ _ _ _ _ _ _ _ _ _ HO _ Hn0 (pr_plain _ _ _ _ _ _ _ _ R) _ Hnd _ _ HT' Hov) as (l & HPm & HR & HPR & HF' & Hlen').
    eapply (together _ _ _ _ _ _ _ _ _ _ m _ l); eauto; [now apply Permutation_length|apply HF'|lia].
  Qed.
End Final.
Lemma fair_together {V} hash K P (enc : V -> res bytes) dec isnone h s0 s k pd ops is sigma :
  preached hash K P enc dec isnone h s0 s -> lock_used (pad_index P) k s -> run (notepad P false false) s = (Some (Ok pd), s) -> own_keys enc dec K ops ->
  NoDup is -> (k + Z.of_nat (List.length is) < 256 ^ 5)%Z -> fair is sigma ->
  exists T, forall T' fuel t, T <= T' -> T' < fuel -> team_turns hash enc fuel pd ops (first_turns T' sigma) (team_start hash dec isnone pd ops s) t ->
    done_together hash enc dec isnone K P k (pad_after enc isnone h) ops is t.
Proof.
  intros HP HU HN HO Hnd Hk Hf. destruct (fair_pieces is sigma (enough_team (List.length is)) Hf 0) as [T HT]. exists T. intros T' fuel t H1 H2 HM.
  destruct (HT T' H1) as (bs & B1 & B2 & B3). eapply (all_done_together hash K P enc dec isnone h s0 s k pd ops is fuel HP HU HN HO bs); auto; [lia| |].
  - rewrite B2, map_length, seq_length. exact H2.
  - rewrite B2. exact HM.
Qed.
