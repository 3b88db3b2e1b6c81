(** Guarded index operations are all done under a fair schedule. *)
From Verif Require Export Done_Core.
From Verif Require Import Serial_Lemmas.

Lemma go_unasked fuel i c : asks c i + unasked (procs (go fuel i c) i) <= unasked (procs c i).
Proof.
  unfold asks, go. destruct (procs c i) as [p|l|p|p|l|p x|x] eqn:Ei; cbn [unasked].
  - unfold stage_step. destruct p as [a|y| |B o k]; cbn [prog_step]; cbn; rewrite ?set_same; cbn; try lia; [rewrite Ei; cbn; lia|].
    destruct (step o (shared c)). cbn. rewrite set_same. cbn. lia.
  - cbn. rewrite set_same. cbn. lia.
  - destruct p as [[l [u|y]]|y| |B o k]; cbn; rewrite ?set_same; cbn; try (rewrite Ei; cbn); try lia; [destruct (is_Exception y); cbn; lia|].
    destruct (step o (shared c)). cbn. rewrite set_same. cbn. lia.
  - destruct p as [[l [u|y]]|y| |B o k]; cbn; rewrite ?set_same; cbn; try (rewrite Ei; cbn); try lia; [destruct (is_Exception y); cbn; lia|].
    destruct (step o (shared c)). cbn. rewrite set_same. cbn. lia.
  - cbn. rewrite set_same. cbn. lia.
  - destruct p as [l|y| |B o k]; cbn; rewrite ?set_same; cbn; try (rewrite Ei; cbn); try lia.
    destruct (step o (shared c)). cbn. rewrite set_same. cbn. lia.
  - cbn. rewrite Ei. cbn. lia.
Qed.
Lemma go_elsewhere fuel i c j : j <> i -> procs (go fuel i c) j = procs c j.
Proof. intro Hj. unfold go. destruct (stage_step fuel (procs c i) (shared c)) as [[[st s] o]|]; cbn [procs]; [now apply set_other|reflexivity]. Qed.

Section Done.
  Variable hash : bytes -> string.
  Variable K : string -> Prop.
  Hypothesis hash_inj : collision_free hash K.
  Variable I : string.
  Variable m : N.
  Variable fuel : nat.
  Variable ch : N.
  Variable k0 : Z.
  Variable ops : nat -> iop.
  Hypothesis ops_plain : forall i k, op_key (ops i) = Some k -> plain_key K k.
  Variable ks0 : list string.
  Hypothesis ks0_short : (Z.of_nat (List.length ks0) < 256 ^ 5)%Z.
  Variable is : list nat.
  Hypothesis is_nodup : NoDup is.
  Hypothesis room : (k0 + Z.of_nat (List.length is) < 256 ^ 5)%Z.
  Notation SI := (SI hash K I m fuel ch k0 ops ks0).
  Notation sum := (sum is).
  Notation waiting g := (sum (fun j => unasked (procs (users g) j))).

  (** [w]: how many turns are left of each guarded section. *)
  Record under_way (n : nat) (w : nat -> nat) (g : gconfig) : Prop := {
    uw_si : SI n g;
    uw_asked : n + waiting g <= List.length is;
    uw_brief : forall i s, In i is -> brief any (w i) (todo g i) s;
    uw_away : forall i, ~ In i is -> not_begun I (users g) i }.

  Lemma sum_unasked i c : In i is -> asks c i + sum (fun j => unasked (procs (go fuel i c) j)) <= sum (fun j => unasked (procs c j)).
  Proof.
    intro Hi. assert (H := list_sum_at (fun j => unasked (procs c j)) (fun j => unasked (procs (go fuel i c) j)) is i is_nodup Hi).
    specialize (H ltac:(intros j Hj; cbn; now rewrite go_elsewhere)). cbn in H. pose proof (go_unasked fuel i c). unfold Fair_Proofs.sum. lia.
  Qed.

  Lemma one_turn n w g i : under_way n w g -> In i is -> orderly I (users g) i ->
    exists n' w', under_way n' w' (guarded_turn fuel i g) /\
      (users (guarded_turn fuel i g) = go fuel i (users g) /\ w' = w \/
       (exists s, wf s /\ (forall a, lock_names I a -> same_at (shared (users g)) s a) /\
          users (guarded_turn fuel i g) = mkConfig (procs (users g)) s (served (users g))) /\ (forall j, w' j <= w j) /\ w' i < w i).
  Proof.
    intros [HS HA HB HW] Hi HO. assert (Hb : (k0 + Z.of_nat n < 256 ^ 5)%Z) by lia.
    pose proof (SI_turn _ _ hash_inj _ _ _ _ _ _ ops_plain _ _ _ i HS HO Hb ks0_short) as HS'.
    assert (Hgo : users (guarded_turn fuel i g) = go fuel i (users g) -> todo (guarded_turn fuel i g) = todo g ->
      exists n' w', under_way n' w' (guarded_turn fuel i g) /\ w' = w).
    { intros Eu Et. exists (asks (users g) i + n), w. split; [|reflexivity]. constructor.
      - exact HS'.
      - rewrite Eu. pose proof (sum_unasked i (users g) Hi). lia.
      - rewrite Et. exact HB.
      - intros j Hj. unfold not_begun. rewrite Eu, go_elsewhere by congruence. now apply HW. }
    destruct (procs (users g) i) as [p|l|p|p|l|p x|x] eqn:Ei; try
      (destruct Hgo as (n' & w' & U & E); [unfold guarded_turn; now rewrite Ei|unfold guarded_turn; now rewrite Ei|]; exists n', w'; split; [exact U|left; split; [unfold guarded_turn; now rewrite Ei|exact E]]).
    destruct (todo g i) as [out|e| |B o f] eqn:Ep.
    - destruct Hgo as (n' & w' & U & E); [unfold guarded_turn; now rewrite Ei, Ep|unfold guarded_turn; now rewrite Ei, Ep|].
      exists n', w'. split; [exact U|left; split; [unfold guarded_turn; now rewrite Ei, Ep|exact E]].
    - destruct Hgo as (n' & w' & U & E); [unfold guarded_turn; now rewrite Ei, Ep|unfold guarded_turn; now rewrite Ei, Ep|].
      exists n', w'. split; [exact U|left; split; [unfold guarded_turn; now rewrite Ei, Ep|exact E]].
    - specialize (HB i (shared (users g)) Hi). rewrite Ep in HB. destruct HB.
    - assert (HBi := HB i (shared (users g)) Hi). rewrite Ep in HBi. destruct (brief_go _ _ _ _ (shared (users g)) HBi) as (d & Ed & HBd).
      destruct (step o (shared (users g))) as [r s2] eqn:Es. cbn [fst snd] in HBd.
      assert (Et : guarded_turn fuel i g = mkG (mkConfig (procs (users g)) s2 (served (users g))) (set_todo (todo g) i (f r)) (order g)).
      { unfold guarded_turn. rewrite Ei, Ep. cbn [prog_step]. now rewrite Es. }
      exists (asks (users g) i + n), (fun j => if Nat.eqb j i then d else w j). split; [constructor|right; split; [|split]].
      + exact HS'.
      + rewrite Et. cbn [users procs]. unfold asks. rewrite Ei. exact HA.
      + intros j s Hin. rewrite Et. cbn [todo]. unfold set_todo. destruct (Nat.eqb_spec j i) as [->|Hj]; [eapply brief_any; exact HBd|now apply HB].
      + intros j Hj. rewrite Et. exact (HW j Hj).
      + destruct (turn_users hash K I m fuel ch k0 ops ks0 n g i HS) as [E|[E|H]]; [| |exact H].
        * exfalso. rewrite Et in E. cbn [users] in E. assert (Ex := f_equal (fun c => procs c i) E). cbn [procs] in Ex. unfold go in Ex. rewrite Ei in Ex. cbn in Ex. rewrite set_same in Ex. congruence.
        * exists s2. split; [|split]; [| |now rewrite Et].
          -- pose proof (Inv_wf I fuel ch k0 _ _ (si_lock _ _ _ _ _ _ _ _ _ _ _ HS')) as W. rewrite Et in W. exact W.
          -- rewrite Et in E. cbn [users] in E. apply (f_equal shared) in E. cbn [shared] in E. rewrite E. intros a _. apply same_refl.
      + intro j. destruct (Nat.eqb_spec j i) as [->|Hj]; lia.
      + rewrite Nat.eqb_refl. lia.
  Qed.

  (** A piece of the schedule, for the lock alone. *)
  Lemma piece b : forall n w g g', under_way n w g -> incl b is -> gturns hash I fuel b g g' ->
    exists n' w' b', under_way n' w' g' /\ turns I fuel b' (users g) (users g') /\ incl b' is /\ List.length b' <= List.length b /\
      (forall j, w' j <= w j) /\ (b' = b \/ sum w' < sum w).
  Proof.
    intros n w g g' HU Hin HG. revert n w HU Hin. induction HG as [g|g i b g' HO HG IH|g i b g' HO HG IH|g s b g' W Hs HG IH]; intros n w HU Hin.
    - exists n, w, []. split; [exact HU|]. split; [constructor|]. split; [exact Hin|]. split; [lia|]. split; [auto|now left].
    - assert (Hi : In i is) by (apply Hin; now left). assert (Hin' : incl b is) by (intros x Hx; apply Hin; now right).
      destruct (one_turn n w g i HU Hi HO) as (n1 & w1 & U1 & [[E1 ->]|((s & W & Hs & E1) & Hw & Hwi)]).
      + destruct (IH _ _ U1 Hin') as (n2 & w2 & b' & U2 & T2 & I2 & L2 & D2 & C2). exists n2, w2, (i :: b'). split; [exact U2|].
        split; [constructor 2; [exact HO|]; now rewrite <- E1|]. split; [intros x [<-|Hx]; auto|]. cbn [List.length]. split; [lia|]. split; [exact D2|].
        destruct C2 as [->|C2]; [now left|now right].
      + destruct (IH _ _ U1 Hin') as (n2 & w2 & b' & U2 & T2 & I2 & L2 & D2 & C2). exists n2, w2, b'. split; [exact U2|].
        split; [apply (turns_env I fuel _ s); [exact W|exact Hs|]; now rewrite <- E1|]. split; [exact I2|]. cbn [List.length]. split; [lia|].
        split; [intro j; specialize (D2 j); specialize (Hw j); lia|]. right.
        assert (sum w2 <= sum w1) by (apply sum_le; auto). assert (sum w1 < sum w) by (eapply sum_lt; eauto). lia.
    - assert (Hin' : incl b is) by (intros x Hx; apply Hin; now right). destruct (IH _ _ HU Hin') as (n2 & w2 & b' & U2 & T2 & I2 & L2 & D2 & C2).
      exists n2, w2, (i :: b'). split; [exact U2|]. split; [now constructor 3|]. split; [intros x [<-|Hx]; auto; apply Hin; now left|]. cbn [List.length]. split; [lia|].
      split; [exact D2|]. destruct C2 as [->|C2]; [now left|now right].
    - assert (HU' : under_way n w (mkG (mkConfig (procs (users g)) s (served (users g))) (todo g) (order g))).
      { destruct HU as [HS HA HB HW]. constructor; auto. apply SI_env; auto. }
      destruct (IH _ _ HU' Hin) as (n2 & w2 & b' & U2 & T2 & I2 & L2 & D2 & C2). exists n2, w2, b'. split; [exact U2|].
      split; [|auto]. apply (turns_env I fuel _ s); [exact W| |exact T2]. intros a Ha. apply Hs. right; right; right; exact Ha.
  Qed.

  Lemma gturns_app b1 b2 g g' : gturns hash I fuel (b1 ++ b2) g g' -> exists g1, gturns hash I fuel b1 g g1 /\ gturns hash I fuel b2 g1 g'.
  Proof.
    intro H. remember (b1 ++ b2) as b eqn:E. revert b1 E. induction H as [g|g i b g' HO HU IH|g i b g' HO HU IH|g s b g' W Hs HU IH]; intros b1 E.
    - destruct b1; [|discriminate]. cbn in E. subst b2. exists g. split; constructor.
    - destruct b1 as [|j b1]; cbn in E; [subst b2; exists g; split; [constructor|now constructor 2]|]. injection E as <- E.
      destruct (IH b1 E) as (c1 & H1 & H2). exists c1. split; [now constructor 2|exact H2].
    - destruct b1 as [|j b1]; cbn in E; [subst b2; exists g; split; [constructor|now constructor 3]|]. injection E as <- E.
      destruct (IH b1 E) as (c1 & H1 & H2). exists c1. split; [now constructor 3|exact H2].
    - destruct (IH b1 E) as (c1 & H1 & H2). exists c1. split; [now apply (gturns_env hash I fuel g s)|exact H2].
  Qed.
  Lemma turns_join b1 b2 c c1 c' : turns I fuel b1 c c1 -> turns I fuel b2 c1 c' -> turns I fuel (b1 ++ b2) c c'.
  Proof. intros H1 H2. induction H1; cbn [app]; [exact H2|constructor 2; auto|constructor 3; auto|econstructor 4; eauto]. Qed.

  Lemma pieces bs : forall n w g g', under_way n w g -> (forall b, In b bs -> covers is b) -> gturns hash I fuel (List.concat bs) g g' ->
    exists n' w' bs' rest, under_way n' w' g' /\ turns I fuel (List.concat bs' ++ rest) (users g) (users g') /\ incl rest is /\
      (forall b, In b bs' -> covers is b) /\ List.length (List.concat bs' ++ rest) <= List.length (List.concat bs) /\
      List.length bs <= List.length bs' + sum w.
  Proof.
    induction bs as [|b bs IH]; intros n w g g' HU HB HG; cbn [List.concat] in HG.
    - destruct (piece [] n w g g' HU) as (n' & w' & b' & U & T & _ & L & _); [intros x []|exact HG|]. exists n', w', [], b'. cbn [List.concat app List.length] in *.
      destruct b'; [|cbn in L; lia]. split; [exact U|]. split; [exact T|]. split; [intros x []|]. split; [intros b []|]. split; lia.
    - apply gturns_app in HG as (g1 & G1 & G2). destruct (HB b (or_introl eq_refl)) as [B1 B2].
      destruct (piece b n w g g1 HU B2 G1) as (n1 & w1 & b1 & U1 & T1 & I1 & L1 & D1 & C1).
      destruct (IH n1 w1 g1 g' U1 ltac:(intros x Hx; apply HB; now right) G2) as (n2 & w2 & bs2 & rest & U2 & T2 & I2 & B & L2 & M2).
      assert (Hs : sum w1 <= sum w) by (apply sum_le; auto). exists n2, w2. cbn [List.concat List.length]. rewrite !app_length in L2. destruct C1 as [->|C1].
      + exists (b :: bs2), rest. cbn [List.concat List.length]. split; [exact U2|]. split; [rewrite <- app_assoc; eapply turns_join; eauto|]. split; [exact I2|].
        split; [intros x [<-|Hx]; [split; auto|auto]|]. rewrite !app_length. split; lia.
      + destruct bs2 as [|b2 bs2].
        * exists [], (b1 ++ rest). cbn [List.concat app List.length] in *. split; [exact U2|]. split; [eapply turns_join; eauto|].
          split; [intros x Hx; apply in_app_or in Hx as [Hx|Hx]; auto|]. split; [intros x []|]. rewrite !app_length. split; lia.
        * exists ((b1 ++ b2) :: bs2), rest. cbn [List.concat List.length] in *. split; [exact U2|]. split; [rewrite <- !app_assoc in *; eapply turns_join; eauto|].
          split; [exact I2|]. split.
          { intros x [<-|Hx]; [|apply B; now right]. destruct (B b2 (or_introl eq_refl)) as [X1 X2]. split; [intros y Hy; apply in_or_app; right; now apply X1|].
            intros y Hy. apply in_app_or in Hy as [Hy|Hy]; auto. }
          rewrite !app_length in *. split; lia.
  Qed.
End Done.

Lemma guarded_done_from hash K I x s k ks0 ops fuel is bs g :
  collision_free hash K -> free_lock I k s -> RepN hash K I x (List.length ks0) ks0 s -> (forall i key, op_key (ops i) = Some key -> plain_key K key) -> (forall i, In i is -> quick (ops i)) ->
  NoDup is -> (k + Z.of_nat (List.length is) < 256 ^ 5)%Z -> (Z.of_nat (List.length ks0) < 256 ^ 5)%Z ->
  (forall b, In b bs -> covers is b) -> enough_guarded (List.length is) <= List.length bs -> List.length (List.concat bs) < fuel ->
  gturns hash I fuel (List.concat bs) (g_start hash I (mkHandle I x) ops s) g ->
  done_in_order hash K I (mkHandle I x) k ks0 ops is g.
Proof.
  intros HC HF' R HO HQ HN Hk Hks HB He Hl HG. set (n := List.length is) in *.
  destruct (start_invT _ fuel _ _ HF') as [ch H0].
  assert (HU : under_way hash K I x fuel ch k ops ks0 is 0 (fun _ => 30) (g_start hash I (mkHandle I x) ops s)).
  { constructor.
    - constructor; cbn [users todo order g_start at_start procs served shared List.length In].
      + eexists. exact H0.
      + constructor.
      + intro j. cbn. tauto.
      + reflexivity.
      + intros l j r E. destruct l; discriminate.
      + intros _. exact R.
      + intros j [l Hj]. discriminate Hj.
      + reflexivity.
      + intro j. apply whole_guarded.
    - cbn [users g_start at_start procs unasked]. rewrite sum_const. fold n. lia.
    - intros j t Hj. cbn [todo g_start]. apply guarded_brief. now apply HQ.
    - intros j _. reflexivity. }
  destruct (pieces hash K HC I x fuel ch k ops HO ks0 Hks is HN Hk bs 0 _ _ g HU HB HG) as (n' & w' & bs' & rest & [HS HA _ HW] & HT & Ir & HB' & HL & HM).
  rewrite sum_const in HM. fold n in HM. cbn [users g_start] in HT.
  assert (Hx : exists bs2, List.concat bs2 = List.concat bs' ++ rest /\ (forall b, In b bs2 -> covers is b) /\ List.length bs2 = List.length bs').
  { destruct bs' as [|b0 bs0] using rev_ind; [exfalso; unfold enough_guarded in He; cbn [List.length] in HM; lia|]. exists (bs0 ++ [b0 ++ rest]).
    rewrite !List.concat_app. cbn [List.concat]. rewrite !app_nil_r, <- app_assoc. split; [reflexivity|]. split; [|now rewrite !app_length].
    intros b Hb. apply in_app_or in Hb as [Hb|[<-|[]]]; [apply HB'; apply in_or_app; now left|]. destruct (HB' b0) as [X1 X2]; [apply in_or_app; right; now left|].
    split; [intros y Hy; apply in_or_app; left; now apply X1|]. intros y Hy. apply in_app_or in Hy as [Hy|Hy]; auto. }
  destruct Hx as (bs2 & E2 & B2 & L2). rewrite <- E2 in HT, HL.
  destruct (served_all I fuel k s is bs2 (users g) HF' HN Hk B2) as (D1 & D2 & D3); [fold n; unfold enough_guarded in He; lia|lia|exact HT|].
  destruct (SI_serial _ _ _ _ _ _ _ _ _ _ _ HC HS) as (S1 & S2 & S3 & S4 & S5).
  assert (Hin : forall i, ~ inside (users g) i).
  { intros i [l Hl']. destruct (in_dec Nat.eq_dec i is) as [Hi|Hi]; [rewrite (D1 i Hi) in Hl'; discriminate|]. specialize (HW i Hi). unfold not_begun in HW. rewrite HW in Hl'. discriminate. }
  split; [exact D1|]. split; [exact S1|]. split; [|split; [|split]].
  - intro i. rewrite S2. unfold past_entry. split.
    + intro Hp. destruct (in_dec Nat.eq_dec i is) as [Hi|Hi]; [exact Hi|]. specialize (HW i Hi). unfold not_begun in HW. rewrite HW in Hp. destruct Hp.
    + intro Hi. now rewrite (D1 i Hi).
  - intros l i r E. exact (S3 l i r E (Hin i)).
  - exact (S4 Hin).
  - exact D3.
Qed.

Lemma all_guarded_done hash K I h0 m s k ops fuel is bs g :
  reached hash K I h0 m s -> lock_used I k s -> (forall i key, op_key (ops i) = Some key -> plain_key K key) -> (forall i, In i is -> quick (ops i)) ->
  NoDup is -> (k + Z.of_nat (List.length is) < 256 ^ 5)%Z -> (Z.of_nat (List.length h0) < 256 ^ 5)%Z ->
  (forall b, In b bs -> covers is b) -> enough_guarded (List.length is) <= List.length bs -> List.length (List.concat bs) < fuel ->
  gturns hash I fuel (List.concat bs) (g_start hash I m ops s) g ->
  done_in_order hash K I m k (keys_after h0) ops is g.
Proof.
  intros HR HF HO HQ HN Hk Hh HB He Hl HG.
  pose proof (used_free _ _ _ _ _ _ _ HR HF) as HF'. destruct (reached_fresh _ _ _ _ _ _ HR) as (x & c & -> & W & R & _).
  assert (Hks : (Z.of_nat (List.length (keys_after h0)) < 256 ^ 5)%Z).
  { unfold keys_after. pose proof (tags_run_length (map v_op h0) []) as X. rewrite map_length in X. cbn [List.length plus] in X. lia. }
  eapply guarded_done_from; eauto. apply HR.
Qed.

Lemma fair_guarded_done hash K I h0 m s k ops is sigma :
  reached hash K I h0 m s -> lock_used I k s -> (forall i key, op_key (ops i) = Some key -> plain_key K key) -> (forall i, In i is -> quick (ops i)) ->
  NoDup is -> (k + Z.of_nat (List.length is) < 256 ^ 5)%Z -> (Z.of_nat (List.length h0) < 256 ^ 5)%Z -> fair is sigma ->
  exists T, forall T' fuel g, T <= T' -> T' < fuel -> gturns hash I fuel (first_turns T' sigma) (g_start hash I m ops s) g ->
    done_in_order hash K I m k (keys_after h0) ops is g.
Proof.
  intros HR HF HO HQ HN Hk Hh Hf. destruct (fair_pieces is sigma (enough_guarded (List.length is)) Hf 0) as [T HT]. exists T. intros T' fuel g H1 H2 HU.
  destruct (HT T' H1) as (bs & B1 & B2 & B3). apply (all_guarded_done hash K I h0 m s k ops fuel is bs g HR HF HO HQ HN Hk Hh B3); [lia| |].
  - rewrite B2, map_length, seq_length. exact H2.
  - rewrite B2. exact HU.
Qed.
