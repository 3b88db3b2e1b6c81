(** A lock whose counter is copied byte by byte, while the counter stays below
    256. *)
From Verif Require Export Torn_Spec Conc_Lemmas.

(** Programs that copy no bytes. *)
Fixpoint plainp {A} (p : prog A) : Prop :=
  match p with
  | Do o k => (match o with ORead _ | OWrite _ _ => False | _ => True end) /\ forall r, plainp (k r)
  | _ => True
  end.
Lemma plainp_ptry {A B} (p : prog A) (f : A -> prog B) g : plainp p -> (forall a, plainp (f a)) -> (forall e, plainp (g e)) -> plainp (ptry p f g).
Proof. induction p as [a|e| |C o k IH]; cbn; intros Hp Hf Hg; auto. destruct Hp as [H1 H2]. split; [exact H1|]. intro r. apply IH; auto. Qed.
Lemma plainp_bind {A B} (p : prog A) (f : A -> prog B) : plainp p -> (forall a, plainp (f a)) -> plainp (pbind p f).
Proof. intros. apply plainp_ptry; cbn; auto. Qed.
Lemma plainp_of_res {A} (r : res A) : plainp (of_res r).
Proof. destruct r; exact Logic.I. Qed.
Lemma plainp_prim {B} (o : op B) : (match o with ORead _ | OWrite _ _ => False | _ => True end) -> plainp (prim o).
Proof. intro H. cbn. split; [exact H|]. intro r. apply plainp_of_res. Qed.
Lemma plainp_create a n : plainp (shm_create a n).
Proof. unfold shm_create. destruct n; [exact Logic.I|]. repeat (apply plainp_bind; [now apply plainp_prim|intros]). exact Logic.I. Qed.
Lemma plainp_attach a : plainp (shm_attach a).
Proof. unfold shm_attach. repeat (apply plainp_bind; [now apply plainp_prim|intros]). exact Logic.I. Qed.
Lemma plainp_open a n : plainp (open_block a n true false).
Proof. unfold open_block. apply plainp_ptry; [apply plainp_create|cbn; auto|]. intros []; try exact Logic.I. apply plainp_attach. Qed.
Lemma plainp_init name : plainp (lock_init name).
Proof. unfold lock_init. apply plainp_bind; [apply plainp_open|cbn; auto]. Qed.
Lemma plainp_take f : forall name n, plainp (take_marker f name n).
Proof. induction f as [|f IH]; intros name n; cbn [take_marker]; [exact Logic.I|]. apply plainp_ptry; [apply plainp_create|cbn; auto|]. intros []; try exact Logic.I. apply IH. Qed.
Lemma plainp_exists a : plainp (exists_block a).
Proof. unfold exists_block. apply plainp_ptry; [apply plainp_attach|cbn; auto|]. intros []; exact Logic.I. Qed.
Lemma plainp_any name l : plainp (any_locked name l).
Proof. induction l as [|n l IH]; cbn [any_locked]; [exact Logic.I|]. apply plainp_bind; [apply plainp_exists|]. intros []; [exact Logic.I|exact IH]. Qed.
Lemma plainp_check l : plainp (check_acquirement l).
Proof.
  unfold check_acquirement. apply plainp_bind; [apply plainp_any|]. intros []; [|exact Logic.I]. cbv zeta. destruct (l_max_spins (add_spin l)); [|exact Logic.I].
  destruct (_ <? _)%Z; exact Logic.I.
Qed.
Lemma plainp_loop f : forall l, plainp (acquire_loop f l).
Proof.
  induction f as [|f IH]; intro l; cbn [acquire_loop]; destruct (l_acquired l); try exact Logic.I. apply plainp_bind; [apply plainp_check|].
  intros [l' [b|e]]; cbn [fst snd]; [apply IH|exact Logic.I].
Qed.

Lemma byte_plain {A} (p : prog A) got k s : plainp p ->
  byte_step p got k s = match prog_step p s with Some (p', s') => Some (p', [], s') | None => None end.
Proof. destruct p as [a|e| |B o kk]; try reflexivity. intros [H _]. cbn [byte_step prog_step]. destruct o; try easy; cbn [copy]; now destruct (step _ s). Qed.

Definition z4 : bytes := le_digits 4 0.
Definition low (v : Z) : ascii := ascii_of_N (Z.to_N v).
Lemma le_small v : (0 <= v < 256)%Z -> le_digits 5 v = String (low v) z4.
Proof. intro H. cbn [le_digits]. unfold low, z4. rewrite Z.mod_small, (Z.div_small v) by lia. reflexivity. Qed.
Lemma z4_get k c : String.get k z4 = Some c -> c = zero.
Proof. unfold z4. destruct k as [|[|[|[|k]]]]; vm_compute; congruence. Qed.
Lemma z4_set k : set_byte k zero z4 = z4.
Proof. unfold z4. destruct k as [|[|[|[|[|k]]]]]; reflexivity. Qed.
Lemma small_get k c v : String.get k (String c z4) = Some v -> k < 5 /\ (k = 0 -> v = c) /\ (k <> 0 -> v = zero).
Proof.
  destruct k as [|k]; cbn [String.get]; intro H.
  - injection H as <-. split; [lia|]. split; [auto|lia].
  - split; [destruct k as [|[|[|[|k]]]]; [lia..|discriminate H]|]. split; [lia|]. intros _. eapply z4_get, H.
Qed.
Lemma small_set k c : k <> 0 -> set_byte k zero (String c z4) = String c z4.
Proof. intro H. destruct k as [|k]; [lia|]. cbn [set_byte]. now rewrite z4_set. Qed.

(** Places copied so far, not yet all. *)
Definition places (got : copied) : Prop := NoDup (map fst got) /\ (forall k, In k (map fst got) -> k < 5).
Lemma byte_at_in k got : byte_at k got = None <-> ~ In k (map fst got).
Proof.
  induction got as [|[j c] r IH]; cbn; [tauto|]. destruct (Nat.eqb_spec j k) as [->|H]; [split; [discriminate|tauto]|]. rewrite IH. tauto.
Qed.
Lemma places_more got k c : places got -> k < 5 -> byte_at k got = None -> places ((k, c) :: got).
Proof. intros [H1 H2] Hk Hb. apply byte_at_in in Hb. split; cbn; [now constructor|]. intros j [<-|Hj]; auto. Qed.
Lemma places_full got : places got -> List.length got = 5 -> byte_at 0 got <> None.
Proof.
  intros [H1 H2] HL. rewrite byte_at_in. intro H. apply H. apply (NoDup_length_incl (l := map fst got) (l' := seq 0 5)); auto.
  - rewrite map_length, seq_length. lia.
  - intros j Hj. apply in_seq. specialize (H2 j Hj). lia.
  - apply in_seq. lia.
Qed.
(** All but byte 0 are zero. *)
Definition zeros_but (got : copied) : Prop := forall k c, byte_at k got = Some c -> k <> 0 -> c = zero.
Lemma assemble_small got c : zeros_but got -> byte_at 0 got = Some c -> assemble 5 0 got = String c z4.
Proof.
  intros H H0. cbn [assemble]. rewrite H0. f_equal. unfold z4.
  assert (E : forall k, k <> 0 -> match byte_at k got with Some c => c | None => zero end = zero).
  { intros k Hk. destruct (byte_at k got) as [d|] eqn:E; [now apply (H k)|reflexivity]. }
  rewrite !E by lia. reflexivity.
Qed.
Lemma zeros_more got k c : zeros_but got -> (k <> 0 -> c = zero) -> zeros_but ((k, c) :: got).
Proof. intros H Hk j d. cbn. destruct (Nat.eqb_spec k j) as [->|_]; [intros [= <-]; exact Hk|apply H]. Qed.

(** What a program does once it has read a block. *)
Definition rest {A} (p : prog A) : res bytes -> prog A :=
  match p with
  | Do o k => match o in op B return (res B -> prog A) -> res bytes -> prog A with ORead _ => fun k => k | _ => fun _ _ => Stuck end k
  | _ => fun _ => Stuck
  end.

Section Lock.
  Variables (I : string) (fuel : nat) (ch : N) (k0 : Z).
  Notation Inv := (Inv I fuel ch k0).
  Notation count := (count_address I).
  Notation obj := (obj I ch).

  (** ** What the invariant says about the places where bytes are copied *)
  Lemma Inv_count K c : Inv K c -> (k0 + Z.of_nat K < 256)%Z -> wf (shared c) /\ exists v, (0 <= v < 256)%Z /\ at_ (shared c) count ch (String (low v) z4).
  Proof.
    intros (t & g & e & HS & HG & HR & _) HK. destruct HS as (W & A & _). destruct HG as (G0 & G1 & G2 & G3 & _). unfold room in HR. split; [exact W|].
    assert (B : (0 <= g_h g - 1 + b2z (g_w g) < 256)%Z).
    { destruct (g_w g); cbn [b2z]; [specialize (G3 (G2 eq_refl))|]; destruct e; lia. }
    exists (g_h g - 1 + b2z (g_w g))%Z. split; [exact B|]. now rewrite <- le_small.
  Qed.
  Lemma Inv_ready K c i l : Inv K c -> procs c i = Ready l -> l = fresh I ch.
  Proof. intros (t & g & e & _ & _ & _ & HP & _) E. specialize (HP i). rewrite E in HP. apply HP. Qed.
  Definition writing (p : prog lockst) (l : lockst) (n : Z) : Prop := p = release l /\ (exists f, obj n f true l) /\ (0 <= n < 256)%Z.
  Lemma Inv_leaving K c i p r : Inv K c -> (k0 + Z.of_nat K < 256)%Z -> procs c i = Leaving p r ->
    r = Ok tt /\ ((exists l n, writing p l n) \/ plainp p).
  Proof.
    intros (t & g & e & HS & HG & HR & HP & _) HK E. specialize (HP i). rewrite E in HP. destruct HP as [-> HP]. split; [reflexivity|].
    destruct HG as (G0 & G1 & G2 & G3 & _). unfold room in HR.
    destruct HP as [(l & f & n & _ & Hl & [(-> & -> & Ev & _)|[(-> & _)|(-> & _)]])|(_ & l & ->)].
    - left. exists l, (g_h g). split; [reflexivity|]. split; [now exists f|]. specialize (G3 Ev). destruct e; lia.
    - right. destruct Hl as (_ & _ & _ & _ & (x & E5) & (y & E6) & _). unfold rel2, rel3. rewrite E5, E6. cbn. repeat split; intros []; cbn; repeat split; intros []; exact Logic.I.
    - right. destruct Hl as (_ & _ & _ & _ & (x & E5) & _). unfold rel3. rewrite E5. cbn. repeat split; intros []; exact Logic.I.
    - right. exact Logic.I.
  Qed.

  Definition kk : res bytes -> prog (lockst * res unit) := rest (entry fuel (fresh I ch)).
  Lemma entry_shape : entry fuel (fresh I ch) = Do (ORead ch) kk /\ forall r, plainp (kk r).
  Proof.
    enough (H : exists k, entry fuel (fresh I ch) = Do (ORead ch) k /\ forall r, plainp (k r)).
    { destruct H as (k & E & H). unfold kk. rewrite E. cbn [rest]. auto. }
    eexists. split; [reflexivity|]. intros [b|e]; cbn [of_res ptry fst]; [|exact Logic.I].
    apply plainp_ptry; [|intros l1|intro e; exact Logic.I].
    - apply plainp_bind; [apply plainp_take|cbn; auto].
    - apply plainp_ptry; [apply plainp_create|cbn; auto|]. intros []; exact Logic.I.
  Qed.
  Lemma release_shape l n : (exists f, obj n f true l) -> (0 <= n < 256)%Z ->
    exists k, release l = Do (OWrite ch (String (low n) z4)) k /\ k (Ok tt) = rel2 l.
  Proof.
    intros (f & H1 & H2 & H3 & H4 & (x & H5) & (y & H6) & H7 & H8) Hn. unfold release. rewrite H7, H2, H3.
    assert (E : to_bytes 5 n = Ok (String (low n) z4)).
    { unfold to_bytes. rewrite (proj2 (Z.leb_le 0 n)), (proj2 (Z.ltb_lt n _)) by (change (256 ^ Z.of_nat 5)%Z with 1099511627776%Z; lia). cbn [andb]. now rewrite le_small. }
    rewrite E. eexists. split; [reflexivity|]. cbn. unfold rel2, rel3, rel_end. rewrite H5, H6, H2, H3. reflexivity.
  Qed.

  (** ** A byte-wise process and the same process with whole blocks *)
  Definition reads (x : stage) (got : copied) (y : stage) : Prop :=
    x = Entering (entry fuel (fresh I ch)) /\ zeros_but got /\
    match byte_at 0 got with
    | None => y = x
    | Some c => y = Entering (kk (Ok (String c z4)))
    end.
  Definition writes (x : stage) (got : copied) (y : stage) : Prop :=
    exists l n r, x = Leaving (release l) r /\ (exists f, obj n f true l) /\ (0 <= n < 256)%Z /\
    match byte_at 0 got with None => y = x | Some _ => y = Leaving (rel2 l) r end.
  Definition rel (xg : stage * copied) (y : stage) : Prop :=
    match snd xg with
    | [] => y = fst xg
    | _ => places (snd xg) /\ List.length (snd xg) < 5 /\ (reads (fst xg) (snd xg) y \/ writes (fst xg) (snd xg) y)
    end.
  Definition disc (x : stage) : Prop :=
    match x with
    | Starting p => plainp p
    | Entering p => plainp p \/ p = entry fuel (fresh I ch)
    | Waiting p => plainp p
    | _ => True
    end.
  Definition BInv (K : nat) (f : bconfig) : Prop :=
    exists c, Inv K c /\ shared c = b_mem f /\ served c = b_served f /\ forall i, rel (b_procs f i) (procs c i) /\ disc (fst (b_procs f i)).

  Lemma rel_kind xg y : rel xg y ->
    (forall p, y = Entering p -> exists q, fst xg = Entering q) /\ (forall p, fst xg = Entering p -> exists q, y = Entering q) /\
    (forall l, y = Inside l <-> fst xg = Inside l) /\ (forall r, y = Finished r <-> fst xg = Finished r) /\
    (forall p, fst xg = Starting p -> y = Starting p).
  Proof.
    destruct xg as [x [|b got]]; unfold rel; cbn [fst snd]; [intros ->; repeat split; eauto|]. intros (_ & _ & [(-> & _ & H)|(l & n & r & -> & _ & _ & H)]).
    - destruct (byte_at 0 (b :: got)); subst y; repeat split; intros; try discriminate; eauto.
    - destruct (byte_at 0 (b :: got)); subst y; repeat split; intros; try discriminate; eauto.
  Qed.

  Lemma rel_orderly K f c i : Inv K c -> (forall i, rel (b_procs f i) (procs c i)) -> procs c i = fst (b_procs f i) -> orderly I (without_bytes f) i -> orderly I c i.
  Proof.
    intros _ HR E HO j Hj [p Hp]. destruct (rel_kind _ _ (HR j)) as (H1 & _). destruct (H1 p Hp) as [q Hq].
    destruct (HO j Hj) as (A & B & C); [exists q; exact Hq|]. cbn [without_bytes procs] in *. rewrite E. split; [exact A|]. split; [|exact C].
    intros [p' Hp']. apply B. exists p'. cbn [without_bytes procs]. rewrite <- E. exact Hp'.
  Qed.

  Lemma bset_same f i x : set_bproc f i x i = x. Proof. unfold set_bproc. now rewrite Nat.eqb_refl. Qed.
  Lemma bset_other f i x j : j <> i -> set_bproc f i x j = f j.
  Proof. intro H. unfold set_bproc. destruct (Nat.eqb_spec j i); [congruence|reflexivity]. Qed.

  (** Only process [i] changes, and the store as far as nobody minds. *)
  Lemma BInv_stay K c f i x' s' : Inv K c -> served c = b_served f -> (forall j, rel (b_procs f j) (procs c j) /\ disc (fst (b_procs f j))) ->
    wf s' -> (forall a, lock_names I a -> same_at (shared c) s' a) -> rel x' (procs c i) -> disc (fst x') ->
    BInv K (mkBConfig (set_bproc (b_procs f) i x') s' (b_served f)).
  Proof.
    intros HI HV HR W HS Hx Hd. exists (mkConfig (procs c) s' (served c)). split; [now apply Inv_env|]. cbn. split; [reflexivity|]. split; [exact HV|].
    intro j. destruct (Nat.eq_dec j i) as [->|Hj]; [rewrite bset_same; auto|rewrite bset_other by exact Hj; apply HR].
  Qed.

  Lemma BInv_both K f c i st' s' o g' : Inv K c -> (k0 + Z.of_nat K < 256)%Z -> shared c = b_mem f -> served c = b_served f ->
    (forall j, rel (b_procs f j) (procs c j) /\ disc (fst (b_procs f j))) -> orderly I (without_bytes f) i -> procs c i = fst (b_procs f i) ->
    forall y', stage_step fuel (procs c i) (shared c) = Some (y', s', o) -> rel (st', g') y' -> disc st' ->
    BInv (begins (without_bytes f) i + K) (mkBConfig (set_bproc (b_procs f) i (st', g')) s' (match o with Some n => b_served f ++ [n] | None => b_served f end)).
  Proof.
    intros HI HK HS HV HR HO E y' Es Hx Hd. exists (go fuel i c).
    assert (HI' : Inv (asks c i + K) (go fuel i c)). { apply Inv_go; [exact HI|lia|]. eapply rel_orderly; eauto. intro j; apply HR. }
    split; [unfold begins, asks in *; cbn [without_bytes procs]; now rewrite <- E|]. rewrite (go_eq fuel i c y' s' o Es). cbn. split; [reflexivity|]. split; [now rewrite HV|].
    intro j. destruct (Nat.eq_dec j i) as [->|Hj]; [rewrite set_same, bset_same; auto|rewrite set_other, bset_other by exact Hj; apply HR].
  Qed.

  Lemma write_same s b : wf s -> mem s ch = Some b -> let s' := {| names := names s; mem := upd_mem (mem s) ch b; next := next s |} in
    wf s' /\ forall a, same_at s s' a.
  Proof.
    intros (W1 & W2 & W3) M s'.
    assert (E : forall n, mem s' n = mem s n). { intro n. cbn. unfold upd_mem. destruct (N.eqb_spec n ch) as [->|_]; auto. }
    split.
    - split; [exact W1|]. split; intros *; cbn [names next]; rewrite ?E; [apply W2|apply W3].
    - intro a. split; [reflexivity|]. intros n _. apply E.
  Qed.

  Lemma BInv_go K f i k : BInv K f -> (k0 + Z.of_nat K < 256)%Z -> orderly I (without_bytes f) i -> BInv (begins (without_bytes f) i + K) (bgo fuel i k f).
  Proof.
    intros (c & HI & HS & HV & HR) HK HO. pose proof (HR i) as [Hi Hd].
    assert (Idle : BInv (begins (without_bytes f) i + K) f). { exists c. split; [apply (Conc_Mutex.Inv_more _ _ _ _ K); [exact HI|lia]|auto]. }
    unfold bgo. destruct (b_procs f i) as [x got] eqn:Ef. cbn [fst snd] in *.
    assert (EfF : fst (b_procs f i) = x) by now rewrite Ef.
    (* no bytes are copied *)
    assert (Plain : got = [] -> byte_stage fuel x [] k (b_mem f) = match stage_step fuel x (b_mem f) with Some (st', s', o) => Some (st', [], s', o) | None => None end ->
      (forall st' s' o, stage_step fuel x (b_mem f) = Some (st', s', o) -> disc st') ->
      BInv (begins (without_bytes f) i + K)
        match byte_stage fuel x got k (b_mem f) with
        | Some (st, g, s, o) => mkBConfig (set_bproc (b_procs f) i (st, g)) s (match o with Some n => b_served f ++ [n] | None => b_served f end)
        | None => f
        end).
    { intros -> Eb Hdd. rewrite Eb. destruct (stage_step fuel x (b_mem f)) as [[[st' s'] o]|] eqn:Es; [|exact Idle]. unfold rel in Hi. cbn [fst snd] in Hi.
      eapply (BInv_both K f c); eauto; [now rewrite EfF|rewrite Hi, HS; exact Es|reflexivity]. }
    destruct (Inv_count K c HI HK) as (W & v & Hv & An & Am). rewrite HS in W, An, Am.
    destruct x as [p|l|p|p|l|p r|r].
    - (* Starting *) assert (Eg : got = []). { destruct got; [reflexivity|]. destruct Hi as (_ & _ & [(Hx & _)|(l & n & r & Hx & _)]); discriminate. }
      apply Plain; [exact Eg| |]; destruct p as [l|e| |B o kk]; cbn [byte_stage stage_step]; try reflexivity; try (rewrite (byte_plain _ _ _ _ Hd)); cbn [prog_step].
      + now destruct (step o (b_mem f)).
      + now intros st' s' o [= <- _ _].
      + now intros st' s' o [= <- _ _].
      + discriminate.
      + destruct (step o (b_mem f)) as [q s1]. intros st' s' o' [= <- _ _]. apply Hd.
    - (* Ready *) assert (Eg : got = []). { destruct got; [reflexivity|]. destruct Hi as (_ & _ & [(Hx & _)|(l' & n & r & Hx & _)]); discriminate. }
      apply Plain; [exact Eg|reflexivity|]. intros st' s' o [= <- _ _]. right. f_equal. subst got. unfold rel in Hi. cbn in Hi. eapply Inv_ready; eauto.
    - (* Entering *) destruct Hd as [Hd| ->].
      + assert (Eg : got = []).
        { destruct got; [reflexivity|]. destruct Hi as (_ & _ & [(Hx & _)|(l' & n & r & Hx & _)]); [|discriminate]. injection Hx as ->.
          destruct entry_shape as (E & _). rewrite E in Hd. now destruct Hd. }
        apply Plain; [exact Eg| |]; destruct p as [[l [u|e]]|e| |B o kk]; cbn [byte_stage stage_step]; try reflexivity; try (rewrite (byte_plain _ _ _ _ Hd)); cbn [prog_step].
        * now destruct (step o (b_mem f)).
        * intros st' s' o [= <- _ _]. apply plainp_loop.
        * intros st' s' o [= <- _ _]. destruct (is_Exception e); exact Logic.I.
        * now intros st' s' o [= <- _ _].
        * discriminate.
        * destruct (step o (b_mem f)) as [q s1]. intros st' s' o' [= <- _ _]. left. apply Hd.
      + (* reads the counter *)
        destruct entry_shape as (E & Hk).
        assert (Hc : places got /\ List.length got < 5 /\ zeros_but got /\
          match byte_at 0 got with None => procs c i = Entering (entry fuel (fresh I ch)) | Some d => procs c i = Entering (kk (Ok (String d z4))) end).
        { destruct got as [|b got]; unfold rel in Hi; cbn [fst snd] in Hi.
          - split; [split; [constructor|intros ? []]|]. split; [cbn; lia|]. split; [discriminate|exact Hi].
          - destruct Hi as (P1 & P2 & [(_ & P3 & P4)|(l & n & r & Hx & _)]); [|discriminate]. split; [exact P1|]. split; [exact P2|]. split; [exact P3|].
            exact P4. }
        destruct Hc as (P1 & P2 & P3 & P4).
        rewrite E. cbn [byte_stage byte_step copy]. rewrite Am. change (String.length (String (low v) z4)) with 5.
        destruct (String.get k (String (low v) z4)) as [d|] eqn:Eg; [|].
        2:{ eapply BInv_stay; [apply (Conc_Mutex.Inv_more _ _ _ _ K); [exact HI|lia]|exact HV|exact HR|exact W|intros; rewrite HS; apply same_refl| |]; [|now right; rewrite E].
            rewrite <- E. exact Hi. }
        destruct (byte_at k got) as [d'|] eqn:Ek.
        { eapply BInv_stay; [apply (Conc_Mutex.Inv_more _ _ _ _ K); [exact HI|lia]|exact HV|exact HR|exact W|intros; rewrite HS; apply same_refl| |]; [|now right; rewrite E].
          rewrite <- E. exact Hi. }
        destruct (small_get _ _ _ Eg) as (Hk5 & Hk0 & Hk1).
        assert (Q1 : places ((k, d) :: got)) by now apply places_more.
        assert (Q3 : zeros_but ((k, d) :: got)) by (apply zeros_more; auto).
        assert (B0 : begins (without_bytes f) i = 0) by (unfold begins; cbn [without_bytes procs]; now rewrite EfF).
        assert (New : exists c', Inv K c' /\ shared c' = b_mem f /\ served c' = b_served f /\ (forall j, rel (b_procs f j) (procs c j) -> j <> i -> rel (b_procs f j) (procs c' j)) /\
          match byte_at 0 ((k, d) :: got) with None => procs c' i = Entering (entry fuel (fresh I ch)) | Some d => procs c' i = Entering (kk (Ok (String d z4))) end).
        { cbn [byte_at]. destruct (Nat.eqb_spec k 0) as [K0|K0].
          - (* the moment of the read *) subst k. rewrite Ek in P4. rewrite (Hk0 eq_refl).
            exists (go fuel i c). assert (HI' : Inv (asks c i + K) (go fuel i c)). { apply Inv_go; [exact HI|lia|]. eapply rel_orderly; eauto; [intro j; apply HR|now rewrite P4, EfF]. }
            unfold asks in HI'. rewrite P4 in HI'. cbn [plus] in HI'. split; [exact HI'|].
            rewrite (go_eq fuel i c (Entering (kk (Ok (String (low v) z4)))) (b_mem f) None) by (rewrite P4, E; cbn [stage_step prog_step step]; rewrite HS, Am; reflexivity).
            cbn [shared served procs]. split; [reflexivity|]. split; [exact HV|]. split; [intros j Hj Hne; now rewrite set_other|now rewrite set_same].
          - exists c. split; [exact HI|]. split; [exact HS|]. split; [exact HV|]. split; [auto|exact P4]. }
        destruct New as (c' & HI' & HS' & HV' & HR' & P').
        assert (Fin : forall x' g', rel (x', g') (procs c' i) -> disc x' ->
          BInv (begins (without_bytes f) i + K) (mkBConfig (set_bproc (b_procs f) i (x', g')) (b_mem f) (b_served f))).
        { intros x' g' Hx Hdx. rewrite B0. exists c'. split; [exact HI'|]. cbn. split; [exact HS'|]. split; [exact HV'|]. intro j.
          destruct (Nat.eq_dec j i) as [->|Hj]; [rewrite bset_same; auto|rewrite bset_other by exact Hj]. split; [apply HR'; [apply HR|exact Hj]|apply HR]. }
        destruct (Nat.eqb_spec (List.length ((k, d) :: got)) 5) as [L5|L5].
        * destruct (byte_at 0 ((k, d) :: got)) as [d0|] eqn:E0; [|now destruct (places_full _ Q1 L5)].
          rewrite (assemble_small _ d0 Q3 E0). apply Fin; [exact P'|]. left. apply Hk.
        * apply Fin; [|right; now rewrite E]. unfold rel. cbn [fst snd]. split; [exact Q1|]. split; [cbn [List.length] in *; lia|]. left.
          split; [now rewrite E|]. split; [exact Q3|]. destruct (byte_at 0 ((k, d) :: got)); [exact P'|now rewrite <- E].
    - (* Waiting *) assert (Eg : got = []). { destruct got; [reflexivity|]. destruct Hi as (_ & _ & [(Hx & _)|(l & n & r & Hx & _)]); discriminate. }
      apply Plain; [exact Eg| |]; destruct p as [[l [u|e]]|e| |B o kk]; cbn [byte_stage stage_step]; try reflexivity; try (rewrite (byte_plain _ _ _ _ Hd)); cbn [prog_step].
      + now destruct (step o (b_mem f)).
      + now intros st' s' o [= <- _ _].
      + intros st' s' o [= <- _ _]. destruct (is_Exception e); exact Logic.I.
      + now intros st' s' o [= <- _ _].
      + discriminate.
      + destruct (step o (b_mem f)) as [q s1]. intros st' s' o' [= <- _ _]. apply Hd.
    - (* Inside *) assert (Eg : got = []). { destruct got; [reflexivity|]. destruct Hi as (_ & _ & [(Hx & _)|(l' & n & r & Hx & _)]); discriminate. }
      apply Plain; [exact Eg|reflexivity|]. now intros st' s' o [= <- _ _].
    - (* Leaving *)
      assert (Hc : (got = [] /\ plainp p) \/ exists l n, p = release l /\ (exists f, obj n f true l) /\ (0 <= n < 256)%Z /\ places got /\ List.length got < 5 /\
          match byte_at 0 got with None => procs c i = Leaving (release l) r | Some d => procs c i = Leaving (rel2 l) r end).
      { destruct got as [|b got]; unfold rel in Hi; cbn [fst snd] in Hi.
        - destruct (Inv_leaving K c i p r HI HK Hi) as [_ [(l & n & -> & Hl & Hn)|Hp]]; [right|now left]. exists l, n. split; [reflexivity|]. split; [exact Hl|]. split; [exact Hn|].
          split; [split; [constructor|intros ? []]|]. split; [cbn; lia|exact Hi].
        - right. destruct Hi as (P1 & P2 & [(Hx & _)|(l & n & r' & Hx & Hl & Hn & P4)]); [discriminate|]. injection Hx as -> <-. exists l, n. exact (conj eq_refl (conj Hl (conj Hn (conj P1 (conj P2 P4))))). }
      destruct Hc as [[Eg Hp]|(l & n & -> & Hl & Hn & P1 & P2 & P4)].
      + apply Plain; [exact Eg| |]; destruct p as [l|e| |B o kk]; cbn [byte_stage stage_step]; try reflexivity; try (rewrite (byte_plain _ _ _ _ Hp)); cbn [prog_step].
        * now destruct (step o (b_mem f)).
        * now intros st' s' o [= <- _ _].
        * now intros st' s' o [= <- _ _].
        * discriminate.
        * destruct (step o (b_mem f)) as [q s1]. now intros st' s' o' [= <- _ _].
      + (* writes the counter *)
        destruct (release_shape l n Hl Hn) as (kw & E & Hk). rewrite E. cbn [byte_stage byte_step copy]. rewrite Am. change (String.length (String (low v) z4)) with 5.
        change (String.length (String (low n) z4)) with 5. cbn [Nat.eqb].
        assert (B0 : begins (without_bytes f) i = 0) by (unfold begins; cbn [without_bytes procs]; now rewrite EfF).
        destruct (String.get k (String (low n) z4)) as [d|] eqn:Eg.
        2:{ rewrite B0. eapply BInv_stay; [exact HI|exact HV|exact HR|exact W|intros; rewrite HS; apply same_refl| |exact Logic.I]. rewrite <- E. exact Hi. }
        destruct (byte_at k got) as [d'|] eqn:Ek.
        { rewrite B0. eapply BInv_stay; [exact HI|exact HV|exact HR|exact W|intros; rewrite HS; apply same_refl| |exact Logic.I]. rewrite <- E. exact Hi. }
        destruct (small_get _ _ _ Eg) as (Hk5 & Hk0 & Hk1).
        assert (Q1 : places ((k, d) :: got)) by now apply places_more.
        set (s' := {| names := names (b_mem f); mem := upd_mem (mem (b_mem f)) ch (set_byte k d (String (low v) z4)); next := next (b_mem f) |}).
        assert (New : exists c', Inv K c' /\ shared c' = s' /\ served c' = b_served f /\ (forall j, rel (b_procs f j) (procs c j) -> j <> i -> rel (b_procs f j) (procs c' j)) /\
          match byte_at 0 ((k, d) :: got) with None => procs c' i = Leaving (release l) r | Some d => procs c' i = Leaving (rel2 l) r end).
        { cbn [byte_at]. destruct (Nat.eqb_spec k 0) as [K0|K0].
          - (* the moment of the write *) subst k. rewrite Ek in P4. pose proof (Hk0 eq_refl) as ->. unfold s'. cbn [set_byte].
            exists (go fuel i c). assert (HI' : Inv (asks c i + K) (go fuel i c)). { apply Inv_go; [exact HI|lia|]. eapply rel_orderly; eauto; [intro j; apply HR|now rewrite P4, EfF]. }
            unfold asks in HI'. rewrite P4 in HI'. cbn [plus] in HI'. split; [exact HI'|].
            rewrite (go_eq fuel i c (Leaving (rel2 l) r) {| names := names (b_mem f); mem := upd_mem (mem (b_mem f)) ch (String (low n) z4); next := next (b_mem f) |} None).
            2:{ rewrite P4, E. cbn [stage_step prog_step step]. rewrite HS, Am. change (String.length (String (low v) z4)) with 5. change (String.length (String (low n) z4)) with 5. cbn [Nat.eqb].
                now rewrite Hk. }
            cbn [shared served procs]. split; [reflexivity|]. split; [exact HV|]. split; [intros j Hj Hne; now rewrite set_other|now rewrite set_same].
          - pose proof (Hk1 K0) as ->. unfold s'. rewrite small_set by exact K0. destruct (write_same _ _ W Am) as [W' S'].
            eexists (mkConfig (procs c) _ (served c)). split; [apply Inv_env; [exact HI|exact W'|]; intros a _; rewrite HS; apply S'|].
            cbn [shared served procs]. split; [reflexivity|]. split; [exact HV|]. split; [auto|exact P4]. }
        destruct New as (c' & HI' & HS' & HV' & HR' & P').
        assert (Fin : forall x' g', rel (x', g') (procs c' i) -> disc x' ->
          BInv (begins (without_bytes f) i + K) (mkBConfig (set_bproc (b_procs f) i (x', g')) s' (b_served f))).
        { intros x' g' Hx Hdx. rewrite B0. exists c'. split; [exact HI'|]. cbn [b_mem b_served b_procs]. split; [exact HS'|]. split; [exact HV'|]. intro j.
          destruct (Nat.eq_dec j i) as [->|Hj]; [rewrite bset_same; auto|rewrite bset_other by exact Hj]. split; [apply HR'; [apply HR|exact Hj]|apply HR]. }
        destruct (Nat.eqb_spec (List.length ((k, d) :: got)) 5) as [L5|L5].
        * destruct (byte_at 0 ((k, d) :: got)) as [d0|] eqn:E0; [|now destruct (places_full _ Q1 L5)].
          rewrite Hk. apply Fin; [exact P'|exact Logic.I].
        * apply Fin; [|exact Logic.I]. unfold rel. cbn [fst snd]. split; [exact Q1|]. split; [cbn [List.length] in *; lia|]. right.
          exists l, n, r. split; [now rewrite E|]. split; [exact Hl|]. split; [exact Hn|]. destruct (byte_at 0 ((k, d) :: got)); [exact P'|now rewrite <- E].
    - (* Finished *) assert (Eg : got = []). { destruct got; [reflexivity|]. destruct Hi as (_ & _ & [(Hx & _)|(l' & n & r' & Hx & _)]); discriminate. }
      apply Plain; [exact Eg|reflexivity|discriminate].
  Qed.

  Lemma BInv_more K K' f : BInv K f -> K <= K' -> BInv K' f.
  Proof. intros (c & H & HR) L. exists c. split; [eapply Conc_Mutex.Inv_more; eauto|exact HR]. Qed.
  Lemma BInv_reach n f f' : BInv 0 f -> byte_execution I fuel (orderly I) n f f' -> (k0 + Z.of_nat n < 256)%Z -> BInv n f'.
  Proof.
    intros H0 HE. induction HE as [f|n f f' i k HE IH HR|n f f' s HE IH W Hs]; intro Hb; [exact H0| |].
    - apply BInv_go; [apply IH; [exact H0|]|..|exact HR]; lia.
    - destruct IH as (c & HI & HS & HV & HRR); [exact H0|exact Hb|]. exists (mkConfig (procs c) s (served c)). split; [apply Inv_env; [exact HI|exact W|rewrite HS; exact Hs]|].
      cbn. auto.
  Qed.
End Lock.

Section Results.
  Variables (name : string) (fuel : nat) (k : Z) (s : store) (n : nat) (f : bconfig).
  Hypotheses (HF : free_lock name k s) (Hk : (k + Z.of_nat n < 256)%Z) (HE : byte_execution name fuel (orderly name) n (b_start name s) f).

  Lemma byte_inv : exists ch, BInv name fuel ch k n f.
  Proof.
    destruct (start_inv name fuel k s HF) as [ch HI]. exists ch. eapply BInv_reach; [|exact HE|exact Hk].
    exists (at_start name s). split; [exact HI|]. split; [reflexivity|]. split; [reflexivity|]. intro i. split; [reflexivity|]. apply plainp_init.
  Qed.
  Lemma byte_mutex i j : inside (without_bytes f) i -> inside (without_bytes f) j -> i = j.
  Proof.
    destruct byte_inv as (ch & c & HI & _ & _ & HR). intros [l Hi] [l' Hj]. eapply Inv_mutex; [exact HI| |].
    - exists l. now apply (rel_kind _ _ _ _ _ (proj1 (HR i))).
    - exists l'. now apply (rel_kind _ _ _ _ _ (proj1 (HR j))).
  Qed.
  Lemma byte_order :
    b_served f = slots_from k (List.length (b_served f)) /\
    (forall i r, procs (without_bytes f) i = Finished r -> r = Ok tt) /\
    ((forall i, finished (without_bytes f) i \/ not_begun name (without_bytes f) i) -> free_lock name (k + Z.of_nat (List.length (b_served f))) (b_mem f)).
  Proof.
    destruct byte_inv as (ch & c & HI & HS & HV & HR). rewrite <- HV, <- HS. split; [eapply Inv_served; eauto|]. split.
    - intros i r Hi. eapply Inv_finished; [exact HI|]. now apply (rel_kind _ _ _ _ _ (proj1 (HR i))).
    - intro H. eapply Inv_clean; [exact HI|]. intro i. destruct (rel_kind _ _ _ _ _ (proj1 (HR i))) as (_ & _ & _ & R4 & R5). destruct (H i) as [[r Hr]|Hr].
      + left. exists r. now apply R4.
      + right. unfold not_begun in *. now apply R5.
  Qed.
End Results.
