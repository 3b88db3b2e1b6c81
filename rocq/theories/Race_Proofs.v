(** Any number of processes overwriting and fetching one note at once. *)
From Verif Require Export Race_Spec Shm_Proofs.

(** ** Programs under interference, with a ghost state *)
Section WPG.
  Context {X : Type}.
  Variable R : X -> store -> store -> Prop.
  Variable G : X -> store -> X -> store -> Prop.
  Fixpoint wpg {A} (p : prog A) (Q : A -> X -> store -> Prop) (E : exn -> X -> store -> Prop) (x : X) (s : store) : Prop :=
    match p with
    | Ret a => Q a x s
    | Raise e => E e x s
    | Stuck => False
    | Do o k => forall s1, R x s s1 -> exists x', let '(r, s2) := step o s1 in G x s1 x' s2 /\ wpg (k r) Q E x' s2
    end.
  Lemma wpg_ptry {A B} (p : prog A) (k : A -> prog B) hd : forall Q E x s,
    wpg p (fun a x s => wpg (k a) Q E x s) (fun e x s => wpg (hd e) Q E x s) x s -> wpg (ptry p k hd) Q E x s.
  Proof.
    induction p as [a|e| |C o f IH]; cbn; intros Q E x s Hp; auto.
    intros s1 H1. destruct (Hp s1 H1) as [x' Hp']. exists x'. destruct (step o s1) as [r s2]. destruct Hp' as [HG Hp']. split; [exact HG|]. apply IH, Hp'.
  Qed.
  Lemma wpg_bind {A B} (p : prog A) (k : A -> prog B) Q E x s :
    wpg p (fun a x s => wpg (k a) Q E x s) E x s -> wpg (pbind p k) Q E x s.
  Proof. intro H. apply wpg_ptry. exact H. Qed.
  Lemma wpg_stable {A} (p : prog A) (Q : A -> X -> store -> Prop) (E : exn -> X -> store -> Prop) x s s' :
    (forall s1 s2 s3, R x s1 s2 -> R x s2 s3 -> R x s1 s3) ->
    (forall a, Q a x s -> R x s s' -> Q a x s') -> (forall e, E e x s -> R x s s' -> E e x s') ->
    wpg p Q E x s -> R x s s' -> wpg p Q E x s'.
  Proof.
    intros HT HQ HE Hp Hs. destruct p as [a|e| |B o k]; cbn in *; auto. intros s1 H1. apply Hp. eapply HT; eauto.
  Qed.
  Lemma wpg_mono {A} (p : prog A) : forall (Q Q' : A -> X -> store -> Prop) (E E' : exn -> X -> store -> Prop) x s,
    (forall a x s, Q a x s -> Q' a x s) -> (forall e x s, E e x s -> E' e x s) -> wpg p Q E x s -> wpg p Q' E' x s.
  Proof.
    induction p as [a|e| |B o k IH]; cbn; intros Q Q' E E' x s HQ HE Hp; auto.
    intros s1 H1. destruct (Hp s1 H1) as [x' Hp']. exists x'. destruct (step o s1) as [r s2]. destruct Hp' as [HG Hp']. split; [exact HG|]. eauto.
  Qed.
End WPG.

Section Race.
  Variable a : string.
  Variable js : list job.
  Variable io : N.
  Variable old : bytes.
  Hypothesis old_ne : old <> "".
  Hypothesis vals_ne : forall v, offered js v -> v <> "".

  (** Where a process is: nothing in hand; has unlinked the old block and must
      make a new one; has made inode [i] (sized or not); has written; has
      opened inode [i] (and mapped it, or not). *)
  Inductive phase :=
  | Plain | Between | Own (i : N) (sized : bool) (v : bytes) | Wrote (v : bytes) | Hold (i : N) (mapped : bool).

  Definition own_bytes (sized : bool) (v : bytes) : bytes := if sized then zeros (String.length v) else "".
  (** What an inode that was ever named [a] may hold. *)
  Definition good (s : store) (i : N) : Prop :=
    mem s i = Some old \/ exists v, offered js v /\ (mem s i = Some "" \/ mem s i = Some (zeros (String.length v)) \/ mem s i = Some v).
  Definition pfact (x : phase) (s : store) : Prop :=
    match x with
    | Own i z v => mem s i = Some (own_bytes z v) /\ i <> io /\ offered js v
    | Hold i m => good s i /\ (m = true -> mem s i <> Some "")
    | Wrote v => offered js v
    | _ => True
    end.
  (** Facts about a name that is not [None]. *)
  Definition named (s : store) : Prop := forall i, names s a = Some i -> good s i.
  (** The first block is gone for good. *)
  Definition gone (s : store) : Prop := names s a <> Some io.
  Definition RG (x : phase) (s s' : store) : Prop :=
    wf s' /\ (named s' /\ mem s' io = Some old /\ (gone s -> gone s')) /\ pfact x s'.
  Definition GG (x : phase) (s : store) (x' : phase) (s' : store) : Prop :=
    (s' = s /\ (x' = x \/ (x = Plain /\ exists i, names s a = Some i /\ x' = Hold i false) \/
                (exists i, x = Hold i false /\ mem s i <> Some "" /\ x' = Hold i true) \/
                (exists i m, x = Hold i m /\ x' = Plain) \/
                (x = Between /\ names s a <> None /\ x' = Plain))) \/
    (exists v, offered js v /\ (x = Plain \/ x = Between) /\ names s a = None /\ x' = Own (next s) false v /\ s' = snd (step (OCreate a) s)) \/
    ((exists i m, x = Hold i m) /\ x' = Between /\ names s a <> None /\ s' = snd (step (OUnlink a) s)) \/
    (exists i v, x = Own i false v /\ x' = Own i true v /\ s' = snd (step (OTrunc i (String.length v)) s)) \/
    (exists i v, x = Own i true v /\ x' = Wrote v /\ s' = snd (step (OWrite i v) s)).

  Definition write_ok_post (r : string) (x : phase) (s : store) : Prop := exists v, x = Wrote v.
  Definition write_exc_post (e : exn) (x : phase) (s : store) : Prop :=
    (x = Plain \/ exists i m, x = Hold i m) /\ gone s /\ (e = FileNotFoundError \/ e = FileExistsError \/ e = ValueError).
  Definition read_ok_post (r : string) (x : phase) (s : store) : Prop :=
    (x = Plain \/ exists i m, x = Hold i m) /\ (r = old \/ exists v, offered js v /\ (r = v \/ r = zeros (String.length v))).
  Definition read_exc_post (e : exn) (x : phase) (s : store) : Prop :=
    (x = Plain \/ exists i m, x = Hold i m) /\ (e = FileNotFoundError \/ e = ValueError).

  Definition jpost (j : job) : (string -> phase -> store -> Prop) * (exn -> phase -> store -> Prop) :=
    match j with
    | Overwrite v => ((fun _ x _ => x = Wrote v), write_exc_post)
    | Fetch => (read_ok_post, read_exc_post)
    end.
  Definition jok (j : job) (p : prog string) (x : phase) (s : store) : Prop := wpg RG GG p (fst (jpost j)) (snd (jpost j)) x s.

  Lemma good_some s i : good s i -> exists b, mem s i = Some b.
  Proof. intros [H|(v & _ & [H|[H|H]])]; eauto. Qed.

  Lemma attach_wpg (Q : handle -> phase -> store -> Prop) (E : exn -> phase -> store -> Prop) s :
    (forall i s, Q (mkHandle a i) (Hold i true) s) -> (forall s, gone s -> E FileNotFoundError Plain s) -> (forall i s, gone s -> E ValueError (Hold i false) s) ->
    wpg RG GG (shm_attach a) Q E Plain s.
  Proof.
    intros HQ HF HV. cbn [shm_attach pbind ptry prim wpg]. intros s1 (W1 & N1 & _). destruct (names s1 a) as [i|] eqn:Ea.
    - exists (Hold i false). cbn [step]. rewrite Ea. split; [left; split; [reflexivity|right; left; eauto]|]. cbn [of_res ptry wpg].
      intros s2 (W2 & (N2 & M2 & G2) & (F2 & _)). destruct (good_some _ _ F2) as [[|c b] Eb].
      + exists (Hold i false). cbn [step]. rewrite Eb. split; [left; auto|]. cbn. apply HV, G2. unfold gone. rewrite Ea. intros [= ->]. congruence.
      + exists (Hold i true). cbn [step]. rewrite Eb. split; [left; split; [reflexivity|right; right; left; exists i; rewrite Eb; split; [reflexivity|split; [discriminate|reflexivity]]]|].
        cbn. apply HQ.
    - exists Plain. cbn [step]. rewrite Ea. split; [left; auto|]. cbn. apply HF. unfold gone. congruence.
  Qed.

  Lemma fetch_jok s : jok Fetch (fetch_block_bytes a) Plain s.
  Proof.
    unfold jok, fetch_block_bytes. cbn [jpost fst snd]. apply wpg_bind. apply attach_wpg.
    - intros i s'. cbn [shm_read hid prim wpg]. intros s1 (W1 & N1 & (F1 & F1')). exists (Hold i true). cbn [step].
      specialize (F1' eq_refl). destruct F1 as [H|(v & Hv & [H|[H|H]])]; rewrite H; (split; [left; auto|]); cbn [of_res wpg]; [| |split; [eauto|]|split; [eauto|]].
      + split; [eauto|]. auto.
      + congruence.
      + right. eauto.
      + right. eauto.
    - intros s' _. split; auto.
    - intros i s' _. split; eauto.
  Qed.

  (** Making a block. *)
  Lemma create_wpg b x (Q : handle -> phase -> store -> Prop) (E : exn -> phase -> store -> Prop) s : b <> "" -> offered js b ->
    (x = Plain \/ x = Between) ->
    (forall i s, Q (mkHandle a i) (Own i true b) s) -> (forall s1, (gone s -> gone s1) -> E FileExistsError Plain s1) ->
    wpg RG GG (shm_create a (String.length b)) Q E x s.
  Proof.
    intros Hb Ho Hx HQ HE. unfold shm_create. destruct b as [|c b]; [congruence|]. cbn [String.length]. set (n := S (String.length b)).
    cbn [prim pbind ptry wpg]. intros s1 (W1 & N1 & _). destruct (names s1 a) as [i|] eqn:Ea.
    - exists Plain. cbn [step]. rewrite Ea. split; [|cbn; apply HE; apply N1]. left. split; [reflexivity|]. destruct Hx as [->| ->]; [auto|].
      right; right; right; right. split; [reflexivity|]. split; [congruence|reflexivity].
    - exists (Own (next s1) false (String c b)). cbn [step]. rewrite Ea. split.
      { right; left. exists (String c b). split; [exact Ho|]. split; [exact Hx|]. split; [exact Ea|]. split; [reflexivity|]. cbn [step]. rewrite Ea. reflexivity. }
      cbn [of_res ptry wpg]. set (i := next s1). intros s2 (W2 & N2 & (F2 & _)). exists (Own i true (String c b)). cbn [step].
      split; [right; right; right; left; eauto|]. cbn [of_res ptry wpg]. intros s3 (W3 & N3 & (F3 & _)). exists (Own i true (String c b)). cbn [step].
      rewrite F3. cbn [own_bytes String.length zeros repeat string_of_list_ascii].
      split; [left; auto|]. cbn. apply HQ.
  Qed.
  Lemma overwrite_jok b s : b <> "" -> offered js b -> jok (Overwrite b) (memorize (fun x => Ok x) b a true) Plain s.
  Proof.
    intros Hb Ho. unfold jok, memorize. cbn [jpost fst snd of_res]. change (wpg RG GG
      (let! block := open_block a (String.length b) true true in shm_write block b >>> Ret a) (fun _ x _ => x = Wrote b) write_exc_post Plain s).
    assert (Hfill : forall i s', wpg RG GG (shm_write (mkHandle a i) b >>> Ret a) (fun _ x _ => x = Wrote b) write_exc_post (Own i true b) s').
    { intros i s'. cbn [shm_write prim pbind ptry hid wpg]. intros s3 (W3 & N3 & (F3 & _)). exists (Wrote b). cbn [step].
      rewrite F3. cbn [own_bytes]. rewrite zeros_length, Nat.eqb_refl. split; [|cbn; reflexivity].
      right; right; right; right. exists i, b. split; [reflexivity|]. split; [reflexivity|]. cbn [step]. rewrite F3. cbn [own_bytes].
      rewrite zeros_length, Nat.eqb_refl. reflexivity. }
    apply wpg_bind. unfold open_block. apply wpg_ptry. apply create_wpg; auto.
    intros s1 _. cbv beta iota. apply wpg_bind. apply attach_wpg.
    - intros i s2. apply wpg_bind. cbn [shm_unlink prim hname wpg]. intros s3 (W3 & N3 & _). destruct (names s3 a) as [i'|] eqn:Ea.
      + exists Between. cbn [step]. rewrite Ea. split.
        { right; right; left. split; [eauto|]. split; [reflexivity|]. split; [congruence|]. cbn [step]. rewrite Ea. reflexivity. }
        cbn [of_res wpg]. apply create_wpg; auto. intros s4 G4. split; [auto|]. split; [|auto]. apply G4. unfold gone. cbn [names]. unfold upd_name.
        rewrite String.eqb_refl. discriminate.
      + exists (Hold i true). cbn [step]. rewrite Ea. split; [left; auto|]. cbn. split; [eauto|]. split; [|auto]. unfold gone. congruence.
    - intros s2 G2. split; auto.
    - intros i s2 G2. split; eauto.
  Qed.

  (** ** All processes *)
  Definition phases : Type := nat -> phase.
  Definition idle (x : phase) : Prop := x = Plain \/ exists i m, x = Hold i m.
  Definition Race (xs : phases) (s : store) : Prop :=
    wf s /\ mem s io = Some old /\ (forall j, pfact (xs j) s) /\
    (forall j j' i z z' v v', xs j = Own i z v -> xs j' = Own i z' v' -> j = j') /\
    match names s a with
    | Some i => (i = io /\ forall j, idle (xs j)) \/ (exists j z v, xs j = Own i z v) \/ (exists j v, xs j = Wrote v /\ mem s i = Some v)
    | None => exists j, xs j = Between
    end.
  Lemma Race_named xs s : Race xs s -> named s.
  Proof.
    intros (W & Mo & HF & Hinj & Hn) i Hi. rewrite Hi in Hn. destruct Hn as [[-> _]|[(j & z & v & Hj)|(j & v & Hj & Hm)]].
    - left. exact Mo.
    - pose proof (HF j) as F. rewrite Hj in F. destruct F as (F1 & F2 & F3). right. exists v. split; [exact F3|].
      destruct z; cbn [own_bytes] in F1; auto.
    - pose proof (HF j) as F. rewrite Hj in F. right. exists v. auto.
  Qed.

  Definition set_ph (x : phases) (i : nat) (c : phase) : phases := fun j => if Nat.eqb j i then c else x j.
  Lemma ph_same x i c : set_ph x i c i = c.
  Proof. unfold set_ph. now rewrite Nat.eqb_refl. Qed.
  Lemma ph_other x i c j : j <> i -> set_ph x i c j = x j.
  Proof. intro H. unfold set_ph. destruct (Nat.eqb_spec j i); [congruence|reflexivity]. Qed.

  (** Inodes in use are not the next one. *)
  Lemma mem_next s i b : wf s -> mem s i = Some b -> i <> next s.
  Proof. intros (_ & _ & H) Hm ->. rewrite H in Hm by lia. discriminate. Qed.
  Lemma good_next s i : wf s -> good s i -> i <> next s.
  Proof. intros W H. destruct (good_some _ _ H) as [b Hb]. eapply mem_next; eauto. Qed.

  (** An operation that only changes the inode [i], which nobody owns but
      the one who does it, and leaves it with permitted contents. *)
  Lemma pfact_mem s s' i x : pfact x s -> (forall k, k <> i -> mem s' k = mem s k) ->
    (forall z v, x <> Own i z v) -> (exists v, offered js v /\ v <> "" /\ (mem s' i = Some (zeros (String.length v)) \/ mem s' i = Some v)) -> pfact x s'.
  Proof.
    intros H HM Hx (v & Hv & Hvn & Hi). destruct x as [| |k z w|w|k m]; cbn [pfact] in *; auto.
    - destruct H as (H1 & H2 & H3). rewrite HM; [auto|]. intros ->. apply (Hx z w). reflexivity.
    - destruct H as [H1 H2]. destruct (N.eq_dec k i) as [->|Hk].
      + split; [right; exists v; split; [exact Hv|tauto]|]. intros _. destruct Hi as [-> | ->]; [|congruence].
        destruct v; [congruence|]. discriminate.
      + unfold good in *. rewrite HM by exact Hk. auto.
  Qed.

  Lemma Race_step xs s i x' s' : Race xs s -> GG (xs i) s x' s' -> Race (set_ph xs i x') s'.
  Proof.
    intros HR HG. pose proof (Race_named _ _ HR) as HN. destruct HR as (W & Mo & HF & Hinj & Hn). pose proof (HF i) as Fi.
    destruct HG as [[-> HG]|[(v & Hv & Hx & Ha & -> & ->)|[((i0 & m & Hx) & -> & Ha & ->)|[(k & v & Hx & -> & ->)|(k & v & Hx & -> & ->)]]]].
    - (* nothing happens to the store *)
      assert (Hx' : pfact x' s /\ (forall k z v, x' = Own k z v -> xs i = x') /\ (forall v, xs i = Wrote v -> x' = xs i) /\
                    (forall k z v, xs i = Own k z v -> x' = xs i) /\ (idle (xs i) -> idle x') /\ (xs i = Between -> names s a = None -> x' = Between)).
      { destruct HG as [->|[(E & k & Hk & ->)|[(k & E & Hm & ->)|[(k & m & E & ->)|(E & Hk & ->)]]]].
        - repeat split; auto.
        - rewrite E in *. split; [split; [apply HN, Hk|discriminate]|]. repeat split; try discriminate. intros _. right; eauto.
        - rewrite E in *. destruct Fi as [Fi _]. split; [split; [exact Fi|auto]|]. repeat split; try discriminate. intros _. right; eauto.
        - rewrite E in *. split; [exact Logic.I|]. repeat split; try discriminate. left; reflexivity.
        - rewrite E in *. split; [exact Logic.I|]. repeat split; try discriminate; [left; reflexivity|]. intros _ Hx. congruence. }
      destruct Hx' as (F1 & F2 & F3 & F4 & F5 & F6).
      assert (Hall : forall j, j = i \/ set_ph xs i x' j = xs j).
      { intro j. destruct (Nat.eq_dec j i) as [->|Hj]; [left; reflexivity|right; apply ph_other, Hj]. }
      split; [exact W|]. split; [exact Mo|]. split; [|split].
      + intro j. destruct (Nat.eq_dec j i) as [->|Hj]; [rewrite ph_same; exact F1|rewrite ph_other by exact Hj; apply HF].
      + assert (HO : forall j k z v, set_ph xs i x' j = Own k z v -> xs j = Own k z v).
        { intros j k z v. destruct (Nat.eq_dec j i) as [->|Hj]; [rewrite ph_same; intro E; rewrite (F2 _ _ _ E); exact E|rewrite ph_other by exact Hj; auto]. }
        intros j j' k z z' v v' H1 H2. apply HO in H1, H2. eapply Hinj; eauto.
      + destruct (names s a) as [k|] eqn:Ea.
        * destruct Hn as [[-> Hn]|[(j & z & v & Hj)|(j & v & Hj & Hm)]].
          -- left. split; [reflexivity|]. intro j. destruct (Nat.eq_dec j i) as [->|Hj]; [rewrite ph_same; auto|rewrite ph_other by exact Hj; apply Hn].
          -- right; left. exists j, z, v. destruct (Nat.eq_dec j i) as [->|Hji]; [rewrite ph_same, (F4 _ _ _ Hj); exact Hj|rewrite ph_other by exact Hji; exact Hj].
          -- right; right. exists j, v. split; [|exact Hm]. destruct (Nat.eq_dec j i) as [->|Hji]; [rewrite ph_same, (F3 _ Hj); exact Hj|rewrite ph_other by exact Hji; exact Hj].
        * destruct Hn as [j Hj]. exists j. destruct (Nat.eq_dec j i) as [->|Hji]; [rewrite ph_same; apply F6; auto|rewrite ph_other by exact Hji; exact Hj].
    - (* creates *)
      assert (W' : wf (snd (step (OCreate a) s))) by (apply step_wf; [exact W|exact Logic.I]).
      revert W'. cbn [step]. rewrite Ha. cbn [snd]. intro W'.
      assert (Nio : io <> next s) by (eapply mem_next; eauto).
      assert (HM : forall k, k <> next s -> upd_mem (mem s) (next s) "" k = mem s k).
      { intros k Hk. unfold upd_mem. destruct (N.eqb_spec k (next s)); congruence. }
      split; [exact W'|]. cbn [mem names]. split; [rewrite HM; auto|]. split; [|split].
      + intro j. destruct (Nat.eq_dec j i) as [->|Hj].
        * rewrite ph_same. cbn. split; [unfold upd_mem; now rewrite N.eqb_refl|]. auto.
        * rewrite ph_other by exact Hj. pose proof (HF j) as Fj. destruct (xs j) as [| |k z w|w|k m]; cbn [pfact mem] in *; auto.
          -- destruct Fj as (H1 & H2 & H3). rewrite HM by (eapply mem_next; eauto). auto.
          -- destruct Fj as (H1 & H2). unfold good. cbn [mem]. rewrite HM by (eapply good_next; eauto). auto.
      + assert (HO : forall j z w, xs j <> Own (next s) z w).
        { intros j z w E. pose proof (HF j) as Fj. rewrite E in Fj. destruct Fj as (Fj & _). apply (mem_next _ _ _ W Fj eq_refl). }
        intros j j' k z z' w w'. destruct (Nat.eq_dec j i) as [->|Hj]; destruct (Nat.eq_dec j' i) as [->|Hj']; rewrite ?ph_same, ?ph_other by assumption; auto.
        * intros [= <- <- <-] E. destruct (HO _ _ _ E).
        * intros E [= <- <- <-]. destruct (HO _ _ _ E).
        * apply Hinj.
      + unfold upd_name. rewrite String.eqb_refl. right; left. exists i, false, v. apply ph_same.
    - (* unlinks *)
      assert (W' : wf (snd (step (OUnlink a) s))) by (apply step_wf; [exact W|exact Logic.I]).
      revert W'. cbn [step]. destruct (names s a) as [k|] eqn:Ea; [|congruence]. cbn [snd]. intro W'.
      split; [exact W'|]. cbn [mem names]. split; [exact Mo|]. split; [|split].
      + intro j. destruct (Nat.eq_dec j i) as [->|Hj]; [rewrite ph_same; exact Logic.I|]. rewrite ph_other by exact Hj. exact (HF j).
      + intros j j' k' z z' w w'. destruct (Nat.eq_dec j i) as [->|Hj]; destruct (Nat.eq_dec j' i) as [->|Hj']; rewrite ?ph_same, ?ph_other by assumption; auto; try discriminate.
        apply Hinj.
      + unfold upd_name. rewrite String.eqb_refl. exists i. apply ph_same.
    - (* sizes *)
      rewrite Hx in Fi. destruct Fi as (F1 & F2 & F3).
      assert (W' : wf (snd (step (OTrunc k (String.length v)) s))) by (apply step_wf; [exact W|cbn; congruence]).
      revert W'. cbn [step snd]. intro W'.
      assert (HM : forall k', k' <> k -> upd_mem (mem s) k (zeros (String.length v)) k' = mem s k').
      { intros k' Hk. unfold upd_mem. destruct (N.eqb_spec k' k); congruence. }
      assert (Hk : upd_mem (mem s) k (zeros (String.length v)) k = Some (zeros (String.length v))) by (unfold upd_mem; now rewrite N.eqb_refl).
      split; [exact W'|]. cbn [mem names]. split; [rewrite HM; auto|]. split; [|split].
      + intro j. destruct (Nat.eq_dec j i) as [->|Hj]; [rewrite ph_same; cbn [pfact mem]; rewrite Hk; auto|]. rewrite ph_other by exact Hj.
        eapply (pfact_mem s); [apply HF|cbn [mem]; exact HM| |].
        * intros z w E. apply Hj. eapply Hinj; eauto.
        * exists v. cbn [mem]. rewrite Hk. split; [exact F3|]. split; [apply vals_ne, F3|auto].
      + intros j j' k' z z' w w'. destruct (Nat.eq_dec j i) as [->|Hj]; destruct (Nat.eq_dec j' i) as [->|Hj']; rewrite ?ph_same, ?ph_other by assumption; auto.
        * intros [= <- <- <-] E. eapply Hinj; eauto.
        * intros E [= <- <- <-]. eapply Hinj; eauto.
        * apply Hinj.
      + destruct (names s a) as [k'|] eqn:Ea.
        * destruct Hn as [[-> Hn]|[(j & z & w & Hj)|(j & w & Hj & Hm)]].
          -- specialize (Hn i). rewrite Hx in Hn. destruct Hn as [Hn|(? & ? & Hn)]; discriminate.
          -- right; left. destruct (Nat.eq_dec j i) as [->|Hji].
             ++ exists i, true, v. rewrite ph_same. rewrite Hx in Hj. injection Hj as <- <- <-. reflexivity.
             ++ exists j, z, w. rewrite ph_other by exact Hji. exact Hj.
          -- right; right. exists j, w. rewrite ph_other by (intros ->; congruence). split; [exact Hj|]. rewrite HM; [exact Hm|].
             intros ->. rewrite Hm in F1. cbn [own_bytes] in F1. injection F1 as F1. subst w. pose proof (HF j) as Fj. rewrite Hj in Fj. apply (vals_ne _ Fj eq_refl).
        * destruct Hn as [j Hj]. exists j. rewrite ph_other by (intros ->; congruence). exact Hj.
    - (* writes *)
      rewrite Hx in Fi. destruct Fi as (F1 & F2 & F3). cbn [own_bytes] in F1.
      assert (W' : wf (snd (step (OWrite k v) s))) by (apply step_wf; [exact W|exact Logic.I]).
      revert W'. cbn [step]. rewrite F1, zeros_length, Nat.eqb_refl. cbn [snd]. intro W'.
      assert (HM : forall k', k' <> k -> upd_mem (mem s) k v k' = mem s k').
      { intros k' Hk. unfold upd_mem. destruct (N.eqb_spec k' k); congruence. }
      assert (Hk : upd_mem (mem s) k v k = Some v) by (unfold upd_mem; now rewrite N.eqb_refl).
      split; [exact W'|]. cbn [mem names]. split; [rewrite HM; auto|]. split; [|split].
      + intro j. destruct (Nat.eq_dec j i) as [->|Hj]; [rewrite ph_same; exact F3|]. rewrite ph_other by exact Hj.
        eapply (pfact_mem s); [apply HF|cbn [mem]; exact HM| |].
        * intros z w E. apply Hj. eapply Hinj; eauto.
        * exists v. cbn [mem]. rewrite Hk. split; [exact F3|]. split; [apply vals_ne, F3|auto].
      + intros j j' k' z z' w w'. destruct (Nat.eq_dec j i) as [->|Hj]; destruct (Nat.eq_dec j' i) as [->|Hj']; rewrite ?ph_same, ?ph_other by assumption; auto; try discriminate.
        apply Hinj.
      + destruct (names s a) as [k'|] eqn:Ea.
        * destruct Hn as [[-> Hn]|[(j & z & w & Hj)|(j & w & Hj & Hm)]].
          -- specialize (Hn i). rewrite Hx in Hn. destruct Hn as [Hn|(? & ? & Hn)]; discriminate.
          -- destruct (Nat.eq_dec j i) as [->|Hji].
             ++ right; right. exists i, v. rewrite ph_same. rewrite Hx in Hj. injection Hj as <- <- <-. auto.
             ++ right; left. exists j, z, w. rewrite ph_other by exact Hji. exact Hj.
          -- right; right. destruct (N.eq_dec k' k) as [->|Hkk].
             ++ exists i, v. rewrite ph_same. auto.
             ++ exists j, w. rewrite ph_other by (intros ->; congruence). split; [exact Hj|]. rewrite HM; auto.
        * destruct Hn as [j Hj]. exists j. rewrite ph_other by (intros ->; congruence). exact Hj.
  Qed.

  Lemma Race_gone xs s i x' s' : Race xs s -> GG (xs i) s x' s' -> gone s -> gone s'.
  Proof.
    intros (W & Mo & HF & Hinj & Hn) HG Hg. unfold gone in *.
    destruct HG as [[-> HG]|[(v & Hv & Hx & Ha & -> & ->)|[((i0 & m & Hx) & -> & Ha & ->)|[(k & v & Hx & -> & ->)|(k & v & Hx & -> & ->)]]]].
    - exact Hg.
    - cbn [step]. rewrite Ha. cbn [snd names]. unfold upd_name. rewrite String.eqb_refl. intros [= E]. apply (mem_next _ _ _ W Mo). congruence.
    - cbn [step]. destruct (names s a); [|congruence]. cbn [snd names]. unfold upd_name. rewrite String.eqb_refl. discriminate.
    - cbn [step snd names]. exact Hg.
    - cbn [step]. destruct (mem s k) as [b|]; [|exact Hg]. destruct (Nat.eqb _ _); exact Hg.
  Qed.

  Definition RInv (ps : list (prog string)) (s : store) : Prop :=
    exists xs, Race xs s /\ List.length ps = List.length js /\
      (forall j, nth_error js j = None -> idle (xs j)) /\
      forall j jb p, nth_error js j = Some jb -> nth_error ps j = Some p -> jok jb p (xs j) s.

  Lemma jok_stable jb p x s s' : jok jb p x s -> RG x s s' -> jok jb p x s'.
  Proof.
    unfold jok. intros H HR. eapply wpg_stable; [| | |exact H|exact HR].
    - intros s1 s2 s3 (_ & (_ & _ & H2) & _) (W3 & (N3 & M3 & H3) & F3). split; [exact W3|]. split; [|exact F3]. split; [exact N3|]. split; [exact M3|]. auto.
    - intros r Hr _. destruct jb; exact Hr.
    - intros e He (_ & (_ & _ & Hg) & _). destruct jb; cbn [jpost snd] in *; [|exact He]. destruct He as (H1 & H2 & H3). split; [exact H1|]. split; [apply Hg, H2|exact H3].
  Qed.

  Lemma nth_put {A} (l : list A) i y j : i < List.length l ->
    nth_error (firstn i l ++ y :: skipn (S i) l) j = if Nat.eqb j i then Some y else nth_error l j.
  Proof.
    intro Hi. assert (Hf : List.length (firstn i l) = i) by (rewrite firstn_length; lia).
    destruct (Nat.eqb_spec j i) as [->|Hj].
    - rewrite nth_error_app2 by lia. rewrite Hf, Nat.sub_diag. reflexivity.
    - destruct (Nat.lt_ge_cases j i) as [Hlt|Hge].
      + rewrite nth_error_app1 by lia. rewrite <- (firstn_skipn i l) at 2. rewrite nth_error_app1 by lia. reflexivity.
      + rewrite nth_error_app2 by lia. rewrite Hf. destruct (j - i) as [|d] eqn:Ed; [lia|]. cbn [nth_error].
        rewrite <- (firstn_skipn (S i) l) at 2. rewrite nth_error_app2 by (rewrite firstn_length; lia).
        f_equal. rewrite firstn_length. lia.
  Qed.

  Lemma RInv_turn ps s i : RInv ps s -> RInv (fst (turn ps i s)) (snd (turn ps i s)).
  Proof.
    intro H. unfold turn. destruct (nth_error ps i) as [p|] eqn:Ep; [|exact H].
    destruct (prog_step p s) as [[p' s']|] eqn:Es; [|exact H]. cbn [fst snd].
    destruct H as (xs & HR & HL & HO & HJ).
    assert (Hi : i < List.length ps) by (apply nth_error_Some; congruence).
    destruct (nth_error js i) as [jb|] eqn:Ej; [|apply nth_error_None in Ej; lia].
    pose proof (HJ i jb p Ej Ep) as Hp. destruct p as [r|e| |B o k]; cbn [prog_step] in Es; try discriminate.
    unfold jok in Hp. cbn [wpg] in Hp. pose proof HR as (W & Mo & HF & Hinj & Hn).
    destruct (Hp s) as [x' Hp']. { split; [exact W|]. split; [split; [eapply Race_named; eauto|split; [exact Mo|auto]]|apply HF]. }
    destruct (step o s) as [r s2]. injection Es as <- <-. destruct Hp' as [HG Hp'].
    pose proof (Race_step xs s i x' s2 HR HG) as HR'. exists (set_ph xs i x'). split; [exact HR'|].
    split; [|split].
    - rewrite app_length, firstn_length. cbn [List.length]. rewrite skipn_length. lia.
    - intros j Hj. rewrite ph_other by (intros ->; congruence). apply HO, Hj.
    - intros j jb' p Hj Hpj. rewrite nth_put in Hpj by exact Hi. destruct (Nat.eqb_spec j i) as [->|Hji].
      + injection Hpj as <-. rewrite ph_same. assert (jb' = jb) by congruence. subst jb'. exact Hp'.
      + rewrite ph_other by exact Hji. eapply jok_stable; [apply (HJ j jb' p Hj Hpj)|].
        split; [apply HR'|]. split; [split; [eapply Race_named; exact HR'|split; [apply HR'|eapply Race_gone; [exact HR|exact HG]]]|]. pose proof (proj1 (proj2 (proj2 HR')) j) as Fj. rewrite ph_other in Fj by exact Hji. exact Fj.
  Qed.
  Lemma RInv_together sched : forall ps s, RInv ps s -> RInv (fst (together ps sched s)) (snd (together ps sched s)).
  Proof.
    induction sched as [|i r IH]; intros ps s H; cbn [together]; [exact H|].
    pose proof (RInv_turn ps s i H) as H'. destruct (turn ps i s) as [ps' s']. apply IH, H'.
  Qed.
  Lemma RInv_start s : wf s -> at_ s a io old -> RInv (map (job_prog a) js) s.
  Proof.
    intros W A. exists (fun _ => Plain). split; [|split; [apply map_length|split; [left; reflexivity|]]].
    - split; [exact W|]. split; [apply A|]. split; [intro; exact Logic.I|]. split; [discriminate|]. rewrite (proj1 A). left. split; [reflexivity|]. left; reflexivity.
    - intros j jb p Hj Hp. rewrite nth_error_map, Hj in Hp. cbn in Hp. injection Hp as <-. destruct jb as [b|]; cbn [job_prog].
      + assert (Hb : offered js b) by (eapply nth_error_In; exact Hj). apply overwrite_jok; [apply vals_ne, Hb|exact Hb].
      + apply fetch_jok.
  Qed.
End Race.

Lemma race_results a js old sched s : wf s -> content s a = Some old -> old <> "" -> (forall v, offered js v -> v <> "") ->
  let '(ps, _) := together (map (job_prog a) js) sched s in
  forall i j p r, nth_error js i = Some j -> nth_error ps i = Some p -> outcome p = Some r -> job_result js old j r.
Proof.
  intros W HC Ho Hv. destruct (content_at _ _ _ HC) as [io A].
  pose proof (RInv_together a js io old Hv sched _ _ (RInv_start a js io old Ho Hv s W A)) as H.
  destruct (together (map (job_prog a) js) sched s) as [ps s']. cbn [fst snd] in H. destruct H as (xs & HR & HL & HO & HJ).
  intros i j p r Hj Hp Hr. specialize (HJ i j p Hj Hp). unfold jok in HJ. destruct p as [x|e| |B o k]; cbn in Hr; try discriminate; injection Hr as <-; cbn [wpg] in HJ;
    destruct j as [b|]; cbn [jpost fst snd job_result] in *; auto; apply HJ.
Qed.

Lemma race_final a js old sched s b0 : wf s -> content s a = Some old -> old <> "" -> (forall v, offered js v -> v <> "") -> offered js b0 ->
  let '(ps, s') := together (map (job_prog a) js) sched s in
  all_done ps -> exists i v r, nth_error js i = Some (Overwrite v) /\ nth_error ps i = Some (Ret r) /\ content s' a = Some v.
Proof.
  intros W HC Ho Hv Hb0. destruct (content_at _ _ _ HC) as [io A].
  pose proof (RInv_together a js io old Hv sched _ _ (RInv_start a js io old Ho Hv s W A)) as H.
  destruct (together (map (job_prog a) js) sched s) as [ps s']. cbn [fst snd] in H. destruct H as (xs & HR & HL & HO & HJ). intro HD.
  destruct HR as (W' & Mo & HF & Hinj & Hn).
  assert (HE : forall j jb, nth_error js j = Some jb -> exists p, nth_error ps j = Some p /\
    ((exists r, p = Ret r /\ fst (jpost a js io old jb) r (xs j) s') \/ (exists e, p = Raise e /\ snd (jpost a js io old jb) e (xs j) s'))).
  { intros j jb Hj. assert (Hlt : j < List.length ps) by (rewrite HL; apply nth_error_Some; congruence).
    destruct (nth_error ps j) as [p|] eqn:Ep; [|apply nth_error_None in Ep; lia]. exists p. split; [reflexivity|].
    specialize (HJ j jb p Hj Ep). specialize (HD p (nth_error_In _ _ Ep)). destruct p as [r|e| |B o k]; cbn [outcome] in HD; [left|right|congruence|congruence]; eauto. }
  assert (HI : forall j, (exists v, nth_error js j = Some (Overwrite v) /\ (exists r, nth_error ps j = Some (Ret r)) /\ xs j = Wrote v) \/ idle (xs j)).
  { intro j. destruct (nth_error js j) as [[v|]|] eqn:Ej; [| |right; apply HO, Ej].
    - destruct (HE j _ Ej) as (p & Ep & [(r & -> & Hp)|(e & -> & Hp)]); cbn [jpost fst snd] in Hp; [left; exists v; eauto|right; apply Hp].
    - destruct (HE j _ Ej) as (p & Ep & [(r & -> & Hp)|(e & -> & Hp)]); cbn [jpost fst snd] in Hp; right; apply Hp. }
  assert (HX : forall j v, xs j = Wrote v -> nth_error js j = Some (Overwrite v) /\ exists r, nth_error ps j = Some (Ret r)).
  { intros j v E. destruct (HI j) as [(v' & H1 & H2 & H3)|[H|(k & m & H)]]; [|congruence|congruence]. assert (v' = v) by congruence. subst v'. auto. }
  unfold content. destruct (names s' a) as [i|] eqn:Ea.
  - destruct Hn as [[-> Hn]|[(j & z & v & Hj)|(j & v & Hj & Hm)]].
    + exfalso. destruct (In_nth_error _ _ Hb0) as [j Hj]. destruct (HE j _ Hj) as (p & Ep & [(r & -> & Hp)|(e & -> & Hp)]); cbn [jpost fst snd] in Hp.
      * specialize (Hn j). rewrite Hp in Hn. destruct Hn as [Hn|(? & ? & Hn)]; discriminate.
      * destruct Hp as (_ & Hg & _). apply Hg, Ea.
    + exfalso. destruct (HI j) as [(v' & H1 & H2 & H3)|[H|(k & m & H)]]; congruence.
    + destruct (HX j v Hj) as [H1 [r H2]]. exists j, v, r. auto.
  - exfalso. destruct Hn as [j Hj]. destruct (HI j) as [(v' & H1 & H2 & H3)|[H|(k & m & H)]]; congruence.
Qed.
