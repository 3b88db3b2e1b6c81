(** The invariant of a SlidingLock whose entries are orderly. *)
From Verif Require Export Conc_Proofs.

Definition b2z (b : bool) : Z := if b then 1 else 0.

Lemma slots_app k m : slots_from k (S m) = slots_from k m ++ [(k + Z.of_nat (S m))%Z].
Proof.
  revert k. induction m as [|m IH]; intro k; cbn [slots_from app]; [f_equal; lia|].
  f_equal. cbn [slots_from] in IH. rewrite IH. do 2 f_equal. lia.
Qed.
Lemma slots_length k m : List.length (slots_from k m) = m.
Proof. revert k; induction m as [|m IH]; intro k; cbn; auto. Qed.

(** Slots [g_h] to [g_m] are locked, [g_h] is the next to be released; [g_v]:
    its owner has been let in; [g_w]: has written the counter.  [g_own]: the
    slot whose marker a process has. *)
Record ghost := mkGhost { g_h : Z; g_m : Z; g_w : bool; g_v : bool; g_own : nat -> option Z }.

Section Mutex.
  Variable I : string.
  Variable fuel : nat.
  Variable ch : N.
  Variable k0 : Z.
  Notation count := (count_address I).
  Notation marker n := (marker_address I n).
  Notation lock n := (lock_address I n).
  Notation marked := (marked I).
  Notation locked := (locked I).
  Notation obj := (obj I ch).
  Notation counted := (counted I ch).
  Local Hint Resolve ln_count ln_marker ln_lock lsame_refl same_refl : core.

  (** [e]: who is taking its slot, which will be [g_m g + 1]. *)
  Definition settled (g : ghost) (e : option nat) (n : Z) : Prop := e = None \/ n <> (g_m g + 1)%Z.
  Definition sinv (g : ghost) (e : option nat) (s : store) : Prop :=
    wf s /\ at_ s count ch (le_digits 5 (g_h g - 1 + b2z (g_w g))) /\
    (forall n, settled g e n -> (locked s n <-> (g_h g <= n <= g_m g)%Z)) /\
    (forall n, (g_h g <= n <= g_m g)%Z -> marked s n) /\
    (forall n, settled g e n -> marked s n -> (n <= g_m g)%Z /\ exists i, g_own g i = Some n) /\
    (forall i n, g_own g i = Some n -> (n <= g_m g)%Z /\ marked s n).
  Definition ginv (g : ghost) (sv : list Z) : Prop :=
    (0 <= k0)%Z /\ (k0 + 1 <= g_h g <= g_m g + 1)%Z /\ (g_w g = true -> g_v g = true) /\ (g_v g = true -> (g_h g <= g_m g)%Z) /\
    (forall i j n, g_own g i = Some n -> g_own g j = Some n -> i = j) /\
    sv = slots_from k0 (Z.to_nat (g_h g - 1 + b2z (g_v g) - k0)).
  (** The entry may run out of patience if this many slots were taken. *)
  Definition short (g : ghost) : Prop := (Z.of_nat fuel <= g_m g - k0)%Z.
  (** How many operations an entry takes at most. *)
  Definition entry_cost (g : ghost) : nat := Z.to_nat (g_m g - k0) + 7.
  (** [t]: how often the process has moved since it began to enter, or to wait. *)
  Definition pinv (g : ghost) (e : option nat) (s : store) (i t : nat) (st : stage) : Prop :=
    match st with
    | Starting p => g_own g i = None /\ init_ok I ch p s
    | Ready l => g_own g i = None /\ l = fresh I ch
    | Entering p => e = Some i /\ g_own g i = None /\ (exists c, (k0 <= c)%Z /\ enter_ok I ch (short g) c (g_m g) p s) /\
        (~ short g -> brief (env I ch (g_m g)) (entry_cost g - t) p s)
    | Waiting p => exists n f, g_own g i = Some n /\ (g_h g <= n)%Z /\ (g_v g = true -> n <> g_h g) /\
        (k0 <= f <= g_h g)%Z /\ (f < n)%Z /\ wait_ok I ch n f p s /\
        (forall k, (f <= k < n)%Z -> blocked I k p s) /\
        (forall d, d + t < fuel -> alive I n f d p)
    | Inside l => exists f, g_own g i = Some (g_h g) /\ g_v g = true /\ g_w g = false /\ obj (g_h g) f true l
    | Leaving p r => r = Ok tt /\
        ((exists l f n, g_own g i = Some n /\ obj n f true l /\
           ((p = release l /\ n = g_h g /\ g_v g = true /\ g_w g = false) \/
            (p = rel2 l /\ n = g_h g /\ g_v g = true /\ g_w g = true) \/
            (p = rel3 l /\ (n < g_h g)%Z)))
         \/ (g_own g i = None /\ exists l, p = Ret l))
    | Finished r => g_own g i = None /\ r = Ok tt
    end.

  Definition room (g : ghost) (e : option nat) (K : nat) : Prop := (g_m g + (if e then 1 else 0) <= k0 + Z.of_nat K)%Z.
  (** [K]: no more slots than this have been asked for. *)
  Definition known (g : ghost) (e : option nat) (K : nat) (t : nat -> nat) (c : config) : Prop :=
    sinv g e (shared c) /\ ginv g (served c) /\ room g e K /\
    (forall i, pinv g e (shared c) i (t i) (procs c i)) /\ (forall j, e = Some j -> entering c j).
  Definition InvT (K : nat) (t : nat -> nat) (c : config) : Prop := exists g e, known g e K t c.
  Definition Inv (K : nat) (c : config) : Prop := exists t, InvT K t c.

  Lemma counted_same s s' : (forall a, lock_names I a -> same_at s s' a) -> Rc I ch s s'.
  Proof.
    intros H (N1 & c & b & M1). destruct (H count (ln_count I)) as [H1 H2]. split; [congruence|]. rewrite H2 by exact N1. eauto.
  Qed.
  Lemma at_counted s n : at_ s count ch (le_digits 5 n) -> counted s.
  Proof. intros [H1 H2]. split; [exact H1|]. eauto. Qed.

  (** A process keeps its place while others move. *)
  Lemma pinv_stable g g' e e' s s' j t st :
    pinv g e s j t st -> g_own g' j = g_own g j -> Rc I ch s s' ->
    (forall k n, g_own g j = Some n -> (k < n)%Z -> names s (lock k) = None -> names s' (lock k) = None) ->
    (g_h g <= g_h g')%Z ->
    (g_own g j = Some (g_h g) -> g_v g = true -> g_h g' = g_h g /\ g_v g' = g_v g /\ g_w g' = g_w g) ->
    (forall n, g_own g j = Some n -> (g_h g <= n)%Z -> (g_v g = true -> n <> g_h g) -> (g_h g' <= n)%Z /\ (g_v g' = true -> n <> g_h g')) ->
    (e = Some j -> e' = e /\ g_m g' = g_m g /\ env I ch (g_m g) s s') ->
    pinv g' e' s' j t st.
  Proof.
    intros Hp Eo HR HL Hh Hs Hw HE. destruct st as [p|l|p|p|l|p r|r]; cbn [pinv] in *; rewrite ?Eo.
    - destruct Hp as [H1 H2]. split; [exact H1|]. eapply init_stable; eauto.
    - exact Hp.
    - destruct Hp as (H1 & H2 & [cc [H0 H3]] & HB). destruct (HE H1) as (-> & Em & H4). unfold short, entry_cost in *. rewrite Em. split; [exact H1|]. split; [exact H2|].
      split; [exists cc; split; [exact H0|eapply enter_stable; eauto]|]. intro Hs'. eapply brief_stable; [apply env_trans|apply HB, Hs'|exact H4].
    - destruct Hp as (n & f & H1 & H2 & H3 & H4 & H5 & H6 & HB & HA). destruct (Hw n H1 H2 H3) as [H7 H8].
      exists n, f. split; [exact H1|]. split; [exact H7|]. split; [exact H8|]. split; [lia|]. split; [exact H5|].
      split; [eapply wait_stable; [exact H6|]; intros k Hk; apply (HL k n); [exact H1|lia]|].
      split; [|exact HA]. intros k Hk. eapply blocked_stable; [apply HB, Hk|]. intros Hx Hx'. apply Hx, (HL k n); [exact H1|lia|exact Hx'].
    - destruct Hp as (f & H1 & H2 & H3 & H4). destruct (Hs H1 H2) as (E1 & E2 & E3). exists f. rewrite E1, E2, E3. auto.
    - destruct Hp as [Hr Hp]. split; [exact Hr|]. destruct Hp as [(l & f & n & H1 & H2 & H3)|Hp]; [left|right; exact Hp].
      exists l, f, n. split; [exact H1|]. split; [exact H2|].
      destruct H3 as [(E & En & Ev & Ew)|[(E & En & Ev & Ew)|(E & En)]].
      + subst n. destruct (Hs H1 Ev) as (E1 & E2 & E3). left. split; [exact E|]. split; [congruence|]. split; congruence.
      + subst n. destruct (Hs H1 Ev) as (E1 & E2 & E3). right; left. split; [exact E|]. split; [congruence|]. split; congruence.
      + right; right. split; [exact E|lia].
    - exact Hp.
  Qed.

  Lemma sinv_same g e s s' : sinv g e s -> wf s' -> (forall a, lock_names I a -> same_at s s' a) -> sinv g e s'.
  Proof.
    intros (W & A & L & M & O & P) W' H.
    assert (NL : forall n, names s' (lock n) = names s (lock n)) by (intro n; apply same_names, H; auto).
    assert (NM : forall n, names s' (marker n) = names s (marker n)) by (intro n; apply same_names, H; auto).
    unfold sinv, Conc_Proofs.locked, Conc_Proofs.marked in *. split; [exact W'|]. split; [apply (at_same s); auto|]. 
    split; [intro n; rewrite NL; apply L|]. split; [intro n; rewrite NM; apply M|]. split; [intro n; rewrite NM; apply O|].
    intros i n Hi. rewrite NM. eapply P; eauto.
  Qed.

  Lemma known_more g e K K' t c : known g e K t c -> K <= K' -> known g e K' t c.
  Proof. intros (HS & HG & HK & HP) H. repeat (split; [assumption|]). split; [unfold room in *; lia|exact HP]. Qed.
  Lemma InvT_more K K' t c : InvT K t c -> K <= K' -> InvT K' t c.
  Proof. intros (g & e & H) L. exists g, e. eapply known_more; eauto. Qed.
  Lemma Inv_idle K c : Inv K c -> Inv (S K) c.
  Proof. intros (t & H). exists t. eapply InvT_more; eauto. Qed.
  Lemma pinv_later g e s i t t' st : t <= t' -> ~ (exists p, st = Entering p) -> pinv g e s i t st -> pinv g e s i t' st.
  Proof.
    intros L Hn H. destruct st; try exact H; [destruct Hn; eauto|]. destruct H as (n & f & H1 & H2 & H3 & H4 & H5 & H6 & HB & HA). exists n, f.
    repeat (split; [assumption|]). intros d Hd. apply HA. lia.
  Qed.
  Lemma known_env g e K t c s : known g e K t c -> wf s -> (forall a, lock_names I a -> same_at (shared c) s a) ->
    known g e K t (mkConfig (procs c) s (served c)).
  Proof.
    intros (HS & HG & HK & HP & HE) W H. split; cbn [shared served procs]; [eapply sinv_same; eauto|]. split; [exact HG|].
    split; [exact HK|]. split; [|exact HE].
    intro i. eapply pinv_stable; [apply HP|reflexivity|now apply counted_same| |lia|auto|auto|].
    - intros k n _ _. rewrite (same_names (shared c) s); [auto|]. apply H; auto.
    - intros _. split; [reflexivity|]. split; [reflexivity|]. apply env_lsame; auto.
  Qed.
  Lemma InvT_env K t c s : InvT K t c -> wf s -> (forall a, lock_names I a -> same_at (shared c) s a) ->
    InvT K t (mkConfig (procs c) s (served c)).
  Proof. intros (g & e & HK) W H. exists g, e. now apply known_env. Qed.
  Lemma Inv_env K c s : Inv K c -> wf s -> (forall a, lock_names I a -> same_at (shared c) s a) ->
    Inv K (mkConfig (procs c) s (served c)).
  Proof. intros (t & H) W Hs. exists t. now apply InvT_env. Qed.
  Lemma Inv_more K K' c : Inv K c -> K <= K' -> Inv K' c.
  Proof. intros (t & H) HK. exists t. eapply InvT_more; eauto. Qed.

  (** *** Moves *)
  Lemma set_same f i st : set_proc f i st i = st.
  Proof. unfold set_proc. now rewrite Nat.eqb_refl. Qed.
  Lemma set_other f i st j : j <> i -> set_proc f i st j = f j.
  Proof. intro H. unfold set_proc. destruct (Nat.eqb_spec j i); [congruence|reflexivity]. Qed.

  Lemma go_eq i c st s o : stage_step fuel (procs c i) (shared c) = Some (st, s, o) ->
    go fuel i c = mkConfig (set_proc (procs c) i st) s (match o with Some n => served c ++ [n] | None => served c end).
  Proof. intro E. unfold go. now rewrite E. Qed.

  Lemma step_starting p s : stage_step fuel (Starting p) s =
    match p with
    | Ret l => Some (Ready l, s, None)
    | Raise e => Some (Finished (Exc e), s, None)
    | _ => match prog_step p s with Some (p', s') => Some (Starting p', s', None) | None => None end
    end.
  Proof. destruct p; reflexivity. Qed.

  (** The same ghosts do: only process [i] changes its stage. *)
  Lemma entering_stay c i st s' sv j : ~ entering c i -> entering c j -> entering (mkConfig (set_proc (procs c) i st) s' sv) j.
  Proof.
    intros Hi [p Hp]. exists p. cbn [procs]. rewrite set_other; [exact Hp|]. intros ->. apply Hi. now exists p.
  Qed.
  Definition bumped (st : stage) (n : nat) : nat :=
    match st with Waiting _ | Entering (Do _ _) => S n | _ => 0 end.
  Definition bump (c : config) (t : nat -> nat) (i j : nat) : nat := if Nat.eqb j i then bumped (procs c i) (t i) else t j.
  Lemma bumped_le st n : bumped st n <= S n.
  Proof. destruct st as [p|l|[| | |]|p|l|p r|r]; cbn; lia. Qed.
  Lemma bump_same c t i : bump c t i i = bumped (procs c i) (t i).
  Proof. unfold bump. now rewrite Nat.eqb_refl. Qed.
  Lemma bump_other c t i j : j <> i -> bump c t i j = t j.
  Proof. intro H. unfold bump. destruct (Nat.eqb_spec j i); [congruence|reflexivity]. Qed.
  Definition asks (c : config) (i : nat) : nat := match procs c i with Ready _ => 1 | _ => 0 end.
  (** What a move of process [i] does to the ghosts. *)
  Definition advances (i : nat) (g g' : ghost) : Prop :=
    (g_h g <= g_h g')%Z /\ (g_m g <= g_m g')%Z /\ forall j, j <> i -> g_own g' j = g_own g j.
  Definition InvG (i : nat) (g : ghost) (K : nat) (t : nat -> nat) (c : config) : Prop := exists g' e', advances i g g' /\ known g' e' K t c.
  Lemma advances_refl i g : advances i g g.
  Proof. split; [lia|]. split; [lia|auto]. Qed.
  Lemma advances_trans i g1 g2 g3 : advances i g1 g2 -> advances i g2 g3 -> advances i g1 g3.
  Proof. intros (A1 & A2 & A3) (B1 & B2 & B3). split; [lia|]. split; [lia|]. intros j Hj. rewrite B3, A3; auto. Qed.
  Local Hint Resolve advances_refl : core.

  Lemma known_stay K t c i g e st : known g e K t c -> ~ entering c i -> pinv g e (shared c) i (bump c t i i) st ->
    known g e K (bump c t i) (mkConfig (set_proc (procs c) i st) (shared c) (served c)).
  Proof.
    intros (HS & HG & HK & HP & HE) Hn Hi. split; cbn [shared served procs]; [exact HS|]. split; [exact HG|]. split; [exact HK|].
    split; [|intros j Ej; apply entering_stay; auto].
    intro j. destruct (Nat.eq_dec j i) as [->|Hj]; [rewrite set_same; exact Hi|rewrite set_other, bump_other by exact Hj; apply HP].
  Qed.
  Lemma InvG_stay K t c i g e st : known g e K t c -> ~ entering c i -> pinv g e (shared c) i (bump c t i i) st ->
    InvG i g K (bump c t i) (mkConfig (set_proc (procs c) i st) (shared c) (served c)).
  Proof. intros H1 H2 H3. exists g, e. split; [auto|]. now apply known_stay. Qed.
  Lemma known_idle K t c i g e : (forall B (o : op B) k, procs c i <> Entering (Do o k)) -> known g e K t c -> known g e K (bump c t i) c.
  Proof.
    intros Hst (HS & HG & HK & HP & HE). repeat (split; [assumption|]). split; [|exact HE]. intro j.
    destruct (Nat.eq_dec j i) as [->|Hj]; [|rewrite bump_other by exact Hj; apply HP]. rewrite bump_same. specialize (HP i).
    destruct (procs c i) as [p|l|p|p|l|p r|r]; try exact HP; cbn [bumped].
    - destruct HP as (H1 & H2 & H3 & HB). split; [exact H1|]. split; [exact H2|]. split; [exact H3|]. intro Hs. specialize (HB Hs).
      destruct p as [a|x| |B o k]; try exact HB. destruct (Hst B o k eq_refl).
    - eapply pinv_later; [|intros [q Hq]; discriminate|exact HP]. lia.
  Qed.
  Lemma InvG_idle K t c i g e : (forall B (o : op B) k, procs c i <> Entering (Do o k)) -> known g e K t c -> InvG i g K (bump c t i) c.
  Proof. intros H1 H2. exists g, e. split; [auto|]. now apply known_idle. Qed.
  (** One more look while waiting. *)
  Lemma known_look g e K t c i B (o : op B) k : known g e K t c -> procs c i = Waiting (Do o k) ->
    known g e K (bump c t i) (go fuel i c) /\ step o (shared c) = (fst (step o (shared c)), shared c) /\
    procs (go fuel i c) i = Waiting (k (fst (step o (shared c)))).
  Proof.
    intros HKN Ei. pose proof HKN as (HS & HG & HK & HP & HE). pose proof (HP i) as Hi. rewrite Ei in Hi.
    assert (Hni : ~ entering c i) by (intros [q Hq]; congruence). destruct Hi as (n & f & Ho & Hn & Hv & Hf & Hfn & Hw & HB & HA).
    unfold wait_ok in Hw. cbn [wp] in Hw. specialize (Hw (shared c) (Rw_refl I n f (shared c))). destruct (step o (shared c)) as [r s2] eqn:Es.
    destruct Hw as [HN Hw]. unfold nothing in HN. subst s2.
    rewrite (go_eq i c (Waiting (k r)) (shared c) None) by (rewrite Ei; cbn; rewrite Es; reflexivity). cbn [procs].
    split; [|split; [reflexivity|apply set_same]]. eapply known_stay; eauto.
    rewrite bump_same, Ei. cbn. exists n, f. repeat (split; [assumption|]). split; [|intros d Hd; specialize (HA (S d) ltac:(lia)); apply (alive_step I n f d o k (shared c)) in HA; rewrite Es in HA; exact HA].
    intros k' Hk' Hx. specialize (HB k' Hk' Hx). cbn [wp] in HB. specialize (HB (shared c) (fun x => x)). rewrite Es in HB. apply HB.
  Qed.

  Definition set_own (f : nat -> option Z) (i : nat) (o : option Z) (j : nat) : option Z := if Nat.eqb j i then o else f j.
  Lemma own_same f i o : set_own f i o i = o.
  Proof. unfold set_own. now rewrite Nat.eqb_refl. Qed.
  Lemma own_other f i o j : j <> i -> set_own f i o j = f j.
  Proof. intro H. unfold set_own. destruct (Nat.eqb_spec j i); [congruence|reflexivity]. Qed.

  Lemma settled_in g e n : (n <= g_m g)%Z -> settled g e n.
  Proof. right. lia. Qed.
  Lemma obj_rel3 n f b l : obj n f b l -> exists k, rel3 l = Do (OUnlink (marker n)) k.
  Proof. intros (_ & _ & _ & _ & (x & E) & _). unfold rel3. rewrite E. cbn. eauto. Qed.
  Lemma count_eq s u v : (0 <= u < 256 ^ 5)%Z -> (0 <= v < 256 ^ 5)%Z -> at_ s count ch (le_digits 5 u) -> at_ s count ch (le_digits 5 v) -> u = v.
  Proof.
    intros Hu Hv [_ A] [_ B]. rewrite <- (from_le 5 u Hu), <- (from_le 5 v Hv). congruence.
  Qed.
  (** What the release of slot [v] does to whoever is taking [m + 1]. *)
  Lemma env_count m s s' v : wf s' -> (1 <= v <= m)%Z -> at_ s count ch (le_digits 5 (v - 1)) -> (m < 256 ^ 5)%Z ->
    at_ s' count ch (le_digits 5 v) -> only_at (eq count) s s' -> env I ch m s s'.
  Proof.
    intros W Hv A Hm A' O. split; [exact W|]. split.
    - intros a [[n ->]| ->] _; apply O; adn hash0 I; try tauto.
    - intros u Hu Au. exists v. split; [|exact A']. assert (u = v - 1)%Z by (apply (count_eq s); [lia|lia|exact Au|exact A]). lia.
  Qed.
  Lemma env_unlock m s s' v : wf s' -> (v <= m)%Z -> only_at (eq (lock v)) s s' -> env I ch m s s'.
  Proof.
    intros W Hv O. split; [exact W|]. split.
    - intros a [[n ->]| ->] _; apply O; adn hash0 I; try tauto; try lia.
    - apply mono_same, O. adn hash0 I; try tauto.
  Qed.

  Lemma known_go g e K t c i : known g e K t c -> (k0 + Z.of_nat K < 256 ^ 5)%Z -> orderly I c i -> InvG i g (asks c i + K) (bump c t i) (go fuel i c).
  Proof.
    intros HKN Hb HO. pose proof HKN as (HS & HG & HK & HP & HE). pose proof (HP i) as Hi.
    assert (Hroom : (g_m g < 256 ^ 5)%Z) by (unfold room in HK; destruct e; lia).
    assert (Hbusy : forall j, e = Some j -> ~ entering c i -> (forall l, procs c i <> Ready l) /\ ~ unmarking I (procs c i)).
    { intros j Ej Hn. pose proof (HE j Ej) as Hj. assert (Hji : j <> i) by (intros ->; auto). destruct (HO j Hji Hj) as (H1 & _ & H2). auto. }
    pose proof (bump_same c t i) as Hbump. unfold asks. destruct (procs c i) as [p|l|p|p|l|p r|r] eqn:Ei; cbn [pinv] in Hi; cbn [Nat.add].
    - (* Starting *) assert (Hni : ~ entering c i) by (intros [q Hq]; congruence). destruct Hi as [Ho Hi].
      destruct p as [l|x| |B o k]; unfold init_ok in Hi; cbn [wpt] in Hi.
      + rewrite (go_eq i c (Ready l) (shared c) None) by (rewrite Ei; reflexivity).
        eapply InvG_stay; eauto. rewrite Hbump. cbn. auto.
      + destruct Hi.
      + destruct Hi.
      + specialize (Hi (shared c)). destruct (step o (shared c)) as [r s2] eqn:Es.
        destruct Hi as [HN Hi]; [unfold Rc; auto|]. unfold nothing in HN. subst s2.
        rewrite (go_eq i c (Starting (k r)) (shared c) None) by (rewrite Ei; cbn; rewrite Es; reflexivity).
        eapply InvG_stay; eauto. rewrite Hbump. cbn. auto.
    - (* Ready *) assert (Hni : ~ entering c i) by (intros [q Hq]; congruence). destruct Hi as [Ho ->].
      assert (Ee : e = None). { destruct e as [j|]; [|reflexivity]. destruct (Hbusy j eq_refl Hni) as [Hx _]. destruct (Hx _ eq_refl). }
      subst e.
      rewrite (go_eq i c (Entering (entry fuel (fresh I ch))) (shared c) None) by (rewrite Ei; reflexivity).
      destruct HS as (W & A & L & M & O & P). destruct HG as (G0 & G1 & G2 & G3 & G4 & G5).
      assert (Hw : (g_h g - 1 + b2z (g_w g) <= g_m g)%Z) by (unfold b2z; destruct (g_w g); [specialize (G3 (G2 eq_refl))|]; lia).
      assert (Hw0 : (0 <= b2z (g_w g))%Z) by (unfold b2z; destruct (g_w g); lia).
      exists g, (Some i). split; [auto|]. split; cbn [procs shared served]; [|split; [|split; [|split]]].
      + split; [exact W|]. split; [exact A|]. split; [intros n _; apply L; now left|]. split; [exact M|]. split; [intros n _; apply O; now left|exact P].
      + repeat (split; [assumption|]). assumption.
      + unfold room in *. lia.
      + intro j. destruct (Nat.eq_dec j i) as [->|Hj].
        * rewrite set_same, Hbump. split; [reflexivity|]. split; [exact Ho|]. assert (HV : vacant_next I (g_h g - 1 + b2z (g_w g)) (g_m g) (shared c)).
          { split; [intros k Hk; apply M; lia|]. split; intro Hx; [apply O in Hx; [lia|now left]|apply L in Hx; [lia|now left]]. }
          assert (HC : counts I ch (g_m g) (g_h g - 1 + b2z (g_w g)) (shared c)) by (exists (g_h g - 1 + b2z (g_w g))%Z; split; [lia|exact A]).
          split; [exists (g_h g - 1 + b2z (g_w g))%Z; split; [lia|]; apply entry_ok; [lia|exact Hroom|unfold short; lia|exact HV|exact HC]|].
          intro Hs. unfold short in Hs. eapply brief_more; [|apply (entry_brief I fuel ch False (g_h g - 1 + b2z (g_w g)) (g_m g)); [lia|exact Hroom|exact HV|exact HC|lia]]. unfold entry_cost. cbn [bumped]. lia.
        * rewrite set_other, bump_other by exact Hj. eapply pinv_stable; [apply HP|reflexivity|unfold Rc; auto|auto|lia|auto|auto|discriminate].
      + intros j [= <-]. eexists. cbn [procs]. apply set_same.
    - (* Entering *) destruct Hi as (-> & Ho & [cc [Hcc Hen]] & HBr).
      destruct HS as (W & A & L & M & O & P). destruct HG as (G0 & G1 & G2 & G3 & G4 & G5).
      assert (Hw : (g_h g - 1 + b2z (g_w g) <= g_m g)%Z) by (unfold b2z; destruct (g_w g); [specialize (G3 (G2 eq_refl))|]; lia).
      assert (Hw1 : (0 <= b2z (g_w g) <= 1)%Z) by (unfold b2z; destruct (g_w g); lia).
      set (m := g_m g) in *.
      destruct p as [[l [u|x]]|x| |B o k]; unfold enter_ok in Hen; cbn [wpt] in Hen.
      + (* the lock is placed *)
        destruct Hen as (_ & HM & HL & f & Hf & Hl & v & Hv & Av). cbn [fst] in Hl.
        assert (Ev : v = (g_h g - 1 + b2z (g_w g))%Z) by (apply (count_eq (shared c)); [lia|lia|exact Av|exact A]).
        rewrite (go_eq i c (Waiting (acquire_loop fuel l)) (shared c) None) by (rewrite Ei; reflexivity).
        exists (mkGhost (g_h g) (m + 1) (g_w g) (g_v g) (set_own (g_own g) i (Some (m + 1)%Z))), None. split; [split; [cbn; lia|split; [cbn; unfold m; lia|intros ? ?; cbn [g_own]; rewrite ?own_other by assumption; reflexivity]]|]. 
        assert (Hset : forall n, n <> (m + 1)%Z -> settled g (Some i) n) by (intros n Hn; right; exact Hn).
        split; cbn [procs shared served]; [|split; [|split; [|split]]].
        * split; [exact W|]. cbn [g_h g_m g_w g_v g_own]. split; [exact A|].
          split; [intros n _|]. { destruct (Z.eq_dec n (m + 1)) as [->|Hn]; [split; [lia|auto]|]. rewrite (L n (Hset n Hn)). fold m. lia. }
          split; [intros n Hn|]. { destruct (Z.eq_dec n (m + 1)) as [->|Hn']; [auto|]. apply M. lia. }
          split; [intros n _ Hn|].
          { destruct (Z.eq_dec n (m + 1)) as [->|Hn']. { split; [lia|]. exists i. apply own_same. }
            destruct (O n (Hset n Hn') Hn) as [H1 (j & H2)]. fold m in H1. split; [lia|]. exists j. rewrite own_other; [exact H2|]. intros ->. congruence. }
          intros j n Hj. destruct (Nat.eq_dec j i) as [->|Hji]. { rewrite own_same in Hj. injection Hj as <-. split; [lia|auto]. }
          rewrite own_other in Hj by exact Hji. destruct (P j n Hj) as [H1 H2]. fold m in H1. split; [lia|exact H2].
        * split; [exact G0|]. cbn [g_h g_m g_w g_v g_own]. fold m in G1. split; [lia|]. split; [auto|].
          split; [intro Hx; specialize (G3 Hx); fold m in G3; lia|]. split; [|exact G5].
          intros j j' n. destruct (Nat.eq_dec j i) as [->|Hj]; destruct (Nat.eq_dec j' i) as [->|Hj']; rewrite ?own_same, ?own_other by assumption.
          -- auto.
          -- intros [= <-] Hx. destruct (P _ _ Hx) as [Hy _]. fold m in Hy. lia.
          -- intros Hx [= <-]. destruct (P _ _ Hx) as [Hy _]. fold m in Hy. lia.
          -- apply G4.
        * unfold room in *. cbn [g_m]. fold m in HK. lia.
        * intro j. destruct (Nat.eq_dec j i) as [->|Hj].
          -- rewrite set_same, Hbump. cbn. rewrite own_same. exists (m + 1)%Z, f. split; [reflexivity|]. fold m in G1. split; [lia|].
             split; [intro Hx; specialize (G3 Hx); fold m in G3; lia|]. split; [lia|]. split; [lia|]. split; [apply loop_ok; [exact Hl|lia]|].
             split; [intros n Hn; eapply loop_blocked; [exact Hn|exact Hl]|]. intros d Hd. eapply loop_alive; [exact Hl|lia|lia].
          -- rewrite set_other, bump_other by exact Hj. eapply pinv_stable; [apply HP|cbn; now rewrite own_other|unfold Rc; auto|auto|cbn; lia|auto|auto|intros [= <-]; destruct Hj; reflexivity].
        * discriminate.
      + destruct Hen as [Hen _]. discriminate.
      + destruct Hen.
      + unfold go. rewrite Ei. cbn. eapply InvG_idle; [rewrite Ei; discriminate|eauto].
      + specialize (Hen (shared c) (env_refl I ch m _ W)). destruct (step o (shared c)) as [r s2] eqn:Es. destruct Hen as [[W2 O2] Hen].
        rewrite (go_eq i c (Entering (k r)) s2 None) by (rewrite Ei; cbn; rewrite Es; reflexivity).
        assert (NL : forall n, n <> (m + 1)%Z -> names s2 (lock n) = names (shared c) (lock n)).
        { intros n Hn. apply same_names, O2. intros [E|E]; revert E; adn hash0 I; try tauto; try lia. }
        assert (NM : forall n, n <> (m + 1)%Z -> names s2 (marker n) = names (shared c) (marker n)).
        { intros n Hn. apply same_names, O2. intros [E|E]; revert E; adn hash0 I; try tauto; try lia. }
        assert (SC : same_at (shared c) s2 count).
        { apply O2. intros [E|E]; revert E; adn hash0 I; try tauto. }
        exists g, (Some i). split; [auto|]. split; cbn [procs shared served]; [|split; [|split; [|split]]].
        * unfold sinv, Conc_Proofs.locked, Conc_Proofs.marked in *. split; [exact W2|]. split; [apply (at_same (shared c)); auto|].
          split; [intros n Hn; rewrite NL; [now apply L|destruct Hn as [Hn|Hn]; [discriminate|exact Hn]]|].
          split; [intros n Hn; rewrite NM; [now apply M|fold m in Hn; lia]|].
          split; [intros n Hn; rewrite NM; [now apply O|destruct Hn as [Hn|Hn]; [discriminate|exact Hn]]|].
          intros j n Hj. destruct (P j n Hj) as [H1 H2]. split; [exact H1|]. rewrite NM; [exact H2|fold m in H1; lia].
        * repeat (split; [assumption|]). assumption.
        * unfold room in *. lia.
        * intro j. destruct (Nat.eq_dec j i) as [->|Hj].
          -- rewrite set_same, Hbump. cbn. split; [reflexivity|]. split; [exact Ho|]. split; [exists cc; split; [exact Hcc|exact Hen]|]. intro Hs. specialize (HBr Hs). unfold brief in HBr. cbn [wpb] in HBr.
             destruct (entry_cost g - t i) as [|d] eqn:Ed; [destruct HBr|]. specialize (HBr (shared c) (env_refl I ch m _ W)). rewrite Es in HBr.
             replace (entry_cost g - S (t i)) with d by lia. exact HBr.
          -- rewrite set_other, bump_other by exact Hj. eapply pinv_stable; [apply HP|reflexivity| | |lia|auto|auto|intros [= <-]; destruct Hj; reflexivity].
             ++ intros [H1 H2]. destruct SC as [S1 S2]. split; [congruence|]. rewrite S2 by exact H1. exact H2.
             ++ intros n n' Hn Hlt. rewrite NL; [auto|]. destruct (P j n' Hn) as [H1 _]. fold m in H1. lia.
        * intros j [= <-]. eexists. cbn [procs]. apply set_same.
    - (* Waiting *) assert (Hni : ~ entering c i) by (intros [q Hq]; congruence). destruct Hi as (n & f & Ho & Hn & Hv & Hf & Hfn & Hw & HB & HA).
      destruct p as [[l [u|x]]|x| |B o k]; unfold wait_ok in Hw; cbn [wp] in Hw.
      + destruct Hw as (_ & Hl & Hg). cbn [fst] in Hl.
        destruct HS as (W & A & L & M & O & P). destruct HG as (G0 & G1 & G2 & G3 & G4 & G5).
        assert (Hm : (n <= g_m g)%Z) by (eapply P; eauto).
        assert (En : n = g_h g).
        { destruct (Z.eq_dec n (g_h g)) as [E|Hne]; [exact E|]. exfalso.
          assert (Hx : locked (shared c) (g_h g)). { apply L; [apply settled_in|]; lia. }
          apply Hx, Hg. lia. }
        assert (Ev : g_v g = false) by (destruct (g_v g); [destruct (Hv eq_refl En)|reflexivity]).
        assert (Ew : g_w g = false) by (destruct (g_w g); [rewrite (G2 eq_refl) in Ev; discriminate|reflexivity]).
        pose proof Hl as (_ & _ & Hnum & _).
        rewrite (go_eq i c (Inside l) (shared c) (Some (l_number l))) by (rewrite Ei; reflexivity).
        rewrite Hnum. exists (mkGhost (g_h g) (g_m g) false true (g_own g)), e. split; [split; [cbn; lia|split; [cbn; lia|intros ? ?; cbn [g_own]; rewrite ?own_other by assumption; reflexivity]]|]. 
        split; cbn [procs shared served]; [|split; [|split; [|split]]].
        * split; [exact W|]. cbn [g_h g_m g_w g_v g_own]. rewrite Ew in A. split; [exact A|]. auto.
        * split; [exact G0|]. cbn [g_h g_m g_w g_v g_own]. split; [exact G1|]. split; [auto|].
          split; [intros _; lia|]. split; [exact G4|].
          rewrite G5, Ev. cbn [b2z]. replace (Z.to_nat (g_h g - 1 + 1 - k0)) with (S (Z.to_nat (g_h g - 1 + 0 - k0))) by lia.
          rewrite slots_app. do 2 f_equal. lia.
        * unfold room in *. cbn [g_m]. lia.
        * intro j. destruct (Nat.eq_dec j i) as [->|Hj].
          -- rewrite set_same, Hbump. cbn. exists f. rewrite <- En. auto.
          -- rewrite set_other, bump_other by exact Hj. eapply pinv_stable; [apply HP|reflexivity|unfold Rc; auto|auto|cbn; lia| | |].
             ++ intros _ Hx. congruence.
             ++ cbn. intros n' H1 H2 _. split; [exact H2|]. intros _ Hx. subst n'. apply Hj. apply (G4 j i (g_h g)); congruence.
             ++ intros _. cbn. split; [reflexivity|]. split; [reflexivity|]. apply env_refl, W.
        * intros j Ej. apply entering_stay; auto.
      + destruct Hw as (Hw & _). discriminate.
      + destruct Hw.
      + unfold go. rewrite Ei. cbn. eapply InvG_idle; [rewrite Ei; discriminate|eauto].
      + destruct (known_look g e K t c i B o k HKN Ei) as (Hl & _). exists g, e. auto.
    - (* Inside *) assert (Hni : ~ entering c i) by (intros [q Hq]; congruence). destruct Hi as (f & Ho & Hv & Hw & Hl).
      rewrite (go_eq i c (Leaving (release l) (Ok tt)) (shared c) None) by (rewrite Ei; reflexivity).
      eapply InvG_stay; eauto. rewrite Hbump. cbn. split; [reflexivity|]. left. exists l, f, (g_h g). auto 8.
    - (* Leaving *) assert (Hni : ~ entering c i) by (intros [q Hq]; congruence). destruct Hi as [Er Hi]. subst r.
      destruct HS as (W & A & L & M & O & P). pose proof HG as (G0 & G1 & G2 & G3 & G4 & G5).
      destruct Hi as [(l & f & n & Ho & Hl & [(E & En & Ev & Ew)|[(E & En & Ev & Ew)|(E & En)]])|(Ho & l & E)].
      + (* writes the counter *)
        subst p n. assert (Hh : (g_h g <= g_m g)%Z) by (apply G3, Ev).
        destruct (rel_step1 I ch (g_h g) f l (shared c) _ Hl W A) as (s' & Es & W' & A' & O'); [apply le_length|lia|].
        assert (St : stage_step fuel (Leaving (release l) (Ok tt)) (shared c) = Some (Leaving (rel2 l) (Ok tt), s', None)).
        { cbn [stage_step]. destruct (release l) eqn:E; cbn [prog_step] in Es; try discriminate. cbn [prog_step]. rewrite Es. reflexivity. }
        rewrite (go_eq i c _ _ _ (eq_trans (f_equal2 _ Ei eq_refl) St)).
        assert (NL : forall k, names s' (lock k) = names (shared c) (lock k)).
        { intro k. apply same_names, O'. adn hash0 I; try tauto. }
        assert (NM : forall k, names s' (marker k) = names (shared c) (marker k)).
        { intro k. apply same_names, O'. adn hash0 I; try tauto. }
        exists (mkGhost (g_h g) (g_m g) true true (g_own g)), e. split; [split; [cbn; lia|split; [cbn; lia|intros ? ?; cbn [g_own]; rewrite ?own_other by assumption; reflexivity]]|]. 
        split; cbn [procs shared served]; [|split; [|split; [|split]]].
        * split; [exact W'|]. cbn [g_h g_m g_w g_v g_own b2z]. replace (g_h g - 1 + 1)%Z with (g_h g) by lia. split; [exact A'|].
          unfold Conc_Proofs.locked, Conc_Proofs.marked in *. 
          split; [intro k; rewrite NL; apply L|]. split; [intro k; rewrite NM; apply M|]. split; [intro k; rewrite NM; apply O|].
          intros j k Hj. rewrite NM. eapply P; eauto.
        * split; [exact G0|]. cbn [g_h g_m g_w g_v g_own]. split; [exact G1|]. split; [auto|]. split; [auto|]. split; [exact G4|].
          rewrite Ev in G5. exact G5.
        * unfold room in *. cbn [g_m]. lia.
        * intro j. destruct (Nat.eq_dec j i) as [->|Hj].
          -- rewrite set_same, Hbump. cbn. split; [reflexivity|]. left. exists l, f, (g_h g). split; [exact Ho|]. split; [exact Hl|]. right; left. auto.
          -- rewrite set_other, bump_other by exact Hj. eapply pinv_stable; [apply HP|reflexivity| | |cbn; lia| | |].
             ++ intros _. eapply at_counted, A'.
             ++ intros k n _ _. now rewrite NL.
             ++ intros Hx. destruct Hj. apply (G4 j i (g_h g)); congruence.
             ++ cbn. intros n' H1 H2 H3. split; [exact H2|]. auto.
             ++ intros _. cbn. split; [reflexivity|]. split; [reflexivity|]. apply (env_count _ _ _ (g_h g)); auto; [lia|].
                rewrite Ew in A. cbn [b2z] in A. replace (g_h g - 1)%Z with (g_h g - 1 + 0)%Z by lia. exact A.
        * intros j Ej. apply entering_stay; auto.
      + (* removes its lock *)
        subst p n. assert (Hh : (g_h g <= g_m g)%Z) by (apply G3, Ev).
        destruct (rel_step2 I ch (g_h g) f l (shared c) Hl W) as (s' & Es & W' & A' & O'); [apply L; [now apply settled_in|lia]|].
        assert (St : stage_step fuel (Leaving (rel2 l) (Ok tt)) (shared c) = Some (Leaving (rel3 l) (Ok tt), s', None)).
        { cbn [stage_step]. destruct (rel2 l) eqn:E; cbn [prog_step] in Es; try discriminate. cbn [prog_step]. rewrite Es. reflexivity. }
        rewrite (go_eq i c _ _ _ (eq_trans (f_equal2 _ Ei eq_refl) St)).
        assert (NL : forall k, k <> g_h g -> names s' (lock k) = names (shared c) (lock k)).
        { intros k Hk. apply same_names, O'. adn hash0 I; try tauto; try lia. }
        assert (NM : forall k, names s' (marker k) = names (shared c) (marker k)).
        { intro k. apply same_names, O'. adn hash0 I; try tauto. }
        exists (mkGhost (g_h g + 1) (g_m g) false false (g_own g)), e. split; [split; [cbn; lia|split; [cbn; lia|intros ? ?; cbn [g_own]; rewrite ?own_other by assumption; reflexivity]]|]. 
        split; cbn [procs shared served]; [|split; [|split; [|split]]].
        * split; [exact W'|]. cbn [g_h g_m g_w g_v g_own b2z]. split.
          { rewrite Ew in A. cbn [b2z] in A. replace (g_h g + 1 - 1 + 0)%Z with (g_h g - 1 + 1)%Z by lia.
            apply (at_same (shared c)); [exact A|]. apply O'. adn hash0 I; try tauto. }
          unfold Conc_Proofs.locked, Conc_Proofs.marked in *. 
          split; [intros k Hk'|]. { destruct (Z.eq_dec k (g_h g)) as [->|Hk]; [rewrite A'; split; [congruence|lia]|].
            rewrite (NL k Hk), (L k Hk'). lia. }
          split; [intros k Hk; rewrite NM; apply M; lia|]. split; [intro k; rewrite NM; apply O|].
          intros j k Hj. rewrite NM. eapply P; eauto.
        * split; [exact G0|]. cbn [g_h g_m g_w g_v g_own]. split; [lia|]. split; [auto|]. split; [discriminate|]. split; [exact G4|].
          rewrite G5, Ev. cbn [b2z]. f_equal. lia.
        * unfold room in *. cbn [g_m]. lia.
        * intro j. destruct (Nat.eq_dec j i) as [->|Hj].
          -- rewrite set_same, Hbump. cbn. split; [reflexivity|]. left. exists l, f, (g_h g). split; [exact Ho|]. split; [exact Hl|]. right; right. split; [reflexivity|lia].
          -- assert (Hoj : g_own g j <> Some (g_h g)) by (intro Hx; destruct Hj; apply (G4 j i (g_h g)); congruence).
             rewrite set_other, bump_other by exact Hj. eapply pinv_stable; [apply HP|reflexivity| | |cbn; lia| | |].
             ++ intros [H1 H2]. assert (Sc : same_at (shared c) s' count) by (apply O'; adn hash0 I; try tauto).
                destruct Sc as [S1 S2]. split; [congruence|]. rewrite S2 by exact H1. exact H2.
             ++ intros k n _ _ Hk. destruct (Z.eq_dec k (g_h g)) as [->|Hne]; [exact A'|]. now rewrite (NL k Hne).
             ++ intros Hx. destruct (Hoj Hx).
             ++ cbn. intros n' H1 H2 _. split; [|discriminate]. destruct (Z.eq_dec n' (g_h g)); [subst; congruence|lia].
             ++ intros _. cbn. split; [reflexivity|]. split; [reflexivity|]. now apply (env_unlock _ _ _ (g_h g)).
        * intros j Ej. apply entering_stay; auto.
      + (* removes its marker *)
        subst p.
        assert (Ee : e = None).
        { destruct e as [j|]; [|reflexivity]. destruct (Hbusy j eq_refl Hni) as [_ Hx]. destruct Hx. destruct (obj_rel3 _ _ _ _ Hl) as [k ->]. exists n, k, (Ok tt). reflexivity. }
        subst e.
        destruct (rel_step3 I ch n f l (shared c) Hl W) as (s' & Es & W' & A' & O'); [eapply P; eauto|].
        assert (St : stage_step fuel (Leaving (rel3 l) (Ok tt)) (shared c) = Some (Leaving (Ret (rel_end l)) (Ok tt), s', None)).
        { cbn [stage_step]. destruct (rel3 l) eqn:E; cbn [prog_step] in Es; try discriminate. cbn [prog_step]. rewrite Es. reflexivity. }
        rewrite (go_eq i c _ _ _ (eq_trans (f_equal2 _ Ei eq_refl) St)).
        assert (NL : forall k, names s' (lock k) = names (shared c) (lock k)).
        { intros k. apply same_names, O'. adn hash0 I; try tauto. }
        assert (NM : forall k, k <> n -> names s' (marker k) = names (shared c) (marker k)).
        { intros k Hk. apply same_names, O'. adn hash0 I; try tauto; try lia. }
        assert (Hoj : forall j, j <> i -> g_own g j <> Some n) by (intros j Hj Hx; destruct Hj; apply (G4 j i n); congruence).
        assert (Hoi : forall j k, set_own (g_own g) i None j = Some k -> j <> i /\ g_own g j = Some k).
        { intros j k. destruct (Nat.eq_dec j i) as [->|Hj]; [rewrite own_same; discriminate|rewrite own_other by exact Hj; auto]. }
        exists (mkGhost (g_h g) (g_m g) (g_w g) (g_v g) (set_own (g_own g) i None)), None. split; [split; [cbn; lia|split; [cbn; lia|intros ? ?; cbn [g_own]; rewrite ?own_other by assumption; reflexivity]]|]. 
        split; cbn [procs shared served]; [|split; [|split; [|split]]].
        * split; [exact W'|]. cbn [g_h g_m g_w g_v g_own]. split.
          { apply (at_same (shared c)); [exact A|]. apply O'. adn hash0 I; try tauto. }
          unfold Conc_Proofs.locked, Conc_Proofs.marked in *.
          split; [intro k; rewrite NL; apply L|].
          split; [intros k Hk; rewrite NM by lia; apply M; lia|].
          split.
          { intros k Hs Hk. assert (Hkn : k <> n) by (intros ->; congruence). rewrite NM in Hk by exact Hkn. destruct (O k Hs Hk) as [H1 (j & H2)]. split; [exact H1|].
            exists j. rewrite own_other; [exact H2|]. intros ->. congruence. }
          intros j k Hj. apply Hoi in Hj as [Hj1 Hj2]. rewrite NM; [eapply P; eauto|]. intros ->. apply (Hoj j Hj1 Hj2).
        * split; [exact G0|]. cbn [g_h g_m g_w g_v g_own]. split; [exact G1|]. split; [auto|]. split; [auto|]. split; [|exact G5].
          intros j j' k H1 H2. apply Hoi in H1, H2. eapply G4; [apply H1|apply H2].
        * unfold room in *. cbn [g_m]. lia.
        * intro j. destruct (Nat.eq_dec j i) as [->|Hj].
          -- rewrite set_same, Hbump. cbn. split; [reflexivity|]. right. rewrite own_same. eauto.
          -- rewrite set_other, bump_other by exact Hj. eapply pinv_stable; [apply HP|cbn; now rewrite own_other| | |cbn; lia|auto|auto|discriminate].
             ++ intros [H1 H2]. assert (Sc : same_at (shared c) s' count) by (apply O'; adn hash0 I; try tauto).
                destruct Sc as [S1 S2]. split; [congruence|]. rewrite S2 by exact H1. exact H2.
             ++ intros k n' _ _. now rewrite NL.
        * discriminate.
      + subst p. rewrite (go_eq i c (Finished (Ok tt)) (shared c) None) by (rewrite Ei; reflexivity).
        eapply InvG_stay; eauto. rewrite Hbump. cbn. auto.
    - unfold go. rewrite Ei. cbn. eapply InvG_idle; [rewrite Ei; discriminate|eauto].
  Qed.

  Lemma InvT_go K t c i : InvT K t c -> (k0 + Z.of_nat K < 256 ^ 5)%Z -> orderly I c i -> InvT (asks c i + K) (bump c t i) (go fuel i c).
  Proof. intros (g & e & H) Hb HO. destruct (known_go g e K t c i H Hb HO) as (g' & e' & _ & H'). now exists g', e'. Qed.
  Lemma Inv_go K c i : Inv K c -> (k0 + Z.of_nat K < 256 ^ 5)%Z -> orderly I c i -> Inv (asks c i + K) (go fuel i c).
  Proof. intros [t H] Hb HO. exists (bump c t i). now apply InvT_go. Qed.
  Lemma asks_one c i : asks c i <= 1.
  Proof. unfold asks. destruct (procs c i); lia. Qed.

  Lemma Inv_start s : wf s -> (0 <= k0)%Z -> at_ s count ch (le_digits 5 k0) ->
    (forall n, names s (marker n) = None) -> (forall n, names s (lock n) = None) -> InvT 0 (fun _ => 0) (at_start I s).
  Proof.
    intros W H0 A HM HL. exists (mkGhost (k0 + 1) k0 false false (fun _ => None)), None. 
    split; cbn [at_start procs shared served]; [|split; [|split; [|split]]].
    - split; [exact W|]. cbn [g_h g_m g_w g_v g_own b2z]. replace (k0 + 1 - 1 + 0)%Z with k0 by lia. split; [exact A|].
      unfold Conc_Proofs.locked, Conc_Proofs.marked.
      split; [intros n _; rewrite HL; split; [congruence|lia]|]. split; [lia|]. split; [intros n _ Hn; rewrite HM in Hn; congruence|discriminate].
    - split; [exact H0|]. cbn [g_h g_m g_w g_v g_own b2z]. split; [lia|]. split; [auto|]. split; [discriminate|]. split; [discriminate|].
      replace (k0 + 1 - 1 + 0 - k0)%Z with 0%Z by lia. reflexivity.
    - unfold room. cbn. lia.
    - intro i. cbn. split; [reflexivity|]. apply init_start. eapply at_counted, A.
    - discriminate.
  Qed.

  (** At most one is entering. *)
  Lemma Inv_one K c i j : Inv K c -> entering c i -> entering c j -> i = j.
  Proof.
    intros (t & g & e & _ & _ & _ & HP & _) [p Hp] [q Hq]. pose proof (HP i) as H1. pose proof (HP j) as H2. rewrite Hp in H1. rewrite Hq in H2. 
    destruct H1 as [H1 _], H2 as [H2 _]. congruence.
  Qed.

  Lemma Inv_reach n c c' : Inv 0 c -> execution I fuel (orderly I) n c c' -> (k0 + Z.of_nat n < 256 ^ 5)%Z -> Inv n c'.
  Proof.
    intros H0 HE. induction HE as [c|n c c' i HE IH HR|n c c' s HE IH W Hs]; intro Hb; [exact H0| |].
    - apply (Inv_more (asks c' i + n)); [|pose proof (asks_one c' i); lia]. apply Inv_go; [apply IH; [exact H0|lia]|lia|exact HR].
    - apply (Inv_more n); [|lia]. apply Inv_env; auto. apply IH; [exact H0|lia].
  Qed.

  (** Nobody has moved more often than there were moves. *)
  Lemma InvT_reach n c c' : InvT 0 (fun _ => 0) c -> execution I fuel (orderly I) n c c' -> (k0 + Z.of_nat n < 256 ^ 5)%Z ->
    exists t, (forall i, t i <= n) /\ InvT n t c'.
  Proof.
    intros H0 HE. induction HE as [c|n c c' i HE IH HR|n c c' s HE IH W Hs]; intro Hb; [exists (fun _ => 0); auto| |].
    - destruct IH as (t & Ht & H); [exact H0|lia|]. exists (bump c' t i). split; [intro j; pose proof (Ht j); pose proof (Ht i); unfold bump; destruct (Nat.eqb j i); [pose proof (bumped_le (procs c' i) (t i)); lia|lia]|].
      apply (InvT_more (asks c' i + n)); [apply InvT_go; auto; lia|]. unfold asks. destruct (procs c' i); lia.
    - destruct IH as (t & Ht & H); [exact H0|lia|]. exists t. split; [intro j; specialize (Ht j); lia|]. apply (InvT_more n); [|lia]. now apply InvT_env.
  Qed.

  Lemma Inv_mutex K c i j : Inv K c -> inside c i -> inside c j -> i = j.
  Proof.
    intros (t & g & e & _ & (_ & _ & _ & _ & G4 & _) & _ & HP & _) [l Hi] [l' Hj].
    pose proof (HP i) as H1. pose proof (HP j) as H2. rewrite Hi in H1. rewrite Hj in H2. 
    destruct H1 as (f & H1 & _), H2 as (f' & H2 & _). eapply G4; eauto.
  Qed.

  Lemma Inv_served K c : Inv K c -> served c = slots_from k0 (List.length (served c)).
  Proof. intros (t & g & e & _ & HG & _). destruct HG as (_ & _ & _ & _ & _ & ->); now rewrite slots_length. Qed.
  Lemma Inv_short K c : Inv K c -> List.length (served c) <= K.
  Proof.
    intros (t & g & e & _ & HG & HR & _). destruct HG as (G0 & G1 & _ & G3 & _ & ->). rewrite slots_length. unfold room in HR.
    destruct (g_v g); cbn [b2z]; [specialize (G3 eq_refl)|]; destruct e; lia.
  Qed.
  Lemma Inv_low K c : Inv K c -> (0 <= k0)%Z.
  Proof. intros (t & g & e & _ & HG & _). apply HG. Qed.
  Lemma Inv_finished K c i r : Inv K c -> procs c i = Finished r -> r = Ok tt.
  Proof. intros (t & g & e & _ & _ & _ & HP & _) Hi. specialize (HP i). rewrite Hi in HP. apply HP. Qed.
  Lemma Inv_clean K c : Inv K c -> (forall i, finished c i \/ not_begun I c i) ->
    free_lock I (k0 + Z.of_nat (List.length (served c))) (shared c).
  Proof.
    intros (t & g & e & HS & HG & _ & HP & HE) Hall.
    assert (Ee : e = None).
    { destruct e as [x|]; [|reflexivity]. destruct (HE x eq_refl) as [p Hp]. destruct (Hall x) as [[r Hr]|Hr]; [|unfold not_begun in Hr]; congruence. }
    subst e.
    assert (Ho : forall i, g_own g i = None).
    { intro i. specialize (HP i). destruct (Hall i) as [[r Hr]|Hr]; [|unfold not_begun in Hr]; rewrite Hr in HP; apply HP. }
    destruct HS as (W & A & L & M & O & P). destruct HG as (G0 & G1 & G2 & G3 & G4 & G5).
    assert (Hse : forall n, settled g None n) by (now left).
    assert (Hn : forall n, ~ marked (shared c) n). { intros n Hx. destruct (O n (Hse n) Hx) as [_ (i & Hi)]. rewrite Ho in Hi. discriminate. }
    assert (Hh : (g_h g = g_m g + 1)%Z). { destruct (Z.eq_dec (g_h g) (g_m g + 1)) as [E|Hne]; [exact E|]. destruct (Hn (g_h g)). apply M. lia. }
    assert (Ev : g_v g = false) by (destruct (g_v g); [specialize (G3 eq_refl); lia|reflexivity]).
    assert (Ew : g_w g = false) by (destruct (g_w g); [rewrite (G2 eq_refl) in Ev; discriminate|reflexivity]).
    rewrite Ev in G5. rewrite Ew in A. cbn [b2z] in *. rewrite G5, slots_length.
    split; [exact W|]. split; [lia|]. split.
    - rewrite (at_content _ _ _ _ A). do 2 f_equal. lia.
    - split; intro n.
      + destruct (names (shared c) (marker n)) eqn:E; [|reflexivity]. destruct (Hn n). unfold Conc_Proofs.marked. rewrite E. discriminate.
      + destruct (names (shared c) (lock n)) eqn:E; [|reflexivity]. assert (Hx : locked (shared c) n) by (unfold Conc_Proofs.locked; rewrite E; discriminate).
        apply (L n (Hse n)) in Hx. lia.
  Qed.
End Mutex.

Lemma start_invT name fuel k s : free_lock name k s -> exists ch, InvT name fuel ch k 0 (fun _ => 0) (at_start name s).
Proof.
  intros (W & H0 & HC & HM & HL). destruct (content_at _ _ _ HC) as [ch A]. exists ch. now apply Inv_start.
Qed.
Lemma start_inv name fuel k s : free_lock name k s -> exists ch, Inv name fuel ch k 0 (at_start name s).
Proof. intro H. destruct (start_invT name fuel k s H) as [ch Hc]. exists ch, (fun _ => 0). exact Hc. Qed.
Lemma uninterleaved_orderly name c i : uninterleaved c i -> orderly name c i.
Proof. intros H j Hj He. destruct (H j Hj He). Qed.
Lemma execution_weak name fuel (R R' : config -> nat -> Prop) n c c' : (forall c i, R c i -> R' c i) -> execution name fuel R n c c' -> execution name fuel R' n c c'.
Proof. intros H. induction 1; constructor; auto. Qed.
