(** Consequences for Stickies in concurrent use. *)
From Verif Require Export Reg_Proofs.

Section RegLemmas.
  Context {V : Type} (enc : V -> res bytes) (dec : bytes -> res V) (isnone : V -> bool).
  Variables (a : string) (v0 : V) (cache : nat -> option V) (todo : nat -> list (uop V)).
  Variables (who : nat -> option nat) (t : nat -> uconfig V) (N : nat) (s : store).
  Hypotheses (W : wf s) (Sv : stable enc dec v0) (Nv : isnone v0 = false) (Ob : on_board enc a v0 s)
    (Hc : forall i, ordinary_calls enc dec isnone (todo i)) (T0 : t 0 = beginning a cache todo s) (Hh : happens enc dec isnone a who t N).

  Lemma history_all : exists j ord, ord 0 = [] /\ (forall m, m < N -> exists more, ord (S m) = ord m ++ more) /\
    forall m, m <= N -> reg_inv enc dec isnone a j v0 cache todo (budget (fun i => 6 * List.length (todo i)) who m) (ord m) (t m).
  Proof.
    destruct Ob as (c & Ec & Cc). destruct (content_at _ _ _ Cc) as (j & An & Am). exists j. eapply history_inv; [|exact Hh]. rewrite T0. now apply start_inv.
  Qed.

  Lemma register : exists ord, ord 0 = [] /\ (forall m, m < N -> exists more, ord (S m) = ord m ++ more) /\
    forall m, m <= N -> explains enc a v0 cache todo (ord m) (t m).
  Proof.
    destruct history_all as (j & ord & A & B & C). exists ord. split; [exact A|]. split; [exact B|]. intros m Hm. eapply inv_explains, C, Hm.
  Qed.

  Lemma wait_free i : 6 * List.length (todo i) <= turns_of i who N ->
    u_now (fst (t N) i) = None /\ u_todo (fst (t N) i) = [] /\ List.length (u_results (fst (t N) i)) = List.length (todo i).
  Proof.
    intro H. destruct history_all as (j & ord & _ & _ & C). eapply inv_done; [apply C; reflexivity|].
    pose proof (budget_le enc dec isnone a v0 cache todo (fun i => 6 * List.length (todo i)) who i N) as B. cbv beta in B. lia.
  Qed.

  (** ** Answers *)
  Lemma calls_from order : forall f o, (forall i, incl (f i) (todo i)) -> In o (calls f order) -> exists i u, o = named i u /\ In u (todo i).
  Proof.
    induction order as [|i r IH]; intros f o Hf Ho; cbn [calls] in Ho; [easy|]. destruct (f i) as [|u l] eqn:E; [now apply (IH f)|].
    destruct Ho as [<-|Ho]; [exists i, u; split; [reflexivity|]; apply Hf; rewrite E; now left|]. eapply IH; [|exact Ho].
    intros i' x Hx. apply Hf. unfold drop_first in Hx. destruct (Nat.eqb i' i); [|exact Hx]. destruct (f i'); [easy|]. now right.
  Qed.

  Definition from_here (w : V) : Prop := w = v0 \/ (exists i, cache i = Some w) \/ exists i, In (UStick w) (todo i).
  Lemma sane_run n h : forall b, (forall o, In o h -> exists i u, o = named i u /\ In u (todo i)) ->
    width enc v0 = n -> (forall i w, In (UStick w) (todo i) -> width enc w = n) ->
    (exists w, b_shared b = Some w /\ width enc w = n /\ from_here w) -> (forall i w, b_cached b i = Some w -> from_here w) ->
    Forall (sane_answer v0 cache todo) (fst (board_run enc b h)).
  Proof.
    induction h as [|o h IH]; intros b Ho Hv Hw Hb Hk; cbn [board_run]; [constructor|].
    destruct (Ho o (or_introl eq_refl)) as (i & u & -> & Hu). destruct Hb as (w & Ew & Lw & Fw).
    assert (Hcl : forall i, ~ In UClose (todo i)).
    { intros i1 H1. pose proof (proj1 (Forall_forall _ _) (Hc i1) _ H1) as F. exact F. }
    assert (Hs : sane_answer v0 cache todo (fst (board_step enc b (named i u))) /\
      (exists w, b_shared (snd (board_step enc b (named i u))) = Some w /\ width enc w = n /\ from_here w) /\
      (forall i' w, b_cached (snd (board_step enc b (named i u))) i' = Some w -> from_here w)).
    { destruct u as [v|r|]; [| |now elim (Hcl i)]; cbn [named board_step]; rewrite Ew.
      - assert (Fv : from_here v) by (right; right; exists i; exact Hu).
        rewrite (Hw i v Hu), Lw, Nat.eqb_refl. cbn [fst snd b_shared b_cached sane_answer]. split; [reflexivity|]. split; [exists v; eauto|].
        intros i' x. unfold set_cache. destruct (Nat.eqb i' i); [intros [= <-]; exact Fv|apply Hk].
      - assert (G : forall i' x, set_cache (b_cached b) i (Some w) i' = Some x -> from_here x).
        { intros i' x. unfold set_cache. destruct (Nat.eqb i' i); [intros [= <-]; exact Fw|apply Hk]. }
        assert (G2 : exists w', Some w = Some w' /\ width enc w' = n /\ from_here w') by (exists w; auto).
        destruct (b_cached b i) as [x|] eqn:Ei; [destruct r|]; cbn [fst snd b_shared b_cached sane_answer]; repeat split; rewrite ?Ew; eauto; now apply (Hk i). }
    destruct Hs as (H1 & H2 & H3). destruct (board_step enc b (named i u)) as [x b1]. cbn [fst snd] in *.
    specialize (IH b1 (fun o Hi => Ho o (or_intror Hi)) Hv Hw H2 H3). destruct (board_run enc b1 h) as [xs b2]. cbn [fst] in *. now constructor.
  Qed.

  Lemma told_in i order outs x : In x (told i order outs) -> In (A := sout V) x outs.
  Proof.
    unfold told. intro H. apply in_map_iff in H. destruct H as ([k y] & <- & H). apply filter_In in H. destruct H as [H _]. now apply in_combine_r in H.
  Qed.

  Lemma sane m i x n : width enc v0 = n -> (forall i w, In (UStick w) (todo i) -> width enc w = n) ->
    m <= N -> In x (u_results (fst (t m) i)) -> sane_answer v0 cache todo x.
  Proof.
    intros Hv Hw Hm Hx. destruct register as (ord & _ & _ & E). specialize (E m Hm). unfold explains in E.
    pose proof (sane_run n (calls todo (ord m)) (mkBoard (Some v0) cache) (fun o => calls_from (ord m) todo o (fun i => incl_refl _)) Hv Hw) as S.
    destruct (board_run enc (mkBoard (Some v0) cache) (calls todo (ord m))) as [outs b]. cbn [fst] in S. destruct E as (_ & _ & E). specialize (E i). cbv zeta in E.
    assert (In x outs).
    { apply (told_in i (ord m)). destruct E as [->|(_ & y & ->)]; [exact Hx|apply in_or_app; now left]. }
    refine (proj1 (Forall_forall _ _) (S _ _) _ H).
    - exists v0. cbn. split; [reflexivity|]. split; [exact Hv|now left].
    - intros i' w. cbn. intro Hi. right. left. now exists i'.
  Qed.
End RegLemmas.
