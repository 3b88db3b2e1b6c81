(** Parents that do anything with one child. *)
From Coq Require Import Lia Wf_nat.
From Verif Require Export Pipe_Spec.
From Verif Require Import Tutil_Proofs.
Open Scope Z_scope.

Section Pipe.
  Context {obj : Type} (dumps : obj -> res (list byte_)) (loads : list byte_ -> res obj) (exn_obj : exn -> obj) (cap : Z).
  Notation pstep := (pstep dumps loads exn_obj cap).
  Notation sent := (sent dumps exn_obj).
  Notation pickled := (pickled dumps exn_obj).
  Implicit Types s t : psystem obj.

  (** Every run ends: by an invariant and a measure. *)
  Lemma surely_by (o : outcome) (I : psystem obj -> Prop) (mu : psystem obj -> nat) (Q : psystem obj -> Prop) :
    (forall s t, I s -> pstep o s t -> I t /\ (mu t < mu s)%nat) ->
    (forall s, I s -> (Q s /\ stuck (pstep o) s) \/ exists t, pstep o s t) ->
    forall s, I s -> surely (pstep o) Q s.
  Proof.
    intros Hs Hp s. induction s as [s IH] using (well_founded_induction (well_founded_ltof _ mu)). intro H. constructor.
    - intros t T. destruct (Hs s t H T) as [J L]. apply IH; [exact L|exact J].
    - destruct (Hp s H); auto.
  Qed.

  (** What is left to do. *)
  Definition todo (p : pstate obj) : list act := match p with At l _ => l | Getting _ l _ => Recv :: l end.

  Section Sends.
    Context (r : res obj) (b : list byte_) (P : pickled r b) (l0 : list act).
    Let m := frame b.
    Let B : size b < 2 ^ 64. Proof. destruct P as (v & _ & _ & B). exact B. Qed.
    Let M : sent r = Some m. Proof. now apply sent_ok. Qed.
    Let Mn : 0 < size m. Proof. unfold m. rewrite frame_size. unfold prefix_size. pose proof (size_pos b). destruct (size b <=? 2147483647); lia. Qed.
    Let Mne : m <> []. Proof. intro E. rewrite E in Mn. unfold size in Mn. cbn in Mn. lia. Qed.

    Definition rest (c : child) : list byte_ := match c with Calling => m | Sending y => y | Ended => [] end.
    Definition halves (g q : list byte_) (p : pstate obj) : Prop :=
      match p with
      | At l rs => (rs = [] /\ g = [] /\ (l = l0 \/ size m <= cap)) \/ (rs = [loads b] /\ g = m)
      | Getting g' l rs => (rs = [] /\ g' = g) \/ (rs = [loads b] /\ g = m /\ g' = [])
      end.
    Definition pinv s : Prop :=
      (exists g, g ++ p_pipe s ++ rest (p_ch s) = m /\ halves g (p_pipe s) (p_pa s)) /\
      (p_pipe s = [] \/ size (p_pipe s) <= cap) /\
      (p_ch s = Calling -> p_pipe s = []) /\
      (receives l0 = receives (todo (p_pa s)) + match p_pa s with At _ rs | Getting _ _ rs => List.length rs end)%nat /\
      (p_pa s = At l0 [] \/ match l0 with Join :: _ => size m <= cap | _ => True end).
    Definition pmeasure s : nat :=
      (match p_ch s with Calling => 2 * List.length m + 2 | Sending y => 2 * List.length y + 1 | Ended => 0 end + List.length (p_pipe s) +
       match p_pa s with At l _ => 2 * List.length l | Getting _ l _ => 2 * List.length l + 1 end)%nat.

    Lemma whole_rest g q y : g ++ q ++ y = m -> g = m -> q = [] /\ y = [].
    Proof. intros E ->. assert (L : q ++ y = []) by (apply (app_inv_head m); now rewrite app_nil_r). now apply app_eq_nil in L. Qed.

    Lemma pinv_step s t : pinv s -> pstep (Some r) s t -> pinv t /\ (pmeasure t < pmeasure s)%nat.
    Proof.
      intros ((g & E & H) & F & C & N & J) T. inversion T; subst; unfold pmeasure; cbn [p_ch p_pa p_pipe] in *.
      - match goal with H : Some _ = Some _ |- _ => injection H as <- end. rewrite M. specialize (C eq_refl). subst b0.
        split; [|cbn; lia]. split; [|split; [now left|split; [discriminate|auto]]]. exists g. auto.
      - split; [|rewrite app_length; destruct x; [congruence|]; cbn; rewrite app_length; cbn; lia].
        split; [|split; [now right|split; [discriminate|auto]]]. exists g. cbn [p_pipe p_ch p_pa rest] in *. rewrite <- app_assoc. auto.
      - split; [|cbn; lia]. split; [|split; [exact F|split; [discriminate|auto]]]. exists g. auto.
      - split; [|cbn; lia]. cbn [rest] in E. rewrite app_nil_r in E.
        assert (Fm : g = [] -> size m <= cap). { intros ->. cbn in E. subst b0. destruct F as [F|F]; [now rewrite F in Mn|exact F]. }
        split; [|split; [exact F|split; [discriminate|split; [exact N|]]]].
        + exists g. cbn. rewrite app_nil_r. split; [exact E|]. destruct H as [(-> & -> & _)|H]; [left; auto|now right].
        + right. destruct J as [J|J]; [|exact J]. injection J as J1 J2. rewrite <- J1. apply Fm. destruct H as [(_ & H & _)|(H & _)]; [exact H|congruence].
      - split; [|cbn; lia]. split; [|split; [exact F|split; [exact C|split; [exact N|]]]].
        + exists g. cbn. split; [exact E|]. destruct H as [(-> & -> & _)|(-> & ->)]; [left; auto|right; auto].
        + right. destruct J as [J|J]; [|exact J]. injection J as J1 _. rewrite <- J1. exact I.
      - split; [|rewrite app_length; destruct x; [congruence|]; cbn; lia].
        destruct H as [(-> & ->)|(-> & G & ->)].
        + split; [|split; [right|split; [|split; [exact N|]]]].
          * exists (g ++ x). cbn. split; [rewrite <- E, <- !app_assoc; reflexivity|]. left. auto.
          * cbn. destruct F as [F|F]; [destruct x; [congruence|discriminate]|]. rewrite size_app in F. pose proof (size_pos x). lia.
          * intro Q. specialize (C Q). destruct x; [congruence|discriminate].
          * right. destruct J as [J|J]; [discriminate|exact J].
        + destruct (whole_rest _ _ _ E G) as [Q _]. destruct x; [congruence|discriminate].
      - destruct H as [(-> & ->)|(-> & G & ->)]; [|cbn in *; discriminate].
        assert (W := wanted_ok g (b0 ++ rest c) b B E). destruct W as [W1 W2].
        assert (Z0 : b0 ++ rest c = []). { destruct (b0 ++ rest c); [reflexivity|]. specialize (W2 ltac:(discriminate)). lia. }
        destruct (W1 Z0) as [_ ->]. split; [|cbn; lia]. rewrite Z0, app_nil_r in E. subst g.
        split; [|split; [exact F|split; [exact C|split; [cbn in *; lia|right; destruct J as [J|J]; [discriminate|exact J]]]]].
        exists m. cbn. rewrite Z0, app_nil_r. split; [reflexivity|]. right. auto.
    Qed.
    Lemma pinv_start : pinv (begun l0).
    Proof. split; [|split; [now left|split; [reflexivity|split; [change (receives l0 = receives l0 + 0)%nat; lia|now left]]]]. exists []. split; [reflexivity|]. left. auto. Qed.

    (** Where a run can end. *)
    Inductive ending : psystem obj -> Prop :=
    | e_over c q rs : c = Ended \/ (exists y, c = Sending y /\ y <> [] /\ cap <= size q) -> ending {| p_ch := c; p_pipe := q; p_pa := At [] rs |}
    | e_join y q l rs : y <> [] -> cap <= size q -> ending {| p_ch := Sending y; p_pipe := q; p_pa := At (Join :: l) rs |}
    | e_recv l : ending {| p_ch := Ended; p_pipe := []; p_pa := Getting [] l [loads b] |}.
    Lemma child_moves y q p : y <> [] -> size q < cap -> exists t, pstep (Some r) {| p_ch := Sending y; p_pipe := q; p_pa := p |} t.
    Proof.
      intros Y L. destruct y as [|z y]; [congruence|]. eexists. change (z :: y) with ([z] ++ y). apply t_write; [discriminate|].
      rewrite size_app. unfold size at 2. cbn. lia.
    Qed.
    Lemma pinv_end s : 1 <= cap -> pinv s -> (ending s /\ stuck (pstep (Some r)) s) \/ exists t, pstep (Some r) s t.
    Proof.
      intros C1 ((g & E & H) & F & C & N & J). destruct s as [c q p]. cbn [p_ch p_pa p_pipe] in *.
      destruct c as [|y|].
      - right. eexists. now apply t_call.
      - destruct y as [|z y]; [right; eexists; apply t_sent|]. destruct (Z.lt_ge_cases (size q) cap) as [L|L]; [right; apply child_moves; [discriminate|exact L]|].
        destruct p as [[|[|] l] rs|g' l rs].
        + left. split; [constructor; right; exists (z :: y); repeat split; [discriminate|lia]|]. intros t T. inversion T; subst.
          rewrite size_app in *. destruct x; [congruence|]. rewrite size_cons in *. pose proof (size_pos x). lia.
        + left. split; [constructor; [discriminate|lia]|]. intros t T. inversion T; subst.
          rewrite size_app in *. destruct x; [congruence|]. rewrite size_cons in *. pose proof (size_pos x). lia.
        + right. eexists. apply t_recv.
        + right. destruct H as [(-> & ->)|(_ & G & _)]; [|destruct (whole_rest _ _ _ E G); discriminate].
          destruct q as [|z' q]; [unfold size in L; cbn in L; lia|]. destruct (wanted_ok g ((z' :: q) ++ rest (Sending (z :: y))) b B E) as [_ W]. specialize (W ltac:(discriminate)).
          eexists. change (z' :: q) with ([z'] ++ q). apply t_read; [discriminate|]. unfold size at 1. cbn. lia.
      - cbn [rest] in E. rewrite app_nil_r in E. destruct p as [[|[|] l] rs|g' l rs].
        + left. split; [constructor; now left|]. intros t T. inversion T.
        + right. eexists. apply t_join.
        + right. eexists. apply t_recv.
        + destruct H as [(-> & ->)|(-> & G & ->)].
          * right. destruct (wanted_ok g q b B E) as [W1 W2]. destruct q as [|z' q]; [eexists; apply t_done; now apply W1|].
            specialize (W2 ltac:(discriminate)). eexists. change (z' :: q) with ([z'] ++ q). apply t_read; [discriminate|]. unfold size at 1. cbn. lia.
          * left. assert (q = []) as ->. { apply (app_inv_head m). rewrite app_nil_r. now rewrite <- G at 1. }
            split; [constructor|]. intros t T. inversion T; subst; [destruct x; [congruence|discriminate]|]. cbn in *. discriminate.
    Qed.
    Lemma runs_end (Q : psystem obj -> Prop) : 1 <= cap -> (forall s, pinv s -> ending s -> Q s) -> surely (pstep (Some r)) Q (begun l0).
    Proof.
      intros C1 H. apply (surely_by (Some r) pinv pmeasure); [apply pinv_step| |apply pinv_start].
      intros s I. destruct (pinv_end s C1 I) as [[En St]|X]; [left; auto|now right].
    Qed.
    Lemma fits_over y q g : g ++ q ++ y = m -> y <> [] -> cap <= size q -> size m <= cap -> False.
    Proof.
      intros E Y L F. assert (S : size g + (size q + size y) = size m) by now rewrite <- E, !size_app. destruct y; [congruence|].
      rewrite size_cons in S. pose proof (size_pos g). pose proof (size_pos y). lia.
    Qed.

    Lemma parent_passes : 1 <= cap -> passes cap (size m) l0 ->
      surely (pstep (Some r)) (through (if (receives l0 =? 0)%nat then [] else [loads b])) (begun l0).
    Proof.
      intros C1 (R & F). apply runs_end; [exact C1|]. intros s ((g & E & H) & _ & _ & N & J) En. destruct En; unfold through; cbn [p_ch p_pa p_pipe] in *.
      - destruct H as [(-> & _)|(-> & _)]; cbn in N; rewrite N; reflexivity.
      - exfalso. destruct H as [(_ & _ & [H|H])|(_ & G)].
        + rewrite <- H in F. destruct F as [F|F]; [|exact F]. exact (fits_over _ _ _ E H0 H1 F).
        + exact (fits_over _ _ _ E H0 H1 H).
        + destruct (whole_rest _ _ _ E G) as [_ G2]. exact (H0 G2).
      - exfalso. cbn in N. unfold receives in *. cbn in N. lia.
    Qed.
    Lemma parent_hangs : 1 <= cap -> ~ passes cap (size m) l0 -> surely (pstep (Some r)) not_through (begun l0).
    Proof.
      intros C1 NP. apply runs_end; [exact C1|]. intros s ((g & E & H) & _ & _ & N & J) En. destruct En; intros rs' A; cbn [p_ch p_pa p_pipe] in *; try discriminate.
      apply NP. split.
      - destruct H as [(-> & _)|(-> & _)]; cbn in N; lia.
      - destruct l0 as [|[|] l]; auto. left. destruct J as [J|J]; [discriminate|exact J].
    Qed.
    (** A parent that never receives: what becomes of the child. *)
    Lemma child_ends : 1 <= cap -> receives l0 = 0%nat -> size m <= cap -> surely (pstep (Some r)) (fun s => p_ch s = Ended) (begun l0).
    Proof.
      intros C1 R F. apply runs_end; [exact C1|]. intros s ((g & E & H) & _ & _ & N & J) En. destruct En as [c q rs [->|(y & -> & Y & L)]|y q l rs Y L|l]; cbn [p_ch p_pa p_pipe] in *.
      - reflexivity.
      - exfalso. exact (fits_over _ _ _ E Y L F).
      - exfalso. exact (fits_over _ _ _ E Y L F).
      - reflexivity.
    Qed.
    Lemma child_blocks : 1 <= cap -> receives l0 = 0%nat -> cap < size m ->
      surely (pstep (Some r)) (fun s => exists y, p_ch s = Sending y /\ y <> [] /\ p_pipe s ++ y = m) (begun l0).
    Proof.
      intros C1 R F. apply runs_end; [exact C1|]. intros s ((g & E & H) & Fq & _ & N & J) En.
      assert (G0 : g = [] /\ forall g' l rs, p_pa s <> Getting g' l rs).
      { destruct En; cbn [p_ch p_pa p_pipe] in *; unfold receives in *; cbn in N.
        - destruct H as [(_ & -> & _)|(-> & _)]; [split; [reflexivity|discriminate]|cbn in N; lia].
        - destruct H as [(_ & -> & _)|(-> & _)]; [split; [reflexivity|discriminate]|cbn in N; lia].
        - lia. }
      destruct G0 as [-> G0]. cbn [app] in E. destruct En as [c q rs [->|(y & -> & Y & L)]|y q l rs Y L|l]; cbn [p_ch p_pa p_pipe] in *.
      - exfalso. cbn in E. rewrite app_nil_r in E. subst q. destruct Fq as [Fq|Fq]; [contradiction|lia].
      - exists y. auto.
      - exists y. auto.
      - exfalso. now apply (G0 [] l [loads b]).
    Qed.
  End Sends.

  (** Nothing is sent. *)
  Section Silent.
    Context (r : res obj) (S : sent r = None) (l0 : list act).
    Definition sinv s : Prop :=
      p_pipe s = [] /\ (p_ch s = Calling \/ p_ch s = Ended) /\ match p_pa s with At l rs => rs = [] /\ receives l = receives l0 | Getting g l rs => rs = [] /\ g = [] /\ (0 < receives l0)%nat end.
    Definition smeasure s : nat :=
      (match p_ch s with Calling => 1 | _ => 0 end + match p_pa s with At l _ => 2 * List.length l | Getting _ l _ => 2 * List.length l + 1 end)%nat.
    Lemma sinv_step s t : sinv s -> pstep (Some r) s t -> sinv t /\ (smeasure t < smeasure s)%nat.
    Proof.
      intros (Q & C & H) T. inversion T; subst; unfold sinv, smeasure; cbn [p_ch p_pa p_pipe] in *.
      - match goal with H : Some _ = Some _ |- _ => injection H as <- end. rewrite S. split; [auto|cbn; lia].
      - destruct C; discriminate.
      - destruct C; discriminate.
      - split; [auto|cbn; lia].
      - split; [|cbn; lia]. destruct H as [-> H]. unfold receives in *. cbn in H. repeat split; auto; lia.
      - destruct x; [congruence|discriminate].
      - destruct H as (_ & -> & _). discriminate.
    Qed.
    Lemma silent_ends (Q : psystem obj -> Prop) :
      (forall l, receives l = receives l0 -> l = [] -> Q {| p_ch := Ended; p_pipe := []; p_pa := At l [] |}) ->
      (forall l, (0 < receives l0)%nat -> Q {| p_ch := Ended; p_pipe := []; p_pa := Getting [] l [] |}) ->
      surely (pstep (Some r)) Q (begun l0).
    Proof.
      intros Q1 Q2. apply (surely_by (Some r) sinv smeasure); [apply sinv_step| |repeat split; now left].
      intros [c q p] (E & C & H). cbn [p_ch p_pa p_pipe] in *. subst q. destruct C as [->| ->]; [right; eexists; now apply t_call|].
      destruct p as [[|[|] l] rs|g l rs].
      - left. destruct H as [-> H]. split; [now apply Q1|]. intros t T. inversion T.
      - right. eexists. apply t_join.
      - right. eexists. apply t_recv.
      - left. destruct H as (-> & -> & H). split; [now apply Q2|]. intros t T. inversion T; subst; [destruct x; [congruence|discriminate]|discriminate].
    Qed.
  End Silent.
  Lemma sent_none r : ~ (exists b, pickled r b) -> sent r = None.
  Proof. intro N. destruct (sent r) as [m|] eqn:E; [|reflexivity]. exfalso. destruct (sent_some _ _ _ _ E) as (b & H & _). apply N. eauto. Qed.
  Lemma silent_passes r l : ~ (exists b, pickled r b) -> receives l = 0%nat ->
    surely (pstep (Some r)) (fun s => through [] s /\ p_ch s = Ended) (begun l).
  Proof. intros N R. apply silent_ends; [now apply sent_none| |lia]. intros l' _ ->. split; reflexivity. Qed.
  Lemma silent_hangs r l : ~ (exists b, pickled r b) -> (0 < receives l)%nat ->
    surely (pstep (Some r)) (fun s => not_through s /\ p_ch s = Ended) (begun l).
  Proof.
    intros N R. apply silent_ends; [now apply sent_none| |].
    - intros l' H ->. unfold receives in H at 1. cbn in H. lia.
    - intros l' _. split; [intros rs A; discriminate|reflexivity].
  Qed.

  (** The function does not return. *)
  Lemma endless_hangs l : l <> [] -> surely (pstep None) not_through (begun l).
  Proof.
    intro L. apply (surely_by None (fun s => p_ch s = Calling /\ p_pipe s = [] /\ (p_pa s = At l [] \/ exists l', p_pa s = Getting [] l' [])) (fun s => match p_pa s with At _ _ => 1 | Getting _ _ _ => 0 end)%nat).
    - intros s t (C & Q & H) T. inversion T; subst; cbn [p_ch p_pa p_pipe] in *; try discriminate.
      + split; [|lia]. repeat split; auto. right. destruct H as [H|(l' & H)]; [|discriminate]. injection H as _ ->. eauto.
      + destruct x; [congruence|discriminate].
      + destruct H as [H|(l' & H)]; [discriminate|]. injection H as -> -> ->. discriminate.
    - intros [c q p] (C & Q & H). cbn [p_ch p_pa p_pipe] in *. subst. destruct H as [->|(l' & ->)].
      + destruct l as [|[|] l]; [congruence| |right; eexists; apply t_recv]. left. split; [intros rs A; discriminate|]. intros t T. inversion T. discriminate.
      + left. split; [intros rs A; discriminate|]. intros t T. inversion T; subst; [discriminate|destruct x; [congruence|discriminate]|discriminate].
    - repeat split. now left.
  Qed.

  (** Whoever has joined can close. *)
  Lemma joined_ended o l0 s l1 l2 rs : goes_to dumps loads exn_obj cap o (begun l0) s -> p_pa s = At l2 rs -> l0 = l1 ++ l2 -> In Join l1 -> p_ch s = Ended.
  Proof.
    intros G A E In1.
    assert (K : forall s t, goes_to dumps loads exn_obj cap o s t -> (exists k, l0 = k ++ todo (p_pa s) /\ (In Join k -> p_ch s = Ended)) -> exists k, l0 = k ++ todo (p_pa t) /\ (In Join k -> p_ch t = Ended)).
    { clear. intros s t G. induction G as [|s u t T G IH]; [auto|]. intros (k & E & H). apply IH. clear IH G. inversion T; subst; cbn [p_ch p_pa p_pipe todo] in *.
      - exists k. split; [auto|]. intro K. specialize (H K). discriminate.
      - exists k. split; [auto|]. intro K. specialize (H K). discriminate.
      - exists k. split; auto.
      - exists (k ++ [Join]). rewrite <- app_assoc. split; auto.
      - exists k. split; auto.
      - exists k. split; auto.
      - exists (k ++ [Recv]). rewrite <- app_assoc. split; [auto|]. intro K. apply H. apply in_app_or in K as [K|[K|[]]]; [exact K|discriminate]. }
    destruct (K _ _ G) as (k & E2 & H); [exists []; split; [reflexivity|intros []]|]. rewrite A in E2. cbn in E2. rewrite E in E2. apply app_inv_tail in E2. subst k. auto.
  Qed.
End Pipe.
