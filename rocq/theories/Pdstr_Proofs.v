(** Lemmas about pdstr. *)
From Coq Require Import Lia.
From Verif Require Export Pdstr_Spec.

Lemma Forall2_weaken {A B} (P Q : A -> B -> Prop) l m : (forall a b, P a b -> Q a b) -> Forall2 P l m -> Forall2 Q l m.
Proof. intros H F. induction F; constructor; auto. Qed.
Lemma present_iff c : present c = true <-> c <> CMissing.
Proof. destruct c; cbn; split; congruence. Qed.
Lemma map_mask_iff f cells ds : map_mask f cells = Ok ds <-> Forall2 (fun c d => (if present c then f c else Ok CMissing) = Ok d) cells ds.
Proof.
  unfold map_mask. revert ds. induction cells as [|c r IH]; intro ds; cbn.
  - split; [intros [= <-]; constructor|intro H; inversion H; reflexivity].
  - split.
    + destruct (if present c then f c else Ok CMissing) as [d|e] eqn:E; cbn; [|discriminate].
      destruct (mapM _ r) as [l|e] eqn:E2; cbn; [|discriminate]. intros [= <-]. constructor; [exact E|]. apply IH. reflexivity.
    + intro H. inversion H as [|? d ? l Hd Hl]; subst. rewrite Hd. cbn. apply IH in Hl. rewrite Hl. reflexivity.
Qed.
Lemma map_mask_exc f cells e : map_mask f cells = Exc e -> exists c, In c cells /\ present c = true /\ f c = Exc e.
Proof.
  unfold map_mask. induction cells as [|c r IH]; cbn; [discriminate|].
  destruct (if present c then f c else Ok CMissing) as [d|e'] eqn:E; cbn.
  - destruct (mapM _ r) as [l|e''] eqn:E2; cbn; [discriminate|]. intros [= ->]. destruct (IH eq_refl) as (x & A & B). exists x. auto.
  - intros [= ->]. exists c. destruct (present c); [auto|discriminate].
Qed.
Lemma fallback_not f c e : fallback f c = Exc e -> f c = Exc e /\ e <> TypeError /\ e <> AttributeError.
Proof. unfold fallback. destruct (f c) as [d|[]]; try discriminate; intros [= <-]; repeat split; discriminate. Qed.
Lemma cell_to_fallback f c d : cell_to f c d <-> (if present c then fallback f c else Ok CMissing) = Ok d.
Proof.
  split.
  - intros [|c' d' N E|c' e N E D]; [reflexivity| |]; apply present_iff in N; rewrite N; unfold fallback; rewrite E; [reflexivity|].
    destruct D; subst; reflexivity.
  - destruct (present c) eqn:P; [|destruct c; try discriminate; intros [= <-]; constructor].
    apply present_iff in P. unfold fallback. destruct (f c) as [x|e] eqn:E; [intros [= <-]; constructor; assumption|].
    intro H. assert (D : (e = TypeError \/ e = AttributeError) /\ d = CMissing) by (destruct e; try discriminate H; injection H as <-; auto).
    destruct D as [D ->]. eapply to_failed; eassumption.
Qed.

Lemma str_map_ok f cells ds : str_map f cells = Ok ds <-> Forall2 (cell_to f) cells ds.
Proof.
  assert (X : map_mask (fallback f) cells = Ok ds <-> Forall2 (cell_to f) cells ds).
  { rewrite map_mask_iff. split; intro H; (eapply Forall2_weaken; [|exact H]); intros c d; apply cell_to_fallback. }
  rewrite <- X. unfold str_map. destruct (map_mask f cells) as [l|e] eqn:E.
  - assert (Y : map_mask (fallback f) cells = Ok l).
    { apply map_mask_iff. apply map_mask_iff in E. eapply Forall2_weaken; [|exact E]. intros c d H. cbn in *. destruct (present c); [|exact H].
      unfold fallback. rewrite H. reflexivity. }
    rewrite Y. reflexivity.
  - assert (Y : (e = TypeError \/ e = AttributeError) \/ (e <> TypeError /\ e <> AttributeError)) by (destruct e; (left; tauto) || (right; split; discriminate)).
    destruct Y as [[->| ->]|[N1 N2]]; [reflexivity..|].
    split; [destruct e; try discriminate; congruence|]. intro H. exfalso.
    destruct (map_mask_exc _ _ _ E) as (c & I & P & F).
    apply map_mask_iff in H. clear E X. induction H as [|c' d l l' Hc _ IH]; [destruct I|].
    destruct I as [->|I]; [|exact (IH I)]. rewrite P in Hc. unfold fallback in Hc. rewrite F in Hc. destruct e; try discriminate; congruence.
Qed.
Lemma str_map_exc f cells e : str_map f cells = Exc e -> exists c, In c cells /\ cell_raises f e c.
Proof.
  unfold str_map. intro H.
  assert (X : map_mask (fallback f) cells = Exc e \/ (map_mask f cells = Exc e /\ e <> TypeError /\ e <> AttributeError)).
  { destruct (map_mask f cells) as [l|[]] eqn:E; try discriminate H; try (left; exact H); right; injection H as <-; repeat split; discriminate. }
  destruct X as [X|[X N]].
  - destruct (map_mask_exc _ _ _ X) as (c & I & P & F). apply fallback_not in F. exists c. split; [exact I|]. split; [apply present_iff, P|exact F].
  - destruct (map_mask_exc _ _ _ X) as (c & I & P & F). exists c. split; [exact I|]. split; [apply present_iff, P|]. split; [exact F|exact N].
Qed.

Lemma only_iff p cells : only p cells <-> filter present cells <> [] /\ forallb p (filter present cells) = true.
Proof.
  unfold only. rewrite forallb_forall. split.
  - intros [(c & I & N) H]. split.
    + intro E. apply present_iff in N. assert (In c (filter present cells)) as J by (apply filter_In; auto). rewrite E in J. destruct J.
    + intros x I'. apply filter_In in I'. destruct I' as [I' P]. apply H; [exact I'|apply present_iff, P].
  - intros [N H]. split.
    + destruct (filter present cells) as [|c r] eqn:E; [contradiction|]. assert (J : In c (filter present cells)) by (rewrite E; left; reflexivity).
      apply filter_In in J. destruct J as [J P]. exists c. split; [exact J|apply present_iff, P].
    + intros c I P. apply H. apply filter_In. split; [exact I|apply present_iff, P].
Qed.
Lemma infer_number cells : infer_dtype cells = INumbers <-> only is_number cells.
Proof.
  rewrite only_iff. unfold infer_dtype. assert (P : forall c, In c (filter present cells) -> present c = true) by (intros c I; apply filter_In in I; tauto).
  destruct (filter present cells) as [|c r]; [split; [discriminate|intros [N _]; congruence]|]. specialize (P c (or_introl eq_refl)).
  destruct c; try discriminate P; cbn [forallb is_number is_bool is_text is_bytes andb];
    repeat match goal with |- context [if ?b then _ else _] => destruct b eqn:? end; split; intros H; try discriminate H; try (split; [discriminate|]); try tauto; try reflexivity; destruct H; discriminate || congruence.
Qed.
Lemma infer_bool cells : infer_dtype cells = IBoolean <-> only is_bool cells.
Proof.
  rewrite only_iff. unfold infer_dtype. assert (P : forall c, In c (filter present cells) -> present c = true) by (intros c I; apply filter_In in I; tauto).
  destruct (filter present cells) as [|c r]; [split; [discriminate|intros [N _]; congruence]|]. specialize (P c (or_introl eq_refl)).
  destruct c; try discriminate P; cbn [forallb is_number is_bool is_text is_bytes andb];
    repeat match goal with |- context [if ?b then _ else _] => destruct b eqn:? end; split; intros H; try discriminate H; try (split; [discriminate|]); try tauto; try reflexivity; destruct H; discriminate || congruence.
Qed.
Lemma infer_bytes cells : infer_dtype cells = IBytes <-> only is_bytes cells.
Proof.
  rewrite only_iff. unfold infer_dtype. assert (P : forall c, In c (filter present cells) -> present c = true) by (intros c I; apply filter_In in I; tauto).
  destruct (filter present cells) as [|c r]; [split; [discriminate|intros [N _]; congruence]|]. specialize (P c (or_introl eq_refl)).
  destruct c; try discriminate P; cbn [forallb is_number is_bool is_text is_bytes andb];
    repeat match goal with |- context [if ?b then _ else _] => destruct b eqn:? end; split; intros H; try discriminate H; try (split; [discriminate|]); try tauto; try reflexivity; destruct H; discriminate || congruence.
Qed.

Section Pdstr.
  Context {args : Type} (method : string -> option ((args -> bool) * (args -> scell -> res scell))).

  Lemma pdstr_cases name a cells :
    let out := pdstr method name a cells in
    (only is_number cells \/ only is_bool cells \/ method name = None -> out = Exc AttributeError) /\
    (~ only is_number cells -> ~ only is_bool cells -> forall fits f, method name = Some (fits, f) ->
       (only is_bytes cells \/ fits a = false -> out = Exc TypeError) /\
       (~ only is_bytes cells -> fits a = true -> out = str_map (f a) cells)).
  Proof.
    cbn zeta. unfold pdstr, accessor. pose proof (infer_number cells) as A. pose proof (infer_bool cells) as B. pose proof (infer_bytes cells) as C.
    split.
    - intros [H|[H|H]]; [apply A in H; rewrite H; reflexivity|apply B in H; rewrite H; reflexivity|].
      destruct (infer_dtype cells); cbn; rewrite ?H; reflexivity.
    - intros N1 N2 fits f M. rewrite M. destruct (infer_dtype cells) eqn:E; cbn [bind call_method fst snd];
        try (exfalso; first [apply N1, A; reflexivity|apply N2, B; reflexivity]).
      all: split; [intros [H|H]; [try (apply C in H; discriminate H); try reflexivity|rewrite ?H; reflexivity]|intros H F; try (exfalso; apply H, C; reflexivity); rewrite F; reflexivity].
  Qed.

  Lemma pdstr_ok name a cells ds : pdstr method name a cells = Ok ds <->
    ~ only is_number cells /\ ~ only is_bool cells /\ ~ only is_bytes cells /\
    exists fits f, method name = Some (fits, f) /\ fits a = true /\ Forall2 (cell_to (f a)) cells ds.
  Proof.
    destruct (pdstr_cases name a cells) as [A B]. split.
    - intro H. assert (N : ~ (only is_number cells \/ only is_bool cells \/ method name = None)) by (intro Q; rewrite (A Q) in H; discriminate).
      split; [tauto|]. split; [tauto|]. destruct (method name) as [[fits f]|] eqn:M; [|exfalso; tauto].
      destruct (B ltac:(tauto) ltac:(tauto) fits f eq_refl) as [C D].
      assert (N' : ~ (only is_bytes cells \/ fits a = false)) by (intro Q; rewrite (C Q) in H; discriminate).
      split; [tauto|]. exists fits, f. split; [reflexivity|]. destruct (fits a); [|exfalso; tauto]. split; [reflexivity|].
      rewrite D in H by tauto. apply str_map_ok, H.
    - intros (N1 & N2 & N3 & fits & f & M & F & R). destruct (B N1 N2 fits f M) as [_ D]. rewrite D by assumption. apply str_map_ok, R.
  Qed.

  Lemma only_app p c1 c2 : only p (c1 ++ c2) -> only p c1 \/ only p c2.
  Proof.
    intros [(c & I & N) H]. apply in_app_or in I. destruct I as [I|I]; [left|right]; (split; [exists c; auto|]; intros; apply H; [apply in_or_app; auto|assumption]).
  Qed.
  Lemma pdstr_app name a c1 c2 d1 d2 : pdstr method name a c1 = Ok d1 -> pdstr method name a c2 = Ok d2 ->
    pdstr method name a (c1 ++ c2) = Ok (d1 ++ d2).
  Proof.
    rewrite !pdstr_ok. intros (A1 & B1 & C1 & fits & f & M & F & R) (A2 & B2 & C2 & fits' & f' & M' & _ & R').
    rewrite M in M'. injection M' as <- <-.
    repeat split; try (intro H; apply only_app in H; tauto). exists fits, f. repeat split; [assumption..|]. apply Forall2_app; assumption.
  Qed.
  Lemma pdstr_exc name a cells e : pdstr method name a cells = Exc e ->
    e = AttributeError \/ e = TypeError \/ exists fits f c, method name = Some (fits, f) /\ In c cells /\ cell_raises (f a) e c.
  Proof.
    unfold pdstr, accessor. destruct (infer_dtype cells); cbn [bind]; try (intros [= <-]; auto; fail);
      (destruct (method name) as [[fits f]|]; [|intros [= <-]; auto]; cbn [call_method fst snd]; first [intros [= <-]; tauto|
       destruct (fits a); [|intros [= <-]; auto]; intro H; apply str_map_exc in H; destruct H as (c & I & R); right; right; exists fits, f, c; auto]).
  Qed.
End Pdstr.
