(** Statements about tracker.py in the form used by Track_Props. *)
From Coq Require Import Lia.
From Verif Require Export Track_Read Json_Proofs.
From Verif Require Import Py_Facts.

Lemma start_empty : files_are [] (fun _ => []).
Proof. intro p. reflexivity. Qed.

(** From no files at all. *)
Lemma log_files dumps ts os : no_crash os ->
  let out := trun dumps os {| trackers := ts; fs := [] |} in
  all_ok (fst out) ->
  forall p, dget (fs (snd out)) (KStr p) =
    match docs_since (fun _ => []) (events dumps os {| trackers := ts; fs := [] |}) p with
    | [] => None
    | ds => Some (array ds)
    end.
Proof. intros Hc out Ho p. apply (trun_files dumps os _ (fun _ => [])); auto. apply start_empty. Qed.

(** The documents are JSON objects. *)
Lemma since_denotes evs : forall ds p, Forall (fun d => exists j, is_document d j) (ds p) ->
  (forall q d, In (Wrote q d) evs -> exists j, is_document d j) ->
  Forall (fun d => exists j, is_document d j) (docs_since ds evs p).
Proof.
  induction evs as [|e evs IH]; intros ds p H He; [exact H|].
  change (docs_since ds (e :: evs) p) with (docs_since (fun q => since1 q (ds q) e) evs p).
  apply IH; [|intros; eapply He; right; eauto]. destruct e as [q d|q]; cbn [since1].
  - destruct (String.eqb q p); [|exact H]. apply Forall_app. split; [exact H|]. constructor; [|constructor].
    apply (He q d). now left.
  - destruct (String.eqb q p); [constructor|exact H].
Qed.
Lemma events_denote os : forall s q d, In (Wrote q d) (events json_dumps os s) -> exists j, is_document d j.
Proof.
  induction os as [|o os IH]; intros s q d; cbn [events]; [contradiction|]. rewrite in_app_iff. intros [H|H]; [|eauto].
  destruct o; cbn in H; try contradiction; destruct (nth_error (trackers s) i); try contradiction.
  - destruct (paused _); [contradiction|]. destruct (json_dumps _) as [doc|] eqn:E; [|contradiction].
    destruct H as [H|[]]. injection H as <- <-. destruct (dumps_denotes _ _ E) as (j & _ & Hd). eauto.
  - destruct H as [H|[]]. discriminate.
Qed.
Lemma forall_exists {A B} (R : A -> B -> Prop) l : Forall (fun a => exists b, R a b) l -> exists m, Forall2 R l m.
Proof.
  induction 1 as [|a l [b Hb] _ [m Hm]]; [exists []; constructor|]. exists (b :: m). now constructor.
Qed.

Lemma log_readable ts os p s : no_crash os ->
  let out := trun json_dumps os {| trackers := ts; fs := [] |} in
  all_ok (fst out) -> dget (fs (snd out)) (KStr p) = Some s ->
  exists js, read_log read_value s = Some js /\
    map (print 0) js = docs_since (fun _ => []) (events json_dumps os {| trackers := ts; fs := [] |}) p.
Proof.
  intros Hc out Ho Hs. subst out. rewrite (log_files _ _ _ Hc Ho) in Hs.
  assert (F : Forall (fun d => exists j, is_document d j)
      (docs_since (fun _ => []) (events json_dumps os {| trackers := ts; fs := [] |}) p)).
  { apply since_denotes; [constructor|]. intros q d. apply events_denote. }
  destruct (docs_since _ _ p) as [|d ds] eqn:E; [discriminate|]. injection Hs as <-.
  destruct (forall_exists _ _ F) as (js & Hj). exists js. split.
  - apply (read_array _ _ json_reader); [discriminate|exact Hj].
  - clear -Hj. induction Hj as [|a b l m [_ ->] _ IH]; [reflexivity|]. cbn. now rewrite IH.
Qed.

(** What a tracker made by Tracker(...) dumps, after any operations. *)
Lemma dumped dumps os ts f name ident outdir init now :
  let s := {| trackers := ts ++ [new_tracker name ident outdir init]; fs := f |} in
  exists t, nth_error (trackers (snd (trun dumps os s))) (List.length ts) = Some t /\
    outpath t = outpath (new_tracker name ident outdir init) /\
    document (stamped now t) =
      [(KStr "name", JVal (MAtom name)); (KStr "init_timestamp", JVal (MStr init));
       (KStr "write_timestamp", JVal (MStr now)); (KStr "history", JHistory (history t))].
Proof.
  intro s. destruct (trun_track dumps os s (List.length ts) (new_tracker name ident outdir init) ([], []) name init)
    as (t & A & _ & C & E).
  - subst s. cbn. rewrite nth_error_app2, Nat.sub_diag by lia. reflexivity.
  - apply new_hist.
  - apply new_log.
  - exists t. split; [exact A|]. split; [exact E|]. unfold document. rewrite (stamped_log name init now t C). reflexivity.
Qed.

Lemma numbered dumps os ts f name ident outdir init :
  let s := {| trackers := ts ++ [new_tracker name ident outdir init]; fs := f |} in
  let calls := calls_since (flat_map (hevent_of (List.length ts)) os) in
  exists t, nth_error (trackers (snd (trun dumps os s))) (List.length ts) = Some t /\
    List.length (history t) = List.length calls /\
    forall i call r, nth_error calls i = Some call -> nth_error (history t) i = Some r ->
      forall k, dget r k = record_field call (Z.of_nat i + 1) k.
Proof.
  intros s calls. destruct (trun_track dumps os s (List.length ts) (new_tracker name ident outdir init) ([], []) name init)
    as (t & A & B & _ & _).
  - subst s. cbn. rewrite nth_error_app2, Nat.sub_diag by lia. reflexivity.
  - apply new_hist.
  - apply new_log.
  - exists t. split; [exact A|]. destruct B as [_ _ B1 B2]. split; [exact B1|].
    intros i call r Hc Hr. apply (B2 i call r Hc Hr).
Qed.

(** A failed dump and everything after it. *)
Lemma failure_lasts f ds e now t js os ts :
  wfd f = true -> files_are f ds -> paused t = false ->
  json_dumps (document (stamped now t)) = Exc e -> Forall2 is_document (ds (outpath t)) js ->
  let s := {| trackers := ts; fs := snd (dump json_dumps now t f) |} in
  never_cleared json_dumps (outpath t) os s ->
  exists x, dget (fs (snd (trun json_dumps os s))) (KStr (outpath t)) = Some x /\ read_log read_value x = None.
Proof.
  intros Hw H Hp Hd Hj s Hn. apply (damaged_unreadable _ _ json_reader).
  apply trun_damaged; [now apply dump_wfd|exact Hn|]. apply (failed_damaged _ _ _ _ _ _ _ js H Hp Hd Hj).
Qed.

Lemma crash_lost f ds now t js doc n :
  files_are f ds -> paused t = false -> json_dumps (document (stamped now t)) = Ok doc ->
  Forall2 is_document (ds (outpath t)) js ->
  0 < n -> n <= match ds (outpath t) with [] => 1 | _ => 2 end + String.length doc ->
  exists s, dget (crashed_dump json_dumps n now t f) (KStr (outpath t)) = Some s /\ read_log read_value s = None.
Proof.
  intros H Hp Hd Hj H1 H2. destruct (dumps_denotes _ _ Hd) as (j & _ & Hden).
  exact (crash_unreadable _ _ json_reader _ _ _ _ _ _ _ _ _ H Hp Hd Hden Hj H1 H2).
Qed.

Lemma paths_lemma n1 i1 n2 i2 outdir now1 now2 : i1 <> ""%string -> i2 <> ""%string ->
  no_underscore i1 -> no_underscore i2 ->
  outpath (new_tracker n1 i1 outdir now1) = outpath (new_tracker n2 i2 outdir now2) -> i1 = i2 /\ py_str n1 = py_str n2.
Proof.
  intros E1 E2 U1 U2. unfold new_tracker. apply String.eqb_neq in E1, E2. rewrite E1, E2. cbn [outpath].
  assert (Hh : forall a x y, (a ++ x = a ++ y)%string -> x = y).
  { clear. induction a as [|c a IH]; intros x y H; cbn in *; [exact H|]. injection H as H. auto. }
  assert (Ht : forall a b u, (a ++ u = b ++ u)%string -> a = b).
  { clear. intros a b u H. assert (L : String.length a = String.length b).
    { assert (A : forall x y, String.length (x ++ y)%string = String.length x + String.length y) by (clear; induction x; intro y; cbn; congruence).
      apply (f_equal String.length) in H. rewrite !A in H. lia. }
    revert b H L. induction a as [|c a IH]; intros [|d b] H L; cbn in *; try discriminate; [reflexivity|]. injection H as -> H. f_equal. apply IH; [exact H|congruence]. }
  intro H. apply Hh in H. apply (Hh "/"%string) in H. rewrite !sapp_assoc in H. cbn [append] in H.
  assert (G : forall a b x y, no_underscore a -> no_underscore b -> (a ++ String "_" x = b ++ String "_" y)%string -> a = b /\ x = y).
  { clear. induction a as [|c a IH]; intros [|d b] x y Ua Ub E; cbn in E.
    - injection E as E. auto.
    - exfalso. injection E as Ec _. cbn in Ub. destruct Ub as [Ub _]. now apply Ub.
    - exfalso. injection E as Ec _. cbn in Ua. destruct Ua as [Ua _]. now apply Ua.
    - injection E as Ec E. destruct Ua as [_ Ua]. destruct Ub as [_ Ub]. destruct (IH b x y Ua Ub E) as [-> ->]. now subst. }
  apply G in H; [|assumption..]. destruct H as [-> H]. split; [reflexivity|]. now apply Ht in H.
Qed.
