(** Reading log files. *)
From Coq Require Import Lia.
From Verif Require Export Track_Proofs.
From Verif Require Import Py_Facts.

Section Reading.
  Context {D : Type} (read_doc : string -> option (D * string)) (denotes : string -> D -> Prop).
  Context (ROK : reader_ok read_doc denotes).

  Lemma skip_object doc d rest : denotes doc d -> skip_ws (doc ++ rest) = (doc ++ rest)%string.
  Proof. intro H. destruct (rd_object _ _ ROK _ _ H) as (r & ->). reflexivity. Qed.

  (** The text after a document, for the documents that follow. *)
  Definition more (docs : list string) (tail : string) : string :=
    fold_right (fun d s => sep ++ d ++ s)%string tail docs.
  Lemma concat_more d docs tail : (String.concat sep (d :: docs) ++ tail)%string = (d ++ more docs tail)%string.
  Proof.
    revert d. induction docs as [|e docs IH]; intro d; [reflexivity|].
    change (String.concat sep (d :: e :: docs)) with (d ++ sep ++ String.concat sep (e :: docs))%string.
    rewrite !sapp_assoc, IH. reflexivity.
  Qed.

  (** Reading steps over documents. *)
  Lemma read_rest_more docs : forall ds tail fuel, Forall2 denotes docs ds -> List.length docs <= fuel ->
    read_rest read_doc fuel (more docs tail) =
    match read_rest read_doc (fuel - List.length docs) tail with Some r => Some (ds ++ r) | None => None end.
  Proof.
    induction docs as [|d docs IH]; intros ds tail fuel H L; inversion H; subst; cbn [List.length].
    - rewrite Nat.sub_0_r. change (more [] tail) with tail. now destruct (read_rest _ _ _).
    - destruct fuel as [|fuel]; [cbn in L; lia|].
      change (more (d :: docs) tail) with (sep ++ d ++ more docs tail)%string.
      cbn [read_rest sep append skip_ws]. rewrite (skip_object _ _ _ H2), (rd_reads _ _ ROK _ _ _ H2).
      rewrite (IH _ _ _ H4) by (cbn in L; lia).
      replace (S fuel - S (List.length docs)) with (fuel - List.length docs) by lia.
      now destruct (read_rest _ _ _).
  Qed.

  Lemma more_length docs tail : List.length docs + String.length tail <= String.length (more docs tail).
  Proof.
    induction docs as [|d docs IH]; [reflexivity|].
    change (more (d :: docs) tail) with (sep ++ d ++ more docs tail)%string.
    rewrite !slength_app. cbn. lia.
  Qed.

  Lemma read_log_more d docs x ds tail : denotes d x -> Forall2 denotes docs ds ->
    read_log read_doc ("[" ++ d ++ more docs tail) =
    match read_rest read_doc (S (String.length (more docs tail)) - List.length docs) tail with
    | Some r => Some (x :: ds ++ r)
    | None => None
    end.
  Proof.
    intros H1 H2. unfold read_log. cbn [append skip_ws]. rewrite (skip_object _ _ _ H1).
    pose proof (rd_reads _ _ ROK _ _ (more docs tail) H1) as R.
    destruct (rd_object _ _ ROK _ _ H1) as (r & ->). cbn [append] in *. rewrite R.
    rewrite (read_rest_more _ _ _ _ H2) by (pose proof (more_length docs tail); lia).
    now destruct (read_rest _ _ _).
  Qed.

  Lemma read_array docs ds : docs <> [] -> Forall2 denotes docs ds -> read_log read_doc (array docs) = Some ds.
  Proof.
    intros Hn H. inversion H as [|d x docs' ds' H1 H2]; subst; [congruence|].
    unfold array. rewrite concat_more, (read_log_more _ _ _ _ _ H1 H2).
    pose proof (more_length docs' "]"). cbn in H0.
    destruct (S (String.length (more docs' "]")) - List.length docs') eqn:E; [lia|]. cbn.
    now rewrite app_nil_r.
  Qed.

  (** Logs that cannot be read, whatever further dumps do to them. *)
  Inductive broken : string -> Prop :=
  | b_open : broken "["
  | b_comma x : x <> ""%string -> broken (String "," x)
  | b_end d docs x ds : denotes d x -> Forall2 denotes docs ds -> broken ("[" ++ d ++ more docs sep)
  | b_commas d docs x ds t : denotes d x -> Forall2 denotes docs ds -> t <> ""%string ->
      broken ("[" ++ d ++ more docs (String "," (String "," t))).

  Lemma broken_unreadable s : broken s -> read_log read_doc s = None.
  Proof.
    intros [|x Hx|d docs x ds H1 H2|d docs x ds t H1 H2 Ht].
    - cbn. now rewrite (rd_nothing _ _ ROK).
    - reflexivity.
    - rewrite (read_log_more _ _ _ _ _ H1 H2). destruct (_ - _); cbn; [reflexivity|].
      now rewrite (rd_nothing _ _ ROK).
    - rewrite (read_log_more _ _ _ _ _ H1 H2). destruct (_ - _); cbn; [reflexivity|].
      now rewrite (rd_comma _ _ ROK).
  Qed.

  Lemma more_app docs a b : (more docs a ++ b)%string = more docs (a ++ b).
  Proof.
    induction docs as [|d docs IH]; [reflexivity|].
    change (more (d :: docs) a) with (sep ++ d ++ more docs a)%string.
    rewrite !sapp_assoc, IH. reflexivity.
  Qed.

  (** Any further dump leaves such a log such. *)
  Lemma broken_dump s y : broken s -> broken (chop s ++ sep ++ y).
  Proof.
    intros [|x Hx|d docs x ds H1 H2|d docs x ds t H1 H2 Ht].
    - cbn. now apply b_comma.
    - destruct (snoc_ex _ Hx) as (a & c & ->).
      change (String "," (a ++ String c "")) with (String "," a ++ String c "")%string. rewrite chop_snoc.
      cbn [append]. apply b_comma. now destruct a.
    - replace (more docs sep) with (more docs "," ++ String "010" "")%string by (now rewrite more_app).
      rewrite <- (sapp_assoc d), <- (sapp_assoc "["), chop_snoc.
      rewrite !sapp_assoc, more_app. cbn [append]. eapply b_commas; eauto. discriminate.
    - destruct (snoc_ex _ Ht) as (a & c & ->).
      replace (more docs (String "," (String "," (a ++ String c ""))))
        with (more docs (String "," (String "," a)) ++ String c "")%string by (now rewrite more_app).
      rewrite <- (sapp_assoc d), <- (sapp_assoc "["), chop_snoc.
      rewrite !sapp_assoc, more_app. cbn [append]. eapply b_commas; eauto. now destruct a.
  Qed.
  Lemma broken_nonempty s : broken s -> s <> ""%string.
  Proof. intros [| | |]; discriminate. Qed.

  (** The path is damaged. *)
  Definition damaged (f : files) (p : string) : Prop := exists s, dget f (KStr p) = Some s /\ broken s.

  Context (dumps : dict jval -> res string).

  Lemma failed_damaged now t f ds e ms : files_are f ds -> paused t = false ->
    dumps (document (stamped now t)) = Exc e -> Forall2 denotes (ds (outpath t)) ms ->
    damaged (snd (dump dumps now t f)) (outpath t).
  Proof.
    intros H Hp Hd Hm. rewrite (dump_fails _ _ _ _ _ _ H Hp Hd). cbn [snd].
    eexists. split; [rewrite dget_dset, keqb_refl; reflexivity|].
    destruct (ds (outpath t)) as [|d r]; [constructor|]. inversion Hm; subst.
    rewrite concat_more. eapply b_end; eauto.
  Qed.

  Lemma dump_elsewhere now t f p : outpath t <> p -> dget (snd (dump dumps now t f)) (KStr p) = dget f (KStr p).
  Proof.
    intro N. unfold dump. destruct (paused t); [reflexivity|]. cbv zeta.
    change (outpath (stamped now t)) with (outpath t).
    assert (E : keqb (KStr (outpath t)) (KStr p) = false).
    { destruct (keqb _ _) eqn:E; [apply keqb_str in E; congruence|reflexivity]. }
    destruct (open_log _ _); [|reflexivity]. destruct (dumps _); cbn [snd]; now rewrite dget_dset, E.
  Qed.

  Lemma dump_damaged now t f p : damaged f p -> damaged (snd (dump dumps now t f)) p.
  Proof.
    intros (s & Hs & Hb). destruct (string_dec (outpath t) p) as [<-|N].
    - destruct (paused t) eqn:Hp; [unfold dump; rewrite Hp; exists s; auto|].
      rewrite (dump_any _ _ _ _ _ Hp Hs (broken_nonempty _ Hb)).
      eexists. split; [rewrite dget_dset, keqb_refl; reflexivity|]. now apply broken_dump.
    - exists s. now rewrite (dump_elsewhere _ _ _ _ N).
  Qed.

  Lemma tstep_damaged p o s : wfd (fs s) = true -> keeps p o s -> damaged (fs s) p ->
    damaged (fs (snd (tstep dumps o s))) p.
  Proof.
    intros Hw Hk H. destruct o; cbn [tstep keeps] in *; try contradiction; [exact H| | | | | |];
      unfold on_tracker; destruct (nth_error (trackers s) i) as [t|] eqn:E; try exact H.
    - pose proof (dump_damaged now t _ _ H). destruct (dump dumps now t (fs s)) as [[r t'] f]. exact H0.
    - destruct H as (x & Hx & Hb). exists x. split; [|exact Hb]. cbn. rewrite dget_ddel by exact Hw.
      destruct (keqb _ _) eqn:K; [apply keqb_str in K; edestruct Hk; eauto|exact Hx].
  Qed.

  Lemma trun_damaged p os : forall s, wfd (fs s) = true -> never_cleared dumps p os s -> damaged (fs s) p ->
    damaged (fs (snd (trun dumps os s))) p.
  Proof.
    induction os as [|o os IH]; intros s Hw Hk H; [exact H|].
    cbn [trun never_cleared] in *. destruct Hk as [Hk Hr].
    pose proof (tstep_damaged p o s Hw Hk H). pose proof (tstep_wfd dumps o s Hw).
    destruct (tstep dumps o s) as [x s']. cbn [snd] in *. specialize (IH s' H1 Hr H0).
    destruct (trun dumps os s') as [xs s'']. exact IH.
  Qed.

  Lemma damaged_unreadable f p : damaged f p -> exists s, dget f (KStr p) = Some s /\ read_log read_doc s = None.
  Proof. intros (s & H & B). exists s. split; [exact H|]. now apply broken_unreadable. Qed.

  (** ** Crashes *)

  Lemma substring_app_l n (a b : string) : n <= String.length a -> substring 0 n (a ++ b) = substring 0 n a.
  Proof.
    revert n. induction a as [|x a IH]; intros [|n] H; cbn in *; try lia; try apply substring_zero; auto.
    f_equal. apply IH. lia.
  Qed.
  Lemma prefix_split n (s : string) : n < String.length s ->
    exists q, s = (substring 0 n s ++ q)%string /\ q <> ""%string.
  Proof.
    revert n. induction s as [|x s IH]; intros [|n] H; cbn in H; try lia.
    - exists (String x s). split; [reflexivity|discriminate].
    - destruct (IH n) as (q & E & Q); [lia|]. exists q. split; [cbn; now rewrite <- E|exact Q].
  Qed.

  (** Part of a document (perhaps nothing or all of it), and no bracket. *)
  Lemma read_part doc d n : denotes doc d -> n <= String.length doc ->
    match read_doc (substring 0 n doc) with Some (_, r) => r = ""%string | None => True end.
  Proof.
    intros H L. destruct (Nat.eq_dec n (String.length doc)) as [->|N].
    - rewrite substring_full by lia. pose proof (rd_reads _ _ ROK _ _ "" H) as R. rewrite sapp_nil in R. now rewrite R.
    - destruct (prefix_split n doc) as (q & E & Q); [lia|]. rewrite E in H. rewrite (rd_prefix _ _ ROK _ _ _ H Q). exact I.
  Qed.
  Lemma skip_part doc d n : denotes doc d -> skip_ws (substring 0 n doc) = substring 0 n doc.
  Proof. intro H. destruct (rd_object _ _ ROK _ _ H) as (r & ->). now destruct n. Qed.

  Lemma crash_unreadable n now t f ds doc ms m : files_are f ds -> paused t = false ->
    dumps (document (stamped now t)) = Ok doc -> denotes doc m -> Forall2 denotes (ds (outpath t)) ms ->
    0 < n -> n <= match ds (outpath t) with [] => 1 | _ => 2 end + String.length doc ->
    exists s, dget (crashed_dump dumps n now t f) (KStr (outpath t)) = Some s /\ read_log read_doc s = None.
  Proof.
    intros H Hp Hd Hm Hms Hn Hl. rewrite (crash_content _ _ _ _ _ _ _ H Hp Hd).
    destruct (ds (outpath t)) as [|d r] eqn:E.
    - eexists. split; [rewrite dget_dset, keqb_refl; reflexivity|].
      destruct n as [|n]; [lia|]. cbn [append substring].
      rewrite substring_app_l by lia. unfold read_log. cbn [skip_ws]. rewrite (skip_part _ _ _ Hm).
      pose proof (read_part _ _ n Hm ltac:(lia)) as G.
      destruct (substring 0 n doc) as [|c p] eqn:Es; [now rewrite (rd_nothing _ _ ROK)|].
      assert (c = "{"%char).
      { destruct (rd_object _ _ ROK _ _ Hm) as (r & ->). destruct n; cbn in Es; congruence. }
      subst c. destruct (read_doc _) as [[x r']|]; [|reflexivity]. subst r'. reflexivity.
    - destruct n as [|n]; [lia|]. inversion Hms as [|? ? ? ? Hd1 Hr]; subst.
      eexists. split; [rewrite dget_dset, keqb_refl; reflexivity|].
      rewrite concat_more, (read_log_more _ _ _ _ _ Hd1 Hr).
      match goal with |- context [read_rest _ ?m _] => destruct m as [|k] end; [reflexivity|].
      destruct n as [|n].
      + change (substring 0 1 (sep ++ doc ++ "]")) with (String "," "" ++ substring 0 0 (String "010" (doc ++ "]")))%string.
        rewrite substring_zero. cbn. now rewrite (rd_nothing _ _ ROK).
      + change (substring 0 (S (S n)) (sep ++ doc ++ "]")) with (String "," (String "010" (substring 0 n (doc ++ "]")))).
        rewrite substring_app_l by lia. cbn [read_rest skip_ws]. rewrite (skip_part _ _ _ Hm).
        pose proof (read_part _ _ n Hm ltac:(lia)) as G.
        destruct (read_doc _) as [[x r']|]; [|reflexivity]. subst r'. now destruct k.
  Qed.
End Reading.

(** The process ends before anything reached the file, or after everything. *)
Lemma crash_none dumps now t f ds doc : files_are f ds -> paused t = false ->
  dumps (document (stamped now t)) = Ok doc ->
  dget (crashed_dump dumps 0 now t f) (KStr (outpath t)) =
  match ds (outpath t) with [] => Some ""%string | d => Some (array d) end.
Proof.
  intros H Hp Hd. rewrite (crash_content _ _ _ _ _ _ _ H Hp Hd).
  destruct (ds (outpath t)); rewrite dget_dset, keqb_refl; [now rewrite substring_zero|reflexivity].
Qed.
Lemma crash_all dumps now t f ds doc n : files_are f ds -> paused t = false ->
  dumps (document (stamped now t)) = Ok doc -> String.length doc + 3 <= n ->
  crashed_dump dumps n now t f = snd (dump dumps now t f).
Proof.
  intros H Hp Hd Hn. rewrite (crash_content _ _ _ _ _ _ _ H Hp Hd), (dump_ok _ _ _ _ _ _ H Hp Hd). cbn [snd].
  destruct (ds (outpath t)) as [|d r].
  - rewrite substring_full; [reflexivity|]. cbn. rewrite slength_app. cbn. lia.
  - destruct n as [|n]; [lia|]. rewrite substring_full by (cbn; rewrite slength_app; cbn; lia).
    unfold array. rewrite sconcat_snoc by discriminate. now rewrite !sapp_assoc.
Qed.
