(** Proofs about tracker.py. *)
From Coq Require Import Lia.
From Verif Require Export Track_Spec.
From Verif Require Import Py_Facts.

(** ** Strings *)

Lemma sapp_assoc (a b c : string) : ((a ++ b) ++ c)%string = (a ++ (b ++ c))%string.
Proof. induction a as [|x a IH]; cbn; [reflexivity|]. now rewrite IH. Qed.
Lemma sapp_nil (a : string) : (a ++ "")%string = a.
Proof. induction a as [|x a IH]; cbn; [reflexivity|]. now rewrite IH. Qed.
Lemma slength_app (a b : string) : String.length (a ++ b) = String.length a + String.length b.
Proof. induction a as [|x a IH]; cbn; [reflexivity|]. now rewrite IH. Qed.
Lemma substring_zero (n : nat) (s : string) : substring n 0 s = "".
Proof. revert n. induction s as [|x s IH]; intros [|n]; cbn; auto. Qed.
Lemma substring_front (a b : string) n : n = String.length a -> substring 0 n (a ++ b) = a.
Proof.
  intros ->. induction a as [|x a IH]; cbn; [apply substring_zero|]. now rewrite IH.
Qed.
Lemma substring_past (s : string) n m : String.length s <= n -> substring n m s = "".
Proof.
  revert n. induction s as [|x s IH]; intros [|n] H; cbn in *; try lia; [now destruct m|now destruct m|].
  apply IH. lia.
Qed.
Lemma substring_full (s : string) n : String.length s <= n -> substring 0 n s = s.
Proof.
  revert n. induction s as [|x s IH]; intros [|n] H; cbn in *; try lia; auto.
  f_equal. apply IH. lia.
Qed.
Lemma sconcat_snoc s (l : list string) x : l <> [] ->
  String.concat s (l ++ [x]) = (String.concat s l ++ s ++ x)%string.
Proof.
  induction l as [|a l IH]; [congruence|]. intros _. destruct l as [|b l]; [reflexivity|].
  change (String.concat s ((a :: b :: l) ++ [x])) with (a ++ s ++ String.concat s ((b :: l) ++ [x]))%string.
  rewrite IH by discriminate.
  change (String.concat s (a :: b :: l)) with (a ++ s ++ String.concat s (b :: l))%string.
  now rewrite !sapp_assoc.
Qed.
Lemma sapp_inj (a b c : string) : (a ++ b)%string = (a ++ c)%string -> b = c.
Proof. induction a as [|x a IH]; cbn; [auto|]. intro H. injection H. exact IH. Qed.

(** Writing at the end, or over the last character. *)
Lemma write_end s data : pos s = String.length (content s) ->
  write data s = {| content := (content s ++ data)%string; pos := pos s + String.length data |}.
Proof.
  intro H. unfold write. f_equal. rewrite substring_full by lia.
  rewrite substring_past by lia. now rewrite sapp_nil.
Qed.
Lemma write_over a c data : 0 < String.length data ->
  write data {| content := (a ++ String c "")%string; pos := String.length (a ++ String c "") - 1 |} =
  {| content := (a ++ data)%string; pos := String.length (a ++ data) |}.
Proof.
  intro H. unfold write. cbn [content pos].
  replace (String.length (a ++ String c "") - 1) with (String.length a) by (rewrite slength_app; cbn; lia).
  rewrite substring_front by reflexivity.
  rewrite substring_past by (rewrite slength_app; cbn; lia).
  rewrite sapp_nil. f_equal. now rewrite slength_app.
Qed.

Lemma substring_split (s : string) p m : String.length s <= m -> (substring 0 p s ++ substring p m s)%string = s.
Proof.
  revert p m. induction s as [|x s IH]; intros [|p] m H; cbn in *.
  - now destruct m.
  - now destruct m.
  - destruct m as [|m]; [lia|]. f_equal. apply substring_full. lia.
  - f_equal. apply IH. lia.
Qed.
Lemma write_nothing s : content (write "" s) = content s.
Proof. unfold write. cbn [content append String.length]. rewrite Nat.add_0_r. now apply substring_split. Qed.

(** ** Lists *)

Lemma nth_set_nth {A} (l : list A) i j x :
  nth_error (set_nth l i x) j = if Nat.eqb i j then match nth_error l i with Some _ => Some x | None => None end
                                else nth_error l j.
Proof.
  revert i j. induction l as [|y l IH]; intros [|i] [|j]; cbn; auto.
  now destruct (Nat.eqb i j).
Qed.

Lemma nth_some_lt {A} (l : list A) i x : nth_error l i = Some x -> i < List.length l.
Proof. intro H. apply nth_error_Some. congruence. Qed.

(** ** The log file *)

Section Files.
  Context (dumps : dict jval -> res string).

  Lemma open_array fs ds p : files_are fs ds ->
    open_log fs p = Ok {| content := match ds p with [] => "[" | d => ("[" ++ String.concat sep d ++ sep)%string end;
                          pos := String.length match ds p with [] => "[" | d => ("[" ++ String.concat sep d ++ sep)%string end |}.
  Proof.
    intro H. unfold open_log. rewrite H. destruct (ds p) as [|d r] eqn:E; [reflexivity|].
    replace (Nat.eqb _ _) with false by reflexivity.
    change (String "," (String "010" "")) with sep. unfold array.
    assert (("[" ++ String.concat sep (d :: r) ++ "]")%string = (("[" ++ String.concat sep (d :: r)) ++ "]")%string) as ->
      by (now rewrite sapp_assoc).
    rewrite write_over by (cbn; lia). now rewrite sapp_assoc.
  Qed.

  (** One successful dump. *)
  Lemma dump_ok now t fs ds doc : files_are fs ds -> paused t = false ->
    dumps (document (stamped now t)) = Ok doc ->
    dump dumps now t fs = (Ok tt, stamped now t, dset fs (KStr (outpath t)) (array (ds (outpath t) ++ [doc]))).
  Proof.
    intros H Hp Hd. unfold dump. rewrite Hp. cbv zeta. change (outpath (stamped now t)) with (outpath t).
    rewrite (open_array _ _ _ H), Hd. f_equal. f_equal.
    set (c := match ds (outpath t) with [] => _ | _ => _ end).
    rewrite (write_end _ doc) by reflexivity. cbn [content pos].
    rewrite write_end by (cbn [content pos]; now rewrite slength_app). cbn [content]. unfold array.
    subst c. destruct (ds (outpath t)) as [|d r]; [reflexivity|].
    rewrite sconcat_snoc by discriminate. now rewrite !sapp_assoc.
  Qed.

  Lemma files_are_dset fs ds p doc : files_are fs ds ->
    files_are (dset fs (KStr p) (array (ds p ++ [doc]))) (fun q => since1 q (ds q) (Wrote p doc)).
  Proof.
    intros H q. rewrite dget_dset. cbn [since1]. destruct (String.eqb_spec p q) as [->|N].
    - rewrite keqb_refl. now destruct (ds q).
    - destruct (keqb (KStr p) (KStr q)) eqn:E; [apply keqb_str in E; congruence|]. apply H.
  Qed.

  Lemma files_are_ddel fs ds p : wfd fs = true -> files_are fs ds ->
    files_are (ddel fs (KStr p)) (fun q => since1 q (ds q) (Removed p)).
  Proof.
    intros Hw H q. rewrite dget_ddel by exact Hw. cbn [since1]. destruct (String.eqb_spec p q) as [->|N].
    - now rewrite keqb_refl.
    - destruct (keqb (KStr p) (KStr q)) eqn:E; [apply keqb_str in E; congruence|]. apply H.
  Qed.

  Lemma dump_wfd now t fs : wfd fs = true -> wfd (snd (dump dumps now t fs)) = true.
  Proof.
    intro H. unfold dump. destruct (paused t); [exact H|]. cbv zeta.
    destruct (open_log _ _); [|exact H]. destruct (dumps _); cbn [snd]; now apply wfd_dset.
  Qed.

  Lemma tstep_wfd o s : wfd (fs s) = true -> wfd (fs (snd (tstep dumps o s))) = true.
  Proof.
    intro H. destruct o; cbn [tstep]; [exact H| | | | | | |]; unfold on_tracker;
      destruct (nth_error (trackers s) i) as [t|]; try exact H.
    - pose proof (dump_wfd now t (fs s) H). destruct (dump dumps now t (fs s)) as [[r t'] f]. exact H0.
    - cbn. now apply wfd_ddel.
    - cbn. unfold crashed_dump. destruct (paused t); [exact H|]. cbv zeta.
      destruct (dget _ _) as [x|]; [|now apply wfd_dset]. destruct (Nat.eqb _ _); [exact H|now apply wfd_dset].
  Qed.

  Lemma files_are_ext fs d1 d2 : (forall p, d1 p = d2 p) -> files_are fs d1 -> files_are fs d2.
  Proof. intros E H p. rewrite <- E. apply H. Qed.

  Lemma tstep_files o s ds : wfd (fs s) = true -> files_are (fs s) ds ->
    match o with TCrash _ _ _ => False | _ => True end -> fst (tstep dumps o s) = Ok tt ->
    files_are (fs (snd (tstep dumps o s))) (docs_since ds (event_of dumps o s)).
  Proof.
    intros Hw H Hc Hr. destruct o; cbn [tstep event_of] in *; try contradiction; try exact H;
      unfold on_tracker in *; destruct (nth_error (trackers s) i) as [t|] eqn:E; try exact H.
    - destruct (paused t) eqn:Hp.
      + unfold dump in *. rewrite Hp in *. exact H.
      + destruct (dumps (document (stamped now t))) as [doc|e] eqn:Hd.
        * rewrite (dump_ok _ _ _ _ _ H Hp Hd). cbn [snd fs]. apply (files_are_dset _ _ _ _ H).
        * exfalso. revert Hr. unfold dump. rewrite Hp. cbv zeta.
          rewrite (open_array _ _ _ H), Hd. discriminate.
    - cbn. apply (files_are_ddel _ _ _ Hw H).
  Qed.

  Lemma trun_files os : forall s ds, wfd (fs s) = true -> files_are (fs s) ds -> no_crash os ->
    all_ok (fst (trun dumps os s)) ->
    files_are (fs (snd (trun dumps os s))) (docs_since ds (events dumps os s)).
  Proof.
    induction os as [|o os IH]; intros s ds Hw H Hc Hr; [exact H|].
    cbn [trun events] in *. destruct (tstep dumps o s) as [x s'] eqn:E.
    destruct (trun dumps os s') as [xs s''] eqn:E2. cbn [fst snd] in *.
    assert (Hx : x = Ok tt) by (inversion Hr; assumption).
    assert (Hxs : all_ok xs) by (inversion Hr; assumption).
    pose proof (tstep_files o s ds Hw H (Hc o (or_introl eq_refl))) as G. rewrite E in G. cbn [fst snd] in G.
    pose proof (tstep_wfd o s Hw) as Gw. rewrite E in Gw. cbn [snd] in Gw.
    specialize (IH s' _ Gw (G Hx)). rewrite E2 in IH. cbn [fst snd] in IH.
    eapply files_are_ext; [|apply IH].
    - intro p. unfold docs_since. now rewrite fold_left_app.
    - intros o' Ho. apply Hc. now right.
    - exact Hxs.
  Qed.

  (** Dumps succeed when the document can be written. *)
  Lemma dump_succeeds now t fs ds doc : files_are fs ds -> dumps (document (stamped now t)) = Ok doc ->
    fst (fst (dump dumps now t fs)) = Ok tt.
  Proof.
    intros H Hd. destruct (paused t) eqn:Hp; [unfold dump; now rewrite Hp|].
    now rewrite (dump_ok _ _ _ _ _ H Hp Hd).
  Qed.

  (** ** What is dumped *)

  Definition log_ok (name : key) (init : string) (t : tracker) : Prop :=
    (exists w, log t = [(KStr "name", LVal (MAtom name)); (KStr "init_timestamp", LVal (MStr init));
                        (KStr "write_timestamp", LVal (MStr w)); (KStr "history", LHistory)]) \/
    log t = [(KStr "name", LVal (MAtom name)); (KStr "init_timestamp", LVal (MStr init)); (KStr "history", LHistory)].

  Lemma stamped_log name init now t : log_ok name init t ->
    log (stamped now t) =
      [(KStr "name", LVal (MAtom name)); (KStr "init_timestamp", LVal (MStr init));
       (KStr "write_timestamp", LVal (MStr now)); (KStr "history", LHistory)].
  Proof. intros [[w E]|E]; unfold stamped; rewrite E; reflexivity. Qed.

  Lemma tstep_log o s j t name init : nth_error (trackers s) j = Some t -> log_ok name init t ->
    exists t', nth_error (trackers (snd (tstep dumps o s))) j = Some t' /\ log_ok name init t' /\ outpath t' = outpath t.
  Proof.
    intros Hj Hl.
    assert (U : forall i f, (forall u, log_ok name init u -> log_ok name init (snd (fst (f u))) /\ outpath (snd (fst (f u))) = outpath u) ->
      exists t', nth_error (trackers (snd (on_tracker i s f))) j = Some t' /\ log_ok name init t' /\ outpath t' = outpath t).
    { intros i f Hf. unfold on_tracker. destruct (nth_error (trackers s) i) as [u|] eqn:Ei; [|exists t; auto].
      destruct (f u) as [[r u'] f'] eqn:Ef. cbn [snd trackers]. rewrite nth_set_nth, Ei.
      destruct (Nat.eqb_spec i j) as [->|N]; [|exists t; auto].
      rewrite Hj in Ei. injection Ei as <-. exists u'. specialize (Hf t Hl). rewrite Ef in Hf. cbn in Hf. tauto. }
    destruct o; cbn [tstep]; try (apply U; intros u Hu; cbn; split; [exact Hu|reflexivity]).
    - exists t. cbn. rewrite nth_error_app1 by (eapply nth_some_lt; eauto). auto.
    - apply U. intros u Hu. unfold dump. destruct (paused u); [cbn; auto|]. cbv zeta.
      assert (log_ok name init (stamped now u)) by (left; exists now; now apply stamped_log).
      destruct (open_log _ _); [|cbn; auto]. destruct (dumps _); cbn; auto.
  Qed.

  (** ** Histories *)

  Definition rec_ok (call : string * string * Z * list (dict mval) * dict mval) (n : Z) (r : dict mval) : Prop :=
    wfd r = true /\ forall k, dget r k = record_field call n k.

  Definition meta_ok (sets : list (dict mval)) (m : dict mval) : Prop :=
    wfd m = true /\ forall k, dget m k = last_given k sets.

  Lemma last_given_snoc k sets md :
    last_given k (sets ++ [md]) = match dget (rev md) k with Some v => Some v | None => last_given k sets end.
  Proof. unfold last_given. now rewrite fold_left_app. Qed.

  Lemma builtin_field target caller lineno n k :
    dget (dict_of [(KStr "target", MStr target); (KStr "caller", MStr caller);
                   (KStr "lineno", MInt lineno); (KStr "trackcount", MInt n)]) k =
    if keqb k (KStr "target") then Some (MStr target)
    else if keqb k (KStr "caller") then Some (MStr caller)
    else if keqb k (KStr "lineno") then Some (MInt lineno)
    else if keqb k (KStr "trackcount") then Some (MInt n)
    else None.
  Proof.
    cbn -[keqb]. rewrite !(keqb_sym k). change (dict_of _) with
      [(KStr "target", MStr target); (KStr "caller", MStr caller);
       (KStr "lineno", MInt lineno); (KStr "trackcount", MInt n)]. cbn [dget]. reflexivity.
  Qed.

  Record hist_ok (acc : list (dict mval) * list (string * string * Z * list (dict mval) * dict mval)) (t : tracker) : Prop := {
    ho_meta : meta_ok (fst acc) (metadata t);
    ho_count : counter t = (Z.of_nat (List.length (snd acc)) + 1)%Z;
    ho_len : List.length (history t) = List.length (snd acc);
    ho_recs : forall i call r, nth_error (snd acc) i = Some call -> nth_error (history t) i = Some r ->
              rec_ok call (Z.of_nat i + 1) r
  }.

  Lemma hist_track acc t target caller lineno md : hist_ok acc t ->
    hist_ok (hstep acc (Tracked target caller lineno md)) (track target caller lineno md t).
  Proof.
    destruct acc as [sets calls]. intros [[Hm1 Hm2] Hc Hl Hr]. cbn [fst snd hstep] in *.
    constructor; cbn [fst snd track upd_history metadata counter history].
    - split; assumption.
    - rewrite app_length. cbn. lia.
    - rewrite !app_length. cbn. lia.
    - intros i call r H1 H2. destruct (Nat.lt_ge_cases i (List.length calls)) as [L|L].
      + rewrite nth_error_app1 in H1 by exact L. rewrite nth_error_app1 in H2 by lia. eauto.
      + rewrite nth_error_app2 in H1 by exact L. rewrite nth_error_app2 in H2 by lia.
        destruct (i - List.length calls) as [|m] eqn:Em; [|destruct m; discriminate].
        replace (i - List.length (history t)) with 0 in H2 by lia. cbn in H1, H2.
        injection H1 as <-. injection H2 as <-. split.
        * apply wfd_dupdate, wfd_dupdate. reflexivity.
        * intro k. unfold record_field. rewrite last_given_snoc, !dget_dupdate.
          destruct (dget (rev md) k); [reflexivity|]. rewrite dget_rev_wfd by exact Hm1. rewrite Hm2.
          destruct (last_given k sets); [reflexivity|].
          replace (counter t) with (Z.of_nat i + 1)%Z by lia. apply builtin_field.
  Qed.

  Lemma hist_meta acc t md : hist_ok acc t -> hist_ok (hstep acc (MetaSet md)) (set_metadata md t).
  Proof.
    destruct acc as [sets calls]. intros [[Hm1 Hm2] Hc Hl Hr]. cbn [fst snd hstep] in *.
    constructor; cbn [fst snd set_metadata metadata counter history]; auto.
    split; [now apply wfd_dupdate|]. intro k. rewrite last_given_snoc, dget_dupdate.
    destruct (dget (rev md) k); auto.
  Qed.

  Lemma hist_clear acc t : hist_ok acc t -> hist_ok (hstep acc Cleared) (upd_history t [] 1).
  Proof.
    destruct acc as [sets calls]. intros [Hm Hc Hl Hr]. constructor; cbn; auto.
    intros [|i]; discriminate.
  Qed.

  Lemma hist_other acc t t' : history t' = history t -> metadata t' = metadata t -> counter t' = counter t ->
    hist_ok acc t -> hist_ok acc t'.
  Proof. intros E1 E2 E3 [A B C D]. constructor; rewrite ?E1, ?E2, ?E3; auto. Qed.

  Lemma dump_history now t f :
    let t' := snd (fst (dump dumps now t f)) in
    history t' = history t /\ metadata t' = metadata t /\ counter t' = counter t.
  Proof.
    unfold dump. destruct (paused t); [cbn; auto|]. cbv zeta.
    destruct (open_log _ _); [|cbn; auto]. destruct (dumps _); cbn; auto.
  Qed.

  Lemma tstep_hist o s j t acc : nth_error (trackers s) j = Some t -> hist_ok acc t ->
    exists t', nth_error (trackers (snd (tstep dumps o s))) j = Some t' /\
      hist_ok (fold_left hstep (hevent_of j o) acc) t'.
  Proof.
    intros Hj Hl.
    assert (U : forall i f evs, (forall u, hist_ok acc u -> hist_ok (fold_left hstep evs acc) (snd (fst (f u)))) ->
      exists t', nth_error (trackers (snd (on_tracker i s f))) j = Some t' /\
        hist_ok (fold_left hstep (if Nat.eqb i j then evs else []) acc) t').
    { intros i f evs Hf. unfold on_tracker. destruct (nth_error (trackers s) i) as [u|] eqn:Ei.
      - destruct (f u) as [[r u'] f'] eqn:Ef. cbn [snd trackers]. rewrite nth_set_nth, Ei.
        destruct (Nat.eqb_spec i j) as [->|N]; [|exists t; auto].
        rewrite Hj in Ei. injection Ei as <-. exists u'. specialize (Hf t Hl). rewrite Ef in Hf. cbn in Hf. tauto.
      - destruct (Nat.eqb_spec i j) as [->|N]; [congruence|]. exists t. auto. }
    assert (U0 : forall i f, (forall u, hist_ok acc u -> hist_ok acc (snd (fst (f u)))) ->
      exists t', nth_error (trackers (snd (on_tracker i s f))) j = Some t' /\ hist_ok acc t').
    { intros i f Hf. destruct (U i f [] Hf) as (t' & A & B). exists t'. now destruct (Nat.eqb i j). }
    destruct o; cbn [tstep hevent_of].
    - exists t. cbn. rewrite nth_error_app1 by (eapply nth_some_lt; eauto). auto.
    - apply (U i _ [_]). intros u Hu. now apply hist_track.
    - apply (U i _ [_]). intros u Hu. now apply hist_meta.
    - apply U0. intros u Hu. now apply (hist_other acc u).
    - apply U0. intros u Hu. now apply (hist_other acc u).
    - apply U0. intros u Hu. destruct (dump_history now u (fs s)) as (A & B & C). now apply (hist_other acc u).
    - apply (U i _ [_]). intros u Hu. now apply hist_clear.
    - apply U0. intros u Hu. exact Hu.
  Qed.

  Lemma trun_track os : forall s j t acc name init,
    nth_error (trackers s) j = Some t -> hist_ok acc t -> log_ok name init t ->
    exists t', nth_error (trackers (snd (trun dumps os s))) j = Some t' /\
      hist_ok (fold_left hstep (flat_map (hevent_of j) os) acc) t' /\ log_ok name init t' /\ outpath t' = outpath t.
  Proof.
    induction os as [|o os IH]; intros s j t acc name init Hj Hh Hl; [exists t; auto|].
    cbn [trun flat_map]. destruct (tstep_hist o s j t acc Hj Hh) as (t1 & A1 & B1).
    destruct (tstep_log o s j t name init Hj Hl) as (t2 & A2 & B2 & C2).
    assert (t2 = t1) by congruence. subst t2.
    destruct (tstep dumps o s) as [x s']. cbn [snd] in *.
    destruct (IH s' j t1 _ name init A1 B1 B2) as (t3 & A3 & B3 & C3 & D3).
    destruct (trun dumps os s') as [xs s'']. cbn [snd] in *. exists t3.
    rewrite fold_left_app. split; [exact A3|]. split; [exact B3|]. split; [exact C3|]. congruence.
  Qed.

  Lemma new_hist name ident outdir now : hist_ok ([], []) (new_tracker name ident outdir now).
  Proof. constructor; cbn; auto; [split; auto|]. intros [|i]; discriminate. Qed.
  Lemma new_log name ident outdir now : log_ok name now (new_tracker name ident outdir now).
  Proof. now right. Qed.

  (** ** Dumps that fail *)

  Lemma dump_fails now t fs ds e : files_are fs ds -> paused t = false ->
    dumps (document (stamped now t)) = Exc e ->
    dump dumps now t fs =
      (Exc e, stamped now t,
       dset fs (KStr (outpath t))
         match ds (outpath t) with [] => "[" | d => ("[" ++ String.concat sep d ++ sep)%string end).
  Proof.
    intros H Hp Hd. unfold dump. rewrite Hp. cbv zeta. change (outpath (stamped now t)) with (outpath t).
    now rewrite (open_array _ _ _ H), Hd.
  Qed.

  (** What a dump does to any file that is not empty: it drops the last
      character. *)
  Definition chop (s : string) : string := substring 0 (String.length s - 1) s.
  Lemma snoc_ex (s : string) : s <> "" -> exists a c, s = (a ++ String c "")%string.
  Proof.
    induction s as [|x s IH]; [congruence|]. intros _. destruct s as [|y s].
    - exists ""%string, x. reflexivity.
    - destruct IH as (a & c & E); [discriminate|]. exists (String x a), c. cbn. now rewrite <- E.
  Qed.
  Lemma chop_snoc a c : chop (a ++ String c "") = a.
  Proof. unfold chop. apply substring_front. rewrite slength_app. cbn. lia. Qed.

  Lemma dump_any now t f s : paused t = false -> dget f (KStr (outpath t)) = Some s -> s <> ""%string ->
    snd (dump dumps now t f) =
      dset f (KStr (outpath t))
        (chop s ++ sep ++ match dumps (document (stamped now t)) with Ok doc => doc ++ "]" | Exc _ => "" end)%string.
  Proof.
    intros Hp Hs Hn. unfold dump. rewrite Hp. cbv zeta. change (outpath (stamped now t)) with (outpath t).
    unfold open_log. rewrite Hs. destruct (snoc_ex s Hn) as (a & c & ->).
    replace (Nat.eqb _ _) with false by (now destruct a).
    change (String "," (String "010" "")) with sep. rewrite write_over by (cbn; lia). rewrite chop_snoc.
    destruct (dumps _) as [doc|e]; cbn [snd content]; [|reflexivity].
    rewrite (write_end _ doc) by reflexivity. cbn [content pos].
    rewrite write_end by (cbn [content pos]; now rewrite (slength_app _ doc)). cbn [content].
    f_equal. now rewrite !sapp_assoc.
  Qed.

  Lemma dump_empty now t f : paused t = false -> dget f (KStr (outpath t)) = Some ""%string ->
    dump dumps now t f = (Exc OSError, stamped now t, f).
  Proof.
    intros Hp Hs. unfold dump. rewrite Hp. cbv zeta. change (outpath (stamped now t)) with (outpath t).
    unfold open_log. now rewrite Hs.
  Qed.

  (** The process ends part-way. *)
  Lemma crash_content n now t f ds doc : files_are f ds -> paused t = false ->
    dumps (document (stamped now t)) = Ok doc ->
    crashed_dump dumps n now t f =
      match ds (outpath t) with
      | [] => dset f (KStr (outpath t)) (substring 0 n ("[" ++ doc ++ "]"))
      | d => match n with
             | O => dset f (KStr (outpath t)) (array d)
             | _ => dset f (KStr (outpath t))
                      ("[" ++ String.concat sep d ++ substring 0 n (sep ++ doc ++ "]"))%string
             end
      end.
  Proof.
    intros H Hp Hd. unfold crashed_dump. rewrite Hp. cbv zeta. change (outpath (stamped now t)) with (outpath t).
    rewrite Hd, H. destruct (ds (outpath t)) as [|d r]; [reflexivity|].
    replace (Nat.eqb _ _) with false by reflexivity.
    change (String "," (String "010" "")) with sep. unfold array.
    assert (("[" ++ String.concat sep (d :: r) ++ "]")%string = (("[" ++ String.concat sep (d :: r)) ++ "]")%string) as ->
      by (now rewrite sapp_assoc).
    destruct n as [|n].
    - change (substring 0 0 (sep ++ doc ++ "]")) with ""%string. rewrite write_nothing. cbn [content]. now rewrite sapp_assoc.
    - rewrite write_over by (cbn; lia). cbn [content]. now rewrite sapp_assoc.
  Qed.
End Files.

(** ** Reports *)
Lemma exc_report_spec shown tb :
  exc_report shown tb =
  [(KStr "exception", MStr shown);
   (KStr "lineno", MList (map (fun f => MInt (f_line f)) tb));
   (KStr "name", MList (map (fun f => MStr match f_module f with
                                           | Some m => (m ++ "." ++ f_code f)%string
                                           | None => f_code f
                                           end) tb));
   (KStr "filename", MList (map (fun f => MStr (f_file f)) tb))].
Proof.
  unfold exc_report.
  match goal with |- context [fold_left ?g tb _] => set (step := g) end.
  assert (G : forall ls ns fs, fold_left step tb (ls, ns, fs) =
    (ls ++ map (fun f => MInt (f_line f)) tb,
     ns ++ map (fun f => MStr match f_module f with Some m => (m ++ "." ++ f_code f)%string | None => f_code f end) tb,
     fs ++ map (fun f => MStr (f_file f)) tb)).
  { induction tb as [|x tb IH]; intros ls ns fs; cbn [fold_left map]; [now rewrite !app_nil_r|].
    unfold step at 2. rewrite IH. now rewrite <- !app_assoc. }
  rewrite G. reflexivity.
Qed.
