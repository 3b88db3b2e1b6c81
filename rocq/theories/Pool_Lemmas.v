(** The theorems about pooled maps in the form in which they are stated. *)
From Verif Require Export Pool_Proofs.
From Verif Require Import Py_Facts Addr_Facts.
From Coq Require Import Lia.

Section Main.
  Context {A V : Type} (as_exn : V -> option exn) (exn_val : exn -> V) (HV : exn_values as_exn exn_val).
  Implicit Types (func : A -> res V) (recs : list (argrec A)).

  Definition calls_of func (recs : list (argrec A)) : list (key * res V) :=
    map (fun r => (key_of r, func (r_args r))) recs.
  Definition chunk_calls func n (recs : list (argrec A)) : list (key * res (dict V)) :=
    map (fun ic => (chunk_key (fst ic), chunkwrap func (snd ic))) (combine (seq 0 n) (divide n recs)).

  (** *** Submitting *)

  Lemma mapM_async {R} (l : list (key * res R)) n :
    mapM (fun kc => r <- apply_ (Some n) (snd kc) ;; Ok (fst kc, r)) l = Ok (map (fun kc => (fst kc, Async None)) l).
  Proof. apply mapM_ok. reflexivity. Qed.

  Lemma pool_map_pooled func recs n :
    pool_map func (Again recs) (Some n) false = Ok (ByKey (submit (calls_of func (complete 0 recs)))).
  Proof. unfold pool_map. cbn [submitted drain snd]. rewrite mapM_async. reflexivity. Qed.
  Lemma pool_map_chunked func recs n :
    pool_map func (Again recs) (Some n) true = Ok (ByChunk (submit (chunk_calls func n (complete 0 recs)))).
  Proof. unfold pool_map. cbn [submitted drain snd]. rewrite mapM_async. reflexivity. Qed.

  Lemma complete_ordinary func recs : none_interrupts func recs -> none_interrupts func (complete 0 recs).
  Proof. intros H r Hr. apply complete_In in Hr. destruct Hr as [r' [Hi E]]. rewrite <- E. apply H, Hi. Qed.

  Lemma pool_map_alone func recs chunks : none_interrupts func recs ->
    pool_map func (Again recs) None chunks =
    Ok (ByKey (dict_of (map (fun kc => (fst kc, Maybe (snd kc))) (calls_of func (complete 0 recs))))).
  Proof.
    intro H. apply complete_ordinary in H. unfold pool_map.
    assert (E : submitted func (Again recs) None chunks = CallsByKey (calls_of func (complete 0 recs)))
      by (destruct chunks; reflexivity).
    rewrite E. rewrite (mapM_ok _ (fun kc => (fst kc, Maybe (snd kc)))); [reflexivity|].
    intros [k c] Hin. apply in_map_iff in Hin. destruct Hin as [r [Er Hr]]. injection Er as <- <-.
    cbn [fst snd apply_]. specialize (H r Hr). destruct (func (r_args r)); cbn in *; [reflexivity|]. now rewrite H.
  Qed.

  Lemma work_by_key l sched d : work (CallsByKey l) sched (ByKey d) = ByKey (@deliver_all V l sched d).
  Proof. revert d. induction sched as [|k r IH]; intro d; [reflexivity|]. cbn. apply IH. Qed.
  Lemma work_by_chunk l sched d : work (@CallsByChunk V l) sched (ByChunk d) = ByChunk (deliver_all l sched d).
  Proof. revert d. induction sched as [|k r IH]; intro d; [reflexivity|]. cbn. apply IH. Qed.
  Lemma work_stays cs sched (d : dict (result V)) :
    (forall k r, In (k, r) d -> exists c, r = Maybe c) -> work cs sched (ByKey d) = ByKey d.
  Proof.
    intro H. induction sched as [|k r IH]; [reflexivity|]. unfold work in *. cbn [fold_left].
    enough (E : finish cs (ByKey d) k = ByKey d) by (rewrite E; exact IH).
    unfold finish. destruct cs; [|reflexivity]. f_equal. unfold deliver.
    destruct (dget d k) as [r0|] eqn:Ed; [|reflexivity].
    apply dget_In in Ed. destruct Ed as [k' [Hi _]]. destruct (H _ _ Hi) as [c ->]. reflexivity.
  Qed.
  Lemma ready_by_key d : pool_ready (@ByKey V d) = ready_all d.
  Proof. unfold pool_ready, ready_all, flags. induction d as [|kr r IH]; [reflexivity|]. cbn. now rewrite <- IH. Qed.
  Lemma ready_by_chunk d : pool_ready (@ByChunk V d) = ready_all d.
  Proof. unfold pool_ready, ready_all, flags. induction d as [|kr r IH]; [reflexivity|]. cbn. now rewrite <- IH. Qed.

  Lemma delivers_ordinary {R} (c : res R) : ordinary c -> delivers c = Some c.
  Proof. destruct c; cbn; [reflexivity|]. now intros ->. Qed.
  Lemma calls_ordinary func recs : none_interrupts func recs ->
    forall kc, In kc (calls_of func (complete 0 recs)) -> ordinary (snd kc).
  Proof.
    intros H kc Hin. apply complete_ordinary in H. apply in_map_iff in Hin.
    destruct Hin as [r [<- Hr]]. apply H, Hr.
  Qed.

  Lemma dict_of_In {U} (l : list (key * U)) k v : In (k, v) (dict_of l) -> exists k', In (k', v) l.
  Proof.
    intro H. pose proof (wfd_In_dget _ _ _ (wfd_dict_of l) H) as G. rewrite dget_dict_of in G.
    apply dget_In in G. destruct G as [k' [Hi _]]. exists k'. now apply in_rev.
  Qed.

  (** The outcome of an unchunked map. *)
  Definition outcome_of func (recs : list (argrec A)) : dict V :=
    dict_of (map (fun r => (key_of r, as_value exn_val (func (r_args r)))) (complete 0 recs)).

  Lemma outcome_of_calls func recs :
    dict_of (map (fun kc => (fst kc, as_value exn_val (snd kc))) (dict_of (calls_of func (complete 0 recs)))) =
    outcome_of func recs.
  Proof.
    unfold outcome_of. rewrite <- dict_of_map. rewrite (dict_of_wfd (dict_of _)) by apply wfd_dict_of.
    unfold calls_of. now rewrite map_map.
  Qed.

  Lemma got_by_key func recs (d : dict (result V)) :
    Forall2 (fun kr kc => fst kr = fst kc /\ came_to (snd kr) (snd kc)) d (dict_of (calls_of func (complete 0 recs))) ->
    pool_get as_exn exn_val (ByKey d) false = Some (Ok (outcome_of func recs)).
  Proof.
    intro H. unfold pool_get. rewrite (get_by_key as_exn exn_val HV _ _ _ H), <- outcome_of_calls. reflexivity.
  Qed.

  (** *** Without a pool *)
  Lemma map_alone func recs fe chunks sched : none_interrupts func recs ->
    map_into_pool as_exn exn_val func (Again recs) None fe chunks sched =
    Some (Ok (filter_out as_exn fe (outcome_of func recs))).
  Proof.
    intro H. unfold map_into_pool. cbn [maybe_pool]. rewrite pool_map_alone by exact H.
    rewrite work_stays.
    2:{ intros k r Hin. apply dict_of_In in Hin. destruct Hin as [k' Hin]. apply in_map_iff in Hin.
        destruct Hin as [kc [E _]]. injection E as _ <-. eauto. }
    assert (E : submitted func (Again recs) None chunks = CallsByKey (calls_of func (complete 0 recs)))
      by (destruct chunks; reflexivity).
    rewrite E. cbn [all_deliver].
    replace (forallb _ (calls_of func (complete 0 recs))) with true.
    2:{ symmetry. apply forallb_forall. intros kc Hin. rewrite delivers_ordinary; [reflexivity|].
        eapply calls_ordinary; eassumption. }
    rewrite ready_by_key, (dict_of_map (fun c : res V => Maybe c)).
    replace (ready_all _) with true by (symmetry; apply forallb_forall; intros kr Hin;
      apply in_map_iff in Hin; destruct Hin as [kc [<- _]]; reflexivity).
    cbn [andb]. rewrite (got_by_key func recs); [reflexivity|].
    assert (G : forall kc, In kc (dict_of (calls_of func (complete 0 recs))) -> ordinary (snd kc)).
    { intros [k c] Hin. apply dict_of_In in Hin. destruct Hin as [k' Hin]. apply (calls_ordinary func recs H _ Hin). }
    revert G. induction (dict_of (calls_of func (complete 0 recs))) as [|[k c] r IH]; intro G; constructor.
    - cbn [fst snd]. split; [reflexivity|]. split; [now left|]. apply (G (k, c)). now left.
    - apply IH. intros kc Hk. apply G. now right.
  Qed.

  (** *** Pooled, one call per record *)
  Lemma map_pooled func recs n fe sched : none_interrupts func recs ->
    map_into_pool as_exn exn_val func (Again recs) (Some (S n)) fe false sched = None \/
    map_into_pool as_exn exn_val func (Again recs) (Some (S n)) fe false sched =
    Some (Ok (filter_out as_exn fe (outcome_of func recs))).
  Proof.
    intro H. unfold map_into_pool. cbn [maybe_pool]. rewrite pool_map_pooled.
    change (submitted func (Again recs) (Some (S n)) false) with (CallsByKey (calls_of func (complete 0 recs))).
    rewrite work_by_key, ready_by_key.
    destruct (ready_all _) eqn:Er; [|now left]. cbn [andb].
    destruct (all_deliver _); [right|now left].
    apply (partly_ready _ _ (deliver_all_partly _ sched _ (submit_partly _))) in Er. rewrite Er.
    rewrite (got_by_key func recs); [reflexivity|].
    assert (G : forall kc, In kc (dict_of (calls_of func (complete 0 recs))) -> ordinary (snd kc)).
    { intros [k c] Hin. apply dict_of_In in Hin. destruct Hin as [k' Hin]. apply (calls_ordinary func recs H _ Hin). }
    clear Er. revert G. induction (dict_of (calls_of func (complete 0 recs))) as [|[k c] r IH]; intro G; constructor.
    - cbn [fst snd]. split; [reflexivity|]. assert (O : ordinary c) by (apply (G (k, c)); now left).
      split; [|exact O]. right. now rewrite delivers_ordinary.
    - apply IH. intros kc Hk. apply G. now right.
  Qed.

  Lemma map_pooled_ends func recs n fe sched : none_interrupts func recs ->
    covers (submitted func (Again recs) (Some (S n)) false) sched ->
    map_into_pool as_exn exn_val func (Again recs) (Some (S n)) fe false sched =
    Some (Ok (filter_out as_exn fe (outcome_of func recs))).
  Proof.
    intros H Hc. destruct (map_pooled func recs n fe sched H) as [E|E]; [|exact E]. exfalso.
    unfold map_into_pool in E. cbn [maybe_pool] in E. rewrite pool_map_pooled in E.
    change (submitted func (Again recs) (Some (S n)) false) with (CallsByKey (calls_of func (complete 0 recs))) in *.
    rewrite work_by_key, ready_by_key in E.
    assert (D : forallb (fun kc => match delivers (snd kc) with Some _ => true | None => false end)
                  (calls_of func (complete 0 recs)) = true).
    { apply forallb_forall. intros kc Hin. rewrite delivers_ordinary; [reflexivity|]. eapply calls_ordinary; eassumption. }
    rewrite (covered_ready _ sched Hc D) in E. cbn [all_deliver andb] in E. rewrite D in E.
    destruct (pool_get _ _ _ _) as [[d|e]|] eqn:G; try discriminate.
    assert (F : Forall2 (fun kr kc => fst kr = fst kc /\ came_to (snd kr) (snd kc))
      (deliver_all (calls_of func (complete 0 recs)) sched (submit (calls_of func (complete 0 recs))))
      (dict_of (calls_of func (complete 0 recs)))).
    { rewrite (partly_ready _ _ (deliver_all_partly _ sched _ (submit_partly _)) (covered_ready _ sched Hc D)).
      assert (GG : forall kc, In kc (dict_of (calls_of func (complete 0 recs))) -> ordinary (snd kc)).
      { intros [k c] Hin. apply dict_of_In in Hin. destruct Hin as [k' Hin]. apply (calls_ordinary func recs H _ Hin). }
      clear - GG. induction (dict_of (calls_of func (complete 0 recs))) as [|[k c] r IH]; constructor.
      - cbn [fst snd]. split; [reflexivity|]. assert (O : ordinary c) by (apply (GG (k, c)); now left).
        split; [|exact O]. right. now rewrite delivers_ordinary.
      - apply IH. intros kc Hk. apply GG. now right. }
    rewrite (got_by_key func recs _ F) in G. discriminate.
  Qed.

  (** *** Chunked *)
  Lemma chunkwrap_ordinary func chunk : none_interrupts func chunk -> ordinary (chunkwrap func chunk).
  Proof.
    intro H. unfold chunkwrap.
    assert (G : ordinary (mapM (fun r => v <- func (r_args r) ;; Ok (key_of r, v)) chunk)).
    { induction chunk as [|r rest IH]; [exact I|]. cbn [mapM].
      assert (Hr : ordinary (func (r_args r))) by (apply H; now left).
      destruct (func (r_args r)) as [v|e]; cbn [bind]; [|exact Hr].
      specialize (IH (fun r' Hr' => H r' (or_intror Hr'))). destruct (mapM _ rest); [exact I|exact IH]. }
    destruct (mapM _ chunk); [exact I|exact G].
  Qed.

  Lemma chunkwrap_failure func chunk :
    chunkwrap func chunk =
    match first_failure func chunk with
    | None => Ok (dict_of (map (fun r => (key_of r, as_value exn_val (func (r_args r)))) chunk))
    | Some e => Exc e
    end.
  Proof.
    unfold chunkwrap.
    assert (G : mapM (fun r => v <- func (r_args r) ;; Ok (key_of r, v)) chunk =
      match first_failure func chunk with
      | None => Ok (map (fun r => (key_of r, as_value exn_val (func (r_args r)))) chunk)
      | Some e => Exc e
      end).
    { induction chunk as [|r rest IH]; [reflexivity|]. cbn [mapM first_failure map].
      destruct (func (r_args r)) as [v|e]; cbn [bind]; [|reflexivity]. rewrite IH.
      destruct (first_failure func rest); reflexivity. }
    rewrite G. destruct (first_failure func chunk); reflexivity.
  Qed.

  Lemma chunk_key_eq i j : keqb (chunk_key i) (chunk_key j) = true -> i = j.
  Proof.
    unfold chunk_key. rewrite keqb_str. intro H. cbn in H. injection H as H. apply str_of_Z_inj in H. lia.
  Qed.

  Lemma wfd_chunk_calls func n recs : wfd (chunk_calls func n recs) = true.
  Proof.
    unfold chunk_calls. generalize (divide n recs). generalize 0.
    induction n as [|n IH]; intros s cs; [reflexivity|]. destruct cs as [|c cs]; [reflexivity|].
    cbn [seq combine map fst snd]. apply wfd_cons. split; [|apply IH].
    apply dget_none_iff. intros k v Hin. apply in_map_iff in Hin. destruct Hin as [[j c'] [E Hin]].
    injection E as <- _. apply in_combine_l in Hin. apply in_seq in Hin. cbn [fst].
    destruct (keqb (chunk_key j) (chunk_key s)) eqn:E; [|reflexivity]. apply chunk_key_eq in E. lia.
  Qed.

  Lemma chunk_calls_ordinary func n recs kc : 0 < n -> none_interrupts func recs ->
    In kc (chunk_calls func n recs) -> ordinary (snd kc).
  Proof.
    intros Hn H Hin. apply in_map_iff in Hin. destruct Hin as [[i c] [<- Hin]]. cbn [snd].
    apply in_combine_r in Hin. apply chunkwrap_ordinary. intros r Hr. apply H.
    destruct (divide_spec n recs Hn) as [<- _]. apply in_concat. eauto.
  Qed.

  Lemma chunked_fold func n recs :
    fold_left (put_chunk exn_val) (chunk_calls func n (complete 0 recs)) [] =
    chunked_outcome exn_val func (chunks_of n recs).
  Proof.
    unfold chunked_outcome, chunk_calls, chunks_of. generalize (@nil (key * V)) as out.
    induction (combine (seq 0 n) (divide n (complete 0 recs))) as [|[i c] r IH]; intro out; [reflexivity|].
    cbn [map fold_left fst snd]. rewrite IH. f_equal. unfold put_chunk. cbn [fst snd].
    rewrite chunkwrap_failure. destruct (first_failure func c); [reflexivity|]. apply dupdate_dict_of.
  Qed.

  Lemma map_chunked_when_ready func recs n fe sched : none_interrupts func recs ->
    ready_all (deliver_all (chunk_calls func (S n) (complete 0 recs)) sched
                 (submit (chunk_calls func (S n) (complete 0 recs)))) = true ->
    match pool_get as_exn exn_val (work (submitted func (Again recs) (Some (S n)) true) sched
            (ByChunk (submit (chunk_calls func (S n) (complete 0 recs))))) false with
    | Some (Ok d) => Some (Ok (filter_out as_exn fe d))
    | r => r
    end = Some (Ok (filter_out as_exn fe (chunked_outcome exn_val func (chunks_of (S n) recs)))).
  Proof.
    intros H Er.
    change (submitted func (Again recs) (Some (S n)) true) with (CallsByChunk (chunk_calls func (S n) (complete 0 recs))).
    rewrite work_by_chunk.
    apply (partly_ready _ _ (deliver_all_partly _ sched _ (submit_partly _))) in Er. rewrite Er.
    unfold pool_get. rewrite (get_by_chunk exn_val _ (chunk_calls func (S n) (complete 0 recs))).
    - now rewrite chunked_fold.
    - rewrite (dict_of_wfd (chunk_calls _ _ _)) by apply wfd_chunk_calls.
      assert (G : forall kc, In kc (chunk_calls func (S n) (complete 0 recs)) -> ordinary (snd kc)).
      { intros kc Hin. eapply chunk_calls_ordinary; [|apply complete_ordinary, H|exact Hin]. lia. }
      clear Er. induction (chunk_calls func (S n) (complete 0 recs)) as [|[k c] r IH]; constructor.
      + cbn [fst snd]. split; [reflexivity|]. rewrite delivers_ordinary; [reflexivity|]. apply (G (k, c)). now left.
      + apply IH. intros kc Hk. apply G. now right.
  Qed.

  Lemma map_chunked func recs n fe sched : none_interrupts func recs ->
    map_into_pool as_exn exn_val func (Again recs) (Some (S n)) fe true sched = None \/
    map_into_pool as_exn exn_val func (Again recs) (Some (S n)) fe true sched =
    Some (Ok (filter_out as_exn fe (chunked_outcome exn_val func (chunks_of (S n) recs)))).
  Proof.
    intro H. unfold map_into_pool. cbn [maybe_pool]. rewrite pool_map_chunked. cbv zeta.
    destruct (pool_ready _ && _) eqn:E; [right|now left]. apply andb_true_iff in E. destruct E as [E _].
    apply map_chunked_when_ready; [exact H|].
    change (submitted func (Again recs) (Some (S n)) true) with (CallsByChunk (chunk_calls func (S n) (complete 0 recs))) in E.
    rewrite work_by_chunk, ready_by_chunk in E. exact E.
  Qed.

  Lemma map_chunked_ends func recs n fe sched : none_interrupts func recs ->
    covers (submitted func (Again recs) (Some (S n)) true) sched ->
    map_into_pool as_exn exn_val func (Again recs) (Some (S n)) fe true sched =
    Some (Ok (filter_out as_exn fe (chunked_outcome exn_val func (chunks_of (S n) recs)))).
  Proof.
    intros H Hc.
    assert (D : forallb (fun kc => match delivers (snd kc) with Some _ => true | None => false end)
                  (chunk_calls func (S n) (complete 0 recs)) = true).
    { apply forallb_forall. intros kc Hin. rewrite delivers_ordinary; [reflexivity|].
      eapply chunk_calls_ordinary; [|apply complete_ordinary, H|exact Hin]. lia. }
    pose proof (covered_ready _ sched Hc D) as Er.
    unfold map_into_pool. cbn [maybe_pool]. rewrite pool_map_chunked. cbv zeta.
    replace (pool_ready _ && all_deliver _) with true.
    - apply map_chunked_when_ready; assumption.
    - symmetry. apply andb_true_iff. split; [|exact D].
      change (submitted func (Again recs) (Some (S n)) true) with (CallsByChunk (chunk_calls func (S n) (complete 0 recs))).
      rewrite work_by_chunk, ready_by_chunk. exact Er.
  Qed.

  (** *** C15 *)

  Lemma no_failure func recs : none_raises func recs -> first_failure func recs = None.
  Proof.
    induction recs as [|r rest IH]; intro H; [reflexivity|]. cbn. destruct (H r) as [v ->]; [now left|].
    apply IH. intros r' Hr'. apply H. now right.
  Qed.
  Lemma none_raises_interrupts func recs : none_raises func recs -> none_interrupts func recs.
  Proof. intros H r Hr. destruct (H r Hr) as [v ->]. exact I. Qed.

  Lemma dupdate_concat {U} (ls : list (list (key * U))) d :
    fold_left (fun out l => dupdate out l) ls d = dupdate d (List.concat ls).
  Proof.
    revert d. induction ls as [|l r IH]; intro d; [reflexivity|]. cbn [fold_left List.concat].
    now rewrite IH, dupdate_app.
  Qed.
  Lemma combine_snd {X Y} (xs : list X) (ys : list Y) :
    List.length xs = List.length ys -> map snd (combine xs ys) = ys.
  Proof. revert ys; induction xs; destruct ys; cbn; intros; try congruence. f_equal. apply IHxs. congruence. Qed.

  Lemma chunked_no_failure func recs n : 0 < n -> none_raises func recs ->
    chunked_outcome exn_val func (chunks_of n recs) = outcome_of func recs.
  Proof.
    intros Hn H.
    assert (H' : none_raises func (complete 0 recs)).
    { intros r Hr. apply complete_In in Hr. destruct Hr as [r' [Hi E]]. rewrite <- E. apply H, Hi. }
    destruct (divide_spec n (complete 0 recs) Hn) as [E1 [E2 _]].
    unfold chunked_outcome, chunks_of.
    set (g := fun r : argrec A => (key_of r, as_value exn_val (func (r_args r)))).
    assert (G : forall cs out, (forall c, In c (map snd cs) -> none_raises func c) ->
      fold_left (fun out (ic : nat * list (argrec A)) =>
         match first_failure func (snd ic) with
         | None => dupdate out (map g (snd ic))
         | Some e => dset out (chunk_key (fst ic)) (exn_val e)
         end) cs out = dupdate out (List.concat (map (fun ic => map g (snd ic)) cs))).
    { clear. induction cs as [|[i c] r IH]; intros out Hc; [reflexivity|].
      cbn [fold_left map List.concat snd fst]. rewrite no_failure by (apply Hc; now left).
      rewrite IH by (intros c' Hc'; apply Hc; now right). now rewrite dupdate_app. }
    rewrite G.
    - rewrite <- (map_map snd (map g)), combine_snd by (rewrite seq_length; congruence).
      rewrite <- concat_map, E1. reflexivity.
    - rewrite combine_snd by (rewrite seq_length; congruence).
      intros c Hc r Hr. apply H'. rewrite <- E1. apply in_concat. eauto.
  Qed.

  (** Whatever the mode and the schedule: no result at all, or this one. *)
  Lemma map_any func recs threads fe chunks sched : threads <> Some 0 -> none_raises func recs ->
    (map_into_pool as_exn exn_val func (Again recs) threads fe chunks sched = None \/
     map_into_pool as_exn exn_val func (Again recs) threads fe chunks sched =
     Some (Ok (filter_out as_exn fe (outcome_of func recs)))) /\
    (threads = None \/ covers (submitted func (Again recs) threads chunks) sched ->
     map_into_pool as_exn exn_val func (Again recs) threads fe chunks sched =
     Some (Ok (filter_out as_exn fe (outcome_of func recs)))).
  Proof.
    intros Ht H. pose proof (none_raises_interrupts _ _ H) as Hi.
    destruct threads as [[|n]|]; [congruence| |].
    - destruct chunks.
      + split.
        * destruct (map_chunked func recs n fe sched Hi) as [E|E]; [now left|right].
          rewrite E, chunked_no_failure; [reflexivity|lia|exact H].
        * intros [E|Hc]; [discriminate|]. rewrite (map_chunked_ends _ _ _ _ _ Hi Hc), chunked_no_failure; [reflexivity|lia|exact H].
      + split; [apply map_pooled, Hi|]. intros [E|Hc]; [discriminate|]. apply map_pooled_ends; assumption.
    - split; [right|intros _]; apply map_alone, Hi.
  Qed.

  Lemma outcome_dget func recs k :
    dget (outcome_of func recs) k = option_map (fun a => as_value exn_val (func a)) (last_for 0 recs k).
  Proof. unfold outcome_of. apply (dget_last_for (fun a => as_value exn_val (func a))). Qed.
  Lemma outcome_keys func recs : dkeys (outcome_of func recs) = first_keys [] (all_keys 0 recs).
  Proof.
    unfold outcome_of, dict_of. rewrite dkeys_dupdate. cbn [dkeys map app]. rewrite map_map. cbn [fst].
    now rewrite complete_keys.
  Qed.

  (** *** C16 *)

  Lemma filter_out_dget fe (d : dict V) k : wfd d = true ->
    dget (filter_out as_exn fe d) k =
    match dget d k with
    | Some v => if fe && match as_exn v with Some _ => true | None => false end then None else Some v
    | None => None
    end.
  Proof.
    intro W. destruct fe; cbn [filter_out andb]; [|destruct (dget d k); reflexivity].
    rewrite dict_of_wfd by (apply wfd_filter, W).
    induction d as [|[a v] r IH]; [reflexivity|]. apply wfd_cons in W. destruct W as [Hn W].
    cbn [filter snd dget]. destruct (keqb a k) eqn:E.
    - destruct (as_exn v) eqn:Ev; cbn [dget]; [|now rewrite E].
      rewrite IH by exact W. rewrite <- (dget_keqb _ _ _ E), Hn. reflexivity.
    - destruct (as_exn v) eqn:Ev; cbn [dget]; rewrite ?E; apply IH, W.
  Qed.

  Lemma map_unchunked func recs threads fe chunks sched d :
    (chunks = false \/ threads = None) -> threads <> Some 0 -> none_interrupts func recs ->
    map_into_pool as_exn exn_val func (Again recs) threads fe chunks sched = Some d ->
    d = Ok (filter_out as_exn fe (outcome_of func recs)).
  Proof.
    intros Hc Ht H. destruct threads as [[|n]|]; [congruence| |].
    - destruct Hc as [-> |Hc]; [|discriminate].
      destruct (map_pooled func recs n fe sched H) as [-> | ->]; congruence.
    - rewrite map_alone by exact H. congruence.
  Qed.
  Lemma map_unchunked_ends func recs threads fe chunks sched :
    (chunks = false \/ threads = None) -> threads <> Some 0 -> none_interrupts func recs ->
    threads = None \/ covers (submitted func (Again recs) threads chunks) sched ->
    exists d, map_into_pool as_exn exn_val func (Again recs) threads fe chunks sched = Some d.
  Proof.
    intros Hc Ht H Hs. destruct threads as [[|n]|]; [congruence| |].
    - destruct Hc as [-> |Hc]; [|discriminate]. destruct Hs as [Hs|Hs]; [discriminate|].
      eexists. apply map_pooled_ends; assumption.
    - eexists. apply map_alone, H.
  Qed.

  Lemma unchunked_dget func recs fe k : none_interrupts func recs ->
    dget (filter_out as_exn fe (outcome_of func recs)) k =
    match last_for 0 recs k with
    | Some a =>
        match func a with
        | Ok v => if fe && match as_exn v with Some _ => true | None => false end then None else Some v
        | Exc e => if fe then None else Some (exn_val e)
        end
    | None => None
    end.
  Proof.
    intro H. rewrite filter_out_dget by apply wfd_dict_of. rewrite outcome_dget.
    assert (L : forall i a, last_for i recs k = Some a -> exists r, In r recs /\ r_args r = a).
    { clear. induction recs as [|r rest IH]; intros i a E; [discriminate|]. cbn in E.
      destruct (last_for (i + 1) rest k) eqn:El.
      - injection E as <-. destruct (IH _ _ El) as [r' [Hr' Ha]]. exists r'. split; [now right|exact Ha].
      - destruct (keqb _ k); [|discriminate]. injection E as <-. exists r. split; [now left|reflexivity]. }
    destruct (last_for 0 recs k) as [a|] eqn:E; cbn [option_map]; [|reflexivity].
    destruct (L _ _ E) as [r [Hr <-]]. specialize (H r Hr).
    destruct (func (r_args r)) as [v|e]; cbn [as_value ordinary] in *; [reflexivity|].
    rewrite (ev_forth _ _ HV e H). now destruct fe.
  Qed.

  Lemma alone_interrupted func recs fe chunks sched e :
    first_interrupt func recs = Some e ->
    map_into_pool as_exn exn_val func (Again recs) None fe chunks sched = Some (Exc e).
  Proof.
    intro H. unfold map_into_pool. cbn [maybe_pool]. unfold pool_map.
    assert (E : submitted func (Again recs) None chunks = CallsByKey (calls_of func (complete 0 recs)))
      by (destruct chunks; reflexivity).
    rewrite E.
    assert (G : forall i, first_interrupt func (complete i recs) = Some e).
    { clear - H. induction recs as [|r rest IH]; intro i; [exact H|]. cbn in *.
      destruct (func (r_args r)) as [v|e']; [apply IH, H|]. destruct (is_Exception e'); [apply IH, H|exact H]. }
    specialize (G 0%Z). revert G. generalize (complete 0 recs) as l. clear.
    intros l G.
    assert (M : mapM (fun kc : key * res V => r <- apply_ None (snd kc);; Ok (fst kc, r)) (calls_of func l) = Exc e).
    { unfold calls_of. induction l as [|r rest IH]; [discriminate|]. cbn [map mapM fst snd first_interrupt] in *.
      unfold apply_ at 1, maybe_result at 1.
      destruct (func (r_args r)) as [v|e']; cbn [bind]; [now rewrite (IH G)|].
      destruct (is_Exception e'); cbn [bind]; [now rewrite (IH G)|]. injection G as ->. reflexivity. }
    rewrite M. reflexivity.
  Qed.
  Lemma pooled_interrupted func recs n fe sched :
    first_interrupt func recs <> None ->
    map_into_pool as_exn exn_val func (Again recs) (Some (S n)) fe false sched = None.
  Proof.
    intro H. unfold map_into_pool. cbn [maybe_pool]. rewrite pool_map_pooled. cbv zeta.
    change (submitted func (Again recs) (Some (S n)) false) with (CallsByKey (calls_of func (complete 0 recs))).
    replace (all_deliver _) with false; [now rewrite andb_false_r|]. symmetry. cbn [all_deliver].
    assert (G : forall i, first_interrupt func (complete i recs) <> None).
    { clear - H. induction recs as [|r rest IH]; intro i; [exact H|]. cbn in *.
      destruct (func (r_args r)) as [v|e']; [apply IH, H|]. destruct (is_Exception e'); [apply IH, H|exact H]. }
    specialize (G 0%Z). revert G. generalize (complete 0 recs) as l. clear.
    induction l as [|r rest IH]; intro G; [exfalso; apply G; reflexivity|]. cbn in *.
    destruct (func (r_args r)) as [v|e']; cbn; [apply IH, G|]. destruct (is_Exception e'); cbn; [apply IH, G|reflexivity].
  Qed.

  (** What chunking keeps. *)
  Lemma chunked_skip func cs out k :
    (forall i c, In (i, c) cs -> keqb (chunk_key i) k = false /\ forall r, In r c -> keqb (key_of r) k = false) ->
    dget (fold_left
      (fun out (ic : nat * list (argrec A)) =>
         match first_failure func (snd ic) with
         | None => dupdate out (map (fun r => (key_of r, as_value exn_val (func (r_args r)))) (snd ic))
         | Some e => dset out (chunk_key (fst ic)) (exn_val e)
         end) cs out) k = dget out k.
  Proof.
    revert out. induction cs as [|[i c] r IH]; intros out H; [reflexivity|]. cbn [fold_left fst snd].
    rewrite IH by (intros j c' Hj; apply H; now right). destruct (H i c) as [H1 H2]; [now left|].
    destruct (first_failure func c).
    - apply dget_dset_ne, H1.
    - rewrite dget_dupdate. destruct (dget (rev _) k) as [v|] eqn:E; [|reflexivity].
      apply dget_In in E. destruct E as [k' [Hi Hk]]. apply in_rev in Hi. apply in_map_iff in Hi.
      destruct Hi as [r0 [E Hr]]. injection E as <- _. rewrite (H2 r0 Hr) in Hk. discriminate.
  Qed.

  Lemma concat_two {X} (cs : list (list X)) i j c c' x y a b :
    nth_error cs i = Some c -> nth_error cs j = Some c' -> i <> j -> nth_error c a = Some x -> nth_error c' b = Some y ->
    exists m n, m <> n /\ nth_error (List.concat cs) m = Some x /\ nth_error (List.concat cs) n = Some y.
  Proof.
    revert i j. induction cs as [|d r IH]; intros i j Hi Hj Hne Hx Hy; [destruct i; discriminate|].
    assert (L : forall k e z p, nth_error r k = Some e -> nth_error e p = Some z ->
                exists q, nth_error (List.concat r) q = Some z).
    { clear. induction r as [|u r IH]; intros k e z p Hk Hp; [destruct k; discriminate|].
      destruct k as [|k]; cbn in Hk.
      - injection Hk as ->. exists p. cbn. rewrite nth_error_app1; [exact Hp|]. apply nth_error_Some. congruence.
      - destruct (IH _ _ _ _ Hk Hp) as [q Hq]. exists (List.length u + q). cbn. rewrite nth_error_app2 by lia.
        now replace (List.length u + q - List.length u) with q by lia. }
    assert (S1 : forall p z, nth_error d p = Some z -> nth_error (List.concat (d :: r)) p = Some z /\ p < List.length d).
    { intros p z Hp. assert (p < List.length d) by (apply nth_error_Some; congruence).
      split; [|assumption]. cbn. now rewrite nth_error_app1. }
    assert (S2 : forall q z, nth_error (List.concat r) q = Some z -> nth_error (List.concat (d :: r)) (List.length d + q) = Some z).
    { intros q z Hq. cbn. rewrite nth_error_app2 by lia. now replace (List.length d + q - List.length d) with q by lia. }
    destruct i as [|i], j as [|j]; cbn in Hi, Hj; [congruence| | |].
    - injection Hi as ->. destruct (S1 _ _ Hx) as [G1 G2]. destruct (L _ _ _ _ Hj Hy) as [q Hq].
      exists a, (List.length c + q). split; [lia|]. split; [exact G1|apply S2, Hq].
    - injection Hj as ->. destruct (S1 _ _ Hy) as [G1 G2]. destruct (L _ _ _ _ Hi Hx) as [q Hq].
      exists (List.length c' + q), b. split; [lia|]. split; [apply S2, Hq|exact G1].
    - destruct (IH i j Hi Hj) as [m [n [G1 [G2 G3]]]]; auto.
      exists (List.length d + m), (List.length d + n). split; [lia|]. split; apply S2; assumption.
  Qed.

  Lemma chunked_kept func recs n i c r : 0 < n -> good_keys recs ->
    nth_error (divide n (complete 0 recs)) i = Some c -> In r c ->
    dget (chunked_outcome exn_val func (chunks_of n recs)) (key_of r) =
    match first_failure func c with
    | None => Some (as_value exn_val (func (r_args r)))
    | Some _ => None
    end.
  Proof.
    intros Hn [K1 K2] Hc Hr.
    destruct (divide_spec n (complete 0 recs) Hn) as [E1 [E2 _]].
    assert (Hrin : In r (complete 0 recs)) by (rewrite <- E1; apply in_concat; exists c; split; [eapply nth_error_In, Hc|exact Hr]).
    apply In_nth_error in Hr. destruct Hr as [p Hp].
    assert (O : forall j c', In (j, c') (chunks_of n recs) -> nth_error (divide n (complete 0 recs)) j = Some c').
    { unfold chunks_of. intros j c' Hin. apply In_nth_error in Hin. destruct Hin as [q Hq].
      assert (G : forall (cs : list (list (argrec A))) s m q, nth_error (combine (seq s m) cs) q = Some (j, c') ->
        j = s + q /\ nth_error cs q = Some c').
      { clear. induction cs as [|u r IH]; intros s m q Hq; [destruct m, q; discriminate|].
        destruct m as [|m]; [destruct q; discriminate|]. destruct q as [|q]; cbn in Hq.
        - injection Hq as <- <-. split; [lia|reflexivity].
        - destruct (IH _ _ _ Hq) as [-> H]. split; [lia|exact H]. }
      destruct (G _ _ _ _ Hq) as [-> H]. exact H. }
    assert (Hi : i < n) by (rewrite <- E2; apply nth_error_Some; congruence).
    assert (S : exists before after, chunks_of n recs = before ++ (i, c) :: after /\
       (forall j c', In (j, c') (before ++ after) -> j <> i)).
    { unfold chunks_of.
      assert (G : forall (cs : list (list (argrec A))) s m i, List.length cs = m -> nth_error cs i = Some c ->
        exists before after, combine (seq s m) cs = before ++ (s + i, c) :: after /\
         (forall j c', In (j, c') (before ++ after) -> j <> s + i)).
      { clear. induction cs as [|u r IH]; intros s m i Hl Hi; [destruct i; discriminate|].
        destruct m as [|m]; [discriminate|]. cbn in Hl. injection Hl as Hl. destruct i as [|i]; cbn in Hi.
        - injection Hi as ->. exists [], (combine (seq (S s) m) r). split; [cbn; f_equal; f_equal; lia|].
          intros j c' Hin. cbn in Hin. apply in_combine_l in Hin. apply in_seq in Hin. lia.
        - destruct (IH (S s) m i Hl Hi) as [b [a [E H]]]. exists ((s, u) :: b), a. split.
          + cbn [seq combine app]. rewrite E. replace (s + S i) with (S s + i) by lia. reflexivity.
          + intros j c' [Hin|Hin]; [injection Hin as <- _; lia|]. apply H in Hin. lia. }
      destruct (G _ 0 n i E2 Hc) as [b [a [E H]]]. exists b, a. split; [exact E|exact H]. }
    destruct S as [before [after [ES HS]]].
    assert (Oth : forall j c', In (j, c') (before ++ after) ->
      keqb (chunk_key j) (key_of r) = false /\ forall r', In r' c' -> keqb (key_of r') (key_of r) = false).
    { intros j c' Hin. split; [apply K2, Hrin|]. intros r' Hr'.
      destruct (keqb (key_of r') (key_of r)) eqn:E; [|reflexivity]. exfalso.
      apply In_nth_error in Hr'. destruct Hr' as [q Hq].
      assert (Hj : nth_error (divide n (complete 0 recs)) j = Some c').
      { apply O. rewrite ES. apply in_app_iff in Hin. apply in_app_iff. destruct Hin as [Hin|Hin]; [now left|right; now right]. }
      destruct (concat_two _ _ _ _ _ _ _ _ _ Hj Hc (HS _ _ Hin) Hq Hp) as [m1 [m2 [G1 [G2 G3]]]].
      rewrite E1 in G2, G3. apply G1. eapply K1; eassumption. }
    unfold chunked_outcome. rewrite ES, fold_left_app. cbn [fold_left fst snd].
    rewrite chunked_skip by (intros j c' Hin; apply Oth, in_app_iff; now right).
    destruct (first_failure func c) as [e|].
    - rewrite dget_dset_ne by apply K2, Hrin.
      rewrite chunked_skip by (intros j c' Hin; apply Oth, in_app_iff; now left). reflexivity.
    - rewrite dget_dupdate.
      assert (WF : wfd (map (fun r => (key_of r, as_value exn_val (func (r_args r)))) c) = true).
      { assert (W : forall l, (forall a b x y, nth_error l a = Some x -> nth_error l b = Some y ->
             keqb (key_of x) (key_of y) = true -> a = b) ->
             wfd (map (fun r => (key_of r, as_value exn_val (func (r_args r)))) l) = true).
        { clear. induction l as [|x r IH]; intro H; [reflexivity|]. cbn [map]. apply wfd_cons. split.
          - apply dget_none_iff. intros k v Hin. apply in_map_iff in Hin. destruct Hin as [y [E Hy]]. injection E as <- _.
            destruct (keqb (key_of y) (key_of x)) eqn:Ek; [|reflexivity].
            apply In_nth_error in Hy. destruct Hy as [q Hq]. specialize (H (S q) 0 y x Hq eq_refl Ek). discriminate.
          - apply IH. intros a b u v Ha Hb Huv. specialize (H (S a) (S b) u v Ha Hb Huv). congruence. }
        apply W. intros a b x y Ha Hb Hxy.
        assert (Cn : exists off, forall a x, nth_error c a = Some x -> nth_error (complete 0 recs) (off + a) = Some x).
        { rewrite <- E1. clear - Hc. revert i Hc. induction (divide n (complete 0 recs)) as [|u r IH]; intros i Hc; [destruct i; discriminate|].
          destruct i as [|i]; cbn in Hc.
          - injection Hc as ->. exists 0. intros a x Ha. cbn. rewrite nth_error_app1; [exact Ha|]. apply nth_error_Some. congruence.
          - destruct (IH _ Hc) as [off H]. exists (List.length u + off). intros a x Ha. cbn. rewrite nth_error_app2 by lia.
            replace (List.length u + off + a - List.length u) with (off + a) by lia. apply H, Ha. }
        destruct Cn as [off Cn]. pose proof (K1 _ _ _ _ (Cn _ _ Ha) (Cn _ _ Hb) Hxy). lia. }
      assert (G : dget (rev (map (fun r => (key_of r, as_value exn_val (func (r_args r)))) c)) (key_of r) =
                  Some (as_value exn_val (func (r_args r)))).
      { rewrite <- dget_dict_of, dict_of_wfd by exact WF.
        apply wfd_In_dget; [exact WF|]. apply in_map_iff. exists r. split; [reflexivity|eapply nth_error_In, Hp]. }
      now rewrite G.
  Qed.

  (** Every chunk with a failing call leaves its exception. *)
  Lemma chunked_exception func recs n i c e : 0 < n -> good_keys recs ->
    nth_error (divide n (complete 0 recs)) i = Some c -> first_failure func c = Some e ->
    dget (chunked_outcome exn_val func (chunks_of n recs)) (chunk_key i) = Some (exn_val e).
  Proof.
    intros Hn [K1 K2] Hc He. destruct (divide_spec n (complete 0 recs) Hn) as [E1 [E2 _]].
    assert (S : exists before after, chunks_of n recs = before ++ (i, c) :: after /\
       (forall j c', In (j, c') after -> j <> i /\ In c' (divide n (complete 0 recs)))).
    { unfold chunks_of.
      assert (G : forall (cs : list (list (argrec A))) s m i, List.length cs = m -> nth_error cs i = Some c ->
        exists before after, combine (seq s m) cs = before ++ (s + i, c) :: after /\
         (forall j c', In (j, c') after -> j <> s + i /\ In c' cs)).
      { clear. induction cs as [|u r IH]; intros s m i Hl Hi; [destruct i; discriminate|].
        destruct m as [|m]; [discriminate|]. cbn in Hl. injection Hl as Hl. destruct i as [|i]; cbn in Hi.
        - injection Hi as ->. exists [], (combine (seq (S s) m) r). split; [cbn; f_equal; f_equal; lia|].
          intros j c' Hin. split; [apply in_combine_l in Hin; apply in_seq in Hin; lia|].
          right. apply in_combine_r in Hin. exact Hin.
        - destruct (IH (S s) m i Hl Hi) as [b [a [E H]]]. exists ((s, u) :: b), a. split.
          + cbn [seq combine app]. rewrite E. replace (s + S i) with (S s + i) by lia. reflexivity.
          + intros j c' Hin. destruct (H _ _ Hin). split; [lia|now right]. }
      destruct (G _ 0 n i E2 Hc) as [b [a [E H]]]. exists b, a. split; [exact E|exact H]. }
    destruct S as [before [after [ES HS]]].
    unfold chunked_outcome. rewrite ES, fold_left_app. cbn [fold_left fst snd]. rewrite He, chunked_skip.
    - apply dget_dset_eq.
    - intros j c' Hin. destruct (HS _ _ Hin) as [H1 H2]. split.
      + destruct (keqb (chunk_key j) (chunk_key i)) eqn:E; [|reflexivity]. apply chunk_key_eq in E. congruence.
      + intros r Hr. rewrite keqb_sym. apply K2. rewrite <- E1. apply in_concat. eauto.
  Qed.
End Main.

(** ** Counters *)

Section Counters.
  Context {V : Type}.
  Implicit Types (rs : @results V) (cs : @calls V).

  Lemma count_split {X} (p : X -> bool) l :
    List.length (filter p l) + List.length (filter (fun x => negb (p x)) l) = List.length l.
  Proof. induction l as [|x r IH]; [reflexivity|]. cbn. destruct (p x); cbn; lia. Qed.

  Lemma running_counts rs :
    n_running rs = Z.of_nat (List.length (filter (fun kb => negb (snd kb)) (flags rs))).
  Proof. unfold n_running, n_results, n_ready. pose proof (count_split snd (flags rs)). lia. Qed.

  Lemma ready_none_running rs : pool_ready rs = true <-> n_running rs = 0%Z.
  Proof.
    rewrite running_counts. unfold pool_ready. induction (flags rs) as [|[k b] r IH]; [cbn; split; reflexivity|].
    cbn [forallb filter snd]. destruct b; cbn [negb andb List.length]; [exact IH|]. split; [discriminate|lia].
  Qed.

  (** self.results never holds two equal keys. *)
  Definition res_wf rs : Prop := match rs with ByKey d => wfd d = true | ByChunk d => wfd d = true end.
  Lemma flags_wf rs : res_wf rs -> wfd (flags rs) = true.
  Proof. destruct rs as [d|d]; cbn [res_wf flags]; intro H; rewrite (wfd_map_vals (fun kr => ready_result (snd kr))); exact H. Qed.

  Lemma results_ready_all rs : res_wf rs ->
    (pool_ready rs = true <-> forall k b, dget (results_ready rs) k = Some b -> b = true).
  Proof.
    intro W. unfold results_ready. rewrite dict_of_wfd by apply flags_wf, W. unfold pool_ready.
    rewrite forallb_forall. split.
    - intros H k b Hg. apply dget_In in Hg. destruct Hg as [k' [Hi _]]. exact (H _ Hi).
    - intros H [k b] Hin. apply (H k). apply wfd_In_dget; [apply flags_wf, W|exact Hin].
  Qed.

  Lemma submit_wf {R} (l : list (key * res R)) : wfd (submit l) = true.
  Proof. apply wfd_dict_of. Qed.
  Lemma pool_map_wf {A} (func : A -> res V) recs p chunks rs : pool_map func recs p chunks = Ok rs -> res_wf rs.
  Proof.
    unfold pool_map. destruct (submitted func recs p chunks); destruct (mapM _ l); cbn [bind]; try discriminate;
      intro H; injection H as <-; apply wfd_dict_of.
  Qed.
  Lemma finish_wf cs rs k : res_wf rs -> res_wf (finish cs rs k).
  Proof.
    intro H. assert (G : forall R (d : dict (result R)) l, wfd d = true -> wfd (deliver d k l) = true).
    { intros R d l W. unfold deliver. destruct (dget d k) as [[v|[o|]]|]; try exact W.
      destruct (dget (dict_of l) k); [apply wfd_dset|]; exact W. }
    destruct rs, cs; cbn in *; auto.
  Qed.
  Lemma work_wf cs sched rs : res_wf rs -> res_wf (work cs sched rs).
  Proof. revert rs. induction sched as [|k r IH]; intros rs H; [exact H|]. apply IH, finish_wf, H. Qed.

  (** Flags only go up. *)
  Definition up (a b : key * bool) : Prop := fst a = fst b /\ (snd a = true -> snd b = true).
  Lemma up_refl l : Forall2 up l l.
  Proof. induction l; constructor; [split; auto|assumption]. Qed.
  Lemma up_trans l1 l2 l3 : Forall2 up l1 l2 -> Forall2 up l2 l3 -> Forall2 up l1 l3.
  Proof.
    intro H. revert l3. induction H as [|a b l1 l2 [H1 H2] HF IH]; intros l3 H3; inversion_clear H3; constructor.
    - destruct H as [H3 H4]. split; [congruence|auto].
    - auto.
  Qed.
  Lemma deliver_up {R} (d : dict (result R)) k l :
    Forall2 up (map (fun kr => (fst kr, ready_result (snd kr))) d)
               (map (fun kr => (fst kr, ready_result (snd kr))) (deliver d k l)).
  Proof.
    unfold deliver. destruct (dget d k) as [[v|[o|]]|] eqn:E; try apply up_refl.
    destruct (dget (dict_of l) k) as [c|]; [|apply up_refl].
    induction d as [|[a r] d IH]; [discriminate|]. cbn [dget] in E. cbn [dset].
    destruct (keqb a k).
    - injection E as ->. cbn [map fst snd]. constructor; [split; [reflexivity|discriminate]|apply up_refl].
    - cbn [map fst snd]. constructor; [split; auto|]. apply IH, E.
  Qed.
  Lemma finish_up cs rs k : Forall2 up (flags rs) (flags (finish cs rs k)).
  Proof. destruct rs, cs; cbn [flags finish]; try apply up_refl; apply deliver_up. Qed.
  Lemma work_up cs sched rs : Forall2 up (flags rs) (flags (work cs sched rs)).
  Proof.
    revert rs. induction sched as [|k r IH]; intro rs; [apply up_refl|].
    eapply up_trans; [apply finish_up|apply IH].
  Qed.
  Lemma up_counts l1 l2 : Forall2 up l1 l2 ->
    List.length l1 = List.length l2 /\ List.length (filter snd l1) <= List.length (filter snd l2).
  Proof.
    induction 1 as [|[a x] [b y] l1 l2 [H1 H2] HF [IH1 IH2]]; [cbn; lia|]. cbn in *.
    destruct x, y; cbn; try lia.
  Qed.
  Lemma work_counts cs sched rs :
    n_results (work cs sched rs) = n_results rs /\ (n_ready rs <= n_ready (work cs sched rs))%Z /\
    (n_running (work cs sched rs) <= n_running rs)%Z.
  Proof.
    destruct (up_counts _ _ (work_up cs sched rs)). unfold n_running, n_results, n_ready. lia.
  Qed.

  Lemma up_nth l1 l2 i : Forall2 up l1 l2 -> nth i (map snd l1) false = true -> nth i (map snd l2) false = true.
  Proof.
    intro H. revert i. induction H as [|[a x] [b y] l1 l2 [H1 H2] HF IH]; intros i G; [exact G|].
    destruct i; cbn in *; auto.
  Qed.
  (** Every flag read is between those at the start and at the end. *)
  Lemma slow_between cs gaps rs i :
    Forall2 (fun a b => a = true -> b = true)
      (map (fun j => nth j (map snd (flags rs)) false) (seq i (List.length gaps))) (slow_flags cs gaps rs i) /\
    Forall2 (fun a b => a = true -> b = true)
      (slow_flags cs gaps rs i)
      (map (fun j => nth j (map snd (flags (work cs (List.concat gaps) rs))) false) (seq i (List.length gaps))).
  Proof.
    revert rs i. induction gaps as [|g r IH]; intros rs i; [split; constructor|].
    cbn [slow_flags List.length seq map List.concat]. destruct (IH (work cs g rs) (S i)) as [I1 I2].
    assert (E : work cs (g ++ List.concat r) rs = work cs (List.concat r) (work cs g rs))
      by (unfold work; apply fold_left_app).
    split; constructor.
    - apply up_nth, work_up.
    - assert (M : Forall2 (fun a b => a = true -> b = true)
         (map (fun j => nth j (map snd (flags rs)) false) (seq (S i) (List.length r)))
         (map (fun j => nth j (map snd (flags (work cs g rs))) false) (seq (S i) (List.length r)))).
      { generalize (S i). generalize (List.length r). clear. induction n as [|n IHn]; intro s; [constructor|].
        cbn [seq map]. constructor; [apply up_nth, work_up|apply IHn]. }
      clear - M I1. revert M I1. generalize (slow_flags cs r (work cs g rs) (S i)).
      generalize (map (fun j => nth j (map snd (flags rs)) false) (seq (S i) (List.length r))).
      generalize (map (fun j => nth j (map snd (flags (work cs g rs))) false) (seq (S i) (List.length r))).
      intros l1 l0 l2 M. revert l2. induction M as [|a b l0 l1 H M IH]; intros l2 G; inversion_clear G; constructor; auto.
    - rewrite E. apply up_nth, work_up.
    - rewrite E. exact I2.
  Qed.
  Lemma slow_ready cs gaps rs : List.length gaps = List.length (flags rs) ->
    (pool_ready rs = true -> forallb (fun b => b) (slow_flags cs gaps rs 0) = true) /\
    (forallb (fun b => b) (slow_flags cs gaps rs 0) = true -> pool_ready (work cs (List.concat gaps) rs) = true).
  Proof.
    intro L. destruct (slow_between cs gaps rs 0) as [H1 H2].
    assert (Nth : forall l : list (key * bool), map (fun j => nth j (map snd l) false) (seq 0 (List.length l)) = map snd l).
    { clear. intro l. rewrite <- (map_length snd). generalize (map snd l). clear. intro l.
      induction l as [|b r IH]; [reflexivity|]. cbn [List.length seq map nth]. f_equal.
      rewrite <- seq_shift, map_map. exact IH. }
    assert (Fb : forall l : list (key * bool), forallb snd l = forallb (fun b => b) (map snd l)).
    { clear. induction l as [|x r IH]; [reflexivity|]. cbn. now rewrite IH. }
    assert (Im : forall l1 l2, Forall2 (fun a b => a = true -> b = true) l1 l2 ->
      forallb (fun b => b) l1 = true -> forallb (fun b => b) l2 = true).
    { clear. induction 1 as [|a b l1 l2 H HF IH]; [auto|]. cbn. rewrite !andb_true_iff. intros [? ?]; auto. }
    destruct (up_counts _ _ (work_up cs (List.concat gaps) rs)) as [L2 _].
    unfold pool_ready. rewrite !Fb, <- (Nth (flags rs)), <- (Nth (flags (work cs (List.concat gaps) rs))).
    rewrite <- L2, <- L. split; apply Im; assumption.
  Qed.
End Counters.

(** ** The statements *)

Section Statements.
  Context {A V : Type} (as_exn : V -> option exn) (exn_val : exn -> V) (HV : exn_values as_exn exn_val).
  Implicit Types (func : A -> res V) (recs : list (argrec A)).

  Lemma pooled_results func recs threads chunks sched r : threads <> Some 0 -> none_raises func recs ->
    map_into_pool as_exn exn_val func (Again recs) threads false chunks sched = Some r ->
    exists d, r = Ok d /\ wfd d = true /\ dkeys d = first_keys [] (all_keys 0 recs) /\
      forall k, match last_for 0 recs k with
                | Some a => exists v, func a = Ok v /\ dget d k = Some v
                | None => dget d k = None
                end.
  Proof.
    intros Ht H E. destruct (map_any as_exn exn_val HV func recs threads false chunks sched Ht H) as [[G|G] _]; [congruence|].
    rewrite G in E. injection E as <-. eexists. split; [reflexivity|]. cbn [filter_out].
    split; [apply wfd_dict_of|]. split; [apply outcome_keys|].
    intro k. rewrite outcome_dget.
    assert (L : forall i a, last_for i recs k = Some a -> exists r, In r recs /\ r_args r = a).
    { clear. induction recs as [|r rest IH]; intros i a E; [discriminate|]. cbn in E.
      destruct (last_for (i + 1) rest k) eqn:El.
      - injection E as <-. destruct (IH _ _ El) as [r' [Hr' Ha]]. exists r'. split; [now right|exact Ha].
      - destruct (keqb _ k); [|discriminate]. injection E as <-. exists r. split; [now left|reflexivity]. }
    destruct (last_for 0 recs k) as [a|] eqn:El; cbn [option_map]; [|reflexivity].
    destruct (L _ _ El) as [r0 [Hr <-]]. destruct (H r0 Hr) as [v Hv]. exists v. rewrite Hv. split; reflexivity.
  Qed.

  Lemma pooled_ends func recs threads fe chunks sched : threads <> Some 0 -> none_raises func recs ->
    threads = None \/ covers (submitted func (Again recs) threads chunks) sched ->
    exists d, map_into_pool as_exn exn_val func (Again recs) threads fe chunks sched = Some (Ok d).
  Proof.
    intros Ht H Hs. eexists. apply (map_any as_exn exn_val HV func recs threads fe chunks sched Ht H), Hs.
  Qed.

  Lemma pooled_same func recs fe t1 c1 s1 r1 t2 c2 s2 r2 : t1 <> Some 0 -> t2 <> Some 0 -> none_raises func recs ->
    map_into_pool as_exn exn_val func (Again recs) t1 fe c1 s1 = Some r1 ->
    map_into_pool as_exn exn_val func (Again recs) t2 fe c2 s2 = Some r2 -> r1 = r2.
  Proof.
    intros H1 H2 H E1 E2.
    destruct (map_any as_exn exn_val HV func recs t1 fe c1 s1 H1 H) as [[G|G] _]; [congruence|].
    destruct (map_any as_exn exn_val HV func recs t2 fe c2 s2 H2 H) as [[G2|G2] _]; congruence.
  Qed.

  (** Records given as an iterator are used up before any call is made. *)
  Lemma pooled_iterator func recs threads fe chunks sched r : threads <> Some 0 ->
    map_into_pool as_exn exn_val func (Once recs) threads fe chunks sched = Some r -> r = Ok [].
  Proof.
    intros Ht. change (map_into_pool as_exn exn_val func (Once recs) threads fe chunks sched)
      with (map_into_pool as_exn exn_val func (Again []) threads fe chunks sched).
    destruct (map_any as_exn exn_val HV func [] threads fe chunks sched Ht) as [[G|G] _]; [intros ? []| |];
      rewrite G; [discriminate|]. intro E. injection E as <-. destruct fe; reflexivity.
  Qed.

  (** Records are completed in place: used again, they keep their keys. *)
  Lemma reused_keys recs recs' i j : incl recs' (complete i recs) -> all_keys j recs' = map key_of recs'.
  Proof.
    revert j. induction recs' as [|r rest IH]; intros j H; [reflexivity|]. cbn.
    assert (Hr : In r (complete i recs)) by (apply H; now left).
    rewrite IH by (intros x Hx; apply H; now right). f_equal. unfold position_key, key_of.
    assert (G : exists k, r_key r = Some k).
    { clear - Hr. revert i Hr. induction recs as [|r0 rest IH]; intros i Hr; [destruct Hr|].
      destruct Hr as [<-|Hr]; [cbn; eauto|]. eapply IH, Hr. }
    destruct G as [k ->]. reflexivity.
  Qed.

  Lemma unchunked_failures func recs threads fe chunks sched r :
    (chunks = false \/ threads = None) -> threads <> Some 0 -> none_interrupts func recs ->
    map_into_pool as_exn exn_val func (Again recs) threads fe chunks sched = Some r ->
    exists d, r = Ok d /\ wfd d = true /\
      forall k, dget d k =
        match last_for 0 recs k with
        | Some a =>
            match func a with
            | Ok v => if fe && match as_exn v with Some _ => true | None => false end then None else Some v
            | Exc e => if fe then None else Some (exn_val e)
            end
        | None => None
        end.
  Proof.
    intros Hc Ht H E. apply (map_unchunked as_exn exn_val HV) in E; try assumption. subst r.
    eexists. split; [reflexivity|]. split.
    - unfold filter_out. destruct fe; apply wfd_dict_of.
    - intro k. apply (unchunked_dget as_exn exn_val HV); assumption.
  Qed.

  Lemma chunked_failures func recs n fe sched r : none_interrupts func recs ->
    map_into_pool as_exn exn_val func (Again recs) (Some (S n)) fe true sched = Some r ->
    r = Ok (filter_out as_exn fe (chunked_outcome exn_val func (chunks_of (S n) recs))).
  Proof.
    intros H E. destruct (map_chunked as_exn exn_val func recs n fe sched H) as [G|G]; congruence.
  Qed.
  (** A chunk ended by something that is not an Exception never delivers. *)
  Lemma chunked_interrupted func recs n fe sched i c e :
    In (i, c) (chunks_of (S n) recs) -> first_failure func c = Some e -> is_Exception e = false ->
    map_into_pool as_exn exn_val func (Again recs) (Some (S n)) fe true sched = None.
  Proof.
    intros Hin Hf He. unfold map_into_pool. cbn [maybe_pool]. rewrite pool_map_chunked. cbv zeta.
    replace (all_deliver _) with false; [now rewrite andb_false_r|]. symmetry.
    change (submitted func (Again recs) (Some (S n)) true) with (CallsByChunk (chunk_calls func (S n) (complete 0 recs))).
    cbn [all_deliver]. apply not_true_iff_false. rewrite forallb_forall. intro G.
    specialize (G (chunk_key i, chunkwrap func c)). cbn [snd] in G.
    rewrite (chunkwrap_failure exn_val), Hf in G. cbn [delivers] in G. rewrite He in G.
    assert (false = true); [|discriminate]. apply G.
    apply in_map_iff. exists (i, c). cbn [fst snd]. rewrite (chunkwrap_failure exn_val), Hf. split; [reflexivity|exact Hin].
  Qed.
End Statements.
