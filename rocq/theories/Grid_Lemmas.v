(** C48: from exact histories to statements about single calls. *)
From Verif Require Export Grid_Proofs.

Section Sheets.
  Variable itemsize : string -> nat.
  Notation size a := (nbytes itemsize (a_dtype a) (a_shape a)).
  Notation sheets := (list (string * sheet)).

  Lemma grid_step_nodup l o : NoDup (map fst l) -> NoDup (map fst (snd (grid_step itemsize l o))).
  Proof.
    intro Hd. destruct o as [k a ok|k|k|k| |]; cbn [grid_step snd]; try exact Hd.
    - destruct (value_of (ktext k) l) as [sh|] eqn:E.
      + destruct (ok && Nat.eqb (size a) 0); [exact Hd|]. destruct (Nat.ltb (sh_size sh) (size a)); [exact Hd|]. cbn [snd].
        rewrite put_entry_keys. cbn [fst]. now rewrite put_same.
      + destruct ok; [|exact Hd]. destruct (Nat.eqb (size a) 0); [exact Hd|]. cbn [snd]. rewrite map_app. cbn [map fst].
        apply nodup_snoc. split; [exact Hd|]. intro X. apply value_of_in in X. congruence.
    - destruct (value_of (ktext k) l) as [sh|] eqn:E; cbn [snd]; [|exact Hd]. rewrite swap_entry_keys.
      apply swap_remove_nodup; [exact Hd|]. eapply value_listed; eauto.
  Qed.
  Lemma grid_step_value l o k : NoDup (map fst l) ->
    value_of k (snd (grid_step itemsize l o)) = grid_after itemsize k (value_of k l) [o].
  Proof.
    intro Hd. destruct o as [k' a ok|k'|k'|k'| |]; cbn [grid_step snd grid_after]; try reflexivity.
    - destruct (String.eqb_spec (ktext k') k) as [<-|Hne].
      + destruct (value_of (ktext k') l) as [sh|] eqn:E.
        * destruct (ok && Nat.eqb (size a) 0); [exact E|]. destruct (Nat.ltb (sh_size sh) (size a)); [exact E|]. cbn [snd].
          rewrite value_of_put by (cbn; eauto using value_listed). cbn [fst snd]. now rewrite String.eqb_refl.
        * destruct ok; [|exact E]. destruct (Nat.eqb (size a) 0); [exact E|]. cbn [snd andb negb].
          rewrite value_of_snoc, E. cbn [fst snd]. now rewrite String.eqb_refl.
      + apply String.eqb_neq in Hne. destruct (value_of (ktext k') l) as [sh|] eqn:E.
        * destruct (ok && Nat.eqb (size a) 0); [reflexivity|]. destruct (Nat.ltb (sh_size sh) (size a)); [reflexivity|]. cbn [snd].
          rewrite value_of_put by (cbn; eauto using value_listed). cbn [fst snd]. now rewrite Hne.
        * destruct ok; [|reflexivity]. destruct (Nat.eqb (size a) 0); [reflexivity|]. cbn [snd].
          rewrite value_of_snoc. cbn [fst snd]. rewrite Hne. now destruct (value_of k l).
    - destruct (value_of (ktext k') l) as [sh|] eqn:E; cbn [snd].
      + rewrite value_of_swap by eauto using value_listed. reflexivity.
      + destruct (String.eqb_spec (ktext k') k) as [<-|Hne]; [exact E|reflexivity].
  Qed.
  Lemma grid_after_cons k p o h : grid_after itemsize k p (o :: h) = grid_after itemsize k (grid_after itemsize k p [o]) h.
  Proof. destruct o; reflexivity. Qed.
  Lemma grid_run_spec h : forall l, NoDup (map fst l) ->
    NoDup (map fst (snd (grid_run itemsize l h))) /\
    forall k, value_of k (snd (grid_run itemsize l h)) = grid_after itemsize k (value_of k l) h.
  Proof.
    induction h as [|o h IH]; intros l Hd; [split; [exact Hd|reflexivity]|].
    pose proof (grid_step_nodup l o Hd) as H1. pose proof (fun k => grid_step_value l o k Hd) as H2.
    cbn [grid_run]. destruct (grid_step itemsize l o) as [x l1]. cbn [snd] in *. destruct (IH l1 H1) as [H3 H4].
    destruct (grid_run itemsize l1 h) as [xs l2]. cbn [snd] in *. split; [exact H3|]. intro k. now rewrite grid_after_cons, H4, H2.
  Qed.
  Lemma grid_run_app h1 h2 : forall l, snd (grid_run itemsize l (h1 ++ h2)) = snd (grid_run itemsize (snd (grid_run itemsize l h1)) h2).
  Proof.
    induction h1 as [|o h1 IH]; intro l; [reflexivity|]. cbn [app grid_run]. destruct (grid_step itemsize l o) as [x l1]. specialize (IH l1).
    destruct (grid_run itemsize l1 (h1 ++ h2)), (grid_run itemsize l1 h1). exact IH.
  Qed.
End Sheets.

Lemma paper_empty hash K P jenc jdec itemsize s0 s1 c nl : wf s1 ->
  GRep hash K P (next s0) jenc jdec itemsize [] s1 -> quiet (pad_index P) c s1 ->
  exists s2, run (tag_close (mkIndex (pad_index P) {| hname := pad_index P; hid := next s0 |} nl)) s1 = (Some (Ok tt), s2) /\
    wf s2 /\ vacant (grid_names hash P) s2 /\ only_at (grid_names hash P) s1 s2.
Proof.
  intros W1 Rp1 Q1. pose proof (gr_meta _ _ _ _ _ _ _ _ _ Rp1) as M1. cbn [map] in M1.
  pose proof (m_rep _ _ _ _ _ _ _ _ M1) as X1. cbn [map List.length] in X1.
  destruct (close_run hash K (pad_index P) (next s0) [] s1 c nl W1 X1 Q1) as (s2 & R2 & W2 & O2 & N2 & V2).
  exists s2. split; [exact R2|]. split; [exact W2|]. split.
  - intros a [[Ha|[i ->]]|(k & Hk & ->)].
    + destruct Ha as [->|[[i ->]|[[r ->]|Hlk]]]; [exact N2| | |now apply V2].
      * rewrite (same_names s1 s2); [|apply O2; intros [X|X]; revert X; adn hash (pad_index P); tauto].
        apply (rep_nokey _ _ _ _ _ _ _ X1). cbn. lia.
      * rewrite (same_names s1 s2); [|apply O2; intros [X|X]; revert X; adn hash (pad_index P); tauto].
        apply (rep_noname _ _ _ _ _ _ _ X1). cbn. tauto.
    + rewrite (same_names s1 s2); [|apply O2; intros [X|X]; revert X; adn hash (pad_index P); tauto].
      apply (m_noval _ _ _ _ _ _ _ _ M1). cbn. lia.
    + rewrite (same_names s1 s2); [exact (gr_page _ _ _ _ _ _ _ _ _ Rp1 k Hk)|].
      apply O2. intros [X|X]; apply (meta_pad_away hash P k Hk); rewrite X; left; [now left|right; right; right; now left].
  - eapply only_sub; [exact O2|]. intros a [->| ->]; left; left; [now left|right; right; right; now left].
Qed.

Section Reached.
  Variables (hash : bytes -> string) (K : string -> Prop) (P : string) (jenc : ameta -> res bytes) (jdec : bytes -> res ameta).
  Variables (itemsize : string -> nat) (h : list gvisit) (s0 s : store).
  Hypothesis Hr : greached hash K P jenc jdec itemsize h s0 s.
  Notation sheets := (sheets_after itemsize h).
  Notation gsize a := (nbytes itemsize (a_dtype a) (a_shape a)).
  Notation there k := (grid_after itemsize k None (map gv_op h)).

  Lemma greached_rep : wf s /\ only_at (grid_names hash P) s0 s /\ exists c,
    GRep hash K P (next s0) jenc jdec itemsize sheets s /\ quiet (pad_index P) c s /\ (c + 8 < 256 ^ 5)%Z /\
    (Z.of_nat (List.length sheets + 8) < 256 ^ Z.of_nat 8)%Z.
  Proof.
    destruct Hr as (HK & HJ & F & L & W & Vc & nl & r & E).
    destruct (grid_history hash K P jenc jdec itemsize s0 nl h HK HJ W Vc F) as (s' & c & E' & W' & R' & Q' & Hc & Hl & O'); [lia|].
    rewrite E in E'. injection E' as -> ->. split; [exact W'|]. split; [exact O'|]. exists c. split; [exact R'|]. split; [exact Q'|]. split; [lia|].
    rewrite pow8. change (256 ^ 5)%Z with 1099511627776%Z in L. lia.
  Qed.
  Lemma sheet_of k : value_of k sheets = there k.
  Proof. apply (grid_run_spec itemsize (map gv_op h) [] (NoDup_nil _)). Qed.
  Lemma sheets_nodup : NoDup (map fst sheets).
  Proof. apply (grid_run_spec itemsize (map gv_op h) [] (NoDup_nil _)). Qed.

  Notation visit v := (run (gvisit_prog itemsize hash jenc jdec P v) s).

  Lemma next_gvisit v : plain_gvisit itemsize K v ->
    exists s', visit v = (Some (Ok (fst (grid_step itemsize sheets (gv_op v)))), s').
  Proof.
    intro Hv. destruct greached_rep as (W & _ & c & R & Q & Hc & Hl). destruct Hr as (HK & HJ & _).
    destruct (gvisit_rep hash K HK P (next s0) jenc jdec itemsize HJ sheets s c v W R Q) as (s' & c' & E & _); [lia|exact Hv|lia|]. eauto.
  Qed.

  Lemma grid_get nl fuel k : fuel <> 0 -> pad_key K k ->
    exists s', visit (mkGVisit nl fuel (GGet k)) =
      (Some (Ok (XGot (match there (ktext k) with Some sh => Ok (sh_arr sh) | None => Exc KeyError end))), s').
  Proof.
    intros Hf Hk. destruct (next_gvisit (mkGVisit nl fuel (GGet k))) as [s' E].
    - split; [exact Hf|]. split; [intros ? [= <-]; exact Hk|]. split; discriminate.
    - exists s'. rewrite E. cbn [grid_step gv_op fst]. now rewrite sheet_of.
  Qed.
  Lemma grid_default nl fuel k : fuel <> 0 -> pad_key K k ->
    exists s', visit (mkGVisit nl fuel (GGetDefault k)) =
      (Some (Ok (XGotDefault (Ok (match there (ktext k) with Some sh => Some (sh_arr sh) | None => None end)))), s').
  Proof.
    intros Hf Hk. destruct (next_gvisit (mkGVisit nl fuel (GGetDefault k))) as [s' E].
    - split; [exact Hf|]. split; [intros ? [= <-]; exact Hk|]. split; discriminate.
    - exists s'. rewrite E. cbn [grid_step gv_op fst]. now rewrite sheet_of.
  Qed.
  Lemma grid_keys nl fuel : fuel <> 0 ->
    exists ks s', visit (mkGVisit nl fuel GKeys) = (Some (Ok (XKeys ks)), s') /\ NoDup ks /\ forall k, In k ks <-> there k <> None.
  Proof.
    intro Hf. destruct (next_gvisit (mkGVisit nl fuel GKeys)) as [s' E].
    - split; [exact Hf|]. split; [discriminate|]. split; discriminate.
    - exists (map fst sheets), s'. split; [exact E|]. split; [apply sheets_nodup|]. intro k. now rewrite value_of_in, sheet_of.
  Qed.
  Lemma grid_del fuel k : fuel <> 0 -> pad_key K k ->
    exists s', visit (mkGVisit true fuel (GDel k)) =
      (Some (Ok (XDone (match there (ktext k) with Some _ => Ok tt | None => Exc KeyError end))), s').
  Proof.
    intros Hf Hk. destruct (next_gvisit (mkGVisit true fuel (GDel k))) as [s' E].
    - split; [exact Hf|]. split; [intros ? [= <-]; exact Hk|]. split; [discriminate|reflexivity].
    - exists s'. rewrite E. cbn [grid_step gv_op fst]. rewrite sheet_of. now destruct (there (ktext k)).
  Qed.
  (** An assignment of a whole, non-empty array. *)
  Lemma grid_set nl fuel k a ok : fuel <> 0 -> pad_key K k -> whole itemsize a -> gsize a <> 0 ->
    exists s', visit (mkGVisit nl fuel (GSet k a ok)) =
      (Some (Ok (XDone (match there (ktext k) with
        | Some sh => if Nat.leb (gsize a) (sh_size sh) then Ok tt else Exc TypeError
        | None => if ok then Ok tt else Exc FileNotFoundError
        end))), s').
  Proof.
    intros Hf Hk Ha Hs. destruct (next_gvisit (mkGVisit nl fuel (GSet k a ok))) as [s' E].
    - split; [exact Hf|]. split; [intros ? [= <-]; exact Hk|]. split; [intros ? ? ? [= <- <- <-]; exact Ha|discriminate].
    - exists s'. rewrite E. cbn [grid_step gv_op fst]. rewrite sheet_of. apply Nat.eqb_neq in Hs. rewrite Hs, andb_false_r.
      destruct (there (ktext k)) as [sh|].
      + destruct (Nat.ltb_spec (sh_size sh) (gsize a)), (Nat.leb_spec (gsize a) (sh_size sh)); cbn [fst]; try reflexivity; lia.
      + now destruct ok.
  Qed.
  (** An array too big for the block: nothing changes at all. *)
  Lemma grid_larger nl fuel k a ok sh : fuel <> 0 -> pad_key K k -> whole itemsize a -> there (ktext k) = Some sh ->
    sh_size sh < gsize a ->
    visit (mkGVisit nl fuel (GSet k a ok)) = (Some (Ok (XDone (Exc TypeError))), s).
  Proof.
    intros Hf [Hk Hx] Ha Hs Hlt. destruct greached_rep as (W & _ & c & R & Q & Hc & Hl). unfold gvisit_prog. cbn [gv_nl gv_op gv_fuel].
    rewrite (run_bind_ok _ _ _ _ _ (gridpaper_attach hash K P (next s0) jenc jdec itemsize _ s nl W R)).
    assert (E : run (gp_set hash jenc itemsize fuel (mkPad P (mkIndex (pad_index P) {| hname := pad_index P; hid := next s0 |} nl)) k a ok) s = (Some (Exc TypeError), s)).
    { unfold gp_set. rewrite Hx, andb_false_r. cbn [p_prefix].
      pose proof (memorize_old P itemsize s (ktext k) a sh ok W) as HM. rewrite (proj2 (Nat.ltb_lt _ _) Hlt) in HM.
      rewrite run_bind, run_ptry, HM; [reflexivity| |exact Ha|lia].
      pose proof (gr_page _ _ _ _ _ _ _ _ _ R (ktext k) Hx) as Pk. now rewrite sheet_of, Hs in Pk. }
    now rewrite (run_bind_ok _ _ _ _ _ (run_done _ _ _ _ E)).
  Qed.
  (** A 0-d array under a new key: refused, but its block stays. *)
  Lemma grid_scalar nl fuel k a : fuel <> 0 -> pad_key K k -> a_shape a = [] -> gsize a <> 0 -> there (ktext k) = None ->
    exists s', visit (mkGVisit nl fuel (GSet k a true)) = (Some (Ok (XDone (Exc IndexError))), s') /\
      names s (pad_address P (ktext k)) = None /\ names s' (pad_address P (ktext k)) <> None /\
      run (gvisit_prog itemsize hash jenc jdec P (mkGVisit nl fuel GKeys)) s' = (Some (Ok (XKeys (map fst sheets))), s').
  Proof.
    intros Hf [Hk Hx] Ha Hn Hs. destruct greached_rep as (W & _ & c & R & Q & Hc & Hl).
    pose proof (gr_page _ _ _ _ _ _ _ _ _ R (ktext k) Hx) as Pk. rewrite sheet_of, Hs in Pk. cbn in Pk.
    destruct (open_new s _ _ false W Pk Hn) as (s1 & R1 & W1 & A1 & O1).
    assert (E : run (gp_set hash jenc itemsize fuel (mkPad P (mkIndex (pad_index P) {| hname := pad_index P; hid := next s0 |} nl)) k a true) s = (Some (Exc IndexError), s1)).
    { unfold gp_set. rewrite Hx, andb_false_r. cbn [p_prefix]. unfold memorize_array.
      rewrite run_bind, run_ptry, (run_bind_ok _ _ _ _ _ R1), (run_bind_ok _ _ _ _ _ (read_ok _ _ _ _ A1)).
      rewrite zeros_length, Nat.ltb_irrefl, Ha. reflexivity. }
    exists s1. split; [|split; [exact Pk|split]].
    - unfold gvisit_prog. cbn [gv_nl gv_op gv_fuel].
      rewrite (run_bind_ok _ _ _ _ _ (gridpaper_attach hash K P (next s0) jenc jdec itemsize _ s nl W R)).
      now rewrite (run_bind_ok _ _ _ _ _ (run_done _ _ _ _ E)).
    - intro X. apply names_none in X. pose proof (at_content _ _ _ _ A1). congruence.
    - pose proof (mrep_away hash K P (next s0) jenc jdec _ _ _ _ (gr_meta _ _ _ _ _ _ _ _ _ R) Hx O1) as M1.
      unfold gvisit_prog, gridpaper, meta_index. cbn [gv_nl gv_op].
      rewrite !run_bind. rewrite (attach_rep hash K (pad_index P) (next s0) _ _ s1 nl W1 (m_rep _ _ _ _ _ _ _ _ M1)).
      cbn [run]. unfold gp_keys. cbn [p_index].
      pose proof (m_rep _ _ _ _ _ _ _ _ M1) as Rp. rewrite map_keys in Rp by reflexivity.
      now rewrite (run_bind_ok _ _ _ _ _ (update_rep _ _ _ _ _ _ nl Rp)).
  Qed.
  Lemma grid_clear nl fuel : visit (mkGVisit nl fuel GClear) = (Some (Ok (XDone (Exc AttributeError))), s).
  Proof.
    destruct greached_rep as (W & _ & c & R & _). unfold gvisit_prog. cbn [gv_nl gv_op].
    rewrite (run_bind_ok _ _ _ _ _ (gridpaper_attach hash K P (next s0) jenc jdec itemsize _ s nl W R)).
    assert (E : run (gp_clear (mkPad P (mkIndex (pad_index P) {| hname := pad_index P; hid := next s0 |} nl))) s = (Some (Exc AttributeError), s))
      by (unfold gp_clear; now rewrite (run_bind_ok _ _ _ _ _ (gp_keys_rep hash K P (next s0) jenc jdec itemsize _ s nl R))).
    now rewrite (run_bind_ok _ _ _ _ _ (run_done _ _ _ _ E)).
  Qed.
  (** Deleting with lockout never comes back. *)
  Lemma grid_locked_del fuel k sh : pad_key K k -> there (ktext k) = Some sh ->
    exists s', visit (mkGVisit false fuel (GDel k)) = (None, s').
  Proof.
    intros [Hk Hx] Hs. destruct greached_rep as (W & _ & c & R & Q & Hc & Hl).
    pose proof (gr_page _ _ _ _ _ _ _ _ _ R (ktext k) Hx) as Pk. rewrite sheet_of, Hs in Pk. destruct Pk as (b & Hcb & _ & Hb & _).
    destruct (content_at _ _ _ Hcb) as [j A]. destruct (delete_ok s _ j b false W A Hb) as (s1 & R1 & W1 & N1 & O1).
    pose proof (quiet_away hash P jdec _ _ _ _ Q Hx O1) as Q1.
    unfold gvisit_prog. cbn [gv_nl gv_op gv_fuel].
    rewrite (run_bind_ok _ _ _ _ _ (gridpaper_attach hash K P (next s0) jenc jdec itemsize _ s false W R)).
    assert (E : exists s', run (gp_del hash fuel (mkPad P (mkIndex (pad_index P) {| hname := pad_index P; hid := next s0 |} false)) k) s = (None, s')).
    { unfold gp_del. rewrite (reserved_starts k Hx). cbn [p_prefix p_index]. rewrite run_ptry, (run_bind_ok _ _ _ _ _ R1).
      unfold meta_remove, tag_del_. cbn [ix_no_lockout ix_name].
      match goal with |- context [run (with_lock false fuel _ (pbind (with_lock false fuel _ ?b) ?k)) s1] =>
        destruct (nested_lock (pad_index P) c s1 fuel fuel b k W1 Q1) as [s' ->]; [lia|] end. eauto. }
    destruct E as [s' E]. exists s'. apply run_bind_stuck. unfold done. now rewrite run_ptry, E.
  Qed.

  (** *** Iteration and close *)
  Lemma sheets_pad : Forall (fun k => pad_key K (skey k)) (map fst sheets).
  Proof.
    destruct greached_rep as (W & _ & c & R & _). destruct R as [M _ Pl]. apply Forall_forall. intros k Hk.
    pose proof (m_rep _ _ _ _ _ _ _ _ M) as Rp. rewrite map_keys in Rp by reflexivity.
    pose proof (rep_K _ _ _ _ _ _ _ Rp) as HK. pose proof (rep_ne _ _ _ _ _ _ _ Rp) as Hn.
    rewrite Forall_forall in *. split; [|now apply Pl]. split; [now apply Hn|]. split; [reflexivity|now apply HK].
  Qed.
  Lemma grid_items nl : run (let! p := gridpaper P false nl in gp_items hash jdec itemsize p) s =
    (Some (Ok (map (fun e => (fst e, sh_arr (snd e))) sheets)), s).
  Proof.
    destruct greached_rep as (W & _ & c & R & _). pose proof Hr as (HK & HJ & _).
    rewrite (run_bind_ok _ _ _ _ _ (gridpaper_attach hash K P (next s0) jenc jdec itemsize _ s nl W R)). unfold gp_items.
    rewrite (run_bind_ok _ _ _ _ _ (gp_keys_rep hash K P (next s0) jenc jdec itemsize _ s nl R)).
    assert (G : forall l, incl l sheets ->
      run (for_list (fun k => let! a := gp_getitem hash jdec itemsize (mkPad P (mkIndex (pad_index P) {| hname := pad_index P; hid := next s0 |} nl)) (skey k) in Ret (k, a)) (map fst l)) s =
      (Some (Ok (map (fun e => (fst e, sh_arr (snd e))) l)), s)).
    { induction l as [|[k sh] l IH]; intro Hl; [reflexivity|]. cbn [map for_list fst snd].
      assert (Hin : In (k, sh) sheets) by (apply Hl; now left).
      pose proof (proj1 (Forall_forall _ _) sheets_pad k (in_map fst _ _ Hin)) as Hk.
      pose proof (gp_getitem_rep hash K HK P (next s0) jenc jdec itemsize HJ _ s (skey k) nl W R Hk) as E.
      cbn [ktext skey] in E. apply value_of_spec in Hin; [|exact sheets_nodup]. rewrite Hin in E.
      rewrite run_bind, (run_bind_ok _ _ _ _ _ E). cbn [run].
      rewrite (run_bind_ok _ _ _ _ _ (IH (fun e He => Hl e (or_intror He)))). reflexivity. }
    apply G, incl_refl.
  Qed.

  Lemma del_sheets fuel ks : Forall (fun k => pad_key K (skey k)) ks -> NoDup ks -> forall l s1 c,
    (forall k, In k ks <-> In k (map fst l)) -> NoDup (map fst l) ->
    wf s1 -> GRep hash K P (next s0) jenc jdec itemsize l s1 -> quiet (pad_index P) c s1 ->
    exists s2, run (for_each (fun k => gp_del hash fuel (mkPad P (mkIndex (pad_index P) {| hname := pad_index P; hid := next s0 |} true)) (skey k)) ks) s1 =
        (Some (Ok tt), s2) /\
      wf s2 /\ GRep hash K P (next s0) jenc jdec itemsize [] s2 /\ quiet (pad_index P) c s2 /\ only_at (grid_names hash P) s1 s2.
  Proof.
    pose proof Hr as (HK & HJ & _).
    induction 1 as [|k ks Hk F IH]; intros Hn l s1 c Hin Hl W R Q.
    - assert (l = []) as -> by (destruct l as [|[k v] l]; [reflexivity|]; destruct (proj2 (Hin k)); now left).
      exists s1. split; [reflexivity|]. split; [exact W|]. split; [exact R|]. split; [exact Q|apply only_refl].
    - cbn [for_each]. destruct (gp_del_rep hash K HK P (next s0) jenc jdec itemsize l s1 (skey k) fuel W R Hk) as (r & s2 & E & Er & W2 & R2 & O2).
      cbn [grid_step ktext skey] in *. assert (Hk1 : In k (map fst l)) by (apply Hin; now left).
      destruct (value_of k l) as [sh|] eqn:Ev.
      2:{ exfalso. apply in_map_iff in Hk1 as ([k1 v1] & <- & He). apply value_of_spec in He; [|exact Hl]. cbn [fst] in Ev. congruence. }
      cbn [fst snd] in *. injection Er as <-. rewrite (run_bind_ok _ _ _ _ _ E).
      inversion_clear Hn as [|? ? Hk2 Hn'].
      assert (Hd : NoDup (map fst (swap_entry k l))) by (rewrite swap_entry_keys; now apply swap_remove_nodup).
      assert (Q2 : quiet (pad_index P) c s2).
      { eapply quiet_same; [exact Q|]. intros a Ha. apply O2. intros [[X|X]| ->].
        - exact (lock_not_rep hash (pad_index P) a Ha X).
        - exact (lock_not_val hash (pad_index P) jdec a Ha X).
        - apply (gaway hash P jdec k (proj2 Hk)). now right. }
      destruct (IH Hn' (swap_entry k l) s2 c) as (s3 & E3 & W3 & R3 & Q3 & O3); auto.
      { intro k'. rewrite swap_entry_keys. rewrite swap_remove_in by auto. rewrite <- Hin. cbn. split.
        - intro X. split; [tauto|]. intros ->. contradiction.
        - intros [[X|X] Y]; [congruence|exact X]. }
      exists s3. split; [exact E3|]. split; [exact W3|]. split; [exact R3|]. split; [exact Q3|].
      eapply only_trans; [|exact O3]. eapply only_sub; [exact O2|]. intros a [X| ->]; apply (gown_names hash P jdec).
      + left. now left.
      + right. exists k. split; [exact (proj2 Hk)|reflexivity].
  Qed.
  Lemma grid_close nl fuel : (nl = true \/ sheets = []) ->
    exists s', run (let! p := gridpaper P false nl in gp_close hash fuel p) s = (Some (Ok tt), s') /\
      wf s' /\ vacant (grid_names hash P) s' /\ only_at (grid_names hash P) s0 s'.
  Proof.
    intro Hnl. destruct greached_rep as (W & O0 & c & R & Q & Hc & Hl). pose proof Hr as (HK & HJ & _ & _ & W0 & Vc & _).
    assert (E1 : exists s1, run (for_each (fun k => gp_del hash fuel (mkPad P (mkIndex (pad_index P) {| hname := pad_index P; hid := next s0 |} nl)) (skey k)) (map fst sheets)) s =
        (Some (Ok tt), s1) /\
      wf s1 /\ GRep hash K P (next s0) jenc jdec itemsize [] s1 /\ quiet (pad_index P) c s1 /\ only_at (grid_names hash P) s s1).
    { destruct Hnl as [->|Hs].
      - apply (del_sheets fuel (map fst sheets) sheets_pad sheets_nodup sheets s c); auto using sheets_nodup. tauto.
      - rewrite Hs in *. exists s. split; [reflexivity|]. split; [exact W|]. split; [exact R|]. split; [exact Q|apply only_refl]. }
    destruct E1 as (s1 & R1 & W1 & Rp1 & Q1 & O1).
    destruct (paper_empty hash K P jenc jdec itemsize s0 s1 c nl W1 Rp1 Q1) as (s2 & R2 & W2 & V2 & O2).
    exists s2. rewrite (run_bind_ok _ _ _ _ _ (gridpaper_attach hash K P (next s0) jenc jdec itemsize _ s nl W R)). unfold gp_close.
    rewrite (run_bind_ok _ _ _ _ _ (gp_keys_rep hash K P (next s0) jenc jdec itemsize _ s nl R)).
    rewrite (run_bind_ok _ _ _ _ _ R1). cbn [p_index]. rewrite R2. split; [reflexivity|]. split; [exact W2|]. split; [exact V2|].
    eapply only_trans; [exact O0|]. eapply only_trans; [exact O1|exact O2].
  Qed.
  (** With locking, close() of a paper with anything on it never comes back. *)
  Lemma grid_locked_close fuel : sheets <> [] ->
    exists s', run (let! p := gridpaper P false false in gp_close hash fuel p) s = (None, s').
  Proof.
    intro Hs. destruct greached_rep as (W & _ & c & R & _).
    destruct sheets as [|[k sh] l] eqn:El; [contradiction|]. 
    pose proof (proj1 (Forall_forall _ _) sheets_pad k) as Hk. rewrite El in Hk. specialize (Hk (or_introl eq_refl)).
    assert (Ht : there k = Some sh) by (rewrite <- sheet_of, El; unfold value_of; cbn; now rewrite String.eqb_refl).
    destruct (grid_locked_del fuel (skey k) sh Hk Ht) as [s' E].
    unfold gvisit_prog in E. cbn [gv_nl gv_op gv_fuel] in E.
    rewrite (run_bind_ok _ _ _ _ _ (gridpaper_attach hash K P (next s0) jenc jdec itemsize _ s false W R)).
    rewrite (run_bind_ok _ _ _ _ _ (gridpaper_attach hash K P (next s0) jenc jdec itemsize _ s false W R)) in E.
    unfold gp_close. rewrite (run_bind_ok _ _ _ _ _ (gp_keys_rep hash K P (next s0) jenc jdec itemsize _ s false R)).
    cbn [map for_each fst]. exists s'.
    destruct (run (gp_del hash fuel (mkPad P (mkIndex (pad_index P) {| hname := pad_index P; hid := next s0 |} false)) (skey k)) s) as [[r|] s1] eqn:E1.
    - exfalso. rewrite run_bind in E. unfold done in E. rewrite run_ptry, E1 in E. destruct r; cbn in E; congruence.
    - rewrite run_bind in E. unfold done in E. rewrite run_ptry, E1 in E. injection E as <-.
      apply run_bind_stuck, run_bind_stuck. exact E1.
  Qed.
  Lemma sheets_empty : sheets = [] <-> forall k, there k = None.
  Proof.
    split.
    - intros E k. rewrite <- sheet_of, E. reflexivity.
    - intro N. destruct sheets as [|[k sh] l] eqn:E; [reflexivity|]. specialize (N k). rewrite <- sheet_of, E in N.
      unfold value_of in N. cbn in N. now rewrite String.eqb_refl in N.
  Qed.
  Lemma grid_items_listed nl : exists l, run (let! p := gridpaper P false nl in gp_items hash jdec itemsize p) s = (Some (Ok l), s) /\
    NoDup (map fst l) /\ forall k a, In (k, a) l <-> exists n, there k = Some (mkSheet n a).
  Proof.
    eexists. split; [apply grid_items|]. split; [rewrite map_map; exact sheets_nodup|].
    intros k a. rewrite in_map_iff. split.
    - intros ([k' [n a']] & [= -> ->] & Hin). exists n. rewrite <- sheet_of. apply value_of_spec; [exact sheets_nodup|exact Hin].
    - intros [n E]. exists (k, mkSheet n a). split; [reflexivity|]. rewrite <- sheet_of in E. apply value_of_spec in E; [exact E|exact sheets_nodup].
  Qed.
  Lemma grid_block nl k : pad_key K k ->
    run (let! p := gridpaper P false nl in gp_getitem_block hash jdec p k) s =
    (Some (Exc (match there (ktext k) with Some _ => TypeError | None => KeyError end)), s).
  Proof.
    intro Hk. destruct greached_rep as (W & _ & c & R & _). pose proof Hr as (HK & HJ & _).
    rewrite (run_bind_ok _ _ _ _ _ (gridpaper_attach hash K P (next s0) jenc jdec itemsize _ s nl W R)).
    rewrite (gp_getitem_block_rep hash K HK P (next s0) jenc jdec itemsize HJ _ s k nl W R Hk). now rewrite sheet_of.
  Qed.
  Lemma grid_close_clean nl fuel : nl = true \/ (forall k, there k = None) ->
    exists s', run (let! p := gridpaper P false nl in gp_close hash fuel p) s = (Some (Ok tt), s') /\
      wf s' /\ vacant (grid_names hash P) s' /\ only_at (grid_names hash P) s0 s'.
  Proof. intro H. apply grid_close. destruct H as [H|H]; [now left|right; now apply sheets_empty]. Qed.
  Lemma grid_close_stuck fuel k : there k <> None ->
    exists s', run (let! p := gridpaper P false false in gp_close hash fuel p) s = (None, s').
  Proof. intro H. apply grid_locked_close. intro E. apply H. now apply sheets_empty. Qed.
End Reached.
