(** Dumping while closing. *)
From Coq Require Import Lia.
From Verif Require Import Pad_Lemmas Grid_Lemmas.
From Verif Require Export Dump_Spec.

Lemma run_outcome {A} (p : prog A) s r s' : run p s = (Some r, s') -> run (outcome p) s = (Some (Ok r), s').
Proof. intro E. unfold outcome. rewrite run_ptry, E. destruct r; reflexivity. Qed.

Lemma NoDup_app_disjoint {A} (a b : list A) : NoDup (a ++ b) -> forall x, In x a -> ~ In x b.
Proof.
  induction a as [|y a IH]; cbn; [contradiction|]. intros H x [->|Hx]; inversion_clear H as [|? ? Hn H'].
  - intro X. apply Hn. apply in_or_app. now right.
  - now apply IH.
Qed.

Lemma dump_each_run dump del close (Inv : list string -> store -> Prop) (Post : store -> Prop) (w : string -> list (string * bytes)) :
  (forall k ks s, Inv (k :: ks) s -> run (dump k) s = (Some (Ok (w k, Ok tt)), s)) ->
  (forall k ks s, Inv (k :: ks) s -> exists s', run (del k) s = (Some (Ok tt), s') /\ Inv ks s') ->
  (forall s, Inv [] s -> exists s', run close s = (Some (Ok tt), s') /\ Post s') ->
  forall ks fs s, Inv ks s ->
  exists s', run (dump_each dump del close ks fs) s = (Some (Ok (fs ++ flat_map w ks, Ok tt)), s') /\ Post s'.
Proof.
  intros HD HX HC. induction ks as [|k ks IH]; intros fs s HI.
  - destruct (HC s HI) as (s' & E & HP). exists s'. split; [|exact HP]. cbn [dump_each flat_map].
    rewrite (run_bind_ok _ _ _ _ _ (run_outcome _ _ _ _ E)), app_nil_r. reflexivity.
  - cbn [dump_each flat_map]. destruct (HX k ks s HI) as (s1 & E1 & I1). destruct (IH (fs ++ w k) s1 I1) as (s2 & E2 & HP).
    exists s2. split; [|exact HP]. rewrite (run_bind_ok _ _ _ _ _ (HD k ks s HI)). cbn [snd fst].
    rewrite (run_bind_ok _ _ _ _ _ (run_outcome _ _ _ _ E1)), E2, app_assoc. reflexivity.
Qed.

(** Up to the first dump that fails. *)
Lemma dump_each_fail dump del close (Inv : list string -> store -> Prop) (w : string -> list (string * bytes)) k ks2 f e :
  (forall s, Inv (k :: ks2) s -> run (dump k) s = (Some (Ok (f, Exc e)), s)) ->
  forall ks1, (forall k' ks s, In k' ks1 -> Inv (k' :: ks) s -> run (dump k') s = (Some (Ok (w k', Ok tt)), s)) ->
  (forall k' ks s, In k' ks1 -> Inv (k' :: ks) s -> exists s', run (del k') s = (Some (Ok tt), s') /\ Inv ks s') ->
  forall fs s, Inv (ks1 ++ k :: ks2) s ->
  exists s', run (dump_each dump del close (ks1 ++ k :: ks2) fs) s = (Some (Ok (fs ++ flat_map w ks1 ++ f, Exc e)), s') /\ Inv (k :: ks2) s'.
Proof.
  intros HF ks1. induction ks1 as [|k1 ks1 IH]; intros HD HX fs s HI; cbn [app] in *.
  - exists s. split; [|exact HI]. cbn [dump_each]. rewrite (run_bind_ok _ _ _ _ _ (HF s HI)). reflexivity.
  - cbn [dump_each flat_map]. destruct (HX k1 _ s (or_introl eq_refl) HI) as (s1 & E1 & I1).
    destruct (IH (fun k' ks s0 H => HD k' ks s0 (or_intror H)) (fun k' ks s0 H => HX k' ks s0 (or_intror H)) (fs ++ w k1) s1 I1) as (s2 & E2 & HP).
    exists s2. split; [|exact HP]. rewrite (run_bind_ok _ _ _ _ _ (HD k1 _ s (or_introl eq_refl) HI)). cbn [snd fst].
    rewrite (run_bind_ok _ _ _ _ _ (run_outcome _ _ _ _ E1)), E2. now rewrite <- !app_assoc.
Qed.

(** ** Notepad *)
Section Pad.
  Context {V : Type} (hash : bytes -> string) (K : string -> Prop) (P : string)
    (enc : V -> res bytes) (dec : bytes -> res V) (isnone : V -> bool).
  Variables (h : list (pvisit V)) (s0 s : store).
  Hypothesis Hr : preached hash K P enc dec isnone h s0 s.
  Notation entries := (pad_after enc isnone h).
  Notation PRep l s := (PRep hash K P (next s0) enc dec l s).
  Notation pad nl := (mkPad P (mkIndex (pad_index P) {| hname := pad_index P; hid := next s0 |} nl)).

  Definition coded (e : string * option V) : bytes :=
    match snd e with Some v => match enc v with Ok b => b | Exc _ => "" end | None => "" end%string.
  Definition of_key (k : string) : bytes := match value_of k entries with Some o => coded (k, o) | None => ""%string end.

  Lemma close_empty s1 c nl : wf s1 -> PRep [] s1 -> quiet (pad_index P) c s1 ->
    exists s2, run (tag_close (mkIndex (pad_index P) {| hname := pad_index P; hid := next s0 |} nl)) s1 = (Some (Ok tt), s2) /\
      wf s2 /\ vacant (pad_names hash P) s2 /\ only_at (pad_names hash P) s1 s2.
  Proof.
    intros W1 Rp1 Q1. destruct (close_run hash K (pad_index P) (next s0) [] s1 c nl W1 (pr_rep _ _ _ _ _ _ _ _ Rp1) Q1) as (s2 & R2 & W2 & O2 & N2 & V2).
    exists s2. split; [exact R2|]. split; [exact W2|]. split.
    - assert (Hi : forall a, index_names hash (pad_index P) a -> names s2 a = None).
      { intros a [->|[[i ->]|[[r ->]|Hl]]]; [exact N2| | |now apply V2].
        - rewrite (same_names s1 s2); [|apply O2; intros [X|X]; revert X; adn hash (pad_index P); tauto].
          apply (rep_nokey _ _ _ _ _ _ _ (pr_rep _ _ _ _ _ _ _ _ Rp1)). cbn. lia.
        - rewrite (same_names s1 s2); [|apply O2; intros [X|X]; revert X; adn hash (pad_index P); tauto].
          apply (rep_noname _ _ _ _ _ _ _ (pr_rep _ _ _ _ _ _ _ _ Rp1)). cbn. tauto. }
      intros a [Ha|(k & Hk & ->)]; [now apply Hi|].
      rewrite (same_names s1 s2); [exact (pr_slot _ _ _ _ _ _ _ _ Rp1 k Hk)|].
      apply O2. intros [X|X]; apply (index_pad_away hash P k Hk); rewrite X; [now left|right; right; right; now left].
    - eapply only_sub; [exact O2|]. intros a [->| ->]; left; [now left|right; right; right; now left].
  Qed.

  Definition going (ks : list string) (s1 : store) : Prop :=
    exists l c, wf s1 /\ PRep l s1 /\ quiet (pad_index P) c s1 /\ NoDup ks /\ Forall (fun k => pad_key K (skey k)) ks /\
      (forall k, In k ks <-> In k (map fst l)) /\ (forall k, In k ks -> value_of k l = value_of k entries) /\
      (c + Z.of_nat (List.length l) < 256 ^ 5)%Z /\ (Z.of_nat (S (List.length l)) < 256 ^ Z.of_nat 8)%Z /\
      only_at (pad_names hash P) s0 s1.

  Lemma raw_run k o s1 l nl : PRep l s1 -> starts_index k = false -> value_of k l = Some (Some o) ->
    run (np_dump (pad nl) (skey k)) s1 = (Some (Ok ([(dump_file P k, coded (k, Some o))], Ok tt)), s1).
  Proof.
    intros R Hk Hv. pose proof (pr_slot _ _ _ _ _ _ _ _ R k Hk) as S1. unfold held in S1. rewrite Hv in S1.
    destruct S1 as (b & E & Hb & _ & Hc). destruct (content_at _ _ _ Hc) as [i A].
    unfold np_dump, np_get_raw. cbn [p_prefix ktext skey].
    rewrite (run_bind_ok _ _ _ _ _ (run_outcome _ _ _ _ (fetch_ok _ _ _ _ A Hb))). cbn [run]. unfold coded. cbn [snd]. now rewrite E.
  Qed.

  Lemma going_del (HK : collision_free hash K) k ks s1 v nl fuel : fuel <> 0 -> going (k :: ks) s1 -> value_of k entries = Some (Some v) ->
    exists s2, run (np_del hash fuel (pad nl) (skey k)) s1 = (Some (Ok tt), s2) /\ going ks s2.
  Proof.
    intros Hf (l & c1 & W1 & R1 & Q1 & Hn & Hp & Hin & Hv & B1 & B2 & O1) Ev.
    inversion_clear Hp as [|? ? Hk Hp']. inversion_clear Hn as [|? ? Hnk Hn'].
    assert (Hk1 : In k (map fst l)) by (apply Hin; now left). pose proof (swap_entry_length k l Hk1) as Hlen.
    destruct (np_del_rep hash K HK P (next s0) enc dec isnone l s1 c1 (skey k) nl fuel W1 R1 Q1) as (r & s2 & c2 & E2 & Er & W2 & R2 & Q2 & Hc2 & O2); [lia|exact Hk|exact Hf|exact B2|].
    cbn [pad_step skey ktext] in Er, R2. rewrite Hv, Ev in Er, R2 by (now left). cbn [fst snd] in Er, R2. injection Er as <-.
    assert (Hdl : NoDup (map fst l)) by (eapply rep_nodup, pr_rep; eauto).
    exists s2. split; [exact E2|].
    exists (swap_entry k l), c2. split; [exact W2|]. split; [exact R2|]. split; [exact Q2|]. split; [exact Hn'|]. split; [exact Hp'|].
    split; [|split].
    + intro k'. rewrite swap_entry_keys, swap_remove_in by auto. rewrite <- Hin. cbn. split.
      * intro X. split; [tauto|]. intros ->. contradiction.
      * intros [[X|X] Y]; [congruence|exact X].
    + intros k' Hk'. rewrite value_of_swap by auto. destruct (String.eqb_spec k k') as [->|_]; [contradiction|]. apply Hv. now right.
    + split; [lia|]. split; [lia|]. eapply only_trans; [exact O1|]. eapply only_sub; [exact O2|]. intros a. apply pown_names.
  Qed.

  Lemma pad_close_dump nl fuel : fuel <> 0 -> Forall (fun e => snd e <> None) entries ->
    exists s', run (let! p := notepad P false nl in np_close_dump hash fuel p) s =
        (Some (Ok (map (fun e => (dump_file P (fst e), coded e)) entries, Ok tt)), s') /\
      wf s' /\ vacant (pad_names hash P) s' /\ only_at (pad_names hash P) s0 s'.
  Proof.
    intros Hf F. pose proof (bounds hash K P enc dec isnone h s0 s Hr) as B.
    destruct (preached_rep _ _ _ _ _ _ _ _ _ Hr) as (HK & W & O0 & c & R & Q & Hc).
    assert (Hd : NoDup (map fst entries)) by (eapply rep_nodup, pr_rep; eauto).
    assert (Hsome : forall k, In k (map fst entries) -> exists v, value_of k entries = Some (Some v)).
    { intros k Hk. apply in_map_iff in Hk as ([k1 o] & <- & He). rewrite Forall_forall in F. pose proof (F _ He) as Fo. cbn in Fo.
      apply value_of_spec in He; [|exact Hd]. cbn [fst]. rewrite He. destruct o as [v|]; [eauto|contradiction]. }
    assert (G0 : going (map fst entries) s).
    { exists entries, c. do 3 (split; [assumption|]). split; [exact Hd|]. split; [exact (keys_pad hash K P _ enc dec _ s R)|].
      split; [tauto|]. split; [reflexivity|]. split; [lia|]. split; [exact B|exact O0]. }
    destruct (dump_each_run (fun k => np_dump (pad nl) (skey k)) (fun k => np_del hash fuel (pad nl) (skey k))
      (tag_close (p_index (pad nl))) (fun ks s1 => incl ks (map fst entries) /\ going ks s1)
      (fun s' => wf s' /\ vacant (pad_names hash P) s' /\ only_at (pad_names hash P) s0 s')
      (fun k => [(dump_file P k, of_key k)])) with (ks := map fst entries) (fs := @nil (string * bytes)) (s := s) as (s' & E & HP).
    - intros k ks s1 [Hi (l & c1 & W1 & R1 & Q1 & Hn & Hp & Hin & Hv & _)].
      destruct (Hsome k (Hi k (or_introl eq_refl))) as [v Ev]. inversion_clear Hp as [|? ? Hk _].
      unfold of_key. rewrite Ev. apply (raw_run k v s1 l); [exact R1|apply Hk|]. rewrite Hv by (now left). exact Ev.
    - intros k ks s1 [Hi G]. destruct (Hsome k (Hi k (or_introl eq_refl))) as [v Ev]. destruct (going_del HK k ks s1 v nl fuel Hf G Ev) as (s2 & E2 & G2).
      exists s2. split; [exact E2|]. split; [intros x Hx; apply Hi; now right|exact G2].
    - intros s1 [_ (l & c1 & W1 & R1 & Q1 & Hn & Hp & Hin & Hv & B1 & B2 & O1)].
      assert (l = []) as -> by (destruct l as [|[k v] l]; [reflexivity|]; destruct (proj2 (Hin k)); now left).
      destruct (close_empty s1 c1 nl W1 R1 Q1) as (s2 & E2 & W2 & V2 & O2). exists s2. split; [exact E2|]. split; [exact W2|]. split; [exact V2|].
      eapply only_trans; eauto.
    - split; [apply incl_refl|exact G0].
    - exists s'. split; [|exact HP]. rewrite (run_bind_ok _ _ _ _ _ (notepad_attach hash K P (next s0) enc dec _ s nl W R)). unfold np_close_dump.
      rewrite (run_bind_ok _ _ _ _ _ (np_keys_rep hash K P (next s0) enc dec _ s nl R)). rewrite E. cbn [app].
      do 4 f_equal. clear - Hd. rewrite flat_map_concat_map, map_map.
      assert (X : forall l, incl l entries -> List.concat (map (fun e => [(dump_file P (fst e), of_key (fst e))]) l) =
                          map (fun e => (dump_file P (fst e), coded e)) l).
      { induction l as [|[k o] l IH]; intro Hl; [reflexivity|]. cbn [map List.concat app fst]. rewrite IH by (intros e He; apply Hl; now right).
        assert (Hin : In (k, o) entries) by (apply Hl; now left). apply value_of_spec in Hin; [|exact Hd]. unfold of_key. now rewrite Hin. }
      apply X, incl_refl.
  Qed.

  (** Closing stops at the first key without a value. *)
  Lemma pad_close_stops nl fuel l1 k l2 : fuel <> 0 -> entries = l1 ++ (k, None) :: l2 -> Forall (fun e => snd e <> None) l1 ->
    exists s', run (let! p := notepad P false nl in np_close_dump hash fuel p) s =
        (Some (Ok (map (fun e => (dump_file P (fst e), coded e)) l1 ++ [(dump_file P k, ""%string)], Exc FileNotFoundError)), s') /\
      going (k :: map fst l2) s'.
  Proof.
    intros Hf El F. pose proof (bounds hash K P enc dec isnone h s0 s Hr) as B.
    destruct (preached_rep _ _ _ _ _ _ _ _ _ Hr) as (HK & W & O0 & c & R & Q & Hc).
    assert (Hd : NoDup (map fst entries)) by (eapply rep_nodup, pr_rep; eauto).
    assert (Hkeys : map fst entries = map fst l1 ++ k :: map fst l2) by (rewrite El, map_app; reflexivity).
    assert (Hsome : forall k', In k' (map fst l1) -> exists v, value_of k' entries = Some (Some v)).
    { intros k' Hk. apply in_map_iff in Hk as ([k1 o] & <- & He). rewrite Forall_forall in F. pose proof (F _ He) as Fo. cbn in Fo.
      assert (He' : In (k1, o) entries) by (rewrite El; apply in_or_app; now left).
      apply value_of_spec in He'; [|exact Hd]. cbn [fst]. rewrite He'. destruct o as [v|]; [eauto|contradiction]. }
    assert (G0 : going (map fst entries) s).
    { exists entries, c. do 3 (split; [assumption|]). split; [exact Hd|]. split; [exact (keys_pad hash K P _ enc dec _ s R)|].
      split; [tauto|]. split; [reflexivity|]. split; [lia|]. split; [exact B|exact O0]. }
    assert (Hnone : value_of k entries = Some None).
    { apply value_of_spec; [exact Hd|]. rewrite El. apply in_or_app. right. now left. }
    destruct (dump_each_fail (fun k => np_dump (pad nl) (skey k)) (fun k => np_del hash fuel (pad nl) (skey k))
      (tag_close (p_index (pad nl))) going (fun k => [(dump_file P k, of_key k)]) k (map fst l2) [(dump_file P k, ""%string)] FileNotFoundError)
      with (ks1 := map fst l1) (fs := @nil (string * bytes)) (s := s) as (s' & E & HP).
    - intros s1 (l & c1 & W1 & R1 & Q1 & Hn & Hp & Hin & Hv & _). inversion_clear Hp as [|? ? Hk _].
      pose proof (pr_slot _ _ _ _ _ _ _ _ R1 k (proj2 Hk)) as S1. unfold held in S1. rewrite Hv, Hnone in S1 by (now left).
      unfold np_dump, np_get_raw. cbn [p_prefix ktext skey]. now rewrite (run_bind_ok _ _ _ _ _ (run_outcome _ _ _ _ (fetch_missing _ _ S1))).
    - intros k' ks s1 Hk' (l & c1 & W1 & R1 & Q1 & Hn & Hp & Hin & Hv & _).
      destruct (Hsome k' Hk') as [v Ev]. inversion_clear Hp as [|? ? Hk _].
      unfold of_key. rewrite Ev. apply (raw_run k' v s1 l); [exact R1|apply Hk|]. rewrite Hv by (now left). exact Ev.
    - intros k' ks s1 Hk' G. destruct (Hsome k' Hk') as [v Ev]. exact (going_del HK k' ks s1 v nl fuel Hf G Ev).
    - rewrite <- Hkeys. exact G0.
    - exists s'. split; [|exact HP]. rewrite (run_bind_ok _ _ _ _ _ (notepad_attach hash K P (next s0) enc dec _ s nl W R)). unfold np_close_dump.
      rewrite (run_bind_ok _ _ _ _ _ (np_keys_rep hash K P (next s0) enc dec _ s nl R)). rewrite Hkeys, E. cbn [app].
      do 4 f_equal. f_equal. clear - Hd El. rewrite flat_map_concat_map, map_map.
      assert (X : forall l, incl l entries -> List.concat (map (fun e => [(dump_file P (fst e), of_key (fst e))]) l) =
                          map (fun e => (dump_file P (fst e), coded e)) l).
      { induction l as [|[k' o] l IH]; intro Hl; [reflexivity|]. cbn [map List.concat app fst]. rewrite IH by (intros e He; apply Hl; now right).
        assert (Hin : In (k', o) entries) by (apply Hl; now left). apply value_of_spec in Hin; [|exact Hd]. unfold of_key. now rewrite Hin. }
      apply X. intros e He. rewrite El. apply in_or_app. now left.
  Qed.

  (** A listed key without a value. *)
  Lemma pad_dump nl k : pad_key K k ->
    run (let! p := notepad P false nl in np_dump p k) s =
    (Some (Ok (match value_of (ktext k) entries with
               | Some (Some v) => ([(dump_file P (ktext k), coded (ktext k, Some v))], Ok tt)
               | _ => ([(dump_file P (ktext k), ""%string)], Exc FileNotFoundError)
               end)), s).
  Proof.
    intros [Hk Hx]. destruct (preached_rep _ _ _ _ _ _ _ _ _ Hr) as (HK & W & O0 & c & R & Q & Hc).
    rewrite (run_bind_ok _ _ _ _ _ (notepad_attach hash K P (next s0) enc dec _ s nl W R)).
    unfold np_dump, np_get_raw. cbn [p_prefix]. pose proof (pr_slot _ _ _ _ _ _ _ _ R _ Hx) as S1. unfold held in S1.
    destruct (value_of (ktext k) entries) as [[v|]|].
    - destruct S1 as (b & E & Hb & _ & Hcb). destruct (content_at _ _ _ Hcb) as [i A].
      rewrite (run_bind_ok _ _ _ _ _ (run_outcome _ _ _ _ (fetch_ok _ _ _ _ A Hb))). cbn [run]. unfold coded. cbn [snd]. now rewrite E.
    - now rewrite (run_bind_ok _ _ _ _ _ (run_outcome _ _ _ _ (fetch_missing _ _ S1))).
    - now rewrite (run_bind_ok _ _ _ _ _ (run_outcome _ _ _ _ (fetch_missing _ _ S1))).
  Qed.
End Pad.

(** ** GridPaper *)
Section Grid.
  Variables (hash : bytes -> string) (K : string -> Prop) (P : string) (jenc : ameta -> res bytes) (jdec : bytes -> res ameta).
  Variables (itemsize : string -> nat) (h : list gvisit) (s0 s : store).
  Hypothesis Hr : greached hash K P jenc jdec itemsize h s0 s.
  Notation sheets := (sheets_after itemsize h).
  Notation GRep l s := (GRep hash K P (next s0) jenc jdec itemsize l s).
  Notation pad nl := (mkPad P (mkIndex (pad_index P) {| hname := pad_index P; hid := next s0 |} nl)).

  Definition data_of (k : string) : bytes := match value_of k sheets with Some sh => a_data (sh_arr sh) | None => ""%string end.
  Definition ggoing (ks : list string) (s1 : store) : Prop :=
    exists l c, wf s1 /\ GRep l s1 /\ quiet (pad_index P) c s1 /\ NoDup ks /\ Forall (fun k => pad_key K (skey k)) ks /\
      NoDup (map fst l) /\ (forall k, In k ks <-> In k (map fst l)) /\ (forall k, In k ks -> value_of k l = value_of k sheets) /\
      only_at (grid_names hash P) s0 s1.
  Lemma gdump_run k s1 l sh nl : wf s1 -> GRep l s1 -> pad_key K (skey k) -> value_of k l = Some sh ->
    run (gp_dump hash jdec itemsize (pad nl) (skey k)) s1 = (Some (Ok ([(dump_file P k, a_data (sh_arr sh))], Ok tt)), s1).
  Proof.
    intros W R Hk Hv. pose proof Hr as (HK & HJ & _). unfold gp_dump. cbn [p_prefix ktext skey].
    pose proof (gp_getitem_rep hash K HK P (next s0) jenc jdec itemsize HJ l s1 (skey k) nl W R Hk) as E. cbn [ktext skey] in E. rewrite Hv in E.
    now rewrite (run_bind_ok _ _ _ _ _ (run_outcome _ _ _ _ E)).
  Qed.
  Lemma grid_dump nl k : pad_key K k ->
    run (let! p := gridpaper P false nl in gp_dump hash jdec itemsize p k) s =
    (Some (Ok (match value_of (ktext k) sheets with
               | Some sh => ([(dump_file P (ktext k), a_data (sh_arr sh))], Ok tt)
               | None => ([], Exc KeyError)
               end)), s).
  Proof.
    intro Hk. destruct (greached_rep hash K P jenc jdec itemsize h s0 s Hr) as (W & O0 & c & R & Q & Hc & Hl). pose proof Hr as (HK & HJ & _).
    rewrite (run_bind_ok _ _ _ _ _ (gridpaper_attach hash K P (next s0) jenc jdec itemsize _ s nl W R)). unfold gp_dump. cbn [p_prefix].
    rewrite (run_bind_ok _ _ _ _ _ (run_outcome _ _ _ _ (gp_getitem_rep hash K HK P (next s0) jenc jdec itemsize HJ _ s k nl W R Hk))).
    destruct (value_of (ktext k) sheets); reflexivity.
  Qed.
  Lemma grid_close_dump fuel :
    exists s', run (let! p := gridpaper P false true in gp_close_dump hash jdec itemsize fuel p) s =
        (Some (Ok (map (fun e => (dump_file P (fst e), a_data (sh_arr (snd e)))) sheets, Ok tt)), s') /\
      wf s' /\ vacant (grid_names hash P) s' /\ only_at (grid_names hash P) s0 s'.
  Proof.
    destruct (greached_rep hash K P jenc jdec itemsize h s0 s Hr) as (W & O0 & c & R & Q & Hc & Hl). pose proof Hr as (HK & HJ & _).
    pose proof (sheets_nodup itemsize h) as Hd. pose proof (sheets_pad hash K P jenc jdec itemsize h s0 s Hr) as Hpad.
    assert (Hsome : forall k, In k (map fst sheets) -> exists v, value_of k sheets = Some v).
    { intros k Hk. apply in_map_iff in Hk as ([k1 o] & <- & He). apply value_of_spec in He; [|exact Hd]. cbn [fst]. eauto. }
    assert (G0 : ggoing (map fst sheets) s).
    { exists sheets, c. do 3 (split; [assumption|]). split; [exact Hd|]. split; [exact Hpad|]. split; [exact Hd|]. split; [tauto|]. split; [reflexivity|exact O0]. }
    destruct (dump_each_run (fun k => gp_dump hash jdec itemsize (pad true) (skey k)) (fun k => gp_del hash fuel (pad true) (skey k))
      (tag_close (p_index (pad true))) (fun ks s1 => incl ks (map fst sheets) /\ ggoing ks s1)
      (fun s' => wf s' /\ vacant (grid_names hash P) s' /\ only_at (grid_names hash P) s0 s')
      (fun k => [(dump_file P k, data_of k)])) with (ks := map fst sheets) (fs := @nil (string * bytes)) (s := s) as (s' & E & HP).
    - intros k ks s1 [Hi (l & c1 & W1 & R1 & Q1 & Hn & Hp & Hdl & Hin & Hv & _)].
      destruct (Hsome k (Hi k (or_introl eq_refl))) as [v Ev]. inversion_clear Hp as [|? ? Hk _].
      unfold data_of. rewrite Ev. apply (gdump_run k s1 l v true W1 R1 Hk). rewrite Hv by (now left). exact Ev.
    - intros k ks s1 [Hi (l & c1 & W1 & R1 & Q1 & Hn & Hp & Hdl & Hin & Hv & O1)].
      destruct (Hsome k (Hi k (or_introl eq_refl))) as [v Ev]. inversion_clear Hp as [|? ? Hk Hp']. inversion_clear Hn as [|? ? Hnk Hn'].
      assert (Hk1 : In k (map fst l)) by (apply Hin; now left).
      destruct (gp_del_rep hash K HK P (next s0) jenc jdec itemsize l s1 (skey k) fuel W1 R1 Hk) as (r & s2 & E2 & Er & W2 & R2 & O2).
      cbn [grid_step skey ktext] in Er, R2, O2. rewrite Hv, Ev in Er, R2 by (now left). cbn [fst snd] in Er, R2. injection Er as <-.
      exists s2. split; [exact E2|]. split; [intros x Hx; apply Hi; now right|].
      exists (swap_entry k l), c1. split; [exact W2|]. split; [exact R2|]. split.
      { eapply quiet_same; [exact Q1|]. intros a Ha. apply O2. intros [[X|X]| ->].
        - exact (lock_not_rep hash (pad_index P) a Ha X).
        - exact (lock_not_val hash (pad_index P) jdec a Ha X).
        - apply (gaway hash P jdec k (proj2 Hk)). now right. }
      split; [exact Hn'|]. split; [exact Hp'|]. split; [rewrite swap_entry_keys; now apply swap_remove_nodup|]. split; [|split].
      + intro k'. rewrite swap_entry_keys, swap_remove_in by auto. rewrite <- Hin. cbn. split.
        * intro X. split; [tauto|]. intros ->. contradiction.
        * intros [[X|X] Y]; [congruence|exact X].
      + intros k' Hk'. rewrite value_of_swap by auto. destruct (String.eqb_spec k k') as [->|_]; [contradiction|]. apply Hv. now right.
      + eapply only_trans; [exact O1|]. eapply only_sub; [exact O2|]. intros a [X| ->]; apply (gown_names hash P jdec).
        * left. now left.
        * right. exists k. split; [exact (proj2 Hk)|reflexivity].
    - intros s1 [_ (l & c1 & W1 & R1 & Q1 & Hn & Hp & Hdl & Hin & Hv & O1)].
      assert (l = []) as -> by (destruct l as [|[k v] l]; [reflexivity|]; destruct (proj2 (Hin k)); now left).
      destruct (paper_empty hash K P jenc jdec itemsize s0 s1 c1 true W1 R1 Q1) as (s2 & E2 & W2 & V2 & O2).
      exists s2. split; [exact E2|]. split; [exact W2|]. split; [exact V2|]. eapply only_trans; eauto.
    - split; [apply incl_refl|exact G0].
    - exists s'. split; [|exact HP]. rewrite (run_bind_ok _ _ _ _ _ (gridpaper_attach hash K P (next s0) jenc jdec itemsize _ s true W R)). unfold gp_close_dump.
      rewrite (run_bind_ok _ _ _ _ _ (gp_keys_rep hash K P (next s0) jenc jdec itemsize _ s true R)). rewrite E. cbn [app].
      do 4 f_equal. clear - Hd. rewrite flat_map_concat_map, map_map.
      assert (X : forall l, incl l sheets -> List.concat (map (fun e => [(dump_file P (fst e), data_of (fst e))]) l) =
                          map (fun e => (dump_file P (fst e), a_data (sh_arr (snd e)))) l).
      { induction l as [|[k o] l IH]; intro Hl; [reflexivity|]. cbn [map List.concat app fst snd]. rewrite IH by (intros e He; apply Hl; now right).
        assert (Hin : In (k, o) sheets) by (apply Hl; now left). apply value_of_spec in Hin; [|exact Hd]. unfold data_of. now rewrite Hin. }
      apply X, incl_refl.
  Qed.
End Grid.

(** ** File names *)
Lemma undot_app a b : undot (a ++ b) = (undot a ++ undot b)%string.
Proof. induction a as [|c a IH]; [reflexivity|]. cbn [String.append undot]. now rewrite IH. Qed.
Lemma append_inj a b c : (a ++ b = a ++ c -> b = c)%string.
Proof. induction a as [|x a IH]; cbn; [auto|]. intro E. injection E. auto. Qed.
Lemma undot_dotless s : dotless s = true -> undot s = s.
Proof.
  induction s as [|c s IH]; [reflexivity|]. cbn [dotless undot]. rewrite andb_true_iff. intros [A B].
  rewrite (IH B). destruct (Ascii.eqb c "."); [discriminate|reflexivity].
Qed.
Lemma dump_file_inj P k k' : dotless k = true -> dotless k' = true -> dump_file P k = dump_file P k' -> k = k'.
Proof.
  intros H H'. unfold dump_file. rewrite !undot_app. intro E. apply append_inj in E.
  apply (append_inj "_") in E. now rewrite !undot_dotless in E.
Qed.
Lemma file_last ws fn b : In (fn, b) ws -> NoDup (map fst ws) -> file_after ws fn = Some b.
Proof.
  induction ws as [|[n c] ws IH]; [contradiction|]. cbn [map fst In file_after]. intros Hin Hn. inversion_clear Hn as [|? ? Hx Hn'].
  destruct Hin as [E|Hin].
  - injection E as -> ->. destruct (file_after ws fn) as [b'|] eqn:E'; [|now rewrite String.eqb_refl].
    exfalso. apply Hx. clear - E'. revert b' E'. induction ws as [|[n c] ws IH]; [discriminate|]. cbn [file_after map fst]. intros b'.
    destruct (file_after ws fn) as [b''|]; [intros _; right; now apply (IH b'')|].
    destruct (String.eqb_spec n fn) as [->|]; [now left|discriminate].
  - now rewrite IH.
Qed.
Lemma files_kept {A} P (f : string * A -> bytes) (l : list (string * A)) : NoDup (map fst l) -> Forall (fun k => dotless k = true) (map fst l) ->
  forall k a, In (k, a) l -> file_after (map (fun e => (dump_file P (fst e), f e)) l) (dump_file P k) = Some (f (k, a)).
Proof.
  intros Hn Hd k a Hin. apply file_last.
  - apply (in_map (fun e => (dump_file P (fst e), f e))) in Hin. exact Hin.
  - rewrite map_map. cbn [fst]. rewrite <- (map_map fst (dump_file P)).
    clear - Hn Hd. induction l as [|e l IH]; [constructor|]. cbn [map] in *. inversion_clear Hn as [|? ? Hx Hn']. inversion_clear Hd as [|? ? He Hd'].
    constructor; [|auto]. intro X. apply in_map_iff in X as (k & E & Hk). rewrite Forall_forall in Hd'.
    apply dump_file_inj in E; auto. subst. contradiction.
Qed.

(** ** The theorems *)
Lemma pad_files {V : Type} hash K P (enc : V -> res bytes) dec isnone h s0 s :
  preached hash K P enc dec isnone h s0 s ->
  forall nl fuel, fuel <> 0 -> Forall (fun e => snd e <> None) (pad_after enc isnone h) ->
  exists ws s', run (let! p := notepad P false nl in np_close_dump hash fuel p) s = (Some (Ok (ws, Ok tt)), s') /\
    wf s' /\ vacant (pad_names hash P) s' /\ only_at (pad_names hash P) s0 s' /\
    Forall2 (fun e w => fst w = dump_file P (fst e) /\ exists v, snd e = Some v /\ enc v = Ok (snd w)) (pad_after enc isnone h) ws /\
    (Forall (fun k => dotless k = true) (map fst (pad_after enc isnone h)) ->
     forall k v, In (k, Some v) (pad_after enc isnone h) -> exists b, enc v = Ok b /\ file_after ws (dump_file P k) = Some b).
Proof.
  intros Hr nl fuel Hf F. destruct (pad_close_dump hash K P enc dec isnone h s0 s Hr nl fuel Hf F) as (s' & E & W' & V' & O').
  destruct (preached_rep _ _ _ _ _ _ _ _ _ Hr) as (HK & W & O0 & c & R & Q & Hc).
  assert (Hd : NoDup (map fst (pad_after enc isnone h))) by (eapply rep_nodup, pr_rep; eauto).
  assert (Hc1 : forall k v, In (k, Some v) (pad_after enc isnone h) -> enc v = Ok (coded enc (k, Some v))).
  { intros k v Hin. pose proof (keys_pad hash K P _ enc dec _ s R) as Hp. rewrite Forall_forall in Hp.
    destruct (Hp k (in_map fst _ _ Hin)) as [_ Hx]. pose proof (pr_slot _ _ _ _ _ _ _ _ R k Hx) as S1. unfold held in S1.
    apply value_of_spec in Hin; [|exact Hd]. rewrite Hin in S1. destruct S1 as (b & Eb & _). unfold coded. cbn [snd]. now rewrite Eb. }
  eexists _, s'. split; [exact E|]. split; [exact W'|]. split; [exact V'|]. split; [exact O'|]. split.
  - clear - F Hc1. induction (pad_after enc isnone h) as [|[k o] l IH]; [constructor|]. cbn [map]. constructor.
    + cbn [fst snd]. split; [reflexivity|]. inversion_clear F as [|? ? Fo _]. destruct o as [v|]; [|contradiction].
      exists v. split; [reflexivity|]. apply Hc1. now left.
    + apply IH; [now inversion F|]. intros k' v' Hin. apply Hc1. now right.
  - intros Hdot k v Hin. exists (coded enc (k, Some v)). split; [now apply Hc1|].
    exact (files_kept P (coded enc) _ Hd Hdot k (Some v) Hin).
Qed.
Lemma grid_files hash K P jenc jdec itemsize h s0 s : greached hash K P jenc jdec itemsize h s0 s ->
  forall fuel, exists ws s', run (let! p := gridpaper P false true in gp_close_dump hash jdec itemsize fuel p) s = (Some (Ok (ws, Ok tt)), s') /\
    wf s' /\ vacant (grid_names hash P) s' /\ only_at (grid_names hash P) s0 s' /\
    Forall2 (fun e w => w = (dump_file P (fst e), a_data (sh_arr (snd e)))) (sheets_after itemsize h) ws /\
    (Forall (fun k => dotless k = true) (map fst (sheets_after itemsize h)) ->
     forall k n a, grid_after itemsize k None (map gv_op h) = Some (mkSheet n a) -> file_after ws (dump_file P k) = Some (a_data a)).
Proof.
  intros Hr fuel. destruct (grid_close_dump hash K P jenc jdec itemsize h s0 s Hr fuel) as (s' & E & W' & V' & O').
  eexists _, s'. split; [exact E|]. split; [exact W'|]. split; [exact V'|]. split; [exact O'|]. split.
  - clear. induction (sheets_after itemsize h) as [|e l IH]; constructor; auto.
  - intros Hdot k n a Hg. rewrite <- (sheet_of itemsize h) in Hg. apply value_of_spec in Hg; [|exact (sheets_nodup itemsize h)].
    exact (files_kept P (fun e => a_data (sh_arr (snd e))) _ (sheets_nodup itemsize h) Hdot k _ Hg).
Qed.
Lemma pad_dump_one {V : Type} hash K P (enc : V -> res bytes) dec isnone h s0 s :
  preached hash K P enc dec isnone h s0 s -> forall nl k, pad_key K k ->
  exists r, run (let! p := notepad P false nl in np_dump p k) s = (Some (Ok r), s) /\
    match value_of (ktext k) (pad_after enc isnone h) with
    | Some (Some v) => exists b, enc v = Ok b /\ r = ([(dump_file P (ktext k), b)], Ok tt)
    | _ => r = ([(dump_file P (ktext k), ""%string)], Exc FileNotFoundError)
    end.
Proof.
  intros Hr nl k Hk. eexists. split; [exact (pad_dump hash K P enc dec isnone h s0 s Hr nl k Hk)|].
  destruct (preached_rep _ _ _ _ _ _ _ _ _ Hr) as (HK & W & O0 & c & R & Q & Hc).
  pose proof (pr_slot _ _ _ _ _ _ _ _ R _ (proj2 Hk)) as S1. unfold held in S1.
  destruct (value_of (ktext k) (pad_after enc isnone h)) as [[v|]|]; [|reflexivity|reflexivity].
  destruct S1 as (b & Eb & _). exists b. split; [exact Eb|]. unfold coded. cbn [snd]. now rewrite Eb.
Qed.
Lemma grid_dump_one hash K P jenc jdec itemsize h s0 s : greached hash K P jenc jdec itemsize h s0 s ->
  forall nl k, pad_key K k ->
  run (let! p := gridpaper P false nl in gp_dump hash jdec itemsize p k) s =
  (Some (Ok (match grid_after itemsize (ktext k) None (map gv_op h) with
             | Some sh => ([(dump_file P (ktext k), a_data (sh_arr sh))], Ok tt)
             | None => ([], Exc KeyError)
             end)), s).
Proof.
  intros Hr nl k Hk. rewrite <- (sheet_of itemsize h). exact (grid_dump hash K P jenc jdec itemsize h s0 s Hr nl k Hk).
Qed.
Lemma pad_stops {V : Type} hash K P (enc : V -> res bytes) dec isnone h s0 s :
  preached hash K P enc dec isnone h s0 s ->
  forall nl fuel l1 k l2, fuel <> 0 -> pad_after enc isnone h = l1 ++ (k, None) :: l2 -> Forall (fun e => snd e <> None) l1 ->
  exists ws s', run (let! p := notepad P false nl in np_close_dump hash fuel p) s =
      (Some (Ok (ws ++ [(dump_file P k, ""%string)], Exc FileNotFoundError)), s') /\ wf s' /\
    Forall2 (fun e w => fst w = dump_file P (fst e) /\ exists v, snd e = Some v /\ enc v = Ok (snd w)) l1 ws /\
    (forall k' o, In (k', o) l1 -> content s' (pad_address P k') = None) /\
    (forall k' v, In (k', Some v) l2 -> exists b, enc v = Ok b /\ content s' (pad_address P k') = Some b).
Proof.
  intros Hr nl fuel l1 k l2 Hf El F. destruct (pad_close_stops hash K P enc dec isnone h s0 s Hr nl fuel l1 k l2 Hf El F) as (s' & E & G).
  destruct (preached_rep _ _ _ _ _ _ _ _ _ Hr) as (HK & W & O0 & c & R & Q & Hc).
  assert (Hd : NoDup (map fst (pad_after enc isnone h))) by (eapply rep_nodup, pr_rep; eauto).
  pose proof (keys_pad hash K P _ enc dec _ s R) as Hp0. rewrite Forall_forall in Hp0.
  assert (Hc1 : forall k v, In (k, Some v) (pad_after enc isnone h) -> enc v = Ok (coded enc (k, Some v))).
  { intros k0 v Hin. destruct (Hp0 k0 (in_map fst _ _ Hin)) as [_ Hx]. pose proof (pr_slot _ _ _ _ _ _ _ _ R k0 Hx) as S1. unfold held in S1.
    apply value_of_spec in Hin; [|exact Hd]. rewrite Hin in S1. destruct S1 as (b & Eb & _). unfold coded. cbn [snd]. now rewrite Eb. }
  destruct G as (l & c1 & W1 & R1 & Q1 & Hn & Hp & Hin & Hv & _).
  exists (map (fun e => (dump_file P (fst e), coded enc e)) l1), s'. split; [exact E|]. split; [exact W1|]. split; [|split].
  - assert (Hc2 : forall k v, In (k, Some v) l1 -> enc v = Ok (coded enc (k, Some v))).
    { intros k0 v H. apply Hc1. rewrite El. apply in_or_app. now left. }
    clear - F Hc2. induction l1 as [|[k0 o] l IH]; [constructor|]. cbn [map]. constructor.
    + cbn [fst snd]. split; [reflexivity|]. inversion_clear F as [|? ? Fo _]. destruct o as [v|]; [|contradiction].
      exists v. split; [reflexivity|]. apply Hc2. now left.
    + apply IH; [now inversion F|]. intros k' v' Hi. apply Hc2. now right.
  - intros k' o Hi. assert (Hx : starts_index k' = false).
    { apply (Hp0 k'). apply in_map_iff. exists (k', o). split; [reflexivity|]. rewrite El. apply in_or_app. now left. }
    pose proof (pr_slot _ _ _ _ _ _ _ _ R1 k' Hx) as S1. unfold held in S1.
    assert (N : ~ In k' (map fst l)).
    { intro X. apply Hin in X. rewrite El, map_app in Hd. cbn [map fst] in Hd. apply (NoDup_app_disjoint _ _ Hd k'); [|exact X].
      apply in_map_iff. now exists (k', o). }
    destruct (value_of k' l) as [o'|] eqn:Ev.
    { exfalso. apply N. exact (value_listed _ _ _ Ev). }
    unfold content. now rewrite S1.
  - intros k' v Hi. assert (Hk' : In (k', Some v) (pad_after enc isnone h)) by (rewrite El; apply in_or_app; right; now right).
    assert (Hx : starts_index k' = false) by (apply (Hp0 k'); apply in_map_iff; now exists (k', Some v)).
    pose proof (pr_slot _ _ _ _ _ _ _ _ R1 k' Hx) as S1. unfold held in S1.
    rewrite Hv in S1 by (right; apply in_map_iff; now exists (k', Some v)).
    apply value_of_spec in Hk'; [|exact Hd]. rewrite Hk' in S1. destruct S1 as (b & Eb & _ & _ & Hcb). exists b. auto.
Qed.
