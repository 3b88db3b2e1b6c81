(** GridPaper: what it stores, what it refuses. *)
From Verif Require Export Pad_Lemmas.

(** ** Slices *)
Lemma substring_all b : substring 0 (String.length b) b = b.
Proof. induction b as [|c b IH]; cbn; [reflexivity|]. now rewrite IH. Qed.
Lemma take_app d r : take (String.length d) (d ++ r) = d.
Proof. unfold take. induction d as [|c d IH]; cbn; [destruct r; reflexivity|]. now rewrite IH. Qed.
Lemma drop_cons n c b : drop (S n) (String c b) = drop n b.
Proof. unfold drop. cbn. reflexivity. Qed.
Lemma drop_length n : forall b, n <= String.length b -> String.length (drop n b) = String.length b - n.
Proof.
  induction n as [|n IH]; intros b Hn.
  - unfold drop. rewrite Nat.sub_0_r, substring_all. reflexivity.
  - destruct b as [|c b]; [cbn in Hn; lia|]. rewrite drop_cons. cbn in *. rewrite IH by lia. reflexivity.
Qed.

Lemma map_put_entry {A B} (g : string * A -> string * B) k e l : (forall e, fst (g e) = fst e) ->
  map g (put_entry k e l) = put_entry k (g e) (map g l).
Proof.
  intro Hg. induction l as [|x l IH]; cbn; [reflexivity|]. rewrite Hg. destruct (String.eqb (fst x) k); cbn; congruence.
Qed.
Lemma map_swap_entry {A B} (g : string * A -> string * B) k l : (forall e, fst (g e) = fst e) ->
  map g (swap_entry k l) = swap_entry k (map g l).
Proof.
  intro Hg. unfold swap_entry. rewrite <- map_rev. destruct (rev l) as [|e r]; [reflexivity|]. cbn [map]. rewrite Hg.
  rewrite <- map_rev. destruct (String.eqb (fst e) k); [reflexivity|]. now apply map_put_entry.
Qed.
Lemma value_listed {V} k v (l : list (string * V)) : value_of k l = Some v -> In k (map fst l).
Proof. intro E. apply value_of_in. congruence. Qed.
Lemma map_keys {A B} (g : string * A -> string * B) l : (forall e, fst (g e) = fst e) -> map fst (map g l) = map fst l.
Proof. intro Hg. rewrite map_map. now apply map_ext. Qed.

Section GridRep.
  Variable hash : bytes -> string.
  Variable K : string -> Prop.
  Hypothesis hash_inj : collision_free hash K.
  Variable P : string.
  Variable m : N.
  Variables (jenc : ameta -> res bytes) (jdec : bytes -> res ameta) (itemsize : string -> nat).
  Hypothesis json_ok : forall md, stable jenc jdec md.
  Notation I := (pad_index P).
  Notation H := {| hname := pad_index P; hid := m |}.
  Notation MRep := (MRep hash K (pad_index P) m jenc jdec).
  Notation pad nl := (mkPad P (mkIndex I H nl)).
  Notation size a := (nbytes itemsize (a_dtype a) (a_shape a)).

  Definition about (k : string) (a : arr) : ameta := mkMeta (pad_address P k) (a_dtype a) (a_shape a).
  Definition listing (e : string * sheet) : string * option ameta := (fst e, Some (about (fst e) (sh_arr (snd e)))).
  Lemma listing_fst e : fst (listing e) = fst e. Proof. reflexivity. Qed.

  Definition page (s : store) (k : string) (o : option sheet) : Prop :=
    match o with
    | Some sh => exists b, content s (pad_address P k) = Some b /\ String.length b = sh_size sh /\ b <> "" /\
        size (sh_arr sh) <= sh_size sh /\ take (size (sh_arr sh)) b = a_data (sh_arr sh)
    | None => names s (pad_address P k) = None
    end.
  Record GRep (l : list (string * sheet)) (s : store) : Prop := mkGRep {
    gr_meta : MRep (map listing l) s;
    gr_page : forall k, starts_index k = false -> page s k (value_of k l);
    gr_plain : Forall (fun k => starts_index k = false) (map fst l) }.

  Lemma page_same s s' k o : page s k o -> same_at s s' (pad_address P k) -> page s' k o.
  Proof.
    intros Hs Hsame. destruct o as [v|]; cbn in *.
    - destruct Hs as (b & H1 & H2). exists b. rewrite (same_content _ _ _ Hsame). auto.
    - now rewrite (same_names _ _ _ Hsame).
  Qed.
  Lemma gaway k : starts_index k = false -> ~ mown hash I (pad_address P k).
  Proof. intros Hk X. apply (proj1 (mown_names hash I jdec _)) in X. now apply (meta_pad_away hash P k). Qed.
  Definition gown (a : string) : Prop := mown hash I a \/ exists k, starts_index k = false /\ a = pad_address P k.
  Lemma gown_names a : gown a <-> grid_names hash P a.
  Proof. unfold gown, grid_names. now rewrite (mown_names hash I jdec). Qed.
  Lemma mrep_away l k s s' : MRep l s -> starts_index k = false -> only_at (eq (pad_address P k)) s s' -> MRep l s'.
  Proof.
    intros M Hk O. eapply mrep_same; [exact M|]. intros a Ha. apply O. intros <-. apply (gaway k Hk). now left.
  Qed.
  Lemma quiet_away c k s s' : quiet I c s -> starts_index k = false -> only_at (eq (pad_address P k)) s s' -> quiet I c s'.
  Proof.
    intros Q Hk O. eapply quiet_same; [exact Q|]. intros a Ha. apply O. intros <-. apply (gaway k Hk). now right.
  Qed.

  Lemma meta_add_run l s c k md nl fuel : wf s -> MRep l s -> quiet I c s -> (c + 1 < 256 ^ 5)%Z -> plain_key K k -> fuel <> 0 ->
    (Z.of_nat (S (List.length l)) < 256 ^ Z.of_nat 8)%Z ->
    exists i s' c', run (meta_add hash jenc fuel (mkIndex I H nl) k (Some md) true) s = (Some (Ok i), s') /\
      wf s' /\ MRep (if in_dec string_dec (ktext k) (map fst l) then put_entry (ktext k) (ktext k, Some md) l else l ++ [(ktext k, Some md)]) s' /\
      quiet I c' s' /\ (c <= c' <= c + 1)%Z /\ only_at (mown hash I) s s'.
  Proof.
    intros W R Q Hc Hk Hf L.
    destruct (mvisit_rep hash K hash_inj I m jenc jdec l s c (mkMVisit nl fuel (MAdd k (Some md) true)) W R Q Hc) as (s' & c' & E & W' & R' & Q' & Hc' & O').
    - split; [exact Hf|]. split; [intros k' [= <-]; exact Hk|]. split; [intros k' w ok [= <- <- <-]; apply json_ok|discriminate].
    - exact L.
    - cbn [mvisit_prog mv_op mv_nl mv_fuel] in E. apply untry in E. destruct E as (r & E & Eo). cbn [meta_step mv_op] in Eo, R'.
      destruct (position (ktext k) (map fst l)) as [i|] eqn:Ep; cbn [fst snd] in Eo, R'; injection Eo as <-; eexists _, s', c';
        (split; [exact E|]); (split; [exact W'|]); (split; [|auto]).
      + destruct (in_dec string_dec (ktext k) (map fst l)) as [_|Hn]; [exact R'|]. destruct Hn. apply position_iff; eauto.
      + destruct (in_dec string_dec (ktext k) (map fst l)) as [Hn|_]; [apply position_none in Ep; contradiction|exact R'].
  Qed.

  (** *** set *)
  Lemma memorize_new s k a : wf s -> names s (pad_address P k) = None -> whole itemsize a -> size a <> 0 ->
    exists s', run (memorize_array itemsize a (pad_address P k) true) s = (Some (Ok (about k a)), s') /\ wf s' /\
      only_at (eq (pad_address P k)) s s' /\ page s' k (Some (mkSheet (size a) a)).
  Proof.
    intros W N [Hs Hlen] Hn. unfold memorize_array.
    destruct (open_new s _ _ false W N Hn) as (s1 & R1 & W1 & A1 & O1). rewrite (run_bind_ok _ _ _ _ _ R1), (run_bind_ok _ _ _ _ _ (read_ok _ _ _ _ A1)).
    rewrite zeros_length, (proj2 (Nat.ltb_ge _ _)) by lia. destruct (a_shape a) as [|x y] eqn:Ex; [congruence|]. rewrite <- Ex in *.
    assert (Hd : String.length (a_data a ++ drop (size a) (zeros (size a))) = size a).
    { rewrite append_length, drop_length, zeros_length by (rewrite zeros_length; lia). lia. }
    destruct (write_ok s1 _ _ _ (a_data a ++ drop (size a) (zeros (size a)))%string W1 A1) as (s2 & R2 & W2 & A2 & O2); [now rewrite zeros_length|].
    rewrite (run_bind_ok _ _ _ _ _ R2). exists s2. split; [reflexivity|]. split; [exact W2|]. split; [eapply only_trans; eauto|].
    exists (a_data a ++ drop (size a) (zeros (size a)))%string. cbn [sh_size sh_arr]. split; [eapply at_content; eauto|].
    split; [exact Hd|]. split; [intro E; rewrite E in Hd; cbn in Hd; lia|]. split; [lia|]. rewrite <- Hlen. apply take_app.
  Qed.
  Lemma memorize_old s k a sh ok : wf s -> page s k (Some sh) -> whole itemsize a -> (ok = true -> size a <> 0) ->
    if Nat.ltb (sh_size sh) (size a)
    then run (memorize_array itemsize a (pad_address P k) ok) s = (Some (Exc TypeError), s)
    else exists s', run (memorize_array itemsize a (pad_address P k) ok) s = (Some (Ok (about k a)), s') /\ wf s' /\
      only_at (eq (pad_address P k)) s s' /\ page s' k (Some (mkSheet (sh_size sh) a)).
  Proof.
    intros W (b & Hc & Hl & Hb & _ & _) [Hs Hlen] Hn. unfold memorize_array. destruct (content_at _ _ _ Hc) as [i A].
    assert (R1 : run (open_block (pad_address P k) (size a) ok false) s = (Some (Ok {| hname := pad_address P k; hid := i |}), s)).
    { destruct ok; [apply (open_existing s _ _ _ _ _ A Hb (Hn eq_refl) eq_refl)|]. rewrite open_nocreate. now apply (attach_ok s _ _ b). }
    rewrite (run_bind_ok _ _ _ _ _ R1), (run_bind_ok _ _ _ _ _ (read_ok _ _ _ _ A)), Hl.
    destruct (Nat.ltb_spec (sh_size sh) (size a)) as [Hlt|Hge]; [reflexivity|].
    destruct (a_shape a) as [|x y] eqn:Ex; [congruence|]. rewrite <- Ex in *.
    assert (Hd : String.length (a_data a ++ drop (size a) b) = sh_size sh) by (rewrite append_length, drop_length; lia).
    destruct (write_ok s _ _ _ (a_data a ++ drop (size a) b)%string W A) as (s2 & R2 & W2 & A2 & O2); [now rewrite Hl|].
    rewrite (run_bind_ok _ _ _ _ _ R2). exists s2. split; [reflexivity|]. split; [exact W2|]. split; [exact O2|].
    exists (a_data a ++ drop (size a) b)%string. cbn [sh_size sh_arr]. split; [eapply at_content; eauto|].
    split; [exact Hd|]. split; [intro E; rewrite E in Hd; apply length_ne in Hb; cbn in Hd; lia|]. split; [lia|]. rewrite <- Hlen. apply take_app.
  Qed.
  Lemma memorize_refused s k a ok : names s (pad_address P k) = None ->
    (ok = false \/ size a = 0) -> run (memorize_array itemsize a (pad_address P k) ok) s =
      (Some (Exc (if ok then ValueError else FileNotFoundError)), s).
  Proof.
    intros N Hn. unfold memorize_array. destruct ok.
    - destruct Hn as [?|Hn]; [discriminate|]. rewrite Hn. now rewrite (run_bind_exc _ _ _ _ _ (open_zero s _ _)).
    - rewrite run_bind, open_nocreate, (attach_none _ _ N). reflexivity.
  Qed.

  (** Storing and indexing. *)
  Lemma gp_set_rep l s c k a ok nl fuel : wf s -> GRep l s -> quiet I c s -> (c + 1 < 256 ^ 5)%Z ->
    pad_key K k -> whole itemsize a -> fuel <> 0 -> (Z.of_nat (S (List.length l)) < 256 ^ Z.of_nat 8)%Z ->
    exists r s' c', run (gp_set hash jenc itemsize fuel (pad nl) k a ok) s = (Some r, s') /\
      fst (grid_step itemsize l (GSet k a ok)) = XDone r /\ wf s' /\ GRep (snd (grid_step itemsize l (GSet k a ok))) s' /\
      quiet I c' s' /\ (c <= c' <= c + 1)%Z /\ only_at gown s s'.
  Proof.
    intros W [R Pg Pl] Q Hc [Hk Hx] Ha Hf L. unfold gp_set. rewrite Hx, andb_false_r. cbn [p_index p_prefix].
    pose proof (Pg _ Hx) as Pk. cbn [grid_step].
    assert (Hkeys : map fst (map listing l) = map fst l) by (apply map_keys; reflexivity).
    pose proof (rep_nodup _ _ _ _ _ _ _ (m_rep _ _ _ _ _ _ _ _ R)) as Hd. rewrite Hkeys in Hd.
    assert (G : forall s1 e, wf s1 -> only_at (eq (pad_address P (ktext k))) s s1 -> page s1 (ktext k) (Some e) -> sh_arr e = a ->
      exists r s' c', run (let! md := Ret (about (ktext k) a) in meta_add hash jenc fuel (mkIndex I H nl) k (Some md) true >>> Ret tt) s1 = (Some r, s') /\
        r = Ok tt /\ wf s' /\
        GRep (match value_of (ktext k) l with Some _ => put_entry (ktext k) (ktext k, e) l | None => l ++ [(ktext k, e)] end) s' /\
        quiet I c' s' /\ (c <= c' <= c + 1)%Z /\ only_at gown s s').
    { intros s1 e W1 O1 P1 Ee.
      pose proof (mrep_away _ _ _ _ R Hx O1) as M1. pose proof (quiet_away _ _ _ _ Q Hx O1) as Q1.
      destruct (meta_add_run (map listing l) s1 c k (about (ktext k) a) nl fuel W1 M1 Q1 Hc Hk Hf) as (i & s2 & c2 & R2 & W2 & M2 & Q2 & Hc2 & O2); [now rewrite map_length|].
      exists (Ok tt), s2, c2. rewrite run_bind_ret, (run_bind_ok _ _ _ _ _ R2). split; [reflexivity|]. split; [reflexivity|]. split; [exact W2|].
      split; [|split; [exact Q2|split; [exact Hc2|]]].
      2:{ apply only_trans with s1; [eapply only_sub; [exact O1|]; intros x <-; right; eauto|eapply only_sub; [exact O2|]; unfold gown; auto]. }
      assert (Hpage : forall k', starts_index k' = false -> page s2 k' (if String.eqb (ktext k) k' then Some e else value_of k' l)).
      { intros k' Hk'. apply (page_same s1); [|apply O2; now apply gaway]. destruct (String.eqb_spec (ktext k) k') as [<-|Hne]; [exact P1|].
        eapply page_same; [now apply Pg|]. apply O1. intro X. apply pad_inj in X. auto. }
      assert (El : listing (ktext k, e) = (ktext k, Some (about (ktext k) a))) by (unfold listing; cbn; now rewrite Ee).
      destruct (value_of (ktext k) l) as [sh|] eqn:Ev.
      - assert (Hin : In (ktext k) (map fst l)) by (eapply value_listed; eauto).
        rewrite Hkeys in M2. destruct (in_dec string_dec (ktext k) (map fst l)) as [_|Hn]; [|contradiction]. constructor.
        + rewrite map_put_entry by reflexivity. now rewrite El.
        + intros k' Hk'. rewrite value_of_put by (cbn; auto). cbn [fst snd]. specialize (Hpage k' Hk').
          destruct (String.eqb (ktext k) k'); exact Hpage.
        + rewrite put_entry_keys. cbn [fst]. now rewrite put_same.
      - assert (Hin : ~ In (ktext k) (map fst l)) by (intro X; apply value_of_in in X; congruence).
        rewrite Hkeys in M2. destruct (in_dec string_dec (ktext k) (map fst l)) as [Hn|_]; [contradiction|]. constructor.
        + rewrite map_app. cbn [map]. now rewrite El.
        + intros k' Hk'. rewrite value_of_snoc. cbn [fst snd]. specialize (Hpage k' Hk').
          destruct (String.eqb_spec (ktext k) k') as [E|Hne]; [rewrite <- E in *; rewrite Ev; exact Hpage|destruct (value_of k' l); exact Hpage].
        + rewrite map_app. apply Forall_app. split; [exact Pl|]. constructor; [exact Hx|constructor]. }
    assert (Same : forall e, exists r s' c', (Some (Exc e), s) = (Some r, s') /\ XDone (Exc e) = XDone r /\ wf s' /\ GRep l s' /\ quiet I c' s' /\ (c <= c' <= c + 1)%Z /\ only_at gown s s').
    { intro e. exists (Exc e), s, c. repeat (split; [reflexivity|]). split; [exact W|]. split; [now constructor|]. split; [exact Q|]. split; [lia|apply only_refl]. }
    destruct (value_of (ktext k) l) as [sh|] eqn:Ev.
    - destruct (ok && Nat.eqb (size a) 0) eqn:Eok.
      + apply andb_prop in Eok. destruct Eok as [-> E0]. apply Nat.eqb_eq in E0. cbn [fst snd].
        unfold memorize_array. rewrite E0. rewrite run_bind, run_ptry, (run_bind_exc _ _ _ _ _ (open_zero s _ _)). cbn [run]. apply Same.
      + assert (Hn : ok = true -> size a <> 0) by (intros ->; cbn in Eok; now apply Nat.eqb_neq).
        pose proof (memorize_old s (ktext k) a sh ok W Pk Ha Hn) as HM. destruct (Nat.ltb (sh_size sh) (size a)).
        * cbn [fst snd]. rewrite run_bind, run_ptry, HM. cbn [run]. apply Same.
        * destruct HM as (s1 & R1 & W1 & O1 & P1). cbn [fst snd]. rewrite run_bind, run_ptry, R1. cbn [run].
          destruct (G s1 _ W1 O1 P1 eq_refl) as (r & s' & c' & R' & -> & X). exists (Ok tt), s', c'. rewrite run_bind_ret in R'. auto.
    - destruct ok; [destruct (Nat.eqb_spec (size a) 0) as [E0|E0]|].
      + cbn [fst snd]. rewrite run_bind, run_ptry, (memorize_refused s (ktext k) a true Pk (or_intror E0)). cbn [run]. apply Same.
      + destruct (memorize_new s (ktext k) a W Pk Ha E0) as (s1 & R1 & W1 & O1 & P1). cbn [fst snd]. rewrite run_bind, run_ptry, R1. cbn [run].
        destruct (G s1 _ W1 O1 P1 eq_refl) as (r & s' & c' & R' & -> & X). exists (Ok tt), s', c'. rewrite run_bind_ret in R'. auto.
      + cbn [fst snd]. rewrite run_bind, run_ptry, (memorize_refused s (ktext k) a false Pk (or_introl eq_refl)). cbn [run]. apply Same.
  Qed.

  (** *** get *)
  Lemma value_of_listing k l : value_of k (map listing l) = option_map (fun sh => Some (about k (sh_arr sh))) (value_of k l).
  Proof.
    unfold value_of. induction l as [|[k' sh] l IH]; cbn; [reflexivity|]. destruct (String.eqb_spec k' k) as [->|_]; [reflexivity|exact IH].
  Qed.
  Lemma gp_getitem_rep l s k nl : wf s -> GRep l s -> pad_key K k ->
    run (gp_getitem hash jdec itemsize (pad nl) k) s =
    (Some (match value_of (ktext k) l with Some sh => Ok (sh_arr sh) | None => Exc KeyError end), s).
  Proof.
    intros W [R Pg Pl] [Hk Hx]. unfold gp_getitem. cbn [p_index]. rewrite run_ptry, run_bind, (meta_get_rep hash K hash_inj I m jenc jdec _ s k nl W R Hk).
    rewrite value_of_listing. pose proof (Pg _ Hx) as Pk. destruct (value_of (ktext k) l) as [sh|]; cbn [option_map].
    - destruct (json_ok (about (ktext k) (sh_arr sh))) as (j & Ej & _ & Dj). rewrite Ej. unfold remember_array.
      rewrite run_bind, run_of_res, Dj. cbn [am_name am_dtype am_shape about]. destruct Pk as (b & Hc & Hl & Hb & Hle & Ht).
      destruct (content_at _ _ _ Hc) as [i A].
      rewrite (run_bind_ok _ _ _ _ _ (attach_ok _ _ _ _ A Hb)), (run_bind_ok _ _ _ _ _ (read_ok _ _ _ _ A)).
      rewrite (proj2 (Nat.ltb_ge _ _)) by (rewrite Hl; exact Hle). cbn [run]. rewrite Ht. destruct (sh_arr sh); reflexivity.
    - reflexivity.
  Qed.
  Lemma gp_get_rep l s k nl : wf s -> GRep l s -> pad_key K k ->
    run (gp_get hash jdec itemsize (pad nl) k) s =
    (Some (Ok (match value_of (ktext k) l with Some sh => Some (sh_arr sh) | None => None end)), s).
  Proof.
    intros W R Hk. unfold gp_get. rewrite run_ptry, (gp_getitem_rep l s k nl W R Hk). destruct (value_of (ktext k) l); reflexivity.
  Qed.
  Lemma gp_keys_rep l s nl : GRep l s -> run (gp_keys (pad nl)) s = (Some (Ok (map fst l)), s).
  Proof.
    intros [R _ _]. unfold gp_keys. cbn [p_index]. pose proof (m_rep _ _ _ _ _ _ _ _ R) as Rp. rewrite map_keys in Rp by reflexivity.
    eapply update_rep; eauto.
  Qed.
  (** A block is asked for: never granted. *)
  Lemma gp_getitem_block_rep l s k nl : wf s -> GRep l s -> pad_key K k ->
    run (gp_getitem_block hash jdec (pad nl) k) s =
    (Some (Exc (match value_of (ktext k) l with Some _ => TypeError | None => KeyError end)), s).
  Proof.
    intros W [R Pg Pl] [Hk Hx]. unfold gp_getitem_block. cbn [p_index]. rewrite run_ptry, run_bind, (meta_get_rep hash K hash_inj I m jenc jdec _ s k nl W R Hk).
    rewrite value_of_listing. pose proof (Pg _ Hx) as Pk. destruct (value_of (ktext k) l) as [sh|]; cbn [option_map]; [|reflexivity].
    destruct (json_ok (about (ktext k) (sh_arr sh))) as (j & Ej & _ & Dj). rewrite Ej.
    rewrite run_bind, run_of_res, Dj. cbn [am_name about]. destruct Pk as (b & Hc & Hl & Hb & Hle & Ht).
    destruct (content_at _ _ _ Hc) as [i A]. rewrite (run_bind_ok _ _ _ _ _ (attach_ok _ _ _ _ A Hb)). reflexivity.
  Qed.

  (** *** del, without lockout *)
  Lemma last_held_filled l : l <> [] -> last_held (map listing l) <> None.
  Proof.
    intro Hl. destruct (exists_last Hl) as (l' & e & ->). unfold last_held. rewrite map_app, rev_app_distr. cbn. discriminate.
  Qed.
  Lemma gp_del_rep l s k fuel : wf s -> GRep l s -> pad_key K k ->
    exists r s', run (gp_del hash fuel (pad true) k) s = (Some r, s') /\
      fst (grid_step itemsize l (GDel k)) = XDone r /\ wf s' /\ GRep (snd (grid_step itemsize l (GDel k))) s' /\
      only_at (fun a => (rep_names hash I a \/ vals I a) \/ a = pad_address P (ktext k)) s s'.
  Proof.
    intros W [R Pg Pl] [Hk Hx]. unfold gp_del. rewrite (reserved_starts k Hx). cbn [p_index p_prefix].
    pose proof (Pg _ Hx) as Pk. cbn [grid_step].
    assert (Hkeys : map fst (map listing l) = map fst l) by (apply map_keys; reflexivity).
    pose proof (rep_nodup _ _ _ _ _ _ _ (m_rep _ _ _ _ _ _ _ _ R)) as Hd. rewrite Hkeys in Hd.
    destruct (value_of (ktext k) l) as [sh|] eqn:Ev; cbn [fst snd].
    2:{ exists (Exc KeyError), s. rewrite run_ptry, (run_bind_exc _ _ _ _ _ (delete_missing s _ false Pk)).
        split; [reflexivity|]. split; [reflexivity|]. split; [exact W|]. split; [now constructor|apply only_refl]. }
    destruct Pk as (b & Hcb & Hl & Hb & _). destruct (content_at _ _ _ Hcb) as [j A].
    destruct (delete_ok s _ j b false W A Hb) as (s1 & R1 & W1 & N1 & O1).
    pose proof (mrep_away _ _ _ _ R Hx O1) as M1.
    assert (Hin : In (ktext k) (map fst l)) by (eapply value_listed; eauto).
    pose proof (meta_remove_rep hash K hash_inj I m jenc jdec (map listing l) s1 k fuel W1 M1 Hk) as HR. rewrite Hkeys in HR.
    destruct (position (ktext k) (map fst l)) as [i|] eqn:Ep; [|apply position_none in Ep; contradiction].
    destruct HR as (s2 & R2 & W2 & M2 & O2).
    assert (Hl0 : l <> []) by (intros ->; destruct Hin). pose proof (last_held_filled l Hl0) as Hlast.
    assert (Hheld : held (ktext k) (map listing l) <> None) by (unfold held; rewrite value_of_listing, Ev; discriminate).
    exists (Ok tt), s2. rewrite run_ptry, (run_bind_ok _ _ _ _ _ R1), R2.
    destruct (held (ktext k) (map listing l)); [|congruence]. cbn [run].
    split; [reflexivity|]. split; [reflexivity|]. split; [exact W2|]. split.
    - constructor.
      + now rewrite map_swap_entry by reflexivity.
      + intros k' Hk'. rewrite value_of_swap by auto. apply (page_same s1).
        2:{ apply O2. intro X. apply (gaway k' Hk'). now left. }
        destruct (String.eqb_spec (ktext k) k') as [<-|Hne]; [exact N1|].
        eapply page_same; [now apply Pg|]. apply O1. intro X. apply pad_inj in X. auto.
      + rewrite swap_entry_keys. apply Forall_forall. intros x Hx'. apply swap_remove_in in Hx'; auto.
        rewrite Forall_forall in Pl. apply Pl, Hx'.
    - intros z Ha. apply same_trans with s1; [apply O1; intros <-; tauto|apply O2; tauto].
  Qed.

  Lemma gridpaper_attach l s nl : wf s -> GRep l s -> run (gridpaper P false nl) s = (Some (Ok (pad nl)), s).
  Proof.
    intros W [R _ _]. unfold gridpaper, meta_index.
    rewrite run_bind, (run_bind_ok _ _ _ _ _ (attach_rep hash K I m _ _ s nl W (m_rep _ _ _ _ _ _ _ _ R))). reflexivity.
  Qed.

  Lemma gvisit_rep l s c v : wf s -> GRep l s -> quiet I c s -> (c + 1 < 256 ^ 5)%Z -> plain_gvisit itemsize K v ->
    (Z.of_nat (S (List.length l)) < 256 ^ Z.of_nat 8)%Z ->
    exists s' c', run (gvisit_prog itemsize hash jenc jdec P v) s = (Some (Ok (fst (grid_step itemsize l (gv_op v)))), s') /\
      wf s' /\ GRep (snd (grid_step itemsize l (gv_op v))) s' /\ quiet I c' s' /\ (c <= c' <= c + 1)%Z /\ only_at gown s s'.
  Proof.
    intros W R Q Hc (Hf & Hp & Hw & Hnl) L. unfold gvisit_prog. rewrite (run_bind_ok _ _ _ _ _ (gridpaper_attach l s _ W R)).
    destruct v as [nl fuel o]. cbn [gv_op gv_nl gv_fuel] in *.
    assert (Same : GRep l s /\ quiet I c s /\ (c <= c <= c + 1)%Z /\ only_at gown s s) by (split; [exact R|]; split; [exact Q|]; split; [lia|apply only_refl]).
    destruct o as [k a ok|k|k|k| |].
    - specialize (Hp k eq_refl). specialize (Hw k a ok eq_refl).
      destruct (gp_set_rep l s c k a ok nl fuel W R Q Hc Hp Hw Hf L) as (r & s' & c' & E & Er & X).
      exists s', c'. rewrite (run_bind_ok _ _ _ _ _ (run_done _ _ _ _ E)), Er. split; [reflexivity|exact X].
    - specialize (Hp k eq_refl). exists s, c. rewrite (run_bind_ok _ _ _ _ _ (run_done _ _ _ _ (gp_getitem_rep l s k nl W R Hp))).
      cbn [grid_step fst snd]. split; [reflexivity|]. split; [exact W|exact Same].
    - specialize (Hp k eq_refl). exists s, c. rewrite (run_bind_ok _ _ _ _ _ (run_done _ _ _ _ (gp_get_rep l s k nl W R Hp))).
      cbn [grid_step fst snd]. split; [reflexivity|]. split; [exact W|exact Same].
    - specialize (Hp k eq_refl). specialize (Hnl k eq_refl). subst nl.
      destruct (gp_del_rep l s k fuel W R Hp) as (r & s' & E & Er & W' & R' & O').
      exists s', c. rewrite (run_bind_ok _ _ _ _ _ (run_done _ _ _ _ E)), Er. split; [reflexivity|]. split; [exact W'|]. split; [exact R'|].
      split; [|split; [lia|]].
      + eapply quiet_same; [exact Q|]. intros a Ha. apply O'. intros [[X|X]|X].
        * now apply (lock_not_rep hash I a).
        * now apply (lock_not_val hash I jdec a).
        * apply (gaway (ktext k)); [apply Hp|]. rewrite <- X. now right.
      + eapply only_sub; [exact O'|]. intros a [X|X]; [left; now left|right]. exists (ktext k). split; [apply Hp|exact X].
    - exists s, c. rewrite (run_bind_ok _ _ _ _ _ (gp_keys_rep l s nl R)).
      cbn [grid_step fst snd]. split; [reflexivity|]. split; [exact W|exact Same].
    - exists s, c. assert (E : run (gp_clear (pad nl)) s = (Some (Exc AttributeError), s)) by (unfold gp_clear; now rewrite (run_bind_ok _ _ _ _ _ (gp_keys_rep l s nl R))).
      rewrite (run_bind_ok _ _ _ _ _ (run_done _ _ _ _ E)).
      cbn [grid_step fst snd]. split; [reflexivity|]. split; [exact W|exact Same].
  Qed.
  Lemma grid_step_length l o : List.length (snd (grid_step itemsize l o)) <= S (List.length l).
  Proof.
    destruct o as [k a ok|k|k|k| |]; cbn [grid_step snd]; try lia.
    - destruct (value_of (ktext k) l) as [sh|].
      + destruct (ok && Nat.eqb (size a) 0); [cbn; lia|]. destruct (Nat.ltb (sh_size sh) (size a)); cbn [snd]; [lia|]. rewrite put_entry_length. lia.
      + destruct ok; [destruct (Nat.eqb (size a) 0)|]; cbn [snd]; rewrite ?app_length; cbn [List.length]; lia.
    - destruct (value_of (ktext k) l) as [sh|] eqn:E; cbn [snd]; [|lia]. pose proof (value_listed _ _ _ E) as Hin.
      rewrite <- (map_length fst (swap_entry _ _)), swap_entry_keys.
      destruct l as [|[z w] r _] using rev_ind; [destruct Hin|]. rewrite map_app. cbn [map fst]. pose proof (put_le (ktext k) z (map fst r)) as X.
      rewrite app_length, map_length in *. cbn [List.length]. lia.
  Qed.

  Lemma gvisits_rep h : forall l s c, wf s -> GRep l s -> quiet I c s -> Forall (plain_gvisit itemsize K) h ->
    (c + Z.of_nat (List.length h) < 256 ^ 5)%Z -> (Z.of_nat (List.length l + List.length h) < 256 ^ Z.of_nat 8)%Z ->
    exists s' c', run (gvisits_prog itemsize hash jenc jdec P h) s = (Some (Ok (fst (grid_run itemsize l (map gv_op h)))), s') /\
      wf s' /\ GRep (snd (grid_run itemsize l (map gv_op h))) s' /\ quiet I c' s' /\ (c <= c' <= c + Z.of_nat (List.length h))%Z /\
      (List.length (snd (grid_run itemsize l (map gv_op h))) <= List.length l + List.length h) /\ only_at gown s s'.
  Proof.
    induction h as [|v h IH]; intros l s c W R Q F Hc L.
    - exists s, c. cbn. split; [reflexivity|]. split; [exact W|]. split; [exact R|]. split; [exact Q|]. split; [lia|]. split; [lia|apply only_refl].
    - inversion F as [|? ? Hv Hh]; subst. cbn [gvisits_prog map grid_run List.length] in *.
      destruct (gvisit_rep l s c v W R Q) as (s1 & c1 & R1 & W1 & Rp1 & Q1 & Hc1 & O1); [lia|exact Hv|lia|].
      pose proof (grid_step_length l (gv_op v)) as Hl1.
      destruct (grid_step itemsize l (gv_op v)) as [o l1]. cbn [fst snd] in *.
      destruct (IH l1 s1 c1 W1 Rp1 Q1 Hh) as (s2 & c2 & R2 & W2 & Rp2 & Q2 & Hc2 & Hl2 & O2); [lia|lia|].
      destruct (grid_run itemsize l1 (map gv_op h)) as [xs l2]. cbn [fst snd] in *.
      exists s2, c2. rewrite (run_bind_ok _ _ _ _ _ R1), (run_bind_ok _ _ _ _ _ R2). cbn [run].
      split; [reflexivity|]. split; [exact W2|]. split; [exact Rp2|]. split; [exact Q2|]. split; [lia|]. split; [lia|].
      eapply only_trans; eauto.
  Qed.
End GridRep.

Lemma grep_create hash K P jenc jdec itemsize s nl : wf s -> vacant (grid_names hash P) s ->
  exists s', run (gridpaper P true nl) s = (Some (Ok (mkPad P (mkIndex (pad_index P) {| hname := pad_index P; hid := next s |} nl))), s') /\
    wf s' /\ GRep hash K P (next s) jenc jdec itemsize [] s' /\ quiet (pad_index P) 0 s' /\ only_at (eq (pad_index P)) s s'.
Proof.
  intros W Vc. destruct (mrep_create hash K (pad_index P) jenc jdec s nl W) as (s1 & R1 & W1 & Rp1 & Q1 & O1).
  { intros a Ha. apply Vc. now left. }
  exists s1. unfold gridpaper. rewrite (run_bind_ok _ _ _ _ _ R1). split; [reflexivity|]. split; [exact W1|].
  split; [|split; [exact Q1|exact O1]]. constructor; [exact Rp1| |constructor]. intros k Hk. cbn. rewrite (same_names s s1).
  - apply Vc. right. eauto.
  - apply O1. intro E. apply (pad_not_index P k ""); [exact Hk|]. now rewrite append_nil_r.
Qed.
Lemma grid_history hash K P jenc jdec itemsize s nl h : collision_free hash K -> (forall md, stable jenc jdec md) -> wf s -> vacant (grid_names hash P) s ->
  Forall (plain_gvisit itemsize K) h -> (Z.of_nat (List.length h) < 256 ^ 5)%Z ->
  exists s' c, run (gridpaper P true nl >>> gvisits_prog itemsize hash jenc jdec P h) s =
      (Some (Ok (fst (grid_run itemsize [] (map gv_op h)))), s') /\
    wf s' /\ GRep hash K P (next s) jenc jdec itemsize (sheets_after itemsize h) s' /\ quiet (pad_index P) c s' /\
    (0 <= c <= Z.of_nat (List.length h))%Z /\ List.length (sheets_after itemsize h) <= List.length h /\
    only_at (grid_names hash P) s s'.
Proof.
  intros HK HJ W Vc F L. destruct (grep_create hash K P jenc jdec itemsize s nl W Vc) as (s1 & R1 & W1 & Rp1 & Q1 & O1).
  destruct (gvisits_rep hash K HK P (next s) jenc jdec itemsize HJ h [] s1 0 W1 Rp1 Q1 F) as (s2 & c2 & R2 & W2 & Rp2 & Q2 & Hc2 & Hl2 & O2).
  - lia.
  - cbn [List.length]. rewrite pow8. change (256 ^ 5)%Z with 1099511627776%Z in L. lia.
  - exists s2, c2. rewrite (run_bind_ok _ _ _ _ _ R1), R2. split; [reflexivity|]. split; [exact W2|]. split; [exact Rp2|]. split; [exact Q2|].
    split; [lia|]. split; [exact Hl2|].
    intros a Ha. apply same_trans with s1; [apply O1; intros <-; apply Ha; left; left; left; reflexivity|].
    apply O2. intro Ho. apply Ha. now apply (proj1 (gown_names hash P jdec a)).
Qed.
