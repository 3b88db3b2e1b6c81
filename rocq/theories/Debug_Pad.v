(** Notepads with debug=True where the directory of the log is missing. *)
From Verif Require Export Debug_Lemmas.

Section Fails.
  Variable hash : bytes -> string.
  Variable K : string -> Prop.
  Hypothesis hash_inj : collision_free hash K.
  Variables (here : nat -> string) (shown : exn -> string).

  (** ** Without a lock *)
  Section Ix.
    Variable I : string.
    Variable m : N.
    Notation H := {| hname := I; hid := m |}.
    Notation Rep ks s := (RepN hash K I m (List.length ks) ks s).

    (** _add is complete, and raises. *)
    Lemma d_add_all x k ok w s r s' : run (_add hash x k ok) s = (Some r, s') ->
      run (d_add true false here hash x k ok w) s =
      (Some (Ok (w, match r with Ok _ => Exc FileNotFoundError | Exc e => Exc e end)), s').
    Proof.
      unfold _add, d_add. rewrite run_bind. unfold dbind at 1, dtry at 1, silent at 1. rewrite run_bind, run_ptry.
      destruct (run (check hash x k) s) as [[[o|e]|] s1]; cbn [run fst snd]; [|intros [= <- <-]; reflexivity|discriminate].
      destruct o as [p|].
      - destruct ok; intros [= <- <-]; reflexivity.
      - rewrite run_bind. unfold dbind at 1, dtry at 1, silent at 1. rewrite run_bind, run_ptry.
        destruct (run (update_length x) s1) as [[[n|e]|] s2]; cbn [run fst snd]; [|intros [= <- <-]; reflexivity|discriminate].
        intro E. unfold dbind at 1, dtry at 1, silent at 1. rewrite run_bind, run_ptry.
        match goal with |- context [run ?p' s2] => set (p := p') end.
        assert (X : run (p >>> Ret n) s2 = (Some r, s')).
        { rewrite <- E. unfold p.
          rewrite bind_assoc. apply bind_ext. intros b t1. rewrite bind_assoc. apply bind_ext. intros u t2.
          rewrite bind_assoc. apply bind_ext. intros h t3. rewrite bind_assoc. apply bind_ext. intros u' t4.
          rewrite bind_assoc. apply bind_ext. intros p' t5. rewrite bind_assoc. apply bind_ext. intros nb t6. reflexivity. }
        clearbody p. rewrite run_bind in X. destruct (run p s2) as [[[u|e]|] s3]; cbn [run] in X; [| |discriminate];
          injection X as <- <-; reflexivity.
    Qed.

    Lemma update_list n ks s nl : wf s -> at_ s I m (len8 n) -> (Z.of_nat n < 256 ^ Z.of_nat 8)%Z ->
      Forall (fun k => k <> "") ks -> List.length ks <= n ->
      (forall i k, nth_error ks i = Some k -> content s (key_address I (Z.of_nat i)) = Some k) ->
      (forall i, List.length ks <= i < n -> names s (key_address I (Z.of_nat i)) = None) ->
      run (update (mkIndex I H nl)) s = (Some (Ok ks), s).
    Proof.
      intros W A Hlen Hne Hle HK HN. set (cells := map Some ks ++ repeat None (n - List.length ks)).
      assert (Hl : List.length cells = n) by (unfold cells; rewrite app_length, map_length, repeat_length; lia).
      rewrite (update_cells _ s m cells W).
      - unfold cells. now rewrite collect_hole.
      - reflexivity.
      - rewrite Hl. exact A.
      - rewrite Hl. exact Hlen.
      - intros j Hj. rewrite Hl in Hj. cbn [ix_name]. unfold cells. destruct (Nat.lt_ge_cases j (List.length ks)) as [Hk|Hk].
        + rewrite nth_error_app1 by now rewrite map_length. rewrite nth_map_some.
          destruct (nth_error ks j) as [k|] eqn:E; [|apply nth_error_None in E; lia]. now rewrite (HK _ _ E).
        + rewrite nth_error_app2 by now rewrite map_length. rewrite map_length.
          rewrite names_none by (apply HN; lia). rewrite nth_error_repeat by lia. reflexivity.
    Qed.

    (** _delitem stops half-way: the key is off the list, but still found. *)
    Lemma d_del_half ks s k i nl w : wf s -> Rep ks s -> plain_key K k -> position (ktext k) ks = Some i ->
      exists s', run (d_delitem true false here hash (mkIndex I H nl) k w) s = (Some (Ok (w, Exc FileNotFoundError)), s') /\
        wf s' /\ only_at (rep_names hash I) s s' /\
        content s' (name_address hash I (ktext k)) = Some (len8 (Z.to_nat i)) /\
        forall t, wf t -> (forall a, rep_names hash I a -> same_at s' t a) -> forall nl',
          run (update (mkIndex I H nl')) t = (Some (Ok (swap_remove (ktext k) ks)), t).
    Proof.
      intros W R (Hne & Hraw & HKk) Hp. apply position_some in Hp. destruct Hp as [Hi E].
      destruct (exists_last (l := ks)) as (l & z & El); [intros ->; cbn in Hi; lia|]. subst ks.
      set (L := List.length l). rewrite app_length in Hi. cbn [List.length] in Hi.
      pose proof (rep_mem _ _ _ _ _ _ _ R) as Am. rewrite app_length in Am. cbn [List.length] in Am. rewrite Nat.add_1_r in Am. fold L in Am.
      pose proof (rep_len _ _ _ _ _ _ _ R) as Hlen. rewrite app_length in Hlen. cbn in Hlen.
      pose proof (rep_ne _ _ _ _ _ _ _ R) as Fne. apply Forall_app in Fne. destruct Fne as [Fne Fz]. inversion Fz as [|? ? Hz _]; subst.
      pose proof (rep_nodup _ _ _ _ _ _ _ R) as Hd. apply nodup_snoc in Hd. destruct Hd as [Hd Hzl].
      assert (Hzn : nth_error (l ++ [z]) L = Some z) by (unfold L; rewrite nth_error_app2, Nat.sub_diag; [reflexivity|lia]).
      destruct (content_at _ _ _ (rep_key _ _ _ _ _ _ _ R _ _ Hzn)) as [jz Az].
      destruct (content_at _ _ _ (rep_name _ _ _ _ _ _ _ R _ _ E)) as [jk Ak].
      unfold d_delitem. unfold dbind at 1, dtry at 1, silent at 1. rewrite run_bind, run_ptry. unfold check. rewrite Hraw.
      rewrite (check_present hash K I m _ _ s _ _ nl W R E). cbn [run fst snd].
      unfold dbind at 1, dtry at 1, silent at 1. rewrite run_bind, run_ptry.
      rewrite (length_rep hash K I m _ _ s nl R). cbn [run fst snd ix_name ix_mem].
      rewrite app_length. cbn [List.length]. rewrite Nat.add_1_r. fold L.
      replace (Z.of_nat (S L) - 1)%Z with (Z.of_nat L) by lia. rewrite Z2Nat.id by lia.
      destruct (nth_snoc _ _ _ _ E) as [[Hl Hn]|[Hl Ez]].
      - (* the last key moves *)
        fold L in Hl. replace (i =? Z.of_nat L)%Z with false by (symmetry; apply Z.eqb_neq; lia).
        set (j := Z.to_nat i) in *. replace i with (Z.of_nat j) in * by lia.
        assert (Hkz : hash (ktext k) <> hash z) by (eapply (rep_nth_hash hash K hash_inj I m _ _ _ j L); eauto; lia).
        assert (Zk : z <> ktext k) by congruence.
        destruct (open_fresh s (key_address I (Z.of_nat j)) (String.length z) W) as (s1 & i1 & R1 & W1 & A1 & O1).
        { now apply length_ne. } { rewrite (rep_key _ _ _ _ _ _ _ R _ _ E). congruence. }
        destruct (write_ok s1 _ i1 _ z W1 A1) as (s2 & R2 & W2 & A2 & O2); [now rewrite zeros_length|].
        destruct (content_at _ _ _ (rep_name _ _ _ _ _ _ _ R _ _ Hzn)) as [jn An].
        assert (An2 : at_ s2 (name_address hash I z) jn (len8 L)).
        { apply (at_same s1); [apply (at_same s); [exact An|apply O1]|apply O2]; adn hash I; try tauto. }
        destruct (write_ok s2 _ jn _ (len8 j) W2 An2) as (s3 & R3 & W3 & A3 & O3); [now rewrite !le_length|].
        destruct (unlink_ok s3 (key_address I (Z.of_nat L)) jz W3) as (s4 & R4 & W4 & N4 & O4).
        { cut (at_ s3 (key_address I (Z.of_nat L)) jz z); [intro X; apply X|].
          apply (at_same s2); [apply (at_same s1); [apply (at_same s); [exact Az|apply O1]|apply O2]|apply O3]; adn hash I; try tauto. }
        exists s4. split; [|split; [exact W4|split; [|split]]].
        + unfold dbind at 1, dtry at 1. rewrite run_bind. unfold dbind at 1, dtry at 1, silent at 1. rewrite run_bind, run_ptry.
          rewrite (run_bind_ok _ _ _ _ _ (attach_ok _ _ _ _ Az Hz)), (run_bind_ok _ _ _ _ _ (read_ok _ _ _ _ Az)).
          rewrite (run_bind_ok _ _ _ _ _ R1), (run_bind_ok _ _ _ _ _ R2).
          rewrite (run_bind_ok _ _ _ _ _ (attach_ok _ _ _ _ An2 (le8_ne _))).
          rewrite to_bytes_in by lia. cbn [of_res]. rewrite run_bind_ret, (run_bind_ok _ _ _ _ _ R3), R4. reflexivity.
        + intros a Ha. apply same_trans with s1; [apply O1|apply same_trans with s2; [apply O2|apply same_trans with s3; [apply O3|apply O4]]];
            intros <-; apply Ha; unfold rep_names; eauto.
        + apply (at_content _ _ jk). apply (at_same s3); [apply (at_same s2); [apply (at_same s1); [apply (at_same s); [exact Ak|apply O1]|apply O2]|apply O3]|apply O4];
            adn hash I; try tauto. congruence.
        + intros t Wt St nl'. rewrite swap_other by exact Zk.
          assert (Ss : forall a, rep_names hash I a -> a <> key_address I (Z.of_nat j) -> a <> name_address hash I z -> a <> key_address I (Z.of_nat L) ->
                    same_at s t a).
          { intros a Ha D1 D2 D3. apply same_trans with s4; [|now apply St].
            apply same_trans with s1; [apply O1; congruence|apply same_trans with s2; [apply O2; congruence|apply same_trans with s3; [apply O3; congruence|apply O4; congruence]]]. }
          assert (Pn : forall i' k', nth_error (put_in_place (ktext k) z l) i' = Some k' -> content t (key_address I (Z.of_nat i')) = Some k').
          { intros i' k'. rewrite (put_nth (ktext k) z l j Hd Hn). destruct (Nat.eqb_spec i' j) as [->|D].
            - intros [= <-]. rewrite (same_content s4 t) by (apply St; unfold rep_names; eauto).
              apply (at_content _ _ i1). apply (at_same s3); [apply (at_same s2); [exact A2|apply O3]|apply O4]; adn hash I; try tauto.
            - intro Ei. assert (i' < L) by (apply nth_error_Some; congruence).
              rewrite (same_content s t) by (apply Ss; [unfold rep_names; eauto| | |]; adn hash I; try tauto).
              apply (rep_key _ _ _ _ _ _ _ R). now apply nth_app_l. }
          apply (update_list (S L)); auto.
          * apply (at_same s); [exact Am|]. apply Ss; [now left| | |]; adn hash I; try tauto.
          * lia.
          * apply Forall_forall. intros x Hx. apply put_in in Hx. destruct Hx as [->|Hx]; [exact Hz|]. rewrite Forall_forall in Fne. auto.
          * rewrite put_length. unfold L. lia.
          * intros i' Hi'. rewrite put_length in Hi'. replace i' with L by (unfold L in *; lia).
            rewrite (same_names s4 t); [exact N4|]. apply St. unfold rep_names; eauto.
      - (* it is the last *)
        fold L in Hl. subst z. replace i with (Z.of_nat L) in * by lia. rewrite Z.eqb_refl. rewrite Nat2Z.id in *.
        destruct (delete_ok s _ jz _ false W Az Hne) as (s1 & R1 & W1 & N1 & O1).
        exists s1. split; [|split; [exact W1|split; [|split]]].
        + unfold dbind at 1, dtry at 1. rewrite run_bind. unfold dbind at 1, dtry at 1, silent at 1. rewrite run_bind, run_ptry, R1. reflexivity.
        + intros a Ha. apply O1. intros <-. apply Ha. unfold rep_names; eauto.
        + apply (at_content _ _ jk). apply (at_same s); [exact Ak|]. apply O1. adn hash I; try tauto.
        + intros t Wt St nl'. rewrite swap_last.
          assert (Ss : forall a, rep_names hash I a -> a <> key_address I (Z.of_nat L) -> same_at s t a).
          { intros a Ha D. apply same_trans with s1; [apply O1; congruence|now apply St]. }
          apply (update_list (S L)); auto.
          * apply (at_same s); [exact Am|]. apply Ss; [now left|]. adn hash I; try tauto.
          * lia.
          * intros i' k' Ei. assert (i' < L) by (apply nth_error_Some; congruence).
            rewrite (same_content s t) by (apply Ss; [unfold rep_names; eauto|]; adn hash I).
            apply (rep_key _ _ _ _ _ _ _ R). now apply nth_app_l.
          * intros i' Hi'. replace i' with L by (unfold L in *; lia).
            rewrite (same_names s1 t); [exact N1|]. apply St. unfold rep_names; eauto.
    Qed.
  End Ix.

  (** ** Notepads *)
  Section Np.
    Variable P : string.
    Variable m : N.
    Context {V : Type} (enc : V -> res bytes) (dec : bytes -> res V) (isnone : V -> bool) (vstr : V -> string).
    Notation I := (pad_index P).
    Notation H := {| hname := pad_index P; hid := m |}.
    Notation PRep := (PRep hash K P m enc dec).
    Notation pad := (pad_object P m).
    Notation dset := (d_np_set true false here shown hash enc vstr).
    Notation ddel := (d_np_del true false here shown hash).

    Lemma prep_shows l s nl : PRep l s -> shows K dec isnone (pad nl) l s.
    Proof.
      intro R. split; [eapply np_keys_rep; exact R|]. intros k [_ Hx]. eapply np_getitem_rep; [exact R|exact Hx].
    Qed.
    Lemma prep_lock l s s' : PRep l s -> only_at (lock_names I) s s' -> PRep l s'.
    Proof.
      intros [R Sl Pl] O. constructor; [eapply rep_lock; eauto| |exact Pl].
      intros k Hk. eapply slot_same; [now apply Sl|]. apply O. intro X. now apply (away_lock hash P k _ Hk X).
    Qed.
    Lemma marker_lock c n a : a = count_address I \/ a = marker_address I (c + Z.of_nat n) -> lock_names I a.
    Proof. unfold lock_names. intros [->| ->]; eauto. Qed.

    (** *** with the lock *)
    Lemma set_fails l c n s fuel k v ok w : wf s -> PRep l s -> littered I c n s -> (c + Z.of_nat n + 1 < 256 ^ 5)%Z -> n < fuel ->
      pad_key K k ->
      exists s', run (dset fuel (pad false) k v false ok w) s = (Some (Ok (w, Exc FileNotFoundError)), s') /\
        wf s' /\ PRep l s' /\ littered I c (S n) s'.
    Proof.
      intros W R L Hc Hf [_ Hx]. unfold d_np_set. rewrite Hx, andb_false_r. cbn [p_index pad_object p_prefix].
      unfold d_tag_add. cbn [ix_no_lockout ix_name].
      destruct (with_lock_fails here shown I c n s fuel (d_add true false here hash (mkIndex I H false) k ok) w W L Hc Hf)
        as (s1 & R1 & W1 & L1 & O1).
      exists s1. split; [|split; [exact W1|split; [|exact L1]]].
      - unfold dtry at 1. rewrite run_bind. unfold dbind at 1, dtry at 1. rewrite (run_bind_ok _ _ _ _ _ R1). reflexivity.
      - eapply prep_lock; [exact R|]. eapply only_sub; [exact O1|]. apply marker_lock.
    Qed.

    Lemma sets_fail l c fuel ats : Forall (fun a => pad_key K (fst (fst a))) ats -> forall n s w, wf s -> PRep l s -> littered I c n s ->
      (c + Z.of_nat n + Z.of_nat (List.length ats) < 256 ^ 5)%Z -> n + List.length ats <= fuel ->
      exists s', run (each (fun a => dset fuel (pad false) (fst (fst a)) (snd (fst a)) false (snd a)) ats w) s =
          (Some (Ok (w, Ok (map (fun _ => Exc FileNotFoundError) ats))), s') /\
        wf s' /\ PRep l s' /\ littered I c (n + List.length ats) s'.
    Proof.
      intro F. induction F as [|a ats Hk F IH]; intros n s w W R L Hc Hf; cbn [each List.length] in *.
      - exists s. rewrite Nat.add_0_r. split; [reflexivity|]. auto.
      - destruct (set_fails l c n s fuel (fst (fst a)) (snd (fst a)) (snd a) w W R L) as (s1 & R1 & W1 & Rp1 & L1); [lia|lia|exact Hk|].
        destruct (IH (S n) s1 w W1 Rp1 L1) as (s2 & R2 & W2 & Rp2 & L2); [lia|lia|].
        exists s2. split; [|split; [exact W2|split; [exact Rp2|]]].
        + unfold dtry at 1. rewrite (run_bind_ok _ _ _ _ _ R1). cbn [fst snd].
          unfold dbind, dtry at 1. rewrite (run_bind_ok _ _ _ _ _ R2). reflexivity.
        + replace (n + S (List.length ats)) with (S n + List.length ats) by lia. exact L2.
    Qed.

    Lemma del_absent l s nl fuel k w : PRep l s -> pad_key K k -> held (ktext k) l = None ->
      run (ddel fuel (pad nl) k w) s = (Some (Ok (w, Exc KeyError)), s).
    Proof.
      intros [R Sl Pl] [_ Hx] E. unfold d_np_del. rewrite (reserved_starts k Hx). cbn [p_prefix pad_object].
      specialize (Sl _ Hx). rewrite E in Sl. cbn [slot] in Sl.
      unfold dtry at 1. rewrite run_bind. unfold dbind at 1, dtry at 1, silent at 1. rewrite run_bind, run_ptry.
      rewrite (delete_missing s _ false Sl). reflexivity.
    Qed.

    (** The note goes first. *)
    Lemma del_note l s k v : wf s -> PRep l s -> pad_key K k -> held (ktext k) l = Some v ->
      exists s1, run (delete_block (pad_address P (ktext k)) false) s = (Some (Ok tt), s1) /\ wf s1 /\
        PRep (put_entry (ktext k) (ktext k, None) l) s1 /\ only_at (eq (pad_address P (ktext k))) s s1.
    Proof.
      intros W [R Sl Pl] [Hk Hx] E. pose proof (Sl _ Hx) as Sk. rewrite E in Sk. destruct Sk as (b & _ & Hb & _ & Hcb).
      destruct (content_at _ _ _ Hcb) as [j A].
      destruct (delete_ok s _ j b false W A Hb) as (s1 & R1 & W1 & N1 & O1). exists s1. split; [exact R1|]. split; [exact W1|].
      split; [|exact O1].
      assert (Hin : In (ktext k) (map fst l)).
      { unfold held in E. destruct (value_of (ktext k) l) eqn:Ev; [eapply value_in; eauto|discriminate]. }
      pose proof (rep_nodup _ _ _ _ _ _ _ R) as Hd.
      assert (Ek : map fst (put_entry (ktext k) (ktext k, None) l) = map fst l).
      { rewrite put_entry_keys. cbn [fst]. clear. induction (map fst l) as [|x r IH]; cbn; [reflexivity|].
        destruct (String.eqb_spec x (ktext k)) as [->|]; congruence. }
      constructor.
      - rewrite Ek. eapply rep_same; [exact R|]. intros a Ha. apply O1. now apply (away_rep hash P).
      - intros k' Hk'. rewrite held_put by auto. destruct (String.eqb_spec (ktext k) k') as [<-|Hne]; [exact N1|].
        eapply slot_same; [now apply Sl|]. apply O1. intro X. apply pad_inj in X. auto.
      - rewrite Ek. exact Pl.
    Qed.

    Lemma del_locked l c n s fuel k v w : wf s -> PRep l s -> littered I c n s -> (c + Z.of_nat n + 1 < 256 ^ 5)%Z -> n < fuel ->
      pad_key K k -> held (ktext k) l = Some v ->
      exists s', run (ddel fuel (pad false) k w) s = (Some (Ok (w, Exc KeyError)), s') /\
        wf s' /\ PRep (put_entry (ktext k) (ktext k, None) l) s' /\ littered I c (S n) s'.
    Proof.
      intros W R L Hc Hf Hk E. destruct (del_note l s k v W R Hk E) as (s1 & R1 & W1 & Rp1 & O1).
      assert (L1 : littered I c n s1).
      { assert (S1 : forall a, lock_names I a -> same_at s s1 a) by (intros a Ha; apply O1; now apply (away_lock hash P (ktext k) _ (proj2 Hk))).
        destruct L as (H0 & H1 & H2 & H3). split; [exact H0|]. split; [|split].
        - intros i Hi. rewrite (same_names s s1); [now apply H1|]. apply S1. right; left; eauto.
        - intro i. rewrite (same_names s s1); [apply H2|]. apply S1. right; right; eauto.
        - assert (X : same_at s s1 (count_address I)) by (apply S1; now left).
          rewrite (same_names _ _ _ X), (same_content _ _ _ X). exact H3. }
      destruct (with_lock_fails here shown I c n s1 fuel (d_delitem true false here hash (mkIndex I H false) k) w W1 L1 Hc Hf)
        as (s2 & R2 & W2 & L2 & O2).
      exists s2. split; [|split; [exact W2|split; [|exact L2]]].
      - unfold d_np_del. rewrite (reserved_starts k (proj2 Hk)). cbn [p_prefix p_index pad_object].
        unfold dtry at 1. rewrite run_bind. unfold dbind at 1, dtry at 1, silent at 1. rewrite run_bind, run_ptry, R1. cbn [run fst snd].
        unfold d_tag_remove, d_tag_del. cbn [ix_no_lockout ix_name]. unfold dbind at 1, dtry at 1.
        rewrite (run_bind_ok _ _ _ _ _ R2). reflexivity.
      - eapply prep_lock; [exact Rp1|]. eapply only_sub; [exact O2|]. apply marker_lock.
    Qed.

    (** *** with no_lockout *)
    Lemma set_new_free l s fuel k v ok w : wf s -> PRep l s -> pad_key K k -> value_of (ktext k) l = None ->
      (Z.of_nat (S (List.length l)) < 256 ^ Z.of_nat 8)%Z ->
      exists s', run (dset fuel (pad true) k v false ok w) s = (Some (Ok (w, Exc FileNotFoundError)), s') /\
        wf s' /\ PRep (l ++ [(ktext k, None)]) s'.
    Proof.
      intros W [R Sl Pl] [Hk Hx] E Hlen.
      assert (Hin : ~ In (ktext k) (map fst l)) by (intro X; apply value_of_in in X; congruence).
      destruct (add_new hash K hash_inj I m (map fst l) s k ok true W R Hk Hin) as (s1 & R1 & W1 & Rp1 & O1); [now rewrite map_length|].
      exists s1. split; [|split; [exact W1|]].
      - unfold d_np_set. rewrite Hx, andb_false_r. cbn [p_index pad_object p_prefix].
        unfold d_tag_add. cbn [ix_no_lockout ix_name d_with_lock].
        unfold dtry at 1. rewrite run_bind. unfold dbind at 1, dtry at 1.
        rewrite (run_bind_ok _ _ _ _ _ (d_add_all _ k ok w s _ s1 R1)). reflexivity.
      - constructor.
        + rewrite map_app. exact Rp1.
        + intros k' Hk'. rewrite held_snoc. cbn [fst snd]. pose proof (Sl _ Hk') as Sk. unfold held in Sk.
          assert (Sm : same_at s s1 (pad_address P k')).
          { apply O1. intro X. apply (away_rep hash P k' (pad_address P k') Hk'); [|reflexivity]. eapply add_names_rep; exact X. }
          destruct (value_of k' l); [eapply slot_same; eauto|].
          destruct (String.eqb (ktext k) k'); eapply slot_same; eauto.
        + rewrite map_app. apply Forall_app. split; [exact Pl|]. constructor; [exact Hx|constructor].
    Qed.
    Lemma set_old_free l s fuel k v ok w : wf s -> PRep l s -> pad_key K k -> value_of (ktext k) l <> None ->
      run (dset fuel (pad true) k v false ok w) s = (Some (Ok (w, Exc (if ok then FileNotFoundError else KeyError))), s).
    Proof.
      intros W [R Sl Pl] [Hk Hx] E. apply value_of_in in E. destruct (position_in _ _ E) as [i Hi].
      pose proof (add_old hash K hash_inj I m (map fst l) s k ok true i W R Hk Hi) as R1.
      unfold d_np_set. rewrite Hx, andb_false_r. cbn [p_index pad_object p_prefix].
      unfold d_tag_add. cbn [ix_no_lockout ix_name d_with_lock].
      unfold dtry at 1. rewrite run_bind. unfold dbind at 1, dtry at 1.
      rewrite (run_bind_ok _ _ _ _ _ (d_add_all _ k ok w s _ s R1)). destruct ok; reflexivity.
    Qed.

    Lemma del_free l c s fuel k v w : wf s -> PRep l s -> quiet I c s -> (c + 1 < 256 ^ 5)%Z ->
      pad_key K k -> held (ktext k) l = Some v ->
      exists s', run (ddel fuel (pad true) k w) s = (Some (Ok (w, Exc KeyError)), s') /\
        (forall nl, shows K dec isnone (pad nl) (swap_entry (ktext k) l) s') /\
        forall nl fuel' v', fuel' <> 0 -> stable enc dec v' ->
          exists s2, run (np_set hash enc fuel' (pad nl) k v' false true) s' = (Some (Ok tt), s2) /\
            run (np_keys (pad nl)) s2 = (Some (Ok (swap_remove (ktext k) (map fst l))), s2) /\
            run (np_getitem dec isnone (pad nl) k) s2 = (Some (look isnone (Some (Some v'))), s2).
    Proof.
      intros W Rp Q Hc Hk E. pose proof Rp as [R Sl Pl].
      destruct (del_note l s k v W Rp Hk E) as (s1 & R1 & W1 & Rp1 & O1).
      assert (Hin : In (ktext k) (map fst l)).
      { unfold held in E. destruct (value_of (ktext k) l) eqn:Ev; [eapply value_in; eauto|discriminate]. }
      pose proof (rep_nodup _ _ _ _ _ _ _ R) as Hd.
      destruct (position_in _ _ Hin) as [i Hi].
      assert (R1' : RepN hash K I m (List.length (map fst l)) (map fst l) s1).
      { eapply rep_same; [exact R|]. intros a Ha. apply O1. now apply (away_rep hash P (ktext k) a (proj2 Hk)). }
      assert (N1 : names s1 (pad_address P (ktext k)) = None).
      { pose proof (pr_slot _ _ _ _ _ _ _ _ Rp1 _ (proj2 Hk)) as X. rewrite held_put, String.eqb_refl in X by auto. exact X. }
      destruct (d_del_half I m (map fst l) s1 k i true w W1 R1' (proj1 Hk) Hi) as (s2 & R2 & W2 & O2 & Cn & Up).
      assert (O12 : forall k', starts_index k' = false -> same_at s1 s2 (pad_address P k')).
      { intros k' Hk'. apply O2. intro X. now apply (away_rep hash P k' _ Hk' X). }
      assert (Q2 : quiet I c s2).
      { eapply quiet_same; [exact Q|]. intros a Ha. apply same_trans with s1.
        - apply O1. now apply (away_lock hash P (ktext k) _ (proj2 Hk)).
        - apply O2. now apply (lock_not_rep hash I). }
      exists s2. split; [|split].
      - unfold d_np_del. rewrite (reserved_starts k (proj2 Hk)). cbn [p_prefix p_index pad_object].
        unfold dtry at 1. rewrite run_bind. unfold dbind at 1, dtry at 1, silent at 1. rewrite run_bind, run_ptry, R1. cbn [run fst snd].
        unfold d_tag_remove, d_tag_del. cbn [ix_no_lockout ix_name d_with_lock]. unfold dbind at 1, dtry at 1.
        rewrite (run_bind_ok _ _ _ _ _ R2). reflexivity.
      - intro nl. split.
        + rewrite swap_entry_keys. unfold np_keys. cbn [p_index pad_object]. apply (Up s2 W2). intros. apply same_refl.
        + intros k' [_ Hx']. rewrite value_of_swap by auto.
          pose proof (pr_slot _ _ _ _ _ _ _ _ Rp1 _ Hx') as X. rewrite held_put in X by auto.
          pose proof (slot_same _ _ _ s1 s2 _ _ X (O12 _ Hx')) as Y. clear X. unfold np_getitem. cbn [p_prefix pad_object].
          assert (Miss : names s2 (pad_address P (ktext k')) = None -> run (remember dec (pad_address P (ktext k'))) s2 = (Some (Exc FileNotFoundError), s2)).
          { intro X. now apply remember_missing. }
          destruct (String.eqb (ktext k) (ktext k')); [cbn [slot] in Y; now rewrite (run_bind_exc _ _ _ _ _ (Miss Y))|].
          unfold held in Y. unfold look. destruct (value_of (ktext k') l) as [[v1|]|]; cbn [slot] in Y;
            try now rewrite (run_bind_exc _ _ _ _ _ (Miss Y)).
          destruct Y as (b & _ & Hb & Hdb & Hcb). destruct (content_at _ _ _ Hcb) as [j A].
          rewrite (run_bind_ok _ _ _ _ _ (remember_ok dec s2 _ j b v1 A Hb Hdb)). destruct (isnone v1); reflexivity.
      - intros nl fuel' v' Hf (b & He & Hb & Hdb). destruct Hk as [(Hne & Hraw & HKk) Hx].
        destruct (lock_any hash I nl c s2 fuel' (_add hash (mkIndex I H nl) k true) W2 Q2 Hc Hf) as (s3 & W3 & O3 & Hbody).
        assert (S23 : forall a, rep_names hash I a -> same_at s2 s3 a) by (intros a Ha; apply O3; intro X; now apply (lock_not_rep hash I a)).
        assert (Cn3 : content s3 (name_address hash I (ktext k)) = Some (len8 (Z.to_nat i))).
        { rewrite (same_content s2 s3); [exact Cn|]. apply S23. unfold rep_names; eauto. }
        assert (RA : exists p, run (_add hash (mkIndex I H nl) k true) s3 = (Some (Ok p), s3)).
        { unfold _add, check, check_raw. cbn [ix_name]. rewrite Hraw, run_bind, run_bind, exists_spec by exact W3. rewrite Cn3.
          destruct (content_at _ _ _ Cn3) as [j A].
          rewrite (run_bind_ok _ _ _ _ _ (attach_ok _ _ _ _ A (le8_ne _))), (run_bind_ok _ _ _ _ _ (read_ok _ _ _ _ A)). eexists. reflexivity. }
        destruct RA as [p RA]. destruct (Hbody _ _ RA W3 (only_refl _ _)) as (s4 & c4 & R4 & W4 & _ & _ & O4).
        assert (S24 : forall a, ~ lock_names I a -> same_at s2 s4 a).
        { intros a Ha. apply same_trans with s3; [now apply O3|now apply O4]. }
        assert (N4 : names s4 (pad_address P (ktext k)) = None).
        { rewrite (same_names s2 s4), (same_names s1 s2); [exact N1|now apply O12|]. apply S24. intro X. now apply (away_lock hash P (ktext k) _ Hx X). }
        destruct (memorize_ok enc s4 v' b (pad_address P (ktext k)) true W4 He Hb) as (s5 & j & R5 & W5 & A5 & O5).
        { now apply content_absent. } { discriminate. }
        exists s5. split; [|split].
        + unfold np_set. rewrite Hx, andb_false_r. cbn [p_index pad_object p_prefix]. unfold tag_add. cbn [ix_no_lockout ix_name].
          rewrite run_ptry, (run_bind_ok _ _ _ _ _ R4), R5. reflexivity.
        + unfold np_keys. cbn [p_index pad_object]. apply (Up s5 W5). intros a Ha. apply same_trans with s4.
          * apply S24. intro X. now apply (lock_not_rep hash I a).
          * apply O5. now apply (away_rep hash P).
        + unfold np_getitem. cbn [p_prefix pad_object]. rewrite (run_bind_ok _ _ _ _ _ (remember_ok dec s5 _ j b v' A5 Hb Hdb)).
          cbn [look]. destruct (isnone v'); reflexivity.
    Qed.
  End Np.
End Fails.
