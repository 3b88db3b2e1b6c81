(** What survivors see when a process dies inside add or remove. *)
From Verif Require Export Index_Hard.

Section CrashIndex.
  Variable hash : bytes -> string.
  Variable K : string -> Prop.
  Hypothesis hash_inj : collision_free hash K.
  Variable I : string.
  Variable m : N.
  Notation H := {| hname := I; hid := m |}.
  Notation RepN := (RepN hash K I m).

  (** A view from the cells. *)
  Lemma sees_cells s nl cells k : wf s -> at_ s I m (len8 (List.length cells)) ->
    (Z.of_nat (List.length cells) < 256 ^ Z.of_nat 8)%Z ->
    (forall j, j < List.length cells -> nth_error cells j = Some (content s (key_address I (Z.of_nat j)))) ->
    sees hash (mkIndex I H nl) k s = (Some (collect cells), Some (found (content s (name_address hash I k)))).
  Proof.
    intros W A L Hc. unfold sees. rewrite (update_cells (mkIndex I H nl) s m cells W eq_refl A L Hc).
    unfold check, skey. cbn [kraw]. rewrite check_found by exact W. reflexivity.
  Qed.

  Lemma found_le i : (0 <= i < 256 ^ Z.of_nat 8)%Z -> found (Some (le_digits 8 i)) = Ok (Some i).
  Proof. intro Hi. pose proof (from_le 8 i Hi) as E. rewrite <- E at 2. reflexivity. Qed.
  Lemma found_zeros : found (Some (zeros 8)) = Ok (Some 0%Z).
  Proof. reflexivity. Qed.

  Lemma add_crash ks s k ok nl nl' : wf s -> RepN (List.length ks) ks s -> plain_key K k -> ~ In (ktext k) ks ->
    (Z.of_nat (S (List.length ks)) < 256 ^ Z.of_nat 8)%Z ->
    forall v, (exists n, sees hash (mkIndex I H nl') (ktext k) (crash n (_add hash (mkIndex I H nl) k ok) s) = v) <->
              In v (add_views ks (ktext k)).
  Proof.
    intros W R (Hne & Hraw & HK) Hin Hlen.
    pose proof (rep_in_hash hash K hash_inj I m _ ks s _ R HK Hin) as Hh.
    pose proof (rep_nokey _ _ _ _ _ _ _ R) as Hnokey.
    pose proof (rep_noname _ _ _ _ _ _ _ R _ Hh) as Hnoname.
    set (L := List.length ks) in *.
    destruct (write_ok s I m _ (len8 (S L)) W (rep_mem _ _ _ _ _ _ _ R)) as (s1 & R1 & W1 & A1 & O1); [now rewrite !le_length|].
    assert (N1 : names s1 (key_address I (Z.of_nat L)) = None).
    { rewrite (same_names s s1); [apply Hnokey; lia|]. apply O1. adn hash I; try tauto. }
    destruct (stages_open_new s1 (key_address I (Z.of_nat L)) (String.length (ktext k)) true W1 N1)
      as (sh & s2 & R2 & W2 & A2 & O2 & Wh & Ah & Oh & St2); [now apply length_ne|].
    destruct (write_ok s2 _ (next s1) _ (ktext k) W2 A2) as (s3 & R3 & W3 & A3 & O3); [now rewrite zeros_length|].
    assert (N3 : names s3 (name_address hash I (ktext k)) = None).
    { rewrite (same_names s2 s3), (same_names s1 s2), (same_names s s1); auto.
      - apply O1. adn hash I; try tauto.
      - apply O2. adn hash I; try tauto.
      - apply O3. adn hash I; try tauto. }
    destruct (stages_open_new s3 (name_address hash I (ktext k)) 8 false W3 N3)
      as (sg & s4 & R4 & W4 & A4 & O4 & Wg & Ag & Og & St4); [discriminate|].
    destruct (write_ok s4 _ (next s3) _ (len8 L) W4 A4) as (s5 & R5 & W5 & A5 & O5); [now rewrite le_length, zeros_length|].
    assert (St : stages (_add hash (mkIndex I H nl) k ok) s [s; s1; sh; s2; s3; sg; s4; s5]).
    { eapply stages_sub.
      - unfold _add, check. rewrite Hraw. eapply stages_bind; [|apply (check_absent hash K I m _ ks s _ nl W R Hh)|].
        { apply stages_const. intro n. unfold check_raw. cbn [ix_name]. rewrite crash_bind, exists_names, Hnoname, crash_exists by exact W.
          cbn [fst snd]. destruct (Nat.leb n _); [reflexivity|]. destruct (n - _); reflexivity. }
        cbv iota. eapply stages_bind; [|apply (length_rep hash K I m _ ks s nl R)|].
        { apply stages_const. intro n. unfold update_length. cbn [ix_mem]. rewrite crash_bind, crash_read.
          destruct (Nat.leb n _); [reflexivity|].
          rewrite (read_ok _ _ _ _ (rep_mem _ _ _ _ _ _ _ R)). cbn [fst snd]. destruct (n - _); reflexivity. }
        cbn [ix_mem ix_name]. fold L. replace (Z.of_nat L + 1)%Z with (Z.of_nat (S L)) by lia.
        rewrite to_bytes_in by lia. cbn [of_res]. eapply stages_bind; [apply stages_ret|reflexivity|].
        eapply stages_bind; [eapply stages_write; exact R1|exact R1|].
        eapply stages_bind; [exact St2|exact R2|].
        eapply stages_bind; [eapply stages_write; exact R3|exact R3|].
        rewrite to_bytes_in by lia. cbn [of_res]. eapply stages_bind; [apply stages_ret|reflexivity|].
        eapply stages_bind; [exact St4|exact R4|].
        eapply stages_bind; [eapply stages_write; exact R5|exact R5|]. apply stages_ret.
      - intro x. cbn. tauto. }
    (* contents at each stage *)
    assert (Hks : Forall (fun x => x <> "") ks) by (eapply rep_ne_n; eauto).
    assert (Hcell : forall t c, at_ t I m (len8 (S L)) -> only_at (fun a => a = I \/ a = key_address I (Z.of_nat L) \/ a = name_address hash I (ktext k)) s t ->
              wf t -> content t (key_address I (Z.of_nat L)) = c ->
              sees hash (mkIndex I H nl') (ktext k) t = (Some (collect (map Some ks ++ [c])), Some (found (content t (name_address hash I (ktext k)))))).
    { intros t c At Ot Wt Ct. assert (Hl : List.length (map Some ks ++ [c]) = S L) by (rewrite app_length, map_length; cbn; fold L; lia).
      apply sees_cells; [exact Wt|rewrite Hl; exact At|rewrite Hl; lia|]. intros j Hj. rewrite Hl in Hj.
      destruct (Nat.lt_ge_cases j L) as [Hjl|Hjl].
      - rewrite nth_error_app1 by (rewrite map_length; exact Hjl). rewrite nth_map_some.
        destruct (nth_error ks j) as [x|] eqn:E; [|apply nth_error_None in E; fold L in E; lia].
        rewrite (same_content s t).
        + now rewrite (rep_key _ _ _ _ _ _ _ R _ _ E).
        + apply Ot. intros [X|[X|X]]; revert X; adn hash I; try tauto.
      - replace j with L by lia. rewrite nth_error_app2 by (rewrite map_length; fold L; lia). rewrite map_length. fold L.
        rewrite Nat.sub_diag. cbn. now rewrite Ct. }
    assert (Hs0 : sees hash (mkIndex I H nl') (ktext k) s = (Some (Ok ks), Some (Ok None))).
    { unfold sees. rewrite (update_holed hash K I m _ ks s nl' W R). unfold check, skey. cbn [kraw]. rewrite check_found by exact W.
      cbn [ix_name]. now rewrite (names_none _ _ Hnoname). }
    assert (Hc : forall c, collect (map Some ks ++ [c]) = match c with None => Ok ks | Some "" => Exc ValueError | Some b => Ok (ks ++ [b]) end).
    { intro c. rewrite (collect_all ks Hks [c] (collect [c]) eq_refl). destruct c as [[|ch b]|]; cbn; try reflexivity. now rewrite app_nil_r. }
    assert (On1 : forall x, only_at (eq (key_address I (Z.of_nat L))) s1 x -> at_ x I m (len8 (S L)) /\ names x (name_address hash I (ktext k)) = None /\
       only_at (fun a => a = I \/ a = key_address I (Z.of_nat L) \/ a = name_address hash I (ktext k)) s x).
    { intros x Ox. split; [|split].
      - apply (at_same s1); [exact A1|]. apply Ox. adn hash I; try tauto.
      - rewrite (same_names s1 x), (same_names s s1); [exact Hnoname|apply O1|apply Ox]; adn hash I; try tauto.
      - intros a Ha. apply same_trans with s1; [apply O1; intros <-; tauto|apply Ox; intros <-; tauto]. }
    assert (O13 : only_at (eq (key_address I (Z.of_nat L))) s1 s3) by exact (only_trans _ _ _ _ O2 O3).
    assert (On3 : forall x, only_at (eq (name_address hash I (ktext k))) s3 x -> at_ x I m (len8 (S L)) /\
       content x (key_address I (Z.of_nat L)) = Some (ktext k) /\
       only_at (fun a => a = I \/ a = key_address I (Z.of_nat L) \/ a = name_address hash I (ktext k)) s x).
    { intros x Ox. destruct (On1 s3 O13) as (B1 & B2 & B3). split; [|split].
      - apply (at_same s3); [exact B1|]. apply Ox. adn hash I; try tauto.
      - rewrite (same_content s3 x); [apply (at_content _ _ _ _ A3)|]. apply Ox; adn hash I; try tauto.
      - intros a Ha. apply same_trans with s3; [apply B3; tauto|apply Ox; intros <-; tauto]. }
    assert (O35 : only_at (eq (name_address hash I (ktext k))) s3 s5) by exact (only_trans _ _ _ _ O4 O5).
    assert (V1 : sees hash (mkIndex I H nl') (ktext k) s1 = (Some (Ok ks), Some (Ok None))).
    { destruct (On1 s1 (only_refl _ _)) as (B1 & B2 & B3).
      rewrite (Hcell s1 None B1 B3 W1), Hc, (names_none _ _ B2); [reflexivity|]. now apply names_none. }
    assert (Vh : sees hash (mkIndex I H nl') (ktext k) sh = (Some (Exc ValueError), Some (Ok None))).
    { destruct (On1 sh Oh) as (B1 & B2 & B3).
      rewrite (Hcell sh (Some "") B1 B3 Wh), Hc, (names_none _ _ B2); [reflexivity|]. apply (at_content _ _ _ _ Ah). }
    assert (V2 : sees hash (mkIndex I H nl') (ktext k) s2 = (Some (Ok (ks ++ [zeros (String.length (ktext k))])), Some (Ok None))).
    { destruct (On1 s2 O2) as (B1 & B2 & B3).
      rewrite (Hcell s2 (Some (zeros (String.length (ktext k)))) B1 B3 W2), Hc, (names_none _ _ B2); [|apply (at_content _ _ _ _ A2)].
      pose proof (zeros_ne (String.length (ktext k)) (length_ne _ Hne)). destruct (zeros _); [congruence|reflexivity]. }
    assert (V3 : sees hash (mkIndex I H nl') (ktext k) s3 = (Some (Ok (ks ++ [ktext k])), Some (Ok None))).
    { destruct (On1 s3 O13) as (B1 & B2 & B3).
      rewrite (Hcell s3 (Some (ktext k)) B1 B3 W3), Hc, (names_none _ _ B2); [|apply (at_content _ _ _ _ A3)].
      destruct (ktext k); [congruence|reflexivity]. }
    assert (Hck : collect (map Some ks ++ [Some (ktext k)]) = Ok (ks ++ [ktext k])) by (rewrite Hc; destruct (ktext k); [congruence|reflexivity]).
    assert (Vg : sees hash (mkIndex I H nl') (ktext k) sg = (Some (Ok (ks ++ [ktext k])), Some (Exc ValueError))).
    { destruct (On3 sg Og) as (B1 & B2 & B3). rewrite (Hcell sg (Some (ktext k)) B1 B3 Wg B2), Hck, (at_content _ _ _ _ Ag). reflexivity. }
    assert (V4 : sees hash (mkIndex I H nl') (ktext k) s4 = (Some (Ok (ks ++ [ktext k])), Some (Ok (Some 0%Z)))).
    { destruct (On3 s4 O4) as (B1 & B2 & B3). rewrite (Hcell s4 (Some (ktext k)) B1 B3 W4 B2), Hck, (at_content _ _ _ _ A4). reflexivity. }
    assert (V5 : sees hash (mkIndex I H nl') (ktext k) s5 = (Some (Ok (ks ++ [ktext k])), Some (Ok (Some (Z.of_nat L))))).
    { destruct (On3 s5 O35) as (B1 & B2 & B3). rewrite (Hcell s5 (Some (ktext k)) B1 B3 W5 B2), Hck, (at_content _ _ _ _ A5).
      rewrite found_le; [reflexivity|lia]. }
    intro v. unfold add_views. fold L. transitivity (exists t, In t [s; s1; sh; s2; s3; sg; s4; s5] /\ sees hash (mkIndex I H nl') (ktext k) t = v).
    { split.
      - intros [n Hn]. exists (crash n (_add hash (mkIndex I H nl) k ok) s). split; [|exact Hn]. apply St. eauto.
      - intros (t & Ht & Hv). apply St in Ht. destruct Ht as [n Hn]. exists n. now rewrite Hn. }
    cbn [In]. split.
    - intros (t & Ht & <-). destruct Ht as [<-|[<-|[<-|[<-|[<-|[<-|[<-|[<-|[]]]]]]]]]; rewrite ?Hs0, ?V1, ?Vh, ?V2, ?V3, ?Vg, ?V4, ?V5; tauto.
    - intros [<-|[<-|[<-|[<-|[<-|[<-|[<-|[]]]]]]]].
      + exists s; tauto.
      + exists sh; tauto.
      + exists s2; tauto.
      + exists s3; tauto.
      + exists sg; tauto.
      + exists s4; tauto.
      + exists s5; tauto.
  Qed.

  (** *** remove *)
  Lemma put_split k z l1 l2 : ~ In k l1 -> put_in_place k z (l1 ++ k :: l2) = l1 ++ z :: l2.
  Proof.
    induction l1 as [|x l1 IH]; cbn; intro Hn; [now rewrite String.eqb_refl|].
    rewrite eqb_ne by (intros ->; tauto). f_equal. apply IH. tauto.
  Qed.
  Lemma filter_id k l : ~ In k l -> filter (fun x => negb (String.eqb x k)) l = l.
  Proof.
    induction l as [|x l IH]; cbn; intro Hn; [reflexivity|]. rewrite eqb_ne by (intros ->; tauto). cbn. f_equal. apply IH. tauto.
  Qed.

  Lemma stages_check n ks s k nl i : wf s -> RepN n ks s -> nth_error ks i = Some k ->
    stages (check_raw hash (mkIndex I H nl) k) s [s].
  Proof.
    intros W R Hi. apply stages_const. intro j. unfold check_raw. cbn [ix_name].
    destruct (content_at _ _ _ (rep_name _ _ _ _ _ _ _ R _ _ Hi)) as [b A].
    rewrite crash_bind, crash_exists, exists_spec, (at_content _ _ _ _ A) by exact W. cbn [fst snd].
    destruct (Nat.leb j _); [reflexivity|]. rewrite crash_bind, crash_attach, (attach_ok _ _ _ _ A) by discriminate. cbn [fst snd].
    destruct (Nat.leb _ _); [reflexivity|]. rewrite crash_bind, crash_read, (read_ok _ _ _ _ A). cbn [fst snd].
    destruct (Nat.leb _ _); [reflexivity|]. destruct (_ - _); reflexivity.
  Qed.
  Lemma stages_length n ks s nl : RepN n ks s -> stages (update_length (mkIndex I H nl)) s [s].
  Proof.
    intro R. apply stages_const. intro j. unfold update_length. cbn [ix_mem]. rewrite crash_bind, crash_read.
    destruct (Nat.leb j _); [reflexivity|].
    rewrite (read_ok _ _ _ _ (rep_mem _ _ _ _ _ _ _ R)). cbn [fst snd]. destruct (_ - _); reflexivity.
  Qed.

  Lemma views_stages {A} (p : prog A) s l x k v : stages p s l ->
    ((exists n, sees hash x k (crash n p s) = v) <-> exists t, In t l /\ sees hash x k t = v).
  Proof.
    intro St. split.
    - intros [n Hn]. exists (crash n p s). split; [|exact Hn]. apply St. eauto.
    - intros (t & Ht & Hv). apply St in Ht. destruct Ht as [n Hn]. exists n. now rewrite Hn.
  Qed.

  Lemma remove_crash_last ks s k nl nl' : wf s -> RepN (List.length (ks ++ [ktext k])) (ks ++ [ktext k]) s -> plain_key K k ->
    forall v, (exists n, sees hash (mkIndex I H nl') (ktext k) (crash n (_delitem hash (mkIndex I H nl) k) s) = v) <->
              In v (remove_views (ks ++ [ktext k]) (ktext k) (Z.of_nat (List.length ks))).
  Proof.
    intros W R (Hne & Hraw & HK).
    set (L := List.length ks) in *.
    assert (HL : List.length (ks ++ [ktext k]) = S L) by (rewrite app_length; cbn; fold L; lia). rewrite HL in R.
    assert (Hz : nth_error (ks ++ [ktext k]) L = Some (ktext k)) by (rewrite nth_error_app2; fold L; [rewrite Nat.sub_diag; reflexivity|lia]).
    pose proof (rep_len _ _ _ _ _ _ _ R) as Hlen.
    destruct (content_at _ _ _ (rep_key _ _ _ _ _ _ _ R _ _ Hz)) as [jk Ak].
    destruct (stages_delete s _ jk _ false W Ak Hne) as (s1 & R1 & W1 & N1 & O1 & St1).
    destruct (content_at _ _ _ (rep_name _ _ _ _ _ _ _ R _ _ Hz)) as [jn An].
    assert (An1 : at_ s1 (name_address hash I (ktext k)) jn (len8 L)).
    { apply (at_same s); [exact An|]. apply O1. adn hash I; try tauto. }
    destruct (stages_delete s1 _ jn _ false W1 An1 (le8_ne _)) as (s2 & R2 & W2 & N2 & O2 & St2).
    assert (Am1 : at_ s1 I m (len8 (S L))).
    { apply (at_same s); [apply R|]. apply O1. adn hash I; try tauto. }
    assert (Am2 : at_ s2 I m (len8 (S L))).
    { apply (at_same s1); [exact Am1|]. apply O2. adn hash I; try tauto. }
    destruct (write_ok s2 I m _ (len8 L) W2 Am2) as (s3 & R3 & W3 & A3 & O3); [now rewrite !le_length|].
    assert (St : stages (_delitem hash (mkIndex I H nl) k) s [s; s1; s2; s3]).
    { eapply stages_sub.
      - unfold _delitem, check. rewrite Hraw. eapply stages_bind; [eapply stages_check; eauto|apply (check_present hash K I m _ _ s _ _ nl W R Hz)|].
        cbv iota. eapply stages_bind; [eapply stages_length; eauto|apply (length_rep hash K I m _ _ s nl R)|].
        cbn [ix_mem ix_name]. replace (Z.of_nat (S L) - 1)%Z with (Z.of_nat L) by lia. rewrite Z.eqb_refl.
        eapply stages_bind; [exact St1|exact R1|]. eapply stages_bind; [exact St2|exact R2|].
        rewrite to_bytes_in by lia. cbn [of_res]. eapply stages_bind; [apply stages_ret|reflexivity|].
        eapply stages_bind; [eapply stages_write; exact R3|exact R3|]. apply stages_ret.
      - intro x. cbn. tauto. }
    assert (Hks : Forall (fun x => x <> "") (ks ++ [ktext k])) by (eapply rep_ne_n; eauto).
    apply Forall_app in Hks. destruct Hks as [Hks _].
    assert (V0 : sees hash (mkIndex I H nl') (ktext k) s = (Some (Ok (ks ++ [ktext k])), Some (Ok (Some (Z.of_nat L))))).
    { unfold sees. rewrite (update_holed hash K I m _ _ s nl' W R). unfold check, skey. cbn [kraw].
      rewrite (check_present hash K I m _ _ s _ _ nl' W R Hz). reflexivity. }
    assert (Hkey : forall t, only_at (fun a => a = I \/ a = key_address I (Z.of_nat L) \/ a = name_address hash I (ktext k)) s t ->
       forall j x, nth_error ks j = Some x -> content t (key_address I (Z.of_nat j)) = Some x).
    { intros t Ot j x Hj. assert (j < L) by (unfold L; apply nth_error_Some; congruence). rewrite (same_content s t).
      - apply (rep_key _ _ _ _ _ _ _ R). now apply nth_app_l.
      - apply Ot. intros [X|[X|X]]; revert X; adn hash I; try tauto. }
    assert (Hcell : forall t, at_ t I m (len8 (S L)) -> only_at (fun a => a = I \/ a = key_address I (Z.of_nat L) \/ a = name_address hash I (ktext k)) s t ->
              wf t -> names t (key_address I (Z.of_nat L)) = None ->
              sees hash (mkIndex I H nl') (ktext k) t = (Some (Ok ks), Some (found (content t (name_address hash I (ktext k)))))).
    { intros t At Ot Wt Nt. rewrite (sees_cells t nl' (map Some ks ++ repeat None 1)).
      - now rewrite collect_hole.
      - exact Wt.
      - rewrite app_length, map_length. cbn [repeat List.length]. fold L. rewrite Nat.add_1_r. exact At.
      - rewrite app_length, map_length. cbn [repeat List.length]. fold L. lia.
      - intros j Hj. rewrite app_length, map_length in Hj. cbn [repeat List.length] in Hj. fold L in Hj.
        destruct (Nat.lt_ge_cases j L) as [Hl|Hl].
        + rewrite nth_error_app1 by (rewrite map_length; exact Hl). rewrite nth_map_some.
          destruct (nth_error ks j) as [x|] eqn:E; [|apply nth_error_None in E; fold L in E; lia]. now rewrite (Hkey t Ot _ _ E).
        + replace j with L by lia. rewrite nth_error_app2 by (rewrite map_length; fold L; lia). rewrite map_length. fold L.
          rewrite Nat.sub_diag. cbn. now rewrite (names_none _ _ Nt). }
    assert (Ot1 : only_at (fun a => a = I \/ a = key_address I (Z.of_nat L) \/ a = name_address hash I (ktext k)) s s1).
    { intros a Ha. apply O1. intros <-. tauto. }
    assert (Ot2 : only_at (fun a => a = I \/ a = key_address I (Z.of_nat L) \/ a = name_address hash I (ktext k)) s s2).
    { intros a Ha. apply same_trans with s1; [apply Ot1; exact Ha|apply O2; intros <-; tauto]. }
    assert (Ot3 : only_at (fun a => a = I \/ a = key_address I (Z.of_nat L) \/ a = name_address hash I (ktext k)) s s3).
    { intros a Ha. apply same_trans with s2; [apply Ot2; exact Ha|apply O3; intros <-; tauto]. }
    assert (V1 : sees hash (mkIndex I H nl') (ktext k) s1 = (Some (Ok ks), Some (Ok (Some (Z.of_nat L))))).
    { rewrite (Hcell s1 Am1 Ot1 W1 N1), (at_content _ _ _ _ An1), found_le; [reflexivity|lia]. }
    assert (V2 : sees hash (mkIndex I H nl') (ktext k) s2 = (Some (Ok ks), Some (Ok None))).
    { rewrite (Hcell s2 Am2 Ot2 W2), (names_none _ _ N2); [reflexivity|].
      rewrite (same_names s1 s2); [exact N1|]. apply O2. adn hash I; try tauto. }
    assert (V3 : sees hash (mkIndex I H nl') (ktext k) s3 = (Some (Ok ks), Some (Ok None))).
    { rewrite (sees_cells s3 nl' (map Some ks)).
      - pose proof (collect_all ks Hks [] (Ok []) eq_refl) as E. rewrite !app_nil_r in E. rewrite E.
        rewrite (same_content s2 s3); [now rewrite (names_none _ _ N2)|]. apply O3. adn hash I; try tauto.
      - exact W3.
      - rewrite map_length. exact A3.
      - rewrite map_length. fold L. lia.
      - intros j Hj. rewrite map_length in Hj. rewrite nth_map_some.
        destruct (nth_error ks j) as [x|] eqn:E; [|apply nth_error_None in E; lia]. now rewrite (Hkey s3 Ot3 _ _ E). }
    intro v. rewrite (views_stages _ _ _ _ _ _ St). unfold remove_views. rewrite last_last, removelast_last, String.eqb_refl. cbn [In].
    split.
    - intros (t & Ht & <-). destruct Ht as [<-|[<-|[<-|[<-|[]]]]]; rewrite ?V0, ?V1, ?V2, ?V3; tauto.
    - intros [<-|[<-|[<-|[]]]]; [exists s|exists s1|exists s2]; tauto.
  Qed.

  Lemma remove_crash_swap l1 l2 z s k nl nl' : wf s ->
    RepN (List.length ((l1 ++ ktext k :: l2) ++ [z])) ((l1 ++ ktext k :: l2) ++ [z]) s -> plain_key K k ->
    forall v, (exists n, sees hash (mkIndex I H nl') (ktext k) (crash n (_delitem hash (mkIndex I H nl) k) s) = v) <->
              In v (remove_views ((l1 ++ ktext k :: l2) ++ [z]) (ktext k) (Z.of_nat (List.length l1))).
  Proof.
    intros W R (Hne & Hraw & HK).
    set (l := l1 ++ ktext k :: l2) in *. set (i := List.length l1) in *. set (L := List.length l) in *.
    assert (HL : List.length (l ++ [z]) = S L) by (rewrite app_length; cbn; fold L; lia). rewrite HL in R.
    assert (Hiall : L = i + S (List.length l2)) by (unfold L, l; rewrite app_length; reflexivity).
    assert (Hi0 : nth_error l i = Some (ktext k)) by (unfold l; rewrite nth_error_app2; fold i; [rewrite Nat.sub_diag; reflexivity|lia]).
    assert (Hi : nth_error (l ++ [z]) i = Some (ktext k)) by now apply nth_app_l.
    assert (Hz : nth_error (l ++ [z]) L = Some z) by (rewrite nth_error_app2; fold L; [rewrite Nat.sub_diag; reflexivity|lia]).
    assert (Hkz : hash (ktext k) <> hash z) by (eapply (rep_nth_hash hash K hash_inj I m _ _ _ i L); eauto; lia).
    pose proof (rep_len _ _ _ _ _ _ _ R) as Hlen.
    pose proof (rep_nodup _ _ _ _ _ _ _ R) as Hd.
    assert (Hz1 : z <> "") by (eapply (rep_ne' hash K I m); eauto; eapply nth_error_In; eauto).
    destruct (content_at _ _ _ (rep_key _ _ _ _ _ _ _ R _ _ Hz)) as [jz Az].
    destruct (content_at _ _ _ (rep_key _ _ _ _ _ _ _ R _ _ Hi)) as [ji Ai].
    destruct (stages_open_over s _ (String.length z) ji _ W Ai Hne (length_ne _ Hz1))
      as (su & sh & s1 & i1 & R1 & W1 & A1 & O1 & Wh & Ah & Oh & Wu & Nu & Ou & St1).
    destruct (write_ok s1 _ i1 _ z W1 A1) as (s2 & R2 & W2 & A2 & O2); [now rewrite zeros_length|].
    assert (O02 : only_at (eq (key_address I (Z.of_nat i))) s s2) by exact (only_trans _ _ _ _ O1 O2).
    destruct (content_at _ _ _ (rep_name _ _ _ _ _ _ _ R _ _ Hz)) as [jn An].
    assert (An2 : at_ s2 (name_address hash I z) jn (len8 L)).
    { apply (at_same s); [exact An|]. apply O02. adn hash I; try tauto. }
    destruct (write_ok s2 _ jn _ (len8 i) W2 An2) as (s3 & R3 & W3 & A3 & O3); [now rewrite !le_length|].
    assert (Az3 : at_ s3 (key_address I (Z.of_nat L)) jz z).
    { apply (at_same s2); [apply (at_same s); [exact Az|apply O02]|apply O3]; adn hash I; try tauto. }
    destruct (unlink_ok s3 (key_address I (Z.of_nat L)) jz W3 (proj1 Az3)) as (s4 & R4 & W4 & N4 & O4).
    destruct (content_at _ _ _ (rep_name _ _ _ _ _ _ _ R _ _ Hi)) as [jk Ak].
    assert (Ak3 : at_ s3 (name_address hash I (ktext k)) jk (len8 i)).
    { apply (at_same s2); [apply (at_same s); [exact Ak|apply O02]|apply O3]; adn hash I; try tauto. congruence. }
    assert (Ak4 : at_ s4 (name_address hash I (ktext k)) jk (len8 i)).
    { apply (at_same s3); [exact Ak3|apply O4]; adn hash I; try tauto. }
    destruct (stages_delete s4 _ jk _ false W4 Ak4 (le8_ne _)) as (s5 & R5 & W5 & N5 & O5 & St5).
    assert (Am : forall t, only_at (fun a => a <> I) s t -> at_ t I m (len8 (S L))).
    { intros t Ot. apply (at_same s); [apply R|]. apply Ot. tauto. }
    assert (OI2 : only_at (fun a => a <> I) s s2).
    { intros a Ha. apply O02. intros E. apply Ha. rewrite <- E. adn hash I; try tauto. }
    assert (OI3 : only_at (fun a => a <> I) s s3).
    { intros a Ha. apply same_trans with s2; [apply OI2; exact Ha|apply O3]. intros E. apply Ha. rewrite <- E. adn hash I; try tauto. }
    assert (OI4 : only_at (fun a => a <> I) s s4).
    { intros a Ha. apply same_trans with s3; [apply OI3; exact Ha|apply O4]. intros E. apply Ha. rewrite <- E. adn hash I; try tauto. }
    assert (OI5 : only_at (fun a => a <> I) s s5).
    { intros a Ha. apply same_trans with s4; [apply OI4; exact Ha|apply O5]. intros E. apply Ha. rewrite <- E. adn hash I; try tauto. }
    destruct (write_ok s5 I m _ (len8 L) W5 (Am s5 OI5)) as (s6 & R6 & W6 & A6 & O6); [now rewrite !le_length|].
    assert (St : stages (_delitem hash (mkIndex I H nl) k) s [s; su; sh; s1; s2; s3; s4; s5; s6]).
    { eapply stages_sub.
      - unfold _delitem, check. rewrite Hraw. eapply stages_bind; [eapply stages_check; eauto|apply (check_present hash K I m _ _ s _ _ nl W R Hi)|].
        cbv iota. eapply stages_bind; [eapply stages_length; eauto|apply (length_rep hash K I m _ _ s nl R)|].
        cbn [ix_mem ix_name]. replace (Z.of_nat (S L) - 1)%Z with (Z.of_nat L) by lia.
        replace (Z.of_nat i =? Z.of_nat L)%Z with false by (symmetry; apply Z.eqb_neq; lia).
        rewrite to_bytes_in by lia. rewrite to_bytes_in by lia. cbn [of_res].
        eapply stages_bind with (s1 := s4) (a := tt).
        { eapply stages_bind; [apply stages_attach|apply (attach_ok _ _ _ _ Az Hz1)|].
          eapply stages_bind; [apply stages_read|apply (read_ok _ _ _ _ Az)|].
          eapply stages_bind; [exact St1|exact R1|].
          eapply stages_bind; [eapply stages_write; exact R2|exact R2|].
          eapply stages_bind; [apply stages_attach|apply (attach_ok _ _ _ _ An2 (le8_ne _))|].
          eapply stages_bind; [apply stages_ret|reflexivity|].
          eapply stages_bind; [eapply stages_write; exact R3|exact R3|].
          eapply stages_unlink. apply (R4 jz). }
        { rewrite (run_bind_ok _ _ _ _ _ (attach_ok _ _ _ _ Az Hz1)), (run_bind_ok _ _ _ _ _ (read_ok _ _ _ _ Az)).
          rewrite (run_bind_ok _ _ _ _ _ R1), (run_bind_ok _ _ _ _ _ R2), (run_bind_ok _ _ _ _ _ (attach_ok _ _ _ _ An2 (le8_ne _))).
          rewrite run_bind_ret, (run_bind_ok _ _ _ _ _ R3). apply (R4 jz). }
        eapply stages_bind; [exact St5|exact R5|].
        eapply stages_bind; [apply stages_ret|reflexivity|].
        eapply stages_bind; [eapply stages_write; exact R6|exact R6|]. apply stages_ret.
      - intro x. cbn. tauto. }
    assert (Hks : Forall (fun x => x <> "") (l ++ [z])) by (eapply rep_ne_n; eauto).
    assert (Hks' := Hks). apply Forall_app in Hks'. destruct Hks' as [Hl _]. unfold l in Hl. apply Forall_app in Hl. destruct Hl as [Hl1 Hl2].
    inversion Hl2 as [|? ? _ Hl2']; subst. clear Hl2.
    (* cells with position i holding c and the last one d *)
    assert (Hcell : forall t c d, wf t -> only_at (fun a => a <> I) s t -> content t (key_address I (Z.of_nat i)) = c ->
              content t (key_address I (Z.of_nat L)) = d ->
              (forall j, j <> i -> j < L -> same_at s t (key_address I (Z.of_nat j))) ->
              sees hash (mkIndex I H nl') (ktext k) t =
              (Some (collect (map Some l1 ++ c :: map Some l2 ++ [d])), Some (found (content t (name_address hash I (ktext k)))))).
    { intros t c d Wt Ot Ct Dt St'.
      assert (Hl : List.length (map Some l1 ++ c :: map Some l2 ++ [d]) = S L)
        by (rewrite app_length; cbn [List.length]; rewrite app_length, !map_length; cbn [List.length]; fold i; lia).
      apply sees_cells; [exact Wt|rewrite Hl; apply Am; exact Ot|rewrite Hl; lia|]. rewrite Hl. intros j Hj.
      destruct (Nat.lt_trichotomy j i) as [Hlt|[->|Hgt]].
      - rewrite nth_error_app1 by (rewrite map_length; exact Hlt). rewrite nth_map_some.
        destruct (nth_error l1 j) as [x|] eqn:E; [|apply nth_error_None in E; fold i in E; lia].
        rewrite (same_content s t) by (apply St'; lia).
        rewrite (rep_key _ _ _ _ _ _ _ R j x); [reflexivity|]. apply nth_app_l. unfold l. now apply nth_app_l.
      - rewrite nth_error_app2 by (rewrite map_length; fold i; lia). rewrite map_length. fold i. rewrite Nat.sub_diag. cbn. now rewrite Ct.
      - rewrite nth_error_app2 by (rewrite map_length; fold i; lia). rewrite map_length. fold i.
        destruct (j - i) as [|q] eqn:Eq; [lia|]. cbn [nth_error].
        destruct (Nat.lt_ge_cases q (List.length l2)) as [Hq|Hq].
        + rewrite nth_error_app1 by (rewrite map_length; exact Hq). rewrite nth_map_some.
          destruct (nth_error l2 q) as [x|] eqn:E; [|apply nth_error_None in E; lia].
          rewrite (same_content s t) by (apply St'; lia).
          rewrite (rep_key _ _ _ _ _ _ _ R j x); [reflexivity|]. apply nth_app_l. unfold l. rewrite nth_error_app2 by (fold i; lia).
          fold i. rewrite Eq. exact E.
        + replace j with L by lia. rewrite nth_error_app2 by (rewrite map_length; lia). rewrite map_length.
          replace (q - List.length l2) with 0 by lia. cbn. now rewrite Dt. }
    assert (Hcol : forall c d, collect (map Some l1 ++ c :: map Some l2 ++ [d]) =
       match c with
       | None => match d with None => Ok (l1 ++ l2) | Some "" => Exc ValueError | Some b => Ok (l1 ++ l2 ++ [b]) end
       | Some "" => Exc ValueError
       | Some a => match d with None => Ok (l1 ++ a :: l2) | Some "" => Exc ValueError | Some b => Ok (l1 ++ a :: l2 ++ [b]) end
       end).
    { intros c d. rewrite (collect_all l1 Hl1 _ _ eq_refl). cbn [collect].
      rewrite (collect_all l2 Hl2' _ _ eq_refl). destruct c as [[|c0 c]|]; destruct d as [[|d0 d]|]; cbn [collect]; rewrite ?app_nil_r; reflexivity. }
    apply nodup_snoc in Hd. destruct Hd as [Hd Hzl]. unfold l in Hd. apply NoDup_remove in Hd. destruct Hd as [Hd12 Hkn].
    assert (Hk1 : ~ In (ktext k) l1) by (intro; apply Hkn, in_or_app; auto).
    assert (Hk2 : ~ In (ktext k) l2) by (intro; apply Hkn, in_or_app; auto).
    assert (Ezk : z <> ktext k) by congruence.
    assert (Keys : forall t, only_at (eq (key_address I (Z.of_nat i))) s t -> only_at (fun a => a <> I) s t /\
               content t (key_address I (Z.of_nat L)) = Some z /\ (forall j, j <> i -> j < L -> same_at s t (key_address I (Z.of_nat j))) /\
               content t (name_address hash I (ktext k)) = Some (len8 i)).
    { intros t Ot. split; [|split; [|split]].
      - intros a Ha. apply Ot. intros E. apply Ha. rewrite <- E. adn hash I; try tauto.
      - rewrite (same_content s t); [apply (at_content _ _ _ _ Az)|]. apply Ot. adn hash I; try tauto.
      - intros j Hj _. apply Ot. adn hash I; try tauto.
      - rewrite (same_content s t); [apply (at_content _ _ _ _ Ak)|]. apply Ot. adn hash I; try tauto. }
    assert (Fi : found (Some (len8 i)) = Ok (Some (Z.of_nat i))) by (apply found_le; lia).
    assert (V0 : sees hash (mkIndex I H nl') (ktext k) s = (Some (Ok (l ++ [z])), Some (Ok (Some (Z.of_nat i))))).
    { unfold sees. rewrite (update_holed hash K I m _ _ s nl' W R). unfold check, skey. cbn [kraw].
      rewrite (check_present hash K I m _ _ s _ _ nl' W R Hi). reflexivity. }
    assert (Vu : sees hash (mkIndex I H nl') (ktext k) su = (Some (Ok (filter (fun x => negb (String.eqb x (ktext k))) (l ++ [z]))), Some (Ok (Some (Z.of_nat i))))).
    { destruct (Keys su Ou) as (B1 & B2 & B3 & B4).
      rewrite (Hcell su None (Some z) Wu B1 (names_none _ _ Nu) B2 B3), Hcol, B4, Fi. unfold l.
      rewrite !filter_app. cbn [filter]. rewrite String.eqb_refl, (eqb_ne z) by exact Ezk. cbn [negb].
      rewrite !filter_id by assumption. rewrite <- app_assoc. destruct z; [congruence|reflexivity]. }
    assert (Vh : sees hash (mkIndex I H nl') (ktext k) sh = (Some (Exc ValueError), Some (Ok (Some (Z.of_nat i))))).
    { destruct (Keys sh Oh) as (B1 & B2 & B3 & B4).
      rewrite (Hcell sh (Some "") (Some z) Wh B1 (at_content _ _ _ _ Ah) B2 B3), Hcol, B4, Fi. reflexivity. }
    assert (Hput : forall a, put_in_place (ktext k) a l = l1 ++ a :: l2) by (intro; unfold l; now apply put_split).
    assert (V1 : sees hash (mkIndex I H nl') (ktext k) s1 =
                 (Some (Ok (put_in_place (ktext k) (zeros (String.length z)) l ++ [z])), Some (Ok (Some (Z.of_nat i))))).
    { destruct (Keys s1 O1) as (B1 & B2 & B3 & B4).
      rewrite (Hcell s1 (Some (zeros (String.length z))) (Some z) W1 B1 (at_content _ _ _ _ A1) B2 B3), Hcol, B4, Fi, Hput.
      rewrite <- app_assoc. destruct z; [congruence|reflexivity]. }
    assert (V2 : sees hash (mkIndex I H nl') (ktext k) s2 =
                 (Some (Ok (put_in_place (ktext k) z l ++ [z])), Some (Ok (Some (Z.of_nat i))))).
    { destruct (Keys s2 O02) as (B1 & B2 & B3 & B4).
      rewrite (Hcell s2 (Some z) (Some z) W2 B1 (at_content _ _ _ _ A2) B2 B3), Hcol, B4, Fi, Hput.
      rewrite <- app_assoc. destruct z; [congruence|reflexivity]. }
    assert (B3' : forall j, j <> i -> j < L -> same_at s s3 (key_address I (Z.of_nat j))).
    { intros j Hj Hj'. apply same_trans with s2; [apply O02|apply O3]; adn hash I; try tauto. }
    assert (Ci3 : content s3 (key_address I (Z.of_nat i)) = Some z).
    { rewrite (same_content s2 s3); [apply (at_content _ _ _ _ A2)|]. apply O3. adn hash I; try tauto. }
    assert (V3 : sees hash (mkIndex I H nl') (ktext k) s3 =
                 (Some (Ok (put_in_place (ktext k) z l ++ [z])), Some (Ok (Some (Z.of_nat i))))).
    { rewrite (Hcell s3 (Some z) (Some z) W3 OI3 Ci3 (at_content _ _ _ _ Az3) B3'), Hcol, (at_content _ _ _ _ Ak3), Fi, Hput.
      rewrite <- app_assoc. destruct z; [congruence|reflexivity]. }
    assert (B4' : forall j, j <> i -> j < L -> same_at s s4 (key_address I (Z.of_nat j))).
    { intros j Hj Hj'. apply same_trans with s3; [now apply B3'|apply O4]; adn hash I; try tauto. }
    assert (Ci4 : content s4 (key_address I (Z.of_nat i)) = Some z).
    { rewrite (same_content s3 s4); [exact Ci3|]. apply O4. adn hash I; try tauto. }
    assert (V4 : sees hash (mkIndex I H nl') (ktext k) s4 =
                 (Some (Ok (put_in_place (ktext k) z l)), Some (Ok (Some (Z.of_nat i))))).
    { rewrite (Hcell s4 (Some z) None W4 OI4 Ci4 (names_none _ _ N4) B4'), Hcol, (at_content _ _ _ _ Ak4), Fi, Hput.
      destruct z; [congruence|reflexivity]. }
    assert (B5' : forall j, j <> i -> j < L -> same_at s s5 (key_address I (Z.of_nat j))).
    { intros j Hj Hj'. apply same_trans with s4; [now apply B4'|apply O5]; adn hash I; try tauto. }
    assert (Ci5 : content s5 (key_address I (Z.of_nat i)) = Some z).
    { rewrite (same_content s4 s5); [exact Ci4|]. apply O5. adn hash I; try tauto. }
    assert (V5 : sees hash (mkIndex I H nl') (ktext k) s5 =
                 (Some (Ok (put_in_place (ktext k) z l)), Some (Ok None))).
    { rewrite (Hcell s5 (Some z) None W5 OI5 Ci5), Hcol, (names_none _ _ N5), Hput; [destruct z; [congruence|reflexivity]| |exact B5'].
      apply names_none. rewrite (same_names s4 s5); [exact N4|]. apply O5. adn hash I; try tauto. }
    assert (V6 : sees hash (mkIndex I H nl') (ktext k) s6 =
                 (Some (Ok (put_in_place (ktext k) z l)), Some (Ok None))).
    { assert (Fl : Forall (fun x => x <> "") (l1 ++ z :: l2)) by (apply Forall_app; split; [exact Hl1|constructor; auto]).
      rewrite (sees_cells s6 nl' (map Some (put_in_place (ktext k) z l))).
      - rewrite Hput. pose proof (collect_all _ Fl [] (Ok []) eq_refl) as E. rewrite !app_nil_r in E. rewrite E.
        rewrite (same_content s5 s6); [now rewrite (names_none _ _ N5)|]. apply O6. adn hash I; try tauto.
      - exact W6.
      - rewrite map_length, put_length. exact A6.
      - rewrite map_length, put_length. fold L. lia.
      - intros j Hj. rewrite map_length, put_length in Hj. fold L in Hj. rewrite nth_map_some.
        rewrite (same_content s5 s6) by (apply O6; adn hash I; try tauto).
        assert (Hlnd : NoDup l) by (pose proof (rep_nodup _ _ _ _ _ _ _ R) as X; apply nodup_snoc in X; apply X).
        rewrite (put_nth (ktext k) z l i Hlnd Hi0). destruct (Nat.eqb_spec j i) as [E|Hji]; [rewrite E; now rewrite Ci5|].
        destruct (nth_error l j) as [x|] eqn:E; [|apply nth_error_None in E; fold L in E; lia].
        rewrite (same_content s s5) by (apply B5'; assumption).
        rewrite (rep_key _ _ _ _ _ _ _ R j x); [reflexivity|now apply nth_app_l]. }
    intro v. rewrite (views_stages _ _ _ _ _ _ St). unfold remove_views. rewrite last_last, removelast_last, (eqb_ne z) by exact Ezk. cbn [In].
    split.
    - intros (t & Ht & <-). destruct Ht as [<-|[<-|[<-|[<-|[<-|[<-|[<-|[<-|[<-|[]]]]]]]]]]; rewrite ?V0, ?Vu, ?Vh, ?V1, ?V2, ?V3, ?V4, ?V5, ?V6; tauto.
    - intros [<-|[<-|[<-|[<-|[<-|[<-|[<-|[]]]]]]]].
      + exists s; tauto.
      + exists su; tauto.
      + exists sh; tauto.
      + exists s1; tauto.
      + exists s2; tauto.
      + exists s4; tauto.
      + exists s5; tauto.
  Qed.

  Lemma remove_crash ks s k nl nl' i : wf s -> RepN (List.length ks) ks s -> plain_key K k -> position (ktext k) ks = Some i ->
    forall v, (exists n, sees hash (mkIndex I H nl') (ktext k) (crash n (_delitem hash (mkIndex I H nl) k) s) = v) <->
              In v (remove_views ks (ktext k) i).
  Proof.
    intros W R P Hi. apply position_some in Hi. destruct Hi as [Hr Hi].
    destruct (exists_last (l := ks)) as (l & z & E); [intros ->; cbn in Hr; lia|]. subst ks.
    destruct (nth_snoc _ _ _ _ Hi) as [[Hl Hn]|[Hl Ez]].
    - apply nth_error_split in Hn. destruct Hn as (l1 & l2 & -> & Hlen).
      replace i with (Z.of_nat (List.length l1)) by lia. now apply remove_crash_swap.
    - subst z. replace i with (Z.of_nat (List.length l)) by lia. now apply remove_crash_last.
  Qed.
End CrashIndex.
