(** Sticky: histories of any number of objects at one address. *)
From Verif Require Export Grid_Lemmas.

Section StickRep.
  Context {V : Type} (enc : V -> res bytes) (dec : bytes -> res V) (isnone : V -> bool).
  Variable a : string.

  Definition plain_value (v : V) : Prop := stable enc dec v /\ isnone v = false.
  Definition posted (s : store) (o : option V) : Prop :=
    match o with
    | Some v => plain_value v /\ exists c, enc v = Ok c /\ c <> "" /\ dec c = Ok v /\ content s a = Some c
    | None => names s a = None
    end.
  Lemma cached_plain v : isnone v = false -> cached isnone v = Some v.
  Proof. unfold cached. now intros ->. Qed.

  (** Only what is asked of the objects matters. *)
  Definition objs_of (b : board V) (objs : nat -> sticky V) : Prop := forall i, objs i = mkSticky a (b_cached b i).
  Lemma objs_set b objs i v sh : objs_of b objs -> objs_of (mkBoard sh (set_cache (b_cached b) i v)) (stuck_on objs i (mkSticky a v)).
  Proof. intros Ho j. unfold stuck_on, set_cache. cbn. destruct (Nat.eqb j i); [reflexivity|apply Ho]. Qed.
  Lemma objs_same b objs i sh : objs_of b objs -> objs_of (mkBoard sh (b_cached b)) (stuck_on objs i (objs i)).
  Proof. intros Ho j. unfold stuck_on. cbn. destruct (Nat.eqb_spec j i) as [->|_]; apply Ho. Qed.

  Lemma sop_rep b objs s o : wf s -> posted s (b_shared b) -> objs_of b objs -> plain_sop enc dec isnone o ->
    exists objs' s', run (sop_prog enc dec isnone objs o) s = (Some (Ok (fst (board_step enc b o), objs')), s') /\
      wf s' /\ posted s' (b_shared (snd (board_step enc b o))) /\ objs_of (snd (board_step enc b o)) objs' /\ only_at (eq a) s s'.
  Proof.
    intros W Ps Ho Hp. destruct b as [sh ca]. cbn [b_shared b_cached] in *. destruct o as [i v|i reread|i]; cbn [sop_prog board_step b_shared b_cached].
    - destruct (Hp i v eq_refl) as [Sv Nv]. pose proof Sv as (c & Ec & Hc & Dc).
      assert (Hlc : String.length c <> 0) by now apply length_ne.
      assert (Wc : width enc v = String.length c) by (unfold width; now rewrite Ec).
      destruct sh as [w|]; cbn [posted] in Ps.
      + destruct Ps as (Pw & d & Ed & Hd & Dd & Cd). destruct (content_at _ _ _ Cd) as [j A].
        assert (Wd : width enc w = String.length d) by (unfold width; now rewrite Ed). rewrite Wc, Wd.
        destruct (Nat.eqb_spec (String.length c) (String.length d)) as [El|El]; cbn [fst snd b_shared].
        * destruct (write_ok s _ _ _ c W A) as (s2 & R2 & W2 & A2 & O2); [auto|].
          assert (E : run (stick enc isnone (objs i) v) s = (Some (Ok (mkSticky a (Some v))), s2)).
          { unfold stick. rewrite (Ho i). cbn [st_address]. rewrite run_bind, run_of_res, Ec.
            rewrite (run_bind_ok _ _ _ _ _ (open_existing s _ _ _ _ _ A Hd Hlc eq_refl)), (run_bind_ok _ _ _ _ _ R2). cbn [run]. now rewrite (cached_plain v Nv). }
          eexists _, s2. rewrite (run_bind_ok _ _ _ _ _ (run_done _ _ _ _ E)). cbn [run]. split; [reflexivity|]. split; [exact W2|].
          split; [split; [now split|]; exists c; eauto using at_content|]. split; [|exact O2].
          now apply (objs_set (mkBoard (Some w) ca)).
        * assert (E : run (stick enc isnone (objs i) v) s = (Some (Exc ValueError), s)).
          { unfold stick. rewrite (Ho i). cbn [st_address]. rewrite run_bind, run_of_res, Ec.
            rewrite (run_bind_ok _ _ _ _ _ (open_existing s _ _ _ _ _ A Hd Hlc eq_refl)). rewrite run_bind, (write_len s _ _ _ c A); [reflexivity|auto]. }
          eexists _, s. rewrite (run_bind_ok _ _ _ _ _ (run_done _ _ _ _ E)). cbn [run]. split; [reflexivity|]. split; [exact W|].
          split; [split; [exact Pw|]; exists d; auto|]. split; [exact Ho|apply only_refl].
      + destruct (open_new s a (String.length c) false W Ps Hlc) as (s1 & R1 & W1 & A1 & O1).
        destruct (write_ok s1 _ _ _ c W1 A1) as (s2 & R2 & W2 & A2 & O2); [now rewrite zeros_length|].
        assert (E : run (stick enc isnone (objs i) v) s = (Some (Ok (mkSticky a (Some v))), s2)).
        { unfold stick. rewrite (Ho i). cbn [st_address]. rewrite run_bind, run_of_res, Ec.
          rewrite (run_bind_ok _ _ _ _ _ R1), (run_bind_ok _ _ _ _ _ R2). cbn [run]. now rewrite (cached_plain v Nv). }
        eexists _, s2. rewrite (run_bind_ok _ _ _ _ _ (run_done _ _ _ _ E)). cbn [run fst snd b_shared]. split; [reflexivity|]. split; [exact W2|].
        split; [split; [now split|]; exists c; eauto using at_content|]. split; [|eapply only_trans; eauto].
        now apply (objs_set (mkBoard None ca)).
    - assert (Fetch : exists objs' s',
        run (let! r := (let! block := ptry (shm_attach a) (fun h => Ret (Some h)) (fun e => match e with FileNotFoundError => Ret None | _ => Raise e end) in
              match block with
              | None => Ret (None, objs i)
              | Some h => let! b := shm_read h in let! v := of_res (dec b) in Ret (cached isnone v, mkSticky a (cached isnone v))
              end) in Ret (YRead (fst r), stuck_on objs i (snd r))) s =
        (Some (Ok (fst (match sh with Some v => (YRead (Some v), mkBoard (Some v) (set_cache ca i (Some v))) | None => (YRead None, mkBoard sh ca) end), objs')), s') /\
        wf s' /\ posted s' (b_shared (snd (match sh with Some v => (YRead (Some v), mkBoard (Some v) (set_cache ca i (Some v))) | None => (YRead None, mkBoard sh ca) end))) /\
        objs_of (snd (match sh with Some v => (YRead (Some v), mkBoard (Some v) (set_cache ca i (Some v))) | None => (YRead None, mkBoard sh ca) end)) objs' /\ only_at (eq a) s s').
      { destruct sh as [w|]; cbn [fst snd b_shared].
        - pose proof Ps as Ps0. destruct Ps as ((Sw & Nw) & d & Ed & Hd & Dd & Cd). destruct (content_at _ _ _ Cd) as [j A].
          eexists _, s. rewrite run_bind, run_bind, run_ptry, (attach_ok _ _ _ _ A Hd). cbn [run].
          rewrite (run_bind_ok _ _ _ _ _ (read_ok _ _ _ _ A)), run_bind, run_of_res, Dd. cbn [run fst snd]. rewrite (cached_plain w Nw).
          split; [reflexivity|]. split; [exact W|]. split; [exact Ps0|]. split; [now apply (objs_set (mkBoard (Some w) ca))|apply only_refl].
        - eexists _, s. rewrite run_bind, run_bind, run_ptry, (attach_none _ _ Ps). cbn [run fst snd].
          split; [reflexivity|]. split; [exact W|]. split; [exact Ps|]. split; [|apply only_refl].
          apply (objs_same (mkBoard None ca)). exact Ho. }
      unfold sticky_read. rewrite (Ho i). cbn [st_cached st_address b_cached]. pose proof (Ho i) as Hi. cbn [b_cached] in Hi.
      destruct (ca i) as [v|] eqn:Ei.
      + destruct reread.
        * rewrite <- Hi. exact Fetch.
        * eexists _, s. rewrite run_bind_ret. cbn [run fst snd b_shared]. split; [reflexivity|]. split; [exact W|]. split; [exact Ps|]. split; [|apply only_refl].
          rewrite <- Hi. apply (objs_same (mkBoard sh ca)). exact Ho.
      + rewrite <- Hi. exact Fetch.
    - destruct sh as [w|]; cbn [fst snd b_shared].
      + destruct Ps as (Pw & d & Ed & Hd & Dd & Cd). destruct (content_at _ _ _ Cd) as [j A].
        destruct (unlink_ok s _ j W (proj1 A)) as (s1 & R1 & W1 & N1 & O1).
        assert (E : run (sticky_close (objs i)) s = (Some (Ok tt), s1)).
        { unfold sticky_close. rewrite (Ho i). cbn [st_address]. rewrite (run_bind_ok _ _ _ _ _ (attach_ok _ _ _ _ A Hd)). apply R1. }
        exists objs, s1. rewrite (run_bind_ok _ _ _ _ _ (run_done _ _ _ _ E)). cbn [run]. split; [reflexivity|]. split; [exact W1|].
        split; [exact N1|]. split; [exact Ho|exact O1].
      + assert (E : run (sticky_close (objs i)) s = (Some (Exc FileNotFoundError), s)).
        { unfold sticky_close. rewrite (Ho i). cbn [st_address]. now rewrite run_bind, (attach_none _ _ Ps). }
        exists objs, s. rewrite (run_bind_ok _ _ _ _ _ (run_done _ _ _ _ E)). cbn [run]. split; [reflexivity|]. split; [exact W|].
        split; [exact Ps|]. split; [exact Ho|apply only_refl].
  Qed.

  Lemma sops_rep h : forall b objs s, wf s -> posted s (b_shared b) -> objs_of b objs -> Forall (plain_sop enc dec isnone) h ->
    exists s', run (sops_prog enc dec isnone objs h) s = (Some (Ok (fst (board_run enc b h))), s') /\
      wf s' /\ posted s' (b_shared (snd (board_run enc b h))) /\ only_at (eq a) s s'.
  Proof.
    induction h as [|o h IH]; intros b objs s W Ps Ho F.
    - exists s. split; [reflexivity|]. split; [exact W|]. split; [exact Ps|apply only_refl].
    - inversion F as [|? ? F1 F2]; subst. destruct (sop_rep b objs s o W Ps Ho F1) as (objs1 & s1 & R1 & W1 & P1 & Ho1 & O1).
      cbn [sops_prog board_run]. destruct (board_step enc b o) as [x b1]. cbn [fst snd] in *.
      destruct (IH b1 objs1 s1 W1 P1 Ho1 F2) as (s2 & R2 & W2 & P2 & O2). destruct (board_run enc b1 h) as [xs b2]. cbn [fst snd] in *.
      exists s2. rewrite (run_bind_ok _ _ _ _ _ R1). cbn [fst snd]. rewrite (run_bind_ok _ _ _ _ _ R2). cbn [run].
      split; [reflexivity|]. split; [exact W2|]. split; [exact P2|eapply only_trans; eauto].
  Qed.

  (** Fresh objects at a free address. *)
  Lemma stick_history h s : wf s -> names s a = None -> Forall (plain_sop enc dec isnone) h ->
    exists s', run (sops_prog enc dec isnone (fun _ => mkSticky a None) h) s =
        (Some (Ok (fst (board_run enc (mkBoard None (fun _ => None)) h))), s') /\ wf s' /\ only_at (eq a) s s'.
  Proof.
    intros W N F. destruct (sops_rep h (mkBoard None (fun _ => None)) (fun _ => mkSticky a None) s W N) as (s' & E & W' & _ & O');
      [intro; reflexivity|exact F|eauto].
  Qed.

  (** Encodings of one length: every board step is the obvious one. *)
  Lemma board_width n o b : (forall i v, o = SStick i v -> width enc v = n) -> (forall w, b_shared b = Some w -> width enc w = n) ->
    (forall w, b_shared (snd (board_step enc b o)) = Some w -> width enc w = n) /\
    b_shared (snd (board_step enc b o)) = last_stuck (b_shared b) [o] /\
    (forall i v, o = SStick i v -> fst (board_step enc b o) = YDone (Ok tt)) /\
    (forall i, o = SRead i true -> fst (board_step enc b o) = YRead (b_shared b)).
  Proof.
    intros Ho Hb. destruct b as [sh ca]. cbn [b_shared] in *. destruct o as [i v|i r|i]; cbn [board_step b_shared b_cached last_stuck].
    - specialize (Ho i v eq_refl). assert (E : match sh with None => True | Some w => Nat.eqb (width enc v) (width enc w) = true end).
      { destruct sh as [w|]; [|exact I]. apply Nat.eqb_eq. rewrite Ho. symmetry. now apply Hb. }
      destruct sh as [w|]; [rewrite E|]; cbn [fst snd b_shared]; (split; [intros ? [= <-]; exact Ho|]); (split; [reflexivity|]); split; try discriminate; reflexivity.
    - destruct (ca i) as [v|], r, sh as [w|]; cbn [fst snd b_shared]; (split; [exact Hb || discriminate|]); (split; [reflexivity|]); (split; [discriminate|]);
        intros ? [= <-]; reflexivity.
    - destruct sh as [w|]; cbn [fst snd b_shared]; (split; [discriminate|]); (split; [reflexivity|]); split; discriminate.
  Qed.
  Lemma board_run_width n h : forall b, same_width enc n h -> (forall w, b_shared b = Some w -> width enc w = n) ->
    (forall w, b_shared (snd (board_run enc b h)) = Some w -> width enc w = n) /\
    b_shared (snd (board_run enc b h)) = last_stuck (b_shared b) h.
  Proof.
    induction h as [|o h IH]; intros b Hs Hb; [split; [exact Hb|reflexivity]|].
    destruct (board_width n o b) as (H1 & H2 & _); [intros i v ->; apply (Hs i v); now left|exact Hb|].
    cbn [board_run]. destruct (board_step enc b o) as [x b1]. cbn [snd fst] in *.
    destruct (IH b1) as [H3 H4]; [intros i v Hi; apply (Hs i v); now right|exact H1|].
    destruct (board_run enc b1 h) as [xs b2]. cbn [snd] in *. split; [exact H3|]. rewrite H4, H2. destruct o; reflexivity.
  Qed.
  Lemma board_run_app h1 h2 : forall b,
    fst (board_run enc b (h1 ++ h2)) = fst (board_run enc b h1) ++ fst (board_run enc (snd (board_run enc b h1)) h2).
  Proof.
    induction h1 as [|o h1 IH]; intro b; cbn [app board_run fst snd]; [reflexivity|]. destruct (board_step enc b o) as [x b1]. specialize (IH b1).
    destruct (board_run enc b1 (h1 ++ h2)) as [xs b2], (board_run enc b1 h1) as [ys b3]. cbn [fst snd] in *. now rewrite IH.
  Qed.

  (** The last thing done in a history. *)
  Lemma stick_last h o s n : wf s -> names s a = None -> Forall (plain_sop enc dec isnone) (h ++ [o]) -> same_width enc n (h ++ [o]) ->
    exists outs x s', run (sops_prog enc dec isnone (fun _ => mkSticky a None) (h ++ [o])) s = (Some (Ok (outs ++ [x])), s') /\
      (forall i v, o = SStick i v -> x = YDone (Ok tt)) /\
      (forall i, o = SRead i true -> x = YRead (last_stuck None h)).
  Proof.
    intros W N F Hw. destruct (stick_history (h ++ [o]) s W N F) as (s' & E & _).
    set (b0 := mkBoard None (fun _ => None)) in *.
    assert (Hh : same_width enc n h) by (intros i v Hi; apply (Hw i v), in_or_app; now left).
    destruct (board_run_width n h b0 Hh) as [H1 H2]; [discriminate|].
    destruct (board_width n o (snd (board_run enc b0 h))) as (_ & _ & H3 & H4); [intros i v ->; apply (Hw i v), in_or_app; right; now left|exact H1|].
    rewrite board_run_app in E. cbn [board_run] in E. destruct (board_step enc (snd (board_run enc b0 h)) o) as [x b2]. cbn [fst] in *.
    exists (fst (board_run enc b0 h)), x, s'. split; [exact E|]. split; [exact H3|]. intros i Hi. rewrite (H4 i Hi), H2. reflexivity.
  Qed.

  (** A fresh object reads the same without reread. *)
  Lemma stick_other_width v w s : wf s -> names s a = None -> plain_value v -> plain_value w -> width enc v <> width enc w ->
    exists s', run (sops_prog enc dec isnone (fun _ => mkSticky a None) [SStick 0 v; SStick 1 w; SRead 2 true; SRead 1 false]) s =
      (Some (Ok [YDone (Ok tt); YDone (Exc ValueError); YRead (Some v); YRead (Some v)]), s').
  Proof.
    intros W N Pv Pw Hne. destruct (stick_history [SStick 0 v; SStick 1 w; SRead 2 true; SRead 1 false] s W N) as (s' & E & _).
    - apply Forall_forall. intros o Ho i u ->. destruct Ho as [E|[E|[E|[E|[]]]]]; inversion E; subst; assumption.
    - exists s'. rewrite E. cbn. destruct (Nat.eqb_spec (width enc w) (width enc v)) as [X|_]; [symmetry in X; contradiction|reflexivity].
  Qed.
  Lemma stick_stale v w s : wf s -> names s a = None -> plain_value v -> plain_value w -> width enc v = width enc w ->
    exists s', run (sops_prog enc dec isnone (fun _ => mkSticky a None) [SStick 0 v; SStick 1 w; SRead 0 false; SRead 0 true]) s =
      (Some (Ok [YDone (Ok tt); YDone (Ok tt); YRead (Some v); YRead (Some w)]), s').
  Proof.
    intros W N Pv Pw He. destruct (stick_history [SStick 0 v; SStick 1 w; SRead 0 false; SRead 0 true] s W N) as (s' & E & _).
    - apply Forall_forall. intros o Ho i u ->. destruct Ho as [E|[E|[E|[E|[]]]]]; inversion E; subst; assumption.
    - exists s'. rewrite E. cbn. rewrite (proj2 (Nat.eqb_eq (width enc w) (width enc v))) by auto. reflexivity.
  Qed.
End StickRep.
