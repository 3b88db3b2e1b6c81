(** One process that changes the shared memory and any number that only look:
    what those see. *)
From Coq Require Import Lia.
From Verif Require Export Live_Proofs.

Section Readers.
  Variable hash : bytes -> string.
  Variable K : string -> Prop.
  Hypothesis hash_inj : collision_free hash K.
  Variable I : string.
  Variable m : N.
  Notation H := {| hname := I; hid := m |}.
  Variable F : list string.
  Hypothesis F_nodup : NoDup F.
  Hypothesis F_K : Forall K F.
  Hypothesis F_ne : Forall (fun k => k <> "") F.
  Hypothesis F_len : (Z.of_nat (List.length F) < 256 ^ Z.of_nat 8)%Z.
  Notation Inv := (Inv hash I m F).
  Notation keeps := (keeps hash I).

  (** The writer's stores. *)
  Variable t : nat -> store.
  Variable f : nat -> nat.
  Hypothesis t_inv : forall n, Inv (f n) (t n).
  Hypothesis t_mono : forall n n', n <= n' -> f n <= f n' /\ keeps (t n) (t n').
  Notation live := (live t).

  Lemma live_attach a n : rep_names hash I a ->
    live (shm_attach a) n (fun r n' => n <= n' /\ match r with
      | Ok h => names (t n') a = Some (hid h) /\ exists b, content (t n') a = Some b /\ b <> ""
      | Exc FileNotFoundError => names (t n') a = None
      | Exc ValueError => content (t n') a = Some ""
      | Exc _ => False
      end).
  Proof.
    intro Ha. unfold shm_attach, pbind, prim. cbn [ptry]. intros n1 H1. cbn [step].
    destruct (names (t n1) a) as [i|] eqn:E; cbn [fst snd]; (split; [reflexivity|]); cbn [of_res ptry Live_Core.live]; [|auto].
    intros n2 H2. cbn [step]. pose proof (proj2 (t_mono n1 n2 H2) a i Ha E) as E2.
    assert (C : content (t n2) a = mem (t n2) i) by (unfold content; now rewrite E2).
    destruct (inv_wf _ _ _ _ _ _ (t_inv n2)) as (_ & Wm & _). specialize (Wm a i E2).
    destruct (mem (t n2) i) as [[|c b]|]; [| |now destruct Wm]; cbn [fst snd]; (split; [reflexivity|]); cbn [of_res ptry Live_Core.live hid];
      (split; [lia|]); [exact C|]. split; [exact E2|]. exists (String c b). split; [exact C|discriminate].
  Qed.
  Lemma live_read h a n : rep_names hash I a -> names (t n) a = Some (hid h) ->
    live (shm_read h) n (fun r n' => n <= n' /\ exists b, r = Ok b /\ content (t n') a = Some b).
  Proof.
    intros Ha E. unfold shm_read, prim. intros n2 H2. cbn [step]. pose proof (proj2 (t_mono n n2 H2) a _ Ha E) as E2.
    destruct (inv_wf _ _ _ _ _ _ (t_inv n2)) as (_ & Wm & _). specialize (Wm a _ E2).
    destruct (mem (t n2) (hid h)) as [b|] eqn:Em; [|now destruct Wm]. cbn [fst snd]. split; [reflexivity|]. cbn [of_res Live_Core.live].
    split; [exact H2|]. exists b. split; [reflexivity|]. unfold content. now rewrite E2.
  Qed.

  (** What is known about the first [lo] keys: their cells are complete. *)
  Notation known lo n := (7 * lo <= f n + 3).

  Lemma kcell_some g j k : 7 * j + 4 <= g -> kcell g j k = Some k.
  Proof. intro L. unfold kcell. now rewrite (proj2 (Nat.leb_le _ _) L). Qed.
  Lemma glen_bounds g : g <= 7 * glen g < g + 7.
  Proof. unfold glen. pose proof (Nat.div_mod (g + 6) 7 ltac:(lia)). pose proof (Nat.mod_upper_bound (g + 6) 7 ltac:(lia)). lia. Qed.

  Lemma from_len8 c : (Z.of_nat c < 256 ^ Z.of_nat 8)%Z -> from_bytes (len8 c) = Z.of_nat c.
  Proof. intro L. apply from_le. lia. Qed.
  Lemma firstn_snoc {X} (l : list X) : forall c x, nth_error l c = Some x -> firstn (S c) l = firstn c l ++ [x].
  Proof. induction l as [|y l IH]; intros [|c] x E; try discriminate; [now injection E as ->|]. cbn [nth_error] in E. cbn [firstn app]. f_equal. exact (IH c x E). Qed.

  (** One cell. *)
  Definition cell_seen (j : nat) (k : string) (n : nat) (o : option string) : Prop :=
    o = Some k /\ 7 * j + 4 <= f n \/ o = Some (zeros (String.length k)) /\ f n < 7 * j + 4 \/ o = None /\ f n < 7 * j + 2.
  Lemma kcell_seen g j k b : k <> "" -> kcell g j k = Some b -> b <> "" -> 7 * j + 3 <= g.
  Proof.
    intros Kn C Nb. unfold kcell in C. destruct (Nat.leb_spec (7 * j + 4) g); [lia|]. destruct (Nat.leb_spec (7 * j + 3) g); [lia|].
    destruct (Nat.leb (7 * j + 2) g); [|discriminate]. injection C as <-. now destruct Nb.
  Qed.
  Lemma zeros_nil k : zeros (String.length k) = "" -> k = "".
  Proof. destruct k; [reflexivity|]. discriminate. Qed.
  Lemma live_cell j k n : nth_error F j = Some k ->
    live (ptry (let! h := shm_attach (key_address I (Z.of_nat j)) in shm_read h) (fun b => Ret (Some b))
            (fun e => match e with FileNotFoundError => Ret None | _ => Raise e end)) n
      (fun r n' => n <= n' /\ match r with Ok o => cell_seen j k n' o | Exc e => e = ValueError /\ f n' < 7 * j + 3 end).
  Proof.
    intro E. assert (Ha : rep_names hash I (key_address I (Z.of_nat j))) by (right; left; eauto).
    assert (Kn : k <> "") by (rewrite Forall_forall in F_ne; apply F_ne; eapply nth_error_In; eauto).
    apply live_ptry. apply live_bind. eapply live_mono; [|apply (live_attach _ n Ha)]. cbv beta.
    intros [h|e] n1 H1 [_ Hr].
    - destruct Hr as (En & b1 & C1 & Nb). rewrite (inv_key _ _ _ _ _ _ (t_inv n1) j k E) in C1. pose proof (kcell_seen _ _ _ _ Kn C1 Nb) as L1.
      eapply live_mono; [|apply (live_read h _ n1 Ha En)]. cbv beta. intros r n2 H2 [_ (b & -> & C)].
      cbn [Live_Core.live]. split; [lia|]. rewrite (inv_key _ _ _ _ _ _ (t_inv n2) j k E) in C. unfold kcell in C. unfold cell_seen.
      pose proof (proj1 (t_mono n1 n2 H2)).
      destruct (Nat.leb_spec (7 * j + 4) (f n2)) as [L|L]; [left; split; [congruence|exact L]|].
      destruct (Nat.leb_spec (7 * j + 3) (f n2)) as [L3|L3]; [right; left; split; [congruence|exact L]|lia].
    - destruct e; try contradiction; cbn [Live_Core.live].
      + split; [lia|]. split; [reflexivity|]. rewrite (inv_key _ _ _ _ _ _ (t_inv n1) j k E) in Hr. unfold kcell in Hr.
        destruct (Nat.leb_spec (7 * j + 4) (f n1)) as [L|L]; [congruence|].
        destruct (Nat.leb_spec (7 * j + 3) (f n1)) as [L3|L3]; [|lia]. injection Hr as Hr. apply zeros_nil in Hr. now destruct Kn.
      + split; [lia|]. pose proof (inv_key _ _ _ _ _ _ (t_inv n1) j k E) as C. unfold content in C. rewrite Hr in C. unfold kcell in C. unfold cell_seen.
        destruct (Nat.leb_spec (7 * j + 4) (f n1)) as [L|L]; [discriminate|].
        destruct (Nat.leb_spec (7 * j + 3) (f n1)) as [L3|L3]; [discriminate|].
        destruct (Nat.leb_spec (7 * j + 2) (f n1)) as [L2|L2]; [discriminate|]. auto.
  Qed.

  (** A listing from index [ix] on, of [ix + cnt + 1] keys; all but the last are
      complete. *)
  Lemma live_keys x cnt : ix_name x = I -> forall ix n k, 7 * (ix + cnt) + 1 <= f n -> nth_error F (ix + cnt) = Some k ->
    live (keys_from x (S cnt) (Z.of_nat ix)) n
      (fun r n' => n <= n' /\ match r with
         | Ok l => exists o, cell_seen (ix + cnt) k n' o /\ l = firstn cnt (skipn ix F) ++ match o with Some b => [b] | None => [] end
         | Exc e => e = ValueError /\ f n' < 7 * (ix + cnt) + 3 end).
  Proof.
    intro Hx. induction cnt as [|cnt IH]; intros ix n k Hg E.
    - cbn [keys_from]. rewrite Hx. rewrite Nat.add_0_r in *. apply live_bind. eapply live_mono; [|apply (live_cell ix k n E)]. cbv beta.
      intros [o|e] n1 H1 [_ Hr]; [|split; [lia|exact Hr]]. unfold pbind. cbn [ptry Live_Core.live]. split; [lia|]. exists o. split; [exact Hr|].
      cbn [firstn app]. destruct o; reflexivity.
    - set (q := S cnt) in *. cbn [keys_from]. subst q. rewrite Hx.
      assert (E0 : exists k0, nth_error F ix = Some k0).
      { destruct (nth_error F ix) as [k0|] eqn:E0; [eauto|]. apply nth_error_None in E0. assert (ix + S cnt < List.length F) by (apply nth_error_Some; congruence). lia. }
      destruct E0 as [k0 E0]. apply live_bind. eapply live_mono; [|apply (live_cell ix k0 n E0)]. cbv beta.
      intros [o|e] n1 H1 [_ Hr].
      2:{ destruct Hr as [_ Hr]. pose proof (proj1 (t_mono n n1 H1)). lia. }
      pose proof (proj1 (t_mono n n1 H1)) as Hm.
      assert (o = Some k0) by (destruct Hr as [[-> _]|[[_ L]|[_ L]]]; [reflexivity|lia|lia]). subst o.
      apply live_bind. replace (Z.of_nat ix + 1)%Z with (Z.of_nat (S ix)) by lia.
      eapply live_mono; [|apply (IH (S ix) n1 k)].
      + cbv beta. intros [l|e] n2 H2 [_ Hr2].
        * destruct Hr2 as (o & Ho & ->). cbn [Live_Core.live]. split; [lia|]. exists o. split; [now replace (ix + S cnt) with (S ix + cnt) by lia|].
          assert (Es : skipn ix F = k0 :: skipn (S ix) F).
          { clear - E0. revert ix E0. induction F as [|y r IH]; intros [|ix] E0; try discriminate; [injection E0 as ->; reflexivity|]. cbn [skipn]. now apply IH. }
          rewrite Es. reflexivity.
        * split; [lia|]. now replace (ix + S cnt) with (S ix + cnt) by lia.
      + replace (S ix + cnt) with (ix + S cnt) by lia. lia.
      + now replace (S ix + cnt) with (ix + S cnt) by lia.
  Qed.

  Definition listed (lo n : nat) (l : list string) : Prop :=
    exists c, lo <= c <= List.length F /\ known c n /\
      (l = firstn c F \/ exists k, nth_error F c = Some k /\ l = firstn c F ++ [zeros (String.length k)]).
  Lemma live_update x lo n : ix_name x = I -> ix_mem x = H -> known lo n ->
    live (update x) n (fun r n' => n <= n' /\ match r with
      | Ok l => listed lo n' l | Exc e => e = ValueError /\ f n' < 7 * List.length F end).
  Proof.
    intros Hx Hm Hlo. unfold update, update_length. apply live_bind. apply live_bind. rewrite Hm.
    assert (Ha : rep_names hash I I) by (left; reflexivity).
    assert (En : names (t n) I = Some (hid H)) by apply (inv_mem _ _ _ _ _ _ (t_inv n)).
    eapply live_mono; [|apply (live_read H I n Ha En)]. cbv beta. intros r n1 H1 [_ (b & -> & C)]. cbn [Live_Core.live].
    pose proof (t_inv n1) as V1. rewrite (at_content _ _ _ _ (inv_mem _ _ _ _ _ _ V1)) in C. assert (Eb : b = len8 (glen (f n1))) by congruence. subst b.
    pose proof (proj1 (t_mono n n1 H1)) as M1. pose proof (glen_bounds (f n1)) as G. pose proof (inv_le _ _ _ _ _ _ V1) as Le.
    assert (GF : glen (f n1) <= List.length F) by lia.
    rewrite from_len8 by lia. rewrite Nat2Z.id.
    destruct (glen (f n1)) as [|cnt] eqn:EG.
    - cbn [keys_from Live_Core.live]. split; [exact H1|]. exists 0. split; [lia|]. split; [lia|]. left. reflexivity.
    - assert (E : exists k, nth_error F cnt = Some k).
      { destruct (nth_error F cnt) eqn:E; [eauto|]. apply nth_error_None in E. lia. }
      destruct E as [k E]. eapply live_mono; [|apply (live_keys x cnt Hx 0 n1 k)]; [|cbn [plus]; lia|exact E]. cbv beta. cbn [plus skipn].
      intros [l|e] n2 H2 [_ Hr]; pose proof (proj1 (t_mono n1 n2 H2)) as M2.
      + destruct Hr as (o & Ho & ->). split; [lia|]. unfold listed. destruct Ho as [[-> L]|[[-> L]|[-> L]]].
        * exists (S cnt). split; [lia|]. split; [lia|]. left. symmetry. now apply firstn_snoc.
        * exists cnt. split; [lia|]. split; [lia|]. right. exists k. auto.
        * exists cnt. split; [lia|]. split; [lia|]. left. apply app_nil_r.
      + split; [lia|]. destruct Hr as [-> Hr]. split; [reflexivity|lia].
  Qed.

  (** Looking for a key. *)
  Definition found (lo n n' : nat) (k : string) (o : option Z) : Prop :=
    match position k F with
    | None => o = None
    | Some j =>
        o = None /\ lo <= S (Z.to_nat j) \/
        (o = Some j \/ o = Some 0%Z /\ lo <= S (Z.to_nat j)) /\ known (S (Z.to_nat j)) n'
    end.
  Lemma live_check x lo n k : ix_name x = I -> plain_key K k -> known lo n ->
    live (check hash x k) n (fun r n' => n <= n' /\ match r with
      | Ok o => found lo n n' (ktext k) o | Exc e => e = ValueError /\ f n' < 7 * List.length F end).
  Proof.
    intros Hx (Hne & Hraw & HK) Hlo. unfold check, check_raw. rewrite Hraw, Hx.
    set (a := name_address hash I (ktext k)). assert (Ha : rep_names hash I a) by (right; right; exists (ktext k); reflexivity).
    unfold found. destruct (position (ktext k) F) as [j|] eqn:Ej.
    - apply position_some in Ej. destruct Ej as [Bj Ej]. set (i := Z.to_nat j) in *.
      assert (Ei : j = Z.of_nat i) by (unfold i; lia).
      assert (Hi : i < List.length F) by (apply nth_error_Some; congruence).
      assert (IN : forall n', content (t n') a = ncell (f n') i) by (intro n'; exact (inv_name _ _ _ _ _ _ (t_inv n') i _ Ej)).
      apply live_bind. unfold exists_block. apply live_ptry. eapply live_mono; [|apply (live_attach a n Ha)]. cbv beta.
      assert (Go : forall n1, n <= n1 -> 7 * i + 5 <= f n1 ->
        live (let! h := shm_attach a in let! v := shm_read h in Ret (Some (from_bytes v))) n1
          (fun r n' => n <= n' /\ match r with
             | Ok o => o = None /\ lo <= S i \/ (o = Some j \/ o = Some 0%Z /\ lo <= S i) /\ 7 * S i <= f n' + 3
             | Exc e => e = ValueError /\ f n' < 7 * List.length F end)).
      { intros n1 H1 L5. apply live_bind. eapply live_mono; [|apply (live_attach a n1 Ha)]. cbv beta. intros [h|e] n2 H2 [_ Hr]; pose proof (proj1 (t_mono n1 n2 H2)) as M2.
        - destruct Hr as (En & b1 & C1 & Nb). rewrite (IN n2) in C1.
          assert (L6 : 7 * i + 6 <= f n2).
          { unfold ncell in C1. destruct (Nat.leb_spec (7 * i + 7) (f n2)); [lia|]. destruct (Nat.leb_spec (7 * i + 6) (f n2)); [lia|].
            destruct (Nat.leb (7 * i + 5) (f n2)); [|discriminate]. injection C1 as <-. now destruct Nb. }
          apply live_bind. eapply live_mono; [|apply (live_read h a n2 Ha En)]. cbv beta. intros r n3 H3 [_ (b & -> & C)]. cbn [Live_Core.live].
          pose proof (proj1 (t_mono n2 n3 H3)) as M3. pose proof (proj1 (t_mono n n1 H1)) as M1.
          split; [lia|]. right. split; [|lia].
          rewrite (IN n3) in C. unfold ncell in C.
          destruct (Nat.leb_spec (7 * i + 7) (f n3)) as [L|L].
          + left. assert (Eb : b = len8 i) by congruence. subst b. rewrite from_len8 by lia. now rewrite Ei.
          + destruct (Nat.leb_spec (7 * i + 6) (f n3)) as [L'|L']; [|lia]. injection C as <-. right. split; [reflexivity|lia].
        - pose proof (proj1 (t_mono n n1 H1)) as M1. pose proof (IN n2) as C. unfold ncell in C. destruct e; try contradiction.
          + split; [lia|]. split; [reflexivity|]. rewrite Hr in C. destruct (Nat.leb_spec (7 * i + 7) (f n2)); [|lia].
            exfalso. apply (le8_ne (Z.of_nat i)). congruence.
          + exfalso. unfold content in C. rewrite Hr in C. destruct (Nat.leb_spec (7 * i + 7) (f n2)); [discriminate|]. destruct (Nat.leb_spec (7 * i + 6) (f n2)); [discriminate|].
            destruct (Nat.leb_spec (7 * i + 5) (f n2)); [discriminate|]. lia. }
      intros [h|e] n1 H1 [_ Hr]; pose proof (proj1 (t_mono n n1 H1)) as M1; pose proof (IN n1) as C.
      + cbn [Live_Core.live]. apply Go; [exact H1|]. destruct Hr as (_ & b & Cb & _). rewrite C in Cb. unfold ncell in Cb.
        destruct (Nat.leb_spec (7 * i + 7) (f n1)); [lia|]. destruct (Nat.leb_spec (7 * i + 6) (f n1)); [lia|]. destruct (Nat.leb_spec (7 * i + 5) (f n1)); [lia|discriminate].
      + destruct e; try contradiction; cbn [Live_Core.live].
        * apply Go; [exact H1|]. rewrite C in Hr. unfold ncell in Hr.
          destruct (Nat.leb_spec (7 * i + 7) (f n1)); [lia|]. destruct (Nat.leb_spec (7 * i + 6) (f n1)); [lia|]. destruct (Nat.leb_spec (7 * i + 5) (f n1)); [lia|discriminate].
        * split; [lia|]. left. split; [reflexivity|]. unfold content in C. rewrite Hr in C. unfold ncell in C.
          destruct (Nat.leb_spec (7 * i + 7) (f n1)); [discriminate|]. destruct (Nat.leb_spec (7 * i + 6) (f n1)); [discriminate|].
          destruct (Nat.leb_spec (7 * i + 5) (f n1)); [discriminate|]. lia.
    - apply position_none in Ej.
      assert (Nn : forall n', names (t n') a = None).
      { intro n'. apply (inv_noname _ _ _ _ _ _ (t_inv n')). intros y Hy E. apply Ej. rewrite Forall_forall in F_K.
        rewrite <- (hash_inj y (ktext k) (F_K y Hy) HK E). exact Hy. }
      apply live_bind. unfold exists_block. apply live_ptry. eapply live_mono; [|apply (live_attach a n Ha)]. cbv beta.
      intros [h|e] n1 H1 [_ Hr].
      + destruct Hr as [Hr _]. rewrite Nn in Hr. discriminate.
      + destruct e; try contradiction; [unfold content in Hr; rewrite Nn in Hr; discriminate|]. cbn [Live_Core.live]. auto.
  Qed.

  (** A whole history of looking. *)
  Lemma live_visits h : only_looks h -> Forall (plain_visit K) h -> forall lo n, known lo n ->
    live (visits_prog hash I H h) n (fun r n' => match r with
      | Ok outs => reads F lo (map v_op h) outs
      | Exc e => e = ValueError /\ exists n', f n' < 7 * List.length F end).
  Proof.
    induction 1 as [|v h Hv _ IH]; intros Fp lo n Hlo; cbn [visits_prog map]; [exact Logic.I|].
    inversion Fp as [|? ? [_ Hp] Fp']; subst. apply live_bind.
    destruct v as [nl fuel o]. cbn [v_op v_nl v_fuel visit_prog] in *. unfold visit_prog. cbn [v_op v_nl].
    destruct o as [k ok|k|k|]; try contradiction.
    - specialize (Hp k eq_refl). apply live_bind. eapply live_mono; [|apply (live_check (mkIndex I H nl) lo n k eq_refl Hp Hlo)]. cbv beta.
      intros [o|e] n1 H1 [_ Hr]; [|destruct Hr; eauto]. cbn [Live_Core.live]. apply live_bind.
      pose proof (proj1 (t_mono n n1 H1)) as M1. unfold found in Hr.
      destruct (position (ktext k) F) as [j|] eqn:Ej.
      + destruct Hr as [[-> Hr]|[Hr Kn]].
        * eapply live_mono; [|apply (IH Fp' lo n1); lia]. cbv beta. intros [outs|e] n2 H2 Hr2; [|exact Hr2]. cbn [Live_Core.live reads]. rewrite Ej. left. auto.
        * eapply live_mono; [|apply (IH Fp' (Nat.max lo (S (Z.to_nat j))) n1); lia]. cbv beta. intros [outs|e] n2 H2 Hr2; [|exact Hr2]. cbn [Live_Core.live reads]. rewrite Ej. right. auto.
      + subst o. eapply live_mono; [|apply (IH Fp' lo n1); lia]. cbv beta. intros [outs|e] n2 H2 Hr2; [|exact Hr2]. cbn [Live_Core.live reads]. rewrite Ej. auto.
    - apply live_bind. eapply live_mono; [|apply (live_update (mkIndex I H nl) lo n eq_refl eq_refl Hlo)]. cbv beta.
      intros [l|e] n1 H1 [_ Hr]; [|destruct Hr; eauto]. cbn [Live_Core.live]. destruct Hr as (c & B & Kn & Hl). apply live_bind.
      eapply live_mono; [|apply (IH Fp' c n1); lia]. cbv beta. intros [outs|e] n2 H2 Hr2; [|exact Hr2]. cbn [Live_Core.live reads]. exists c. auto.
  Qed.
End Readers.
