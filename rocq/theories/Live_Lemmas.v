(** One process adding keys, any number looking: the whole. *)
From Coq Require Import Lia.
From Verif Require Export Live_Readers.

Lemma tags_run_app h1 : forall ks h2,
  snd (tags_run ks (h1 ++ h2)) = snd (tags_run (snd (tags_run ks h1)) h2).
Proof.
  induction h1 as [|o h1 IH]; intros ks h2; cbn [tags_run app snd]; [reflexivity|].
  destruct (tags_step ks o) as [x ks1]. specialize (IH ks1 h2). destruct (tags_run ks1 (h1 ++ h2)), (tags_run ks1 h1). exact IH.
Qed.
Lemma keys_after_app h1 h2 : keys_after (h1 ++ h2) = snd (tags_run (keys_after h1) (map v_op h2)).
Proof. unfold keys_after. rewrite map_app. apply tags_run_app. Qed.

Lemma reached_fresh hash K I h m s : reached hash K I h m s ->
  exists i c, m = mkHandle I i /\ wf s /\ RepN hash K I i (List.length (keys_after h)) (keys_after h) s /\ quiet I c s /\
    (0 <= c <= Z.of_nat (List.length h))%Z.
Proof.
  intros (HK & F & L & s0 & nl & r & W & V & -> & Hr).
  destruct (create_rep hash K I s0 nl W V) as (s1 & R1 & W1 & Rp1 & Q1 & O1).
  destruct (visits_rep hash K HK I (next s0) h [] s1 0 W1 Rp1 Q1) as (s2 & c2 & R2 & W2 & Rp2 & Q2 & Hc2 & O2).
  - lia.
  - exact F.
  - cbn [List.length plus]. rewrite pow8. change (256 ^ 5)%Z with 1099511627776%Z in L. lia.
  - rewrite (run_bind_ok _ _ _ _ _ R1) in Hr. cbn [ix_mem] in Hr. rewrite R2 in Hr. injection Hr as _ <-.
    exists (next s0), c2. split; [reflexivity|]. split; [exact W2|]. split; [exact Rp2|]. split; [exact Q2|]. lia.
Qed.

Lemma Forall2_map_r {A B C} (P : A -> C -> Prop) (g : B -> C) l : forall l', Forall2 P l (map g l') -> Forall2 (fun a b => P a (g b)) l l'.
Proof. induction l as [|a l IH]; intros [|b l'] F; inversion F; subst; constructor; auto. Qed.
Lemma Forall2_swap {A B} (P : A -> B -> Prop) l l' : Forall2 P l l' -> Forall2 (fun b a => P a b) l' l.
Proof. induction 1; constructor; auto. Qed.

Lemma live_readers hash K I h0 m s h rs sched w ps s' :
  reached hash K I h0 m s -> Forall (plain_visit K) h -> removes_nothing h ->
  (Z.of_nat (List.length h0 + List.length h) + 8 < 256 ^ 5)%Z ->
  Forall (fun r => only_looks r /\ Forall (plain_visit K) r) rs ->
  together (visits_prog hash I m h :: map (visits_prog hash I m) rs) sched s = (w :: ps, s') ->
  (forall r, outcome w = Some r ->
     r = Ok (fst (tags_run (keys_after h0) (map v_op h))) /\ s' = snd (run (visits_prog hash I m h) s)) /\
  Forall2 (fun r p => forall o, outcome p = Some o ->
     match o with
     | Ok outs => reads (keys_after (h0 ++ h)) (List.length (keys_after h0)) (map v_op r) outs
     | Exc e => e = ValueError /\ keys_after h0 <> keys_after (h0 ++ h)
     end) rs ps.
Proof.
  intros Rd Fp Fr L Frs T. pose proof Rd as (HK & Fp0 & _). destruct (reached_fresh _ _ _ _ _ _ Rd) as (i & c & -> & W & R & Q & Hc).
  set (ks := keys_after h0) in *. set (F := keys_after (h0 ++ h)) in *.
  assert (EF : F = snd (tags_run ks (map v_op h))) by apply keys_after_app.
  assert (FL : (Z.of_nat (List.length F) < 256 ^ Z.of_nat 8)%Z).
  { unfold F, keys_after. pose proof (tags_run_length (map v_op (h0 ++ h)) []) as Hl. rewrite map_length, app_length in Hl. cbn [List.length plus] in Hl.
    rewrite pow8. change (256 ^ 5)%Z with 1099511627776%Z in L. lia. }
  destruct (visits_rep hash K HK I i h ks s c W R Q) as (s2 & c2 & R2 & W2 & Rp2 & _); [lia|exact Fp| |].
  { rewrite pow8. pose proof (tags_run_length (map v_op h0) []) as Hl. rewrite map_length in Hl. cbn [List.length plus] in Hl. fold (keys_after h0) in Hl. fold ks in Hl.
    change (256 ^ 5)%Z with 1099511627776%Z in L. lia. }
  rewrite <- EF in Rp2.
  pose proof (rep_nodup _ _ _ _ _ _ _ Rp2) as Fd. pose proof (rep_ne _ _ _ _ _ _ _ Rp2) as Fe. pose proof (rep_K _ _ _ _ _ _ _ Rp2) as FK.
  pose proof (trail_visits hash K HK I i F Fd FK FL h ks s c W R Q ltac:(lia) Fp Fr EF) as Tr.
  apply trail_line in Tr; [|apply keeps_refl|apply keeps_trans].
  destruct Tr as (f & F0 & FI & FM & r & s1 & g1 & Rr & -> & _).
  set (wr := visits_prog hash I {| hname := I; hid := i |} h) in *.
  set (post := fun (r : list visit) (o : res (list iout)) =>
     match o with Ok outs => reads F (List.length ks) (map v_op r) outs | Exc e => e = ValueError /\ ks <> F end).
  assert (Ls : Forall2 (fun p Q => live (fun n => crash n wr s) p 0 (fun o _ => Q o)) (map (visits_prog hash I {| hname := I; hid := i |}) rs) (map post rs)).
  { clear - Frs HK Fd FK Fe FL F0 FI FM. induction Frs as [|r rs [Ho Hp] _ IH]; cbn [map]; constructor; [|exact IH].
    eapply live_mono; [|apply (live_visits hash K HK I i F FK Fe FL (fun n => crash n wr s) f FI FM r Ho Hp (List.length ks) 0)]; [|cbv beta; lia].
    cbv beta. intros [outs|e] n' _ Hr; cbn [post]; [exact Hr|]. destruct Hr as [-> (n1 & L1)]. split; [reflexivity|].
    intro E. pose proof (proj1 (FM 0 n1 ltac:(lia))) as M. rewrite <- E in L1. lia. }
  destruct (live_sound wr s (map post rs) _ sched Ls) as (n & rs' & E & F2).
  fold wr in T. rewrite T in E. injection E as -> -> ->. split.
  - intros q Hq. apply rest_done in Hq. rewrite Hq. rewrite Rr in Hq. injection Hq as <- _. auto.
  - apply Forall2_map_r, Forall2_swap in F2. exact F2.
Qed.
