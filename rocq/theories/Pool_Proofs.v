(** Proofs about pooled maps. *)
From Verif Require Export Pool_Spec.
From Verif Require Import Py_Facts.
From Coq Require Import Lia.

(** ** Dictionaries *)

Section D.
  Context {V : Type}.
  Implicit Types d : dict V.

  Lemma dict_of_snoc (l : list (key * V)) k v : dict_of (l ++ [(k, v)]) = dset (dict_of l) k v.
  Proof. unfold dict_of, dupdate. now rewrite fold_left_app. Qed.
  Lemma dupdate_snoc d (l : list (key * V)) k v : dupdate d (l ++ [(k, v)]) = dset (dupdate d l) k v.
  Proof. unfold dupdate. now rewrite fold_left_app. Qed.
  Lemma dupdate_app d l1 l2 : dupdate d (l1 ++ l2) = dupdate (dupdate d l1) l2.
  Proof. unfold dupdate. apply fold_left_app. Qed.

  Lemma dset_swap d k v k1 v1 :
    keqb k k1 = false -> dhas d k = true -> dset (dset d k1 v1) k v = dset (dset d k v) k1 v1.
  Proof.
    intros Hne. induction d as [|[a b] r IH]; intro Hh; [discriminate|].
    unfold dhas in Hh. cbn [dget] in Hh. cbn [dset].
    destruct (keqb a k1) eqn:E1, (keqb a k) eqn:E2; cbn [dset]; rewrite ?E1, ?E2; try reflexivity.
    - exfalso. rewrite <- (keqb_l _ _ _ E2), E1 in Hne. discriminate.
    - f_equal. apply IH. exact Hh.
  Qed.
  Lemma dset_dset d k v k' v' : keqb k k' = true -> dset (dset d k v) k' v' = dset d k v'.
  Proof.
    intro H. induction d as [|[a b] r IH]; cbn [dset].
    - now rewrite H.
    - destruct (keqb a k) eqn:E; cbn [dset]; rewrite <- (keqb_r _ _ a H), E; [reflexivity|]. now rewrite IH.
  Qed.
  Lemma dset_key d k k' v : keqb k k' = true -> dhas d k = true -> dset d k v = dset d k' v.
  Proof.
    intro H. induction d as [|[a b] r IH]; intro Hh; [discriminate|].
    unfold dhas in Hh. cbn [dget dset] in *. rewrite <- (keqb_r _ _ a H).
    destruct (keqb a k); [reflexivity|]. f_equal. apply IH, Hh.
  Qed.

  Lemma dset_past d l k v : dget l k = None -> dhas d k = true -> dset (dupdate d l) k v = dupdate (dset d k v) l.
  Proof.
    revert d. induction l as [|[a b] r IH]; intros d Hn Hh; [reflexivity|].
    cbn [dupdate fold_left fst snd]. cbn [dget] in Hn. destruct (keqb a k) eqn:E; [discriminate|].
    change (fold_left _ r ?x) with (dupdate x r).
    rewrite IH; [|exact Hn|rewrite dhas_dset, Hh; apply orb_true_r].
    f_equal. apply dset_swap; [now rewrite keqb_sym|exact Hh].
  Qed.

  Lemma dupdate_dset d D k v : wfd D = true -> dupdate d (dset D k v) = dset (dupdate d D) k v.
  Proof.
    revert d. induction D as [|[a b] r IH]; intros d Hw; [reflexivity|].
    apply wfd_cons in Hw. destruct Hw as [Hn Hw].
    cbn [dset]. destruct (keqb a k) eqn:E; cbn [dupdate fold_left fst snd];
      change (fold_left _ ?l ?x) with (dupdate x l).
    - rewrite dset_past.
      + now rewrite dset_dset.
      + now rewrite <- (dget_keqb _ _ _ E).
      + rewrite dhas_dset, E. reflexivity.
    - apply IH, Hw.
  Qed.

  Lemma dupdate_dict_of d (l : list (key * V)) : dupdate d (dict_of l) = dupdate d l.
  Proof.
    induction l as [|[k v] l IH] using rev_ind; [reflexivity|].
    rewrite dict_of_snoc, dupdate_dset, dupdate_snoc, IH; [reflexivity|]. apply wfd_dict_of.
  Qed.
End D.

Lemma dset_map {V U} (f : V -> U) (d : dict V) k v :
  dset (map (fun kv => (fst kv, f (snd kv))) d) k (f v) = map (fun kv => (fst kv, f (snd kv))) (dset d k v).
Proof.
  induction d as [|[a b] r IH]; [reflexivity|]. cbn [map dset fst snd].
  destruct (keqb a k); [reflexivity|]. cbn [map fst snd]. now rewrite IH.
Qed.
Lemma dict_of_map {V U} (f : V -> U) (l : list (key * V)) :
  dict_of (map (fun kv => (fst kv, f (snd kv))) l) = map (fun kv => (fst kv, f (snd kv))) (dict_of l).
Proof.
  induction l as [|[k v] l IH] using rev_ind; [reflexivity|].
  rewrite map_app. cbn [map fst snd]. rewrite !dict_of_snoc, IH. apply dset_map.
Qed.

Lemma dkeys_dset_has {V} (d : dict V) k v :
  dkeys (dset d k v) = if existsb (fun k' => keqb k' k) (dkeys d) then dkeys d else dkeys d ++ [k].
Proof.
  unfold dkeys. induction d as [|[a b] r IH]; [reflexivity|]. cbn [dset map fst existsb].
  destruct (keqb a k); [reflexivity|]. cbn [map fst orb app]. rewrite IH. now destruct (existsb _ _).
Qed.
Lemma dkeys_dupdate {V} (d : dict V) l : dkeys (dupdate d l) = dkeys d ++ first_keys (dkeys d) (map fst l).
Proof.
  revert d. induction l as [|[k v] r IH]; intro d; [now rewrite app_nil_r|].
  cbn [dupdate fold_left map fst snd first_keys]. change (fold_left _ r ?x) with (dupdate x r).
  rewrite IH, dkeys_dset_has. destruct (existsb _ (dkeys d)); [reflexivity|]. now rewrite <- app_assoc.
Qed.

(** ** divide *)

Lemma divide_from_concat {B} n q r (l : list B) :
  List.length l = n * q + r -> r <= n -> List.concat (divide_from n q r l) = l.
Proof.
  revert r l. induction n as [|n IH]; intros r l Hl Hr; cbn [divide_from List.concat].
  - destruct l; [reflexivity|cbn in Hl; lia].
  - rewrite IH; [apply firstn_skipn| |]; rewrite ?skipn_length; destruct r; cbn [pred]; lia.
Qed.
Lemma divide_from_length {B} n q r (l : list B) : List.length (divide_from n q r l) = n.
Proof. revert r l; induction n; intros; cbn; [reflexivity|]. now rewrite IHn. Qed.
Lemma divide_from_sizes {B} n q r (l : list B) c :
  List.length l = n * q + r -> r <= n -> In c (divide_from n q r l) -> List.length c = q \/ List.length c = S q.
Proof.
  revert r l. induction n as [|n IH]; intros r l Hl Hr Hc; [destruct Hc|].
  cbn [divide_from] in Hc. destruct Hc as [<-|Hc].
  - rewrite firstn_length. destruct r; lia.
  - apply (IH _ _) in Hc; [exact Hc| |]; rewrite ?skipn_length; destruct r; cbn [pred]; lia.
Qed.

Lemma divide_spec {B} n (l : list B) : 0 < n ->
  List.concat (divide n l) = l /\ List.length (divide n l) = n /\
  forall c, In c (divide n l) ->
    List.length c = List.length l / n \/ List.length c = S (List.length l / n).
Proof.
  intro H. assert (E : List.length l = n * (List.length l / n) + List.length l mod n)
    by (apply PeanoNat.Nat.div_mod; lia).
  assert (E2 : List.length l mod n < n) by (apply PeanoNat.Nat.mod_upper_bound; lia).
  unfold divide. split; [apply divide_from_concat; lia|]. split; [apply divide_from_length|].
  intros c Hc. apply divide_from_sizes in Hc; [exact Hc|lia|lia].
Qed.

(** ** Delivery *)

Section Deliver.
  Context {R : Type}.
  Definition submit (l : list (key * res R)) : dict (result R) :=
    dict_of (map (fun kc => (fst kc, Async None)) l).

  (** Each result is pending or what its call delivers. *)
  Definition partly (kc : key * res R) (kr : key * result R) : Prop :=
    fst kc = fst kr /\ (snd kr = Async None \/ snd kr = Async (delivers (snd kc))).

  Lemma submit_partly l : Forall2 partly (dict_of l) (submit l).
  Proof.
    unfold submit. rewrite (dict_of_map (fun _ : res R => Async None)).
    induction (dict_of l) as [|[k c] r IH]; constructor; [split; cbn; auto|exact IH].
  Qed.

  Lemma partly_dget D d k : Forall2 partly D d ->
    match dget D k, dget d k with
    | Some c, Some r => r = Async None \/ r = Async (delivers c)
    | None, None => True
    | _, _ => False
    end.
  Proof.
    induction 1 as [|[k1 c] [k2 r] D d [H1 H2] HF IH]; [exact I|]. cbn in *. subst k2.
    destruct (keqb k1 k); assumption.
  Qed.

  Lemma partly_dset D d k c : Forall2 partly D d -> dget D k = Some c ->
    Forall2 partly D (dset d k (Async (delivers c))).
  Proof.
    induction 1 as [|[k1 c1] [k2 r] D d [H1 H2] HF IH]; intro H; [discriminate|]. cbn in *. subst k2.
    destruct (keqb k1 k); [injection H as ->|]; (constructor; [split; cbn; auto|auto]).
  Qed.

  Lemma deliver_partly l d k : Forall2 partly (dict_of l) d -> Forall2 partly (dict_of l) (deliver d k l).
  Proof.
    intro H. unfold deliver. destruct (dget d k) as [[v|[o|]]|]; try exact H.
    destruct (dget (dict_of l) k) as [c|] eqn:E; [|exact H]. apply partly_dset; assumption.
  Qed.

  Definition deliver_all (l : list (key * res R)) (sched : list key) (d : dict (result R)) : dict (result R) := fold_left (fun d k => deliver d k l) sched d.

  Lemma deliver_all_partly l sched d : Forall2 partly (dict_of l) d -> Forall2 partly (dict_of l) (deliver_all l sched d).
  Proof. revert d. induction sched as [|k r IH]; intros d H; cbn; [exact H|]. apply IH, deliver_partly, H. Qed.

  Definition ready_all (d : dict (result R)) := forallb (fun kr => ready_result (snd kr)) d.

  Lemma partly_ready D d : Forall2 partly D d -> ready_all d = true ->
    d = map (fun kc => (fst kc, Async (delivers (snd kc)))) D.
  Proof.
    induction 1 as [|[k1 c] [k2 r] D d [H1 H2] HF IH]; intro H; [reflexivity|]. cbn in *. subst k2.
    apply andb_true_iff in H. destruct H as [Hr H]. rewrite IH by exact H.
    destruct H2 as [-> | ->]; [discriminate|reflexivity].
  Qed.

  (** When every call delivers and is in the schedule, everything becomes
      ready. *)
  Lemma deliver_mono l d k k0 c :
    dget (dict_of l) k0 = Some c -> dget d k0 = Some (Async (delivers c)) -> Forall2 partly (dict_of l) d ->
    dget (deliver d k l) k0 = Some (Async (delivers c)).
  Proof.
    intros Hc Hd HF. unfold deliver. destruct (dget d k) as [[v|[o|]]|] eqn:Ed; try exact Hd.
    destruct (dget (dict_of l) k) as [c'|] eqn:Ec; [|exact Hd].
    rewrite dget_dset. destruct (keqb k k0) eqn:E; [|exact Hd].
    rewrite (dget_keqb _ _ _ E) in Ec. congruence.
  Qed.
  Lemma deliver_all_mono l sched d k0 c :
    dget (dict_of l) k0 = Some c -> dget d k0 = Some (Async (delivers c)) -> Forall2 partly (dict_of l) d ->
    dget (deliver_all l sched d) k0 = Some (Async (delivers c)).
  Proof.
    revert d. induction sched as [|k r IH]; intros d Hc Hd HF; cbn; [exact Hd|].
    apply IH; [exact Hc| |apply deliver_partly, HF]. apply deliver_mono; assumption.
  Qed.
  Lemma deliver_covered l sched d k0 k c :
    In k sched -> keqb k k0 = true -> dget (dict_of l) k0 = Some c -> Forall2 partly (dict_of l) d ->
    dget (deliver_all l sched d) k0 = Some (Async (delivers c)).
  Proof.
    revert d. induction sched as [|k1 r IH]; intros d Hin Hk Hc HF; [destruct Hin|].
    destruct Hin as [->|Hin]; cbn; [|apply IH; auto using deliver_partly].
    apply deliver_all_mono; [exact Hc| |apply deliver_partly, HF].
    pose proof (partly_dget _ _ k0 HF) as P. rewrite Hc in P. unfold deliver.
    rewrite (dget_keqb d _ _ Hk), (dget_keqb (dict_of l) _ _ Hk), Hc.
    destruct (dget d k0) as [r0|] eqn:Ed; [|destruct P].
    destruct P as [-> | ->].
    - rewrite dget_dset, Hk. reflexivity.
    - destruct (delivers c); [exact Ed|]. rewrite dget_dset, Hk. reflexivity.
  Qed.

  Lemma covered_ready l sched :
    (forall k, In k (map fst l) -> exists k', In k' sched /\ keqb k' k = true) ->
    forallb (fun kc => match delivers (snd kc) with Some _ => true | None => false end) l = true ->
    ready_all (deliver_all l sched (submit l)) = true.
  Proof.
    intros Hc Hd. pose proof (deliver_all_partly l sched _ (submit_partly l)) as HF.
    unfold ready_all. apply forallb_forall. intros [k r] Hin.
    assert (W : wfd (deliver_all l sched (submit l)) = true).
    { assert (G : dkeys (deliver_all l sched (submit l)) = dkeys (dict_of l)).
      { clear - HF. induction HF as [|[? ?] [? ?] ? ? [H1 _] _ IH]; [reflexivity|]. unfold dkeys in *. cbn in *. congruence. }
      assert (G2 : forall (d : dict (result R)) (D : dict (res R)), dkeys d = dkeys D -> wfd D = true -> wfd d = true).
      { clear. induction d as [|[k r] d IH]; intros D Hk HW; [reflexivity|].
        destruct D as [|[k' c] D]; [discriminate|]. unfold dkeys in *; cbn in Hk. injection Hk as -> Hk.
        apply wfd_cons in HW. destruct HW as [H1 H2]. apply wfd_cons. split; [|apply (IH D); assumption].
        apply dget_none_iff. intros k1 v1 Hi.
        assert (Hi' : In k1 (map fst D)) by (rewrite <- Hk; apply (in_map fst) in Hi; exact Hi).
        apply in_map_iff in Hi'. destruct Hi' as [[k2 c2] [E Hi']]. cbn in E. subst k2.
        exact (proj1 (dget_none_iff D k') H1 k1 c2 Hi'). }
      apply (G2 _ _ G), wfd_dict_of. }
    pose proof (wfd_In_dget _ _ _ W Hin) as Hg.
    pose proof (partly_dget _ _ k HF) as P. rewrite Hg in P.
    destruct (dget (dict_of l) k) as [c|] eqn:Ec; [|destruct P].
    assert (Hk : exists k1, In (k1, c) l /\ keqb k1 k = true).
    { rewrite dget_dict_of in Ec. apply dget_In in Ec. destruct Ec as [k1 [Hi Hk]].
      exists k1. split; [now apply in_rev|exact Hk]. }
    destruct Hk as [k1 [Hi Hk]].
    destruct (Hc k1) as [k2 [Hk2 Hk3]]; [apply (in_map fst) in Hi; exact Hi|].
    rewrite (deliver_covered l sched _ k k2 c) in Hg;
      [|exact Hk2|eapply keqb_trans; eassumption|exact Ec|apply submit_partly].
    injection Hg as <-. cbn [snd ready_result]. rewrite forallb_forall in Hd.
    specialize (Hd _ Hi). cbn [snd] in Hd. destruct (delivers c); [reflexivity|discriminate].
  Qed.
End Deliver.

(** ** get *)

Section Get.
  Context {V : Type} (as_exn : V -> option exn) (exn_val : exn -> V) (HV : exn_values as_exn exn_val).

  (** A result that has come to [c]. *)
  Definition came_to {R} (r : result R) (c : res R) : Prop :=
    (r = Maybe c \/ r = Async (Some c)) /\ ordinary c.

  Lemma get_by_key (d : list (key * result V)) (cs : list (key * res V)) out :
    Forall2 (fun kr kc => fst kr = fst kc /\ came_to (snd kr) (snd kc)) d cs ->
    get_loop exn_val as_exn (fun out k v => dset out k v) false d out =
    Some (Ok (dupdate out (map (fun kc => (fst kc, as_value exn_val (snd kc))) cs))).
  Proof.
    intro H. revert out. induction H as [|[k r] [k' c] d cs [H1 [H2 H3]] HF IH]; intro out; [reflexivity|].
    cbn [fst snd] in *. subst k'. cbn [get_loop map dupdate fold_left fst snd].
    destruct H2 as [-> | ->]; cbn [get_result].
    - destruct c as [v|e]; cbn [as_value]; [|apply IH].
      destruct (as_exn v) as [e|] eqn:E; [|apply IH]. apply (ev_back _ _ HV) in E. destruct E as [-> _]. apply IH.
    - destruct c as [v|e]; cbn [as_value]; apply IH.
  Qed.

  Definition put_chunk (out : dict V) (kc : key * res (dict V)) : dict V :=
    match snd kc with Ok v => dupdate out v | Exc e => dset out (fst kc) (exn_val e) end.

  Lemma get_by_chunk (d : list (key * result (dict V))) cs out :
    Forall2 (fun kr kc => fst kr = fst kc /\ snd kr = Async (Some (snd kc))) d cs ->
    get_loop exn_val (fun _ => None) (fun out _ v => dupdate out v) false d out =
    Some (Ok (fold_left put_chunk cs out)).
  Proof.
    intro H. revert out. induction H as [|[k r] [k' c] d cs [H1 H2] HF IH]; intro out; [reflexivity|].
    cbn [fst snd] in *. subst k' r. cbn [get_loop get_result fold_left].
    unfold put_chunk at 2. cbn [fst snd]. destruct c as [v|e]; apply IH.
  Qed.
End Get.

(** ** Records *)

Section Records.
  Context {A V : Type}.
  Lemma complete_keys i (recs : list (argrec A)) : map key_of (complete i recs) = all_keys i recs.
  Proof. revert i; induction recs as [|r rest IH]; intro i; [reflexivity|]. cbn. rewrite IH. reflexivity. Qed.
  Lemma complete_args i (recs : list (argrec A)) : map (@r_args A) (complete i recs) = map (@r_args A) recs.
  Proof. revert i; induction recs as [|r rest IH]; intro i; [reflexivity|]. cbn. rewrite IH. reflexivity. Qed.
  Lemma complete_In i (recs : list (argrec A)) r : In r (complete i recs) -> exists r', In r' recs /\ r_args r' = r_args r.
  Proof.
    intro H. assert (G : In (r_args r) (map (@r_args A) recs)) by (rewrite <- (complete_args i); apply in_map, H).
    apply in_map_iff in G. destruct G as [r' [E Hi]]. eauto.
  Qed.
  (** Completed records are left alone. *)
  Lemma complete_complete i j (recs : list (argrec A)) : complete j (complete i recs) = complete i recs.
  Proof. revert i j; induction recs as [|r rest IH]; intros i j; [reflexivity|]. cbn. now rewrite IH. Qed.

  Lemma dget_last_for {B} (g : A -> B) i (recs : list (argrec A)) k :
    dget (dict_of (map (fun r => (key_of r, g (r_args r))) (complete i recs))) k = option_map g (last_for i recs k).
  Proof.
    rewrite dget_dict_of. revert i. induction recs as [|r rest IH]; intro i; [reflexivity|].
    cbn [complete map last_for rev]. rewrite dget_app, IH.
    destruct (last_for (i + 1) rest k); cbn [option_map]; [reflexivity|].
    cbn [dget key_of r_key r_args]. unfold position_key. destruct (r_key r); destruct (keqb _ k); reflexivity.
  Qed.
End Records.
