(** Sends into the inserts of a composition (composition.py). *)
From Coq Require Import Lia.
From Verif Require Export Comp_Proofs.
From Verif Require Import Py_Facts Pool_Proofs Track_Proofs.

Section Sends.
  Context {V W : Type}.
  Context (none : V) (trace : exn -> string * list frame).
  Notation world := (@world V W).
  Notation step := (@step V W).
  Notation send := (@send V W).
  Notation comp := (@comp V W).
  Notation st := (@st V W).
  Implicit Types (c : comp) (w : world) (x y : V) (s : st).

  (** ** What is sent to one step *)

  Definition sel (t : key) (sent : list (key * key * V)) : dict V :=
    flat_map (fun e => if keqb (fst (fst e)) t then [(snd (fst e), snd e)] else []) sent.
  Definition selw (t : key) (ws : list (key * key)) : list key :=
    flat_map (fun e => if keqb (fst e) t then [snd e] else []) ws.
  Lemma sel_app t a b : sel t (a ++ b) = sel t a ++ sel t b.
  Proof. apply flat_map_app. Qed.
  Lemma selw_app t a b : selw t (a ++ b) = selw t a ++ selw t b.
  Proof. apply flat_map_app. Qed.
  Lemma sel_keys t sent : map fst (sel t sent) = selw t (map fst sent).
  Proof.
    induction sent as [|[[a b] v] l IH]; [reflexivity|]. cbn [sel selw map flat_map fst snd].
    rewrite map_app. fold (sel t l). fold (selw t (map fst l)). rewrite IH. now destruct (keqb a t).
  Qed.

  Lemma dget_last_sent t k sent : forall d : dict V,
    dget (dupdate d (sel t sent)) k = last_sent sent t k (dget d k).
  Proof.
    induction sent as [|[[a b] v] l IH]; intro d; [reflexivity|].
    cbn [sel flat_map fst snd last_sent fold_left]. fold (sel t l).
    fold (last_sent l t k (if keqb a t && keqb b k then Some v else dget d k)).
    destruct (keqb a t); cbn [app andb]; [|apply IH]. cbn [dupdate fold_left fst snd].
    fold (dupdate (dset d b v) (sel t l)). rewrite IH, dget_dset. reflexivity.
  Qed.

  Lemma add_insert_run t k v c w : exists c', add_insert t k v (c, w) = (Ok tt, (c', w)) /\ same_shape c c' /\
    forall t', inserts_at c' t' = dupdate (inserts_at c t') (sel t' [((t, k), v)]).
  Proof.
    unfold add_insert, ebind, Comp_Model.get, put. cbn [fst snd]. eexists. split; [reflexivity|]. split; [reflexivity|]. intro t'. unfold inserts_at. cbn [inserts with_inserts].
    rewrite dget_dset. cbn [sel flat_map fst snd]. destruct (keqb t t') eqn:E; [|reflexivity].
    rewrite <- (dget_keqb _ _ _ E). reflexivity.
  Qed.

  Lemma lift_inserts {A} (m : act A) s t : inserts_at (fst (snd (lift m s))) t = inserts_at (fst s) t.
  Proof. now rewrite lift_run. Qed.

  (** One send: what it adds to the inserts. *)
  Lemma perform_send_sent x d s r s' : perform_send x d s = (r, s') ->
    exists sent rest, wire d = map fst sent ++ rest /\ (r = Ok tt -> rest = []) /\
      (forall t, inserts_at (fst s') t = dupdate (inserts_at (fst s) t) (sel t sent)) /\
      (pipe d = None -> r = Ok tt /\ sent = map (fun tp => (tp, x)) (wire d) \/ wire d = []).
  Proof.
    unfold perform_send, wire. intro H.
    assert (N : forall t, starget d = t -> (forall k, t <> TStep k) ->
      (forall t', inserts_at (fst s') t' = inserts_at (fst s) t') ->
      exists sent rest, match starget d with TStep t => [(t, pointer d)] | _ => [] end = map fst sent ++ rest /\
      (r = Ok tt -> rest = []) /\
      (forall t, inserts_at (fst s') t = dupdate (inserts_at (fst s) t) (sel t sent)) /\
      (pipe d = None -> r = Ok tt /\ sent = map (fun tp => (tp, x))
         match starget d with TStep t => [(t, pointer d)] | _ => [] end \/
         match starget d with TStep t => [(t, pointer d)] | _ => [] end = [])).
    { intros t Ht Hn Hi. exists [], []. rewrite Ht. destruct t; try (now destruct (Hn k));
        (split; [reflexivity|]; split; [reflexivity|]; split; [exact Hi|]; intros _; now right). }
    destruct (starget d) as [|t|ref|wr|] eqn:T.
    - apply (N TNone eq_refl); [discriminate|]. intro t. destruct (pipe d) as [p|].
      + unfold ebind in H. rewrite lift_run in H. destruct (p x (snd s)) as [[y|e] w']; injection H as <- <-; reflexivity.
      + injection H as <- <-. reflexivity.
    - destruct s as [c w]. destruct (pipe d) as [p|] eqn:P.
      + unfold ebind in H. rewrite lift_run in H. cbn [fst snd] in H. destruct (p x w) as [[y|e] w'].
        * cbn [fst snd place_into] in H. destruct (add_insert_run t (pointer d) y c w') as (c' & E & _ & I).
          rewrite E in H. injection H as <- <-. exists [((t, pointer d), y)], [].
          split; [reflexivity|]. split; [reflexivity|]. split; [exact I|]. discriminate.
        * cbn [fst snd] in H. injection H as <- <-. exists [], [(t, pointer d)].
          split; [reflexivity|]. split; [discriminate|]. split; [reflexivity|]. discriminate.
      + cbn [place_into] in H. destruct (add_insert_run t (pointer d) x c w) as (c' & E & _ & I).
        rewrite E in H. injection H as <- <-. exists [((t, pointer d), x)], [].
        split; [reflexivity|]. split; [reflexivity|]. split; [exact I|]. intros _. left. split; reflexivity.
    - apply (N (TRef ref) eq_refl); [discriminate|]. intro t. destruct (pipe d) as [p|].
      + unfold ebind in H. rewrite lift_run in H. destruct (p x (snd s)) as [[y|e] w'].
        * cbn [fst snd place_into] in H. rewrite lift_run in H. injection H as <- <-. reflexivity.
        * injection H as <- <-. reflexivity.
      + cbn [place_into] in H. rewrite lift_run in H. injection H as <- <-. reflexivity.
    - apply (N (TWriter wr) eq_refl); [discriminate|]. intro t. destruct (pipe d) as [p|].
      + unfold ebind in H. rewrite lift_run in H. destruct (p x (snd s)) as [[y|e] w'].
        * cbn [fst snd place_into] in H. rewrite lift_run in H. injection H as <- <-. reflexivity.
        * injection H as <- <-. reflexivity.
      + cbn [place_into] in H. rewrite lift_run in H. injection H as <- <-. reflexivity.
    - apply (N TOther eq_refl); [discriminate|]. intro t. destruct (pipe d) as [p|].
      + unfold ebind in H. rewrite lift_run in H. destruct (p x (snd s)) as [[y|e] w']; injection H as <- <-; reflexivity.
      + injection H as <- <-. reflexivity.
  Qed.

  Lemma dupdate_app' (d : dict V) a b : dupdate (dupdate d a) b = dupdate d (a ++ b).
  Proof. unfold dupdate. now rewrite fold_left_app. Qed.

  Lemma run_sends_sent l x : forall s r s', run_sends l x s = (r, s') ->
    exists sent rest, flat_map wire l = map fst sent ++ rest /\ (r = Ok tt -> rest = []) /\
      (forall t, inserts_at (fst s') t = dupdate (inserts_at (fst s) t) (sel t sent)) /\
      ((forall d, In d l -> unpiped d) -> r = Ok tt -> sent = map (fun tp => (tp, x)) (flat_map wire l)).
  Proof.
    induction l as [|d l IH]; intros s r s' H; cbn [run_sends flat_map] in *.
    - injection H as <- <-. exists [], []. repeat split; reflexivity.
    - destruct (perform_send x d s) as [[[]|e] s1] eqn:E.
      + destruct (perform_send_sent _ _ _ _ _ E) as (a & ra & A1 & A2 & A3 & A4).
        destruct (IH _ _ _ H) as (b & rb & B1 & B2 & B3 & B4).
        rewrite (A2 eq_refl), app_nil_r in A1. exists (a ++ b), rb.
        split; [now rewrite map_app, <- app_assoc, <- A1, B1|]. split; [exact B2|]. split.
        * intro t. rewrite B3, A3, sel_app. apply dupdate_app'.
        * intros Hu Hr. rewrite map_app, <- (B4 (fun d Hd => Hu d (or_intror Hd)) Hr). f_equal.
          specialize (Hu d (or_introl eq_refl)). unfold unpiped in Hu. unfold wire in *.
          destruct (starget d) as [|t|ref|wr|];
            try (destruct a; [reflexivity|discriminate]).
          destruct (A4 (Hu _ eq_refl)) as [[_ K]|K]; [exact K|discriminate].
      + injection H as <- <-. destruct (perform_send_sent _ _ _ _ _ E) as (a & ra & A1 & A2 & A3 & A4).
        exists a, (ra ++ flat_map wire l). split; [now rewrite app_assoc, <- A1|]. split; [discriminate|].
        split; [exact A3|discriminate].
  Qed.

  Lemma do_step_sent k x s r s' : _do_step k x s = (r, s') ->
    exists sent rest, flat_map wire (sends_of (fst s) k) = map fst sent ++ rest /\
      (forall y, r = Ok y -> rest = []) /\
      (forall t, inserts_at (fst s') t = dupdate (inserts_at (fst s) t) (sel t sent)) /\
      ((forall d, In d (sends_of (fst s) k) -> unpiped d) -> forall y, r = Ok y ->
         sent = map (fun tp => (tp, y)) (flat_map wire (sends_of (fst s) k))).
  Proof.
    destruct s as [c w]. rewrite do_step_run. destruct (call_step c k x w) as [[y|e] w'].
    - destruct (run_sends (sends_of c k) y (c, w')) as [r1 s1] eqn:E.
      destruct (run_sends_sent _ _ _ _ _ E) as (a & ra & A1 & A2 & A3 & A4). cbn [fst] in *.
      intro H. exists a, ra. destruct r1 as [[]|e]; injection H as <- <-.
      + split; [exact A1|]. split; [intros; now apply A2|]. split; [exact A3|].
        intros Hu z Hz. injection Hz as <-. now apply A4.
      + split; [exact A1|]. split; [discriminate|]. split; [exact A3|discriminate].
    - intro H. injection H as <- <-. exists [], (flat_map wire (sends_of c k)).
      split; [reflexivity|]. split; [discriminate|]. split; [reflexivity|discriminate].
  Qed.

  Lemma wires_cons c k ks : wires c (k :: ks) = flat_map wire (sends_of c k) ++ wires c ks.
  Proof. reflexivity. Qed.

  Lemma exhaust_sent ks : forall x s ys e s', exhaust ks x s = (ys, e, s') ->
    exists sent rest, wires (fst s) ks = map fst sent ++ rest /\ (e = None -> rest = []) /\
      (forall t, inserts_at (fst s') t = dupdate (inserts_at (fst s) t) (sel t sent)) /\
      ((forall k d, In k ks -> In d (sends_of (fst s) k) -> unpiped d) -> e = None ->
         sent = carried (fst s) (combine ks ys)).
  Proof.
    induction ks as [|k ks IH]; intros x s ys e s' H; cbn [exhaust] in H.
    - injection H as <- <- <-. exists [], []. repeat split; reflexivity.
    - destruct (_do_step k x s) as [[y|e1] s1] eqn:E.
      + destruct (do_step_sent _ _ _ _ _ E) as (a & ra & A1 & A2 & A3 & A4).
        pose proof (do_step_shape k x s) as Hsh. rewrite E in Hsh. cbn [snd] in Hsh.
        destruct (exhaust ks y s1) as [[zs e2] s2] eqn:E2. injection H as <- <- <-.
        destruct (IH _ _ _ _ _ E2) as (b & rb & B1 & B2 & B3 & B4).
        rewrite (shape_wires _ _ _ Hsh) in B1. rewrite (A2 _ eq_refl), app_nil_r in A1.
        exists (a ++ b), rb. rewrite wires_cons.
        split; [now rewrite map_app, <- app_assoc, <- A1, B1|]. split; [exact B2|]. split.
        * intro t. rewrite B3, A3, sel_app. apply dupdate_app'.
        * intros Hu He. cbn [combine]. unfold carried. cbn [flat_map fst snd]. f_equal.
          -- apply A4; [|reflexivity]. intros d Hd. apply (Hu k d); [now left|exact Hd].
          -- rewrite B4; [|intros k' d Hk Hd; rewrite (shape_sends _ _ _ Hsh) in Hd; apply (Hu k' d); [now right|exact Hd]|exact He].
             unfold carried. apply flat_map_ext. intros [k' v]. cbn [fst snd]. now rewrite (shape_sends _ _ _ Hsh).
      + injection H as <- <- <-. destruct (do_step_sent _ _ _ _ _ E) as (a & ra & A1 & A2 & A3 & A4).
        exists a, (ra ++ wires (fst s) ks). rewrite wires_cons.
        split; [now rewrite A1, <- app_assoc|]. split; [discriminate|]. split; [exact A3|discriminate].
  Qed.

  (** ** Dictionaries that agree after further updates *)

  Definition agree (R : list key) (d d' : dict V) : Prop :=
    forall S, map fst S = R -> dupdate d S = dupdate d' S.

  Lemma dict_ext (d d' : dict V) : wfd d = true -> wfd d' = true -> dkeys d = dkeys d' ->
    (forall k, dget d k = dget d' k) -> d = d'.
  Proof.
    revert d'. induction d as [|[k v] d IH]; intros [|[k' v'] d'] H H' E G; try discriminate; [reflexivity|].
    cbn [dkeys map fst] in E. injection E as <- E. apply wfd_cons in H, H'. destruct H as [H1 H2], H' as [H1' H2'].
    pose proof (G k) as Gk. cbn [dget] in Gk. rewrite keqb_refl in Gk. injection Gk as <-. f_equal.
    apply IH; [exact H2|exact H2'|exact E|]. intro a. pose proof (G a) as Ga. cbn [dget] in Ga.
    destruct (keqb k a) eqn:Ek; [|exact Ga]. rewrite <- (dget_keqb _ _ _ Ek), <- (dget_keqb d' _ _ Ek). congruence.
  Qed.

  Definition seen_by (seen : list key) (k : key) : bool := existsb (fun k' => keqb k' k) seen.
  Lemma seen_app a b k : seen_by (a ++ b) k = seen_by a k || seen_by b k.
  Proof. unfold seen_by. now rewrite existsb_app. Qed.
  Lemma first_keys_app a : forall seen b,
    first_keys seen (a ++ b) = first_keys seen a ++ first_keys (seen ++ first_keys seen a) b.
  Proof.
    induction a as [|k a IH]; intros seen b; cbn [app first_keys]; [now rewrite app_nil_r|].
    destruct (existsb _ seen); [apply IH|]. cbn [app]. f_equal. rewrite IH, <- app_assoc. reflexivity.
  Qed.
  Lemma first_keys_none ks : forall seen, (forall k, In k ks -> seen_by seen k = true) -> first_keys seen ks = [].
  Proof.
    induction ks as [|k ks IH]; intros seen H; [reflexivity|]. cbn [first_keys].
    pose proof (H k (or_introl eq_refl)) as Hk. unfold seen_by in Hk. rewrite Hk.
    apply IH. intros; apply H; now right.
  Qed.
  Lemma first_keys_seen ks : forall seen k, In k ks -> seen_by (seen ++ first_keys seen ks) k = true.
  Proof.
    induction ks as [|a ks IH]; intros seen k Hk; [contradiction|]. cbn [first_keys].
    destruct (existsb (fun k' => keqb k' a) seen) eqn:E.
    - destruct Hk as [<-|Hk]; [|now apply IH]. rewrite seen_app. unfold seen_by. now rewrite E.
    - destruct Hk as [<-|Hk].
      + rewrite seen_app. apply orb_true_iff. right. cbn. now rewrite keqb_refl.
      + specialize (IH (seen ++ [a]) k Hk). now rewrite <- app_assoc in IH.
  Qed.

  (** [d'] is [d] after updates at the keys [pfx] and a history of updates at
      initial segments of [pfx]. *)
  Definition touched (pfx : list key) (d d' : dict V) : Prop :=
    wfd d' = true /\ dkeys d' = dkeys d ++ first_keys (dkeys d) pfx /\
    forall k, seen_by pfx k = false -> dget d' k = dget d k.

  Lemma touched_refl d : wfd d = true -> touched [] d d.
  Proof. intro H. split; [exact H|]. split; [cbn; now rewrite app_nil_r|reflexivity]. Qed.

  Lemma dget_rev_seen (S : dict V) k : seen_by (map fst S) k = false -> dget (rev S) k = None.
  Proof.
    intro H. apply dget_none_iff. intros k' v Hin. apply in_rev in Hin.
    destruct (keqb k' k) eqn:E; [|reflexivity]. exfalso.
    assert (seen_by (map fst S) k = true); [|congruence]. apply existsb_exists. exists k'.
    split; [|exact E]. apply (in_map fst) in Hin. exact Hin.
  Qed.
  Lemma dget_rev_unseen (S : dict V) k : dget (rev S) k = None -> seen_by (map fst S) k = false.
  Proof.
    intro H. destruct (seen_by (map fst S) k) eqn:E; [|reflexivity]. apply existsb_exists in E.
    destruct E as (k' & Hin & Ek). apply in_map_iff in Hin. destruct Hin as ([k'' v] & <- & Hin). cbn in Ek.
    rewrite dget_none_iff in H. rewrite (H k'' v) in Ek; [discriminate|]. now apply in_rev in Hin.
  Qed.

  (** Updating at the keys again, whatever was touched of them before. *)
  Lemma touched_agree pfx rest (d d' : dict V) : wfd d = true -> touched pfx d d' -> agree (pfx ++ rest) d d'.
  Proof.
    intros Hw (Hw' & Hk & Hg) S HS. apply dict_ext.
    - now apply wfd_dupdate.
    - now apply wfd_dupdate.
    - rewrite !dkeys_dupdate, HS, Hk, <- app_assoc. f_equal.
      rewrite !first_keys_app. f_equal.
      rewrite (first_keys_none pfx (dkeys d ++ first_keys (dkeys d) pfx)) by (intros; now apply first_keys_seen).
      now rewrite app_nil_r.
    - intro k. rewrite !dget_dupdate. destruct (dget (rev S) k) eqn:E; [reflexivity|].
      apply dget_rev_unseen in E. rewrite HS, seen_app in E. apply orb_false_iff in E. symmetry. apply Hg, E.
  Qed.

  Lemma touched_more pfx (d d' S : dict V) all r1 r2 : touched pfx d d' ->
    all = pfx ++ r1 -> all = map fst S ++ r2 ->
    exists pfx' r', all = pfx' ++ r' /\ touched pfx' d (dupdate d' S).
  Proof.
    intros (Hw & Hk & Hg) H1 H2.
    assert (C : (exists m, map fst S = pfx ++ m) \/ (exists m, pfx = map fst S ++ m)).
    { subst all. revert H2. generalize (map fst S) as b. clear. revert r1 r2.
      induction pfx as [|k p IH]; intros r1 r2 b H; [left; now exists b|].
      destruct b as [|k' b]; [right; now exists (k :: p)|]. injection H as <- H.
      destruct (IH _ _ _ H) as [[m ->]|[m ->]]; [left|right]; now exists m. }
    destruct C as [[m Hm]|[m Hm]].
    - exists (map fst S), r2. split; [exact H2|]. split; [now apply wfd_dupdate|]. split.
      + rewrite dkeys_dupdate, Hk, Hm, <- app_assoc. f_equal. rewrite !first_keys_app. f_equal.
        rewrite (first_keys_none pfx (dkeys d ++ first_keys (dkeys d) pfx)) by (intros; now apply first_keys_seen).
        now rewrite app_nil_r.
      + intros k E. rewrite dget_dupdate, (dget_rev_seen _ _ E). apply Hg.
        rewrite Hm, seen_app in E. now apply orb_false_iff in E.
    - exists pfx, r1. split; [exact H1|]. split; [now apply wfd_dupdate|]. split.
      + rewrite dkeys_dupdate, Hk, <- app_assoc. f_equal.
        rewrite (first_keys_none (map fst S)); [apply app_nil_r|]. intros k Hin. apply first_keys_seen.
        rewrite Hm. apply in_app_iff. now left.
      + intros k E. rewrite dget_dupdate, dget_rev_seen; [now apply Hg|].
        rewrite Hm, seen_app in E. now apply orb_false_iff in E.
  Qed.

  Lemma agree_nil (d d' : dict V) : agree [] d d' -> d = d'.
  Proof. intro H. exact (H [] eq_refl). Qed.
  Lemma agree_update (sent : dict V) R (d d' : dict V) : agree (map fst sent ++ R) d d' ->
    agree R (dupdate d sent) (dupdate d' sent).
  Proof.
    intros H S HS. rewrite !dupdate_app'. apply H. now rewrite map_app, HS.
  Qed.
End Sends.
