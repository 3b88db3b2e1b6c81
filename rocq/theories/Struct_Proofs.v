(** Proofs about the rest of structures.py. *)
From Coq Require Import Permutation.
From Verif Require Export Struct_DigProofs.

(** ** Lists *)

Lemma flat_map_map {A B C} (f : B -> list C) (g : A -> B) l :
  flat_map f (map g l) = flat_map (fun x => f (g x)) l.
Proof. induction l; simpl; congruence. Qed.
Lemma map_flat_map {A B C} (f : B -> C) (g : A -> list B) l :
  map f (flat_map g l) = flat_map (fun x => map f (g x)) l.
Proof. induction l; simpl; [reflexivity|]. rewrite map_app. congruence. Qed.
Lemma flat_map_ext_in {A B} (f g : A -> list B) l :
  (forall x, In x l -> f x = g x) -> flat_map f l = flat_map g l.
Proof.
  induction l as [|x r IH]; simpl; intro H; [reflexivity|].
  rewrite (H x) by auto. rewrite IH; auto.
Qed.
Lemma list_max_In n l : In n l -> n <= list_max l.
Proof.
  intro H. assert (G : Forall (fun k => k <= list_max l) l) by (apply list_max_le; reflexivity).
  rewrite Forall_forall in G. auto.
Qed.

(** ** unnest *)

Lemma sapp_assoc a b c : ((a ++ b) ++ c = a ++ (b ++ c))%string.
Proof. induction a; simpl; congruence. Qed.
Lemma sapp_nil_r a : (a ++ "" = a)%string.
Proof. induction a; simpl; congruence. Qed.
Lemma slen_app a b : String.length (a ++ b)%string = String.length a + String.length b.
Proof. induction a; simpl; congruence. Qed.

Lemma concat_cons sep a b r :
  String.concat sep (a :: b :: r) = (a ++ sep ++ String.concat sep (b :: r))%string.
Proof. reflexivity. Qed.

Lemma concat_flat e levels k :
  levels <> [] ->
  (e ++ String.concat (e ++ "_" ++ e) (map py_str levels) ++ e ++ "_" ++ py_str k)%string
  = flat_key_ e (levels ++ [k]).
Proof.
  induction levels as [|a r IH]; intro H; [congruence|].
  destruct r as [|b r].
  - cbn [map String.concat app flat_key_]. reflexivity.
  - cbn [map]. rewrite concat_cons. 
    change ((a :: b :: r) ++ [k]) with (a :: ((b :: r) ++ [k])).
    assert (HH : exists x y l, (b :: r) ++ [k] = x :: y :: l).
    { destruct r; simpl; eauto. }
    destruct HH as (x & y & l & HH). 
    assert (E : flat_key_ e (a :: (b :: r) ++ [k]) = (e ++ py_str a ++ e ++ "_" ++ flat_key_ e ((b :: r) ++ [k]))%string).
    { rewrite HH. reflexivity. }
    rewrite E, <- IH by discriminate. cbn [map]. rewrite !sapp_assoc. reflexivity.
Qed.

Lemma unnest_prefix_flat e levels k :
  (unnest_prefix e levels ++ py_str k)%string = flat_key e (levels ++ [k]).
Proof.
  unfold unnest_prefix.
  destruct (Nat.ltb 0 (String.length _)) eqn:E.
  - destruct levels as [|a r]; [discriminate|].
    rewrite !sapp_assoc, concat_flat by discriminate.
    destruct r as [|b r].
    + cbn [map String.concat] in E. unfold flat_key. cbn [app].
      destruct (string_dec (py_str a) "") as [E'|]; [rewrite E' in E; discriminate|reflexivity].
    + destruct r; reflexivity.
  - destruct levels as [|a [|b r]].
    + reflexivity.
    + cbn [map String.concat] in *. unfold flat_key. cbn [app].
      destruct (string_dec (py_str a) "") as [E'|E'].
      * rewrite E'. reflexivity.
      * destruct (py_str a); [congruence|discriminate].
    + cbn [map] in E. rewrite concat_cons in E. rewrite !slen_app in E. cbn [String.length] in E.
      apply PeanoNat.Nat.ltb_ge in E. lia.
Qed.

Lemma unnest_leaves mt e m levels :
  unnest_ m mt e levels =
  map (fun pv => (KStr (flat_key e (levels ++ fst pv)), snd pv)) (leaf_paths mt m).
Proof.
  revert levels. induction m as [k|l _|l _|c d IH] using val_ind'; intro levels; try reflexivity.
  cbn [unnest_ leaf_paths]. rewrite map_flat_map. apply flat_map_ext_in.
  intros [k v] Hin. cbn [fst snd]. destruct (isinst mt v) eqn:E.
  - rewrite Forall_forall in IH. rewrite (IH _ Hin). cbn [snd]. rewrite map_map. cbn [fst snd].
    apply map_ext. intros [q w]. cbn [fst snd]. rewrite <- app_assoc. reflexivity.
  - cbn [map fst snd]. rewrite unnest_prefix_flat. reflexivity.
Qed.

Lemma dget_find {V} (l : dict V) k :
  dget l k = option_map snd (find (fun kv => keqb (fst kv) k) l).
Proof. induction l as [|[a b] r IH]; simpl; [reflexivity|]. destruct (keqb a k); auto. Qed.

Lemma find_map {A B} (f : A -> B) p l : find p (map f l) = option_map f (find (fun x => p (f x)) l).
Proof. induction l as [|x r IH]; simpl; [reflexivity|]. destruct (p (f x)); auto. Qed.

Definition flat_entries mt e m : dict val :=
  map (fun pv => (KStr (flat_key e (fst pv)), snd pv)) (leaf_paths mt m).

Lemma unnest_eq mt e c d :
  mt c = true -> unnest (VDict c d) mt e = Ok (VDict CDict (dict_of (flat_entries mt e (VDict c d)))).
Proof. intro H. unfold unnest. rewrite H, unnest_leaves. reflexivity. Qed.

Lemma dget_unnest mt e m k :
  dget (dict_of (flat_entries mt e m)) k =
  option_map snd (last_such (fun pv => keqb (KStr (flat_key e (fst pv))) k) (leaf_paths mt m)).
Proof.
  rewrite dget_dict_of, dget_find. unfold flat_entries, last_such. rewrite <- map_rev, find_map.
  destruct (find _ _) as [[q w]|]; reflexivity.
Qed.

Lemma In_dset {V} (d : dict V) k v k' v' :
  In (k', v') (dset d k v) -> (keqb k' k = true /\ v' = v /\ (k' = k \/ In k' (dkeys d))) \/ In (k', v') d.
Proof.
  induction d as [|[a b] r IH]; simpl.
  - intros [[= <- <-]|[]]. left. rewrite keqb_refl; auto.
  - destruct (keqb a k) eqn:E; simpl.
    + intros [[= <- <-]|H]; [left|right]; auto.
    + intros [[= <- <-]|H]; [right; auto|]. destruct (IH H) as [(?&?&[?|?])|?]; auto 6.
Qed.

Lemma In_dict_of {V} (l : dict V) k v : In (k, v) (dict_of l) -> In v (map snd l) /\ In k (map fst l).
Proof.
  unfold dict_of, dupdate.
  assert (G : forall acc, In (k, v) (fold_left (fun d kv => dset d (fst kv) (snd kv)) l acc) ->
     (In v (map snd acc) \/ In v (map snd l)) /\ (In k (map fst acc) \/ In k (map fst l))).
  { induction l as [|[a b] r IH]; simpl; intros acc H.
    - split; left; apply in_map_iff; exists (k, v); auto.
    - destruct (IH _ H) as [H1 H2]. cbn [fst snd] in *. split.
      + destruct H1 as [H1|H1]; [|auto]. apply in_map_iff in H1. destruct H1 as [[k1 v1] [<- H1]].
        apply In_dset in H1. destruct H1 as [(_ & -> & _)|H1]; [auto|].
        left. apply in_map_iff. exists (k1, v1); auto.
      + destruct H2 as [H2|H2]; [|auto]. apply in_map_iff in H2. destruct H2 as [[k1 v1] [<- H2]].
        apply In_dset in H2. cbn [fst]. destruct H2 as [(_ & _ & [->|H2])|H2]; auto.
        left. apply in_map_iff. exists (k1, v1); auto. }
  intro H. destruct (G [] H) as [[[]|H1] [[]|H2]]. auto.
Qed.

Lemma leaf_paths_at mt m p v :
  In (p, v) (leaf_paths mt m) <-> at_path mt m p v /\ isinst mt v = false.
Proof.
  split.
  - revert p v. induction m as [k|l _|l _|c d IH] using val_ind'; intros p v; cbn [leaf_paths]; try (intros []; fail).
    intro H. apply in_flat_map in H. destruct H as [[k x] [Hin H]]. cbn [fst snd] in H.
    destruct (isinst mt x) eqn:E.
    + apply in_map_iff in H. destruct H as [[q w] [[= <- <-] Hq]]. cbn [fst snd].
      rewrite Forall_forall in IH. destruct (IH _ Hin _ _ Hq) as [H1 H2]. split; [|assumption].
      eapply ap_down; eauto.
    + destruct H as [[= <- <-]|[]]. split; [constructor; exact Hin|exact E].
  - intros [H Hv]. induction H as [m k v Hin | m k x p v Hin E H IH].
    + destruct m as [a|l|l|c d]; try (destruct Hin; fail). cbn [leaf_paths entries] in *.
      apply in_flat_map. exists (k, v). split; [assumption|]. cbn [fst snd]. rewrite Hv. left; reflexivity.
    + destruct m as [a|l|l|c d]; try (destruct Hin; fail). cbn [leaf_paths entries] in *.
      apply in_flat_map. exists (k, x). split; [assumption|]. cbn [fst snd]. rewrite E.
      apply in_map_iff. exists (p, v); auto.
Qed.

Lemma unnest_flat mt e m k v :
  In (k, v) (dict_of (flat_entries mt e m)) -> isinst mt v = false /\ is_str k = true.
Proof.
  intro H. apply In_dict_of in H. destruct H as [H1 H2]. unfold flat_entries in *. rewrite map_map in *.
  apply in_map_iff in H1. destruct H1 as [[q w] [<- Hin]]. apply leaf_paths_at in Hin.
  apply in_map_iff in H2. destruct H2 as [[q' w'] [<- _]]. split; [apply Hin|reflexivity].
Qed.

(** A flat mapping with string keys is a fixed point. *)
Lemma unnest_fixed mt e (r : list (key * val)) :
  mt CDict = true -> wfd r = true ->
  (forall k v, In (k, v) r -> isinst mt v = false /\ is_str k = true) ->
  unnest (VDict CDict r) mt e = Ok (VDict CDict r).
Proof.
  intros Hm Hw Hr. rewrite unnest_eq by assumption. f_equal. f_equal.
  assert (E : flat_entries mt e (VDict CDict r) = r).
  { unfold flat_entries. cbn [leaf_paths]. rewrite map_flat_map.
    clear Hw. induction r as [|[k v] r IH]; [reflexivity|]. cbn [flat_map fst snd].
    destruct (Hr k v (or_introl eq_refl)) as [H1 H2]. rewrite H1. cbn [map app fst snd flat_key flat_key_].
    destruct k; try discriminate. cbn [py_str]. f_equal. apply IH. intros; apply Hr; right; assumption. }
  rewrite E. apply dict_of_wfd; assumption.
Qed.

Lemma leaf_paths_cons mt m p v : In (p, v) (leaf_paths mt m) -> exists k r, p = k :: r.
Proof. intro H. apply leaf_paths_at in H. destruct H as [H _]. destruct H; eauto. Qed.

Lemma leaf_paths_NoDup mt m : wfv m = true -> NoDup (map fst (leaf_paths mt m)).
Proof.
  induction m as [k|l _|l _|c d IH] using val_ind'; cbn [leaf_paths]; intro Hw; try constructor.
  apply wfv_dict in Hw. destruct Hw as [Hw Hv].
  apply NoDup_flat_map_cons; [assumption| |].
  - intros [k v] Hin. cbn [fst snd]. destruct (isinst mt v); [|repeat constructor; intros []].
    rewrite map_map. cbn [fst]. rewrite Forall_forall in IH.
    specialize (IH _ Hin (Hv _ _ Hin)). cbn [snd] in IH.
    clear -IH. induction (leaf_paths mt v) as [|[q w] r IHr]; simpl in *; [constructor|].
    inversion IH; subst. constructor; [|auto].
    intro Hin. apply H1. apply in_map_iff in Hin. destruct Hin as [[q' w'] [[= ->] Hin]].
    apply in_map_iff. exists (q, w'); auto.
  - intros [k v] p Hin. cbn [fst snd]. destruct (isinst mt v).
    + rewrite map_map. intro Hp. apply in_map_iff in Hp. destruct Hp as [[q w] [<- _]]. exists q; reflexivity.
    + intros [<-|[]]. exists []; reflexivity.
Qed.

(** *** Injectivity *)

Lemma str_without_app c a b : str_without c (a ++ b)%string = str_without c a && str_without c b.
Proof.
  unfold str_without. induction a as [|x a IH]; simpl; [reflexivity|]. rewrite IH, andb_assoc. reflexivity.
Qed.

Lemma split_at_char c a b x y :
  str_without c a = true -> str_without c b = true ->
  (a ++ String c x)%string = (b ++ String c y)%string -> a = b /\ x = y.
Proof.
  revert b. induction a as [|h a IH]; intros [|h' b]; simpl; unfold str_without; simpl.
  - intros _ _ [= <-]. auto.
  - rewrite andb_true_iff, negb_true_iff, Ascii.eqb_neq. intros _ [Hn _] [= <- _]. congruence.
  - rewrite andb_true_iff, negb_true_iff, Ascii.eqb_neq. intros [Hn _] _ [= <- _]. congruence.
  - rewrite !andb_true_iff. intros [_ Ha] [_ Hb] [= <- He].
    destruct (IH b Ha Hb He) as [<- <-]. auto.
Qed.

Lemma first_char c e : str_without c e = false ->
  exists u w, e = (u ++ String c w)%string /\ str_without c u = true.
Proof.
  induction e as [|x e IH]; [discriminate|]. unfold str_without in *. simpl.
  destruct (Ascii.eqb x c) eqn:E; simpl.
  - intros _. apply Ascii.eqb_eq in E. subst x. exists ""%string, e. auto.
  - intro H. destruct (IH H) as (u & w & -> & Hu). exists (String x u), w. split; [reflexivity|].
    simpl. rewrite E. exact Hu.
Qed.

Lemma sapp_inv_head a x y : (a ++ x = a ++ y)%string -> x = y.
Proof. induction a as [|h a IH]; simpl; [auto|]. intros [= E]. auto. Qed.

Lemma sapp_length a b : String.length (a ++ b)%string = String.length a + String.length b.
Proof. induction a as [|h a IH]; simpl; [reflexivity|]. now rewrite IH. Qed.

Lemma sapp_inv_tail a b u : (a ++ u = b ++ u)%string -> a = b.
Proof.
  intro E. assert (El : String.length a = String.length b).
  { apply (f_equal String.length) in E. rewrite !sapp_length in E. lia. }
  revert b E El. induction a as [|h a IH]; intros [|h' b]; simpl; try discriminate; [reflexivity|].
  intros [= -> E] [= El]. f_equal. auto.
Qed.

Lemma split_at_escape c e a b x y : str_without c e = false ->
  str_without c a = true -> str_without c b = true ->
  (a ++ e ++ x)%string = (b ++ e ++ y)%string -> a = b /\ x = y.
Proof.
  intros He Ha Hb E. destruct (first_char _ _ He) as (u & w & -> & Hu).
  assert (E' : ((a ++ u) ++ String c (w ++ x) = (b ++ u) ++ String c (w ++ y))%string).
  { rewrite !sapp_assoc. rewrite !sapp_assoc in E. exact E. }
  apply split_at_char in E'; [|rewrite str_without_app, ?Ha, ?Hb, Hu; reflexivity..].
  destruct E' as [E1 E2]. split.
  - eapply sapp_inv_tail; exact E1.
  - eapply sapp_inv_head; exact E2.
Qed.

Definition good_path c (p : list key) := forallb (good_key c) p.

Lemma flat_key__inj c e p q : str_without c e = false ->
  good_path c p = true -> good_path c q = true -> p <> [] -> q <> [] ->
  flat_key_ e p = flat_key_ e q -> p = q.
Proof.
  intro He.
  revert q. induction p as [|a p IH]; intros q Hp Hq Hp0 Hq0; [congruence|].
  destruct q as [|b q]; [congruence|]. cbn [good_path forallb] in Hp, Hq.
  apply andb_true_iff in Hp. apply andb_true_iff in Hq. destruct Hp as [Ha Hp]. destruct Hq as [Hb Hq].
  fold (good_path c p) in Hp. fold (good_path c q) in Hq.
  destruct a as [| | |sa|]; try discriminate. destruct b as [| | |sb|]; try discriminate.
  cbn [good_key] in Ha, Hb.
  destruct p as [|a2 p]; destruct q as [|b2 q]; cbn [flat_key_ py_str].
  - intros ->. reflexivity.
  - intro E. exfalso. rewrite E in Ha. rewrite !str_without_app, He in Ha. discriminate.
  - intro E. exfalso. rewrite <- E in Hb. rewrite !str_without_app, He in Hb. discriminate.
  - intro E. apply sapp_inv_head in E.
    apply (split_at_escape c) in E; [|assumption..]. destruct E as [-> E].
    apply sapp_inv_head in E. f_equal. apply IH; auto; discriminate.
Qed.

(** The path of a leaf below an empty key at the top level. *)
Definition blank_path (p : list key) : Prop := exists k, p = [KStr ""; k].

Lemma flat_key_good c e p : good_path c p = true -> ~ blank_path p -> flat_key e p = flat_key_ e p.
Proof.
  intros H Hb. destruct p as [|a [|k [|]]]; try reflexivity. unfold flat_key.
  cbn in H. destruct a; try discriminate. cbn [py_str].
  destruct (string_dec s ""); [subst; exfalso; apply Hb; exists k; reflexivity|reflexivity].
Qed.

Lemma leaf_paths_good mt c m p v :
  good_keys mt c m = true -> In (p, v) (leaf_paths mt m) -> good_path c p = true.
Proof.
  revert p v. induction m as [k|l _|l _|cc d IH] using val_ind'; intros p v; cbn [leaf_paths good_keys]; try (intros _ []; fail).
  intros Hg H. rewrite forallb_forall in Hg. apply in_flat_map in H. destruct H as [[k x] [Hin H]]. 
  specialize (Hg _ Hin). cbn [fst snd] in *. apply andb_true_iff in Hg. destruct Hg as [Hk Hg].
  destruct (isinst mt x) eqn:E.
  - apply in_map_iff in H. destruct H as [[q w] [[= <- <-] Hq]]. cbn [fst snd].
    rewrite Forall_forall in IH. cbn. rewrite Hk. apply (IH _ Hin q w Hg Hq).
  - destruct H as [[= <- <-]|[]]. cbn. rewrite Hk. reflexivity.
Qed.

Lemma leaf_paths_not_blank mt m p v :
  no_blank_top mt m = true -> In (p, v) (leaf_paths mt m) -> ~ blank_path p.
Proof.
  destruct m as [k|l|l|cc d]; cbn [leaf_paths no_blank_top]; try (intros _ []; fail).
  intros Hb H [k0 ->]. rewrite forallb_forall in Hb. apply in_flat_map in H. destruct H as [[k x] [Hin H]].
  specialize (Hb _ Hin). cbn [fst snd] in *. destruct (isinst mt x).
  - apply in_map_iff in H. destruct H as [[q w] [[= -> _ _] _]]. rewrite keqb_refl in Hb. discriminate.
  - destruct H as [[=]|[]].
Qed.

Lemma flat_inj2 mt c e m1 m2 p q v w : str_without c e = false ->
  good_keys mt c m1 = true -> no_blank_top mt m1 = true ->
  good_keys mt c m2 = true -> no_blank_top mt m2 = true ->
  In (p, v) (leaf_paths mt m1) -> In (q, w) (leaf_paths mt m2) ->
  flat_key e p = flat_key e q -> p = q.
Proof.
  intros He Hg1 Hb1 Hg2 Hb2 Hp Hq.
  pose proof (leaf_paths_good _ _ _ _ _ Hg1 Hp) as Gp. pose proof (leaf_paths_good _ _ _ _ _ Hg2 Hq) as Gq.
  pose proof (leaf_paths_not_blank _ _ _ _ Hb1 Hp) as Bp. pose proof (leaf_paths_not_blank _ _ _ _ Hb2 Hq) as Bq.
  rewrite (flat_key_good c e p), (flat_key_good c e q) by assumption. apply (flat_key__inj c); auto.
  - destruct (leaf_paths_cons _ _ _ _ Hp) as (?&?&->). discriminate.
  - destruct (leaf_paths_cons _ _ _ _ Hq) as (?&?&->). discriminate.
Qed.

Lemma unnest_faithful mt c e cl d : str_without c e = false ->
  mt cl = true -> wfv (VDict cl d) = true -> good_keys mt c (VDict cl d) = true ->
  no_blank_top mt (VDict cl d) = true ->
  unnest (VDict cl d) mt e =
  Ok (VDict CDict (map (fun pv => (KStr (flat_key e (fst pv)), snd pv)) (leaf_paths mt (VDict cl d)))).
Proof.
  intros He Hm Hw Hg Hb. rewrite unnest_eq by assumption. f_equal. f_equal.
  apply dict_of_wfd.
  pose proof (leaf_paths_NoDup mt _ Hw) as Hnd.
  assert (Hinj : forall p v q w, In (p, v) (leaf_paths mt (VDict cl d)) -> In (q, w) (leaf_paths mt (VDict cl d)) ->
    flat_key e p = flat_key e q -> p = q).
  { intros p v q w. apply (flat_inj2 mt c e); assumption. }
  unfold flat_entries. clear Hw Hg Hb. revert Hnd Hinj.
  induction (leaf_paths mt (VDict cl d)) as [|[p v] r IH]; intros Hnd Hinj; [reflexivity|].
  cbn [map fst snd] in *. inversion Hnd; subst. apply wfd_cons. split.
  - apply dget_none_iff. intros k' v' Hin. apply in_map_iff in Hin. destruct Hin as [[q w] [[= <- <-] Hin]].
    cbn [fst snd]. apply keqb_false. cbn. intros [= E]. apply H1.
    assert (q = p). { eapply Hinj; [right; exact Hin|left; reflexivity|exact E]. }
    subst q. apply in_map_iff. exists (p, w); auto.
  - apply IH; [assumption|]. intros; eapply Hinj; eauto; right; eassumption.
Qed.

(** Two nested mappings with good keys and the same flat form have the same
    leaves. *)
Lemma map_pair_inj {A B C} (f : A -> C) (l1 l2 : list (A * B)) :
  (forall p v q w, In (p, v) l1 -> In (q, w) l2 -> f p = f q -> p = q) ->
  map (fun pv => (f (fst pv), snd pv)) l1 = map (fun pv => (f (fst pv), snd pv)) l2 -> l1 = l2.
Proof.
  revert l2. induction l1 as [|[p v] r IH]; intros [|[q w] s] H E; try discriminate; [reflexivity|].
  cbn [map fst snd] in E. injection E as E1 E2 E3. f_equal.
  - f_equal; [|assumption]. eapply H; eauto; left; reflexivity.
  - apply IH; [|assumption]. intros; eapply H; eauto; right; eassumption.
Qed.

Lemma unnest_determines mt c e c1 d1 c2 d2 : str_without c e = false ->
  mt c1 = true -> mt c2 = true -> wfv (VDict c1 d1) = true -> wfv (VDict c2 d2) = true ->
  good_keys mt c (VDict c1 d1) = true -> good_keys mt c (VDict c2 d2) = true ->
  no_blank_top mt (VDict c1 d1) = true -> no_blank_top mt (VDict c2 d2) = true ->
  unnest (VDict c1 d1) mt e = unnest (VDict c2 d2) mt e ->
  leaf_paths mt (VDict c1 d1) = leaf_paths mt (VDict c2 d2).
Proof.
  intros He M1 M2 W1 W2 G1 G2 B1 B2. rewrite !(unnest_faithful mt c e) by assumption. intros [= E].
  eapply (map_pair_inj (fun p => KStr (flat_key e p))).
  2:{ exact E. }
  intros p v q w Hp Hq [= He'].
  apply (flat_inj2 mt c e (VDict c1 d1) (VDict c2 d2) p q v w); assumption.
Qed.

(** ** to_records *)

(** [Supplies it L]: the iterator yields the names [L] (and then stops, if it
    is a list iterator). *)
Definition Supplies (it : names) (L : list key) : Prop :=
  match it with
  | Listed l => l = L
  | Naturals n => L = map (fun i => KInt (n + Z.of_nat i)) (seq 0 (List.length L))
  end.

Lemma supplies_next it a L :
  Supplies it (a :: L) -> exists it', next_name it = Ok (a, it') /\ Supplies it' L.
Proof.
  destruct it as [n|l]; cbn [Supplies].
  - cbn [List.length seq map]. intros [= E1 E2]. exists (Naturals (n + 1)). split.
    + cbn. rewrite E1. f_equal. f_equal. f_equal. lia.
    + cbn [Supplies]. rewrite E2 at 1. rewrite <- seq_shift, map_map. apply map_ext. intro i. f_equal. lia.
  - intros ->. eexists. split; reflexivity.
Qed.

Definition rec_ok (acc : dict val) (L : list key) (pv : list key * val) (r : val) : Prop :=
  exists c m m', snd pv = VDict c m /\ r = VDict c m' /\ (wfd m = true -> wfd m' = true) /\
  forall k, dget m' k =
    match last_such (fun nc => keqb (fst nc) k) (combine L (fst pv)) with
    | Some nc => Some (VAtom (snd nc))
    | None => match dget acc k with Some v => Some v | None => dget m k end
    end.

Lemma last_such_cons {A} (f : A -> bool) x l :
  last_such f (x :: l) = match last_such f l with Some y => Some y | None => if f x then Some x else None end.
Proof.
  unfold last_such. cbn [rev]. induction (rev l) as [|y r IH]; simpl; [destruct (f x); reflexivity|].
  destruct (f y); auto.
Qed.

Lemma Forall2_app' {A B} (R : A -> B -> Prop) l1 l2 r1 r2 :
  Forall2 R l1 r1 -> Forall2 R l2 r2 -> Forall2 R (l1 ++ l2) (r1 ++ r2).
Proof. intros H1 H2. induction H1; simpl; auto. Qed.

Lemma Forall2_map_l {A B C} (R : A -> B -> Prop) (f : C -> A) l r :
  Forall2 R (map f l) r <-> Forall2 (fun x y => R (f x) y) l r.
Proof.
  split; revert r; induction l as [|x l IH]; intros r H; inversion H; subst; constructor; auto.
Qed.

Lemma Forall2_impl_in {A B} (R S : A -> B -> Prop) l r :
  (forall x y, R x y -> S x y) -> Forall2 R l r -> Forall2 S l r.
Proof. intros H F. induction F; constructor; auto. Qed.

Lemma records_ok m : forall acc it L,
  records_shape m = true -> wfd acc = true -> Supplies it L -> record_levels m <= List.length L ->
  exists recs, to_records_ m acc it = Ok recs /\ Forall2 (rec_ok acc L) (record_leaves m) recs.
Proof.
  induction m as [k|l _|l _|c d IH] using val_ind'; intros acc it L Hs Hw Hsup Hlen; try discriminate.
  destruct L as [|a L]; [cbn in Hlen; lia|].
  destruct (supplies_next _ _ _ Hsup) as (it' & Hn & Hsup').
  cbn [to_records_]. rewrite Hn. cbn [bind].
  cbn [records_shape record_leaves record_levels List.length] in *.
  assert (Hlen' : forall k v, In (k, v) d -> forallb is_mapping (map snd (entries v)) = true -> record_levels v <= List.length L).
  { intros k v Hin Hv. apply PeanoNat.Nat.succ_le_mono in Hlen. etransitivity; [|exact Hlen].
    apply list_max_In. apply in_map_iff. exists (k, v). split; [|assumption]. cbn [snd]. rewrite Hv. reflexivity. }
  clear Hlen Hn. induction d as [|[k v] r IHd].
  - exists []. split; [reflexivity|constructor].
  - inversion IH as [|? ? IH1 IH2]; subst. cbn [forallb fst snd flat_map] in *.
    apply andb_true_iff in Hs. destruct Hs as [Hv Hs]. apply andb_true_iff in Hv. destruct Hv as [Hm Hv].
    destruct v as [|?|?|c' m]; try discriminate. cbn [entries] in *.
    destruct (IHd IH2 Hs) as (recs2 & Hr2 & HF2).
    { intros; eapply Hlen'; [right; eassumption|assumption]. }
    change (dvalues m) with (map snd m). 
    destruct (forallb is_mapping (map snd m)) eqn:E.
    + destruct (IH1 (dset acc a (VAtom k)) it' L Hv (wfd_dset _ _ _ Hw) Hsup') as (recs1 & Hr1 & HF1).
      { eapply Hlen'; [left; reflexivity|exact E]. }
      exists (recs1 ++ recs2). split.
      * rewrite Hr1. cbn [bind]. rewrite Hr2. reflexivity.
      * apply Forall2_app'; [|assumption]. apply Forall2_map_l. eapply Forall2_impl_in; [|exact HF1].
        intros [q w] y (c1 & m1 & m2 & H1 & H2 & H3 & H4). exists c1, m1, m2. cbn [fst snd] in *.
        repeat split; auto. intro k0. rewrite H4. cbn [combine]. rewrite last_such_cons. cbn [fst snd].
        destruct (last_such _ (combine L q)); [reflexivity|].
        rewrite dget_dset. destruct (keqb a k0); reflexivity.
    + exists ([VDict c' (dupdate m (dupdate acc [(a, VAtom k)]))] ++ recs2). split.
      * cbn [bind]. rewrite Hr2. reflexivity.
      * apply Forall2_app'; [|assumption]. constructor; [|constructor].
        exists c', m, (dupdate m (dupdate acc [(a, VAtom k)])). cbn [fst snd]. repeat split.
        -- intro; apply wfd_dupdate; assumption.
        -- intro k0. rewrite dget_dupdate_wf by (apply wfd_dupdate; assumption).
           rewrite dget_dupdate. cbn [rev app dget combine].
           destruct L; cbn [combine last_such rev app find fst snd]; unfold last_such; cbn [rev app find fst snd];
           destruct (keqb a k0); reflexivity.
Qed.

(** The result of records does not depend on how the accumulator is ordered
    or filled, so a second, accumulator-free argument settles termination. *)
Lemma records_total m : forall acc L,
  records_shape m = true -> record_levels m <= List.length L ->
  exists recs, to_records_ m acc (Listed L) = Ok recs.
Proof.
  induction m as [k|l _|l _|c d IH] using val_ind'; intros acc L Hs Hlen; try discriminate.
  destruct L as [|a L]; [cbn in Hlen; lia|].
  cbn [to_records_ next_name bind].
  cbn [records_shape record_levels List.length] in *. apply PeanoNat.Nat.succ_le_mono in Hlen.
  induction d as [|[k v] r IHd]; [eexists; reflexivity|].
  inversion IH as [|? ? IH1 IH2]; subst. cbn [forallb fst snd map list_max fold_right] in *.
  change (fold_right Nat.max 0) with list_max in *.
  apply andb_true_iff in Hs. destruct Hs as [Hv Hs]. apply andb_true_iff in Hv. destruct Hv as [Hm Hv].
  destruct v as [|?|?|c' m]; try discriminate. cbn [entries] in *.
  change (dvalues m) with (map snd m).
  destruct (IHd IH2 Hs) as [recs2 Hr2]; [lia|].
  destruct (forallb is_mapping (map snd m)) eqn:E.
  - destruct (IH1 (dset acc a (VAtom k)) L Hv) as [recs1 Hr1]; [lia|]. rewrite Hr1. cbn [bind]. rewrite Hr2. eexists; reflexivity.
  - cbn [bind]. rewrite Hr2. eexists; reflexivity.
Qed.

Lemma records_stop m : forall acc L,
  records_shape m = true -> List.length L < record_levels m ->
  to_records_ m acc (Listed L) = Exc StopIteration.
Proof.
  induction m as [k|l _|l _|c d IH] using val_ind'; intros acc L Hs Hlen; try discriminate.
  cbn [to_records_]. destruct L as [|a L]; [reflexivity|]. cbn [next_name bind].
  cbn [record_levels records_shape List.length] in *. apply PeanoNat.Nat.succ_lt_mono in Hlen.
  induction d as [|[k v] r IHd].
  - cbn in Hlen. lia.
  - inversion IH as [|? ? IH1 IH2]; subst. cbn [forallb fst snd map list_max fold_right] in *.
    change (fold_right Nat.max 0) with list_max in *.
    apply andb_true_iff in Hs. destruct Hs as [Hv Hs]. apply andb_true_iff in Hv. destruct Hv as [Hm Hv].
    destruct v as [|?|?|c' m]; try discriminate. cbn [entries] in *.
    change (dvalues m) with (map snd m).
    destruct (forallb is_mapping (map snd m)) eqn:E.
    + destruct (Compare_dec.le_lt_dec (record_levels (VDict c' m)) (List.length L)) as [Hle|Hlt].
      * destruct (records_total (VDict c' m) (dset acc a (VAtom k)) L Hv Hle) as [recs Hr].
        rewrite Hr. cbn [bind]. rewrite IHd; [reflexivity|assumption|assumption|]. lia.
      * rewrite (IH1 _ L Hv Hlt). reflexivity.
    + cbn [bind]. rewrite IHd; [reflexivity|assumption|assumption|]. lia.
Qed.
