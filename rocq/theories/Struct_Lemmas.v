(** The lemmas behind Struct_Props.v in the exact form stated there. *)
From Coq Require Import Permutation.
From Verif Require Export Struct_Proofs2.

Lemma none_if_empty_map {A B} (f : A -> B) l : option_map (map f) (none_if_empty l) = none_if_empty (map f l).
Proof. destruct l; reflexivity. Qed.

Lemma dig_for_items_exact mt pr match_ bp (p : key -> val -> bool) c d :
  (forall q v, at_path mt (VDict c d) q v ->
     pr (last q KNone) v = Ok (p (last q KNone) v)) ->
  dig_for_items (VDict c d) (RCall pr) match_ bp mt =
    Ok (none_if_empty (matching mt p (VDict c d))) /\
  dig_for_values (VDict c d) (RCall pr) match_ bp mt =
    Ok (none_if_empty (map snd (matching mt p (VDict c d)))) /\
  dig_for_keys (VDict c d) (RCall pr) match_ bp mt =
    Ok (none_if_empty (map fst (matching mt p (VDict c d)))).
Proof.
  intro H. unfold dig_for_items, dig_for_values, dig_for_keys.
  rewrite !(dig_all_wrapper_ok mt (RCall pr) match_ bp p c d) by exact H.
  rewrite map_id. auto.
Qed.

Lemma dig_for_all_raises_at mt pr c d :
  (exists e, dig_for_all (VDict c d) pr mt = Exc e) <->
  (exists q v e, at_path mt (VDict c d) q v /\ pr (last q KNone) v = Exc e).
Proof.
  rewrite dig_for_all_raises. split.
  - intros (k & v & e & Hin & He). unfold litems in Hin. apply in_map_iff in Hin.
    destruct Hin as [[q w] [[= <- <-] Hin]]. exists q, w, e. split; [apply located_at_path; exact Hin|exact He].
  - intros (q & v & e & Hat & He). exists (last q KNone), v, e. split; [|exact He].
    unfold litems. apply in_map_iff. exists (q, v). split; [reflexivity|]. apply located_at_path. exact Hat.
Qed.

Lemma dig_for_item_exact mt pr match_ bp (p : key -> val -> bool) c d :
  (forall q v, at_path mt (VDict c d) q v ->
     pr (last q KNone) v = Ok (p (last q KNone) v)) ->
  dig_for_item (VDict c d) (RCall pr) match_ bp mt =
    Ok (hd_error (matching mt p (VDict c d))) /\
  dig_for_value (VDict c d) (RCall pr) match_ bp mt =
    Ok (option_map snd (hd_error (matching mt p (VDict c d)))) /\
  dig_for_key (VDict c d) (RCall pr) match_ bp mt =
    Ok (option_map fst (hd_error (matching mt p (VDict c d)))).
Proof.
  intro H. unfold dig_for_item, dig_for_value, dig_for_key.
  rewrite !(dig_wrapper_ok mt (RCall pr) match_ bp p c d) by exact H.
  destruct (hd_error _); auto.
Qed.

Definition bfs_cx : val :=
  VDict CDict [(KStr "a", VDict CDict [(KStr "b", VDict CDict [(KStr "x", VAtom (KInt 1))])]);
               (KStr "c", VDict CDict [(KStr "x", VAtom (KInt 2))])].
Lemma dig_for_not_bfs :
  exists mt m (p : key -> val -> bool) q v q' v',
    wfv m = true /\
    at_path mt m q v /\ p (last q KNone) v = true /\
    at_path mt m q' v' /\ p (last q' KNone) v' = true /\
    List.length q' < List.length q /\ v <> v' /\
    dig_for_value m (RCall (fun k v => Ok (p k v))) "key" op_eq mt = Ok (Some v).
Proof.
  exists is_dict_cls, bfs_cx, (fun k _ => keqb k (KStr "x")),
    [KStr "a"; KStr "b"; KStr "x"], (VAtom (KInt 1)), [KStr "c"; KStr "x"], (VAtom (KInt 2)).
  split; [reflexivity|]. split; [apply located_at_path; vm_compute; auto 20|].
  split; [reflexivity|]. split; [apply located_at_path; vm_compute; auto 20|].
  split; [reflexivity|]. split; [cbn; lia|]. split; [discriminate|reflexivity].
Qed.

Lemma dig_for_top_level mt pr match_ bp (p : key -> val -> bool) c d k v :
  (forall q v, at_path mt (VDict c d) q v ->
     pr (last q KNone) v = Ok (p (last q KNone) v)) ->
  find (fun kv => p (fst kv) (snd kv)) d = Some (k, v) ->
  dig_for_item (VDict c d) (RCall pr) match_ bp mt = Ok (Some (k, v)).
Proof.
  intros H Hf. destruct (dig_for_item_exact mt pr match_ bp p c d H) as [-> _]. f_equal.
  unfold matching. fold (litems mt (VDict c d)). rewrite litems_dict, filter_app'.
  generalize (flat_map (fun kv => if isinst mt (snd kv) then litems mt (snd kv) else []) d). intro l.
  clear H. induction d as [|[a b] r IH]; [discriminate|]. cbn [find filter fst snd] in *.
  destruct (p a b); [|auto]. injection Hf as -> ->. reflexivity.
Qed.

(** *** Predicates that raise *)

Definition first_of (r : res (option (list (key * val)))) : res (option (key * val)) :=
  match r with
  | Ok (Some (x :: _)) => Ok (Some x)
  | Ok (Some []) => Exc IndexError
  | Ok None => Ok None
  | Exc e => Exc e
  end.

Lemma dig_for_item_first_of m pr match_ bp mt :
  dig_for_item m (RCall pr) match_ bp mt = first_of (dig_for m pr mt).
Proof.
  unfold dig_for_item, dig_wrapper. cbn [constant_to_dig_predicate].
  destruct (dig_for m pr mt) as [[[|x r]|]|e]; reflexivity.
Qed.

Lemma first_decided_app pr a b :
  first_decided pr (a ++ b) =
  match first_decided pr a with Ok None => first_decided pr b | x => x end.
Proof.
  induction a as [|d r IH]; [reflexivity|]. cbn [app first_decided].
  destruct (filterM _ d) as [[|x l]|e]; try reflexivity. exact IH.
Qed.

(** A search never finds an empty list. *)
Lemma dig_for_some_cons mt pr m l : dig_for m pr mt = Ok (Some l) -> l <> [].
Proof.
  revert l. induction m as [k|l' _|l' _|c d IH] using val_ind'; intros l; cbn [dig_for]; try discriminate.
  destruct (filterM _ d) as [[|x r]|e]; cbn [bind]; try discriminate; [|intros [= <-]; discriminate].
  induction d as [|[k v] r IHd]; cbn [first_nests]; [discriminate|].
  fold (@first_nests (list (key * val)) mt).
  inversion IH as [|? ? IH1 IH2]; subst. cbn [snd] in IH1.
  destruct (isinst mt v); [|exact (IHd IH2)].
  destruct (dig_for v pr mt) as [[a|]|e] eqn:E.
  - intros [= <-]. apply IH1. reflexivity.
  - exact (IHd IH2).
  - destruct e; discriminate.
Qed.

Lemma dig_for_decided mt (pr : pred) c d :
  (forall k v, pr k v <> Exc StopIteration) ->
  first_of (dig_for (VDict c d) pr mt) = first_decided pr (dig_levels mt (VDict c d)).
Proof.
  intro Hs. remember (VDict c d) as m eqn:Em. revert c d Em.
  assert (Hf : forall l, filterM (fun kv => pr (fst kv) (snd kv)) l <> Exc StopIteration).
  { intros l E. destruct (filterM_exc _ _ _ E) as ([k v] & _ & He). exact (Hs _ _ He). }
  assert (Hd : forall ls, first_decided pr ls <> Exc StopIteration).
  { induction ls as [|d ls IH]; [discriminate|]. cbn [first_decided].
    pose proof (Hf d) as Hfd. destruct (filterM _ d) as [[|x l]|e]; [exact IH|discriminate|congruence]. }
  induction m as [k|l _|l _|c0 d0 IH] using val_ind'; intros c d [= -> ->].
  cbn [dig_for dig_levels first_decided].
  destruct (filterM _ d) as [[|x r]|e]; cbn [bind]; try reflexivity.
  induction d as [|[k v] r IHd]; [reflexivity|].
  cbn [first_nests flat_map snd]. fold (@first_nests (list (key * val)) mt).
  inversion IH as [|? ? IH1 IH2]; subst. cbn [snd] in IH1.
  destruct (isinst mt v) eqn:E; [|exact (IHd IH2)].
  destruct (isinst_dict _ _ E) as (c' & d' & -> & _).
  rewrite first_decided_app. specialize (IH1 c' d' eq_refl).
  pose proof (Hd (dig_levels mt (VDict c' d'))) as Hd'. rewrite <- IH1 in Hd' |- *.
  destruct (dig_for (VDict c' d') pr mt) as [[a|]|e] eqn:Ed; cbn [first_of].
  - apply dig_for_some_cons in Ed. destruct a; [congruence|reflexivity].
  - exact (IHd IH2).
  - cbn in Hd'. destruct e; try reflexivity. congruence.
Qed.

Lemma dig_for_item_decided mt (pr : pred) match_ bp c d :
  (forall k v, pr k v <> Exc StopIteration) ->
  dig_for_item (VDict c d) (RCall pr) match_ bp mt =
  first_decided pr (dig_levels mt (VDict c d)).
Proof. intro H. rewrite dig_for_item_first_of. now apply dig_for_decided. Qed.

Lemma first_nests_no_stop {A} mt (f : val -> res (option A)) d :
  first_nests mt f d <> Exc StopIteration.
Proof.
  induction d as [|[k v] r IH]; cbn [first_nests]; [discriminate|]. fold (@first_nests A mt).
  destruct (isinst mt v); [|exact IH]. destruct (f v) as [[a|]|e]; [discriminate|exact IH|destruct e; discriminate].
Qed.

Lemma filterM_none {A} (f : A -> res bool) l : (forall x, In x l -> f x = Ok false) -> filterM f l = Ok [].
Proof.
  induction l as [|x r IH]; intro H; [reflexivity|]. cbn [filterM]. rewrite H by (left; reflexivity).
  cbn [bind]. rewrite IH; [reflexivity|]. intros y Hy. apply H. right; exact Hy.
Qed.

Lemma dig_for_item_stop mt (pr : pred) match_ bp c d :
  (forall k v, In (k, v) d -> pr k v = Ok false) ->
  dig_for_item (VDict c d) (RCall pr) match_ bp mt <> Exc StopIteration /\
  (forall k c1 k1 v1 d1 r, d = (k, VDict c1 ((k1, v1) :: d1)) :: r -> mt c1 = true ->
     pr k1 v1 = Exc StopIteration ->
     dig_for_item (VDict c d) (RCall pr) match_ bp mt = Ok None).
Proof.
  intro H. rewrite dig_for_item_first_of. cbn [dig_for].
  rewrite filterM_none by (intros [k v] Hin; exact (H k v Hin)). cbn [bind]. split.
  - pose proof (first_nests_no_stop mt (fun v => dig_for v pr mt) d) as Hn.
    destruct (first_nests _ _ d) as [[[|]|]|e]; cbn [first_of]; congruence.
  - intros k c1 k1 v1 d1 r -> Hm Hp. cbn [first_nests isinst]. rewrite Hm. cbn [dig_for filterM fst snd].
    rewrite Hp. reflexivity.
Qed.

Lemma dig_const_key mt x c d :
  dig_for_items (VDict c d) (RConst x) "key" op_eq mt =
  Ok (none_if_empty (matching mt (fun k _ => veqb x (VAtom k)) (VDict c d))).
Proof.
  unfold dig_for_items. rewrite (dig_all_wrapper_ok mt _ _ _ (fun k _ => veqb x (VAtom k))) by reflexivity.
  rewrite map_id. reflexivity.
Qed.
Lemma dig_const_value mt x c d :
  dig_for_items (VDict c d) (RConst x) "value" op_eq mt =
  Ok (none_if_empty (matching mt (fun _ v => veqb x v) (VDict c d))).
Proof.
  unfold dig_for_items. rewrite (dig_all_wrapper_ok mt _ _ _ (fun _ v => veqb x v)) by reflexivity.
  rewrite map_id. reflexivity.
Qed.
Lemma dig_const_item mt x c kv d :
  dig_for_items (VDict c (kv :: d)) (RConst x) "item" op_eq mt = Exc TypeError /\
  dig_for_item (VDict c (kv :: d)) (RConst x) "item" op_eq mt = Exc TypeError.
Proof. split; reflexivity. Qed.

Lemma dig_const_item_empty mt x c :
  dig_for_items (VDict c []) (RConst x) "item" op_eq mt = Ok None /\
  dig_for_item (VDict c []) (RConst x) "item" op_eq mt = Ok None.
Proof. split; reflexivity. Qed.

Lemma unnest_spec mt e c d :
  mt c = true ->
  exists r,
    unnest (VDict c d) mt e = Ok (VDict CDict r) /\ wfd r = true /\
    (forall k, dget r k =
       option_map snd
         (last_such (fun pv => keqb (KStr (flat_key e (fst pv))) k)
                    (leaf_paths mt (VDict c d)))) /\
    (forall k v, In (k, v) r -> isinst mt v = false /\ is_str k = true).
Proof.
  intro H. exists (dict_of (flat_entries mt e (VDict c d))).
  split; [apply unnest_eq, H|]. split; [apply wfd_dict_of|]. split.
  - intro k. apply dget_unnest.
  - intros k v. apply unnest_flat.
Qed.

Lemma unnest_idem mt e c d r :
  mt c = true -> mt CDict = true ->
  unnest (VDict c d) mt e = Ok r -> unnest r mt e = Ok r.
Proof.
  intros Hc Hd H. destruct (unnest_spec mt e c d Hc) as (r' & E & Hw & _ & Hf). rewrite E in H. injection H as <-.
  apply unnest_fixed; assumption.
Qed.

Lemma unnest_nodup mt e c d :
  mt c = true ->
  NoDup (map (fun pv => flat_key e (fst pv)) (leaf_paths mt (VDict c d))) ->
  unnest (VDict c d) mt e =
  Ok (VDict CDict (map (fun pv => (KStr (flat_key e (fst pv)), snd pv))
                       (leaf_paths mt (VDict c d)))).
Proof.
  intros Hc Hn. rewrite unnest_eq by assumption. f_equal. f_equal. apply dict_of_wfd.
  unfold flat_entries. induction (leaf_paths mt (VDict c d)) as [|[p v] l IH]; [reflexivity|].
  cbn [map fst snd] in *. inversion Hn; subst. apply wfd_cons. split; [|auto].
  apply dget_none_iff. intros k' v' Hin. apply in_map_iff in Hin. destruct Hin as [[q w] [[= <- <-] Hin]].
  apply keqb_false. cbn. intros [= E]. apply H1. rewrite <- E. apply in_map_iff. exists (q, w). auto.
Qed.

Lemma unnest_injective mt c e cl d : str_without c e = false ->
  mt cl = true -> wfv (VDict cl d) = true -> good_keys mt c (VDict cl d) = true ->
  no_blank_top mt (VDict cl d) = true ->
  unnest (VDict cl d) mt e =
  Ok (VDict CDict (map (fun pv => (KStr (flat_key e (fst pv)), snd pv))
                       (leaf_paths mt (VDict cl d)))) /\
  (forall p v q w, In (p, v) (leaf_paths mt (VDict cl d)) ->
     In (q, w) (leaf_paths mt (VDict cl d)) ->
     flat_key e p = flat_key e q -> p = q).
Proof.
  intros H0 H1 H2 H3 H4. split; [apply (unnest_faithful mt c e); assumption|].
  intros p v q w. apply (flat_inj2 mt c e); assumption.
Qed.

Lemma unnest_default_collision :
  exists d p q v w, wfv (VDict CDict d) = true /\ p <> q /\ v <> w /\
    at_path is_dict_cls (VDict CDict d) p v /\ at_path is_dict_cls (VDict CDict d) q w /\
    isinst is_dict_cls v = false /\ isinst is_dict_cls w = false /\
    unnest (VDict CDict d) is_dict_cls "" = Ok (VDict CDict [(KStr "a_b", w)]).
Proof.
  exists [(KStr "a", VDict CDict [(KStr "b", VAtom (KInt 1))]); (KStr "a_b", VAtom (KInt 2))],
    [KStr "a"; KStr "b"], [KStr "a_b"], (VAtom (KInt 1)), (VAtom (KInt 2)).
  repeat split; try discriminate; apply located_at_path; vm_compute; auto 20.
Qed.
Lemma unnest_empty_key_collision :
  exists d p q v w, wfv (VDict CDict d) = true /\ p <> q /\ v <> w /\
    at_path is_dict_cls (VDict CDict d) p v /\ at_path is_dict_cls (VDict CDict d) q w /\
    isinst is_dict_cls v = false /\ isinst is_dict_cls w = false /\
    unnest (VDict CDict d) is_dict_cls "|" = Ok (VDict CDict [(KStr "b", w)]).
Proof.
  exists [(KStr "", VDict CDict [(KStr "b", VAtom (KInt 1))]); (KStr "b", VAtom (KInt 2))],
    [KStr ""; KStr "b"], [KStr "b"], (VAtom (KInt 1)), (VAtom (KInt 2)).
  repeat split; try discriminate; apply located_at_path; vm_compute; auto 20.
Qed.
Lemma unnest_absent_escape_collision :
  exists d p q v w, wfv (VDict CDict d) = true /\ p <> q /\ v <> w /\
    at_path is_dict_cls (VDict CDict d) p v /\ at_path is_dict_cls (VDict CDict d) q w /\
    isinst is_dict_cls v = false /\ isinst is_dict_cls w = false /\
    (forall k, In k (p ++ q) -> exists s, k = KStr s /\ String.index 0 "__" s = None) /\
    unnest (VDict CDict d) is_dict_cls "__" = Ok (VDict CDict [(KStr "__a____b", w)]).
Proof.
  exists [(KStr "a_", VDict CDict [(KStr "b", VAtom (KInt 1))]);
          (KStr "a", VDict CDict [(KStr "_b", VAtom (KInt 2))])],
    [KStr "a_"; KStr "b"], [KStr "a"; KStr "_b"], (VAtom (KInt 1)), (VAtom (KInt 2)).
  split; [reflexivity|]. split; [discriminate|]. split; [discriminate|].
  split; [apply located_at_path; vm_compute; auto 20|].
  split; [apply located_at_path; vm_compute; auto 20|].
  split; [reflexivity|]. split; [reflexivity|]. split; [|reflexivity].
  cbn. intros k Hk. repeat (destruct Hk as [<-|Hk]; [eexists; split; reflexivity|]). destruct Hk.
Qed.

Lemma unnest_mixed_collision :
  exists d p q v w, wfv (VDict CDict d) = true /\ p <> q /\ v <> w /\
    at_path is_dict_cls (VDict CDict d) p v /\ at_path is_dict_cls (VDict CDict d) q w /\
    isinst is_dict_cls v = false /\ isinst is_dict_cls w = false /\
    unnest (VDict CDict d) is_dict_cls "|" = Ok (VDict CDict [(KStr "1", w)]).
Proof.
  exists [(KInt 1, VAtom (KInt 1)); (KStr "1", VAtom (KInt 2))],
    [KInt 1], [KStr "1"], (VAtom (KInt 1)), (VAtom (KInt 2)).
  repeat split; try discriminate; apply located_at_path; vm_compute; auto 20.
Qed.

Lemma rec_ok_field L pv r : rec_ok [] L pv r ->
  exists c d d', snd pv = VDict c d /\ r = VDict c d' /\
     (wfd d = true -> wfd d' = true) /\
     forall k, dget d' k = record_field L (fst pv) (snd pv) k.
Proof.
  intros (c & m & m' & H1 & H2 & H3 & H4). exists c, m, m'. repeat split; auto.
  intro k. rewrite H4. unfold record_field. rewrite H1. cbn [entries dget].
  destruct (last_such _ _); reflexivity.
Qed.

Lemma to_records_named m names :
  records_shape m = true -> record_levels m <= List.length names ->
  exists recs, to_records m (Some names) = Ok recs /\
  Forall2 (fun pv r =>
             exists c d d', snd pv = VDict c d /\ r = VDict c d' /\
               (wfd d = true -> wfd d' = true) /\
               forall k, dget d' k = record_field names (fst pv) (snd pv) k)
          (record_leaves m) recs.
Proof.
  intros Hs Hl. destruct (records_ok m [] (Listed names) names Hs eq_refl eq_refl Hl) as (recs & Hr & HF).
  exists recs. split; [exact Hr|]. eapply Forall2_impl_in; [|exact HF]. apply rec_ok_field.
Qed.
Lemma to_records_default m :
  records_shape m = true ->
  let names := map (fun i => KInt (1 + Z.of_nat i)) (seq 0 (record_levels m)) in
  exists recs, to_records m None = Ok recs /\
  Forall2 (fun pv r =>
             exists c d d', snd pv = VDict c d /\ r = VDict c d' /\
               (wfd d = true -> wfd d' = true) /\
               forall k, dget d' k = record_field names (fst pv) (snd pv) k)
          (record_leaves m) recs.
Proof.
  intros Hs names. destruct (records_ok m [] (Naturals 1) names Hs eq_refl) as (recs & Hr & HF).
  - cbn [Supplies]. unfold names. rewrite map_length, seq_length. reflexivity.
  - unfold names. rewrite map_length, seq_length. reflexivity.
  - exists recs. split; [exact Hr|]. eapply Forall2_impl_in; [|exact HF]. apply rec_ok_field.
Qed.
Lemma to_records_stop m names :
  records_shape m = true -> List.length names < record_levels m ->
  to_records m (Some names) = Exc StopIteration.
Proof. intros. apply records_stop; assumption. Qed.

Lemma merged_with_content mt d1 d2 k :
  wfd d1 = true -> wfd d2 = true ->
  wfd (merged_with mt d1 d2) = true /\
  map fst (merged_with mt d1 d2) =
    map fst d1 ++ map fst (filter (fun kv => negb (dhas d1 (fst kv))) d2) /\
  dget (merged_with mt d1 d2) k =
  match dget d1 k, dget d2 k with
  | Some a, Some b => Some (if isinst mt a && isinst mt b then merged is_dict_cls a b else b)
  | Some a, None => Some a
  | None, o => o
  end.
Proof.
  intros W1 W2. split; [apply wfd_merged_with; assumption|]. split; [|apply dget_merged_with; assumption].
  unfold merged_with. rewrite map_app, map_map. reflexivity.
Qed.

Lemma rmerge_default fuel a b :
  wfv (VDict CDict a) = true -> wfv (VDict CDict b) = true -> depth (VDict CDict a) <= fuel ->
  exists r, rmerge fuel a b is_dict_cls = Ok r /\ VDict CDict r = merged is_dict_cls (VDict CDict a) (VDict CDict b).
Proof.
  intros. exists (merged_with is_dict_cls a b). split; [apply rmerge_ok; assumption|reflexivity].
Qed.

Lemma rmerge_identity fuel d :
  wfv (VDict CDict d) = true -> plain (VDict CDict d) = true ->
  depth (VDict CDict d) <= fuel ->
  rmerge fuel d [] is_dict_cls = Ok d /\ rmerge fuel [] d is_dict_cls = Ok d.
Proof.
  intros W P D. split.
  - destruct (rmerge_default fuel d [] W eq_refl D) as (r & -> & E). rewrite merged_nil_r in E by assumption. injection E as ->. reflexivity.
  - destruct (rmerge_default fuel [] d eq_refl W) as (r & -> & E).
    + cbn [depth] in *. cbn. lia.
    + rewrite merged_nil_l in E by assumption. injection E as ->. reflexivity.
Qed.
Lemma rmerge_idempotent fuel d :
  wfv (VDict CDict d) = true -> plain (VDict CDict d) = true ->
  depth (VDict CDict d) <= fuel ->
  rmerge fuel d d is_dict_cls = Ok d.
Proof.
  intros W P D. destruct (rmerge_default fuel d d W W D) as (r & -> & E).
  rewrite merged_idem in E by auto. injection E as ->. reflexivity.
Qed.

Lemma wfv_merged a : forall b, wfv a = true -> wfv b = true -> wfv (merged is_dict_cls a b) = true.
Proof.
  induction a as [k|l _|l _|c1 d1 IH] using val_ind'; intros b Wa Wb; try exact Wb.
  destruct b as [|?|?|c2 d2]; try exact Wb.
  apply wfv_dict in Wa, Wb. destruct Wa as [W1 V1]. destruct Wb as [W2 V2].
  change (wfv (VDict CDict (merged_with is_dict_cls d1 d2)) = true). apply wfv_dict.
  split; [apply wfd_merged_with; assumption|]. intros k v Hin. unfold merged_with in Hin.
  apply in_app_or in Hin. destruct Hin as [Hin|Hin].
  - apply in_map_iff in Hin. destruct Hin as [[k' v'] [[= <- <-] Hin]]. cbn [fst snd].
    destruct (dget d2 k') as [w|] eqn:E; [|eauto]. destruct (dget_In _ _ _ E) as (k2 & Hin2 & _).
    destruct (isinst is_dict_cls v' && isinst is_dict_cls w); [|eauto].
    rewrite Forall_forall in IH. apply (IH _ Hin); cbn [snd]; eauto.
  - apply filter_In in Hin. destruct Hin as [Hin _]. eauto.
Qed.
Lemma depth_le_max c d n : (forall k v, In (k, v) d -> depth v <= n) -> depth (VDict c d) <= S n.
Proof.
  intro H. cbn [depth]. apply le_n_S. apply list_max_le. apply Forall_forall. intros x Hx.
  apply in_map_iff in Hx. destruct Hx as [[k v] [<- Hin]]. eapply H; eauto.
Qed.
Lemma depth_merged a : forall b, depth (merged is_dict_cls a b) <= depth a + depth b.
Proof.
  induction a as [k|l _|l _|c1 d1 IH] using val_ind'; intros b; try (cbn [merged]; lia).
  destruct b as [|?|?|c2 d2]; try (cbn [merged]; lia).
  change (depth (VDict CDict (merged_with is_dict_cls d1 d2)) <= depth (VDict c1 d1) + depth (VDict c2 d2)).
  replace (depth (VDict c1 d1) + depth (VDict c2 d2)) with (S (depth (VDict c1 d1) + depth (VDict c2 d2) - 1)) by (cbn [depth]; lia).
  apply depth_le_max. intros k v Hin. unfold merged_with in Hin. apply in_app_or in Hin. destruct Hin as [Hin|Hin].
  - apply in_map_iff in Hin. destruct Hin as [[k' v'] [[= <- <-] Hin]]. cbn [fst snd].
    pose proof (depth_In c1 d1 _ _ Hin) as D1.
    destruct (dget d2 k') as [w|] eqn:E; [|lia]. destruct (dget_In _ _ _ E) as (k2 & Hin2 & _).
    pose proof (depth_In c2 d2 _ _ Hin2) as D2.
    destruct (isinst is_dict_cls v' && isinst is_dict_cls w); [|lia].
    rewrite Forall_forall in IH. pose proof (IH _ Hin w) as D3. cbn [snd] in D3. lia.
  - apply filter_In in Hin. destruct Hin as [Hin _]. pose proof (depth_In c2 d2 _ _ Hin) as D2. lia.
Qed.

Lemma rmerge_assoc fuel a b c :
  wfv (VDict CDict a) = true -> wfv (VDict CDict b) = true -> wfv (VDict CDict c) = true ->
  compatible (VDict CDict a) (VDict CDict b) = true ->
  compatible (VDict CDict b) (VDict CDict c) = true ->
  compatible (VDict CDict a) (VDict CDict c) = true ->
  depth (VDict CDict a) + depth (VDict CDict b) <= fuel ->
  (ab <- rmerge fuel a b is_dict_cls ;; rmerge fuel ab c is_dict_cls) =
  (bc <- rmerge fuel b c is_dict_cls ;; rmerge fuel a bc is_dict_cls) /\
  exists r, (ab <- rmerge fuel a b is_dict_cls ;; rmerge fuel ab c is_dict_cls) = Ok r.
Proof.
  intros Wa Wb Wc Cab Cbc Cac Hd.
  destruct (rmerge_default fuel a b Wa Wb) as (ab & Eab & Mab); [lia|].
  destruct (rmerge_default fuel b c Wb Wc) as (bc & Ebc & Mbc); [lia|].
  rewrite Eab, Ebc. cbn [bind].
  destruct (rmerge_default fuel ab c) as (l & El & Ml).
  { rewrite Mab. apply wfv_merged; assumption. } { assumption. }
  { rewrite Mab. pose proof (depth_merged (VDict CDict a) (VDict CDict b)). lia. }
  destruct (rmerge_default fuel a bc) as (r & Er & Mr).
  { assumption. } { rewrite Mbc. apply wfv_merged; assumption. } { lia. }
  rewrite El, Er. rewrite Mab in Ml. rewrite Mbc in Mr. rewrite merged_assoc in Ml by auto.
  rewrite <- Mr in Ml. injection Ml as ->. split; [reflexivity|]. eauto.
Qed.

Lemma rmerge_not_assoc : exists a b c fuel x y,
  (ab <- rmerge fuel a b is_dict_cls ;; rmerge fuel ab c is_dict_cls) = Ok x /\
  (bc <- rmerge fuel b c is_dict_cls ;; rmerge fuel a bc is_dict_cls) = Ok y /\
  veqb (VDict CDict x) (VDict CDict y) = false.
Proof.
  exists [(KStr "k", VDict CDict [(KStr "x", VAtom (KInt 1))])], [(KStr "k", VAtom (KInt 0))],
    [(KStr "k", VDict CDict [(KStr "y", VAtom (KInt 2))])], 5.
  eexists _, _. split; [vm_compute; reflexivity|]. split; [vm_compute; reflexivity|]. reflexivity.
Qed.

Lemma rmerge_mtypes_shallow :
  (exists mt d1 d2 r, mt COrdered = false /\ mt CDict = true /\
     rmerge 3 d1 d2 mt = Ok r /\
     peek (VDict CDict r) [KStr "a"; KStr "o"; KStr "x"] = Some (VAtom (KInt 1)) /\
     peek (VDict CDict d2) [KStr "a"; KStr "o"; KStr "x"] = None /\
     isinst mt (match peek (VDict CDict d2) [KStr "a"; KStr "o"] with Some v => v | None => VAtom KNone end) = false) /\
  (exists mt d1 d2 r n, mt (CMap n) = true /\ mt CDict = true /\
     rmerge 3 d1 d2 mt = Ok r /\
     peek (VDict CDict d1) [KStr "a"; KStr "o"; KStr "x"] = Some (VAtom (KInt 1)) /\
     peek (VDict CDict d2) [KStr "a"; KStr "o"; KStr "x"] = None /\
     peek (VDict CDict r) [KStr "a"; KStr "o"; KStr "x"] = None).
Proof.
  split.
  - exists (fun c => match c with CDict => true | _ => false end),
      [(KStr "a", VDict CDict [(KStr "o", VDict COrdered [(KStr "x", VAtom (KInt 1))])])],
      [(KStr "a", VDict CDict [(KStr "o", VDict COrdered [(KStr "y", VAtom (KInt 2))])])].
    eexists. repeat split; vm_compute; reflexivity.
  - exists (fun _ => true),
      [(KStr "a", VDict CDict [(KStr "o", VDict (CMap 0) [(KStr "x", VAtom (KInt 1))])])],
      [(KStr "a", VDict CDict [(KStr "o", VDict (CMap 0) [(KStr "y", VAtom (KInt 2))])])].
    eexists _, 0%N. repeat split; vm_compute; reflexivity.
Qed.

Lemma nd_set_get p m v : assignable m p = true ->
  exists m', nd_set m p v = Ok m' /\ peek m' p = Some v /\
    (forall q, diverge p q = true -> peek m' q = peek m q).
Proof. intro H. destruct (nd_set_spec p m v H) as (m' & H1 & H2 & H3 & _). eauto. Qed.

Lemma todict_spec fuel d :
  wfv (VDict CNesting d) = true -> depth (VDict CNesting d) <= fuel ->
  exists r self', todict fuel (VDict CNesting d) = Ok (r, self') /\
    r = plainified (VDict CNesting d) /\ no_nesting r = true.
Proof.
  intros W D. rewrite todict_ok by assumption. do 2 eexists. split; [reflexivity|]. split; [reflexivity|].
  apply plainified_no_nesting.
Qed.

Lemma get_from_values attrs ks o d :
  forallb is_str ks = true ->
  (exists v, reaches val_getitem (val_getattr attrs) o ks v /\
     get_from val_getitem (val_getattr attrs) o ks d = Ok v) \/
  ((forall v, ~ reaches val_getitem (val_getattr attrs) o ks v) /\
     get_from val_getitem (val_getattr attrs) o ks d = Ok d).
Proof. intro H. apply get_from_total; [apply val_getitem_err|apply val_getattr_err|exact H]. Qed.

Lemma filter_subseq {A} (f : A -> bool) l : subseq (filter f l) l.
Proof. induction l as [|x r IH]; cbn; [constructor|]. destruct (f x); constructor; exact IH. Qed.

Lemma separate_by_spec {A : Type} (r : A -> res val) (f : A -> val) l :
  (forall x, In x l -> r x = Ok (f x)) ->
  exists hits misses, separate_by l r = Ok (hits, misses) /\
    Permutation l (hits ++ misses) /\ subseq hits l /\ subseq misses l /\
    (forall x, In x hits -> f x = VAtom (KBool true)) /\
    (forall x, In x misses -> f x <> VAtom (KBool true)).
Proof.
  intro H. do 2 eexists. split; [apply (separate_by_ok r f l H)|].
  assert (Ht : forall v, is_True v = true <-> v = VAtom (KBool true)).
  { intros [k|?|?|?]; try (split; cbn; congruence). destruct k as [|b| | |]; try (split; cbn; congruence).
    destruct b; split; cbn; congruence. }
  split; [apply filter_partition|]. split; [apply filter_subseq|]. split; [apply filter_subseq|]. split.
  - intros x Hx. apply filter_In in Hx. apply Ht, Hx.
  - intros x Hx E. apply filter_In in Hx. destruct Hx as [_ Hx]. apply Ht in E. rewrite E in Hx. discriminate.
Qed.

(** The first exception of the function stops it. *)
Lemma separate_by_raises {A : Type} (r : A -> res val) a x b e :
  (forall y, In y a -> exists v, r y = Ok v) -> r x = Exc e ->
  separate_by (a ++ x :: b) r = Exc e.
Proof.
  intros Ha Hx. unfold separate_by. generalize (@nil A, @nil A) as hm.
  induction a as [|y a IH]; intros [hs ms]; cbn [app foldM].
  - rewrite Hx. reflexivity.
  - destruct (Ha y (or_introl eq_refl)) as [v ->]. cbn [bind].
    destruct (is_True v); cbn [bind]; apply IH; intros z Hz; apply Ha; right; exact Hz.
Qed.

Lemma hashdict_int_collision :
  hd_get (hd_run (fun z => KInt (py_int_hash z))
            [(KStr "a", (-1)%Z); (KStr "b", (-2)%Z)]) (KStr "b") = Ok (-1)%Z.
Proof. vm_compute. reflexivity. Qed.

Lemma reindex_spec c d :
  exists r, reindex_mapping (VDict c d) = Ok r /\
    map fst r = map (fun n => KInt (Z.of_nat n)) (seq 0 (List.length d)) /\
    map snd r = map snd d.
Proof.
  exists (enumerate_from 0 (dvalues d)). cbn [reindex_mapping].
  rewrite dict_of_wfd by apply enumerate_from_wfd. split; [reflexivity|].
  rewrite enumerate_from_keys, enumerate_from_vals. unfold dvalues. rewrite map_length. split; reflexivity.
Qed.
Lemma enumerate_spec l c d :
  enumerate_as_mapping (VAtom KNone) = Ok (VDict CDict []) /\
  enumerate_as_mapping (VDict c d) = Ok (VDict c d) /\
  (exists r, enumerate_as_mapping (VList l) = Ok (VDict CDict r) /\
     enumerate_as_mapping (VTup l) = Ok (VDict CDict r) /\
     map snd r = l /\ forall n, dget r (KInt (Z.of_nat n)) = nth_error l n).
Proof.
  split; [reflexivity|]. split; [reflexivity|]. exists (enumerate_from 0 l). cbn [enumerate_as_mapping].
  rewrite dict_of_wfd by apply enumerate_from_wfd. repeat split.
  - apply enumerate_from_vals.
  - intro n. apply (dget_enumerate_from l 0 n).
Qed.
Lemma listify_spec k l c (d : list (key * val)) :
  listify (VAtom k) = [VAtom k] /\ listify (VList l) = l /\ listify (VTup l) = l /\
  listify (VDict c d) = map (fun kv => VAtom (fst kv)) d /\
  (forall v, listify (VList (listify v)) = listify v).
Proof. repeat split. cbn. unfold dkeys. apply map_map. Qed.
