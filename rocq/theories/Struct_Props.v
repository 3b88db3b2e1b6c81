(** Properties of dustgoggles/structures.py (C01-C14, C18).  Each theorem is
    closed by a lemma proved elsewhere; the examples show that hypotheses are
    met by concrete non-trivial arguments. *)
From Coq Require Import Permutation.
From Verif Require Import Struct_Proofs2 Struct_Lemmas.

(** Example data used below:
    {"a": {"b": 1, "c": {"b": 2}}, "b": 3, "d": [4]} *)
Definition ex_nested : val :=
  VDict CDict
    [ (KStr "a", VDict CDict [ (KStr "b", VAtom (KInt 1))
                             ; (KStr "c", VDict CDict [(KStr "b", VAtom (KInt 2))]) ])
    ; (KStr "b", VAtom (KInt 3))
    ; (KStr "d", VList [VAtom (KInt 4)]) ].
Definition key_is (s : string) : pred := fun k _ => Ok (keqb k (KStr s)).

(** ** C01 *)

(** The specification list [located] lists every reachable entry exactly
    once. *)
Theorem C01_located_complete : forall mt m p v,
  In (p, v) (located mt m) <-> at_path mt m p v.
Proof. exact located_at_path. Qed.
Print Assumptions C01_located_complete.

Theorem C01_located_once : forall mt m,
  wfv m = true -> NoDup (map fst (located mt m)).
Proof. exact located_NoDup. Qed.
Print Assumptions C01_located_once.

Theorem C01_dig_for_items : forall mt pr match_ bp (p : key -> val -> bool) c d,
  (forall q v, at_path mt (VDict c d) q v ->
     pr (last q KNone) v = Ok (p (last q KNone) v)) ->
  dig_for_items (VDict c d) (RCall pr) match_ bp mt =
    Ok (none_if_empty (matching mt p (VDict c d))) /\
  dig_for_values (VDict c d) (RCall pr) match_ bp mt =
    Ok (none_if_empty (map snd (matching mt p (VDict c d)))) /\
  dig_for_keys (VDict c d) (RCall pr) match_ bp mt =
    Ok (none_if_empty (map fst (matching mt p (VDict c d)))).
Proof. exact dig_for_items_exact. Qed.
Print Assumptions C01_dig_for_items.

(** A raising predicate makes the search raise, and nothing else does. *)
Theorem C01_raises_iff : forall mt pr c d,
  (exists e, dig_for_all (VDict c d) pr mt = Exc e) <->
  (exists q v e, at_path mt (VDict c d) q v /\ pr (last q KNone) v = Exc e).
Proof. exact dig_for_all_raises_at. Qed.
Print Assumptions C01_raises_iff.

Example C01_ex :
  (forall q v, at_path is_dict_cls ex_nested q v ->
     key_is "b" (last q KNone) v = Ok (keqb (last q KNone) (KStr "b"))) /\
  wfv ex_nested = true /\
  dig_for_items ex_nested (RCall (key_is "b")) "key" op_eq is_dict_cls =
    Ok (Some [(KStr "b", VAtom (KInt 3)); (KStr "b", VAtom (KInt 1));
              (KStr "b", VAtom (KInt 2))]) /\
  dig_for_items ex_nested (RCall (key_is "z")) "key" op_eq is_dict_cls = Ok None.
Proof. repeat split. Qed.

(** ** C02 *)

Theorem C02_dig_for_item_first : forall mt pr match_ bp (p : key -> val -> bool) c d,
  (forall q v, at_path mt (VDict c d) q v ->
     pr (last q KNone) v = Ok (p (last q KNone) v)) ->
  dig_for_item (VDict c d) (RCall pr) match_ bp mt =
    Ok (hd_error (matching mt p (VDict c d))) /\
  dig_for_value (VDict c d) (RCall pr) match_ bp mt =
    Ok (option_map snd (hd_error (matching mt p (VDict c d)))) /\
  dig_for_key (VDict c d) (RCall pr) match_ bp mt =
    Ok (option_map fst (hd_error (matching mt p (VDict c d)))).
Proof. exact dig_for_item_exact. Qed.
Print Assumptions C02_dig_for_item_first.

(** The docstring promises a breadth-first search; a shallower match can be
    passed over for a deeper one. *)
Theorem C02_breadth_first_refuted :
  exists mt m (p : key -> val -> bool) q v q' v',
    wfv m = true /\
    at_path mt m q v /\ p (last q KNone) v = true /\
    at_path mt m q' v' /\ p (last q' KNone) v' = true /\
    List.length q' < List.length q /\ v <> v' /\
    dig_for_value m (RCall (fun k v => Ok (p k v))) "key" op_eq mt = Ok (Some v).
Proof. exact dig_for_not_bfs. Qed.
Print Assumptions C02_breadth_first_refuted.

(** What holds instead: a match on the top level is always preferred. *)
Theorem C02_top_level_first : forall mt pr match_ bp (p : key -> val -> bool) c d k v,
  (forall q v, at_path mt (VDict c d) q v ->
     pr (last q KNone) v = Ok (p (last q KNone) v)) ->
  find (fun kv => p (fst kv) (snd kv)) d = Some (k, v) ->
  dig_for_item (VDict c d) (RCall pr) match_ bp mt = Ok (Some (k, v)).
Proof. exact dig_for_top_level. Qed.
Print Assumptions C02_top_level_first.

(** And dig_for itself gives all the matches of that level, in order. *)
Theorem C02_dig_for_level : forall mt pr (p : key -> val -> bool) c d,
  (forall k v, In (k, v) d -> pr k v = Ok (p k v)) ->
  (exists k v, In (k, v) d /\ p k v = true) ->
  dig_for (VDict c d) pr mt = Ok (Some (filter (fun kv => p (fst kv) (snd kv)) d)).
Proof. exact dig_for_level. Qed.
Print Assumptions C02_dig_for_level.
Example C02_dig_for_level_ex : dig_for (VDict CDict [(KStr "a", VAtom (KInt 1)); (KStr "b", VAtom (KInt 2)); (KStr "c", VAtom (KInt 1))])
    (fun _ v => Ok (match v with VAtom k => keqb k (KInt 1) | _ => false end)) is_dict_cls =
  Ok (Some [(KStr "a", VAtom (KInt 1)); (KStr "c", VAtom (KInt 1))]).
Proof. reflexivity. Qed.

(** A predicate that raises: the first level, in visiting order, on which it
    raises or accepts something decides. *)
Theorem C02_raising_predicate : forall mt (pr : pred) match_ bp c d,
  (forall k v, pr k v <> Exc StopIteration) ->
  dig_for_item (VDict c d) (RCall pr) match_ bp mt =
  first_decided pr (dig_levels mt (VDict c d)).
Proof. exact dig_for_item_decided. Qed.
Print Assumptions C02_raising_predicate.

(** StopIteration is different: raised below the top level it never gets out,
    but ends the search of the mapping above as if nothing there matched. *)
Theorem C02_stop_iteration : forall mt (pr : pred) match_ bp c d,
  (forall k v, In (k, v) d -> pr k v = Ok false) ->
  dig_for_item (VDict c d) (RCall pr) match_ bp mt <> Exc StopIteration /\
  (forall k c1 k1 v1 d1 r, d = (k, VDict c1 ((k1, v1) :: d1)) :: r -> mt c1 = true ->
     pr k1 v1 = Exc StopIteration ->
     dig_for_item (VDict c d) (RCall pr) match_ bp mt = Ok None).
Proof. exact dig_for_item_stop. Qed.
Print Assumptions C02_stop_iteration.

(** In {"a": {"n": None}, "c": {"b": 2}}: a predicate that fails on "n" hides
    "b", with TypeError loudly and with StopIteration silently. *)
Definition ex_raising (e : exn) : pred :=
  fun k _ => if keqb k (KStr "n") then Exc e else Ok (keqb k (KStr "b")).
Definition ex_hidden : list (key * val) :=
  [ (KStr "a", VDict CDict [(KStr "n", VAtom KNone)]);
    (KStr "c", VDict CDict [(KStr "b", VAtom (KInt 2))]) ].
Example C02_ex_raising :
  (forall k v, ex_raising TypeError k v <> Exc StopIteration) /\
  (forall e k v, In (k, v) ex_hidden -> ex_raising e k v = Ok false) /\
  dig_for_item (VDict CDict ex_hidden) (RCall (ex_raising TypeError)) "key" op_eq is_dict_cls
    = Exc TypeError /\
  dig_for_item (VDict CDict ex_hidden) (RCall (ex_raising StopIteration)) "key" op_eq is_dict_cls
    = Ok None.
Proof.
  split; [|split; [|split; reflexivity]].
  - intros k v. unfold ex_raising. destruct (keqb k _); discriminate.
  - intros e k v [[= <- <-]|[[= <- <-]|[]]]; reflexivity.
Qed.

Example C02_ex :
  dig_for_value ex_nested (RCall (key_is "b")) "key" op_eq is_dict_cls =
    Ok (Some (VAtom (KInt 3))) /\
  find (fun kv => keqb (fst kv) (KStr "b")) (entries ex_nested) =
    Some (KStr "b", VAtom (KInt 3)).
Proof. split; reflexivity. Qed.

(** ** C03 *)

Theorem C03_key_reference : forall mt x c d,
  dig_for_items (VDict c d) (RConst x) "key" op_eq mt =
  Ok (none_if_empty (matching mt (fun k _ => veqb x (VAtom k)) (VDict c d))).
Proof. exact dig_const_key. Qed.
Print Assumptions C03_key_reference.

Theorem C03_value_reference : forall mt x c d,
  dig_for_items (VDict c d) (RConst x) "value" op_eq mt =
  Ok (none_if_empty (matching mt (fun _ v => veqb x v) (VDict c d))).
Proof. exact dig_const_value. Qed.
Print Assumptions C03_value_reference.

(** match="item": any search for a constant in any non-empty mapping fails,
    whatever the constant. *)
Theorem C03_item_reference_refuted : forall mt x c kv d,
  dig_for_items (VDict c (kv :: d)) (RConst x) "item" op_eq mt = Exc TypeError /\
  dig_for_item (VDict c (kv :: d)) (RConst x) "item" op_eq mt = Exc TypeError.
Proof. exact dig_const_item. Qed.
Print Assumptions C03_item_reference_refuted.

Theorem C03_item_reference_empty : forall mt x c,
  dig_for_items (VDict c []) (RConst x) "item" op_eq mt = Ok None /\
  dig_for_item (VDict c []) (RConst x) "item" op_eq mt = Ok None.
Proof. exact dig_const_item_empty. Qed.
Print Assumptions C03_item_reference_empty.

Example C03_ex :
  dig_for_values ex_nested (RConst (VAtom (KStr "b"))) "key" op_eq is_dict_cls =
    Ok (Some [VAtom (KInt 3); VAtom (KInt 1); VAtom (KInt 2)]) /\
  dig_for_keys ex_nested (RConst (VList [VAtom (KInt 4)])) "value" op_eq is_dict_cls =
    Ok (Some [KStr "d"]).
Proof. split; reflexivity. Qed.

(** ** C04 *)

(** With enough recursion depth dig_and_edit returns [m'] iff [m'] is the
    edited mapping of the specification. *)
Theorem C04_edit_exact : forall fpr spr p s mt,
  (forall k v, fpr k v = Ok (p k v)) -> (forall k v, spr k v = Ok (s k v)) ->
  (forall k v, wfv v = true -> wfv (s k v) = true) ->
  forall m m', wfv m = true ->
  (exists n, forall fuel, n <= fuel -> dig_and_edit fuel m fpr spr mt = Ok m') <->
  Edited p s mt m m'.
Proof. exact dig_and_edit_iff. Qed.
Print Assumptions C04_edit_exact.

Theorem C04_edit_deterministic : forall p s mt m m1 m2,
  Edited p s mt m m1 -> Edited p s mt m m2 -> m1 = m2.
Proof. exact edited_fun. Qed.
Print Assumptions C04_edit_deterministic.

Theorem C04_edit_terminates : forall fpr spr p s mt,
  (forall k v, fpr k v = Ok (p k v)) -> (forall k v, spr k v = Ok (s k v)) ->
  (forall k v, wfv v = true -> wfv (s k v) = true) ->
  (forall k v, depth (s k v) <= depth v) ->
  forall fuel m, wfv m = true -> is_mapping m = true -> depth m <= fuel ->
  exists m', dig_and_edit fuel m fpr spr mt = Ok m'.
Proof. exact dig_and_edit_terminates. Qed.
Print Assumptions C04_edit_terminates.

(** A leaf none of the entries on whose path match is unchanged. *)
Theorem C04_unmatched_unchanged : forall p s mt m m' q v,
  Edited p s mt m m' -> at_path mt m q v -> isinst mt v = false ->
  (forall q1 q2 x, q = q1 ++ q2 -> q1 <> [] -> at_path mt m q1 x ->
     p (last q1 KNone) x = false) ->
  at_path mt m' q v.
Proof. exact edited_unmatched. Qed.
Print Assumptions C04_unmatched_unchanged.

(** A setter that wraps what it is given never returns: every recursion
    depth is exhausted. *)
Theorem C04_edit_may_diverge :
  let f : pred := fun k _ => Ok (keqb k (KStr "a")) in
  let s := fun (k : key) (v : val) => Ok (VDict CDict [(KStr "a", v)]) in
  forall fuel v,
  dig_and_edit fuel (VDict CDict [(KStr "a", v)]) f s is_dict_cls = Exc RecursionError.
Proof. exact dig_and_edit_diverges. Qed.
Print Assumptions C04_edit_may_diverge.

Example C04_ex :
  let s (k : key) (v : val) := VAtom (KStr "x") in
  wfv ex_nested = true /\ is_mapping ex_nested = true /\
  (forall k v, wfv v = true -> wfv (s k v) = true) /\
  (forall k v, depth (s k v) <= depth v) /\
  dig_and_edit 3 ex_nested (key_is "b") (fun k v => Ok (s k v)) is_dict_cls =
  Ok (VDict CDict
    [ (KStr "a", VDict CDict [ (KStr "b", VAtom (KStr "x"))
                             ; (KStr "c", VDict CDict [(KStr "b", VAtom (KStr "x"))]) ])
    ; (KStr "b", VAtom (KStr "x"))
    ; (KStr "d", VList [VAtom (KInt 4)]) ]).
Proof. repeat split; intros; apply Nat.le_0_l. Qed.

(** ** C05 *)

Theorem C05_unnest_flat : forall mt e c d,
  mt c = true ->
  exists r,
    unnest (VDict c d) mt e = Ok (VDict CDict r) /\ wfd r = true /\
    (forall k, dget r k =
       option_map snd
         (last_such (fun pv => keqb (KStr (flat_key e (fst pv))) k)
                    (leaf_paths mt (VDict c d)))) /\
    (forall k v, In (k, v) r -> isinst mt v = false /\ is_str k = true).
Proof. exact unnest_spec. Qed.
Print Assumptions C05_unnest_flat.

(** A dictionary of a class that is not accepted is copied, to a plain one. *)
Theorem C05_unnest_copies : forall mt e c d,
  mt c = false -> is_dict_cls c = true -> wfd d = true -> unnest (VDict c d) mt e = Ok (VDict CDict d).
Proof. intros mt e c d Hm Hc Hd. unfold unnest. now rewrite Hm, Hc, dict_of_wfd. Qed.
Print Assumptions C05_unnest_copies.
Example C05_unnest_copies_ex : unnest (VDict COrdered [(KStr "a", VDict CDict [])]) (fun _ => false) "_" = Ok (VDict CDict [(KStr "a", VDict CDict [])]).
Proof. reflexivity. Qed.

Theorem C05_leaves : forall mt m p v,
  In (p, v) (leaf_paths mt m) <-> at_path mt m p v /\ isinst mt v = false.
Proof. exact leaf_paths_at. Qed.
Print Assumptions C05_leaves.

Theorem C05_unnest_idempotent : forall mt e c d r,
  mt c = true -> mt CDict = true ->
  unnest (VDict c d) mt e = Ok r -> unnest r mt e = Ok r.
Proof. exact unnest_idem. Qed.
Print Assumptions C05_unnest_idempotent.

(** When all leaf paths format differently: one entry per leaf, in order. *)
Theorem C05_unnest_one_per_leaf : forall mt e c d,
  mt c = true ->
  NoDup (map (fun pv => flat_key e (fst pv)) (leaf_paths mt (VDict c d))) ->
  unnest (VDict c d) mt e =
  Ok (VDict CDict (map (fun pv => (KStr (flat_key e (fst pv)), snd pv))
                       (leaf_paths mt (VDict c d)))).
Proof. exact unnest_nodup. Qed.
Print Assumptions C05_unnest_one_per_leaf.

Example C05_ex :
  is_dict_cls CDict = true /\
  NoDup (map (fun pv => flat_key "" (fst pv)) (leaf_paths is_dict_cls ex_nested)) /\
  unnest ex_nested is_dict_cls "" =
  Ok (VDict CDict [ (KStr "a_b", VAtom (KInt 1)); (KStr "a_c_b", VAtom (KInt 2))
                  ; (KStr "b", VAtom (KInt 3)); (KStr "d", VList [VAtom (KInt 4)]) ]).
Proof.
  repeat split. cbn. repeat constructor; cbn; intuition discriminate.
Qed.

(** ** C06 *)

(** An escape with a character that occurs in no key, string keys, no nested
    mapping under an empty key at the top: nothing is lost, and the flat form
    determines the leaves. *)
Theorem C06_unnest_injective : forall mt c e cl d,
  str_without c e = false ->
  mt cl = true -> wfv (VDict cl d) = true -> good_keys mt c (VDict cl d) = true ->
  no_blank_top mt (VDict cl d) = true ->
  unnest (VDict cl d) mt e =
  Ok (VDict CDict (map (fun pv => (KStr (flat_key e (fst pv)), snd pv))
                       (leaf_paths mt (VDict cl d)))) /\
  (forall p v q w, In (p, v) (leaf_paths mt (VDict cl d)) ->
     In (q, w) (leaf_paths mt (VDict cl d)) ->
     flat_key e p = flat_key e q -> p = q).
Proof. exact unnest_injective. Qed.
Print Assumptions C06_unnest_injective.

Theorem C06_flat_form_determines_leaves : forall mt c e c1 d1 c2 d2,
  str_without c e = false ->
  mt c1 = true -> mt c2 = true -> wfv (VDict c1 d1) = true -> wfv (VDict c2 d2) = true ->
  good_keys mt c (VDict c1 d1) = true -> good_keys mt c (VDict c2 d2) = true ->
  no_blank_top mt (VDict c1 d1) = true -> no_blank_top mt (VDict c2 d2) = true ->
  unnest (VDict c1 d1) mt e = unnest (VDict c2 d2) mt e ->
  leaf_paths mt (VDict c1 d1) = leaf_paths mt (VDict c2 d2).
Proof. exact unnest_determines. Qed.
Print Assumptions C06_flat_form_determines_leaves.

Example C06_ex :
  good_keys is_dict_cls "|" ex_nested = true /\ wfv ex_nested = true /\
  no_blank_top is_dict_cls ex_nested = true /\
  str_without "|" "<|>" = false /\
  unnest ex_nested is_dict_cls "<|>" =
  Ok (VDict CDict [ (KStr "<|>a<|>_b", VAtom (KInt 1)); (KStr "<|>a<|>_<|>c<|>_b", VAtom (KInt 2))
                  ; (KStr "b", VAtom (KInt 3)); (KStr "d", VList [VAtom (KInt 4)]) ]).
Proof. repeat split. Qed.

(** An escape that merely occurs in no key is not enough. *)
Theorem C06_absent_escape_refuted :
  exists d p q v w, wfv (VDict CDict d) = true /\ p <> q /\ v <> w /\
    at_path is_dict_cls (VDict CDict d) p v /\ at_path is_dict_cls (VDict CDict d) q w /\
    isinst is_dict_cls v = false /\ isinst is_dict_cls w = false /\
    (forall k, In k (p ++ q) -> exists s, k = KStr s /\ String.index 0 "__" s = None) /\
    unnest (VDict CDict d) is_dict_cls "__" = Ok (VDict CDict [(KStr "__a____b", w)]).
Proof. exact unnest_absent_escape_collision. Qed.
Print Assumptions C06_absent_escape_refuted.

(** The default escape loses leaves. *)
Theorem C06_default_escape_refuted :
  exists d p q v w, wfv (VDict CDict d) = true /\ p <> q /\ v <> w /\
    at_path is_dict_cls (VDict CDict d) p v /\ at_path is_dict_cls (VDict CDict d) q w /\
    isinst is_dict_cls v = false /\ isinst is_dict_cls w = false /\
    unnest (VDict CDict d) is_dict_cls "" = Ok (VDict CDict [(KStr "a_b", w)]).
Proof. exact unnest_default_collision. Qed.
Print Assumptions C06_default_escape_refuted.

(** Even with an escape that no key contains, an empty key at the top level
    or keys of different types collide. *)
Theorem C06_escape_empty_key_refuted :
  exists d p q v w, wfv (VDict CDict d) = true /\ p <> q /\ v <> w /\
    at_path is_dict_cls (VDict CDict d) p v /\ at_path is_dict_cls (VDict CDict d) q w /\
    isinst is_dict_cls v = false /\ isinst is_dict_cls w = false /\
    unnest (VDict CDict d) is_dict_cls "|" = Ok (VDict CDict [(KStr "b", w)]).
Proof. exact unnest_empty_key_collision. Qed.
Print Assumptions C06_escape_empty_key_refuted.

Theorem C06_escape_mixed_keys_refuted :
  exists d p q v w, wfv (VDict CDict d) = true /\ p <> q /\ v <> w /\
    at_path is_dict_cls (VDict CDict d) p v /\ at_path is_dict_cls (VDict CDict d) q w /\
    isinst is_dict_cls v = false /\ isinst is_dict_cls w = false /\
    unnest (VDict CDict d) is_dict_cls "|" = Ok (VDict CDict [(KStr "1", w)]).
Proof. exact unnest_mixed_collision. Qed.
Print Assumptions C06_escape_mixed_keys_refuted.

(** ** C07 *)

Theorem C07_to_records_named : forall m names,
  records_shape m = true -> record_levels m <= List.length names ->
  exists recs, to_records m (Some names) = Ok recs /\
  Forall2 (fun pv r =>
             exists c d d', snd pv = VDict c d /\ r = VDict c d' /\
               (wfd d = true -> wfd d' = true) /\
               forall k, dget d' k = record_field names (fst pv) (snd pv) k)
          (record_leaves m) recs.
Proof. exact to_records_named. Qed.
Print Assumptions C07_to_records_named.

(** Default names 1, 2, 3, ... *)
Theorem C07_to_records_default : forall m,
  records_shape m = true ->
  let names := map (fun i => KInt (1 + Z.of_nat i)) (seq 0 (record_levels m)) in
  exists recs, to_records m None = Ok recs /\
  Forall2 (fun pv r =>
             exists c d d', snd pv = VDict c d /\ r = VDict c d' /\
               (wfd d = true -> wfd d' = true) /\
               forall k, dget d' k = record_field names (fst pv) (snd pv) k)
          (record_leaves m) recs.
Proof. exact to_records_default. Qed.
Print Assumptions C07_to_records_default.

Theorem C07_to_records_too_few_names : forall m names,
  records_shape m = true -> List.length names < record_levels m ->
  to_records m (Some names) = Exc StopIteration.
Proof. exact to_records_stop. Qed.
Print Assumptions C07_to_records_too_few_names.

(** {"x": {"y": {"v": 1, "l1": 5}}, "z": {"v": 2}}: the second level name is
    needed by the first category only; l1 in the leaf is overridden. *)
Definition ex_cats : val :=
  VDict CDict
    [ (KStr "x", VDict CDict
         [(KStr "y", VDict CDict [(KStr "v", VAtom (KInt 1)); (KStr "l1", VAtom (KInt 5))])])
    ; (KStr "z", VDict CDict [(KStr "v", VAtom (KInt 2))]) ].
Example C07_ex :
  records_shape ex_cats = true /\ record_levels ex_cats = 2 /\
  to_records ex_cats (Some [KStr "l1"; KStr "l2"]) =
  Ok [ VDict CDict [(KStr "v", VAtom (KInt 1)); (KStr "l1", VAtom (KStr "x")); (KStr "l2", VAtom (KStr "y"))]
     ; VDict CDict [(KStr "v", VAtom (KInt 2)); (KStr "l1", VAtom (KStr "z"))] ] /\
  to_records ex_cats (Some [KStr "l1"]) = Exc StopIteration.
Proof. repeat split. Qed.

(** ** C08 *)

Theorem C08_rmerge_exact : forall fuel d1 d2 mt,
  wfv (VDict CDict d1) = true -> wfv (VDict CDict d2) = true ->
  depth (VDict CDict d1) <= fuel ->
  rmerge fuel d1 d2 mt = Ok (merged_with mt d1 d2).
Proof. exact rmerge_ok. Qed.
Print Assumptions C08_rmerge_exact.

(** What the merge holds, key by key, and its key order. *)
Theorem C08_merge_content : forall mt d1 d2 k,
  wfd d1 = true -> wfd d2 = true ->
  wfd (merged_with mt d1 d2) = true /\
  map fst (merged_with mt d1 d2) =
    map fst d1 ++ map fst (filter (fun kv => negb (dhas d1 (fst kv))) d2) /\
  dget (merged_with mt d1 d2) k =
  match dget d1 k, dget d2 k with
  | Some a, Some b => Some (if isinst mt a && isinst mt b then merged is_dict_cls a b else b)
  | Some a, None => Some a
  | None, o => o
  end.
Proof. exact merged_with_content. Qed.
Print Assumptions C08_merge_content.

(** Every leaf of the right operand survives. *)
Theorem C08_right_leaf_survives : forall p a b v,
  wfv a = true -> wfv b = true -> is_mapping a = true -> is_mapping b = true ->
  p <> [] -> peek b p = Some v -> isinst is_dict_cls v = false ->
  (forall q r x, p = q ++ r -> r <> [] -> peek b q = Some x ->
     q = [] \/ isinst is_dict_cls x = true) ->
  peek (merged is_dict_cls a b) p = Some v.
Proof. exact merged_leaf_right. Qed.
Print Assumptions C08_right_leaf_survives.

(** So does every leaf of the left operand that nothing on the right
    replaces. *)
Theorem C08_left_leaf_survives : forall p a b v,
  wfv a = true -> wfv b = true -> is_mapping a = true -> is_mapping b = true ->
  p <> [] -> peek a p = Some v ->
  (forall q r x, p = q ++ r -> r <> [] -> q <> [] -> peek a q = Some x ->
     isinst is_dict_cls x = true) ->
  (forall q r x, p = q ++ r -> q <> [] -> peek b q = Some x ->
     r <> [] /\ isinst is_dict_cls x = true) ->
  peek (merged is_dict_cls a b) p = Some v.
Proof. exact merged_leaf_left. Qed.
Print Assumptions C08_left_leaf_survives.

Example C08_ex :
  let d1 := [(KStr "a", VDict CDict [(KStr "x", VAtom (KInt 1)); (KStr "y", VAtom (KInt 2))]);
             (KStr "b", VAtom (KInt 3))] in
  let d2 := [(KStr "c", VAtom (KInt 4));
             (KStr "a", VDict CDict [(KStr "y", VAtom (KInt 5))])] in
  wfv (VDict CDict d1) = true /\ wfv (VDict CDict d2) = true /\ depth (VDict CDict d1) <= 2 /\
  rmerge 2 d1 d2 rmerge_default_mt =
  Ok [(KStr "a", VDict CDict [(KStr "x", VAtom (KInt 1)); (KStr "y", VAtom (KInt 5))]);
      (KStr "b", VAtom (KInt 3)); (KStr "c", VAtom (KInt 4))].
Proof. repeat split; try (vm_compute; constructor). Qed.

(** ** C09 *)

Theorem C09_rmerge_identity : forall fuel d,
  wfv (VDict CDict d) = true -> plain (VDict CDict d) = true ->
  depth (VDict CDict d) <= fuel ->
  rmerge fuel d [] is_dict_cls = Ok d /\ rmerge fuel [] d is_dict_cls = Ok d.
Proof. exact rmerge_identity. Qed.
Print Assumptions C09_rmerge_identity.

Theorem C09_rmerge_idempotent : forall fuel d,
  wfv (VDict CDict d) = true -> plain (VDict CDict d) = true ->
  depth (VDict CDict d) <= fuel ->
  rmerge fuel d d is_dict_cls = Ok d.
Proof. exact rmerge_idempotent. Qed.
Print Assumptions C09_rmerge_idempotent.

Theorem C09_rmerge_assoc : forall fuel a b c,
  wfv (VDict CDict a) = true -> wfv (VDict CDict b) = true -> wfv (VDict CDict c) = true ->
  compatible (VDict CDict a) (VDict CDict b) = true ->
  compatible (VDict CDict b) (VDict CDict c) = true ->
  compatible (VDict CDict a) (VDict CDict c) = true ->
  depth (VDict CDict a) + depth (VDict CDict b) <= fuel ->
  (ab <- rmerge fuel a b is_dict_cls ;; rmerge fuel ab c is_dict_cls) =
  (bc <- rmerge fuel b c is_dict_cls ;; rmerge fuel a bc is_dict_cls) /\
  exists r, (ab <- rmerge fuel a b is_dict_cls ;; rmerge fuel ab c is_dict_cls) = Ok r.
Proof. exact rmerge_assoc. Qed.
Print Assumptions C09_rmerge_assoc.

Theorem C09_rmerge_assoc_refuted : exists a b c fuel x y,
  (ab <- rmerge fuel a b is_dict_cls ;; rmerge fuel ab c is_dict_cls) = Ok x /\
  (bc <- rmerge fuel b c is_dict_cls ;; rmerge fuel a bc is_dict_cls) = Ok y /\
  veqb (VDict CDict x) (VDict CDict y) = false.
Proof. exact rmerge_not_assoc. Qed.
Print Assumptions C09_rmerge_assoc_refuted.

(** mtypes is ignored below the first level: a class excluded by mtypes is
    merged at depth two, and one admitted by mtypes is not. *)
Theorem C09_mtypes_all_depths_refuted :
  (exists mt d1 d2 r, mt COrdered = false /\ mt CDict = true /\
     rmerge 3 d1 d2 mt = Ok r /\
     peek (VDict CDict r) [KStr "a"; KStr "o"; KStr "x"] = Some (VAtom (KInt 1)) /\
     peek (VDict CDict d2) [KStr "a"; KStr "o"; KStr "x"] = None /\
     isinst mt (match peek (VDict CDict d2) [KStr "a"; KStr "o"] with Some v => v | None => VAtom KNone end) = false) /\
  (exists mt d1 d2 r n, mt (CMap n) = true /\ mt CDict = true /\
     rmerge 3 d1 d2 mt = Ok r /\
     peek (VDict CDict d1) [KStr "a"; KStr "o"; KStr "x"] = Some (VAtom (KInt 1)) /\
     peek (VDict CDict d2) [KStr "a"; KStr "o"; KStr "x"] = None /\
     peek (VDict CDict r) [KStr "a"; KStr "o"; KStr "x"] = None).
Proof. exact rmerge_mtypes_shallow. Qed.
Print Assumptions C09_mtypes_all_depths_refuted.

Example C09_ex :
  let a := VDict CDict [(KStr "a", VDict CDict [(KStr "x", VAtom (KInt 1))])] in
  let b := VDict CDict [(KStr "a", VDict CDict [(KStr "y", VAtom (KInt 1))]); (KStr "b", VAtom KNone)] in
  compatible a b = true /\ compatible b a = true /\ plain a = true /\ plain b = true /\ wfv b = true.
Proof. repeat split. Qed.

(** ** C10 *)

Theorem C10_insert_after_new : forall (V : Type) nk (nv : V) pk k v d1 d2,
  keqb k pk = true -> wfd (d1 ++ (k, v) :: d2) = true ->
  dget (d1 ++ (k, v) :: d2) nk = None ->
  insert_after nk nv pk (d1 ++ (k, v) :: d2) = d1 ++ (k, v) :: (nk, nv) :: d2.
Proof. exact @insert_after_new. Qed.
Print Assumptions C10_insert_after_new.

Theorem C10_insert_after_absent_prior : forall (V : Type) nk (nv : V) pk d,
  wfd d = true -> dget d pk = None -> insert_after nk nv pk d = d.
Proof. exact @insert_after_absent. Qed.
Print Assumptions C10_insert_after_absent_prior.

(** new_key at or before prior_key: replaced in place. *)
Theorem C10_insert_after_earlier_key : forall (V : Type) nk (nv : V) pk k v d1 d2,
  keqb k pk = true -> wfd (d1 ++ (k, v) :: d2) = true ->
  dhas (d1 ++ [(k, v)]) nk = true ->
  insert_after nk nv pk (d1 ++ (k, v) :: d2) = dset (d1 ++ (k, v) :: d2) nk nv.
Proof. exact @insert_after_before. Qed.
Print Assumptions C10_insert_after_earlier_key.

(** new_key after prior_key: the entry moves and keeps its old value; the new
    value is silently dropped. *)
Theorem C10_new_value_present_refuted : forall (V : Type) nk (nv : V) pk k v d1 d2 w,
  keqb k pk = true -> wfd (d1 ++ (k, v) :: d2) = true -> dget d2 nk = Some w ->
  insert_after nk nv pk (d1 ++ (k, v) :: d2) = d1 ++ (k, v) :: (nk, w) :: ddel d2 nk.
Proof. exact @insert_after_after. Qed.
Print Assumptions C10_new_value_present_refuted.

Theorem C10_others_kept : forall (V : Type) nk (nv : V) pk d k',
  wfd d = true -> keqb nk k' = false ->
  dget (insert_after nk nv pk d) k' = dget d k'.
Proof. exact @insert_after_other. Qed.
Print Assumptions C10_others_kept.

Example C10_ex :
  insert_after (KStr "n") 9%Z (KStr "a") [(KStr "a", 1%Z); (KStr "b", 2%Z)] =
    [(KStr "a", 1%Z); (KStr "n", 9%Z); (KStr "b", 2%Z)] /\
  insert_after (KStr "b") 9%Z (KStr "a") [(KStr "a", 1%Z); (KStr "b", 2%Z)] =
    [(KStr "a", 1%Z); (KStr "b", 2%Z)].
Proof. split; reflexivity. Qed.

(** ** C11 *)

Theorem C11_set_then_get : forall p m v, assignable m p = true ->
  exists m', nd_set m p v = Ok m' /\ peek m' p = Some v /\
    (forall q, diverge p q = true -> peek m' q = peek m q).
Proof. exact nd_set_get. Qed.
Print Assumptions C11_set_then_get.

(** Any history of assignments along paths none of which is a proper prefix
    of another: every path reads as last assigned, nothing else changes. *)
Theorem C11_history : forall (h : list (list key * val)) m0,
  (forall p v, In (p, v) h -> assignable m0 p = true) ->
  (forall p v q w, In (p, v) h -> In (q, w) h ->
     same_path p q = true \/ diverge p q = true) ->
  exists m, foldM (fun m pv => nd_set m (fst pv) (snd pv)) h m0 = Ok m /\
    (forall p, (exists v, In (p, v) h) ->
       exists pv, last_such (fun pv => same_path (fst pv) p) h = Some pv /\
                  peek m p = Some (snd pv)) /\
    (forall p, (forall q w, In (q, w) h -> diverge q p = true) -> peek m p = peek m0 p).
Proof. exact nd_history. Qed.
Print Assumptions C11_history.

(** Reading a missing path returns, and leaves behind, an empty level. *)
Theorem C11_read_missing : forall p m, assignable m p = true -> peek m p = None ->
  exists m', nd_get m p = Ok (VDict CNesting [], m') /\
    peek m' p = Some (VDict CNesting []) /\
    (forall q, diverge p q = true -> peek m' q = peek m q).
Proof. exact nd_read_missing. Qed.
Print Assumptions C11_read_missing.

Theorem C11_todict : forall fuel d,
  wfv (VDict CNesting d) = true -> depth (VDict CNesting d) <= fuel ->
  exists r self', todict fuel (VDict CNesting d) = Ok (r, self') /\
    r = plainified (VDict CNesting d) /\ no_nesting r = true.
Proof. exact todict_spec. Qed.
Print Assumptions C11_todict.

(** Same content at every path. *)
Theorem C11_todict_content : forall p v,
  (forall q, peek v q <> None ->
     match peek v q with Some (VDict (CMap _) _) => False | _ => True end) ->
  peek (plainified v) p = option_map plainified (peek v p).
Proof. exact peek_plainified. Qed.
Print Assumptions C11_todict_content.

Example C11_ex :
  let m0 := VDict CNesting [] in
  let h := [([KStr "a"; KStr "b"], VAtom (KInt 1)); ([KStr "a"; KStr "c"; KInt 0], VAtom (KInt 2));
            ([KStr "a"; KStr "b"], VAtom (KInt 3))] in
  forallb (fun pv => assignable m0 (fst pv)) h = true /\
  forallb (fun pv => forallb (fun qw => same_path (fst pv) (fst qw) || diverge (fst pv) (fst qw)) h) h = true /\
  (m <- foldM (fun m pv => nd_set m (fst pv) (snd pv)) h m0 ;; todict 9 m) =
  Ok (VDict CDict [(KStr "a", VDict CDict [(KStr "b", VAtom (KInt 3)); (KStr "c", VDict CDict [(KInt 0, VAtom (KInt 2))])])],
      VDict CNesting [(KStr "a", VDict CDict [(KStr "b", VAtom (KInt 3)); (KStr "c", VDict CDict [(KInt 0, VAtom (KInt 2))])])]).
Proof. repeat split. Qed.

(** ** C12 *)

(** For objects whose item lookup fails only with KeyError, IndexError or
    TypeError and whose attribute lookup only with AttributeError, string
    keys never make get_from raise: it returns what the keys reach, or the
    default if they reach nothing. *)
Theorem C12_get_from_string_keys :
  forall (obj : Type) (getitem : obj -> key -> res obj) (getattr : obj -> string -> res obj)
         ks o d,
  (forall o k e, getitem o k = Exc e -> lookup_error e = true) ->
  (forall o s e, getattr o s = Exc e -> e = AttributeError) ->
  forallb is_str ks = true ->
  (exists v, reaches getitem getattr o ks v /\ get_from getitem getattr o ks d = Ok v) \/
  ((forall v, ~ reaches getitem getattr o ks v) /\ get_from getitem getattr o ks d = Ok d).
Proof. exact @get_from_total. Qed.
Print Assumptions C12_get_from_string_keys.

(** Any keys: the first one found neither as an item nor as an attribute
    gives the default if it is a string and TypeError if not. *)
Theorem C12_get_from_exact :
  forall (obj : Type) (getitem : obj -> key -> res obj) (getattr : obj -> string -> res obj)
         ks o d,
  (forall o k e, getitem o k = Exc e -> lookup_error e = true) ->
  (forall o s e, getattr o s = Exc e -> e = AttributeError) ->
  (exists v, reaches getitem getattr o ks v /\ get_from getitem getattr o ks d = Ok v) \/
  (exists p x k r, ks = p ++ k :: r /\ reaches getitem getattr o p x /\
     (forall y, ~ reaches getitem getattr x [k] y) /\
     get_from getitem getattr o ks d = if is_str k then Ok d else Exc TypeError).
Proof. exact @get_from_exact. Qed.
Print Assumptions C12_get_from_exact.

Theorem C12_get_from_found :
  forall (obj : Type) (getitem : obj -> key -> res obj) (getattr : obj -> string -> res obj) o p x d,
  reaches getitem getattr o p x -> get_from getitem getattr o p d = Ok x.
Proof. exact @get_from_found. Qed.
Print Assumptions C12_get_from_found.

(** A missing key that is not a string raises instead of giving the
    default. *)
Theorem C12_nonstring_key_refuted :
  forall (obj : Type) (getitem : obj -> key -> res obj) (getattr : obj -> string -> res obj)
         o p x k e r d,
  reaches getitem getattr o p x -> getitem x k = Exc e -> lookup_error e = true ->
  is_str k = false -> get_from getitem getattr o (p ++ k :: r) d = Exc TypeError.
Proof. exact @get_from_nonstring. Qed.
Print Assumptions C12_nonstring_key_refuted.

(** Nested mappings and sequences satisfy the hypotheses. *)
Theorem C12_nested_values : forall attrs ks o d,
  forallb is_str ks = true ->
  (exists v, reaches val_getitem (val_getattr attrs) o ks v /\
     get_from val_getitem (val_getattr attrs) o ks d = Ok v) \/
  ((forall v, ~ reaches val_getitem (val_getattr attrs) o ks v) /\
     get_from val_getitem (val_getattr attrs) o ks d = Ok d).
Proof. exact get_from_values. Qed.
Print Assumptions C12_nested_values.

Example C12_ex :
  let noattr := val_getattr (fun _ _ => None) in
  get_from val_getitem noattr ex_nested [KStr "a"; KStr "c"; KStr "b"] (VAtom KNone) = Ok (VAtom (KInt 2)) /\
  get_from val_getitem noattr ex_nested [KStr "d"; KInt 0] (VAtom KNone) = Ok (VAtom (KInt 4)) /\
  get_from val_getitem noattr ex_nested [KStr "a"; KStr "z"] (VAtom KNone) = Ok (VAtom KNone) /\
  get_from val_getitem noattr ex_nested [KStr "d"; KInt 7] (VAtom KNone) = Exc TypeError.
Proof. repeat split. Qed.

(** ** C13 *)

Theorem C13_separate_by : forall (A : Type) (r : A -> res val) (f : A -> val) l,
  (forall x, In x l -> r x = Ok (f x)) ->
  exists hits misses, separate_by l r = Ok (hits, misses) /\
    Permutation l (hits ++ misses) /\ subseq hits l /\ subseq misses l /\
    (forall x, In x hits -> f x = VAtom (KBool true)) /\
    (forall x, In x misses -> f x <> VAtom (KBool true)).
Proof. exact @separate_by_spec. Qed.
Print Assumptions C13_separate_by.

Theorem C13_separate_by_raises : forall (A : Type) (r : A -> res val) a x b e,
  (forall y, In y a -> exists v, r y = Ok v) -> r x = Exc e ->
  separate_by (a ++ x :: b) r = Exc e.
Proof. exact @separate_by_raises. Qed.
Print Assumptions C13_separate_by_raises.

(** A truthy result that is not the object True is a miss. *)
Example C13_ex :
  separate_by [1; 2; 3]%Z
    (fun z => Ok (if (z =? 1)%Z then VAtom (KBool true) else if (z =? 2)%Z then VAtom (KInt 1) else VAtom (KBool false)))
  = Ok ([1], [2; 3])%Z.
Proof. reflexivity. Qed.

Example C13_ex_raises :
  separate_by [1; 2; 3]%Z (fun z => if (z =? 2)%Z then Exc ValueError else Ok (VAtom (KBool true)))
  = Exc ValueError.
Proof. reflexivity. Qed.

(** ** C14 *)

Theorem C14_hashdict_history : forall (A : Type) (hasher : A -> key) h k,
  hd_get (hd_run hasher h) k =
  match last_such (fun ki => keqb (fst ki) k) h with
  | None => Exc KeyError
  | Some ki =>
      match find (fun kj => keqb (hasher (snd kj)) (hasher (snd ki))) h with
      | Some kj => Ok (snd kj)
      | None => Exc KeyError
      end
  end.
Proof. exact @hd_get_spec. Qed.
Print Assumptions C14_hashdict_history.

Theorem C14_hashdict_is_dict : forall (A : Type) (hasher : A -> key) h k,
  (forall k1 a k2 b, In (k1, a) h -> In (k2, b) h ->
     keqb (hasher a) (hasher b) = true -> a = b) ->
  hd_get (hd_run hasher h) k =
  match last_such (fun ki => keqb (fst ki) k) h with
  | None => Exc KeyError
  | Some ki => Ok (snd ki)
  end.
Proof. exact @hd_get_inj. Qed.
Print Assumptions C14_hashdict_is_dict.

(** One stored value per distinct hash ever assigned; nothing is ever
    dropped. *)
Theorem C14_hashdict_stored : forall (A : Type) (hasher : A -> key) h,
  List.length (hd_reverse (hd_run hasher h)) =
  List.length (distinct_hashes hasher (rev h)).
Proof. exact @hd_count. Qed.
Print Assumptions C14_hashdict_stored.

(** What str() says: how many different keys and different hashes there were in
    all assignments. *)
Theorem C14_str : forall (A : Type) (hasher : A -> key) h,
  hd_str (hd_run hasher h) =
    ("HashDict with " ++ str_of_Z (Z.of_nat (List.length (kinds (map fst (rev h))))) ++ " keys storing " ++
     str_of_Z (Z.of_nat (List.length (kinds (map (fun ki => hasher (snd ki)) (rev h))))) ++ " unique values")%string.
Proof. exact @hd_str_spec. Qed.
Print Assumptions C14_str.
(** So it may count more values than can be read. *)
Theorem C14_str_refuted :
  ~ forall (h : list (key * Z)), hd_str (hd_run KInt h) =
      ("HashDict with " ++ str_of_Z (Z.of_nat (List.length (kinds (map fst (rev h))))) ++ " keys storing " ++
       str_of_Z (Z.of_nat (List.length (kinds (flat_map
         (fun k => match hd_get (hd_run KInt h) k with Ok v => [KInt v] | Exc _ => [] end) (map fst h))))) ++ " unique values")%string.
Proof. intro H. specialize (H [(KStr "a", 1%Z); (KStr "a", 2%Z)]). discriminate. Qed.
Print Assumptions C14_str_refuted.
Example C14_str_ex :
  hd_str (hd_run KInt [(KStr "a", 1%Z); (KStr "b", 1%Z); (KStr "a", 2%Z)]) = "HashDict with 2 keys storing 2 unique values".
Proof. reflexivity. Qed.

(** Default equivalence: -1 and -2 hash alike, so reading back returns the
    wrong int. *)
Theorem C14_default_hash_refuted :
  hd_get (hd_run (fun z => KInt (py_int_hash z))
            [(KStr "a", (-1)%Z); (KStr "b", (-2)%Z)]) (KStr "b") = Ok (-1)%Z.
Proof. exact hashdict_int_collision. Qed.
Print Assumptions C14_default_hash_refuted.

Example C14_ex :
  let hasher z := KInt (py_int_hash z) in
  (forall a b, In a [3; 5; 3]%Z -> In b [3; 5; 3]%Z -> keqb (hasher a) (hasher b) = true -> a = b) /\
  hd_get (hd_run hasher [(KStr "a", 3%Z); (KStr "b", 5%Z); (KStr "a", 5%Z)]) (KStr "a") = Ok 5%Z.
Proof.
  split; [|reflexivity]. intros a b Ha Hb. cbn in Ha, Hb.
  intuition subst; try reflexivity; vm_compute in H; discriminate.
Qed.

(** ** C18 *)

Theorem C18_reindex : forall c d,
  exists r, reindex_mapping (VDict c d) = Ok r /\
    map fst r = map (fun n => KInt (Z.of_nat n)) (seq 0 (List.length d)) /\
    map snd r = map snd d.
Proof. exact reindex_spec. Qed.
Print Assumptions C18_reindex.

Theorem C18_enumerate_as_mapping : forall l c d,
  enumerate_as_mapping (VAtom KNone) = Ok (VDict CDict []) /\
  enumerate_as_mapping (VDict c d) = Ok (VDict c d) /\
  (exists r, enumerate_as_mapping (VList l) = Ok (VDict CDict r) /\
     enumerate_as_mapping (VTup l) = Ok (VDict CDict r) /\
     map snd r = l /\ forall n, dget r (KInt (Z.of_nat n)) = nth_error l n).
Proof. exact enumerate_spec. Qed.
Print Assumptions C18_enumerate_as_mapping.

Theorem C18_listify : forall k l c (d : list (key * val)),
  listify (VAtom k) = [VAtom k] /\ listify (VList l) = l /\ listify (VTup l) = l /\
  listify (VDict c d) = map (fun kv => VAtom (fst kv)) d /\
  (forall v, listify (VList (listify v)) = listify v).
Proof. exact listify_spec. Qed.
Print Assumptions C18_listify.

Theorem C18_get_from_all : forall k ms default view,
  (match ms with VDict _ d => view = dvalues d | VList l | VTup l => view = l | VAtom _ => False end) ->
  (forall m, In m view -> is_mapping m = true) ->
  get_from_all k ms default =
  Ok (map (fun m => match dget (entries m) k with Some v => v | None => default end) view).
Proof. exact get_from_all_ok. Qed.
Print Assumptions C18_get_from_all.

Example C18_ex :
  get_from_all (KStr "v") (VDict CDict [(KInt 0, VDict CDict [(KStr "v", VAtom (KInt 1))]); (KInt 1, VDict CDict [])])
    (VAtom KNone) = Ok [VAtom (KInt 1); VAtom KNone] /\
  reindex_mapping ex_cats = Ok (enumerate_from 0 (map snd (entries ex_cats))).
Proof. split; reflexivity. Qed.
