(** Properties of TagIndex and MetaTagIndex (C37-C42). *)
From Verif Require Import Index_Lemmas.

(** A concrete index "i" with the identity as hash: "a", "b", "c" were added,
    "a" removed (so "c" took its place) and "d" added, through locking and
    lock-free handles in turn. *)
Definition ex_hash (b : bytes) : string := b.
Definition ex_any (k : string) : Prop := True.
Definition ex_history : list visit :=
  [ mkVisit false 5 (IAdd (skey "a") true); mkVisit true 1 (IAdd (skey "b") false);
    mkVisit false 5 (IAdd (skey "c") true); mkVisit false 1 (IAdd (skey "b") false);
    mkVisit false 2 (IRemove (skey "a")); mkVisit true 2 (IRemove (skey "z"));
    mkVisit true 1 (ICheck (okey "c")); mkVisit false 1 (IAdd (skey "d") true); mkVisit true 1 IUpdate ].
Definition ex_run (h : list visit) : option (res (list iout)) * store :=
  run (let! x := tag_index "i" true true in visits_prog ex_hash "i" (ix_mem x) h) empty_store.
Definition ex_m : handle := mkHandle "i" (next empty_store).

Lemma ex_plain : Forall (plain_visit ex_any) ex_history.
Proof.
  apply Forall_forall. intros v Hv. unfold plain_visit.
  cbn in Hv. repeat (destruct Hv as [<-|Hv]); try destruct Hv; cbn;
    (split; [discriminate|]); intros k [=]; subst; refine (conj _ (conj eq_refl Logic.I)); discriminate.
Qed.
Lemma ex_reached : reached ex_hash ex_any "i" ex_history ex_m (snd (ex_run ex_history)).
Proof.
  split; [intros a b _ _ E; exact E|]. split; [exact ex_plain|]. split; [reflexivity|].
  exists empty_store, true, (fst (tags_run [] (map v_op ex_history))). split; [exact wf_empty|]. split; [intros a _; reflexivity|].
  split; [reflexivity|]. fold (ex_run ex_history). rewrite (surjective_pairing (ex_run ex_history)). apply f_equal2; [vm_compute; reflexivity|reflexivity].
Qed.

(** ** C37 *)

(** Any history of operations through any handles, from the creation of the
    index on, gives what the specification gives, and touches only the
    index's own names; a handle attached afterwards is the same index. *)
Theorem C37_refines_ordered_set : forall hash K I s nl h,
  collision_free hash K -> wf s -> vacant (index_names hash I) s ->
  Forall (plain_visit K) h -> (Z.of_nat (List.length h) < 256 ^ 5)%Z ->
  exists s', run (let! x := tag_index I true nl in visits_prog hash I (ix_mem x) h) s =
      (Some (Ok (fst (tags_run [] (map v_op h)))), s') /\
    wf s' /\ only_at (index_names hash I) s s' /\
    (forall nl', run (tag_index I false nl') s' =
       (Some (Ok (mkIndex I {| hname := I; hid := next s |} nl')), s')).
Proof. exact index_history. Qed.
Print Assumptions C37_refines_ordered_set.

(** In that specification the keys are those added and not removed since,
    each once, and [position] is the position. *)
Theorem C37_keys_present_once : forall h,
  NoDup (keys_after h) /\ forall k, In k (keys_after h) <-> present k false (map v_op h) = true.
Proof. exact keys_after_spec. Qed.
Print Assumptions C37_keys_present_once.

Theorem C37_position : forall k ks i, NoDup ks ->
  (position k ks = Some i <-> (0 <= i)%Z /\ nth_error ks (Z.to_nat i) = Some k).
Proof. exact position_spec. Qed.
Print Assumptions C37_position.

(** Removal loses exactly the removed key. *)
Theorem C37_swap_remove : forall k ks x, NoDup ks -> In k ks ->
  (In x (swap_remove k ks) <-> In x ks /\ x <> k).
Proof. exact swap_remove_in. Qed.
Print Assumptions C37_swap_remove.

(** A plain index takes no values with its keys. *)
Theorem C37_value_refused : forall hash fuel x k ok s,
  run (tag_add hash fuel x k true ok) s = (Some (Exc ValueError), s).
Proof. reflexivity. Qed.
Print Assumptions C37_value_refused.

Example C37_ex :
  collision_free ex_hash ex_any /\ wf empty_store /\ vacant (index_names ex_hash "i") empty_store /\
  Forall (plain_visit ex_any) ex_history /\
  fst (ex_run ex_history) =
    Some (Ok [ OPos (Ok 0%Z); OPos (Ok 1%Z); OPos (Ok 2%Z); OPos (Exc FileExistsError); OPos (Ok 0%Z);
               OPos (Exc KeyError); OFound (Some 0%Z); OPos (Ok 2%Z); OKeys ["c"; "b"; "d"] ]) /\
  keys_after ex_history = ["c"; "b"; "d"].
Proof.
  split; [intros a b _ _ E; exact E|]. split; [exact wf_empty|]. split; [intros a _; reflexivity|]. split; [exact ex_plain|].
  vm_compute. auto.
Qed.

(** ** C38 *)

(** Adding the empty string raises but leaves the index one longer than its
    keys; from then on no key at all can be removed. *)
Theorem C38_empty_key_refuted : forall hash K I h m s fuel nl k ok,
  reached hash K I h m s -> K (kraw k) -> ktext k = "" -> kraw k = "" -> fuel <> 0 ->
  exists s1, run (tag_add hash fuel (mkIndex I m nl) k false ok) s = (Some (Exc ValueError), s1) /\
    (forall nl1, run (update (mkIndex I m nl1)) s1 = (Some (Ok (keys_after h)), s1)) /\
    forall k' fuel' nl', plain_key K k' -> In (ktext k') (keys_after h) -> fuel' <> 0 ->
      fst (run (tag_remove hash fuel' (mkIndex I m nl') k') s1) = Some (Exc FileNotFoundError).
Proof. exact empty_key_add. Qed.
Print Assumptions C38_empty_key_refuted.

(** A bytes key is listed under its repr, which is then not found; removing
    any earlier key raises and leaves the repr in its place. *)
Theorem C38_bytes_key_refuted : forall hash K I h m s fuel nl k ok,
  reached hash K I h m s ->
  ktext k <> "" -> ~ In (ktext k) (keys_after h) -> K (ktext k) ->
  (forall x, K x -> hash x <> hash (kraw k)) -> fuel <> 0 ->
  exists s1, run (tag_add hash fuel (mkIndex I m nl) k false ok) s = (Some (Ok (Z.of_nat (List.length (keys_after h)))), s1) /\
    (forall nl1, run (update (mkIndex I m nl1)) s1 = (Some (Ok (keys_after h ++ [ktext k])), s1)) /\
    (forall nl1, run (check hash (mkIndex I m nl1) (skey (ktext k))) s1 = (Some (Ok None), s1)) /\
    forall k' fuel' nl', plain_key K k' -> In (ktext k') (keys_after h) -> fuel' <> 0 ->
      exists s2, run (tag_remove hash fuel' (mkIndex I m nl') k') s1 = (Some (Exc FileNotFoundError), s2) /\
        forall nl2, run (update (mkIndex I m nl2)) s2 =
          (Some (Ok (put_in_place (ktext k') (ktext k) (keys_after h) ++ [ktext k])), s2).
Proof. exact bytes_key_add. Qed.
Print Assumptions C38_bytes_key_refuted.

Example C38_ex :
  reached ex_hash ex_any "i" ex_history ex_m (snd (ex_run ex_history)) /\
  let s := snd (ex_run ex_history) in
  let x := mkIndex "i" ex_m false in
  let s1 := snd (run (tag_add ex_hash 3 x (skey "") false true) s) in
  let s2 := snd (run (tag_add ex_hash 3 x (bkey "b'q'" "q") false true) s) in
  fst (run (tag_remove ex_hash 3 x (skey "d")) s) = Some (Ok 2%Z) /\
  fst (run (tag_remove ex_hash 3 x (skey "d")) s1) = Some (Exc FileNotFoundError) /\
  fst (run (tag_remove ex_hash 3 x (skey "c")) s2) = Some (Exc FileNotFoundError) /\
  fst (run (update x) (snd (run (tag_remove ex_hash 3 x (skey "c")) s2))) = Some (Ok ["b'q'"; "b"; "d"; "b'q'"]).
Proof. split; [exact ex_reached|]. vm_compute. auto. Qed.

(** ** C39 *)

(** All that can be seen of the index after a crash inside add. *)
Theorem C39_add_crash_states : forall hash K I h m s fuel k ok nl,
  reached hash K I h m s -> plain_key K k -> ~ In (ktext k) (keys_after h) ->
  forall v, (exists n, sees hash (mkIndex I m nl) (ktext k)
                         (crash n (tag_add hash fuel (mkIndex I m true) k false ok) s) = v) <->
            In v (add_views (keys_after h) (ktext k)).
Proof. exact add_crash_views. Qed.
Print Assumptions C39_add_crash_states.

Theorem C39_remove_crash_states : forall hash K I h m s fuel k nl i,
  reached hash K I h m s -> plain_key K k -> position (ktext k) (keys_after h) = Some i ->
  forall v, (exists n, sees hash (mkIndex I m nl) (ktext k)
                         (crash n (tag_del_ hash fuel (mkIndex I m true) k) s) = v) <->
            In v (remove_views (keys_after h) (ktext k) i).
Proof. exact remove_crash_views. Qed.
Print Assumptions C39_remove_crash_states.

(** In particular neither is atomic: a key can be listed and not found, or
    found and not listed. *)
Theorem C39_add_refuted : forall hash K I h m s fuel k ok nl,
  reached hash K I h m s -> plain_key K k -> ~ In (ktext k) (keys_after h) ->
  exists n, let v := sees hash (mkIndex I m nl) (ktext k)
                       (crash n (tag_add hash fuel (mkIndex I m true) k false ok) s) in
    v = (Some (Ok (keys_after h ++ [ktext k])), Some (Ok None)).
Proof. exact add_not_atomic. Qed.
Print Assumptions C39_add_refuted.

Theorem C39_remove_refuted : forall hash K I h m s fuel k nl i,
  reached hash K I h m s -> plain_key K k -> position (ktext k) (keys_after h) = Some i ->
  exists n, let v := sees hash (mkIndex I m nl) (ktext k)
                       (crash n (tag_del_ hash fuel (mkIndex I m true) k) s) in
    exists l, v = (Some (Ok l), Some (Ok (Some i))) /\ ~ In (ktext k) l.
Proof. exact remove_not_atomic. Qed.
Print Assumptions C39_remove_refuted.

Example C39_ex :
  reached ex_hash ex_any "i" ex_history ex_m (snd (ex_run ex_history)) /\
  plain_key ex_any (skey "e") /\ ~ In "e" (keys_after ex_history) /\
  position "c" (keys_after ex_history) = Some 0%Z /\
  let s := snd (ex_run ex_history) in
  let x := mkIndex "i" ex_m true in
  sees ex_hash x "e" (crash 6 (tag_add ex_hash 1 x (skey "e") false true) s) =
    (Some (Ok ["c"; "b"; "d"; zeros 1]), Some (Ok None)) /\
  sees ex_hash x "c" (crash 14 (tag_del_ ex_hash 1 x (skey "c")) s) =
    (Some (Exc ValueError), Some (Ok (Some 0%Z))).
Proof.
  split; [exact ex_reached|]. split; [split; [cbn; discriminate|split; [reflexivity|exact Logic.I]]|]. split; [cbn; intuition discriminate|].
  vm_compute. auto.
Qed.

(** ** C40 *)

Theorem C40_close_empty : forall hash K I h m s nl,
  reached hash K I h m s -> keys_after h = [] ->
  exists s', run (tag_close (mkIndex I m nl)) s = (Some (Ok tt), s') /\
    vacant (index_names hash I) s' /\ only_at (index_names hash I) s s'.
Proof. exact close_empty. Qed.
Print Assumptions C40_close_empty.

(** Otherwise the blocks of every key stay; an index of the same name created
    afterwards is empty but claims to hold each of them, so they can never be
    listed again. *)
Theorem C40_close_leaks_refuted : forall hash K I h m s nl,
  reached hash K I h m s ->
  exists s1, run (tag_close (mkIndex I m nl)) s = (Some (Ok tt), s1) /\
    (forall k i, position k (keys_after h) = Some i ->
       content s1 (key_address I i) = Some k /\ content s1 (name_address hash I k) <> None) /\
    forall nl2, exists m2 s2, run (tag_index I true nl2) s1 = (Some (Ok (mkIndex I m2 nl2)), s2) /\
      (forall nl3, run (update (mkIndex I m2 nl3)) s2 = (Some (Ok []), s2)) /\
      forall k i nl3 fuel ok, plain_key K k -> position (ktext k) (keys_after h) = Some i -> fuel <> 0 ->
        run (check hash (mkIndex I m2 nl3) k) s2 = (Some (Ok (Some i)), s2) /\
        exists s3, run (tag_add hash fuel (mkIndex I m2 nl3) k false ok) s2 =
            (Some (if ok then Ok i else Exc FileExistsError), s3) /\
          run (update (mkIndex I m2 nl3)) s3 = (Some (Ok []), s3).
Proof. exact close_leaks. Qed.
Print Assumptions C40_close_leaks_refuted.

Example C40_ex :
  reached ex_hash ex_any "i" ex_history ex_m (snd (ex_run ex_history)) /\
  reached ex_hash ex_any "i" (firstn 2 ex_history ++ [mkVisit true 1 (IRemove (skey "a")); mkVisit false 1 (IRemove (skey "b"))]) ex_m
    (snd (ex_run (firstn 2 ex_history ++ [mkVisit true 1 (IRemove (skey "a")); mkVisit false 1 (IRemove (skey "b"))]))) /\
  keys_after (firstn 2 ex_history ++ [mkVisit true 1 (IRemove (skey "a")); mkVisit false 1 (IRemove (skey "b"))]) = [] /\
  let s1 := snd (run (tag_close (mkIndex "i" ex_m true)) (snd (ex_run ex_history))) in
  content s1 "i_key_2" = Some "d" /\ content s1 "i" = None.
Proof.
  split; [exact ex_reached|]. split; [|vm_compute; auto].
  split; [intros a b _ _ E; exact E|]. split.
  { apply Forall_app. split; [apply Forall_forall; intros v Hv; apply (proj1 (Forall_forall _ _) ex_plain); cbn in Hv |- *; tauto|].
    repeat (apply Forall_cons; [split; [discriminate|]; intros k [= <-]; refine (conj _ (conj eq_refl Logic.I)); discriminate|]). constructor. }
  split; [reflexivity|].
  match goal with |- context [run (pbind _ (fun x => visits_prog _ _ _ ?h)) _ = (_, _)] => set (hh := h) end.
  exists empty_store, true, (fst (tags_run [] (map v_op hh))). split; [exact wf_empty|]. split; [intros a _; reflexivity|].
  split; [reflexivity|]. fold (ex_run hh). rewrite (surjective_pairing (ex_run hh)). apply f_equal2; [vm_compute; reflexivity|reflexivity].
Qed.

(** ** C41 *)

(** Every history of adds (with or without a value), reads and listings
    through any handles and removals through lock-free ones gives what the
    specification gives; [true] says that removal may raise after the fact
    (see C42). *)
Theorem C41_refines_dict : forall hash K I J (enc : J -> res bytes) dec s nl h,
  collision_free hash K -> wf s -> vacant (meta_names hash I) s ->
  Forall (plain_mvisit enc dec K) h -> (Z.of_nat (List.length h) < 256 ^ 5)%Z ->
  exists s', run (let! x := meta_index I true nl in mvisits_prog hash enc dec I (ix_mem x) h) s =
      (Some (Ok (fst (meta_run true enc [] (map mv_op h)))), s') /\
    wf s' /\ only_at (meta_names hash I) s s'.
Proof. exact @meta_history. Qed.
Print Assumptions C41_refines_dict.

(** If every key is added with a value, removal does not do that. *)
Theorem C41_refines_dict_valued : forall hash K I J (enc : J -> res bytes) dec s nl h,
  collision_free hash K -> wf s -> vacant (meta_names hash I) s ->
  Forall (plain_mvisit enc dec K) h -> Forall valued (map mv_op h) -> (Z.of_nat (List.length h) < 256 ^ 5)%Z ->
  exists s', run (let! x := meta_index I true nl in mvisits_prog hash enc dec I (ix_mem x) h) s =
      (Some (Ok (fst (meta_run false enc [] (map mv_op h)))), s') /\
    only_at (meta_names hash I) s s'.
Proof. exact @meta_history_valued. Qed.
Print Assumptions C41_refines_dict_valued.

(** items() afterwards, and what it lists: every present key once with the
    last value added for it. *)
Theorem C41_items : forall hash K I J (enc : J -> res bytes) dec h m s nl,
  mreached hash K I enc dec h m s ->
  run (meta_items dec (mkIndex I m nl)) s = (Some (Ok (entries_after enc h)), s).
Proof. exact @meta_items_after. Qed.
Print Assumptions C41_items.

Theorem C41_entries : forall J (enc : J -> res bytes) (h : list (mvisit J)),
  NoDup (map fst (entries_after enc h)) /\
  forall k v, In (k, v) (entries_after enc h) <-> meta_after k None (map mv_op h) = Some v.
Proof. exact @entries_after_spec. Qed.
Print Assumptions C41_entries.

(** Values are strings, encoded with a marker byte. *)
Definition ex_enc (v : string) : res bytes := if String.eqb v "bad" then Exc TypeError else Ok (String "J" v).
Definition ex_dec (b : bytes) : res string := match b with String "J" v => Ok v | _ => Exc ValueError end.
Definition ex_mhistory : list (mvisit string) :=
  [ mkMVisit false 5 (MAdd (skey "a") (Some "1") true); mkMVisit true 1 (MAdd (skey "b") (Some "22") true);
    mkMVisit false 5 (MAdd (skey "a") (Some "333") true); mkMVisit false 2 (MAdd (skey "c") (Some "") true);
    mkMVisit true 1 (MRemove (skey "a")); mkMVisit false 1 (MGet (skey "c")); mkMVisit false 1 (MAdd (skey "d") None true);
    mkMVisit true 1 MItems ].
Definition ex_mrun (h : list (mvisit string)) : option (res (list (mout string))) * store :=
  run (let! x := meta_index "i" true true in mvisits_prog ex_hash ex_enc ex_dec "i" (ix_mem x) h) empty_store.

Lemma ex_mplain : Forall (plain_mvisit ex_enc ex_dec ex_any) ex_mhistory.
Proof.
  apply Forall_forall. intros v Hv. unfold plain_mvisit.
  cbn in Hv. repeat (destruct Hv as [<-|Hv]); try destruct Hv; cbn;
    (split; [discriminate|]); (split; [intros k [=]; subst; refine (conj _ (conj eq_refl Logic.I)); discriminate|]);
    (split; [intros k w ok [=]; subst; refine (ex_intro _ _ (conj eq_refl (conj _ eq_refl))); discriminate|]);
    intros k [=]; reflexivity.
Qed.
Lemma ex_mreached : mreached ex_hash ex_any "i" ex_enc ex_dec ex_mhistory ex_m (snd (ex_mrun ex_mhistory)).
Proof.
  split; [intros a b _ _ E; exact E|]. split; [exact ex_mplain|]. split; [reflexivity|].
  exists empty_store, true, (fst (meta_run true ex_enc [] (map mv_op ex_mhistory))). split; [exact wf_empty|]. split; [intros a _; reflexivity|].
  split; [reflexivity|]. fold (ex_mrun ex_mhistory). rewrite (surjective_pairing (ex_mrun ex_mhistory)). apply f_equal2; [vm_compute; reflexivity|reflexivity].
Qed.
Example C41_ex :
  mreached ex_hash ex_any "i" ex_enc ex_dec ex_mhistory ex_m (snd (ex_mrun ex_mhistory)) /\
  Forall valued (map mv_op (firstn 6 ex_mhistory)) /\
  fst (ex_mrun ex_mhistory) =
    Some (Ok [ QPos (Ok 0%Z); QPos (Ok 1%Z); QPos (Ok 0%Z); QPos (Ok 2%Z); QPos (Ok 0%Z); QGot (Ok "J");
               QPos (Ok 2%Z); QItems [("c", Some ""); ("b", Some "22"); ("d", None)] ]).
Proof.
  split; [exact ex_mreached|]. split; [repeat constructor; discriminate|]. vm_compute. reflexivity.
Qed.

(** ** C42 *)

(** With the default lock, removing anything (present or not) never returns,
    however long one waits: the nested lock waits for its own holder. *)
Theorem C42_locked_removal_refuted : forall hash K I J (enc : J -> res bytes) dec h m s fuel k,
  mreached hash K I enc dec h m s ->
  fst (run (meta_remove hash fuel (mkIndex I m false) k) s) = None.
Proof. exact @meta_remove_stuck. Qed.
Print Assumptions C42_locked_removal_refuted.

(** Without locking, removing a key without a value raises after the key was
    removed, if the last key has no value either. *)
Theorem C42_valueless_removal_refuted : forall hash K I J (enc : J -> res bytes) dec h m s fuel k i,
  mreached hash K I enc dec h m s -> plain_key K k ->
  position (ktext k) (map fst (entries_after enc h)) = Some i ->
  held (ktext k) (entries_after enc h) = None -> last_held (entries_after enc h) = None ->
  exists s', run (meta_remove hash fuel (mkIndex I m true) k) s = (Some (Exc FileNotFoundError), s') /\
    forall nl, run (meta_items dec (mkIndex I m nl)) s' = (Some (Ok (swap_entry (ktext k) (entries_after enc h))), s').
Proof. exact @meta_remove_raises. Qed.
Print Assumptions C42_valueless_removal_refuted.

(** What holds: lock-free removal of a key with a value. *)
Theorem C42_unlocked_removal : forall hash K I J (enc : J -> res bytes) dec h m s fuel k i,
  mreached hash K I enc dec h m s -> plain_key K k ->
  position (ktext k) (map fst (entries_after enc h)) = Some i -> held (ktext k) (entries_after enc h) <> None ->
  exists s', run (meta_remove hash fuel (mkIndex I m true) k) s = (Some (Ok i), s') /\
    forall nl, run (meta_items dec (mkIndex I m nl)) s' = (Some (Ok (swap_entry (ktext k) (entries_after enc h))), s').
Proof. exact @meta_remove_works. Qed.
Print Assumptions C42_unlocked_removal.

(** Lock-free removal in full. *)
Theorem C42_unlocked_exact : forall hash K I J (enc : J -> res bytes) dec h m s fuel k,
  mreached hash K I enc dec h m s -> plain_key K k ->
  exists s', run (meta_remove hash fuel (mkIndex I m true) k) s =
      (Some (match position (ktext k) (map fst (entries_after enc h)) with
             | None => Exc KeyError
             | Some i => match held (ktext k) (entries_after enc h), last_held (entries_after enc h) with
                         | None, None => Exc FileNotFoundError
                         | _, _ => Ok i
                         end
             end), s') /\
    forall nl, run (meta_items dec (mkIndex I m nl)) s' =
      (Some (Ok (match position (ktext k) (map fst (entries_after enc h)) with
                 | None => entries_after enc h
                 | Some _ => swap_entry (ktext k) (entries_after enc h)
                 end)), s').
Proof. exact @meta_remove_exact. Qed.
Print Assumptions C42_unlocked_exact.

Example C42_ex :
  mreached ex_hash ex_any "i" ex_enc ex_dec ex_mhistory ex_m (snd (ex_mrun ex_mhistory)) /\
  plain_key ex_any (skey "d") /\
  position "d" (map fst (entries_after ex_enc ex_mhistory)) = Some 2%Z /\
  held "d" (entries_after ex_enc ex_mhistory) = None /\ last_held (entries_after ex_enc ex_mhistory) = None /\
  held "c" (entries_after ex_enc ex_mhistory) = Some "" /\
  fst (run (meta_remove ex_hash 30 (mkIndex "i" ex_m false) (skey "b")) (snd (ex_mrun ex_mhistory))) = None /\
  fst (run (meta_remove ex_hash 1 (mkIndex "i" ex_m true) (skey "d")) (snd (ex_mrun ex_mhistory))) = Some (Exc FileNotFoundError) /\
  fst (run (meta_remove ex_hash 1 (mkIndex "i" ex_m true) (skey "b")) (snd (ex_mrun ex_mhistory))) = Some (Ok 1%Z).
Proof. split; [exact ex_mreached|]. split; [split; [cbn; discriminate|split; [reflexivity|exact Logic.I]]|]. vm_compute. auto 10. Qed.
