(** Properties of Notepad (C43-C47), GridPaper (C48) and Sticky (C49). *)
From Verif Require Import Sticky_Proofs.

(** The codec of the examples: a byte in front of the text; "bad" cannot be
    encoded and "None" stands for None. *)
Definition px_hash (b : bytes) : string := b.
Definition px_any (k : string) : Prop := True.
Definition px_enc (v : string) : res bytes := if String.eqb v "bad" then Exc TypeError else Ok ("." ++ v)%string.
Definition px_dec (b : bytes) : res string := match b with String _ v => Ok v | EmptyString => Exc UnpicklingError end.
Definition px_none (v : string) : bool := String.eqb v "None".
Lemma px_sound v : sound_value px_enc px_dec v.
Proof.
  unfold sound_value, stable, px_enc. destruct (String.eqb v "bad"); [right; eauto|left]. exists ("." ++ v)%string.
  split; [reflexivity|]. split; [discriminate|reflexivity].
Qed.
(** A Notepad "n": "a" and "b" set, "a" overwritten, refused and deleted. *)
Definition px_history : list (pvisit string) :=
  [ mkPVisit false 3 (PSet (skey "a") "1" true); mkPVisit true 1 (PSet (skey "b") "2" false);
    mkPVisit false 1 (PSet (skey "a") "11" true); mkPVisit false 1 (PSet (skey "a") "12" false);
    mkPVisit true 1 (PGet (skey "a")); mkPVisit true 1 (PSet (okey "7") "77" true);
    mkPVisit false 2 (PDel (skey "a")); mkPVisit true 1 (PGet (skey "a")); mkPVisit true 1 PItems ].
Definition px_holed : list (pvisit string) := px_history ++ [mkPVisit false 2 (PSet (skey "c") "bad" true)].
Definition px_run (h : list (pvisit string)) : option (res (list (pout string))) * store :=
  run (notepad "n" true true >>> pvisits_prog px_hash px_enc px_dec px_none "n" h) empty_store.
Lemma px_plain_of (h : list (pvisit string)) :
  forallb (fun v => negb (Nat.eqb (pv_fuel v) 0) &&
                    match pop_key (pv_op v) with
                    | Some k => negb (String.eqb (ktext k) "") && String.eqb (ktext k) (kraw k) && negb (starts_index (ktext k))
                    | None => true
                    end) h = true -> Forall (plain_pvisit px_enc px_dec px_any) h.
Proof.
  intro E. apply Forall_forall. intros v Hv. apply (proj1 (forallb_forall _ h) E) in Hv. apply andb_prop in Hv. destruct Hv as [H1 H2].
  split; [apply Nat.eqb_neq; now apply negb_true_iff|]. split; [|intros; apply px_sound].
  intros k Hk. rewrite Hk in H2. apply andb_prop in H2. destruct H2 as [H2 H3]. apply andb_prop in H2. destruct H2 as [H2 H4].
  split; [|now apply negb_true_iff]. split; [apply String.eqb_neq; now apply negb_true_iff|]. split; [symmetry; now apply String.eqb_eq|exact Logic.I].
Qed.
Lemma px_reached_of h r : Forall (plain_pvisit px_enc px_dec px_any) h -> (2 * Z.of_nat (List.length h) + 8 < 256 ^ 5)%Z ->
  fst (px_run h) = Some (Ok r) -> preached px_hash px_any "n" px_enc px_dec px_none h empty_store (snd (px_run h)).
Proof.
  intros F L E. split; [intros a b _ _ X; exact X|]. split; [exact F|]. split; [exact L|]. split; [exact wf_empty|].
  split; [intros a _; reflexivity|]. exists true, r. fold (px_run h). rewrite (surjective_pairing (px_run h)), E. reflexivity.
Qed.
Lemma px_reached : preached px_hash px_any "n" px_enc px_dec px_none px_history empty_store (snd (px_run px_history)).
Proof. eapply px_reached_of; [apply px_plain_of; reflexivity|reflexivity|vm_compute; reflexivity]. Qed.
Lemma px_reached_holed : preached px_hash px_any "n" px_enc px_dec px_none px_holed empty_store (snd (px_run px_holed)).
Proof. eapply px_reached_of; [apply px_plain_of; reflexivity|reflexivity|vm_compute; reflexivity]. Qed.

(** ** C43 *)

(** Every history of a Notepad gives what the list of entries gives. *)
Theorem C43_history : forall (V : Type) hash K P (enc : V -> res bytes) dec isnone s nl h,
  collision_free hash K -> wf s -> vacant (pad_names hash P) s ->
  Forall (plain_pvisit enc dec K) h -> (2 * Z.of_nat (List.length h) < 256 ^ 5)%Z ->
  exists s', run (notepad P true nl >>> pvisits_prog hash enc dec isnone P h) s =
      (Some (Ok (fst (pad_run enc isnone [] (map pv_op h)))), s') /\
    wf s' /\ only_at (pad_names hash P) s s'.
Proof.
  intros V hash K P enc dec isnone s nl h HK W Vc F L.
  destruct (pad_history hash K P enc dec isnone s nl h HK W Vc F L) as (s' & c & E & W' & _ & _ & _ & O'). eauto.
Qed.
Print Assumptions C43_history.

(** With values that can be encoded and are not None, what any handle is
    told next is what a dict would tell it. *)
Theorem C43_behaves_as_dict : forall (V : Type) hash K P (enc : V -> res bytes) dec isnone h s0 s,
  preached hash K P enc dec isnone h s0 s ->
  forall v, plain_pvisit enc dec K v -> Forall (ordinary enc isnone) (map pv_op h) -> ordinary enc isnone (pv_op v) ->
  exists x s', run (pvisit_prog hash enc dec isnone P v) s = (Some (Ok x), s') /\
    dict_answers (fun k => dict_after k None (map pv_op h)) (pv_op v) x.
Proof. exact @next_answer. Qed.
Print Assumptions C43_behaves_as_dict.

Example C43_ex :
  preached px_hash px_any "n" px_enc px_dec px_none px_history empty_store (snd (px_run px_history)) /\
  Forall (ordinary px_enc px_none) (map pv_op px_history) /\
  fst (px_run px_history) =
    Some (Ok [ WDone (Ok tt); WDone (Ok tt); WDone (Ok tt); WDone (Exc KeyError); WGot (Ok "11"); WDone (Ok tt);
               WDone (Ok tt); WGot (Exc FileNotFoundError); WItems (Ok [("7", "77"); ("b", "2")]) ]) /\
  dict_after "7" None (map pv_op px_history) = Some "77" /\ dict_after "a" None (map pv_op px_history) = None.
Proof.
  split; [exact px_reached|]. split; [|vm_compute; repeat split].
  apply Forall_forall. intros o Ho k v ok ->. cbn in Ho.
  repeat (destruct Ho as [Ho|Ho]; [solve [discriminate Ho|inversion Ho; subst; split; [reflexivity|eexists; reflexivity]]|]). destruct Ho.
Qed.

(** ** C44 *)

(** What get gives, for every key and in every state: [None] is the default. *)
Theorem C44_get : forall (V : Type) hash K P (enc : V -> res bytes) dec isnone h s0 s,
  preached hash K P enc dec isnone h s0 s ->
  forall k nl, pad_key K k ->
  run (let! p := notepad P false nl in np_get dec isnone p k) s =
  (Some (match value_of (ktext k) (pad_after enc isnone h) with
         | Some (Some v) => Ok (if isnone v then None else Some v)
         | _ => Exc FileNotFoundError
         end), s).
Proof. exact @get_default. Qed.
Print Assumptions C44_get.

(** So it never gives the default for a missing key, and gives it for a key
    that is there with None. *)
Theorem C44_get_default_refuted : forall (V : Type) hash K P (enc : V -> res bytes) dec isnone h s0 s,
  preached hash K P enc dec isnone h s0 s ->
  forall k nl, pad_key K k ->
  let got := fst (run (let! p := notepad P false nl in np_get dec isnone p k) s) in
  (value_of (ktext k) (pad_after enc isnone h) = None -> got = Some (Exc FileNotFoundError)) /\
  (forall v, value_of (ktext k) (pad_after enc isnone h) = Some (Some v) -> isnone v = true -> got = Some (Ok None)).
Proof.
  intros V hash K P enc dec isnone h s0 s R k nl Hk got. unfold got.
  rewrite (get_default hash K P enc dec isnone h s0 s R k nl Hk). cbn [fst]. split.
  - intros ->. reflexivity.
  - intros v -> ->. reflexivity.
Qed.
Print Assumptions C44_get_default_refuted.

Example C44_ex :
  let h := px_history ++ [mkPVisit true 1 (PSet (skey "u") "None" true)] in
  preached px_hash px_any "n" px_enc px_dec px_none h empty_store (snd (px_run h)) /\
  value_of "u" (pad_after px_enc px_none h) = Some (Some "None") /\
  let get k := fst (run (let! p := notepad "n" false true in np_get px_dec px_none p (skey k)) (snd (px_run h))) in
  get "b" = Some (Ok (Some "2")) /\ get "u" = Some (Ok None) /\ get "a" = Some (Exc FileNotFoundError).
Proof.
  split; [eapply px_reached_of; [apply px_plain_of; reflexivity|reflexivity|vm_compute; reflexivity]|vm_compute; repeat split].
Qed.

(** ** C45 *)

(** If every listed key has a value, close() removes everything. *)
Theorem C45_close : forall (V : Type) hash K P (enc : V -> res bytes) dec isnone h s0 s,
  preached hash K P enc dec isnone h s0 s ->
  forall nl fuel, fuel <> 0 -> Forall (fun e => snd e <> None) (pad_after enc isnone h) ->
  exists s', run (let! p := notepad P false nl in np_close hash fuel p) s = (Some (Ok tt), s') /\
    wf s' /\ vacant (pad_names hash P) s' /\ only_at (pad_names hash P) s0 s'.
Proof. exact @close_clean. Qed.
Print Assumptions C45_close.

(** Otherwise it raises and keys stay listed. *)
Theorem C45_close_refuted : forall (V : Type) hash K P (enc : V -> res bytes) dec isnone h s0 s,
  preached hash K P enc dec isnone h s0 s ->
  forall nl fuel, fuel <> 0 -> Exists (fun e => snd e = None) (pad_after enc isnone h) ->
  exists s' l, run (let! p := notepad P false nl in np_close hash fuel p) s = (Some (Exc KeyError), s') /\
    l <> [] /\ forall nl', run (let! p := notepad P false nl' in np_keys p) s' = (Some (Ok l), s').
Proof. exact @close_holed. Qed.
Print Assumptions C45_close_refuted.

Example C45_ex :
  preached px_hash px_any "n" px_enc px_dec px_none px_history empty_store (snd (px_run px_history)) /\
  Forall (fun e => snd e <> None) (pad_after px_enc px_none px_history) /\
  preached px_hash px_any "n" px_enc px_dec px_none px_holed empty_store (snd (px_run px_holed)) /\
  Exists (fun e => snd e = None) (pad_after px_enc px_none px_holed) /\
  let close s := run (let! p := notepad "n" false false in np_close px_hash 2 p) s in
  fst (close (snd (px_run px_history))) = Some (Ok tt) /\
  names (snd (px_run px_history)) "n_b" <> None /\ names (snd (close (snd (px_run px_history)))) "n_b" = None /\
  fst (close (snd (px_run px_holed))) = Some (Exc KeyError) /\
  fst (run (let! p := notepad "n" false false in np_keys p) (snd (close (snd (px_run px_holed))))) = Some (Ok ["c"]).
Proof.
  split; [exact px_reached|]. split; [repeat constructor; discriminate|]. split; [exact px_reached_holed|].
  split; [right; right; left; reflexivity|]. vm_compute. repeat split; discriminate.
Qed.

(** ** C46 *)

(** A failed assignment to a key that is there changes no more than the
    lock's own blocks. *)
Theorem C46_existing_key : forall (V : Type) hash K P (enc : V -> res bytes) dec isnone h s0 s,
  preached hash K P enc dec isnone h s0 s ->
  forall k v ok nl fuel, fuel <> 0 -> pad_key K k -> In (ktext k) (map fst (pad_after enc isnone h)) ->
  ok = false \/ (exists e, enc v = Exc e) ->
  exists e s', run (let! p := notepad P false nl in np_set hash enc fuel p k v false ok) s = (Some (Exc e), s') /\
    only_at (lock_names (pad_index P)) s s'.
Proof. exact @failed_existing. Qed.
Print Assumptions C46_existing_key.

(** A failed assignment to a new key leaves a key that is listed and can be
    neither read nor deleted. *)
Theorem C46_new_key_refuted : forall (V : Type) hash K P (enc : V -> res bytes) dec isnone h s0 s,
  preached hash K P enc dec isnone h s0 s ->
  forall k v e ok nl fuel, fuel <> 0 -> pad_key K k -> ~ In (ktext k) (map fst (pad_after enc isnone h)) -> enc v = Exc e ->
  exists s', run (let! p := notepad P false nl in np_set hash enc fuel p k v false ok) s = (Some (Exc (as_key e)), s') /\
    (forall nl', run (let! p := notepad P false nl' in np_keys p) s' =
                 (Some (Ok (map fst (pad_after enc isnone h) ++ [ktext k])), s')) /\
    (forall nl', run (let! p := notepad P false nl' in np_getitem dec isnone p k) s' = (Some (Exc FileNotFoundError), s')) /\
    (forall nl' f, run (let! p := notepad P false nl' in np_del hash f p k) s' = (Some (Exc KeyError), s')).
Proof. exact @failed_new. Qed.
Print Assumptions C46_new_key_refuted.

Example C46_ex :
  preached px_hash px_any "n" px_enc px_dec px_none px_history empty_store (snd (px_run px_history)) /\
  In "b" (map fst (pad_after px_enc px_none px_history)) /\ ~ In "c" (map fst (pad_after px_enc px_none px_history)) /\
  px_enc "bad" = Exc TypeError /\ pad_key px_any (skey "c") /\
  let set k ok := run (let! p := notepad "n" false false in np_set px_hash px_enc 3 p (skey k) "bad" false ok) (snd (px_run px_history)) in
  let keys s := fst (run (let! p := notepad "n" false false in np_keys p) s) in
  fst (set "b" true) = Some (Exc TypeError) /\ fst (set "b" false) = Some (Exc KeyError) /\
  keys (snd (set "b" true)) = Some (Ok ["7"; "b"]) /\ keys (snd (set "c" true)) = Some (Ok ["7"; "b"; "c"]).
Proof.
  split; [exact px_reached|]. split; [right; left; reflexivity|].
  split; [intro Hin; vm_compute in Hin; destruct Hin as [X|[X|[]]]; discriminate|]. split; [reflexivity|].
  split; [split; [split; [discriminate|split; [reflexivity|exact Logic.I]]|reflexivity]|]. vm_compute. repeat split.
Qed.

(** ** C47 *)

(** Two Notepads, neither prefix the other's followed by "_": whatever is done
    with either, in whatever order, each answers as if it were alone. *)
Theorem C47_apart_prefixes : forall (V : Type) hash K P Q (enc : V -> res bytes) dec isnone s np nq h,
  collision_free hash K -> apart P Q -> wf s -> vacant (pad_names hash P) s -> vacant (pad_names hash Q) s ->
  Forall (fun x => plain_pvisit enc dec K (snd x)) h -> (2 * Z.of_nat (List.length h) < 256 ^ 5)%Z ->
  exists r s', run (notepad P true np >>> notepad Q true nq >>> mixed_prog hash enc dec isnone P Q h) s = (Some (Ok r), s') /\
    side true r = fst (pad_run enc isnone [] (map pv_op (side true h))) /\
    side false r = fst (pad_run enc isnone [] (map pv_op (side false h))).
Proof. exact @mixed_history. Qed.
Print Assumptions C47_apart_prefixes.

(** Otherwise the shorter prefix sees every value of the longer. *)
Theorem C47_extended_prefix_refuted : forall (V : Type) hash K P t (enc : V -> res bytes) dec isnone h s0 s,
  preached hash K (P ++ "_" ++ t) enc dec isnone h s0 s ->
  forall k x, pad_key K (skey k) ->
  run (np_getitem dec isnone (mkPad P x) (skey (t ++ "_" ++ k))) s =
  (Some (look isnone (value_of k (pad_after enc isnone h))), s).
Proof. exact @prefix_seen. Qed.
Print Assumptions C47_extended_prefix_refuted.

Definition px_mixed : list (bool * pvisit string) :=
  [ (true, mkPVisit false 2 (PSet (skey "b_c") "1" true)); (false, mkPVisit true 2 (PSet (skey "b_c") "2" true));
    (true, mkPVisit false 2 (PGet (skey "b_c"))); (false, mkPVisit true 2 PClear); (true, mkPVisit true 2 PItems) ].
Example C47_ex :
  collision_free px_hash px_any /\ apart "a" "b" /\ ~ apart "a" "a_b" /\
  vacant (pad_names px_hash "a") empty_store /\ Forall (fun x => plain_pvisit px_enc px_dec px_any (snd x)) px_mixed /\
  fst (run (notepad "a" true true >>> notepad "b" true false >>> mixed_prog px_hash px_enc px_dec px_none "a" "b" px_mixed) empty_store) =
    Some (Ok [ (true, WDone (Ok tt)); (false, WDone (Ok tt)); (true, WGot (Ok "1")); (false, WDone (Ok tt));
               (true, WItems (Ok [("b_c", "1")])) ]) /\
  (* the same keys, prefixes "a" and "a_b" *)
  fst (run (notepad "a" true true >>> notepad "a_b" true false >>>
            mixed_prog px_hash px_enc px_dec px_none "a" "a_b"
              [ (true, mkPVisit false 2 (PSet (skey "b_c") "1" true)); (false, mkPVisit true 2 (PSet (skey "c") "2" true));
                (true, mkPVisit false 2 (PGet (skey "b_c"))); (false, mkPVisit true 2 PClear); (true, mkPVisit true 2 PItems) ]) empty_store) =
    Some (Ok [ (true, WDone (Ok tt)); (false, WDone (Ok tt)); (true, WGot (Ok "2")); (false, WDone (Ok tt));
               (true, WItems (Exc FileNotFoundError)) ]).
Proof.
  split; [intros a b _ _ E; exact E|]. split; [split; [discriminate|split; discriminate]|].
  split; [intros (_ & X & _); apply (X "b"); reflexivity|]. split; [intros a _; reflexivity|].
  split; [|vm_compute; repeat split]. apply Forall_map. apply px_plain_of. reflexivity.
Qed.

(** ** C48 *)

(** Metadata of the examples: the parts with a byte before every character
    (and as many as the number for an axis), and terminators. *)
Definition gx_item (dt : string) : nat := if String.eqb dt "<u2" then 2 else 1.
Fixpoint gx_text (s r : string) : string :=
  match s with EmptyString => String "." r | String c s' => String "+" (String c (gx_text s' r)) end.
Fixpoint gx_untext (b : string) : option (string * string) :=
  match b with
  | String "." r => Some ("", r)
  | String "+" (String c b') => match gx_untext b' with Some (s, r) => Some (String c s, r) | None => None end
  | _ => None
  end.
Fixpoint gx_num (n : nat) (r : string) : string := match n with O => String "." r | S m => String "+" (gx_num m r) end.
Fixpoint gx_nums (l : list nat) : string := match l with [] => "" | n :: r => String "," (gx_num n (gx_nums r)) end.
(** Axes: "," and then one "+" for each unit, read from the front. *)
Fixpoint gx_axes (n : nat) (b : string) : list nat :=
  match b with
  | EmptyString => []
  | String "+" b' => gx_axes (S n) b'
  | String "." b' => n :: gx_axes 0 b'
  | String _ b' => gx_axes n b'
  end.
Definition gx_enc (md : ameta) : res bytes := Ok (gx_text (am_name md) (gx_text (am_dtype md) (gx_nums (am_shape md)))).
Definition gx_dec (b : bytes) : res ameta :=
  match gx_untext b with
  | Some (n, r) =>
      match gx_untext r with
      | Some (d, r') => Ok (mkMeta n d (gx_axes 0 r'))
      | None => Exc ValueError
      end
  | None => Exc ValueError
  end.
Lemma gx_text_ok s r : gx_untext (gx_text s r) = Some (s, r).
Proof. induction s as [|c s IH]; cbn; [reflexivity|]. now rewrite IH. Qed.
Lemma gx_num_ok n : forall m r, gx_axes m (gx_num n r) = (m + n) :: gx_axes 0 r.
Proof. induction n as [|n IH]; intros m r; cbn; [now rewrite Nat.add_0_r|]. rewrite IH. f_equal. lia. Qed.
Lemma gx_nums_ok l : gx_axes 0 (gx_nums l) = l.
Proof. induction l as [|n l IH]; cbn; [reflexivity|]. now rewrite gx_num_ok, IH. Qed.
Lemma gx_stable md : stable gx_enc gx_dec md.
Proof.
  eexists. split; [reflexivity|]. split; [destruct (am_name md); discriminate|].
  unfold gx_dec. rewrite !gx_text_ok, gx_nums_ok. now destruct md.
Qed.
(** A GridPaper "g": a 2x2 array, overwritten by one of three, a larger one
    refused; another key, deleted. *)
Definition gx_square : arr := mkArr [2; 2] "|u1" "abcd".
Definition gx_three : arr := mkArr [3] "|u1" "xyz".
Definition gx_large : arr := mkArr [3] "<u2" "AaBbCc".
Definition gx_scalar : arr := mkArr [] "|u1" "s".
Definition gx_history : list gvisit :=
  [ mkGVisit false 2 (GSet (skey "p") gx_square true); mkGVisit true 1 (GSet (skey "q") gx_three true);
    mkGVisit true 1 (GSet (skey "p") gx_three false); mkGVisit false 2 (GSet (skey "p") gx_large true);
    mkGVisit true 1 (GSet (skey "r") gx_large false); mkGVisit true 1 (GDel (skey "q"));
    mkGVisit false 2 (GGet (skey "p")); mkGVisit false 2 (GGetDefault (skey "q")); mkGVisit false 2 GKeys ].
Definition gx_run (h : list gvisit) : option (res (list gout)) * store :=
  run (gridpaper "g" true true >>> gvisits_prog gx_item px_hash gx_enc gx_dec "g" h) empty_store.
Lemma gx_plain : Forall (plain_gvisit gx_item px_any) gx_history.
Proof.
  assert (G : forall v, gv_fuel v <> 0 -> (forall k, gop_key (gv_op v) = Some k -> ktext k <> "" /\ kraw k = ktext k /\ starts_index (ktext k) = false) ->
    (forall k a ok, gv_op v = GSet k a ok -> whole gx_item a) -> (forall k, gv_op v = GDel k -> gv_nl v = true) -> plain_gvisit gx_item px_any v).
  { intros v H1 H2 H3 H4. split; [exact H1|]. split; [|split; assumption]. intros k Hk. destruct (H2 k Hk) as (A & B & C).
    split; [|exact C]. split; [exact A|]. split; [exact B|exact Logic.I]. }
  unfold gx_history. repeat apply Forall_cons; try apply Forall_nil; apply G; try discriminate;
    try (intros k [= <-]; repeat split; discriminate); try (intros k a ok [= <- <- <-]; split; [discriminate|reflexivity]); intros; reflexivity.
Qed.
Lemma gx_reached : greached px_hash px_any "g" gx_enc gx_dec gx_item gx_history empty_store (snd (gx_run gx_history)).
Proof.
  split; [intros a b _ _ X; exact X|]. split; [exact gx_stable|]. split; [exact gx_plain|]. split; [reflexivity|]. split; [exact wf_empty|].
  split; [intros a _; reflexivity|]. exists true. eexists. fold (gx_run gx_history). rewrite (surjective_pairing (gx_run gx_history)).
  apply f_equal2; [vm_compute; reflexivity|reflexivity].
Qed.

(** A history gives what the list of sheets gives, and touches no other name. *)
Theorem C48_history : forall hash K P jenc jdec itemsize s nl h,
  collision_free hash K -> (forall md, stable jenc jdec md) -> wf s -> vacant (grid_names hash P) s ->
  Forall (plain_gvisit itemsize K) h -> (Z.of_nat (List.length h) < 256 ^ 5)%Z ->
  exists s', run (gridpaper P true nl >>> gvisits_prog itemsize hash jenc jdec P h) s =
      (Some (Ok (fst (grid_run itemsize [] (map gv_op h)))), s') /\
    wf s' /\ only_at (grid_names hash P) s s'.
Proof.
  intros hash K P jenc jdec itemsize s nl h HK HJ W Vc F L.
  destruct (grid_history hash K P jenc jdec itemsize s nl h HK HJ W Vc F L) as (s' & c & E & W' & _ & _ & _ & _ & O'). eauto.
Qed.
Print Assumptions C48_history.

Theorem C48_get : forall hash K P jenc jdec itemsize h s0 s, greached hash K P jenc jdec itemsize h s0 s ->
  forall nl fuel k, fuel <> 0 -> pad_key K k ->
  exists s', run (gvisit_prog itemsize hash jenc jdec P (mkGVisit nl fuel (GGet k))) s =
    (Some (Ok (XGot (match grid_after itemsize (ktext k) None (map gv_op h) with
                     | Some sh => Ok (sh_arr sh)
                     | None => Exc KeyError
                     end))), s').
Proof. exact grid_get. Qed.
Print Assumptions C48_get.

Theorem C48_get_default : forall hash K P jenc jdec itemsize h s0 s, greached hash K P jenc jdec itemsize h s0 s ->
  forall nl fuel k, fuel <> 0 -> pad_key K k ->
  exists s', run (gvisit_prog itemsize hash jenc jdec P (mkGVisit nl fuel (GGetDefault k))) s =
    (Some (Ok (XGotDefault (Ok (match grid_after itemsize (ktext k) None (map gv_op h) with
                                | Some sh => Some (sh_arr sh)
                                | None => None
                                end)))), s').
Proof. exact grid_default. Qed.
Print Assumptions C48_get_default.

Theorem C48_keys : forall hash K P jenc jdec itemsize h s0 s, greached hash K P jenc jdec itemsize h s0 s ->
  forall nl fuel, fuel <> 0 ->
  exists ks s', run (gvisit_prog itemsize hash jenc jdec P (mkGVisit nl fuel GKeys)) s = (Some (Ok (XKeys ks)), s') /\
    NoDup ks /\ forall k, In k ks <-> grid_after itemsize k None (map gv_op h) <> None.
Proof. exact grid_keys. Qed.
Print Assumptions C48_keys.

Theorem C48_del : forall hash K P jenc jdec itemsize h s0 s, greached hash K P jenc jdec itemsize h s0 s ->
  forall fuel k, fuel <> 0 -> pad_key K k ->
  exists s', run (gvisit_prog itemsize hash jenc jdec P (mkGVisit true fuel (GDel k))) s =
    (Some (Ok (XDone (match grid_after itemsize (ktext k) None (map gv_op h) with
                      | Some _ => Ok tt
                      | None => Exc KeyError
                      end))), s').
Proof. exact grid_del. Qed.
Print Assumptions C48_del.

(** Too large for the block of the key: refused, nothing changes. *)
Theorem C48_larger_refused : forall hash K P jenc jdec itemsize h s0 s, greached hash K P jenc jdec itemsize h s0 s ->
  forall nl fuel k a ok sh, fuel <> 0 -> pad_key K k -> whole itemsize a ->
  grid_after itemsize (ktext k) None (map gv_op h) = Some sh -> sh_size sh < nbytes itemsize (a_dtype a) (a_shape a) ->
  run (gvisit_prog itemsize hash jenc jdec P (mkGVisit nl fuel (GSet k a ok))) s = (Some (Ok (XDone (Exc TypeError))), s).
Proof. exact grid_larger. Qed.
Print Assumptions C48_larger_refused.

(** exists_ok=False refuses new keys and is ignored for existing ones. *)
Theorem C48_exists_ok_refuted : forall hash K P jenc jdec itemsize h s0 s, greached hash K P jenc jdec itemsize h s0 s ->
  forall nl fuel k a ok, fuel <> 0 -> pad_key K k -> whole itemsize a -> nbytes itemsize (a_dtype a) (a_shape a) <> 0 ->
  exists s', run (gvisit_prog itemsize hash jenc jdec P (mkGVisit nl fuel (GSet k a ok))) s =
    (Some (Ok (XDone (match grid_after itemsize (ktext k) None (map gv_op h) with
                      | Some sh => if Nat.leb (nbytes itemsize (a_dtype a) (a_shape a)) (sh_size sh) then Ok tt else Exc TypeError
                      | None => if ok then Ok tt else Exc FileNotFoundError
                      end))), s').
Proof. exact grid_set. Qed.
Print Assumptions C48_exists_ok_refuted.

Theorem C48_clear_refuted : forall hash K P jenc jdec itemsize h s0 s, greached hash K P jenc jdec itemsize h s0 s ->
  forall nl fuel, run (gvisit_prog itemsize hash jenc jdec P (mkGVisit nl fuel GClear)) s = (Some (Ok (XDone (Exc AttributeError))), s).
Proof. exact grid_clear. Qed.
Print Assumptions C48_clear_refuted.

(** A 0-d array is refused with its block left behind, unlisted. *)
Theorem C48_scalar_refuted : forall hash K P jenc jdec itemsize h s0 s, greached hash K P jenc jdec itemsize h s0 s ->
  forall nl fuel k a, fuel <> 0 -> pad_key K k -> a_shape a = [] -> nbytes itemsize (a_dtype a) (a_shape a) <> 0 ->
  grid_after itemsize (ktext k) None (map gv_op h) = None ->
  exists s', run (gvisit_prog itemsize hash jenc jdec P (mkGVisit nl fuel (GSet k a true))) s = (Some (Ok (XDone (Exc IndexError))), s') /\
    names s (pad_address P (ktext k)) = None /\ names s' (pad_address P (ktext k)) <> None /\
    run (gvisit_prog itemsize hash jenc jdec P (mkGVisit nl fuel GKeys)) s' =
      (Some (Ok (XKeys (map fst (sheets_after itemsize h)))), s').
Proof. exact grid_scalar. Qed.
Print Assumptions C48_scalar_refuted.

(** Deleting through a handle that locks never comes back. *)
Theorem C48_locked_delete_refuted : forall hash K P jenc jdec itemsize h s0 s, greached hash K P jenc jdec itemsize h s0 s ->
  forall fuel k sh, pad_key K k -> grid_after itemsize (ktext k) None (map gv_op h) = Some sh ->
  exists s', run (gvisit_prog itemsize hash jenc jdec P (mkGVisit false fuel (GDel k))) s = (None, s').
Proof. exact grid_locked_del. Qed.
Print Assumptions C48_locked_delete_refuted.

Example C48_ex :
  greached px_hash px_any "g" gx_enc gx_dec gx_item gx_history empty_store (snd (gx_run gx_history)) /\
  fst (gx_run gx_history) =
    Some (Ok [ XDone (Ok tt); XDone (Ok tt); XDone (Ok tt); XDone (Exc TypeError); XDone (Exc FileNotFoundError);
               XDone (Ok tt); XGot (Ok gx_three); XGotDefault (Ok None); XKeys ["p"] ]) /\
  grid_after gx_item "p" None (map gv_op gx_history) = Some (mkSheet 4 gx_three) /\
  grid_after gx_item "q" None (map gv_op gx_history) = None /\
  whole gx_item gx_large /\ 4 < nbytes gx_item (a_dtype gx_large) (a_shape gx_large) /\
  a_shape gx_scalar = [] /\ nbytes gx_item (a_dtype gx_scalar) (a_shape gx_scalar) <> 0 /\
  let visit v := fst (run (gvisit_prog gx_item px_hash gx_enc gx_dec "g" v) (snd (gx_run gx_history))) in
  visit (mkGVisit true 1 (GSet (skey "z") gx_scalar true)) = Some (Ok (XDone (Exc IndexError))) /\
  visit (mkGVisit true 1 GClear) = Some (Ok (XDone (Exc AttributeError))) /\
  visit (mkGVisit false 9 (GDel (skey "p"))) = None.
Proof.
  split; [exact gx_reached|]. split; [vm_compute; reflexivity|]. split; [reflexivity|]. split; [reflexivity|].
  split; [split; [discriminate|reflexivity]|]. split; [vm_compute; lia|]. split; [reflexivity|]. split; [discriminate|].
  vm_compute. repeat split.
Qed.

(** ** C79 *)

(** iteritems() gives every key once with its array. *)
Theorem C79_items : forall hash K P jenc jdec itemsize h s0 s, greached hash K P jenc jdec itemsize h s0 s ->
  forall nl, exists l, run (let! p := gridpaper P false nl in gp_items hash jdec itemsize p) s = (Some (Ok l), s) /\
    NoDup (map fst l) /\
    forall k a, In (k, a) l <-> exists n, grid_after itemsize k None (map gv_op h) = Some (mkSheet n a).
Proof. exact grid_items_listed. Qed.
Print Assumptions C79_items.

(** __getitem__ with fetch=False always raises. *)
Theorem C79_block_refuted : forall hash K P jenc jdec itemsize h s0 s, greached hash K P jenc jdec itemsize h s0 s ->
  forall nl k, pad_key K k ->
  run (let! p := gridpaper P false nl in gp_getitem_block hash jdec p k) s =
  (Some (Exc (match grid_after itemsize (ktext k) None (map gv_op h) with Some _ => TypeError | None => KeyError end)), s).
Proof. exact grid_block. Qed.
Print Assumptions C79_block_refuted.

(** close() without locking removes every block, and with it of an empty paper ... *)
Theorem C79_close : forall hash K P jenc jdec itemsize h s0 s, greached hash K P jenc jdec itemsize h s0 s ->
  forall nl fuel, nl = true \/ (forall k, grid_after itemsize k None (map gv_op h) = None) ->
  exists s', run (let! p := gridpaper P false nl in gp_close hash fuel p) s = (Some (Ok tt), s') /\
    wf s' /\ vacant (grid_names hash P) s' /\ only_at (grid_names hash P) s0 s'.
Proof. exact grid_close_clean. Qed.
Print Assumptions C79_close.

(** ... but of any other it never comes back with locking. *)
Theorem C79_locked_close_refuted : forall hash K P jenc jdec itemsize h s0 s, greached hash K P jenc jdec itemsize h s0 s ->
  forall fuel k, grid_after itemsize k None (map gv_op h) <> None ->
  exists s', run (let! p := gridpaper P false false in gp_close hash fuel p) s = (None, s').
Proof. exact grid_close_stuck. Qed.
Print Assumptions C79_locked_close_refuted.

Example C79_ex :
  let s := snd (gx_run gx_history) in
  greached px_hash px_any "g" gx_enc gx_dec gx_item gx_history empty_store s /\
  grid_after gx_item "p" None (map gv_op gx_history) <> None /\
  fst (run (let! p := gridpaper "g" false false in gp_items px_hash gx_dec gx_item p) s) = Some (Ok [("p", gx_three)]) /\
  pad_key px_any (skey "p") /\
  fst (run (let! p := gridpaper "g" false false in gp_getitem_block px_hash gx_dec p (skey "p")) s) = Some (Exc TypeError) /\
  (let close nl := run (let! p := gridpaper "g" false nl in gp_close px_hash 9 p) s in
   fst (close true) = Some (Ok tt) /\ fst (close false) = None /\
   names s "g_p" <> None /\ names (snd (close true)) "g_p" = None /\ names (snd (close true)) "g_index" = None).
Proof.
  cbv zeta. split; [exact gx_reached|]. split; [discriminate|]. split; [vm_compute; reflexivity|].
  split; [repeat split; discriminate|]. split; [vm_compute; reflexivity|].
  split; [vm_compute; reflexivity|]. split; [vm_compute; reflexivity|]. split; [vm_compute; discriminate|].
  split; vm_compute; reflexivity.
Qed.

(** The block of a 0-d array that was refused outlives close(). *)
Theorem C79_leftover_refuted :
  let s := snd (run (gvisit_prog gx_item px_hash gx_enc gx_dec "g" (mkGVisit true 1 (GSet (skey "z") gx_scalar true))) (snd (gx_run gx_history))) in
  let closed := run (let! p := gridpaper "g" false true in gp_close px_hash 1 p) s in
  fst closed = Some (Ok tt) /\ names (snd closed) "g_z" <> None.
Proof. cbv zeta. split; vm_compute; [reflexivity|discriminate]. Qed.
Print Assumptions C79_leftover_refuted.

(** ** C49 *)

(** Any history of any number of Stickies at one address. *)
Theorem C49_history : forall (V : Type) (enc : V -> res bytes) dec isnone a h s,
  wf s -> names s a = None -> Forall (plain_sop enc dec isnone) h ->
  exists s', run (sops_prog enc dec isnone (fun _ => mkSticky a None) h) s =
      (Some (Ok (fst (board_run enc (mkBoard None (fun _ => None)) h))), s') /\ wf s' /\ only_at (eq a) s s'.
Proof. exact @stick_history. Qed.
Print Assumptions C49_history.

(** As long as all encodings have one length, sticking succeeds and rereading
    gives the value last stuck. *)
Theorem C49_same_length : forall (V : Type) (enc : V -> res bytes) dec isnone a h o s n,
  wf s -> names s a = None -> Forall (plain_sop enc dec isnone) (h ++ [o]) -> same_width enc n (h ++ [o]) ->
  exists outs x s', run (sops_prog enc dec isnone (fun _ => mkSticky a None) (h ++ [o])) s = (Some (Ok (outs ++ [x])), s') /\
    (forall i v, o = SStick i v -> x = YDone (Ok tt)) /\
    (forall i, o = SRead i true -> x = YRead (last_stuck None h)).
Proof. exact @stick_last. Qed.
Print Assumptions C49_same_length.

(** A value whose encoding has another length is refused; everyone goes on
    reading the old one. *)
Theorem C49_other_length_refuted : forall (V : Type) (enc : V -> res bytes) dec isnone a v w s,
  wf s -> names s a = None -> plain_value enc dec isnone v -> plain_value enc dec isnone w -> width enc v <> width enc w ->
  exists s', run (sops_prog enc dec isnone (fun _ => mkSticky a None) [SStick 0 v; SStick 1 w; SRead 2 true; SRead 1 false]) s =
    (Some (Ok [YDone (Ok tt); YDone (Exc ValueError); YRead (Some v); YRead (Some v)]), s').
Proof. exact @stick_other_width. Qed.
Print Assumptions C49_other_length_refuted.

(** Without reread, an object goes on giving what it once had. *)
Theorem C49_cached_refuted : forall (V : Type) (enc : V -> res bytes) dec isnone a v w s,
  wf s -> names s a = None -> plain_value enc dec isnone v -> plain_value enc dec isnone w -> width enc v = width enc w ->
  exists s', run (sops_prog enc dec isnone (fun _ => mkSticky a None) [SStick 0 v; SStick 1 w; SRead 0 false; SRead 0 true]) s =
    (Some (Ok [YDone (Ok tt); YDone (Ok tt); YRead (Some v); YRead (Some w)]), s').
Proof. exact @stick_stale. Qed.
Print Assumptions C49_cached_refuted.

Definition sx_history : list (sop string) :=
  [SRead 3 false; SStick 0 "one"; SRead 1 false; SStick 1 "two"; SRead 0 false; SClose 2; SRead 0 true; SStick 2 "six"; SRead 3 true].
Example C49_ex :
  wf empty_store /\ names empty_store "x" = None /\ Forall (plain_sop px_enc px_dec px_none) sx_history /\ same_width px_enc 4 sx_history /\
  fst (run (sops_prog px_enc px_dec px_none (fun _ => mkSticky "x" None) sx_history) empty_store) =
    Some (Ok [ YRead None; YDone (Ok tt); YRead (Some "one"); YDone (Ok tt); YRead (Some "one"); YDone (Ok tt); YRead None;
               YDone (Ok tt); YRead (Some "six") ]) /\
  plain_value px_enc px_dec px_none "one" /\ plain_value px_enc px_dec px_none "four" /\ width px_enc "one" <> width px_enc "four".
Proof.
  assert (Pl : forall v, String.eqb v "bad" = false -> px_none v = false -> plain_value px_enc px_dec px_none v).
  { intros v H1 H2. split; [|exact H2]. destruct (px_sound v) as [H|[e H]]; [exact H|]. unfold px_enc in H. rewrite H1 in H. discriminate. }
  split; [exact wf_empty|]. split; [reflexivity|]. split.
  { apply Forall_forall. intros o Ho i v ->. cbn in Ho.
    repeat (destruct Ho as [Ho|Ho]; [try discriminate Ho; inversion Ho; subst; apply Pl; reflexivity|]). destruct Ho. }
  split. { intros i v Ho. cbn in Ho. repeat (destruct Ho as [Ho|Ho]; [try discriminate Ho; inversion Ho; subst; reflexivity|]). destruct Ho. }
  split; [vm_compute; reflexivity|]. split; [apply Pl; reflexivity|]. split; [apply Pl; reflexivity|vm_compute; discriminate].
Qed.
