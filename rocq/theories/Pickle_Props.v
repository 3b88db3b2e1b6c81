(** The pickle codec (C92). *)
From Verif Require Import Pickle_Final.
From Coq Require Import Lia.

(** What is decoded is a copy of what was encoded: shared objects are shared
    again, cycles are cycles again, order is kept.  It is one and the same copy
    whatever bytes follow, such as the rest of a memory block. *)
Theorem C92_round_trip limit h v b :
  proper limit h v -> pickle_encode limit h v = Ok b -> short b ->
  exists h' v', is_copy h v h' v' /\ forall junk, pickle_decode limit (b ++ junk) = Ok (h', v').
Proof. exact (round_trip limit h v b). Qed.
Print Assumptions C92_round_trip.

(** So they look the same to any depth. *)
Theorem C92_equal limit h v b h' v' :
  proper limit h v -> pickle_encode limit h v = Ok b -> short b -> pickle_decode limit b = Ok (h', v') ->
  forall n, shown n h v = shown n h' v'.
Proof.
  intros HP E Hb D. destruct (round_trip _ _ _ _ HP E Hb) as (h1 & v1 & HC & HD). specialize (HD ""%string). rewrite app_nil_r' in HD.
  rewrite D in HD. injection HD as -> ->. now apply same_shown.
Qed.
Print Assumptions C92_equal.

(** What was cut short is noticed, wherever it was cut. *)
Theorem C92_truncated limit h v b p q :
  proper limit h v -> pickle_encode limit h v = Ok b -> short b -> b = (p ++ q)%string -> q <> ""%string ->
  pickle_decode limit p = Exc UnpicklingError.
Proof. exact (truncated limit h v b p q). Qed.
Print Assumptions C92_truncated.

(** Copies are encoded to the same bytes; so encoding what was decoded gives
    the same bytes again. *)
Theorem C92_same_bytes limit h v h' v' : is_copy h v h' v' -> pickle_encode limit h v = pickle_encode limit h' v'.
Proof. exact (same_bytes limit h v h' v'). Qed.
Print Assumptions C92_same_bytes.
Theorem C92_again limit h v b h' v' :
  proper limit h v -> pickle_encode limit h v = Ok b -> short b -> pickle_decode limit b = Ok (h', v') ->
  pickle_encode limit h' v' = Ok b.
Proof.
  intros HP E Hb D. destruct (round_trip _ _ _ _ HP E Hb) as (h1 & v1 & HC & HD). specialize (HD ""%string). rewrite app_nil_r' in HD.
  rewrite D in HD. injection HD as -> ->. now rewrite <- (same_bytes limit h v h1 v1 HC).
Qed.
Print Assumptions C92_again.

(** Whatever is not nested as deeply as the limit, has numbers and texts of
    sizes that fit and at most 2^32 objects, can be encoded. *)
Theorem C92_encodes limit h v n bound :
  proper limit h v -> fits h v -> nested h n v -> n < limit ->
  (forall x, reaches h v x -> x < bound) -> (Z.of_nat bound <= 2 ^ 32)%Z ->
  exists b, pickle_encode limit h v = Ok b.
Proof. exact (pickled limit h v n bound). Qed.
Print Assumptions C92_encodes.

(** ** Examples *)
Definition pk_text (l : list N) : string := fold_right (fun n s => String (ascii_of_N n) s) ""%string l.
Definition pk_heap (l : list node) : heap := fun x => nth_error l x.
(** [a = [t, {"k": 300, (1, "k"): a}, -1]] where [t = (a,)]: a list that is
    within itself three times, once in a tuple that so is within itself, and a
    shared text. *)
Definition pk_cyclic : heap := pk_heap [NList [PRef 1; PRef 2; PInt (-1)]; NTup [PRef 0]; NDict [(PRef 3, PInt 300); (PRef 4, PRef 0)]; NStr "k"; NTup [PInt 1; PRef 3]].
(** What CPython writes for the tuple: it is begun, its list is written with
    the tuple in it, which then is in the memo, so what there is of it is popped. *)
Definition pk_bytes : string := pk_text [128; 5; 149; 36; 0; 0; 0; 0; 0; 0; 0; 93; 148; 40; 104; 0; 133; 148; 125; 148; 40; 140; 1; 107; 148; 77; 44; 1; 75; 1; 104; 3; 134; 148; 104; 0; 117; 74; 255; 255; 255; 255; 101; 48; 104; 1; 46]%N.
Lemma pk_closed k h v : (forall x n, x < k -> h x = Some n -> forall y, In (PRef y) (children n) -> y < k) -> (forall y, v = PRef y -> y < k) ->
  forall x, reaches h v x -> x < k.
Proof.
  intros Hc Hv x H. induction H as [x|x n w y Hx Hw H IH]; [auto|]. apply IH. intros z ->. eapply Hc; eauto.
Qed.
Ltac pk_all k := repeat (destruct k as [|k]; [|try lia]).
Lemma pk_cyclic_in x : reaches pk_cyclic (PRef 1) x -> x < 5.
Proof.
  apply pk_closed.
  - intros y n Hy. pk_all y; cbn; intros [= <-] z; cbn; intuition (try discriminate); match goal with E : PRef _ = PRef _ |- _ => injection E as <-; lia end.
  - intros y [= <-]. lia.
Qed.
Example C92_example :
  proper 10 pk_cyclic (PRef 1) /\ pickle_encode 10 pk_cyclic (PRef 1) = Ok pk_bytes /\ short pk_bytes /\
  (exists h' v', pickle_decode 10 pk_bytes = Ok (h', v') /\ v' = PRef 1 /\ h' 1 = Some (NTup [PRef 0]) /\ h' 0 = Some (NList [PRef 1; PRef 2; PInt (-1)])) /\
  pickle_encode 4 pk_cyclic (PRef 1) = Exc RecursionError.
Proof.
  split; [|split; [vm_compute; reflexivity|split; [vm_compute; reflexivity|split; [|vm_compute; reflexivity]]]].
  - intros x Hx. apply pk_cyclic_in in Hx. pk_all x; cbn; auto.
    exists [KtStr "k"; KtTup [KtInt 1; KtStr "k"]]. split.
    + constructor; [now constructor|]. constructor; [|constructor]. econstructor; [reflexivity|]. repeat constructor.
    + constructor; [cbn; intuition discriminate|]. repeat constructor. cbn. tauto.
  - eexists _, _. split; [vm_compute; reflexivity|]. repeat split.
Qed.

(** A list of texts, one of them twice, and a dictionary. *)
Definition pk_tree : heap := pk_heap [NList [PRef 1; PRef 1; PFloat 4611686018427387904; PRef 2]; NStr "ab"; NDict [(PNone, PRef 1)]].
Example C92_encodes_example :
  proper 3 pk_tree (PRef 0) /\ fits pk_tree (PRef 0) /\ nested pk_tree 3 (PRef 0) /\ (forall x, reaches pk_tree (PRef 0) x -> x < 3) /\
  pickle_encode 4 pk_tree (PRef 0) =
    Ok (pk_text [128; 5; 149; 27; 0; 0; 0; 0; 0; 0; 0; 93; 148; 40; 140; 2; 97; 98; 148; 104; 1; 71; 64; 0; 0; 0; 0; 0; 0; 0; 125; 148; 78; 104; 1; 115; 101; 46]%N).
Proof.
  assert (Hin : forall x, reaches pk_tree (PRef 0) x -> x < 3).
  { apply pk_closed.
    - intros y n Hy. pk_all y; cbn; intros [= <-] z; cbn; intuition (try discriminate); match goal with E : PRef _ = PRef _ |- _ => injection E as <-; lia end.
    - intros y [= <-]. lia. }
  split; [|split; [|split; [|split; [exact Hin|vm_compute; reflexivity]]]].
  - intros x Hx. apply Hin in Hx. pk_all x; cbn; auto. exists [KtNone]. split; repeat constructor. cbn. tauto.
  - split; [exact I|]. intros x n Hx E. apply Hin in Hx. pk_all x; injection E as <-; split; cbn; auto; try lia; intros w Hw; intuition (subst; cbn; auto; lia).
  - assert (Hs : forall m, nested pk_tree (S m) (PRef 1)) by (intro m; eapply ne_ref; [reflexivity|cbn; tauto]).
    eapply ne_ref; [reflexivity|]. cbn [children]. intros w Hw. cbn in Hw. destruct Hw as [<-|[<-|[<-|[<-|[]]]]]; [apply Hs|apply Hs|apply ne_atom; discriminate|].
    eapply ne_ref; [reflexivity|]. cbn. intros w Hw. destruct Hw as [<-|[<-|[]]]; [apply ne_atom; discriminate|apply Hs].
Qed.

(** The limits are not idle: without them it may not be readable.  Equal keys
    do not occur twice in a dictionary; if they did, one would be lost. *)
Example C92_proper_example :
  let h := pk_heap [NDict [(PBool true, PNone); (PInt 1, PNone)]] in
  ~ proper 9 h (PRef 0) /\ exists b h' v', pickle_encode 9 h (PRef 0) = Ok b /\ pickle_decode 9 b = Ok (h', v') /\ h' 0 = Some (NDict [(PBool true, PNone)]) /\ v' = PRef 0.
Proof.
  cbv zeta. split.
  - intro HP. specialize (HP 0 (reaches_here _ _)). cbn in HP. destruct HP as (ks & Hk & Hd).
    inversion Hk as [|? k1 ? ks1 A1 Hk1]; subst. inversion Hk1 as [|? k2 ? ks2 A2 Hk2]; subst. inversion A1; subst. inversion A2; subst.
    inversion Hd as [|? ? Hn]; subst. apply Hn. now left.
  - eexists _, _, _. split; [vm_compute; reflexivity|]. split; [vm_compute; reflexivity|]. split; reflexivity.
Qed.
