(** Values in a Notepad or Sticky with the default codec (C93). *)
From Verif Require Import Sticky_Proofs Kept_Proofs.
From Coq Require Import Lia.

(** However the objects of a process share their parts, what was encoded looks
    the same when decoded. *)
Theorem C93_decoded limit lay t b : storable limit lay t -> keep limit lay t = Ok b -> take limit b = Ok t.
Proof. intros H E. destruct (keep_stable limit lay t b H E) as (b' & E' & _ & D). rewrite E in E'. now injection E' as ->. Qed.
Print Assumptions C93_decoded.

(** A Notepad with the default codec is a dictionary of such values: whatever
    was done with it, what it answers next is what a dict would. *)
Theorem C93_notepad hash K P limit lay s nl h v :
  collision_free hash K -> wf s -> vacant (pad_names hash P) s -> Forall (everyday limit lay K) (h ++ [v]) ->
  (2 * Z.of_nat (List.length h) + 8 < 256 ^ 5)%Z ->
  exists r s1 x s2, run (notepad P true nl >>> pvisits_prog hash (keep limit lay) (take limit) is_none P h) s = (Some (Ok r), s1) /\
    run (pvisit_prog hash (keep limit lay) (take limit) is_none P v) s1 = (Some (Ok x), s2) /\
    dict_answers (fun k => dict_after k None (map pv_op h)) (pv_op v) x.
Proof. exact (notepad_keeps hash K P limit lay s nl h v). Qed.
Print Assumptions C93_notepad.

(** A Sticky with values whose encodings have one length: all can be stuck, and
    rereading gives the last one. *)
Theorem C93_sticky limit lay a s (T : ptree -> Prop) h o : uniform T ->
  wf s -> names s a = None -> Forall (everyday_sop limit lay) (h ++ [o]) -> (forall i t, In (SStick i t) (h ++ [o]) -> T t) ->
  exists outs x s', run (sops_prog (keep limit lay) (take limit) is_none (fun _ => mkSticky a None) (h ++ [o])) s = (Some (Ok (outs ++ [x])), s') /\
    (forall i v, o = SStick i v -> x = YDone (Ok tt)) /\
    (forall i, o = SRead i true -> x = YRead (last_stuck None h)).
Proof. exact (sticky_keeps limit lay a s T h o). Qed.
Print Assumptions C93_sticky.
(** Floats are such values, booleans are, and integers of one size. *)
Theorem C93_uniform : uniform a_float /\ uniform a_bool /\
  forall lo hi, (0 <= lo /\ hi <= 256 \/ 256 <= lo /\ hi <= 65536 \/ -2147483648 <= lo /\ hi <= 0 \/ 65536 <= lo /\ hi <= 2147483648)%Z -> uniform (an_int_in lo hi).
Proof. split; [exact floats_uniform|]. split; [exact bools_uniform|exact ints_uniform]. Qed.
Print Assumptions C93_uniform.
(** But a Sticky that has 255 refuses 256. *)
Theorem C93_counter_refuted : exists limit lay s,
  wf s /\ names s "x" = None /\ Forall (everyday_sop limit lay) [SStick 0 (TrAtom (PInt 255)); SStick 1 (TrAtom (PInt 256))] /\
  fst (run (sops_prog (keep limit lay) (take limit) is_none (fun _ => mkSticky "x" None)
         [SStick 0 (TrAtom (PInt 255)); SStick 1 (TrAtom (PInt 256)); SRead 2 true]) s) =
  Some (Ok [YDone (Ok tt); YDone (Exc ValueError); YRead (Some (TrAtom (PInt 255)))]).
Proof.
  exists 1, unshared, empty_store. split; [exact wf_empty|]. split; [reflexivity|]. split; [|vm_compute; reflexivity].
  assert (G : forall z, (0 <= z < 65536)%Z -> storable 1 unshared (TrAtom (PInt z)) /\ modest 1 unshared (TrAtom (PInt z))).
  { intros z Hz. assert (V : value (TrAtom (PInt z))) by (constructor; discriminate).
    assert (L : looks_right 1 unshared (TrAtom (PInt z))) by (apply unshared_right; [exact V|cbn; lia]). split.
    - split; [exact V|]. split; [exact L|]. intros b E. destruct (ints_len _ _ _ _ L E) as (A & B & _).
      assert (Hl : String.length b <= 15) by (destruct (Z.lt_ge_cases z 256); [rewrite A|rewrite B]; lia). unfold short. lia.
    - apply unshared_modest; [exact V| |cbn; lia|cbn; lia]. constructor. unfold fits_pv.
      assert (Hl : (Z.log2 (Z.abs z) <= Z.log2 65536)%Z) by (apply Z.log2_le_mono; lia). change (Z.log2 65536) with 16%Z in Hl. lia. }
  constructor; [|constructor; [|constructor]]; intros i t [= <- <-]; (split; [apply G; lia|]; split; [apply G; lia|reflexivity]).
Qed.
Print Assumptions C93_counter_refuted.

(** Objects can be laid out for every value: one for each part. *)
Theorem C93_unshared limit t : value t -> depth t <= limit ->
  looks_right limit unshared t /\ (small t -> depth t < limit -> (Z.of_nat (objects t) <= 2 ^ 32)%Z -> modest limit unshared t).
Proof. intros V D. split; [now apply unshared_right|]. intros S L O. now apply unshared_modest. Qed.
Print Assumptions C93_unshared.

(** ** Examples *)

(** [[(1, "a"), (1, "a")], {None: b"z"}], with one tuple that is there twice. *)
Definition kx_tup : ptree := TrTup [TrAtom (PInt 1); TrStr "a"].
Definition kx_val : ptree := TrList [TrList [kx_tup; kx_tup]; TrDict [(TrAtom PNone, TrBytes "z")]].
Definition kx_one : ptree := TrAtom (PFloat 0).
Definition kx_lay (t : ptree) : heap * pv :=
  match t with
  | TrList _ => (fun x => nth_error [NList [PRef 1; PRef 2]; NList [PRef 3; PRef 3]; NDict [(PNone, PRef 4)]; NTup [PInt 1; PRef 5]; NBytes "z"; NStr "a"] x, PRef 0)
  | TrAtom v => (fun _ => None, v)
  | _ => (fun _ => None, PNone)
  end.
Lemma kx_value : value kx_val.
Proof.
  assert (V : value kx_tup) by (constructor; [discriminate|]; repeat constructor; discriminate).
  constructor. constructor; [constructor; auto|]. constructor; [|constructor]. apply va_dict with (ks := [KtNone]); repeat constructor; try discriminate. cbn. tauto.
Qed.
Lemma kx_fine t : t = kx_val \/ t = kx_one -> storable 10 kx_lay t /\ modest 10 kx_lay t /\ is_none t = false.
Proof.
  intros [-> | ->].
  - split; [|split; [|reflexivity]].
    + split; [exact kx_value|]. split; [vm_compute; reflexivity|]. intros b E. vm_compute in E. injection E as <-. vm_compute. reflexivity.
    + split; [repeat constructor; cbn; lia|]. split; [cbn; lia|]. exists 6. split; [|vm_compute; discriminate].
      intros x Hx. assert (HP : proper 10 (fst (kx_lay kx_val)) (snd (kx_lay kx_val))) by (apply shown_proper; replace (shown _ _ _) with kx_val by (vm_compute; reflexivity); exact kx_value).
      specialize (HP x Hx). destruct (Nat.lt_ge_cases x 6) as [L|L]; [exact L|]. exfalso. cbn [kx_lay kx_val fst] in HP.
      rewrite (proj2 (nth_error_None _ x)) in HP; [exact HP|cbn; lia].
  - split; [|split; [|reflexivity]].
    + split; [constructor; discriminate|]. split; [vm_compute; reflexivity|]. intros b E. vm_compute in E. injection E as <-. vm_compute. reflexivity.
    + split; [constructor; cbn; lia|]. split; [cbn; lia|]. exists 0. split; [|vm_compute; discriminate]. intros x Hx. inversion Hx.
Qed.
Definition kx_history : list (pvisit ptree) :=
  [mkPVisit false 3 (PSet (skey "a") kx_val true); mkPVisit true 1 (PSet (skey "b") kx_one false); mkPVisit true 1 (PGet (skey "a"))].
Example C93_notepad_ex :
  Forall (everyday 10 kx_lay (fun _ => True)) (kx_history ++ [mkPVisit true 1 PItems]) /\
  fst (run (notepad "n" true true >>> pvisits_prog (fun b => b) (keep 10 kx_lay) (take 10) is_none "n" (kx_history ++ [mkPVisit true 1 PItems])) empty_store) =
    Some (Ok [WDone (Ok tt); WDone (Ok tt); WGot (Ok kx_val); WItems (Ok [("a", kx_val); ("b", kx_one)])]).
Proof.
  split; [|vm_compute; reflexivity].
  assert (HK : forall k, In k ["a"; "b"] -> pad_key (fun _ => True) (skey k)).
  { intros k [<-|[<-|[]]]; repeat split; discriminate. }
  unfold kx_history. cbn [app]. apply Forall_forall. intros v Hv. cbn [In] in Hv.
  destruct Hv as [<-|[<-|[<-|[<-|[]]]]]; (split; [discriminate|]; split; [intros k E|intros k t ok E]); try discriminate E.
  - injection E as <-. apply HK. now left.
  - injection E as <- <- <-. apply kx_fine. now left.
  - injection E as <-. apply HK. right. now left.
  - injection E as <- <- <-. apply kx_fine. now right.
  - injection E as <-. apply HK. now left.
Qed.
Example C93_sticky_ex :
  Forall (everyday_sop 10 kx_lay) [SStick 0 kx_one] /\ (forall i t, In (SStick i t) [SStick 0 kx_one] -> a_float t) /\
  fst (run (sops_prog (keep 10 kx_lay) (take 10) is_none (fun _ => mkSticky "x" None) [SStick 0 kx_one; SRead 1 true]) empty_store) = Some (Ok [YDone (Ok tt); YRead (Some kx_one)]).
Proof.
  split; [|split; [|vm_compute; reflexivity]].
  - constructor; [|constructor]. intros i t [= <- <-]. apply kx_fine. now right.
  - intros i t [[= <- <-]|[]]. now exists 0%Z.
Qed.
