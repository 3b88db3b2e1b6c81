(** The theorems about func.py in the form in which they are stated. *)
From Verif Require Export Func_Proofs.
From Verif Require Import Py_Facts.
From Coq Require Import Lia.

Lemma argstop_unpacks {W V K} as_slice (f : fn W V K) n a l kw w :
  as_slice a = Some l -> (0 <= n)%Z ->
  exists passed rest, l = passed ++ rest /\ List.length passed = Nat.min (Z.to_nat n) (List.length l) /\
    argstop as_slice f n true [a] kw w = f passed kw w.
Proof.
  intros Ha Hn. exists (firstn (Z.to_nat n) l), (skipn (Z.to_nat n) l).
  split; [symmetry; apply firstn_skipn|]. split; [apply firstn_length|].
  unfold argstop. rewrite Ha. unfold slice_to. destruct (Z.ltb_spec n 0); [lia|reflexivity].
Qed.

Lemma argstop_several {W V K} as_slice (f : fn W V K) n unpack args kw w :
  (unpack = false \/ List.length args <> 1) -> (0 <= n)%Z ->
  exists passed rest, args = passed ++ rest /\ List.length passed = Nat.min (Z.to_nat n) (List.length args) /\
    argstop as_slice f n unpack args kw w = f passed kw w.
Proof.
  intros Ha Hn. exists (firstn (Z.to_nat n) args), (skipn (Z.to_nat n) args).
  split; [symmetry; apply firstn_skipn|]. split; [apply firstn_length|].
  assert (E : argstop as_slice f n unpack args = f (slice_to n args)).
  { unfold argstop. destruct args as [|a [|b r]]; [reflexivity| |reflexivity].
    destruct unpack; [|reflexivity]. destruct Ha as [Ha|Ha]; [discriminate|]. cbn in Ha. lia. }
  rewrite E. unfold slice_to. destruct (Z.ltb_spec n 0); [lia|reflexivity].
Qed.

(** A negative count drops that many arguments from the end. *)
Lemma argstop_negative {W V K} as_slice (f : fn W V K) n args kw w :
  (n < 0)%Z ->
  exists passed rest, args = passed ++ rest /\ List.length rest = Nat.min (Z.to_nat (- n)) (List.length args) /\
    argstop as_slice f n false args kw w = f passed kw w.
Proof.
  intros Hn. set (k := List.length args - Z.to_nat (- n)).
  exists (firstn k args), (skipn k args).
  split; [symmetry; apply firstn_skipn|]. split; [rewrite skipn_length; unfold k; lia|].
  assert (E : argstop as_slice f n false args = f (slice_to n args)).
  { unfold argstop. destruct args as [|a [|b r]]; reflexivity. }
  rewrite E. unfold slice_to. destruct (Z.ltb_spec n 0); [reflexivity|lia].
Qed.

Lemma gmap_rows {W A B} (d : A) (func : list A -> eff W B) l its w ys rest w' :
  gmap func (l :: its) w = (Ok (ys, rest), w') ->
  List.length ys = shortest l its /\
  emapM func (map (row d (l :: its)) (seq 0 (shortest l its))) w = (Ok ys, w') /\
  rest = left_over (shortest l its) (l :: its).
Proof.
  rewrite (gmap_spec d). destruct (emapM func _ w) as [[zs|e] w1] eqn:E; [|discriminate].
  intro H. injection H as <- <- <-. split; [|split; [reflexivity|reflexivity]].
  assert (G : forall (xs : list (list A)) w zs w1, emapM func xs w = (Ok zs, w1) -> List.length zs = List.length xs).
  { clear. induction xs as [|x r IH]; intros w zs w1 H.
    - injection H as <- _. reflexivity.
    - cbn [emapM] in H. rewrite !ebind_run in H. destruct (func x w) as [[y|e] w2]; [|discriminate].
      rewrite ebind_run in H. destruct (emapM func r w2) as [[zs'|e] w3] eqn:E; [|discriminate].
      injection H as <- _. cbn. f_equal. eapply IH, E. }
  rewrite (G _ _ _ _ E), map_length. apply seq_length.
Qed.

Lemma shortest_is_min {A} (l : list A) its :
  (forall m, In m (l :: its) -> shortest l its <= List.length m) /\
  exists m, In m (l :: its) /\ List.length m = shortest l its.
Proof.
  split; [|apply shortest_reached].
  destruct (shortest_le l its) as [H1 H2]. intros m [<-|Hm]; [exact H1|apply H2, Hm].
Qed.

Lemma optionalize_success {W V K} (none : V) (f : fn W V K) cb args kw w v w' :
  f args kw w = (Ok v, w') -> optionalize none f cb args kw w = (Ok v, w').
Proof. intro H. rewrite optionalize_spec, H. reflexivity. Qed.
Lemma optionalize_failure {W V K} (none : V) (f : fn W V K) cb args kw w e w' u w'' :
  f args kw w = (Exc e, w') -> is_Exception e = true -> cb e w' = (Ok u, w'') ->
  optionalize none f cb args kw w = (Ok none, w'').
Proof. intros H H1 H2. rewrite optionalize_spec, H, H1, H2. reflexivity. Qed.
Lemma optionalize_bad_callback {W V K} (none : V) (f : fn W V K) cb args kw w e w' e' w'' :
  f args kw w = (Exc e, w') -> is_Exception e = true -> cb e w' = (Exc e', w'') ->
  optionalize none f cb args kw w = (Exc e', w'').
Proof. intros H H1 H2. rewrite optionalize_spec, H, H1, H2. reflexivity. Qed.
Lemma optionalize_interrupt {W V K} (none : V) (f : fn W V K) cb args kw w e w' :
  f args kw w = (Exc e, w') -> is_Exception e = false ->
  optionalize none f cb args kw w = (Exc e, w').
Proof. intros H H1. rewrite optionalize_spec, H, H1. reflexivity. Qed.

(** dontcare: the list of records grows by exactly one record, that of the
    exception, when the call raises an Exception, and not at all otherwise. *)
Lemma dontcare_records {W V K R} (none : V) (f : fn W V K) (report : exn -> R) (records : W -> list R)
    (append : R -> eff W unit) args kw w r w' :
  (forall x w, exists w'', append x w = (Ok tt, w'') /\ records w'' = records w ++ [x]) ->
  dontcare none f (fun e => eret (report e)) append args kw w = (r, w') ->
  match f args kw w with
  | (Ok v, w1) => r = Ok v /\ w' = w1
  | (Exc e, w1) =>
      if is_Exception e then r = Ok none /\ records w' = records w1 ++ [report e]
      else r = Exc e /\ w' = w1
  end.
Proof.
  intros Ha. unfold dontcare. rewrite optionalize_spec.
  destruct (f args kw w) as [[v|e] w1]; [intro H; injection H as <- <-; auto|].
  destruct (is_Exception e); [|intro H; injection H as <- <-; auto].
  unfold ebind, eret. destruct (Ha (report e) w1) as [w2 [E1 E2]]. rewrite E1.
  intro H. injection H as <- <-. auto.
Qed.
