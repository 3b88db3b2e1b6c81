(** Theorems C19-C22 about func.py (and dynamic.dontcare). *)
From Verif Require Import Func_Lemmas.

(** ** C19: are_in decides containment *)

Theorem C19_all {W I C} (contains : C -> I -> eff W bool) p items c w :
  pure_test (contains c) p -> items <> [] ->
  exists b, are_in (fun b => b) contains items and_ c w = (Ok b, w) /\
            (b = true <-> forall i, In i items -> p i = true).
Proof. exact (are_in_all contains p items c w). Qed.
Print Assumptions C19_all.

Theorem C19_any {W I C} (contains : C -> I -> eff W bool) p items c w :
  pure_test (contains c) p -> items <> [] ->
  exists b, are_in (fun b => b) contains items or_ c w = (Ok b, w) /\
            (b = true <-> exists i, In i items /\ p i = true).
Proof. exact (are_in_any contains p items c w). Qed.
Print Assumptions C19_any.

(** Every item is looked up, once and in order, even after the outcome is
    known (which matters if looking up has effects, as in an iterator). *)
Theorem C19_no_short_circuit {W I C} (contains : C -> I -> eff W bool) op i items c w :
  are_in (fun b => b) contains (i :: items) (fun a b => eret (op a b)) c w =
  match emapM (contains c) (i :: items) w with
  | (Ok (b :: bs), w') => (Ok (fold_left op bs b), w')
  | (Ok [], w') => (Exc TypeError, w')
  | (Exc e, w') => (Exc e, w')
  end.
Proof. exact (are_in_checks_all contains op i items c w). Qed.
Print Assumptions C19_no_short_circuit.

(** No items: TypeError, not the neutral element. *)
Theorem C19_empty {W A I C} (of_bool : bool -> A) (contains : C -> I -> eff W bool) oper c w :
  are_in of_bool contains [] oper c w = (Exc TypeError, w).
Proof. reflexivity. Qed.
Print Assumptions C19_empty.

(** [x in it] for an iterator [it], which is the world here. *)
Definition ex_in_iterator (_ : unit) (x : nat) : eff (list nat) bool := fun w =>
  (fix go l := match l with
               | [] => (Ok false, [])
               | y :: r => if Nat.eqb x y then (Ok true, r) else go r
               end) w.
Example C19_ex :
  are_in (fun b => b) (fun c x => eret (existsb (Nat.eqb x) c)) [1; 2] and_ [3; 2; 1] tt = (Ok true, tt) /\
  are_in (fun b => b) (fun c x => eret (existsb (Nat.eqb x) c)) [1; 5] and_ [3; 2; 1] tt = (Ok false, tt) /\
  are_in (fun b => b) (fun c x => eret (existsb (Nat.eqb x) c)) [5; 1] or_ [3; 2; 1] tt = (Ok true, tt) /\
  are_in (fun b => b) ex_in_iterator [2; 1] and_ tt [1; 2; 3] = (Ok false, []).
Proof. repeat split. Qed.

(** ** C20: intersection and disjoint *)

Theorem C20_intersection {E} (eqb : E -> E -> bool) hashable its :
  eq_test eqb hashable -> its <> [] -> all_hashable hashable its ->
  exists s its', intersection eqb hashable its = Ok (s, its') /\
    its' = map (fun i => snd (drain i)) its /\ (forall x, In x s -> hashable x = true) /\
    forall x, hashable x = true ->
      (occurs eqb x s <-> forall i, In i its -> occurs eqb x (elements i)).
Proof. intro HE. exact (intersection_ok eqb hashable HE its). Qed.
Print Assumptions C20_intersection.

Theorem C20_intersection_raises {E} (eqb : E -> E -> bool) hashable its :
  eq_test eqb hashable ->
  (its = [] \/ ~ all_hashable hashable its) <-> intersection eqb hashable its = Exc TypeError.
Proof. intro HE. exact (intersection_raises eqb hashable HE its). Qed.
Print Assumptions C20_intersection_raises.

Theorem C20_disjoint {E} (eqb : E -> E -> bool) hashable its :
  eq_test eqb hashable -> its <> [] -> all_hashable hashable its -> (forall i, In i its -> again i) ->
  exists keep, disjoint eqb hashable its = Ok (map (fun i => filter keep (elements i)) its) /\
    forall x, hashable x = true ->
      (keep x = true <-> ~ forall i, In i its -> occurs eqb x (elements i)).
Proof. intro HE. exact (disjoint_ok eqb hashable HE its). Qed.
Print Assumptions C20_disjoint.

Theorem C20_two {E} (eqb : E -> E -> bool) hashable a b :
  eq_test eqb hashable -> (forall x, In x a -> hashable x = true) -> (forall x, In x b -> hashable x = true) ->
  exists a' b', disjoint eqb hashable [Again a; Again b] = Ok [a'; b'] /\
    (forall x, In x a' <-> In x a /\ ~ occurs eqb x b) /\
    (forall x, In x b' <-> In x b /\ ~ occurs eqb x a) /\
    forall x y, In x a' -> In y b' -> eqb x y = false.
Proof. intro HE. exact (disjoint_two eqb hashable HE a b). Qed.
Print Assumptions C20_two.

(** Three arguments: the outputs can share elements. *)
Theorem C20_three_share :
  eq_test Nat.eqb (fun _ => true) /\
  disjoint Nat.eqb (fun _ => true) [Again [1; 2]; Again [1; 2]; Again [1]] = Ok [[2]; [2]; []].
Proof.
  split; [|reflexivity].
  constructor; intros; rewrite ?PeanoNat.Nat.eqb_eq in *; congruence.
Qed.
Print Assumptions C20_three_share.

(** An argument that is an iterator comes out empty, whatever it held. *)
Theorem C20_iterators_come_out_empty {E} (eqb : E -> E -> bool) hashable its j l out :
  disjoint eqb hashable its = Ok out -> nth_error its j = Some (Once l) -> nth_error out j = Some [].
Proof. exact (disjoint_iterator eqb hashable its j l out). Qed.
Print Assumptions C20_iterators_come_out_empty.

Example C20_ex :
  intersection Nat.eqb (fun _ => true) [Again [1; 2; 2; 3]; Once [3; 2; 5]; Again [2; 3; 4]]
    = Ok ([2; 3], [Again [1; 2; 2; 3]; Once []; Again [2; 3; 4]]) /\
  disjoint Nat.eqb (fun x => negb (Nat.eqb x 9)) [Again [1; 2; 1]; Once [2; 5]] = Ok [[1; 1]; []] /\
  disjoint Nat.eqb (fun x => negb (Nat.eqb x 9)) [Again [1; 9]] = Exc TypeError.
Proof. repeat split. Qed.

(** ** C21: optionalize never lets an ordinary exception escape *)

Theorem C21_success {W V K} (none : V) (f : fn W V K) cb args kw w v w' :
  f args kw w = (Ok v, w') -> optionalize none f cb args kw w = (Ok v, w').
Proof. exact (optionalize_success none f cb args kw w v w'). Qed.
Print Assumptions C21_success.

Theorem C21_failure {W V K} (none : V) (f : fn W V K) cb args kw w e w' u w'' :
  f args kw w = (Exc e, w') -> is_Exception e = true -> cb e w' = (Ok u, w'') ->
  optionalize none f cb args kw w = (Ok none, w'').
Proof. exact (optionalize_failure none f cb args kw w e w' u w''). Qed.
Print Assumptions C21_failure.

Theorem C21_bad_callback {W V K} (none : V) (f : fn W V K) cb args kw w e w' e' w'' :
  f args kw w = (Exc e, w') -> is_Exception e = true -> cb e w' = (Exc e', w'') ->
  optionalize none f cb args kw w = (Exc e', w'').
Proof. exact (optionalize_bad_callback none f cb args kw w e w' e' w''). Qed.
Print Assumptions C21_bad_callback.

Theorem C21_interrupt {W V K} (none : V) (f : fn W V K) cb args kw w e w' :
  f args kw w = (Exc e, w') -> is_Exception e = false ->
  optionalize none f cb args kw w = (Exc e, w').
Proof. exact (optionalize_interrupt none f cb args kw w e w'). Qed.
Print Assumptions C21_interrupt.

(** dynamic.dontcare: one record per Exception, none otherwise. *)
Theorem C21_dontcare {W V K R} (none : V) (f : fn W V K) (report : exn -> R) (records : W -> list R)
    (append : R -> eff W unit) args kw w r w' :
  (forall x w, exists w'', append x w = (Ok tt, w'') /\ records w'' = records w ++ [x]) ->
  dontcare none f (fun e => eret (report e)) append args kw w = (r, w') ->
  match f args kw w with
  | (Ok v, w1) => r = Ok v /\ w' = w1
  | (Exc e, w1) =>
      if is_Exception e then r = Ok none /\ records w' = records w1 ++ [report e]
      else r = Exc e /\ w' = w1
  end.
Proof. exact (dontcare_records none f report records append args kw w r w'). Qed.
Print Assumptions C21_dontcare.

(** A function that fails on 0 and is interrupted on 1; the world records
    calls of the callback. *)
Definition ex_f : fn (list exn) nat unit := fun args _ =>
  match args with [0] => eraise ValueError | [1] => eraise KeyboardInterrupt | _ => eret 7 end.
Definition ex_cb (e : exn) : eff (list exn) nat := fun w => (Ok 0, w ++ [e]).
Example C21_ex :
  optionalize 100 ex_f ex_cb [0] tt [] = (Ok 100, [ValueError]) /\
  optionalize 100 ex_f ex_cb [1] tt [] = (Exc KeyboardInterrupt, []) /\
  optionalize 100 ex_f ex_cb [2] tt [] = (Ok 7, []) /\
  dontcare 100 ex_f (fun e => eret (e, "call"%string)) (fun r w => (Ok tt, w ++ [fst r])) [0] tt [TypeError]
    = (Ok 100, [TypeError; ValueError]).
Proof. repeat split. Qed.

(** ** C22: argument adapters *)

Theorem C22_splat {W V K} as_seq no_kw (f : fn W V K) args :
  match as_seq args with
  | Some l => forall w, splat as_seq no_kw f args w = f l no_kw w
  | None => forall w, splat as_seq no_kw f args w = (Exc TypeError, w)
  end.
Proof. unfold splat. destruct (as_seq args); reflexivity. Qed.
Print Assumptions C22_splat.

Theorem C22_argstop_unpacking {W V K} as_slice (f : fn W V K) n a l kw w :
  as_slice a = Some l -> (0 <= n)%Z ->
  exists passed rest, l = passed ++ rest /\ List.length passed = Nat.min (Z.to_nat n) (List.length l) /\
    argstop as_slice f n true [a] kw w = f passed kw w.
Proof. exact (argstop_unpacks as_slice f n a l kw w). Qed.
Print Assumptions C22_argstop_unpacking.

Theorem C22_argstop_plain {W V K} as_slice (f : fn W V K) n unpack args kw w :
  (unpack = false \/ List.length args <> 1) -> (0 <= n)%Z ->
  exists passed rest, args = passed ++ rest /\ List.length passed = Nat.min (Z.to_nat n) (List.length args) /\
    argstop as_slice f n unpack args kw w = f passed kw w.
Proof. exact (argstop_several as_slice f n unpack args kw w). Qed.
Print Assumptions C22_argstop_plain.

Theorem C22_argstop_negative {W V K} as_slice (f : fn W V K) n args kw w :
  (n < 0)%Z ->
  exists passed rest, args = passed ++ rest /\ List.length rest = Nat.min (Z.to_nat (- n)) (List.length args) /\
    argstop as_slice f n false args kw w = f passed kw w.
Proof. exact (argstop_negative as_slice f n args kw w). Qed.
Print Assumptions C22_argstop_negative.

(** A single argument that is no sequence cannot be unpacked. *)
Theorem C22_argstop_not_a_sequence {W V K} as_slice (f : fn W V K) n a kw w :
  as_slice a = None -> argstop as_slice f n true [a] kw w = (Exc TypeError, w).
Proof. intro H. unfold argstop. rewrite H. reflexivity. Qed.
Print Assumptions C22_argstop_not_a_sequence.

(** gmap calls the function on rows, in order, as many as the shortest
    iterable has; iterators before the first shortest one lose one element
    more. *)
Theorem C22_gmap {W A B} (d : A) (func : list A -> eff W B) l its w ys rest w' :
  gmap func (l :: its) w = (Ok (ys, rest), w') ->
  List.length ys = shortest l its /\
  emapM func (map (row d (l :: its)) (seq 0 (shortest l its))) w = (Ok ys, w') /\
  rest = left_over (shortest l its) (l :: its).
Proof. exact (gmap_rows d func l its w ys rest w'). Qed.
Print Assumptions C22_gmap.

Theorem C22_gmap_shortest {A} (l : list A) its :
  (forall m, In m (l :: its) -> shortest l its <= List.length m) /\
  exists m, In m (l :: its) /\ List.length m = shortest l its.
Proof. exact (shortest_is_min l its). Qed.
Print Assumptions C22_gmap_shortest.

Theorem C22_gmap_raises {W A B} (d : A) (func : list A -> eff W B) l its w e w' :
  gmap func (l :: its) w = (Exc e, w') <->
  emapM func (map (row d (l :: its)) (seq 0 (shortest l its))) w = (Exc e, w').
Proof.
  rewrite (gmap_spec d). destruct (emapM func _ w) as [[ys|e'] w1]; split; congruence.
Qed.
Print Assumptions C22_gmap_raises.

Theorem C22_filtern_first {W A} (f : A -> eff W bool) p l1 x l2 w :
  pure_test f p -> (forall y, In y l1 -> p y = false) -> p x = true ->
  filtern f (l1 ++ x :: l2) w = (Ok (x, l2), w).
Proof. exact (filtern_first f p l1 x l2 w). Qed.
Print Assumptions C22_filtern_first.

Theorem C22_filtern_none {W A} (f : A -> eff W bool) p l w :
  pure_test f p -> (forall y, In y l -> p y = false) -> filtern f l w = (Exc StopIteration, w).
Proof. exact (filtern_none f p l w). Qed.
Print Assumptions C22_filtern_none.

Theorem C22_filtern_calls {W A} (f : A -> eff W bool) l w x rest w' :
  filtern f l w = (Ok (x, rest), w') ->
  exists before, l = before ++ x :: rest /\
    emapM f (before ++ [x]) w = (Ok (map (fun _ => false) before ++ [true]), w').
Proof. exact (filtern_calls f l w x rest w'). Qed.
Print Assumptions C22_filtern_calls.

(** triggerize: the world afterwards is that of exactly one call. *)
Theorem C22_triggerize {W V} (f : eff W V) x w r w' :
  f w = (r, w') ->
  triggerize f x w = (match r with Ok _ => Ok x | Exc e => Exc e end, w').
Proof. intro H. unfold triggerize, ebind. rewrite H. destruct r; reflexivity. Qed.
Print Assumptions C22_triggerize.

Theorem C22_naturals n : naturals_take n naturals = map Z.of_nat (seq 1 n).
Proof. exact (naturals_ok n). Qed.
Print Assumptions C22_naturals.

Theorem C22_catch_interaction {W V K} (truth : bool) (f : fn W V K) args default kw w :
  (truth = true -> catch_interaction (eret truth) f args default kw w = (Ok default, w)) /\
  (truth = false -> catch_interaction (eret truth) f args default kw w = f args kw w).
Proof. split; intros ->; reflexivity. Qed.
Print Assumptions C22_catch_interaction.

(** constant: whatever it is called with, the value, and nothing happens. *)
Theorem C22_constant {W V K} (v : V) args args' (kw kw' : K) (w : W) :
  @constant W V K v args kw w = (Ok v, w) /\ @constant W V K v args' kw' w = @constant W V K v args kw w.
Proof. split; reflexivity. Qed.
Print Assumptions C22_constant.
(** is_it: with an isinstance that tries each of the types, true exactly for
    what is of one of them. *)
Theorem C22_is_it {T C} (is_a : T -> C -> bool) types x :
  is_it (fun y ts => existsb (is_a y) ts) types x = true <-> exists t, In t types /\ is_a x t = true.
Proof. apply existsb_exists. Qed.
Print Assumptions C22_is_it.
Example C22_is_it_ex : is_it (fun y ts => existsb (Nat.eqb y) ts) [3; 5] 3 = true /\ is_it (fun y ts => existsb (Nat.eqb y) ts) [3; 5] 4 = false.
Proof. split; reflexivity. Qed.

(** Functions that record their arguments. *)
Definition ex_rec : fn (list (list nat)) nat unit := fun args _ w => (Ok (List.length args), w ++ [args]).
Example C22_ex :
  splat (fun n => if Nat.eqb n 0 then None else Some [n; n]) tt ex_rec 3 [] = (Ok 2, [[3; 3]]) /\
  argstop (fun n => Some [n; S n; S (S n)]) ex_rec 2 true [5] tt [] = (Ok 2, [[5; 6]]) /\
  argstop (fun n => None) ex_rec 2 true [5; 6; 7] tt [] = (Ok 2, [[5; 6]]) /\
  argstop (fun n => None) ex_rec 4 false [5] tt [] = (Ok 1, [[5]]) /\
  argstop (fun n => None) ex_rec (-1) false [5; 6; 7] tt [] = (Ok 2, [[5; 6]]) /\
  gmap (fun a => ex_rec a tt) [[1; 2; 3]; [4; 5]; [6; 7; 8]] [] = (Ok ([3; 3], [[]; []; [8]]), [[1; 4; 6]; [2; 5; 7]]) /\
  filtern (fun x w => (Ok (Nat.ltb 2 x), w ++ [x])) [1; 4; 2; 5] [] = (Ok (4, [2; 5]), [1; 4]) /\
  naturals_take 4 naturals = [1; 2; 3; 4]%Z.
Proof. repeat split. Qed.
