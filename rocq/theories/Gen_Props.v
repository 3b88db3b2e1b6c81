(** C99: random values. *)
From Coq Require Import Lia.
From Verif Require Import Gen_Proofs.
Open Scope Z_scope.

(** ** C99: what randval gives *)

(** For a type it knows, whatever the generator gives: a value of that type, one
    to ten letters, an integer or a number of hundredths up to 100000 in size, or
    one to ten of those. *)
Theorem C99_returns : forall R (word : R -> Z * R) below t r, generator word below ->
  exists v r', randval word below (Basic t) r = (Ok v, r') /\ value_of_type t v.
Proof. exact @known_returns. Qed.
Print Assumptions C99_returns.

(** Exactly these can come. *)
Theorem C99_values : forall t v, value_of_type t v <->
  exists (R : Type) (word : R -> Z * R) (below : Z -> R -> Z * R) r r', generator word below /\ randval word below (Basic t) r = (Ok v, r').
Proof. exact values_exactly. Qed.
Print Assumptions C99_values.

(** Other types are called; what cannot be is a TypeError. *)
Theorem C99_others : forall R (word : R -> Z * R) below r,
  (forall f, randval word below (Calls f) r = f r) /\ randval word below NotCallable r = (Exc TypeError, r).
Proof. exact @other_types. Qed.
Print Assumptions C99_others.

(** To the nearest, a tie to the even one. *)
Theorem C99_rounding : forall m d, 0 <= m -> 1 <= d ->
  2 * Z.abs (half_even m d * 2 ^ d - m) <= 2 ^ d /\ (2 * Z.abs (half_even m d * 2 ^ d - m) = 2 ^ d -> Z.even (half_even m d) = true).
Proof. exact rounding. Qed.
Print Assumptions C99_rounding.
(** 390.625 and 1171.875. *)
Example C99_ex_ties : hundredths (2 ^ 52 + 2 ^ 44) = 39062 /\ hundredths (2 ^ 52 + 3 * 2 ^ 44) = 117188.
Proof. vm_compute. split; reflexivity. Qed.

(** The two roundings together: a float is within 0.005 and a billionth of a
    hundredth of the number drawn. *)
Theorem C99_float : forall k, 0 <= k < 2 ^ 53 ->
  -10000000 <= hundredths k <= 10000000 /\ 2 * Z.abs (hundredths k * 2 ^ 53 - 20000000 * (k - 2 ^ 52)) <= 2 ^ 53 + 2 ^ 24.
Proof. exact float_accuracy. Qed.
Print Assumptions C99_float.
Theorem C99_float_all : forall d, -10000000 <= d <= 10000000 -> exists k, 0 <= k < 2 ^ 53 /\ hundredths k = d.
Proof. exact hundredths_all. Qed.
Print Assumptions C99_float_all.
(** Multiplying by 52 and rounding never gives a 53rd letter. *)
Theorem C99_letter : forall k, 0 <= k < 2 ^ 53 -> 0 <= letter_index k < 52.
Proof. exact letter_index_range. Qed.
Print Assumptions C99_letter.

Example C99_ex_generator : generator tape_word tape_below.
Proof. exact tape_generator. Qed.
(** The text "aZ", the integer -7, the floats -100000.0, 100000.0, 0.0 and -0.0. *)
Example C99_ex_str : randval tape_word tape_below (Basic TStr) [1; 0; 0; 4294967295; 4294967295] = (Ok (VAtom (KStr "aZ")), []).
Proof. vm_compute. reflexivity. Qed.
Example C99_ex_int : randval tape_word tape_below (Basic TInt) [99993] = (Ok (VAtom (KInt (-7))), []).
Proof. reflexivity. Qed.
Example C99_ex_tuple : randval tape_word tape_below (Basic TTuple) [3; 0; 0; 4294967295; 4294967295; 2147483648; 0; 2147483616; 4294967295] =
  (Ok (VTup [VAtom (KOther "float" (fold_sign (-10000000))); VAtom (KOther "float" (fold_sign 10000000)); VAtom (KOther "float" 0); VAtom (KOther "-0.0" 0)]), []).
Proof. vm_compute. reflexivity. Qed.
Example C99_ex_word : value_of_type TStr (VAtom (KStr "aZ")) /\ ~ value_of_type TStr (VAtom (KStr "")) /\ ~ value_of_type TStr (VAtom (KStr "a1")) /\
  ~ value_of_type TInt (VAtom (KInt 100001)).
Proof.
  split; [exists "aZ"%string; split; [reflexivity|]; split; [cbn; lia|]; intros [|[|i]] c H; cbn in H; try discriminate H; injection H as <-; unfold letter; vm_compute; lia|].
  split; [intros (s & E & (H & _)); injection E as <-; cbn in H; lia|].
  split; [intros (s & E & (_ & H)); injection E as <-; specialize (H 1%nat "1"%char eq_refl); unfold letter in H; vm_compute in H; lia|].
  intros (z & E & H). injection E as <-. lia.
Qed.
(** The ends, the middle and one between. *)
Example C99_ex_hundredths : hundredths 0 = -10000000 /\ hundredths 9007199254740991 = 10000000 /\ hundredths 4503599627370495 = 0 /\
  hundredths (4503599627370496 + 225179981368525) = 500000.
Proof. vm_compute. repeat split. Qed.

(** ** Keys *)
(** As keys, two values are the same just when they are equal as text, numbers or
    tuples of numbers. *)
Theorem C99_keys : forall t u v w, value_of_type t v -> value_of_type u w ->
  exists k k', hash_val v = Ok k /\ hash_val w = Ok k' /\ (keqb k k' = true <-> equal_values v w).
Proof. exact same_keys. Qed.
Print Assumptions C99_keys.
(** Different types can give the same key: 5 and 5.0. *)
Theorem C99_apart_refuted : exists v w, value_of_type TInt v /\ value_of_type TFloat w /\ hash_val v = hash_val w.
Proof.
  exists (VAtom (KInt 5)), (VAtom (KOther "float" (fold_sign 500))). split; [exists 5; split; [reflexivity|lia]|]. split; [|reflexivity].
  exists 500. split; [lia|now left].
Qed.
Print Assumptions C99_apart_refuted.

(** ** Random nested dictionaries of the types known *)
Open Scope nat_scope.
Definition known_randval {R} word below (t : basic) : eff R val := randval word below (Basic t).

(** With one level: always a dictionary of at most that many such keys and
    values. *)
Theorem C99_flat : forall R (word : R -> Z * R) below, generator word below -> forall pick coin fuel quantity types keytypes r,
  1 <= fuel -> types <> [] -> match keytypes with Some l => l | None => types end <> [] ->
  exists d r', random_nested_dict pick coin (known_randval word below) hash_val fuel quantity 1 types keytypes r = (Ok (VDict CDict d), r') /\
    List.length d <= quantity /\
    Forall (fun kv => basic_key (match keytypes with Some l => l | None => types end) (fst kv) /\ basic_of types (snd kv)) d.
Proof. exact @known_flat. Qed.
Print Assumptions C99_flat.

(** With one entry: always dictionaries in one another, and the value. *)
Theorem C99_single : forall R (word : R -> Z * R) below, generator word below -> forall pick coin fuel maxdepth types keytypes r,
  1 <= maxdepth <= fuel -> types <> [] -> match keytypes with Some l => l | None => types end <> [] ->
  exists p v r', random_nested_dict pick coin (known_randval word below) hash_val fuel 1 maxdepth types keytypes r = (Ok (only p v), r') /\
    1 <= List.length p <= maxdepth /\ Forall (basic_key (match keytypes with Some l => l | None => types end)) p /\ basic_of types v.
Proof. exact @known_single. Qed.
Print Assumptions C99_single.

(** Otherwise it may raise, but nothing else than these. *)
Theorem C99_raises : forall R (word : R -> Z * R) below, generator word below -> forall pick coin fuel quantity maxdepth types keytypes r e r',
  1 <= maxdepth <= fuel -> types <> [] -> match keytypes with Some l => l | None => types end <> [] ->
  random_nested_dict pick coin (known_randval word below) hash_val fuel quantity maxdepth types keytypes r = (Exc e, r') -> e = AttributeError \/ e = TypeError.
Proof. exact @known_raises. Qed.
Print Assumptions C99_raises.

(** The four types, four levels: two entries, of which the first has the value 1
    at the key 5, and the second, or what is looked for on its way, is below 5.0. *)
Definition tape_pick (n : nat) (r : list Z) : nat * list Z := match r with [] => (0, []) | i :: r => (Z.to_nat i mod n, r) end.
Definition tape_coin (r : list Z) : bool * list Z := match r with [] => (true, []) | i :: r => (Z.odd i, r) end.
Definition ex_default := random_nested_dict tape_pick tape_coin (known_randval tape_word tape_below) hash_val 10 2 4 [TStr; TInt; TFloat; TTuple] None.
(** 5.0: the word that gives it. *)
Definition ex_five : Z * Z := (2147591008, 783665216)%Z.
Example C99_ex_five : fst (randval tape_word tape_below (Basic TFloat) [fst ex_five; snd ex_five]) = Ok (VAtom (KOther "float" (fold_sign 500))).
Proof. vm_compute. reflexivity. Qed.
Theorem C99_default_refuted :
  (exists r, fst (ex_default r) = Exc TypeError) /\ (exists r, fst (ex_default r) = Exc AttributeError) /\
  (exists r, fst (ex_default r) = Ok (VDict CDict [(KInt 5, VAtom (KInt 2))])).
Proof.
  split; [|split].
  - exists [0; 1; 100001; 1; 100005;  1; 2; fst ex_five; snd ex_five; 1; 100002; 1; 100003]%Z. vm_compute. reflexivity.
  - exists [0; 1; 100001; 1; 100005;  2; 2; fst ex_five; snd ex_five; 1; 100002; 1; 100003]%Z. vm_compute. reflexivity.
  - exists [0; 1; 100001; 1; 100005;  0; 1; 100002; 2; fst ex_five; snd ex_five]%Z. vm_compute. reflexivity.
Qed.
Print Assumptions C99_default_refuted.
(** And {"a": {5: 1, -7: "Z"}}. *)
Example C99_ex_default : fst (ex_default [1; 0; 0; 0; 0; 1; 100001; 1; 100005;  1; 0; 0; 0; 0; 4294967295; 4294967295; 1; 99993]%Z) =
  Ok (VDict CDict [(KStr "a", VDict CDict [(KInt 5, VAtom (KInt 1)); (KInt (-7), VAtom (KStr "Z"))])]).
Proof. vm_compute. reflexivity. Qed.
