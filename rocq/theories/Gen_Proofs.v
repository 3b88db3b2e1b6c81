(** Random values. *)
From Verif Require Export Gen_Spec Rand_Proofs.
Open Scope Z_scope.

(** ** Rounding *)
Lemma half_even_near m d : 0 <= m -> 1 <= d -> 2 * Z.abs (half_even m d * 2 ^ d - m) <= 2 ^ d.
Proof.
  intros Hm Hd. assert (E : 2 ^ d = 2 * 2 ^ (d - 1)) by (rewrite <- Z.pow_succ_r by lia; f_equal; lia).
  assert (P : 0 < 2 ^ (d - 1)) by (apply Z.pow_pos_nonneg; lia).
  pose proof (Z.div_mod m (2 ^ d) ltac:(lia)) as D. pose proof (Z.mod_pos_bound m (2 ^ d) ltac:(lia)) as B. unfold half_even.
  destruct (Z.compare_spec (m mod 2 ^ d) (2 ^ (d - 1))) as [C|C|C]; [destruct (Z.even (m / 2 ^ d))|..]; nia.
Qed.
Lemma to_double_near m e : 0 <= m < 2 ^ (53 + e) -> 1 <= e -> Z.abs (to_double m - m) <= 2 ^ (e - 1).
Proof.
  intros Hm He. unfold to_double. assert (P : 0 < 2 ^ (e - 1)) by (apply Z.pow_pos_nonneg; lia). destruct (Z.leb_spec (Z.log2 m - 52) 0) as [L|L]; [lia|].
  set (d := Z.log2 m - 52) in *. assert (Hd : d <= e).
  { assert (Z.log2 m < 53 + e); [|lia]. destruct (Z.eq_dec m 0) as [->|]; [change (Z.log2 0) with 0; lia|]. apply Z.log2_lt_pow2; lia. }
  pose proof (half_even_near m d ltac:(lia) ltac:(lia)) as H. pose proof (Z.pow_le_mono_r 2 (d - 1) (e - 1) ltac:(lia) ltac:(lia)) as Q.
  assert (E : 2 ^ d = 2 * 2 ^ (d - 1)) by (rewrite <- Z.pow_succ_r by lia; f_equal; lia). lia.
Qed.
Lemma to_double_pos m : 0 <= m -> 0 <= to_double m.
Proof.
  intro Hm. unfold to_double. destruct (Z.leb_spec (Z.log2 m - 52) 0) as [L|L]; [lia|]. set (d := Z.log2 m - 52) in *.
  assert (P : 0 < 2 ^ d) by (apply Z.pow_pos_nonneg; lia). assert (Q : 0 <= m / 2 ^ d) by (apply Z.div_pos; lia). unfold half_even.
  destruct (_ ?= _); [destruct (Z.even _)|..]; nia.
Qed.

(** ** Letters *)
Definition two53 : Z := 9007199254740992.
Lemma two53_eq : 2 ^ 53 = two53. Proof. reflexivity. Qed.
Lemma letter_index_range k : 0 <= k < 2 ^ 53 -> 0 <= letter_index k < 52.
Proof.
  intro H. change (2 ^ 53) with two53 in *. unfold two53 in H. unfold letter_index. change (2 ^ 53) with 9007199254740992.
  pose proof (to_double_near (52 * k) 6) as N. change (2 ^ (53 + 6)) with 576460752303423488 in N. change (2 ^ (6 - 1)) with 32 in N. specialize (N ltac:(lia) ltac:(lia)).
  pose proof (to_double_pos (52 * k) ltac:(lia)) as P. split; [apply Z.div_pos; lia|]. apply Z.div_lt_upper_bound; lia.
Qed.
Lemma letter_index_onto i : 0 <= i < 52 -> exists k, 0 <= k < 2 ^ 53 /\ letter_index k = i.
Proof.
  intro H. exists (i * 9007199254740992 / 52 + 2). pose proof (Z.div_mod (i * 9007199254740992) 52 ltac:(lia)) as D. pose proof (Z.mod_pos_bound (i * 9007199254740992) 52 ltac:(lia)) as B.
  set (q := i * 9007199254740992 / 52) in *. set (r := (i * 9007199254740992) mod 52) in *. split; [change (2 ^ 53) with 9007199254740992; lia|].
  pose proof (to_double_near (52 * (q + 2)) 6) as N. change (2 ^ (53 + 6)) with 576460752303423488 in N. change (2 ^ (6 - 1)) with 32 in N. specialize (N ltac:(lia) ltac:(lia)).
  unfold letter_index. change (2 ^ 53) with 9007199254740992. symmetry. apply Z.div_unique with (r := to_double (52 * (q + 2)) - i * 9007199254740992); lia.
Qed.

(** ** Floats *)
Lemma hundredths_near k : 0 <= k < 2 ^ 53 -> 2 * Z.abs (hundredths k * 2 ^ 53 - 20000000 * (k - 2 ^ 52)) <= 2 ^ 53 + 2 ^ 24.
Proof.
  intro H. unfold hundredths. set (n := k - 2 ^ 52). assert (Hn : Z.abs n <= 2 ^ 52) by (unfold n; change (2 ^ 53) with 9007199254740992 in H; change (2 ^ 52) with 4503599627370496; lia).
  pose proof (to_double_near (Z.abs n * 200000) 17) as N1. change (2 ^ (53 + 17)) with 1180591620717411303424 in N1. change (2 ^ (17 - 1)) with 65536 in N1.
  change (2 ^ 52) with 4503599627370496 in Hn. specialize (N1 ltac:(lia) ltac:(lia)). set (y := to_double (Z.abs n * 200000)) in *.
  assert (Py : 0 <= y) by (apply to_double_pos; lia).
  pose proof (half_even_near (100 * y) 53 ltac:(lia) ltac:(lia)) as N2. set (d := half_even (100 * y) 53) in *.
  change (2 ^ 53) with 9007199254740992 in *. change (2 ^ 24) with 16777216. clearbody n y d. clear H Py.
  destruct (Z.sgn_spec n) as [[H ->]|[[H ->]|[H ->]]]; lia.
Qed.
Lemma hundredths_range k : 0 <= k < 2 ^ 53 -> -10000000 <= hundredths k <= 10000000.
Proof.
  intro H. pose proof (hundredths_near k H) as N. change (2 ^ 53) with 9007199254740992 in *. change (2 ^ 52) with 4503599627370496 in *. change (2 ^ 24) with 16777216 in *. lia.
Qed.
Lemma hundredths_onto d : -10000000 <= d <= 10000000 -> exists k, 0 <= k < 2 ^ 53 /\ hundredths k = d /\ (d = 0 -> k = 2 ^ 52).
Proof.
  intro H. set (k := if d =? 10000000 then 9007199254740991 else d * 9007199254740992 / 20000000 + 4503599627370496).
  pose proof (Z.div_mod (d * 9007199254740992) 20000000 ltac:(lia)) as D. pose proof (Z.mod_pos_bound (d * 9007199254740992) 20000000 ltac:(lia)) as B.
  assert (Hk : 0 <= k < 2 ^ 53 /\ Z.abs (20000000 * (k - 4503599627370496) - d * 9007199254740992) <= 20000000).
  { change (2 ^ 53) with 9007199254740992. unfold k. destruct (Z.eqb_spec d 10000000) as [->|Hd]; lia. }
  destruct Hk as [Hk Hd]. exists k. split; [exact Hk|]. split; [|intros ->; reflexivity].
  pose proof (hundredths_near k Hk) as N. change (2 ^ 53) with 9007199254740992 in *. change (2 ^ 52) with 4503599627370496 in *. change (2 ^ 24) with 16777216 in *. lia.
Qed.
Lemma float_val_of k : float_of (hundredths k) (float_val k).
Proof. unfold float_val, float_of. destruct (Z.eqb_spec (hundredths k) 0) as [E|E]; cbn [andb]; [|now left]. destruct (k <? 2 ^ 52); [right|left]; auto. Qed.

Section Gen.
  Context {R : Type} (word : R -> Z * R) (below : Z -> R -> Z * R) (G : generator word below).

  Lemma random_range r : 0 <= fst (random word r) < 2 ^ 53.
  Proof.
    unfold random. destruct (word r) as [a r1] eqn:E1. destruct (word r1) as [b r2] eqn:E2. pose proof (proj1 G r) as A. pose proof (proj1 G r1) as B. rewrite E1 in A. rewrite E2 in B.
    cbn [fst] in *. change (2 ^ 53) with 9007199254740992. change (2 ^ 26) with 67108864. change (2 ^ 32) with 4294967296 in *.
    pose proof (Z.div_mod a 32 ltac:(lia)). pose proof (Z.mod_pos_bound a 32 ltac:(lia)). pose proof (Z.div_mod b 64 ltac:(lia)). pose proof (Z.mod_pos_bound b 64 ltac:(lia)). lia.
  Qed.
  Lemma randint_range a b r : a <= b -> a <= fst (randint below a b r) <= b.
  Proof. intro H. unfold randint. pose proof (proj2 G (b - a + 1) r ltac:(lia)) as B. destruct (below (b - a + 1) r) as [n r1]. cbn [fst] in *. lia. Qed.
  Lemma letters_get i : (i < 52)%nat -> exists c, String.get i letters = Some c /\ letter c.
  Proof.
    intro H. assert (A : forall i, In i (seq 0 52) -> exists c, String.get i letters = Some c /\ letter c).
    { assert (F : Forall (fun i => exists c, String.get i letters = Some c /\ letter c) (seq 0 52)).
      { cbn [seq]. repeat (constructor; [eexists; split; [vm_compute; reflexivity|unfold letter; vm_compute; lia]|]). constructor. }
      now apply Forall_forall. }
    apply A, in_seq. lia.
  Qed.
  Lemma choose_letters_ok n : forall r, String.length (fst (choose_letters word n r)) = n /\ forall i c, String.get i (fst (choose_letters word n r)) = Some c -> letter c.
  Proof.
    induction n as [|n IH]; intro r; cbn [choose_letters]; [split; [reflexivity|intros [|i] c H; discriminate H]|].
    pose proof (random_range r) as K. destruct (random word r) as [k r1]. cbn [fst] in K. specialize (IH r1). destruct (choose_letters word n r1) as [s r2]. cbn [fst] in *.
    destruct (letters_get (Z.to_nat (letter_index k))) as (c & Ec & Lc); [pose proof (letter_index_range k K); lia|]. rewrite Ec. destruct IH as [IH1 IH2].
    split; [cbn; now rewrite IH1|]. intros [|i] d H; cbn in H; [injection H as <-; exact Lc|eauto].
  Qed.
  Lemma rand_float_ok r : money (fst (rand_float word r)).
  Proof. unfold rand_float. pose proof (random_range r) as K. destruct (random word r) as [k r1]. cbn [fst] in *. exists (hundredths k). split; [now apply hundredths_range|apply float_val_of]. Qed.
  Lemma rand_floats_ok n : forall r, List.length (fst (rand_floats word n r)) = n /\ Forall money (fst (rand_floats word n r)).
  Proof.
    induction n as [|n IH]; intro r; cbn [rand_floats]; [split; [reflexivity|constructor]|]. pose proof (rand_float_ok r) as H. destruct (rand_float word r) as [x r1]. specialize (IH r1).
    destruct (rand_floats word n r1) as [l r2]. cbn [fst] in *. destruct IH as [IH1 IH2]. split; [cbn; now rewrite IH1|now constructor].
  Qed.
  Lemma basic_ok t r : value_of_type t (fst (basic_val word below t r)).
  Proof.
    destruct t; cbn [basic_val value_of_type].
    - pose proof (randint_range 1 10 r ltac:(lia)) as H. destruct (randint below 1 10 r) as [n r1]. cbn [fst] in H. pose proof (choose_letters_ok (Z.to_nat n) r1) as [L1 L2].
      destruct (choose_letters word (Z.to_nat n) r1) as [s r2]. cbn [fst] in *. exists s. split; [reflexivity|]. split; [lia|exact L2].
    - pose proof (randint_range (-100000) 100000 r ltac:(lia)) as H. destruct (randint below (-100000) 100000 r) as [z r1]. cbn [fst] in *. exists z. split; [reflexivity|lia].
    - apply rand_float_ok.
    - pose proof (randint_range 1 10 r ltac:(lia)) as H. destruct (randint below 1 10 r) as [n r1]. cbn [fst] in H. pose proof (rand_floats_ok (Z.to_nat n) r1) as [L1 L2].
      destruct (rand_floats word (Z.to_nat n) r1) as [l r2]. cbn [fst] in *. exists l. split; [reflexivity|]. split; [lia|exact L2].
  Qed.
End Gen.

(** ** Every value is possible *)
Definition tape_word (r : list Z) : Z * list Z := match r with [] => (0, []) | w :: r => (w mod 2 ^ 32, r) end.
Definition tape_below (n : Z) (r : list Z) : Z * list Z := match r with [] => (0, []) | w :: r => (w mod n, r) end.
Lemma tape_generator : generator tape_word tape_below.
Proof.
  split; intros.
  - destruct r as [|w r]; cbn [tape_word fst]; [change (2 ^ 32) with 4294967296; lia|apply Z.mod_pos_bound; reflexivity].
  - destruct r as [|w r]; cbn [tape_below fst]; [lia|now apply Z.mod_pos_bound].
Qed.
Definition halves (k : Z) : list Z := [k / 67108864 * 32; k mod 67108864 * 64].
Lemma tape_random k r : 0 <= k < 2 ^ 53 -> random tape_word (halves k ++ r) = (k, r).
Proof.
  intro H. change (2 ^ 53) with 9007199254740992 in H. unfold random, halves. cbn [app tape_word]. change (2 ^ 32) with 4294967296. change (2 ^ 26) with 67108864.
  pose proof (Z.div_mod k 67108864 ltac:(lia)) as D. pose proof (Z.mod_pos_bound k 67108864 ltac:(lia)) as B.
  assert (Q : 0 <= k / 67108864 < 134217728). { split; [apply Z.div_pos; lia|apply Z.div_lt_upper_bound; lia]. }
  rewrite !Z.mod_small by lia. rewrite !Z.div_mul by lia. f_equal. lia.
Qed.
Lemma tape_randint a b z r : a <= z <= b -> randint tape_below a b ((z - a) :: r) = (z, r).
Proof. intro H. unfold randint. cbn [tape_below]. rewrite Z.mod_small by lia. f_equal. lia. Qed.
Lemma tape_floats l : Forall money l -> exists t, forall r, rand_floats tape_word (List.length l) (t ++ r) = (l, r).
Proof.
  induction 1 as [|v l (d & Hd & Hv) _ (t & IH)]; [exists []; reflexivity|].
  assert (K : exists k, 0 <= k < 2 ^ 53 /\ float_val k = v).
  { destruct Hv as [->|[-> ->]].
    - destruct (hundredths_onto d Hd) as (k & Hk & E & Z0). exists k. split; [exact Hk|]. unfold float_val. rewrite E. destruct (Z.eqb_spec d 0) as [D0|D0]; cbn [andb]; [|reflexivity].
      rewrite (Z0 D0). reflexivity.
    - exists 4503599627370495. split; [change (2 ^ 53) with 9007199254740992; lia|vm_compute; reflexivity]. }
  destruct K as (k & Hk & <-). exists (halves k ++ t). intro r. cbn [List.length rand_floats]. unfold rand_float. rewrite <- app_assoc, tape_random by exact Hk. now rewrite IH.
Qed.
Lemma letter_at c : letter c -> exists i, 0 <= i < 52 /\ String.get (Z.to_nat i) letters = Some c.
Proof.
  intro H. assert (A : forall n, In n (seq 97 26 ++ seq 65 26) -> exists i, 0 <= i < 52 /\ String.get (Z.to_nat i) letters = Some (ascii_of_nat n)).
  { assert (F : Forall (fun n => exists i, 0 <= i < 52 /\ String.get (Z.to_nat i) letters = Some (ascii_of_nat n)) (seq 97 26 ++ seq 65 26)).
    { apply Forall_app. split; apply Forall_forall; intros n Hn; apply in_seq in Hn.
      - exists (Z.of_nat (n - 97)). split; [lia|]. rewrite Nat2Z.id. do 26 (destruct n as [|n]; [lia|]). do 71 (destruct n as [|n]; [lia|]). do 26 (destruct n as [|n]; [reflexivity|]). lia.
      - exists (Z.of_nat (n - 65 + 26)). split; [lia|]. rewrite Nat2Z.id. do 65 (destruct n as [|n]; [lia|]). do 26 (destruct n as [|n]; [reflexivity|]). lia. }
    now apply Forall_forall. }
  destruct (A (nat_of_ascii c)) as (i & Hi & E); [apply in_or_app; rewrite !in_seq; unfold letter in H; lia|]. exists i. now rewrite ascii_nat_embedding in E.
Qed.
Lemma tape_letters s : (forall i c, String.get i s = Some c -> letter c) -> exists t, forall r, choose_letters tape_word (String.length s) (t ++ r) = (s, r).
Proof.
  induction s as [|c s IH]; intro H; [exists []; reflexivity|]. destruct IH as (t & IH); [intros i d Hd; exact (H (S i) d Hd)|].
  destruct (letter_at c (H 0%nat c eq_refl)) as (i & Hi & Ei). destruct (letter_index_onto i Hi) as (k & Hk & Ek). exists (halves k ++ t). intro r.
  cbn [String.length choose_letters]. rewrite <- app_assoc, tape_random by exact Hk. rewrite IH, Ek, Ei. reflexivity.
Qed.
Lemma basic_onto t v : value_of_type t v -> exists r, basic_val tape_word tape_below t r = (v, []).
Proof.
  destruct t; cbn [value_of_type basic_val].
  - intros (s & -> & HL & Hs). destruct (tape_letters s Hs) as (t & Ht). exists ((Z.of_nat (String.length s) - 1) :: t). rewrite tape_randint by lia. rewrite Nat2Z.id.
    specialize (Ht []). rewrite app_nil_r in Ht. now rewrite Ht.
  - intros (z & -> & Hz). exists [z - (-100000)]. now rewrite tape_randint.
  - intro H. destruct (tape_floats [v]) as (t & Ht); [repeat constructor; exact H|]. exists t. specialize (Ht []). rewrite app_nil_r in Ht. cbn [List.length rand_floats] in Ht.
    destruct (rand_float tape_word t) as [x r]. now injection Ht as -> ->.
  - intros (l & -> & HL & Hl). destruct (tape_floats l Hl) as (t & Ht). exists ((Z.of_nat (List.length l) - 1) :: t). rewrite tape_randint by lia. rewrite Nat2Z.id.
    specialize (Ht []). rewrite app_nil_r in Ht. now rewrite Ht.
Qed.

(** ** Keys *)
Lemma unfold_fold z : unfold_sign (fold_sign z) = z.
Proof.
  unfold fold_sign, unfold_sign. destruct (Z.ltb_spec z 0) as [H|H].
  - replace (N.even (Z.to_N (- 2 * z - 1))) with false.
    + replace (Z.to_N (-2 * z - 1) + 1)%N with (2 * Z.to_N (- z))%N by lia. rewrite N.mul_comm, N.div_mul by lia. lia.
    + symmetry. replace (Z.to_N (-2 * z - 1)) with (2 * Z.to_N (- z - 1) + 1)%N by lia. rewrite N.even_add_mul_2 || rewrite N.add_comm, N.even_add_mul_2. reflexivity.
  - replace (Z.to_N (2 * z)) with (2 * Z.to_N z)%N by lia. rewrite N.even_mul. cbn [N.even orb]. rewrite N.mul_comm, N.div_mul by lia. lia.
Qed.
Lemma fold_inj a b : fold_sign a = fold_sign b -> a = b.
Proof. intro H. rewrite <- (unfold_fold a), <- (unfold_fold b). now f_equal. Qed.
Lemma float_key_eq d : float_key (fold_sign d) = if d mod 100 =? 0 then KInt (d / 100) else KOther "float" (fold_sign d).
Proof. unfold float_key. now rewrite unfold_fold. Qed.

(** The key of a number, from its hundredths. *)
Definition number_key (d : Z) : key := if d mod 100 =? 0 then KInt (d / 100) else KOther "float" (fold_sign d).
Lemma number_key_inj a b : number_key a = number_key b -> a = b.
Proof.
  unfold number_key. pose proof (Z.div_mod a 100 ltac:(lia)). pose proof (Z.div_mod b 100 ltac:(lia)).
  destruct (Z.eqb_spec (a mod 100) 0) as [A|A]; destruct (Z.eqb_spec (b mod 100) 0) as [B|B]; intro E; try discriminate E.
  - injection E as E. lia.
  - injection E as E. now apply fold_inj.
Qed.
Lemma float_of_key d v : float_of d v -> exists k, v = VAtom k /\ atom_key k = number_key d /\ number v = Some d.
Proof.
  intros [->|[-> ->]]; eexists; (split; [reflexivity|]); split; [apply float_key_eq|cbn; now rewrite unfold_fold|reflexivity..].
Qed.
Lemma int_key z : atom_key (KInt z) = number_key (100 * z).
Proof. unfold number_key. rewrite Z.mul_comm, Z.mod_mul, Z.div_mul by lia. reflexivity. Qed.

Definition tuple_code (ks : list key) (a : N) : N := fold_left (fun a k => a * 2 ^ 32 + elem_code k + 1)%N ks a.
Lemma elem_small d : -10000000 <= d <= 10000000 -> (elem_code (number_key d) + 1 < 2 ^ 32)%N.
Proof.
  intro H. unfold number_key. change (2 ^ 32)%N with 4294967296%N. pose proof (Z.div_mod d 100 ltac:(lia)). pose proof (Z.mod_pos_bound d 100 ltac:(lia)).
  destruct (d mod 100 =? 0); cbn [elem_code]; unfold fold_sign; match goal with |- context [?x <? 0] => destruct (Z.ltb_spec x 0) end; lia.
Qed.
Lemma elem_inj a b : elem_code (number_key a) = elem_code (number_key b) -> number_key a = number_key b.
Proof.
  unfold number_key. destruct (a mod 100 =? 0), (b mod 100 =? 0); cbn [elem_code]; intro E; try lia.
  - f_equal. apply fold_inj. lia.
  - f_equal. lia.
Qed.
Definition small_elem (k : key) : Prop := exists d, -10000000 <= d <= 10000000 /\ k = number_key d.
Lemma tuple_code_inj a : forall b, Forall small_elem a -> Forall small_elem b -> tuple_code a 0 = tuple_code b 0 -> a = b.
Proof.
  unfold tuple_code. induction a as [|x a IH] using rev_ind; intros b Ha Hb; destruct b as [|y b _] using rev_ind; [reflexivity|..].
  - rewrite fold_left_app. cbn [fold_left]. lia.
  - rewrite fold_left_app. cbn [fold_left]. lia.
  - rewrite !fold_left_app. cbn [fold_left]. apply Forall_app in Ha as [Ha Hx]. apply Forall_app in Hb as [Hb Hy].
    inversion Hx as [|? ? (dx & Bx & ->) _]; subst. inversion Hy as [|? ? (dy & By & ->) _]; subst. intro E.
    pose proof (elem_small dx Bx) as Sx. pose proof (elem_small dy By) as Sy. change (2 ^ 32)%N with 4294967296%N in *.
    set (A := fold_left _ a 0%N) in *. set (B := fold_left _ b 0%N) in *.
    assert (EE : elem_code (number_key dx) = elem_code (number_key dy) /\ A = B) by lia. destruct EE as [E1 E2]. rewrite (IH b Ha Hb E2). now rewrite (elem_inj _ _ E1).
Qed.
Definition atom_hash (v : val) : res key := match v with VAtom k => Ok (atom_key k) | _ => Exc TypeError end.
Lemma money_hash v : money v -> exists d, -10000000 <= d <= 10000000 /\ atom_hash v = Ok (number_key d) /\ hash_val v = Ok (number_key d) /\ number v = Some d.
Proof. intros (d & B & H). destruct (float_of_key d v H) as (k & -> & E & N). exists d. cbn [atom_hash hash_val]. rewrite E. auto. Qed.
Lemma floats_hash l : Forall money l -> exists ks, mapM atom_hash l = Ok ks /\ Forall small_elem ks /\ Forall2 (fun v k => exists d, number v = Some d /\ k = number_key d) l ks.
Proof.
  induction 1 as [|v l Hv _ (ks & E & S & F)]; [exists []; repeat split; constructor|]. destruct (money_hash v Hv) as (d & B & E1 & _ & N). exists (number_key d :: ks). cbn [mapM]. rewrite E1. cbn [bind]. rewrite E.
  split; [reflexivity|]. split; constructor; auto; exists d; auto.
Qed.
Lemma basic_hash t v : value_of_type t v -> exists k, hash_val v = Ok k.
Proof.
  destruct t; cbn [value_of_type].
  - intros (s & -> & _). eexists; reflexivity.
  - intros (z & -> & _). eexists; reflexivity.
  - intro H. destruct (money_hash v H) as (d & _ & _ & E & _). eauto.
  - intros (l & -> & _ & H). destruct (floats_hash l H) as (ks & E & _). unfold hash_val. fold atom_hash. change (fun v => match v with VAtom k => Ok (atom_key k) | _ => Exc TypeError end) with atom_hash. rewrite E. eexists; reflexivity.
Qed.
(** Kinds of values: text, numbers and tuples. *)
Lemma basic_kinds t v : value_of_type t v ->
  (exists s, v = VAtom (KStr s) /\ hash_val v = Ok (KStr s)) \/ (exists d, number v = Some d /\ hash_val v = Ok (number_key d)) \/
  (exists l ks, v = VTup l /\ mapM atom_hash l = Ok ks /\ hash_val v = Ok (KOther "tuple" (tuple_code ks 0)) /\ Forall small_elem ks /\
     Forall2 (fun v k => exists d, number v = Some d /\ k = number_key d) l ks).
Proof.
  destruct t; cbn [value_of_type].
  - intros (s & -> & _). left. eauto.
  - intros (z & -> & _). right; left. exists (100 * z). split; [reflexivity|]. unfold hash_val. now rewrite int_key.
  - intro H. destruct (money_hash v H) as (d & _ & _ & E & N). right; left. eauto.
  - intros (l & -> & _ & H). destruct (floats_hash l H) as (ks & E & S & F). right; right. exists l, ks. split; [reflexivity|]. split; [exact E|].
    split; [|now split]. unfold hash_val. change (fun v => match v with VAtom k => Ok (atom_key k) | _ => Exc TypeError end) with atom_hash. rewrite E. reflexivity.
Qed.
Lemma number_key_shape d : (exists z, number_key d = KInt z) \/ exists n, number_key d = KOther "float" n.
Proof. unfold number_key. destruct (_ =? _); eauto. Qed.
Lemma keys_equal t u v w : value_of_type t v -> value_of_type u w -> hash_val v = hash_val w <-> equal_values v w.
Proof.
  intros Hv Hw. apply basic_kinds in Hv. apply basic_kinds in Hw. split.
  - intro E. destruct Hv as [(s & -> & Ev)|[(d & Nv & Ev)|(l & ks & -> & _ & Ev & Sv & Fv)]]; destruct Hw as [(s' & -> & Ew)|[(d' & Nw & Ew)|(l' & ks' & -> & _ & Ew & Sw & Fw)]];
      rewrite Ev, Ew in E; injection E as E; try discriminate E;
      try (destruct (number_key_shape d) as [[z Z1]|[z Z1]]; rewrite Z1 in E; discriminate E);
      try (destruct (number_key_shape d') as [[z Z1]|[z Z1]]; rewrite Z1 in E; discriminate E).
    + left. now subst.
    + right; left. apply number_key_inj in E. subst d'. exists d. auto.
    + right; right. exists l, l'. split; [reflexivity|]. split; [reflexivity|]. apply tuple_code_inj in E; [|assumption..]. subst ks'. clear - Fv Fw. revert l' Fw.
      induction Fv as [|v k l ks (d & N & ->) _ IH]; intros l' Fw; inversion Fw as [|v' k' l2 ks2 (d' & N' & E') F']; subst; constructor; [|now apply IH].
      apply number_key_inj in E'. subst d'. exists d. auto.
  - intros [->|[(d & N1 & N2)|(l & m & -> & -> & F)]]; [reflexivity|..].
    + destruct Hv as [(s & -> & Ev)|[(dv & Nv & Ev)|(l & ks & -> & _)]]; [discriminate N1| |discriminate N1].
      destruct Hw as [(s & -> & Ew)|[(dw & Nw & Ew)|(l & ks & -> & _)]]; [discriminate N2| |discriminate N2]. rewrite Ev, Ew. congruence.
    + destruct Hv as [(s & E & _)|[(dv & Nv & _)|(l1 & ks & E & _ & Ev & _ & Fv)]]; [discriminate E|discriminate Nv|].
      destruct Hw as [(s & E' & _)|[(dw & Nw & _)|(l2 & ks' & E' & _ & Ew & _ & Fw)]]; [discriminate E'|discriminate Nw|]. injection E as <-. injection E' as <-. rewrite Ev, Ew.
      assert (ks = ks') as ->; [|reflexivity]. clear - F Fv Fw. revert ks ks' Fv Fw. induction F as [|v w l m (d & N1 & N2) _ IH]; intros ks ks' Fv Fw; inversion Fv as [|? ? ? ? (d1 & M1 & ->) F1]; inversion Fw as [|? ? ? ? (d2 & M2 & ->) F2]; subst; [reflexivity|].
      f_equal; [congruence|now apply IH].
Qed.

(** ** One entry *)
Open Scope nat_scope.
Fixpoint chain (p : list key) : val := match p with [] => VDict CNesting [] | k :: p => VDict CNesting [(k, chain p)] end.
Lemma chain_deeper p k : nd_get (chain p) (p ++ [k]) = Ok (VDict CNesting [], chain (p ++ [k])).
Proof.
  induction p as [|x p IH].
  - cbn. now rewrite !keqb_refl.
  - cbn [chain app nd_get nd_getitem dget]. rewrite keqb_refl. cbn [bind]. rewrite IH. cbn [bind nd_setitem dset]. now rewrite keqb_refl.
Qed.
Lemma chain_get p : nd_get (chain (removelast p)) p = Ok (VDict CNesting [], chain p).
Proof. destruct p as [|k p] using rev_ind; [reflexivity|]. rewrite removelast_last. apply chain_deeper. Qed.
Lemma mapM_Ok {A} (l : list A) : mapM (fun k => k) (map Ok l) = Ok l.
Proof. induction l as [|x l IH]; cbn; [reflexivity|]. now rewrite IH. Qed.
Lemma chain_get_in p : get_in (map Ok p) (chain (removelast p)) = Ok (VDict CNesting [], chain p).
Proof. unfold get_in. rewrite mapM_Ok. apply chain_get. Qed.
Lemma chain_set p k x : exists d, nd_set (chain p) (p ++ [k]) x = Ok (VDict CNesting d).
Proof.
  induction p as [|y p [d IH]]; [eexists; reflexivity|]. cbn [app]. rewrite nd_set_cons by now destruct p. cbn [chain nd_getitem dget]. rewrite keqb_refl. cbn [bind]. rewrite IH. cbn. eauto.
Qed.
Lemma only_set p x : forall m, nd_set (VDict CNesting []) p x = Ok m -> is_mapping x = false -> plainified m = only p x.
Proof.
  induction p as [|k p IH]; intros m H X; [discriminate H|]. destruct p as [|k2 p].
  - cbn in H. injection H as <-. cbn. now destruct x.
  - rewrite nd_set_cons in H by discriminate. cbn [nd_getitem dget bind] in H. destruct (nd_set (VDict CNesting []) (k2 :: p) x) as [m1|] eqn:E; [|discriminate H].
    cbn [bind nd_setitem] in H. injection H as <-. specialize (IH m1 eq_refl X). cbn [dset]. rewrite keqb_refl. change (only (k :: k2 :: p) x) with (VDict CDict [(k, only (k2 :: p) x)]). rewrite <- IH. reflexivity.
Qed.

Section Single.
  Context {R T : Type} (pick : nat -> R -> nat * R) (coin : R -> bool * R) (randval : T -> eff R val) (hash : val -> res key).
  Context (types kt : list T) (Ht : types <> []) (Hk : kt <> []).
  Context (Rv : forall t s, exists v s', randval t s = (Ok v, s')) (Hh : forall v, from_types randval kt v -> exists k, hash v = Ok k).

  Lemma choice_some A (l : list A) s : l <> [] -> exists x s', choice pick l s = (Ok x, s') /\ In x l.
  Proof. intro N. assert (G := choice_In pick l s). destruct (choice pick l s) as [[x|e] s']; [eauto|tauto]. Qed.
  Lemma single_key p s : exists k s', pick_key_at_level pick coin randval hash (chain (removelast p)) (map Ok p) kt s = (Ok (Ok k, chain p), s').
  Proof.
    unfold pick_key_at_level. rewrite chain_get_in. cbn [filter map]. unfold ebind, eret. destruct (choice_some _ kt s Hk) as (t & s1 & E1 & I1). rewrite E1.
    destruct (Rv t s1) as (v & s2 & E2). rewrite E2. destruct (Hh v) as [k Ek]; [exists t, s1, s2; auto|]. rewrite Ek. eauto.
  Qed.
  Lemma single_keys n : forall p s, exists q s', pick_keys pick coin randval hash n (chain (removelast p)) (map Ok p) kt s = (Ok (map Ok q, chain (removelast q)), s').
  Proof.
    induction n as [|n IH]; intros p s; cbn [pick_keys]; [exists p, s; reflexivity|]. unfold ebind. destruct (single_key p s) as (k & s1 & E). rewrite E. cbn [fst snd].
    specialize (IH (p ++ [k]) s1). rewrite removelast_last, map_app in IH. exact IH.
  Qed.
  Lemma single_entry maxdepth s : 1 <= maxdepth -> exists d s', add_entry pick coin randval hash maxdepth types kt (VDict CNesting []) s = (Ok (VDict CNesting d), s').
  Proof.
    intro M. unfold add_entry, ebind. destruct (choice_some _ (seq 0 maxdepth) s) as (lev & s1 & E1 & _); [now destruct maxdepth; [lia|]|]. rewrite E1.
    destruct (single_keys lev [] s1) as (q & s2 & E2). cbn [removelast chain map] in E2. rewrite E2. destruct (choice_some _ types s2 Ht) as (t & s3 & E3 & _). rewrite E3.
    destruct (Rv t s3) as (v & s4 & E4). rewrite E4. cbn [fst snd]. rewrite chain_get_in. unfold eret. destruct (choice_some _ kt s4 Hk) as (t2 & s5 & E5 & I5). rewrite E5.
    destruct (Rv t2 s5) as (v2 & s6 & E6). rewrite E6. destruct (Hh v2) as [k Ek]; [exists t2, s5, s6; auto|]. rewrite Ek. unfold eof.
    replace (map Ok q ++ [Ok k]) with (map (@Ok key) (q ++ [k])) by now rewrite map_app. rewrite mapM_Ok. cbn [bind]. destruct (chain_set q k v) as [d ->]. eauto.
  Qed.
End Single.

Lemma rand_single {R T} pick coin (randval : T -> eff R val) hash fuel maxdepth types keytypes r :
  let kt := match keytypes with Some l => l | None => types end in
  plain_values randval types -> 1 <= maxdepth <= fuel -> types <> [] -> kt <> [] ->
  (forall t s, exists v s', randval t s = (Ok v, s')) -> (forall v, from_types randval kt v -> exists k, hash v = Ok k) ->
  exists p v r', random_nested_dict pick coin randval hash fuel 1 maxdepth types keytypes r = (Ok (only p v), r') /\
    1 <= List.length p <= maxdepth /\ Forall (key_from randval hash kt) p /\ from_types randval types v.
Proof.
  intros kt PV Hm Ht Hk Rv Hh.
  assert (X : exists v r', random_nested_dict pick coin randval hash fuel 1 maxdepth types keytypes r = (Ok v, r')).
  { destruct (random_nested_dict pick coin randval hash fuel 1 maxdepth types keytypes r) as [[v|e] r'] eqn:E; [eauto|exfalso].
    unfold random_nested_dict, ebind in E. fold kt in E. cbn [seq efoldM] in E. unfold ebind in E.
    destruct (single_entry pick coin randval hash types kt Ht Hk Rv Hh maxdepth r (proj1 Hm)) as (d & s & E1). rewrite E1 in E. unfold eret in E.
    destruct maxdepth as [|md]; [lia|].
    assert (T0 : tree (key_from randval hash kt) (from_types randval types) (S md) (VDict CNesting [])) by apply tree_empty.
    assert (F := entries_ok pick coin randval hash types kt PV (S md) (seq 0 1) (VDict CNesting []) r T0). cbn [seq efoldM] in F. unfold ebind in F. rewrite E1 in F. unfold eret in F. destruct F as [Tr _].
    destruct (todict_spec fuel d) as (p & s2 & Htd & Hp & _).
    - apply (tree_wfv _ _ (fun v H => proj2 (PV v H)) _ _ Tr).
    - pose proof (tree_depth _ _ (fun v H => proj1 (PV v H)) _ _ Tr). lia.
    - unfold eof in E. rewrite Htd in E. discriminate E. }
  destruct X as (v & r' & E). destruct (rand_history pick coin randval hash _ _ _ _ _ _ _ _ PV Hm E) as (h & m & L & F & S & ->).
  destruct h as [|[p x] [|? ?]]; cbn in L; try discriminate L. inversion F as [|? ? (F1 & F2 & F3) _]; subst. cbn [fst snd] in *.
  cbn [foldM fst snd] in S. destruct (nd_set (VDict CNesting []) p x) as [m'|] eqn:E'; [|discriminate S]. cbn [bind] in S. injection S as <-.
  exists p, x, r'. rewrite E. rewrite (only_set p x m' E' (proj1 (PV x F3))). auto.
Qed.

(** ** The types known *)
Section Known.
  Context {R : Type} (word : R -> Z * R) (below : Z -> R -> Z * R) (G : generator word below).
  Let rv (t : basic) : eff R val := Gen_Model.randval word below (Basic t).

  Lemma known_total t s : exists v s', rv t s = (Ok v, s').
  Proof. unfold rv. cbn [Gen_Model.randval]. destruct (basic_val word below t s) as [v s']. eauto. Qed.
  Lemma known_from types v : from_types rv types v -> basic_of types v.
  Proof.
    intros (t & s & s' & I & E). exists t. split; [exact I|]. unfold rv in E. cbn [Gen_Model.randval] in E. pose proof (basic_ok word below G t s) as H. destruct (basic_val word below t s) as [w s2]. injection E as <- <-. exact H.
  Qed.
  Lemma money_plain v : money v -> is_mapping v = false /\ wfv v = true.
  Proof. intros (d & _ & [->|[_ ->]]); split; reflexivity. Qed.
  Lemma basic_plain t v : value_of_type t v -> is_mapping v = false /\ wfv v = true.
  Proof.
    destruct t; cbn [value_of_type].
    - intros (s & -> & _). now split.
    - intros (z & -> & _). now split.
    - apply money_plain.
    - intros (l & -> & _ & H). split; [reflexivity|]. cbn [wfv]. try (apply forallb_forall; intros x Hx; apply money_plain; now apply (proj1 (Forall_forall _ _) H)). all: reflexivity.
  Qed.
  Lemma known_plain types : plain_values rv types.
  Proof. intros v H. apply known_from in H as (t & _ & H). exact (basic_plain t v H). Qed.
  Lemma known_hash types v : from_types rv types v -> exists k, hash_val v = Ok k.
  Proof. intro H. apply known_from in H as (t & _ & H). exact (basic_hash t v H). Qed.
  Lemma known_key types k : key_from rv hash_val types k -> basic_key types k.
  Proof. intros (v & H & E). apply known_from in H as (t & I & H). exists t, v. auto. Qed.

  Context (pick : nat -> R -> nat * R) (coin : R -> bool * R).
  Lemma known_raises fuel quantity maxdepth types keytypes r e r' : 1 <= maxdepth <= fuel -> types <> [] -> match keytypes with Some l => l | None => types end <> [] ->
    random_nested_dict pick coin rv hash_val fuel quantity maxdepth types keytypes r = (Exc e, r') -> e = AttributeError \/ e = TypeError.
  Proof.
    intros Hm Ht Hk H. destruct (rand_raises pick coin rv hash_val fuel quantity maxdepth types keytypes r e r' (known_plain types) Hm H) as [->|[->|[[-> [N|N]]|[(t & r1 & r2 & _ & E)|(v & F & E)]]]]; auto.
    - now destruct (Hk N).
    - now destruct (Ht N).
    - destruct (known_total t r1) as (v & s & E'). congruence.
    - destruct (known_hash _ _ F) as [k E']. congruence.
  Qed.
  Lemma known_flat fuel quantity types keytypes r : 1 <= fuel -> types <> [] -> match keytypes with Some l => l | None => types end <> [] ->
    exists d r', random_nested_dict pick coin rv hash_val fuel quantity 1 types keytypes r = (Ok (VDict CDict d), r') /\ List.length d <= quantity /\
      Forall (fun kv => basic_key (match keytypes with Some l => l | None => types end) (fst kv) /\ basic_of types (snd kv)) d.
  Proof.
    intros Hf Ht Hk. destruct (rand_flat pick coin rv hash_val fuel quantity types keytypes r (known_plain types) Hf Ht Hk known_total (known_hash _)) as (v & r' & E).
    destruct (rand_shape pick coin rv hash_val _ _ _ _ _ _ _ _ (known_plain types) (conj (le_n 1) Hf) E) as (_ & _ & _ & _ & LC).
    destruct (rand_history pick coin rv hash_val _ _ _ _ _ _ _ _ (known_plain types) (conj (le_n 1) Hf) E) as (h & m & L & F & S & ->).
    set (kt := match keytypes with Some l => l | None => types end) in *.
    assert (X : forall h d, Forall (entry_ok rv hash_val 1 types kt) h -> Forall (fun kv => basic_key kt (fst kv) /\ basic_of types (snd kv)) d ->
      foldM (fun m e => nd_set m (fst e) (snd e)) h (VDict CNesting d) = Ok m -> exists d', m = VDict CNesting d' /\ Forall (fun kv => basic_key kt (fst kv) /\ basic_of types (snd kv)) d').
    { clear - G. clearbody kt. induction h as [|[p x] h IH]; intros d Fh Fd H; cbn [foldM fst snd] in H; [injection H as <-; eauto|]. inversion Fh as [|? ? (F1 & F2 & F3) F4]; subst. cbn [fst snd] in *.
      destruct p as [|k [|k2 p]]; cbn in F1; try lia. cbn [nd_set nd_setitem bind] in H. apply (IH _ F4) in H; [exact H|]. assert (K : basic_key kt k) by (inversion F2; subst; now apply known_key). assert (B : basic_of types x) by now apply known_from. clear - Fd K B.
      
      induction Fd as [|[k' v'] d Hd Fd IH]; cbn [dset]; [constructor; auto|]. destruct (keqb k' k); constructor; auto. cbn [fst snd] in *. tauto. }
    destruct (X h [] F ltac:(constructor) S) as (d & -> & Fd). clear X.
    assert (P : forall d, Forall (fun kv => basic_key kt (fst kv) /\ basic_of types (snd kv)) d -> map (fun kv => (fst kv, plainified (snd kv))) d = d /\ list_sum (map (fun kv => leaf_count (snd kv)) d) = List.length d).
    { clear. induction d as [|[k v] d IH]; intro F; [now split|]. inversion F as [|? ? [_ (t & _ & Hv)] Fd]; subst. destruct (IH Fd) as [I1 I2]. cbn [map list_sum fst snd List.length fold_right] in *. apply basic_plain in Hv as [M _].
      split; [f_equal; [f_equal; now destruct v|exact I1]|]. destruct v; try discriminate M; cbn [leaf_count]; unfold list_sum in *; cbn [fold_right]; lia. }
    destruct (P d Fd) as [P1 P2]. exists d, r'. cbn [plainified is_dict_cls] in E, LC. rewrite P1 in E, LC. split; [exact E|]. split; [|exact Fd]. cbn [leaf_count] in LC. lia.
  Qed.
  Lemma known_single fuel maxdepth types keytypes r : 1 <= maxdepth <= fuel -> types <> [] -> match keytypes with Some l => l | None => types end <> [] ->
    exists p v r', random_nested_dict pick coin rv hash_val fuel 1 maxdepth types keytypes r = (Ok (only p v), r') /\
      1 <= List.length p <= maxdepth /\ Forall (basic_key (match keytypes with Some l => l | None => types end)) p /\ basic_of types v.
  Proof.
    intros Hm Ht Hk. destruct (rand_single pick coin rv hash_val fuel maxdepth types keytypes r (known_plain types) Hm Ht Hk known_total (known_hash _)) as (p & v & r' & E & L & F & V).
    exists p, v, r'. split; [exact E|]. split; [exact L|]. split; [|now apply known_from]. revert F. apply Forall_impl. intro k. apply known_key.
  Qed.
End Known.
Lemma basic_norm t v k : value_of_type t v -> hash_val v = Ok k -> knorm k = k.
Proof.
  intros H E. apply basic_kinds in H as [(s & _ & E')|[(d & _ & E')|(l & ks & _ & _ & E' & _)]]; rewrite E' in E; injection E as <-; try reflexivity.
  destruct (number_key_shape d) as [[z ->]|[z ->]]; reflexivity.
Qed.
Lemma same_keys t u v w : value_of_type t v -> value_of_type u w ->
  exists k k', hash_val v = Ok k /\ hash_val w = Ok k' /\ (keqb k k' = true <-> equal_values v w).
Proof.
  intros Hv Hw. destruct (basic_hash t v Hv) as [k Ek]. destruct (basic_hash u w Hw) as [k' Ek']. exists k, k'. split; [exact Ek|]. split; [exact Ek'|].
  rewrite <- (keys_equal t u v w Hv Hw), keqb_true, (basic_norm t v k Hv Ek), (basic_norm u w k' Hw Ek'), Ek, Ek'. split; congruence.
Qed.
Open Scope Z_scope.
Lemma values_exactly t v : value_of_type t v <->
  exists (R : Type) (word : R -> Z * R) (below : Z -> R -> Z * R) r r', generator word below /\ randval word below (Basic t) r = (Ok v, r').
Proof.
  split.
  - intro H. destruct (basic_onto t v H) as [r E]. exists (list Z), tape_word, tape_below, r, []. split; [exact tape_generator|]. cbn [randval]. now rewrite E.
  - intros (R & word & below & r & r' & G & E). cbn [randval] in E. pose proof (basic_ok word below G t r) as H. destruct (basic_val word below t r) as [w r2]. injection E as <- <-. exact H.
Qed.
Lemma known_returns {R} (word : R -> Z * R) below t r : generator word below -> exists v r', randval word below (Basic t) r = (Ok v, r') /\ value_of_type t v.
Proof. intro G. cbn [randval]. pose proof (basic_ok word below G t r) as H. destruct (basic_val word below t r) as [v r']. exists v, r'. now split. Qed.
Lemma other_types {R} (word : R -> Z * R) below r : (forall f, randval word below (Calls f) r = f r) /\ randval word below NotCallable r = (Exc TypeError, r).
Proof. now split. Qed.
Lemma float_accuracy k : 0 <= k < 2 ^ 53 ->
  -10000000 <= hundredths k <= 10000000 /\ 2 * Z.abs (hundredths k * 2 ^ 53 - 20000000 * (k - 2 ^ 52)) <= 2 ^ 53 + 2 ^ 24.
Proof. intro H. split; [now apply hundredths_range|now apply hundredths_near]. Qed.
Lemma hundredths_all d : -10000000 <= d <= 10000000 -> exists k, 0 <= k < 2 ^ 53 /\ hundredths k = d.
Proof. intro H. destruct (hundredths_onto d H) as (k & A & B & _). eauto. Qed.
Lemma half_even_tie m d : 0 <= m -> 1 <= d -> 2 * Z.abs (half_even m d * 2 ^ d - m) = 2 ^ d -> Z.even (half_even m d) = true.
Proof.
  intros Hm Hd. assert (E : 2 ^ d = 2 * 2 ^ (d - 1)) by (rewrite <- Z.pow_succ_r by lia; f_equal; lia).
  assert (P : 0 < 2 ^ (d - 1)) by (apply Z.pow_pos_nonneg; lia).
  pose proof (Z.div_mod m (2 ^ d) ltac:(lia)) as D. pose proof (Z.mod_pos_bound m (2 ^ d) ltac:(lia)) as B. unfold half_even.
  destruct (Z.compare_spec (m mod 2 ^ d) (2 ^ (d - 1))) as [C|C|C]; [destruct (Z.even (m / 2 ^ d)) eqn:V|..]; intro H; [exact V| |nia..].
  rewrite Z.even_add, V. reflexivity.
Qed.
Lemma rounding m d : 0 <= m -> 1 <= d ->
  2 * Z.abs (half_even m d * 2 ^ d - m) <= 2 ^ d /\ (2 * Z.abs (half_even m d * 2 ^ d - m) = 2 ^ d -> Z.even (half_even m d) = true).
Proof. intros Hm Hd. split; [now apply half_even_near|now apply half_even_tie]. Qed.
