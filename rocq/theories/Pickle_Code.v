(** Reading opcodes back. *)
From Verif Require Export Pickle_Spec Shm_Proofs Codec_Proofs.
From Coq Require Import Lia.

(** ** Strings *)
Lemma len_app a b : len (a ++ b) = (len a + len b)%Z.
Proof. unfold len. induction a as [|c a IH]; cbn [append String.length]; lia. Qed.
Lemma len_nonneg a : (0 <= len a)%Z. Proof. unfold len. lia. Qed.
Lemma app_ass a b c : ((a ++ b) ++ c = a ++ b ++ c)%string.
Proof. induction a as [|x a IH]; cbn; congruence. Qed.
Lemma app_nil_r' a : (a ++ "" = a)%string.
Proof. induction a; cbn; congruence. Qed.
Lemma cut_app a b : cut (String.length a) (a ++ b) = Some (a, b).
Proof. induction a as [|c a IH]; cbn; [reflexivity|]. now rewrite IH. Qed.
Lemma cut_w w a b : String.length a = w -> cut w (a ++ b) = Some (a, b).
Proof. intros <-. apply cut_app. Qed.
Lemma cut_z_app a b : cut_z (len a) (a ++ b) = Some (a, b).
Proof.
  unfold cut_z. rewrite len_app. pose proof (len_nonneg b). destruct (Z.leb_spec (len a) (len a + len b)); [|lia].
  unfold len. rewrite Nat2Z.id. apply cut_app.
Qed.
Lemma cut_more n s a r t : cut n s = Some (a, r) -> cut n (s ++ t) = Some (a, (r ++ t)%string).
Proof.
  revert s a r. induction n as [|n IH]; intros s a r; cbn; [intros [= <- <-]; destruct s; reflexivity|].
  destruct s as [|c s]; [discriminate|]. cbn. destruct (cut n s) as [[a1 r1]|] eqn:E; [|discriminate]. intros [= <- <-]. now rewrite (IH _ _ _ E).
Qed.
Lemma cut_split n s a r : cut n s = Some (a, r) -> s = (a ++ r)%string.
Proof.
  revert s a r. induction n as [|n IH]; intros s a r; cbn; [now intros [= <- <-]|].
  destruct s as [|c s]; [discriminate|]. destruct (cut n s) as [[a1 r1]|] eqn:E; [|discriminate]. intros [= <- <-]. cbn. f_equal. eauto.
Qed.
Lemma reversed_app a b : reversed (a ++ b) = (reversed b ++ reversed a)%string.
Proof. induction a as [|c a IH]; cbn [append reversed]; [now rewrite app_nil_r'|]. now rewrite IH, app_ass. Qed.
Lemma reversed_twice a : reversed (reversed a) = a.
Proof. induction a as [|c a IH]; cbn [reversed]; [reflexivity|]. now rewrite reversed_app, IH. Qed.
Lemma reversed_length a : String.length (reversed a) = String.length a.
Proof.
  induction a as [|c a IH]; [reflexivity|]. cbn [reversed]. pose proof (len_app (reversed a) (String c "")) as H. unfold len in H. cbn in *. lia.
Qed.

(** ** Integers *)
Lemma len_le w n : len (le_digits w n) = Z.of_nat w. Proof. unfold len. now rewrite le_length. Qed.
Lemma signed_le n z : (- (256 ^ Z.of_nat n) <= 2 * z < 256 ^ Z.of_nat n)%Z -> signed (le_digits n (z mod 256 ^ Z.of_nat n)) = z.
Proof.
  intro H. unfold signed. rewrite len_le. assert (Hp : (0 < 256 ^ Z.of_nat n)%Z) by (apply Z.pow_pos_nonneg; lia).
  rewrite from_le by (apply Z.mod_pos_bound; lia).
  destruct (Z.le_gt_cases 0 z) as [Hz|Hz].
  - rewrite Z.mod_small by lia. destruct (Z.ltb_spec (2 * z) (256 ^ Z.of_nat n)); lia.
  - replace (z mod 256 ^ Z.of_nat n)%Z with (z + 256 ^ Z.of_nat n)%Z.
    + destruct (Z.ltb_spec (2 * (z + 256 ^ Z.of_nat n)) (256 ^ Z.of_nat n)); lia.
    + rewrite <- (Z.mod_add z 1) by lia. rewrite Z.mul_1_l. symmetry. apply Z.mod_small. lia.
Qed.
Lemma num_bits_ok z : (Z.abs z < 2 ^ num_bits z)%Z /\ (0 <= num_bits z)%Z.
Proof.
  unfold num_bits. destruct (Z.eqb_spec z 0) as [->|Hz]; [split; cbn; lia|]. pose proof (Z.log2_nonneg (Z.abs z)).
  split; [|lia]. pose proof (Z.log2_spec (Z.abs z)). replace (Z.log2 (Z.abs z) + 1)%Z with (Z.succ (Z.log2 (Z.abs z))) by lia. lia.
Qed.
Lemma long_bytes_ok z : signed (long_bytes z) = z.
Proof.
  unfold long_bytes. set (n := S (Z.to_nat (num_bits z / 8))). destruct (num_bits_ok z) as [H1 H2].
  match goal with |- context[if ?b then _ else _] => destruct b eqn:E end.
  - apply andb_true_iff in E as [E E3]. apply andb_true_iff in E as [E1 E2]. apply Z.ltb_lt in E1, E2. apply Z.leb_le in E3.
    apply signed_le. assert (0 < 256 ^ Z.of_nat (n - 1))%Z by (apply Z.pow_pos_nonneg; lia). lia.
  - apply signed_le.
    assert (Hn : (2 * 2 ^ num_bits z <= 256 ^ Z.of_nat n)%Z).
    { change 256%Z with (2 ^ 8)%Z. rewrite <- Z.pow_mul_r by lia. rewrite <- Z.pow_succ_r by lia. apply Z.pow_le_mono_r; [lia|].
      unfold n. rewrite Nat2Z.inj_succ, Z2Nat.id by (apply Z.div_pos; lia). pose proof (Z.div_mod (num_bits z) 8). pose proof (Z.mod_pos_bound (num_bits z) 8). lia. }
    lia.
Qed.

(** ** Opcodes *)
Ltac known_byte :=
  match goal with |- context[N_of_ascii (ascii_of_N ?n)] =>
    let x := eval vm_compute in (N_of_ascii (ascii_of_N n)) in
    change (N_of_ascii (ascii_of_N n)) with x end.
Ltac head_byte := unfold byte; cbn [append]; unfold parse; known_byte; cbv iota beta zeta.

Lemma field_le A w n r (f : Z -> string -> option A) : (0 <= n < 256 ^ Z.of_nat w)%Z -> field w (le_digits w n ++ r) f = f n r.
Proof. intro H. unfold field. rewrite (cut_w w) by apply le_length. now rewrite from_le. Qed.
Lemma read_sized_ok w d r f o : (len d < 256 ^ Z.of_nat w)%Z -> f d = Some o ->
  read_sized w (le_digits w (len d) ++ d ++ r) f = Some (o, r).
Proof. intros H E. unfold read_sized. pose proof (len_nonneg d). rewrite field_le by lia. rewrite cut_z_app. now rewrite E. Qed.

Lemma parse_int z r : (len (long_bytes z) < 2147483648)%Z -> parse (int_code z ++ r) = Some (OPush (PInt z), r).
Proof.
  intro H. unfold int_code. destruct ((-2147483648 <=? z) && (z <=? 2147483647))%Z eqn:E.
  - apply andb_true_iff in E as [E1 E2]. apply Z.leb_le in E1, E2.
    destruct ((0 <=? z) && (z <? 256))%Z eqn:F; [|destruct ((0 <=? z) && (z <? 65536))%Z eqn:G].
    + apply andb_true_iff in F as [F1 F2]. apply Z.leb_le in F1. apply Z.ltb_lt in F2. rewrite app_ass. head_byte.
      rewrite field_le by (cbn; lia). reflexivity.
    + apply andb_true_iff in G as [F1 F2]. apply Z.leb_le in F1. apply Z.ltb_lt in F2. rewrite app_ass. head_byte.
      rewrite field_le by (cbn; lia). reflexivity.
    + rewrite app_ass. head_byte. rewrite (cut_w 4) by apply le_length. change (256 ^ 4)%Z with (256 ^ Z.of_nat 4)%Z. rewrite signed_le; [reflexivity|]. change (256 ^ Z.of_nat 4)%Z with 4294967296%Z. lia.
  - cbv zeta. destruct (Z.ltb_spec (len (long_bytes z)) 256).
    + rewrite !app_ass. head_byte. rewrite read_sized_ok with (o := OPush (PInt z)); [reflexivity|cbn; lia|]. unfold as_int. now rewrite long_bytes_ok.
    + rewrite !app_ass. head_byte. pose proof (len_nonneg (long_bytes z)). rewrite field_le by (change (256 ^ Z.of_nat 4)%Z with 4294967296%Z; lia).
      destruct (Z.ltb_spec (len (long_bytes z)) 2147483648); [|lia].
      rewrite read_sized_ok with (o := OPush (PInt z)); [reflexivity|change (256 ^ Z.of_nat 4)%Z with 4294967296%Z; lia|]. unfold as_int. now rewrite long_bytes_ok.
Qed.
Lemma parse_sized c1 c4 c8 d r f o : (len d < 256 ^ 8)%Z -> f d = Some o ->
  (forall r, parse (byte c1 ++ r) = read_sized 1 r f) -> (forall r, parse (byte c4 ++ r) = read_sized 4 r f) ->
  (forall r, parse (byte c8 ++ r) = read_sized 8 r f) ->
  parse ((sized c1 c4 c8 d ++ d) ++ r) = Some (o, r).
Proof.
  intros H E H1 H4 H8. unfold sized. destruct (Z.ltb_spec (len d) 256); [|destruct (Z.ltb_spec (len d) (256 ^ 4))]; rewrite !app_ass.
  - rewrite H1. apply read_sized_ok; auto.
  - rewrite H4. apply read_sized_ok; auto.
  - rewrite H8. apply read_sized_ok; auto.
Qed.
Lemma parse_code o r : encodable o = true -> (forall n, o = OFrame n -> (n <= len r)%Z) -> parse (code o ++ r) = Some (o, r).
Proof.
  intros He Hf. destruct o as [v|n| | | | | | | |n| | |k|n|n|]; try reflexivity.
  - destruct v as [|[]|z|bits| |x]; try reflexivity; cbn [encodable code] in *.
    + apply parse_int. now apply Z.ltb_lt.
    + apply andb_true_iff in He as [H1 H2]. apply Z.leb_le in H1. apply Z.ltb_lt in H2. rewrite app_ass. head_byte.
      rewrite (cut_w 8) by (rewrite reversed_length; apply le_length). rewrite reversed_twice, from_le by (change (Z.of_nat 8) with 8%Z; lia). reflexivity.
    + discriminate.
  - destruct n as [s|b|l|l|d]; cbn [encodable code] in *.
    + apply parse_sized with (f := as_text); [now apply Z.ltb_lt|unfold as_text; now rewrite utf8_read|reflexivity..].
    + apply parse_sized with (f := as_bytes); [now apply Z.ltb_lt|reflexivity..].
    + destruct l; [reflexivity|discriminate].
    + discriminate.
    + destruct d; [reflexivity|discriminate].
  - cbn [encodable] in He. destruct n as [|[|[|[|n]]]]; try discriminate; reflexivity.
  - cbn [encodable code] in *. apply Z.ltb_lt in He. destruct (Z.ltb_spec (Z.of_nat k) 256); rewrite app_ass; head_byte.
    + rewrite field_le by (cbn; lia). now rewrite Nat2Z.id.
    + rewrite field_le by (change (Z.of_nat 4) with 4%Z; lia). now rewrite Nat2Z.id.
  - cbn [encodable code] in *. apply andb_true_iff in He as [H1 H2]. apply Z.leb_le in H1. apply Z.ltb_lt in H2. rewrite app_ass. head_byte.
    now rewrite field_le by (cbn; lia).
  - cbn [encodable code] in *. apply andb_true_iff in He as [H1 H2]. apply Z.leb_le in H1. apply Z.ltb_lt in H2. rewrite app_ass. head_byte.
    rewrite field_le by (change (Z.of_nat 8) with 8%Z; lia). specialize (Hf n eq_refl). destruct (Z.leb_spec n (len r)); [reflexivity|lia].
Qed.
Lemma code_length o : encodable o = true -> (1 <= len (code o))%Z.
Proof.
  intro He. assert (H : forall n s, (1 <= len (byte n ++ s))%Z) by (intros; unfold len, byte; cbn [append String.length]; lia).
  destruct o as [v|n| | | | | | | |n| | |k|n|n|]; cbn [code]; try (unfold len; cbn; lia); try apply H.
  - destruct v as [|[]|z|bits| |x]; try (unfold len; cbn; lia); try apply H.
    + unfold int_code. cbv zeta. repeat match goal with |- context[if ?b then _ else _] => destruct b end; apply H.
    + discriminate.
  - unfold sized. destruct n as [s|b|l|l|d]; try discriminate; try (unfold len; cbn; lia);
      repeat match goal with |- context[if ?b then _ else _] => destruct b end; rewrite app_ass; apply H.
  - destruct (Z.of_nat k <? 256)%Z; apply H.
Qed.
Lemma blob_code o hd data : blob o = Some (hd, data) -> code o = (hd ++ data)%string.
Proof. destruct o as [v|n| | | | | | | |n| | |k|n|n|]; try discriminate. destruct n; try discriminate; cbn; now intros [= <- <-]. Qed.

(** ** More input *)
Lemma field_more A w s t (f g : Z -> string -> option A) a :
  (forall n r b, f n r = Some b -> g n (r ++ t)%string = Some b) -> field w s f = Some a -> field w (s ++ t) g = Some a.
Proof. intros H. unfold field. destruct (cut w s) as [[x r]|] eqn:E; [|discriminate]. rewrite (cut_more _ _ _ _ _ E). auto. Qed.
Definition then_more (t : string) (x : option (opc * string)) : option (opc * string) :=
  match x with Some (o, r) => Some (o, (r ++ t)%string) | None => None end.
Lemma cut_z_more n s a r t : cut_z n s = Some (a, r) -> cut_z n (s ++ t) = Some (a, (r ++ t)%string).
Proof.
  unfold cut_z. rewrite len_app. pose proof (len_nonneg t). destruct (Z.leb_spec n (len s)); [|discriminate].
  destruct (Z.leb_spec n (len s + len t)); [|lia]. apply cut_more.
Qed.
Lemma read_sized_more w s t f o r : read_sized w s f = Some (o, r) -> read_sized w (s ++ t) f = Some (o, (r ++ t)%string).
Proof.
  unfold read_sized, field. destruct (cut w s) as [[x r1]|] eqn:E; [|discriminate]. rewrite (cut_more _ _ _ _ _ E).
  destruct (cut_z (from_bytes x) r1) as [[y r2]|] eqn:F; [|discriminate]. rewrite (cut_z_more _ _ _ _ _ F).
  destruct (f y); [|discriminate]. now intros [= <- <-].
Qed.
Lemma field_end w s t (f : Z -> option opc) o r :
  field w s (fun n r => match f n with Some o => Some (o, r) | None => None end) = Some (o, r) ->
  field w (s ++ t) (fun n r => match f n with Some o => Some (o, r) | None => None end) = Some (o, (r ++ t)%string).
Proof.
  unfold field. destruct (cut w s) as [[x r1]|] eqn:E; [|discriminate]. rewrite (cut_more _ _ _ _ _ E).
  destruct (f (from_bytes x)); [|discriminate]. now intros [= <- <-].
Qed.
Lemma cut_end w s t (f : string -> opc) o r :
  match cut w s with Some (a, r) => Some (f a, r) | None => None end = Some (o, r) ->
  match cut w (s ++ t) with Some (a, r) => Some (f a, r) | None => None end = Some (o, (r ++ t)%string).
Proof. destruct (cut w s) as [[x r1]|] eqn:E; [|discriminate]. rewrite (cut_more _ _ _ _ _ E). now intros [= <- <-]. Qed.
Lemma parse_more s t o r : parse s = Some (o, r) -> parse (s ++ t) = Some (o, (r ++ t)%string).
Proof.
  destruct s as [|c s]; [discriminate|]. cbn [append]. unfold parse.
  destruct c as [[] [] [] [] [] [] [] []]; 
  match goal with |- context[N_of_ascii ?a] => let x := eval vm_compute in (N_of_ascii a) in change (N_of_ascii a) with x end; cbv iota beta;
  try discriminate; try (now intros [= <- <-]); try apply read_sized_more; try apply cut_end.
  all: unfold field; match goal with |- match cut ?w ?s0 with _ => _ end = _ -> _ => destruct (cut w s0) as [[x r1]|] eqn:E; [|discriminate]; rewrite (cut_more _ _ _ _ _ E) end;
    try (now intros [= <- <-]).
  - destruct (_ <? _)%Z; [|discriminate]. apply read_sized_more.
  - rewrite len_app. pose proof (len_nonneg t). destruct (Z.leb_spec (from_bytes x) (len r1)); [|discriminate].
    destruct (Z.leb_spec (from_bytes x) (len r1 + len t)); [|lia]. now intros [= <- <-].
Qed.
Lemma parse_shorter s o r : parse s = Some (o, r) -> (len r < len s)%Z.
Proof.
  destruct s as [|c s]; [discriminate|]. unfold parse.
  assert (Hc : len (String c s) = (1 + len s)%Z) by (unfold len; cbn [String.length]; lia). rewrite Hc. clear Hc.
  assert (HC : forall w a b, cut w s = Some (a, b) -> (len b <= len s)%Z)
    by (intros w a b E; apply cut_split in E; subst s; rewrite len_app; pose proof (len_nonneg a); lia).
  assert (HR : forall w f o r, read_sized w s f = Some (o, r) -> (len r <= len s)%Z).
  { intros w f o' r'. unfold read_sized, field. destruct (cut w s) as [[x r1]|] eqn:E; [|discriminate]. apply HC in E. unfold cut_z.
    destruct (_ <=? _)%Z; [|discriminate]. destruct (cut _ r1) as [[y r2]|] eqn:F; [|discriminate]. apply cut_split in F. subst r1. rewrite len_app in E. pose proof (len_nonneg y).
    destruct (f y); [|discriminate]. intros [= <- <-]. lia. }
  destruct c as [[] [] [] [] [] [] [] []];
  match goal with |- context[N_of_ascii ?a] => let x := eval vm_compute in (N_of_ascii a) in change (N_of_ascii a) with x end; cbv iota beta;
  try discriminate; try (intros [= <- <-]; lia); try (intro H; apply HR in H; lia);
  unfold field; match goal with |- context[cut ?w s] => destruct (cut w s) as [[x r1]|] eqn:E; [|discriminate]; apply HC in E end; try (intros [= <- <-]; lia);
  match goal with |- context[(if ?b then _ else _) = _] => destruct b end; try discriminate; try (intros [= <- <-]; lia); try (intro H; apply HR in H; lia).
Qed.
