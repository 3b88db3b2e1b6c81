(** UTF-8, and searching in text. *)
From Verif Require Export Scrape_Spec Py_Facts.
From Coq Require Export Lia.
Open Scope string_scope.

(** ** Strings *)

Lemma app_nil_rs (s : string) : s ++ "" = s.
Proof. induction s; cbn; [reflexivity|now f_equal]. Qed.
Lemma app_assoc_s (a b c : string) : (a ++ b) ++ c = a ++ (b ++ c).
Proof. induction a; cbn; [reflexivity|now f_equal]. Qed.
Lemma app_len (a b : string) : String.length (a ++ b) = (String.length a + String.length b)%nat.
Proof. induction a; cbn; [reflexivity|now f_equal]. Qed.
(** Two ways to split a string: one first part begins the other. *)
Lemma app_split (a b c d : string) : a ++ b = c ++ d ->
  (exists x, a = c ++ x /\ d = x ++ b) \/ (exists x c0, c = a ++ String c0 x /\ b = String c0 x ++ d).
Proof.
  revert c; induction a as [|h a IH]; intros c H.
  - destruct c as [|c0 c]; [left; exists ""; cbn in *; auto|]. right. exists c, c0. cbn in *. auto.
  - destruct c as [|c0 c]; [left; exists (String h a); cbn in *; auto|]. cbn in H. injection H as <- H.
    destruct (IH _ H) as [[x [-> ->]]|(x & c1 & -> & ->)]; [left; exists x; auto|right; exists x, c1; auto].
Qed.

(** ** UTF-8 *)

Local Arguments byte : simpl never.
Lemma byte_value n : (n < 256)%N -> N_of_ascii (byte n) = n.
Proof. apply N_ascii_embedding. Qed.
Lemma byte_of a : byte (N_of_ascii a) = a.
Proof. apply ascii_N_embedding. Qed.
Lemma ascii_bound a : (N_of_ascii a < 256)%N.
Proof. apply N_ascii_bounded. Qed.
Lemma rng_iff lo hi a : in_range lo hi a = true <-> (lo <= N_of_ascii a <= hi)%N.
Proof. unfold in_range. rewrite andb_true_iff, !N.leb_le. reflexivity. Qed.
Lemma rng_t lo hi n : (n < 256)%N -> (lo <= n <= hi)%N -> in_range lo hi (byte n) = true.
Proof. intros H G. apply rng_iff. rewrite byte_value; auto. Qed.
Lemma rng_f lo hi n : (n < 256)%N -> (n < lo \/ hi < n)%N -> in_range lo hi (byte n) = false.
Proof. intros H G. apply not_true_is_false. rewrite rng_iff, byte_value; lia. Qed.

Ltac divs := Z.to_euclidean_division_equations; lia.
Lemma div_facts c : (c = 64 * (c / 64) + c mod 64 /\ c mod 64 < 64 /\ c / 64 = 64 * (c / 64 / 64) + c / 64 mod 64 /\ c / 64 mod 64 < 64 /\
  c / 4096 = c / 64 / 64 /\ c / 4096 = 64 * (c / 4096 / 64) + c / 4096 mod 64 /\ c / 4096 mod 64 < 64 /\ c / 262144 = c / 4096 / 64)%N.
Proof.
  split; [apply N.div_mod; lia|]. split; [apply N.mod_lt; lia|]. split; [apply N.div_mod; lia|]. split; [apply N.mod_lt; lia|].
  split; [rewrite N.div_div by lia; reflexivity|]. split; [apply N.div_mod; lia|]. split; [apply N.mod_lt; lia|].
  rewrite N.div_div by lia. reflexivity.
Qed.

Lemma valid_encode c s : scalar c -> valid_utf8 (encode c ++ s) = valid_utf8 s.
Proof.
  intro S. unfold scalar in S. pose proof (div_facts c) as D. unfold encode.
  set (q := (c / 64)%N) in *. set (m := (c mod 64)%N) in *. set (q2 := (c / 4096)%N) in *. set (m2 := (q mod 64)%N) in *.
  set (q3 := (c / 262144)%N) in *. set (m3 := (q2 mod 64)%N) in *. set (qq := (q / 64)%N) in *. set (qqq := (q2 / 64)%N) in *.
  clearbody q m q2 m2 q3 m3 qq qqq.
  destruct (c <? 128)%N eqn:E1; [apply N.ltb_lt in E1|apply N.ltb_ge in E1].
  { cbn [append valid_utf8]. rewrite rng_t by lia. reflexivity. }
  destruct (c <? 2048)%N eqn:E2; [apply N.ltb_lt in E2|apply N.ltb_ge in E2].
  { cbn [append valid_utf8]. rewrite rng_f by lia. rewrite rng_t by lia. unfold tail_byte. rewrite rng_t by lia. reflexivity. }
  destruct (c <? 65536)%N eqn:E3; [apply N.ltb_lt in E3|apply N.ltb_ge in E3].
  { cbn [append valid_utf8]. rewrite rng_f by lia. rewrite rng_f by lia. rewrite rng_t by lia.
    unfold tail_byte. rewrite (rng_t 128 191 (128 + m)) by lia. rewrite byte_value by lia.
    rewrite rng_t; [reflexivity|lia|].
    destruct (N.eqb_spec (224 + q2) 224), (N.eqb_spec (224 + q2) 237); lia. }
  cbn [append valid_utf8]. rewrite rng_f by lia. rewrite rng_f by lia. rewrite rng_f by lia. rewrite rng_t by lia.
  unfold tail_byte. rewrite (rng_t 128 191 (128 + m)) by lia. rewrite (rng_t 128 191 (128 + m2)) by lia. rewrite byte_value by lia.
  rewrite rng_t; [reflexivity|lia|].
  destruct (N.eqb_spec (240 + q3) 240), (N.eqb_spec (240 + q3) 244); lia.
Qed.
Lemma valid_text cs : Forall scalar cs -> valid_utf8 (text_of cs) = true.
Proof. induction 1 as [|c cs H F IH]; [reflexivity|]. cbn [text_of]. now rewrite valid_encode. Qed.

Lemma uniq_div a b q r : (b <> 0 -> r < b -> a = b * q + r -> a / b = q /\ a mod b = r)%N.
Proof. intros B R E. split; [symmetry; apply N.div_unique with r; auto|symmetry; apply N.mod_unique with q; auto]. Qed.

Lemma encode2 a b : (194 <= a <= 223 -> 128 <= b <= 191 -> exists c, scalar c /\ encode c = String (byte a) (String (byte b) ""))%N.
Proof.
  intros A B. exists (64 * (a - 192) + (b - 128))%N. split; [unfold scalar; lia|].
  unfold encode. set (c := (64 * (a - 192) + (b - 128))%N).
  destruct (uniq_div c 64 (a - 192) (b - 128)) as [-> ->]; [lia|lia|reflexivity|].
  replace (c <? 128)%N with false by (symmetry; apply N.ltb_ge; unfold c; lia).
  replace (c <? 2048)%N with true by (symmetry; apply N.ltb_lt; unfold c; lia).
  do 2 f_equal; f_equal; lia.
Qed.
Lemma encode3 a b d : (224 <= a <= 239 -> (if a =? 224 then 160 else 128) <= b <= (if a =? 237 then 159 else 191) -> 128 <= d <= 191 ->
  exists c, scalar c /\ encode c = String (byte a) (String (byte b) (String (byte d) "")))%N.
Proof.
  intros A B D. set (q := (64 * (a - 224) + (b - 128))%N). set (c := (64 * q + (d - 128))%N). exists c.
  assert (B' : (128 <= b <= 191 /\ (a = 224 -> 160 <= b) /\ (a = 237 -> b <= 159))%N).
  { destruct (N.eqb_spec a 224), (N.eqb_spec a 237); lia. }
  split; [unfold scalar, c, q; lia|]. unfold encode.
  destruct (uniq_div c 64 q (d - 128)) as [H1 H2]; [lia|lia|reflexivity|].
  destruct (uniq_div q 64 (a - 224) (b - 128)) as [H3 H4]; [lia|lia|reflexivity|].
  assert (H5 : (c / 4096 = a - 224)%N). { change 4096%N with (64 * 64)%N. rewrite <- N.div_div by lia. now rewrite H1. }
  rewrite H1, H2, H4, H5.
  replace (c <? 128)%N with false by (symmetry; apply N.ltb_ge; unfold c, q; lia).
  replace (c <? 2048)%N with false by (symmetry; apply N.ltb_ge; unfold c, q; lia).
  replace (c <? 65536)%N with true by (symmetry; apply N.ltb_lt; unfold c, q; lia).
  replace (224 + (a - 224))%N with a by lia. replace (128 + (b - 128))%N with b by lia. replace (128 + (d - 128))%N with d by lia. reflexivity.
Qed.
Lemma encode4 a b d e : (240 <= a <= 244 -> (if a =? 240 then 144 else 128) <= b <= (if a =? 244 then 143 else 191) -> 128 <= d <= 191 -> 128 <= e <= 191 ->
  exists c, scalar c /\ encode c = String (byte a) (String (byte b) (String (byte d) (String (byte e) ""))))%N.
Proof.
  intros A B D E. set (q2 := (64 * (a - 240) + (b - 128))%N). set (q := (64 * q2 + (d - 128))%N). set (c := (64 * q + (e - 128))%N). exists c.
  assert (B' : (128 <= b <= 191 /\ (a = 240 -> 144 <= b) /\ (a = 244 -> b <= 143))%N).
  { destruct (N.eqb_spec a 240), (N.eqb_spec a 244); lia. }
  split; [unfold scalar, c, q, q2; lia|]. unfold encode.
  destruct (uniq_div c 64 q (e - 128)) as [H1 H2]; [lia|lia|reflexivity|].
  destruct (uniq_div q 64 q2 (d - 128)) as [H3 H4]; [lia|lia|reflexivity|].
  destruct (uniq_div q2 64 (a - 240) (b - 128)) as [H5 H6]; [lia|lia|reflexivity|].
  assert (H7 : (c / 4096 = q2)%N). { change 4096%N with (64 * 64)%N. rewrite <- N.div_div by lia. now rewrite H1. }
  assert (H8 : (c / 262144 = a - 240)%N). { change 262144%N with (4096 * 64)%N. rewrite <- N.div_div by lia. now rewrite H7. }
  rewrite H1, H2, H4, H7, H6, H8.
  replace (c <? 128)%N with false by (symmetry; apply N.ltb_ge; unfold c, q, q2; lia).
  replace (c <? 2048)%N with false by (symmetry; apply N.ltb_ge; unfold c, q, q2; lia).
  replace (c <? 65536)%N with false by (symmetry; apply N.ltb_ge; unfold c, q, q2; lia).
  replace (240 + (a - 240))%N with a by lia. replace (128 + (b - 128))%N with b by lia. replace (128 + (d - 128))%N with d by lia.
  replace (128 + (e - 128))%N with e by lia. reflexivity.
Qed.

Lemma text_cons c s : scalar c -> is_text s -> is_text (encode c ++ s).
Proof. intros H [cs [F ->]]. exists (c :: cs). split; [now constructor|reflexivity]. Qed.
Lemma valid_sound n : forall s, (String.length s <= n)%nat -> valid_utf8 s = true -> is_text s.
Proof.
  induction n as [|n IH]; intros s L V.
  - destruct s; [exists []; auto|cbn in L; lia].
  - destruct s as [|a r]; [exists []; auto|]. cbn [valid_utf8] in V. cbn in L.
    assert (Ba := ascii_bound a).
    destruct (in_range 0 127 a) eqn:E1.
    { apply rng_iff in E1. change (String a r) with (String a "" ++ r). replace (String a "") with (encode (N_of_ascii a)).
      - apply text_cons; [unfold scalar; lia|apply IH; [lia|exact V]].
      - unfold encode. replace (N_of_ascii a <? 128)%N with true by (symmetry; apply N.ltb_lt; lia). now rewrite byte_of. }
    destruct r as [|b r1]; [discriminate|]. cbn in L.
    destruct (in_range 194 223 a) eqn:E2.
    { apply andb_true_iff in V. destruct V as [V1 V]. apply rng_iff in E2, V1.
      destruct (encode2 _ _ E2 V1) as [c [Sc E]]. rewrite !byte_of in E.
      change (String a (String b r1)) with (String a (String b "") ++ r1). rewrite <- E. apply text_cons; [exact Sc|]. apply IH; [lia|exact V]. }
    destruct r1 as [|c r2]; [discriminate|]. cbn in L.
    destruct (in_range 224 239 a) eqn:E3.
    { rewrite !andb_true_iff in V. destruct V as [[V1 V2] V]. apply rng_iff in E3, V1, V2.
      destruct (encode3 _ _ _ E3 V1 V2) as [k [Sc E]]. rewrite !byte_of in E.
      change (String a (String b (String c r2))) with (String a (String b (String c "")) ++ r2). rewrite <- E. apply text_cons; [exact Sc|]. apply IH; [lia|exact V]. }
    destruct r2 as [|d r3]; [discriminate|]. cbn in L.
    rewrite !andb_true_iff in V. destruct V as [[[[V0 V1] V2] V3] V]. apply rng_iff in V0, V1, V2, V3.
    destruct (encode4 _ _ _ _ V0 V1 V2 V3) as [k [Sc E]]. rewrite !byte_of in E.
    change (String a (String b (String c (String d r3)))) with (String a (String b (String c (String d ""))) ++ r3). rewrite <- E. apply text_cons; [exact Sc|]. apply IH; [lia|exact V].
Qed.
Lemma decode_ok s : decode s = Ok s <-> is_text s.
Proof.
  unfold decode. destruct (valid_utf8 s) eqn:E.
  - split; [|reflexivity]. intros _. eapply valid_sound; eauto.
  - split; [discriminate|]. intros [cs [F ->]]. rewrite valid_text in E; [discriminate|exact F].
Qed.
Lemma decode_bad s : decode s = Exc UnicodeDecodeError <-> ~ is_text s.
Proof. rewrite <- decode_ok. unfold decode. destruct (valid_utf8 s); split; try discriminate; try tauto. Qed.
Lemma decode_other s r : decode s = r -> r = Ok s \/ r = Exc UnicodeDecodeError.
Proof. unfold decode. destruct (valid_utf8 s); intros <-; auto. Qed.

(** Cut right after an ASCII character, text stays text. *)
Lemma encode_high c x : scalar c -> (128 <= c)%N -> forall a b, encode c = a ++ String x b -> (128 <= N_of_ascii x)%N.
Proof.
  intros S H. pose proof (div_facts c) as D. unfold scalar in S. unfold encode.
  set (q := (c / 64)%N) in *. set (m := (c mod 64)%N) in *. set (q2 := (c / 4096)%N) in *. set (m2 := (q mod 64)%N) in *.
  set (q3 := (c / 262144)%N) in *. set (m3 := (q2 mod 64)%N) in *. set (qq := (q / 64)%N) in *. set (qqq := (q2 / 64)%N) in *.
  clearbody q m q2 m2 q3 m3 qq qqq.
  replace (c <? 128)%N with false by (symmetry; apply N.ltb_ge; lia).
  intros a b G.
  assert (A : all_chars (fun x => 128 <=? N_of_ascii x)%N (a ++ String x b) = true).
  { rewrite <- G.
    destruct (c <? 2048)%N eqn:E2; [apply N.ltb_lt in E2|apply N.ltb_ge in E2];
      [|destruct (c <? 65536)%N eqn:E3; [apply N.ltb_lt in E3|apply N.ltb_ge in E3]];
      cbn [all_chars]; rewrite !byte_value by lia; rewrite !andb_true_iff, !N.leb_le; lia. }
  clear G. induction a as [|h a IH]; cbn [append all_chars] in A; apply andb_true_iff in A; [now apply N.leb_le|tauto].
Qed.
Lemma encode_ne c : encode c <> "".
Proof. unfold encode. destruct (_ <? _)%N; [discriminate|]. destruct (_ <? _)%N; [discriminate|]. destruct (_ <? _)%N; discriminate. Qed.
Lemma text_cut cs : Forall scalar cs -> forall p x q, text_of cs = (p ++ String x "") ++ q -> (N_of_ascii x < 128)%N ->
  exists k, p ++ String x "" = text_of (firstn k cs) .
Proof.
  induction 1 as [|c cs H F IH]; intros p x q E X.
  - exfalso. cbn in E. destruct p; discriminate E.
  - cbn [text_of] in E. destruct (app_split _ _ _ _ E) as [[y [E1 E2]]|(y & c0 & E1 & E2)].
    + destruct y as [|y0 y].
      * exists 1%nat. cbn. rewrite app_nil_rs in *. now symmetry.
      * (* encode c goes beyond *)
        exfalso. destruct (N.lt_ge_cases c 128) as [L|L].
        -- unfold encode in E1. replace (c <? 128)%N with true in E1 by (symmetry; apply N.ltb_lt; lia).
           destruct p as [|p0 p]; cbn [append] in E1; [discriminate|]. injection E1 as _ E1. destruct p; discriminate.
        -- rewrite app_assoc_s in E1. cbn [append] in E1. assert (Q := encode_high c x H L _ _ E1). lia.
    + destruct (app_split p (String x "") (encode c) (String c0 y)) as [[z [E3 E4]]|(z & c1 & E3 & E4)]; [exact E1| |].
      * destruct (IH z x q) as [k Ek].
        { rewrite <- E4. exact E2. } { exact X. }
        exists (S k). cbn [firstn text_of]. rewrite E3, app_assoc_s, Ek. reflexivity.
      * exfalso. cbn [append] in E4. injection E4 as _ E4. destruct z; discriminate.
Qed.
Lemma is_text_cut p x q : is_text ((p ++ String x "") ++ q) -> (N_of_ascii x < 128)%N -> is_text (p ++ String x "").
Proof.
  intros [cs [F E]] X. symmetry in E. destruct (text_cut cs F p x q E X) as [k Ek]. exists (firstn k cs). split; [|exact Ek].
  clear -F. revert k. induction F; intros [|k]; cbn; constructor; auto.
Qed.
(** A first part of a text is a text iff no character is cut. *)
Lemma encode_prefix c a b : scalar c -> encode c = a ++ b -> a <> "" -> b <> "" -> valid_utf8 a = false.
Proof.
  intros S. pose proof (div_facts c) as D. unfold scalar in S. unfold encode.
  set (q := (c / 64)%N) in *. set (m := (c mod 64)%N) in *. set (q2 := (c / 4096)%N) in *. set (m2 := (q mod 64)%N) in *.
  set (q3 := (c / 262144)%N) in *. set (m3 := (q2 mod 64)%N) in *. set (qq := (q / 64)%N) in *. set (qqq := (q2 / 64)%N) in *.
  clearbody q m q2 m2 q3 m3 qq qqq.
  assert (R : forall lo hi n, (n < 256)%N -> (n < lo \/ hi < n)%N -> in_range lo hi (byte n) = false) by exact rng_f.
  destruct (c <? 128)%N eqn:E1; [apply N.ltb_lt in E1|apply N.ltb_ge in E1]; [|
  destruct (c <? 2048)%N eqn:E2; [apply N.ltb_lt in E2|apply N.ltb_ge in E2]; [|
  destruct (c <? 65536)%N eqn:E3; [apply N.ltb_lt in E3|apply N.ltb_ge in E3]]].
  - generalize (byte c). intros x G A B. destruct a as [|a0 a]; [congruence|]. cbn in G. injection G as <- G.
    destruct a; cbn in G; [subst b; congruence|discriminate].
  - assert (R1 := R 0%N 127%N (192 + q)%N ltac:(lia) ltac:(lia)). revert R1. generalize (byte (192 + q)), (byte (128 + m)). clear. intros x y R1 G A B.
    destruct a as [|a0 a]; [congruence|]. cbn in G. injection G as <- G.
    destruct a as [|a1 a]; cbn in G; [cbn [valid_utf8]; now rewrite R1|]. injection G as <- G. destruct a; cbn in G; [subst b; congruence|discriminate].
  - assert (R1 := R 0%N 127%N (224 + q2)%N ltac:(lia) ltac:(lia)). assert (R2 := R 194%N 223%N (224 + q2)%N ltac:(lia) ltac:(lia)).
    revert R1 R2. generalize (byte (224 + q2)), (byte (128 + m2)), (byte (128 + m)). clear. intros x y z R1 R2 G A B.
    destruct a as [|a0 a]; [congruence|]. cbn in G. injection G as <- G.
    destruct a as [|a1 a]; cbn in G; [cbn [valid_utf8]; now rewrite R1|]. injection G as <- G.
    destruct a as [|a2 a]; cbn in G; [cbn [valid_utf8]; now rewrite R1, R2|]. injection G as <- G. destruct a; cbn in G; [subst b; congruence|discriminate].
  - assert (R1 := R 0%N 127%N (240 + q3)%N ltac:(lia) ltac:(lia)). assert (R2 := R 194%N 223%N (240 + q3)%N ltac:(lia) ltac:(lia)).
    assert (R3 := R 224%N 239%N (240 + q3)%N ltac:(lia) ltac:(lia)).
    revert R1 R2 R3. generalize (byte (240 + q3)), (byte (128 + m3)), (byte (128 + m2)), (byte (128 + m)). clear. intros x y z w R1 R2 R3 G A B.
    destruct a as [|a0 a]; [congruence|]. cbn in G. injection G as <- G.
    destruct a as [|a1 a]; cbn in G; [cbn [valid_utf8]; now rewrite R1|]. injection G as <- G.
    destruct a as [|a2 a]; cbn in G; [cbn [valid_utf8]; now rewrite R1, R2|]. injection G as <- G.
    destruct a as [|a3 a]; cbn in G; [cbn [valid_utf8]; now rewrite R1, R2, R3|]. injection G as <- G.
    destruct a; cbn in G; [subst b; congruence|discriminate].
Qed.
Lemma text_prefix cs : Forall scalar cs -> forall a b, text_of cs = a ++ b -> (is_text a <-> exists k, a = text_of (firstn k cs)).
Proof.
  intros F a b E. split.
  - intro T. apply decode_ok in T. unfold decode in T. destruct (valid_utf8 a) eqn:V; [clear T|discriminate]. revert a b E V.
    induction F as [|c cs H F IH]; intros a b E V.
    + exists 0%nat. cbn in *. destruct a; [reflexivity|discriminate].
    + cbn [text_of] in E. destruct (app_split _ _ _ _ E) as [[y [E1 E2]]|(y & c0 & E1 & E2)].
      * destruct a as [|a0 a]; [exists 0%nat; reflexivity|]. destruct y as [|y0 y].
        -- exists 1%nat. cbn [firstn text_of]. rewrite app_nil_rs in *. now symmetry.
        -- rewrite (encode_prefix c _ _ H E1) in V; discriminate.
      * rewrite E1, valid_encode in V by exact H. destruct (IH _ b E2 V) as [k Ek]. exists (S k). cbn [firstn text_of]. now rewrite <- Ek.
  - intros [k ->]. exists (firstn k cs). split; [|reflexivity]. clear -F. revert k. induction F; intros [|k]; cbn; constructor; auto.
Qed.

(** ** Reading *)

Lemma take_spec n s : exists r, s = take n s ++ r /\ String.length (take n s) = Nat.min n (String.length s).
Proof.
  revert s; induction n as [|n IH]; intros [|c s]; cbn.
  - exists ""; auto. - exists (String c s); auto. - exists ""; auto.
  - destruct (IH s) as [r [E L]]. exists r. split; [now f_equal|]. now rewrite L.
Qed.
Lemma read_spec n s : exists r, s = read_n n s ++ r /\
  String.length (read_n n s) = if (n <? 0)%Z then String.length s else Nat.min (Z.to_nat n) (String.length s).
Proof.
  unfold read_n. destruct (n <? 0)%Z; [exists ""; split; [now rewrite app_nil_rs|reflexivity]|apply take_spec].
Qed.

(** ** Searching *)

Lemma prefix_ok t s : prefix t s = true <-> exists rest, s = t ++ rest.
Proof.
  revert s; induction t as [|c t IH]; intro s.
  - split; [intros _; exists s; reflexivity|]. intros _. destruct s; reflexivity.
  - destruct s as [|d s]; cbn.
    + split; [discriminate|]. intros [r H]. discriminate.
    + destruct (ascii_dec c d) as [->|N].
      * rewrite IH. split; intros [r H]; exists r; [now f_equal|now injection H].
      * split; [discriminate|]. intros [r H]. congruence.
Qed.
Lemma substring_all m s : (String.length s <= m)%nat -> substring 0 m s = s.
Proof. revert s; induction m as [|m IH]; intros [|c s] H; cbn in *; try reflexivity; [lia|]. f_equal. apply IH. lia. Qed.
Lemma substring_app p r m : (String.length r <= m)%nat -> substring (String.length p) m (p ++ r) = r.
Proof. induction p as [|c p IH]; cbn; [apply substring_all|auto]. Qed.
Lemma cut_eq pat s : cut pat s =
  if prefix pat s then Some (pat, substring (String.length pat) (String.length s) s)
  else match s with
       | "" => None
       | String c r => match cut pat r with Some (a, b) => Some (String c a, b) | None => None end
       end.
Proof. destruct s; reflexivity. Qed.
Lemma cut_some pat s : forall a b, cut pat s = Some (a, b) -> cut_after pat s a b.
Proof.
  induction s as [|c s IH]; intros a b; rewrite cut_eq; destruct (prefix pat _) eqn:E; try discriminate.
  - intro H. injection H as <- <-. apply prefix_ok in E. destruct E as [r E]. destruct pat; [|discriminate]. cbn in *.
    split; [reflexivity|]. split; [exists ""; reflexivity|]. intros; cbn; lia.
  - intro H. assert (Ea : a = pat) by congruence.
    assert (Eb : b = substring (String.length pat) (String.length (String c s)) (String c s)) by congruence. subst a b. clear H.
    apply prefix_ok in E. destruct E as [r E]. rewrite E. rewrite app_len, substring_app by lia.
    split; [reflexivity|]. split; [exists ""; reflexivity|]. intros a' b' _ [x ->]. rewrite app_len. lia.
  - destruct (cut pat s) as [[a0 b0]|] eqn:F; [|discriminate]. intro H. injection H as <- <-.
    destruct (IH _ _ eq_refl) as (E1 & [x E2] & M). split; [cbn; now f_equal|]. split; [exists (String c x); cbn; now f_equal|].
    intros a' b' E3 [y E4]. subst a'. destruct y as [|y0 y].
    + exfalso. assert (P : prefix pat (String c s) = true) by (apply prefix_ok; exists b'; exact E3). congruence.
    + cbn in E3. injection E3 as <- E3. cbn. apply le_n_S. eapply M; [exact E3|now exists y].
Qed.
Lemma cut_none pat s : cut pat s = None <-> ~ occurs pat s.
Proof.
  induction s as [|c s IH]; rewrite cut_eq; destruct (prefix pat _) eqn:E.
  - split; [discriminate|]. intro H. apply prefix_ok in E. destruct E as [r E]. exfalso. apply H. exists "", r. exact E.
  - split; [|reflexivity]. intros _ (a & b & H). destruct a; [|discriminate]. cbn in H.
    assert (P : prefix pat "" = true) by (apply prefix_ok; eauto). congruence.
  - split; [discriminate|]. intro H. apply prefix_ok in E. destruct E as [r E]. exfalso. apply H. exists "", r. exact E.
  - destruct (cut pat s) as [[a0 b0]|] eqn:F.
    + split; [discriminate|]. intro H. exfalso. apply cut_some in F. destruct F as (E1 & [x ->] & _). apply H. exists (String c x), b0.
      cbn. f_equal. rewrite E1. apply app_assoc_s.
    + split; [|reflexivity]. intros _ (a & b & H). destruct a as [|a0 a].
      * cbn in H. assert (P : prefix pat (String c s) = true) by (apply prefix_ok; eauto). congruence.
      * cbn in H. injection H as <- H. apply IH; [reflexivity|]. exists a, b. exact H.
Qed.
Lemma cut_after_fun pat s a b a' b' : cut_after pat s a b -> cut_after pat s a' b' -> a = a' /\ b = b'.
Proof.
  intros (E1 & N1 & M1) (E2 & N2 & M2). assert (L : String.length a = String.length a').
  { apply Nat.le_antisymm; [eapply M1; eauto|eapply M2; eauto]. }
  rewrite E1 in E2. clear -E2 L. revert a' E2 L. induction a as [|c a IH]; intros [|c' a'] E L; try discriminate; [auto|].
  cbn in E. injection E as <- E. injection L as L. destruct (IH _ E L) as [-> ->]. auto.
Qed.
Lemma cut_iff pat s a b : cut pat s = Some (a, b) <-> cut_after pat s a b.
Proof.
  split; [apply cut_some|]. intro H. destruct (cut pat s) as [[a' b']|] eqn:E.
  - apply cut_some in E. destruct (cut_after_fun _ _ _ _ _ _ H E) as [-> ->]. reflexivity.
  - exfalso. apply cut_none in E. destruct H as (-> & [x ->] & _). apply E. exists x, b. apply app_assoc_s.
Qed.
