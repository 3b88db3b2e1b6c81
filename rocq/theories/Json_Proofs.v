(** What json.dumps writes can be read back. *)
From Coq Require Import Lia DecimalString Decimal DecimalZ DecimalFacts.
From Verif Require Export Track_Proofs.
From Verif Require Import Py_Facts.

Definition json_ind' (P : json -> Prop) (H0 : P JNull) (H1 : forall b, P (JBool b)) (H2 : forall z, P (JInt z))
    (H3 : forall s, P (JStr s)) (H4 : forall l, Forall P l -> P (JArr l))
    (H5 : forall l, Forall (fun kv => P (snd kv)) l -> P (JObj l)) : forall j, P j :=
  fix F j := match j with
             | JNull => H0 | JBool b => H1 b | JInt z => H2 z | JStr s => H3 s
             | JArr l => H4 l ((fix G l : Forall P l := match l with [] => Forall_nil _ | x :: r => Forall_cons _ (F x) (G r) end) l)
             | JObj l => H5 l ((fix G l : Forall (fun kv => P (snd kv)) l :=
                                  match l with [] => Forall_nil _ | x :: r => Forall_cons _ (F (snd x)) (G r) end) l)
             end.

(** Size: fuel that is enough to read it. *)
Fixpoint jsize (j : json) : nat :=
  match j with
  | JArr l => S (list_sum (map (fun x => S (jsize x)) l))
  | JObj l => S (list_sum (map (fun kv => S (jsize (snd kv))) l))
  | _ => 1
  end.

Lemma skip_spaces n s : skip_space (spaces n ++ s) = skip_space s.
Proof. induction n; cbn; auto. Qed.
Lemma skip_newline n s : skip_space (newline n ++ s) = skip_space s.
Proof. cbn. apply skip_spaces. Qed.

(** ** Strings *)

Lemma read_escape c s : read_chars (escape c ++ s) = keep c (read_chars s).
Proof.
  destruct c as [[] [] [] [] [] [] [] []]; reflexivity.
Qed.
Lemma read_escaped t s : read_chars (escaped t ++ String quote s) = Some (t, s).
Proof.
  induction t as [|c t IH]; [reflexivity|]. cbn [escaped]. rewrite sapp_assoc, read_escape, IH. reflexivity.
Qed.

(** ** Numbers *)

Definition no_digit (s : string) : Prop := match s with String c _ => is_digit c = false | _ => True end.

Lemma digits_app d s : no_digit s -> digits (NilEmpty.string_of_uint d ++ s) = (NilEmpty.string_of_uint d, s).
Proof.
  intro H. induction d; cbn; try (now rewrite IHd). destruct s; [reflexivity|]. cbn in *. now rewrite H.
Qed.
Lemma read_number_uint d s : no_digit s -> d <> Nil ->
  read_number (NilZero.string_of_uint d ++ s) = Some (Z.of_uint d, s).
Proof.
  intros H N. unfold read_number.
  assert (E : NilZero.string_of_uint d = NilEmpty.string_of_uint d) by (destruct d; [congruence|reflexivity..]).
  pose proof (NilZero.usu d N) as U.
  rewrite E in *. rewrite digits_app by exact H. rewrite U.
  destruct d; [congruence|reflexivity..].
Qed.

Lemma read_int z s f : no_digit s -> read_json (S f) (str_of_Z z ++ s) = Some (JInt z, s).
Proof.
  intro H. unfold str_of_Z, NilZero.string_of_int. rewrite <- (DecimalZ.of_to z) at 2.
  assert (N : Z.to_int z <> Pos Nil /\ Z.to_int z <> Neg Nil).
  { destruct z as [|p|p]; cbn; split; try discriminate; pose proof (DecimalPos.Unsigned.to_uint_nonnil p); congruence. }
  destruct N as [N1 N2]. destruct (Z.to_int z) as [d|d].
  - assert (N : d <> Nil) by congruence. pose proof (read_number_uint d s H N) as R.
    destruct d; try congruence; cbn [NilZero.string_of_uint NilEmpty.string_of_uint append read_json] in *;
      cbn [Ascii.eqb Bool.eqb quote]; rewrite R; reflexivity.
  - assert (N : d <> Nil) by congruence. pose proof (read_number_uint d s H N) as R.
    cbn [append read_json]. cbn [Ascii.eqb Bool.eqb quote]. rewrite R. reflexivity.
Qed.

(** ** Values *)

Definition is_int_json (j : json) : bool := match j with JInt _ => true | _ => false end.
Definition rest_ok (j : json) (s : string) : Prop := is_int_json j = true -> no_digit s.

Lemma str_of_Z_start z : exists c r, str_of_Z z = String c r /\ is_space c = false /\ c <> "]"%char /\ c <> "}"%char.
Proof.
  unfold str_of_Z, NilZero.string_of_int, NilZero.string_of_uint.
  destruct (Z.to_int z) as [d|d]; [destruct d|];
    (eexists; eexists; split; [reflexivity|]; repeat split; discriminate).
Qed.

(** Printed values start with a character that is not a space or a closing
    bracket. *)
Lemma print_start lvl j : exists c r, print lvl j = String c r /\ is_space c = false /\ c <> "]"%char /\ c <> "}"%char.
Proof.
  destruct j as [|[]|z|s|[|x l]|[|x l]]; try (cbn; eexists; eexists; split; [reflexivity|]; repeat split; discriminate).
  apply str_of_Z_start.
Qed.
Lemma skip_print lvl j s : skip_space (print lvl j ++ s) = (print lvl j ++ s)%string.
Proof. destruct (print_start lvl j) as (c & r & -> & H & _). cbn. now rewrite H. Qed.

Definition Reads (j : json) : Prop := forall lvl s f, jsize j <= f -> rest_ok j s ->
  read_json f (print lvl j ++ s) = Some (j, s).

Lemma commas_cons n x y l : commas n (x :: y :: l) = (x ++ String "," (newline n) ++ commas n (y :: l))%string.
Proof. reflexivity. Qed.

Lemma read_items_print lvl n m l : forall f s, Forall Reads l -> l <> [] ->
  list_sum (map (fun x => S (jsize x)) l) <= f ->
  read_items f (commas n (map (print lvl) l) ++ newline m ++ String "]" s) = Some (l, s).
Proof.
  intros f s. revert f. induction l as [|x l IH]; intros f H N L; [congruence|].
  inversion H as [|? ? Hx Hl]; subst. cbn [map list_sum] in L. destruct f as [|f]; [cbn in L; lia|].
  destruct l as [|y l].
  - cbn [map commas read_items]. rewrite Hx; [|cbn in L; lia|intros _; reflexivity].
    rewrite skip_newline. reflexivity.
  - cbn [map]. rewrite commas_cons. rewrite !sapp_assoc. cbn [append]. cbn [read_items].
    rewrite Hx; [|cbn in L; lia|intros _; reflexivity].
    cbn [skip_space is_space Ascii.eqb Bool.eqb orb]. rewrite ?sapp_assoc, skip_newline.
    specialize (IH f Hl ltac:(discriminate) ltac:(cbn in *; lia)). cbn [map] in IH.
    assert (E : skip_space (commas n (print lvl y :: map (print lvl) l) ++ newline m ++ String "]" s) =
                (commas n (print lvl y :: map (print lvl) l) ++ newline m ++ String "]" s)%string).
    { destruct l as [|z l]; [apply skip_print|]. cbn [map]. rewrite commas_cons, sapp_assoc. apply skip_print. }
    rewrite E, IH. reflexivity.
Qed.

Definition member lvl (kv : string * json) : string :=
  (quoted (fst kv) ++ String ":" (String " " (print lvl (snd kv))))%string.

Lemma read_members_print lvl n m l : forall f s, Forall (fun kv => Reads (snd kv)) l -> l <> [] ->
  list_sum (map (fun kv => S (jsize (snd kv))) l) <= f ->
  read_members f (commas n (map (member lvl) l) ++ newline m ++ String "}" s) = Some (l, s).
Proof.
  intros f s. revert f. induction l as [|[k x] l IH]; intros f H N L; [congruence|].
  inversion H as [|? ? Hx Hl]; subst. cbn [map list_sum snd] in *. destruct f as [|f]; [cbn in L; lia|].
  assert (M : forall t, (member lvl (k, x) ++ t)%string =
      String quote (escaped k ++ String quote (String ":" (String " " (print lvl x ++ t))))%string).
  { intro t. unfold member, quoted. cbn [fst snd append]. now rewrite !sapp_assoc. }
  destruct l as [|y l].
  - cbn [map commas]. rewrite M. cbn [read_members]. rewrite Ascii.eqb_refl, read_escaped.
    cbn [skip_space is_space Ascii.eqb Bool.eqb orb]. rewrite skip_print.
    rewrite Hx; [|cbn in L; lia|intros _; reflexivity]. rewrite skip_newline. reflexivity.
  - cbn [map]. rewrite commas_cons, sapp_assoc, M. cbn [read_members]. rewrite Ascii.eqb_refl, read_escaped.
    cbn [skip_space is_space Ascii.eqb Bool.eqb orb]. rewrite skip_print.
    rewrite Hx; [|cbn in L; lia|intros _; reflexivity]. cbn [append].
    cbn [skip_space is_space Ascii.eqb Bool.eqb orb]. rewrite ?sapp_assoc, skip_newline.
    specialize (IH f Hl ltac:(discriminate) ltac:(cbn in *; lia)). cbn [map] in IH.
    assert (E : skip_space (commas n (member lvl y :: map (member lvl) l) ++ newline m ++ String "}" s) =
                (commas n (member lvl y :: map (member lvl) l) ++ newline m ++ String "}" s)%string).
    { destruct l as [|z l]; reflexivity. }
    rewrite E, IH. reflexivity.
Qed.

Lemma reads_all j : Reads j.
Proof.
  induction j as [|b|z|t|l IH|l IH] using json_ind'; intros lvl s f L R;
    (destruct f as [|f]; [cbn in L; lia|]).
  - reflexivity.
  - now destruct b.
  - apply read_int. now apply R.
  - cbn [print]. unfold quoted. cbn [append read_json]. rewrite sapp_assoc.
    cbn [Ascii.eqb Bool.eqb quote]. cbn [append]. now rewrite read_escaped.
  - destruct l as [|x l]; [reflexivity|].
    assert (I : read_items f (commas (S lvl) (map (print (S lvl)) (x :: l)) ++ newline lvl ++ String "]" s) = Some (x :: l, s)).
    { apply read_items_print; [exact IH|discriminate|]. cbn [jsize] in L. lia. }
    change (print lvl (JArr (x :: l))) with
      (String "[" (newline (S lvl) ++ commas (S lvl) (map (print (S lvl)) (x :: l)) ++ newline lvl ++ "]")%string).
    cbn [append read_json]. cbn [Ascii.eqb Bool.eqb quote].
    rewrite !sapp_assoc, skip_newline. cbn [append].
    assert (E : exists c r, (commas (S lvl) (map (print (S lvl)) (x :: l)) ++ newline lvl ++ String "]" s)%string = String c r
                /\ is_space c = false /\ c <> "]"%char).
    { destruct (print_start (S lvl) x) as (c & r & E & Hs & Hc & _). cbn [map].
      destruct l as [|z l]; [|cbn [map]; rewrite commas_cons]; cbn [commas map]; rewrite E; eexists; eexists; cbn; eauto. }
    destruct E as (c & r & E & Hs & Hc). cbn [append] in E. rewrite E in *. cbn [skip_space]. rewrite Hs.
    destruct (Ascii.eqb_spec c "]"); [congruence|]. rewrite I. reflexivity.
  - destruct l as [|x l]; [reflexivity|].
    assert (I : read_members f (commas (S lvl) (map (member (S lvl)) (x :: l)) ++ newline lvl ++ String "}" s) = Some (x :: l, s)).
    { apply read_members_print; [exact IH|discriminate|]. cbn [jsize] in L. lia. }
    change (print lvl (JObj (x :: l))) with
      (String "{" (newline (S lvl) ++ commas (S lvl) (map (member (S lvl)) (x :: l)) ++ newline lvl ++ "}")%string).
    cbn [append read_json]. cbn [Ascii.eqb Bool.eqb quote].
    rewrite !sapp_assoc, skip_newline. cbn [append].
    assert (E : exists r, (commas (S lvl) (map (member (S lvl)) (x :: l)) ++ newline lvl ++ String "}" s)%string = String quote r).
    { cbn [map]. destruct l as [|z l]; eexists; reflexivity. }
    destruct E as (r & E). cbn [append] in E. rewrite E in *. cbn [skip_space is_space quote Ascii.eqb Bool.eqb orb].
    rewrite I. reflexivity.
Qed.

(** ** The text is long enough *)

Lemma commas_length n l : list_sum (map String.length l) + 2 * List.length l <= String.length (commas n l) + 2.
Proof.
  induction l as [|x l IH]; [cbn; lia|]. destruct l as [|y l]; [cbn; lia|].
  rewrite commas_cons, !slength_app. unfold list_sum in *. cbn [map fold_right List.length String.length newline] in *. lia.
Qed.

Lemma member_length lvl kv : String.length (print lvl (snd kv)) <= String.length (member lvl kv).
Proof. unfold member. rewrite slength_app. cbn [String.length]. lia. Qed.

Lemma print_length lvl j : jsize j <= String.length (print lvl j).
Proof.
  revert lvl. induction j as [|b|z|t|l IH|l IH] using json_ind'; intro lvl; try (cbn; lia).
  - destruct b; cbn; lia.
  - destruct (str_of_Z_start z) as (c & r & E & _). cbn [print jsize]. rewrite E. cbn. lia.
  - destruct l as [|x l]; [cbn; lia|].
    change (print lvl (JArr (x :: l))) with
      (String "[" (newline (S lvl) ++ commas (S lvl) (map (print (S lvl)) (x :: l)) ++ newline lvl ++ "]")%string).
    pose proof (commas_length (S lvl) (map (print (S lvl)) (x :: l))) as C.
    cbn [String.length]. rewrite !slength_app. rewrite map_length in C.
    assert (G : list_sum (map (fun x => S (jsize x)) (x :: l)) <=
                list_sum (map String.length (map (print (S lvl)) (x :: l))) + List.length (x :: l)).
    { clear C. revert IH. generalize (x :: l). intros l' H. induction H as [|y l' Hy _ IHl]; cbn; [lia|].
      specialize (Hy (S lvl)). unfold list_sum in *. lia. }
    cbn [jsize]. cbn [newline String.length] in *. lia.
  - destruct l as [|x l]; [cbn; lia|].
    change (print lvl (JObj (x :: l))) with
      (String "{" (newline (S lvl) ++ commas (S lvl) (map (member (S lvl)) (x :: l)) ++ newline lvl ++ "}")%string).
    pose proof (commas_length (S lvl) (map (member (S lvl)) (x :: l))) as C.
    cbn [String.length]. rewrite !slength_app. rewrite map_length in C.
    assert (G : list_sum (map (fun kv => S (jsize (snd kv))) (x :: l)) <=
                list_sum (map String.length (map (member (S lvl)) (x :: l))) + List.length (x :: l)).
    { clear C. revert IH. generalize (x :: l). intros l' H. induction H as [|y l' Hy _ IHl]; [cbn; lia|].
      specialize (Hy (S lvl)). pose proof (member_length (S lvl) y). unfold list_sum in *.
      cbn [map fold_right List.length] in *. lia. }
    cbn [jsize]. cbn [newline String.length] in *. lia.
Qed.

Lemma read_print lvl j s : rest_ok j s -> read_value (print lvl j ++ s) = Some (j, s).
Proof.
  intro H. apply reads_all; [|exact H]. rewrite slength_app. pose proof (print_length lvl j). lia.
Qed.

(** ** Reading on *)

Lemma skip_app s q : skip_space s <> ""%string -> skip_space (s ++ q) = (skip_space s ++ q)%string.
Proof.
  induction s as [|c s IH]; cbn; [congruence|]. destruct (is_space c); [exact IH|reflexivity].
Qed.
Lemma after_app p s q r : after p s = Some r -> after p (s ++ q) = Some (r ++ q)%string.
Proof.
  revert s. induction p as [|a p IH]; intros s; cbn.
  - intro H. now injection H as ->.
  - destruct s as [|b s]; [discriminate|]. cbn. destruct (Ascii.eqb a b); [apply IH|discriminate].
Qed.

Lemma read_chars_app n : forall s q t r, String.length s <= n -> read_chars s = Some (t, r) ->
  read_chars (s ++ q) = Some (t, (r ++ q)%string).
Proof.
  induction n as [|n IH]; intros s q t r L; (destruct s as [|c s]; [discriminate|]); [cbn in L; lia|].
  cbn [append read_chars]. cbn in L.
  destruct (Ascii.eqb c quote); [intro H; now injection H as <- <-|].
  assert (K : forall d u, String.length u <= n -> keep d (read_chars u) = Some (t, r) ->
              keep d (read_chars (u ++ q)) = Some (t, (r ++ q)%string)).
  { intros d u Lu. destruct (read_chars u) as [[t' r']|] eqn:E; [|discriminate].
    cbn [keep]. intro H. injection H as <- <-. now rewrite (IH _ q _ _ Lu E). }
  destruct (Ascii.eqb c backslash).
  - destruct s as [|e s]; [discriminate|]. cbn [append]. destruct (Ascii.eqb e "u").
    + destruct s as [|z1 [|z2 [|a [|b s]]]]; try discriminate. cbn [append].
      destruct (_ && _); [|discriminate]. destruct (hex_value a); [|discriminate].
      destruct (hex_value b); [|discriminate]. apply K. cbn in L. lia.
    + destruct (unescape e); [|discriminate]. apply K. cbn in L. lia.
  - destruct (Nat.leb 32 _); [|discriminate]. apply K. lia.
Qed.

Lemma digits_spec s : let (d, r) := digits s in s = (d ++ r)%string /\ no_digit r.
Proof.
  induction s as [|c s IH]; cbn; [auto|]. destruct (is_digit c) eqn:E; [|cbn; auto].
  destruct (digits s) as [d r]. destruct IH as [-> H]. auto.
Qed.
Lemma digits_more s q d r : digits s = (d, r) -> r <> ""%string -> digits (s ++ q) = (d, (r ++ q)%string).
Proof.
  revert d r. induction s as [|c s IH]; intros d r; cbn.
  - intro H. injection H as <- <-. congruence.
  - destruct (is_digit c).
    + destruct (digits s) as [d' r']. intro H. injection H as <- <-. intro N. now rewrite (IH d' r' eq_refl N).
    + intro H. injection H as <- <-. reflexivity.
Qed.
Lemma read_number_app s q z r : read_number s = Some (z, r) -> r <> ""%string ->
  read_number (s ++ q) = Some (z, (r ++ q)%string).
Proof.
  unfold read_number. destruct (digits s) as [d r'] eqn:E. intros H N.
  destruct d as [|c d]; [discriminate|]. destruct (NilZero.uint_of_string _) eqn:U; [|discriminate].
  injection H as <- <-. rewrite (digits_more _ q _ _ E N), U. reflexivity.
Qed.

Lemma read_app f :
  (forall s q j r f', f <= f' -> read_json f s = Some (j, r) -> is_int_json j = false \/ r <> ""%string ->
     read_json f' (s ++ q) = Some (j, (r ++ q)%string)) /\
  (forall s q l r f', f <= f' -> read_items f s = Some (l, r) -> read_items f' (s ++ q) = Some (l, (r ++ q)%string)) /\
  (forall s q l r f', f <= f' -> read_members f s = Some (l, r) -> read_members f' (s ++ q) = Some (l, (r ++ q)%string)).
Proof.
  induction f as [|f IH]; [repeat split; discriminate|]. destruct IH as (IHj & IHi & IHm).
  assert (NE : forall r c r', skip_space r = String c r' -> r <> ""%string).
  { intros r c r' H E. subst r. discriminate. }
  split; [|split].
  - intros s q j r f' L H N. destruct s as [|c s]; [discriminate|]. destruct f' as [|f']; [lia|].
    assert (L' : f <= f') by lia. cbn [append read_json] in *.
    destruct (Ascii.eqb c "n").
    { destruct (after "ull" s) as [r'|] eqn:E; [|discriminate]. cbn [literal] in H. injection H as <- <-.
      now rewrite (after_app _ _ q _ E). }
    destruct (Ascii.eqb c "t").
    { destruct (after "rue" s) as [r'|] eqn:E; [|discriminate]. cbn [literal] in H. injection H as <- <-.
      now rewrite (after_app _ _ q _ E). }
    destruct (Ascii.eqb c "f").
    { destruct (after "alse" s) as [r'|] eqn:E; [|discriminate]. cbn [literal] in H. injection H as <- <-.
      now rewrite (after_app _ _ q _ E). }
    destruct (Ascii.eqb c quote).
    { destruct (read_chars s) as [[t r']|] eqn:E; [|discriminate]. cbn [ored] in H. injection H as <- <-.
      now rewrite (read_chars_app _ _ q _ _ (le_n _) E). }
    destruct (Ascii.eqb c "-").
    { destruct (read_number s) as [[z r']|] eqn:E; [|discriminate]. cbn [ored] in H. injection H as <- <-.
      destruct N as [N|N]; [discriminate|]. now rewrite (read_number_app _ q _ _ E N). }
    destruct (Ascii.eqb c "[").
    { destruct (skip_space s) as [|e r'] eqn:E; [discriminate|].
      rewrite skip_app, E by congruence. cbn [append]. destruct (Ascii.eqb e "]"); [now injection H as <- <-|].
      destruct (read_items f (String e r')) as [[l r'']|] eqn:E2; [|discriminate]. cbn [ored] in H. injection H as <- <-.
      change (String e (r' ++ q)) with (String e r' ++ q)%string. now rewrite (IHi _ q _ _ f' L' E2). }
    destruct (Ascii.eqb c "{").
    { destruct (skip_space s) as [|e r'] eqn:E; [discriminate|].
      rewrite skip_app, E by congruence. cbn [append]. destruct (Ascii.eqb e "}"); [now injection H as <- <-|].
      destruct (read_members f (String e r')) as [[l r'']|] eqn:E2; [|discriminate]. cbn [ored] in H. injection H as <- <-.
      change (String e (r' ++ q)) with (String e r' ++ q)%string. now rewrite (IHm _ q _ _ f' L' E2). }
    destruct (read_number (String c s)) as [[z r']|] eqn:E; [|discriminate]. cbn [ored] in H. injection H as <- <-.
    destruct N as [N|N]; [discriminate|].
    change (String c (s ++ q)) with (String c s ++ q)%string. now rewrite (read_number_app _ q _ _ E N).
  - intros s q l r f' L H. destruct f' as [|f']; [lia|]. assert (L' : f <= f') by lia. cbn [read_items] in *.
    destruct (read_json f s) as [[j r1]|] eqn:E; [|discriminate].
    destruct (skip_space r1) as [|e r2] eqn:E1; [discriminate|].
    rewrite (IHj _ q _ _ f' L' E) by (right; eapply NE; eauto).
    rewrite skip_app, E1 by congruence. cbn [append].
    destruct (Ascii.eqb e "]"); [now injection H as <- <-|]. destruct (Ascii.eqb e ","); [|discriminate].
    destruct (read_items f (skip_space r2)) as [[l' r3]|] eqn:E2; [|discriminate]. cbn [ored] in H. injection H as <- <-.
    rewrite skip_app; [now rewrite (IHi _ q _ _ f' L' E2)|].
    intro Z. rewrite Z in E2. destruct f; [discriminate|]. cbn [read_items] in E2. destruct f; discriminate.
  - intros s q l r f' L H. destruct s as [|c s]; [discriminate|]. destruct f' as [|f']; [lia|].
    assert (L' : f <= f') by lia. cbn [append read_members] in *.
    destruct (Ascii.eqb c quote); [|discriminate].
    destruct (read_chars s) as [[k r0]|] eqn:E0; [|discriminate].
    rewrite (read_chars_app _ _ q _ _ (le_n _) E0).
    destruct (skip_space r0) as [|e r1] eqn:E1; [discriminate|].
    rewrite skip_app, E1 by congruence. cbn [append]. destruct (Ascii.eqb e ":"); [|discriminate].
    destruct (read_json f (skip_space r1)) as [[j r2]|] eqn:E2; [|discriminate].
    destruct (skip_space r2) as [|e' r3] eqn:E3; [discriminate|].
    rewrite skip_app by (intro Z; rewrite Z in E2; destruct f; discriminate).
    rewrite (IHj _ q _ _ f' L' E2) by (right; eapply NE; eauto).
    rewrite skip_app, E3 by congruence. cbn [append].
    destruct (Ascii.eqb e' "}"); [now injection H as <- <-|]. destruct (Ascii.eqb e' ","); [|discriminate].
    destruct (read_members f (skip_space r3)) as [[l' r4]|] eqn:E4; [|discriminate]. cbn [ored] in H. injection H as <- <-.
    rewrite skip_app; [now rewrite (IHm _ q _ _ f' L' E4)|].
    intro Z. rewrite Z in E4. destruct f; discriminate.
Qed.

(** ** Documents *)

Lemma json_reader : reader_ok read_value is_document.
Proof.
  constructor.
  - intros doc j [[l ->] ->]. destruct l; eexists; reflexivity.
  - intros doc j s [[l ->] ->]. apply read_print. discriminate.
  - intros p q j [[l Hj] H] Hq. destruct (read_value p) as [[j' r]|] eqn:E; [exfalso|reflexivity].
    assert (R : read_value (p ++ q) = Some (j, ""%string)).
    { rewrite H. rewrite <- (sapp_nil (print 0 j)) . apply read_print. subst j. discriminate. }
    assert (Hi : is_int_json j' = false).
    { destruct p as [|c p]; [discriminate|]. assert (c = "{"%char).
      { subst j. destruct l; cbn in H; congruence. }
      subst c. unfold read_value in E. cbn [read_json] in E. cbn [Ascii.eqb Bool.eqb quote] in E.
      destruct (skip_space p) as [|e p']; [discriminate|]. destruct (Ascii.eqb e "}"); [now injection E as <- <-|].
      destruct (read_members _ _) as [[l' r']|]; [|discriminate]. cbn [ored] in E. now injection E as <- <-. }
    destruct (read_app (S (String.length p))) as [A _].
    specialize (A p q j' r (S (String.length (p ++ q))) ltac:(rewrite slength_app; lia) E (or_introl Hi)).
    unfold read_value in R. rewrite R in A. injection A as <- A. destruct r; [|discriminate]. cbn in A. congruence.
  - reflexivity.
  - intro r. reflexivity.
Qed.

(** What json.dumps yields denotes the document. *)
Lemma dumps_denotes d doc : json_dumps d = Ok doc -> exists j, json_dict json_jval d = Ok j /\ is_document doc j.
Proof.
  unfold json_dumps. destruct (json_dict json_jval d) as [j|e] eqn:E; [|discriminate]. cbn.
  intro H. injection H as <-. exists j. split; [reflexivity|]. split; [|reflexivity].
  unfold json_dict in E. destruct (mapM _ d) as [l|]; [|discriminate]. cbn in E. exists l. congruence.
Qed.
