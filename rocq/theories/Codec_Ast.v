(** What the AST codec writes can be read back, unless it is text. *)
From Coq Require Import Lia DecimalString Decimal DecimalZ DecimalFacts.
From Verif Require Export Codec_Proofs.
From Verif Require Import Py_Facts.

(** ** Text *)

Lemma lit_repr_char q c s : q = quote \/ q = apostrophe ->
  lit_chars q (repr_char q c ++ s) = keep c (lit_chars q s).
Proof. intros [->| ->]; destruct c as [[] [] [] [] [] [] [] []]; reflexivity. Qed.
Lemma lit_repr_chars q t s : q = quote \/ q = apostrophe ->
  lit_chars q (repr_chars q t ++ String q s) = Some (t, s).
Proof.
  intro Q. induction t as [|c t IH].
  - cbn [repr_chars append lit_chars]. now rewrite Ascii.eqb_refl.
  - cbn [repr_chars]. rewrite sapp_assoc, lit_repr_char, IH by exact Q. reflexivity.
Qed.
Lemma quote_for_cases s : quote_for s = quote \/ quote_for s = apostrophe.
Proof. unfold quote_for. destruct (_ && _); auto. Qed.

Definition no_digit_after (v : val) (s : string) : Prop :=
  match v with VAtom (KInt _) => no_digit s | _ => True end.

Lemma lit_str f t s : lit (S f) (repr_str t ++ s) = Some (VAtom (KStr t), s).
Proof.
  unfold repr_str. cbn [append]. rewrite sapp_assoc. cbn [append].
  pose proof (lit_repr_chars (quote_for t) t s (quote_for_cases t)) as R.
  destruct (quote_for_cases t) as [E|E]; rewrite E in *; cbn [lit]; cbn [Ascii.eqb Bool.eqb quote apostrophe orb];
    rewrite R; reflexivity.
Qed.
Lemma lit_int f z s : no_digit s -> lit (S f) (str_of_Z z ++ s) = Some (VAtom (KInt z), s).
Proof.
  intro H. unfold str_of_Z, NilZero.string_of_int. rewrite <- (DecimalZ.of_to z) at 2.
  assert (N : Z.to_int z <> Pos Nil /\ Z.to_int z <> Neg Nil).
  { destruct z as [|p|p]; cbn; split; try discriminate; pose proof (DecimalPos.Unsigned.to_uint_nonnil p); congruence. }
  destruct N as [N1 N2]. destruct (Z.to_int z) as [d|d].
  - assert (N : d <> Nil) by congruence. pose proof (read_number_uint d s H N) as R.
    destruct d; try congruence; cbn [NilZero.string_of_uint NilEmpty.string_of_uint append lit] in *;
      cbn [Ascii.eqb Bool.eqb quote apostrophe orb]; rewrite R; reflexivity.
  - assert (N : d <> Nil) by congruence. pose proof (read_number_uint d s H N) as R.
    cbn [append lit]. cbn [Ascii.eqb Bool.eqb quote apostrophe orb]. rewrite R. reflexivity.
Qed.
Lemma lit_key f k s : builtin k = true -> no_digit_after (VAtom k) s ->
  lit (S f) (repr_key k ++ s) = Some (VAtom k, s).
Proof.
  destruct k as [|[]|z|t|t n]; intros B N; try discriminate; try reflexivity.
  - now apply lit_int.
  - apply lit_str.
Qed.

(** ** Literals *)

Section Repr.
  Variable rm : cls -> string -> string.
  Notation repr := (repr rm).

  Fixpoint vsize (v : val) : nat :=
    match v with
    | VAtom _ => 1
    | VList l | VTup l => S (Nat.max 1 (list_sum (map (fun x => S (vsize x)) l)))
    | VDict _ d => S (Nat.max 1 (list_sum (map (fun kv => S (vsize (snd kv))) d)))
    end.
  Lemma vsize_pos v : 1 <= vsize v.
  Proof. destruct v; cbn; lia. Qed.

  Definition opens (c : ascii) : Prop :=
    blank c = false /\ c <> "]"%char /\ c <> ")"%char /\ c <> "}"%char.
  Lemma digit_opens d : d <> Nil -> exists c r, NilZero.string_of_uint d = String c r /\ opens c.
  Proof.
    intro N. destruct d; [congruence|..]; (eexists; eexists; split; [reflexivity|]; repeat split; discriminate).
  Qed.
  Lemma key_opens k : builtin k = true -> exists c r, repr_key k = String c r /\ opens c.
  Proof.
    destruct k as [|[]|z|t|t n]; intro B; try discriminate;
      try (eexists; eexists; split; [reflexivity|]; repeat split; discriminate).
    - cbn [repr_key py_str]. unfold str_of_Z, NilZero.string_of_int, NilZero.string_of_uint.
      destruct (Z.to_int z) as [d|d]; [destruct d|];
        (eexists; eexists; split; [reflexivity|]; repeat split; discriminate).
    - cbn [repr_key]. unfold repr_str. eexists; eexists; split; [reflexivity|].
      destruct (quote_for_cases t) as [-> | ->]; repeat split; discriminate.
  Qed.
  Lemma repr_opens v : is_literal v = true -> exists c r, repr v = String c r /\ opens c.
  Proof.
    destruct v as [k|l|[|x [|y l]]|[] d]; intro H; try discriminate;
      try (eexists; eexists; split; [reflexivity|]; repeat split; discriminate).
    now apply key_opens.
  Qed.
  Lemma skip_opens c r : opens c -> skip_blank (String c r) = String c r.
  Proof. intros [H _]. cbn. now rewrite H. Qed.
  Lemma skip_repr v s : is_literal v = true -> skip_blank (repr v ++ s) = (repr v ++ s)%string.
  Proof. intro H. destruct (repr_opens v H) as (c & r & -> & O). now apply skip_opens. Qed.
  Lemma skip_join v l s : is_literal v = true ->
    skip_blank (join ", " (repr v :: l) ++ s) = (join ", " (repr v :: l) ++ s)%string.
  Proof. intro H. destruct l as [|y l]; [now apply skip_repr|]. rewrite join_cons, sapp_assoc. now apply skip_repr. Qed.

  Definition LReads (v : val) : Prop := is_literal v = true -> wfv v = true ->
    forall s f, vsize v <= f -> no_digit_after v s -> lit f (repr v ++ s) = Some (v, s).

  Lemma no_digit_ok v c s : is_digit c = false -> no_digit_after v (String c s).
  Proof. intro H. destruct v as [[]| | |]; cbn; auto. Qed.

  Lemma skip_comma r : skip_blank (String "," r) = String "," r.
  Proof. reflexivity. Qed.
  Lemma skip_one r : skip_blank (String " " r) = skip_blank r.
  Proof. reflexivity. Qed.
  (** Elements up to the closing bracket, which comes right after the last. *)
  Lemma lit_items_repr close l : close = "]"%char \/ close = ")"%char -> forall f s,
    Forall LReads l -> forallb is_literal l = true -> forallb wfv l = true -> l <> [] ->
    list_sum (map (fun x => S (vsize x)) l) <= f ->
    lit_items f close (join ", " (map repr l) ++ String close s) = Some ((l, false), s).
  Proof.
    intros Q f s. revert f. induction l as [|x l IH]; intros f H HL HW N L; [congruence|].
    inversion H as [|? ? Hx Hl]; subst. cbn [map list_sum forallb] in *. destruct f as [|f]; [cbn in L; lia|].
    apply andb_true_iff in HL as [L1 L2], HW as [W1 W2].
    destruct (repr_opens x L1) as (c & r & E & Hb & H1 & H2 & H3).
    assert (NC : Ascii.eqb c close = false) by (apply Ascii.eqb_neq; destruct Q; congruence).
    assert (QB : blank close = false /\ is_digit close = false) by (destruct Q as [-> | ->]; auto).
    assert (QC : Ascii.eqb "," close = false) by (destruct Q as [-> | ->]; auto).
    destruct l as [|y l].
    - cbn [map join]. rewrite E. cbn [append lit_items]. rewrite NC.
      change (String c (r ++ String close s)) with (String c r ++ String close s)%string. rewrite <- E.
      rewrite Hx; [|assumption|assumption|cbn in L; lia|apply no_digit_ok; tauto].
      cbn [skip_blank]. rewrite (proj1 QB), Ascii.eqb_refl. reflexivity.
    - cbn [map]. rewrite join_cons, !sapp_assoc. cbn [append]. rewrite E. cbn [append lit_items]. rewrite NC.
      match goal with |- context [lit f (String c (r ++ ?t))] =>
        change (String c (r ++ t)) with (String c r ++ t)%string end. rewrite <- E.
      rewrite Hx; [|assumption|assumption|cbn in L; lia|apply no_digit_ok; reflexivity].
      rewrite skip_comma, QC, Ascii.eqb_refl, skip_one.
      cbn [forallb] in L2. apply andb_true_iff in L2 as [L2 L3].
      rewrite skip_join by exact L2.
      specialize (IH f Hl ltac:(cbn [forallb]; now rewrite L2) W2 ltac:(discriminate) ltac:(cbn in *; lia)).
      cbn [map] in IH. rewrite IH. reflexivity.
  Qed.

  Definition rmember (kv : key * val) : string := (repr_key (fst kv) ++ ": " ++ repr (snd kv))%string.
  Lemma rmember_opens kv : builtin (fst kv) = true -> exists c r, rmember kv = String c r /\ opens c.
  Proof.
    intro H. destruct (key_opens _ H) as (c & r & E & O). unfold rmember. rewrite E. eexists; eexists; cbn; eauto.
  Qed.

  Lemma lit_members_repr d : forall f s,
    Forall (fun kv => LReads (snd kv)) d ->
    forallb (fun kv => builtin (fst kv) && is_literal (snd kv)) d = true ->
    forallb (fun kv => wfv (snd kv)) d = true -> d <> [] ->
    list_sum (map (fun kv => S (vsize (snd kv))) d) <= f ->
    lit_members f (join ", " (map rmember d) ++ String "}" s) = Some (d, s).
  Proof.
    intros f s. revert f. induction d as [|[k x] d IH]; intros f H HL HW N L; [congruence|].
    inversion H as [|? ? Hx Hl]; subst. cbn [map list_sum forallb fst snd] in *. destruct f as [|f]; [cbn in L; lia|].
    apply andb_true_iff in HL as [L1 L2], HW as [W1 W2]. apply andb_true_iff in L1 as [B L1].
    destruct (rmember_opens (k, x) B) as (c & r & E & Hb & H1 & H2 & H3).
    assert (NC : Ascii.eqb c "}" = false) by (apply Ascii.eqb_neq; congruence).
    assert (P : 1 <= vsize x) by apply vsize_pos.
    destruct f as [|f]; [cbn in L; lia|].
    assert (HH : forall t, lit (S f) (rmember (k, x) ++ t) = Some (VAtom k, (": " ++ repr x ++ t)%string)).
    { intro t. unfold rmember. cbn [fst snd]. rewrite !sapp_assoc. apply lit_key; [exact B|].
      apply no_digit_ok. reflexivity. }
    destruct d as [|y d].
    - cbn [map join]. rewrite E. cbn [append]. remember (S f) as f'. cbn [lit_members]. rewrite NC.
      change (String c (r ++ String "}" s)) with (String c r ++ String "}" s)%string. rewrite <- E. rewrite HH.
      cbn [append skip_blank blank Ascii.eqb Bool.eqb orb]. rewrite skip_repr by exact L1.
      rewrite Hx; [|assumption|assumption|cbn in L; lia|apply no_digit_ok; reflexivity].
      cbn [skip_blank blank Ascii.eqb Bool.eqb orb]. reflexivity.
    - cbn [map]. rewrite join_cons, !sapp_assoc. rewrite E. cbn [append]. remember (S f) as f'. cbn [lit_members]. rewrite NC.
      match goal with |- context [lit f' (String c (r ++ ?t))] =>
        change (String c (r ++ t)) with (String c r ++ t)%string end. rewrite <- E. rewrite HH.
      cbn [append skip_blank blank Ascii.eqb Bool.eqb orb]. rewrite skip_repr by exact L1.
      rewrite Hx; [|assumption|assumption|cbn in L; lia|apply no_digit_ok; reflexivity].
      cbn [skip_blank blank Ascii.eqb Bool.eqb orb].
      specialize (IH f' Hl L2 W2 ltac:(discriminate) ltac:(cbn in *; lia)). cbn [map] in IH.
      assert (Ey : skip_blank (join ", " (rmember y :: map rmember d) ++ String "}" s) =
                  (join ", " (rmember y :: map rmember d) ++ String "}" s)%string).
      { cbn [forallb] in L2. apply andb_true_iff in L2 as [L2 _]. apply andb_true_iff in L2 as [L2 _].
        destruct (rmember_opens y L2) as (cy & ry & Eq & Oy).
        destruct d as [|z d]; cbn [map]; [|rewrite join_cons]; cbn [join]; rewrite Eq; now apply skip_opens. }
      rewrite Ey, IH. reflexivity.
  Qed.

  Lemma lreads_all v : LReads v.
  Proof.
    induction v as [k|l IH|l IH|c d IH] using val_ind'; intros HL HW s f L R;
      (destruct f as [|f]; [cbn in L; lia|]).
    - now apply lit_key.
    - cbn [is_literal wfv vsize] in *. change (repr (VList l)) with (String "[" (join ", " (map repr l) ++ "]")%string).
      cbn [append]. rewrite sapp_assoc. cbn [append lit]. cbn [Ascii.eqb Bool.eqb quote apostrophe orb].
      destruct l as [|x l]; [destruct f; [cbn in L; lia|]; reflexivity|].
      assert (I : lit_items f "]" (join ", " (map repr (x :: l)) ++ String "]" s) = Some ((x :: l, false), s)).
      { apply lit_items_repr; auto; [discriminate|]. lia. }
      cbn [map] in *. cbn [forallb] in HL. apply andb_true_iff in HL as [HL _]. rewrite skip_join by exact HL.
      rewrite I. reflexivity.
    - cbn [is_literal wfv vsize] in *. destruct l as [|x [|y l]].
      + destruct f; [cbn in L; lia|]. reflexivity.
      + cbn [forallb] in HL, HW. rewrite andb_true_r in HL, HW. inversion IH as [|? ? Hx _]; subst.
        change (repr (VTup [x])) with (String "(" (repr x ++ ",)")%string).
        cbn [append]. rewrite sapp_assoc. cbn [append lit]. cbn [Ascii.eqb Bool.eqb quote apostrophe orb].
        rewrite skip_repr by exact HL. destruct (repr_opens x HL) as (c & r & E & Hb & H1 & H2 & H3).
        assert (NC : Ascii.eqb c ")" = false) by (apply Ascii.eqb_neq; congruence).
        cbn in L. destruct f as [|f]; [lia|]. rewrite E. cbn [append lit_items]. rewrite NC.
        match goal with |- context [lit f (String c (r ++ ?t))] =>
          change (String c (r ++ t)) with (String c r ++ t)%string end. rewrite <- E.
        rewrite Hx; [|assumption|assumption|lia|apply no_digit_ok; reflexivity].
        cbn [skip_blank blank Ascii.eqb Bool.eqb orb]. pose proof (vsize_pos x). destruct f as [|f]; [lia|]. reflexivity.
      + change (repr (VTup (x :: y :: l))) with (String "(" (join ", " (map repr (x :: y :: l)) ++ ")")%string).
        cbn [append]. rewrite sapp_assoc. cbn [append lit]. cbn [Ascii.eqb Bool.eqb quote apostrophe orb].
        assert (I : lit_items f ")" (join ", " (map repr (x :: y :: l)) ++ String ")" s) = Some ((x :: y :: l, false), s)).
        { apply lit_items_repr; auto; [discriminate|]. lia. }
        cbn [map] in *. cbn [forallb] in HL. apply andb_true_iff in HL as [HL _]. rewrite skip_join by exact HL.
        rewrite I. reflexivity.
    - destruct c; try discriminate. cbn [is_literal wfv vsize] in *. apply andb_true_iff in HW as [W0 HW].
      change (repr (VDict CDict d)) with (String "{" (join ", " (map rmember d) ++ "}")%string).
      cbn [append]. rewrite sapp_assoc. cbn [append lit]. cbn [Ascii.eqb Bool.eqb quote apostrophe orb].
      destruct d as [|x d]; [destruct f; [cbn in L; lia|]; reflexivity|].
      assert (I : lit_members f (join ", " (map rmember (x :: d)) ++ String "}" s) = Some (x :: d, s)).
      { apply lit_members_repr; auto; [discriminate|]. lia. }
      assert (E : exists c r, (join ", " (map rmember (x :: d)) ++ String "}" s)%string = String c r /\ opens c).
      { cbn [forallb] in HL. apply andb_true_iff in HL as [HL _]. apply andb_true_iff in HL as [HL _].
        destruct (rmember_opens x HL) as (c & r & E & O). cbn [map].
        destruct d as [|z d]; [|cbn [map]; rewrite join_cons]; cbn [join map]; rewrite E; eexists; eexists; cbn; eauto. }
      destruct E as (c & r & E & O). rewrite E in *. rewrite skip_opens by exact O. rewrite I.
      cbn [ored]. now rewrite dict_of_wfd.
  Qed.

  Lemma key_length k : builtin k = true -> 1 <= String.length (repr_key k).
  Proof. intro H. destruct (key_opens k H) as (c & r & -> & _). cbn. lia. Qed.
  Lemma repr_length v : is_literal v = true -> vsize v <= String.length (repr v).
  Proof.
    assert (G : forall l, Forall (fun v => is_literal v = true -> vsize v <= String.length (repr v)) l ->
        forallb is_literal l = true ->
        list_sum (map (fun x => S (vsize x)) l) <= list_sum (map String.length (map repr l)) + List.length l).
    { induction 1 as [|y l Hy _ IHl]; cbn [forallb]; intro H; [cbn; lia|]. apply andb_true_iff in H as [H1 H2].
      specialize (Hy H1). specialize (IHl H2). unfold list_sum in *. cbn [map fold_right List.length]. lia. }
    induction v as [k|l IH|l IH|c d IH] using val_ind'; intro H; cbn [is_literal] in H.
    - now apply key_length.
    - specialize (G l IH H). change (repr (VList l)) with (String "[" (join ", " (map repr l) ++ "]")%string).
      pose proof (join_length 2 ", " (map repr l) eq_refl) as C. rewrite map_length in C.
      cbn [vsize String.length]. rewrite slength_app. cbn [String.length]. destruct l; [cbn; lia|]. cbn [List.length] in *. lia.
    - specialize (G l IH H). destruct l as [|x [|y l]].
      + cbn. lia.
      + change (repr (VTup [x])) with (String "(" (repr x ++ ",)")%string). cbn in G |- *.
        rewrite slength_app. cbn. lia.
      + change (repr (VTup (x :: y :: l))) with (String "(" (join ", " (map repr (x :: y :: l)) ++ ")")%string).
        pose proof (join_length 2 ", " (map repr (x :: y :: l)) eq_refl) as C. rewrite map_length in C.
        cbn [vsize String.length]. rewrite slength_app. cbn [String.length]. cbn [List.length] in *. lia.
    - destruct c; try discriminate.
      change (repr (VDict CDict d)) with (String "{" (join ", " (map rmember d) ++ "}")%string).
      pose proof (join_length 2 ", " (map rmember d) eq_refl) as C. rewrite map_length in C.
      assert (GD : list_sum (map (fun kv => S (vsize (snd kv))) d) <=
                list_sum (map String.length (map rmember d)) + List.length d).
      { clear C. induction IH as [|[k x] d Hx _ IHd]; [cbn; lia|]. cbn [forallb fst snd] in *.
        apply andb_true_iff in H as [H1 H2]. apply andb_true_iff in H1 as [_ H1]. specialize (Hx H1). specialize (IHd H2).
        assert (String.length (repr x) <= String.length (rmember (k, x))).
        { unfold rmember. cbn [fst snd]. rewrite !slength_app. lia. }
        unfold list_sum in *. cbn [map fold_right List.length snd] in *. lia. }
      cbn [vsize String.length]. rewrite slength_app. cbn [String.length]. destruct d; [cbn; lia|]. cbn [List.length] in *. lia.
  Qed.

  Lemma literal_repr v : is_literal v = true -> wfv v = true -> literal_eval (repr v) = Some v.
  Proof.
    intros L W. unfold literal_eval. rewrite <- (sapp_nil (repr v)) at 2. rewrite skip_repr by exact L.
    rewrite (lreads_all v L W).
    - reflexivity.
    - pose proof (repr_length v L). lia.
    - destruct v as [[]| | |]; exact I.
  Qed.

  (** ** The codec *)

  Lemma ast_round_trip v : is_literal v = true -> wfv v = true -> is_text v = false ->
    ast_decode (ast_encode rm v) = Some v.
  Proof.
    intros L W T. unfold ast_decode, ast_encode. rewrite utf8_read.
    assert (E : py_str_of rm v = repr v) by (destruct v as [[]| | |]; try reflexivity; discriminate).
    rewrite E. now apply literal_repr.
  Qed.
  (** Text that reads like a literal comes back as that literal. *)
  Lemma ast_lookalike v : is_literal v = true -> wfv v = true ->
    ast_decode (ast_encode rm (VAtom (KStr (repr v)))) = Some v.
  Proof.
    intros L W. unfold ast_decode, ast_encode. rewrite utf8_read. now apply literal_repr.
  Qed.
End Repr.

(** ** Text does not come back *)

Lemma lit_chars_short q n : forall s t r, String.length s <= n -> lit_chars q s = Some (t, r) ->
  String.length t < String.length s.
Proof.
  induction n as [|n IH]; intros s t r L; (destruct s as [|c s]; [discriminate|]); [cbn in L; lia|].
  cbn [lit_chars String.length] in *.
  destruct (Ascii.eqb c q); [intro H; injection H as <- <-; cbn; lia|].
  assert (K : forall d u, String.length u <= String.length s -> keep d (lit_chars q u) = Some (t, r) ->
              String.length t < S (String.length s)).
  { intros d u Lu. destruct (lit_chars q u) as [[t' r']|] eqn:E; [|discriminate].
    cbn [keep]. intro H. injection H as <- <-. apply IH in E; cbn; lia. }
  destruct (Ascii.eqb c backslash).
  - destruct s as [|e s]; [discriminate|]. destruct (Ascii.eqb e "x").
    + destruct s as [|a [|b s]]; try discriminate. destruct (hex_value a); [|discriminate].
      destruct (hex_value b); [|discriminate]. apply K. cbn. lia.
    + destruct (py_unescape e); [|discriminate]. apply K. cbn. lia.
  - destruct (_ || _); [discriminate|]. apply K. lia.
Qed.
Lemma skip_blank_short s : String.length (skip_blank s) <= String.length s.
Proof. induction s as [|c s IH]; cbn; [lia|]. destruct (blank c); cbn; lia. Qed.

Lemma lit_short f : (forall s t r, lit f s = Some (VAtom (KStr t), r) -> String.length t < String.length s) /\
  (forall s t c r, lit_items f c s = Some (([VAtom (KStr t)], false), r) -> String.length t < String.length s).
Proof.
  induction f as [|f [IHl IHi]]; [split; discriminate|]. split.
  - intros s t r. destruct s as [|c s]; [discriminate|]. cbn [lit].
    destruct (Ascii.eqb c "N"); [destruct (after "one" s); discriminate|].
    destruct (Ascii.eqb c "T"); [destruct (after "rue" s); discriminate|].
    destruct (Ascii.eqb c "F"); [destruct (after "alse" s); discriminate|].
    destruct (_ || _).
    { destruct (lit_chars c s) as [[t' r']|] eqn:E; [|discriminate]. cbn [ored]. intro H. injection H as <- <-.
      apply (lit_chars_short c _ _ _ _ (le_n _)) in E. cbn. lia. }
    destruct (Ascii.eqb c "-"); [destruct (read_number s) as [[]|]; discriminate|].
    destruct (Ascii.eqb c "["); [destruct (lit_items f "]" _) as [[]|]; discriminate|].
    destruct (Ascii.eqb c "(").
    { destruct (lit_items f ")" _) as [[[l b] r']|] eqn:E; [|discriminate]. cbn [ored].
      destruct l as [|x [|y l]]; try discriminate. destruct b; [discriminate|]. intro H. injection H as -> <-.
      apply IHi in E. pose proof (skip_blank_short s). cbn. lia. }
    destruct (Ascii.eqb c "{"); [destruct (lit_members f _) as [[]|]; discriminate|].
    destruct (read_number _) as [[]|]; discriminate.
  - intros s t c r. destruct s as [|a s]; [discriminate|]. cbn [lit_items].
    destruct (Ascii.eqb a c); [discriminate|]. destruct (lit f (String a s)) as [[v r1]|] eqn:E; [|discriminate].
    destruct (skip_blank r1) as [|e r2]; [discriminate|].
    destruct (Ascii.eqb e c). { intro H. injection H as -> <-. now apply IHl in E. }
    destruct (Ascii.eqb e ","); [|discriminate].
    destruct (lit_items f c _) as [[[l b] r3]|] eqn:E2; [|discriminate]. cbn [ored fst snd]. intro H.
    injection H as -> -> -> <-. exfalso. destruct f as [|f]; [discriminate|]. cbn [lit_items] in E2.
    destruct (skip_blank r2) as [|g r4]; [discriminate|]. destruct (Ascii.eqb g c); [discriminate|].
    destruct (lit f _) as [[v' r5]|]; [|discriminate]. destruct (skip_blank r5) as [|h r6]; [discriminate|].
    destruct (Ascii.eqb h c); [discriminate|]. destruct (Ascii.eqb h ","); [|discriminate].
    destruct (lit_items f c _) as [[[l' b'] r7]|]; discriminate.
Qed.

Lemma ast_text rm t : ast_decode (ast_encode rm (VAtom (KStr t))) <> Some (VAtom (KStr t)).
Proof.
  unfold ast_decode, ast_encode. rewrite utf8_read. cbn [py_str_of py_str]. unfold literal_eval.
  destruct (lit _ (skip_blank t)) as [[v r]|] eqn:E; [|discriminate].
  destruct (skip_blank r); [|discriminate]. intro H. injection H as ->.
  apply (proj1 (lit_short _)) in E. pose proof (skip_blank_short t). lia.
Qed.

(** ** Between quotes *)

Lemma occurs_char c s : occurs (nat_of_ascii c) s = has_char c s.
Proof.
  induction s as [|a s IH]; [reflexivity|]. cbn [occurs has_char]. rewrite IH. f_equal.
  destruct (Ascii.eqb_spec a c) as [->|N]; [apply Nat.eqb_refl|]. apply Nat.eqb_neq. intro E. apply N.
  rewrite <- (ascii_nat_embedding a), <- (ascii_nat_embedding c). now rewrite E.
Qed.
Fixpoint chars (s : string) : list ascii := match s with "" => [] | String c r => c :: chars r end%string.
Lemma chars_list s : list_ascii_of_string s = chars s.
Proof. induction s as [|c s IH]; [reflexivity|]. cbn. now rewrite IH. Qed.
Lemma chars_app a b : chars (a ++ b) = chars a ++ chars b.
Proof. induction a as [|c a IH]; [reflexivity|]. cbn. now rewrite IH. Qed.
Lemma repr_char_visible q c : q = quote \/ q = apostrophe -> forallb visible (chars (repr_char q c)) = true.
Proof. intros [->| ->]; destruct c as [[] [] [] [] [] [] [] []]; reflexivity. Qed.
Lemma repr_char_room q c both : (q = quote -> c <> quote /\ both = false) -> (q = apostrophe -> both = false -> c <> apostrophe) -> q = quote \/ q = apostrophe ->
  String.length (repr_char q c) = room both c.
Proof.
  intros H1 H2 [->| ->].
  - destruct (H1 eq_refl) as [N ->]. destruct c as [[] [] [] [] [] [] [] []]; try reflexivity. now destruct N.
  - specialize (H2 eq_refl). destruct both.
    + destruct c as [[] [] [] [] [] [] [] []]; reflexivity.
    + specialize (H2 eq_refl). destruct c as [[] [] [] [] [] [] [] []]; try reflexivity. now destruct H2.
Qed.
Lemma repr_room t : String.length (repr_str t) = 2 + rooms (occurs 39 t && occurs 34 t) t.
Proof.
  change 39 with (nat_of_ascii apostrophe). change 34 with (nat_of_ascii quote). rewrite !occurs_char.
  unfold repr_str. cbn [String.length]. rewrite slength_app. cbn [String.length].
  set (both := has_char apostrophe t && has_char quote t). set (q := quote_for t).
  assert (G : forall s, (has_char quote s = true -> has_char quote t = true) -> (has_char apostrophe s = true -> has_char apostrophe t = true) ->
                String.length (repr_chars q s) = rooms both s).
  { induction s as [|c s IH]; [reflexivity|]. intros HQ HA. cbn [repr_chars rooms has_char] in *. rewrite slength_app.
    rewrite IH by (intro X; rewrite X, orb_true_r in *; auto). f_equal. apply repr_char_room; [| |apply quote_for_cases].
    - intro E. unfold q, quote_for, both in *. destruct (has_char apostrophe t), (has_char quote t); cbn in *; try discriminate E.
      split; [|reflexivity]. intros ->. rewrite Ascii.eqb_refl in HQ. specialize (HQ eq_refl). discriminate.
    - intros E B ->. rewrite Ascii.eqb_refl in HA. specialize (HA eq_refl). unfold q, quote_for, both in *. rewrite HA in *. cbn in *. rewrite B in *. discriminate. }
  rewrite G by auto. lia.
Qed.
Lemma repr_visible t : forallb visible (list_ascii_of_string (repr_str t)) = true.
Proof.
  rewrite chars_list. unfold repr_str. cbn [chars forallb].
  assert (V : forall q, q = quote \/ q = apostrophe -> visible q = true) by (intros q [->| ->]; reflexivity).
  rewrite (V _ (quote_for_cases t)), chars_app, forallb_app. cbn [chars forallb]. rewrite (V _ (quote_for_cases t)). cbn [andb]. rewrite andb_true_r.
  generalize (quote_for t) (quote_for_cases t). intros q Hq. induction t as [|c t IH]; [reflexivity|].
  cbn [repr_chars]. now rewrite chars_app, forallb_app, repr_char_visible.
Qed.
Lemma ast_shown rm t : exists r, ast_encode rm (VList [VAtom (KStr t)]) = utf8 ("[" ++ r ++ "]") /\
  forallb visible (list_ascii_of_string r) = true /\ String.length r = 2 + rooms (occurs 39 t && occurs 34 t) t.
Proof. exists (repr_str t). split; [reflexivity|]. split; [apply repr_visible|apply repr_room]. Qed.

(** ** Mappings with a class of their own *)

Lemma letter_lit f c r : letter c = true -> existsb (fun k => prefix k (String c r)) ["None"; "True"; "False"] = false ->
  lit f (String c r) = None.
Proof.
  intros L H. destruct f as [|f]; [reflexivity|].
  assert (A : forall p s, prefix p s = false -> after p s = None).
  { induction p as [|a p IH]; intros s E; [destruct s; discriminate|]. destruct s as [|b s]; [reflexivity|]. cbn in E |- *.
    destruct (ascii_dec a b) as [->|N]; [rewrite Ascii.eqb_refl; now apply IH|]. apply Ascii.eqb_neq in N. now rewrite N. }
  cbn [existsb] in H. apply orb_false_iff in H as [H1 H]. apply orb_false_iff in H as [H2 H]. apply orb_false_iff in H as [H3 _].
  revert L H1 H2 H3. destruct c as [[] [] [] [] [] [] [] []]; cbn -[after prefix lit]; try discriminate; intros _ H1 H2 H3; try reflexivity.
  - cbn [lit]. cbn [Ascii.eqb Bool.eqb]. cbn in H1. now rewrite A.
  - cbn [lit]. cbn [Ascii.eqb Bool.eqb]. cbn in H3. now rewrite A.
  - cbn [lit]. cbn [Ascii.eqb Bool.eqb]. cbn in H2. now rewrite A.
Qed.
Lemma ast_mapping rm c d name rest : c <> CDict -> (forall s, rm c s = name ++ "(" ++ rest s)%string -> class_name name = true ->
  ast_decode (ast_encode rm (VDict c d)) = None.
Proof.
  intros Hc Hr Hn. unfold ast_decode, ast_encode. rewrite utf8_read. unfold literal_eval.
  assert (E : exists s, py_str_of rm (VDict c d) = rm c s) by (destruct c; [contradiction|eexists; reflexivity..]).
  destruct E as [s ->]. rewrite Hr. destruct name as [|a n]; [discriminate|]. cbn [class_name] in Hn. apply andb_true_iff in Hn as [L N].
  apply negb_true_iff in N. cbn [append].
  assert (B : forall x, skip_blank (String a x) = String a x).
  { intro x. cbn. replace (blank a) with false; [reflexivity|]. revert L. destruct a as [[] [] [] [] [] [] [] []]; vm_compute; congruence. }
  rewrite B, letter_lit; [reflexivity|exact L|].
  revert N. cbn [existsb]. rewrite !orb_false_r, !orb_false_iff. intros (N1 & N2 & N3).
  assert (P : forall p k, has_char "(" p = false -> p <> ""%string -> prefix p k = false -> prefix p (k ++ "(" ++ rest s) = false).
  { induction p as [|x p IH]; intros k Hx Hp E; [contradiction|]. cbn in Hx. apply orb_false_iff in Hx as [Hx1 Hx2]. destruct k as [|y k].
    - cbn. destruct (ascii_dec x "(") as [->|]; [discriminate|reflexivity].
    - cbn in E |- *. destruct (ascii_dec x y); [|reflexivity]. destruct p as [|x' p]; [destruct k; discriminate E|]. apply IH; [exact Hx2|discriminate|exact E]. }
  pose proof (fun p => P p (String a n)) as Q. cbn [append] in Q. rewrite !Q; auto; discriminate.
Qed.
