(** What the JSON codec writes can be read back. *)
From Coq Require Import Lia DecimalString Decimal DecimalZ DecimalFacts.
From Verif Require Export Codec_Spec Json_Proofs.
From Verif Require Import Py_Facts Shm_Proofs.

(** ** UTF-8 *)

Lemma utf8_char c s : un_utf8 (utf8 (String c s)) = option_map (String c) (un_utf8 (utf8 s)).
Proof.
  cbn [utf8]. generalize (utf8 s). intro r. destruct c as [[] [] [] [] [] [] [] []]; reflexivity.
Qed.
Lemma utf8_read s : un_utf8 (utf8 s) = Some s.
Proof. induction s as [|c s IH]; [reflexivity|]. now rewrite utf8_char, IH. Qed.
Lemma utf8_ascii s : is_ascii s = true -> utf8 s = s.
Proof.
  induction s as [|c s IH]; [reflexivity|]. cbn [is_ascii utf8]. intro H. apply andb_true_iff in H as [H1 H2].
  rewrite H1. now rewrite IH.
Qed.
Lemma is_ascii_app a b : is_ascii (a ++ b) = is_ascii a && is_ascii b.
Proof. induction a as [|c a IH]; [reflexivity|]. cbn [append is_ascii]. rewrite IH. apply andb_assoc. Qed.

(** ** Lists of texts *)

Lemma join_cons sep x y l : join sep (x :: y :: l) = (x ++ sep ++ join sep (y :: l))%string.
Proof. reflexivity. Qed.
Lemma join_length n sep l : String.length sep = n ->
  list_sum (map String.length l) + n * List.length l <= String.length (join sep l) + n.
Proof.
  intro E. induction l as [|x l IH]; [cbn; lia|]. destruct l as [|y l]; [cbn; lia|].
  rewrite join_cons, !slength_app. unfold list_sum in *. cbn [map fold_right List.length] in *. lia.
Qed.
Lemma join_ascii sep l : is_ascii sep = true -> forallb is_ascii l = true -> is_ascii (join sep l) = true.
Proof.
  intros S H. induction l as [|x l IH]; [reflexivity|]. cbn [forallb] in H. apply andb_true_iff in H as [H1 H2].
  destruct l as [|y l]; [exact H1|]. rewrite join_cons, !is_ascii_app, H1, S. now apply IH.
Qed.

(** ** Values as JSON *)

Fixpoint jtree (v : val) : json :=
  match v with
  | VAtom k => match json_atom k with Ok j => j | Exc _ => JNull end
  | VList l | VTup l => JArr (map jtree l)
  | VDict _ d => JObj (map (fun kv => (key_text (fst kv), jtree (snd kv))) d)
  end.

Lemma json_key_text k : json_key k = if builtin k then Ok (key_text k) else Exc TypeError.
Proof. destruct k as [|[]| | |]; reflexivity. Qed.

Lemma json_list l : Forall (fun v => json_value v = if serializable v then Ok (jtree v) else Exc TypeError) l ->
  (fix go l := match l with
               | [] => Ok []
               | x :: r => j <- json_value x ;; js <- go r ;; Ok (j :: js)
               end) l = if forallb serializable l then Ok (map jtree l) else Exc TypeError.
Proof.
  induction 1 as [|x l Hx _ IH]; [reflexivity|]. rewrite Hx. cbn [forallb map].
  destruct (serializable x); [|reflexivity]. cbn [bind andb]. rewrite IH. now destruct (forallb serializable l).
Qed.
Lemma json_value_eq v : json_value v = if serializable v then Ok (jtree v) else Exc TypeError.
Proof.
  induction v as [k|l IH|l IH|c d IH] using val_ind'; cbn [json_value serializable jtree].
  - destruct k; reflexivity.
  - rewrite (json_list l IH). now destruct (forallb serializable l).
  - rewrite (json_list l IH). now destruct (forallb serializable l).
  - destruct (is_dict_cls c); [|reflexivity]. cbn [andb].
    match goal with |- (_ <- ?g d ;; _) = _ =>
      assert (E : g d = if forallb (fun kv => builtin (fst kv) && serializable (snd kv)) d
                        then Ok (map (fun kv => (key_text (fst kv), jtree (snd kv))) d) else Exc TypeError) end.
    { induction IH as [|[k x] d Hx _ IHd]; [reflexivity|]. cbn [snd] in Hx. rewrite Hx, json_key_text.
      cbn [forallb map fst snd]. destruct (builtin k); [|reflexivity]. cbn [bind andb].
      destruct (serializable x); [|reflexivity]. cbn [bind andb]. rewrite IHd. now destruct (forallb _ d). }
    rewrite E. now destruct (forallb _ d).
Qed.

Lemma value_jtree v : serializable v = true -> from_json (jtree v) = jsonified v.
Proof.
  assert (L : forall l, Forall (fun v => serializable v = true -> from_json (jtree v) = jsonified v) l ->
      forallb serializable l = true -> map from_json (map jtree l) = map jsonified l).
  { induction 1 as [|x l Hx _ IH]; [reflexivity|]. cbn [forallb map]. intro H. apply andb_true_iff in H as [H1 H2].
    now rewrite Hx, IH. }
  induction v as [k|l IH|l IH|c d IH] using val_ind'; cbn [serializable jtree from_json jsonified]; intro H.
  - destruct k; try reflexivity. discriminate.
  - now rewrite L.
  - now rewrite L.
  - apply andb_true_iff in H as [_ H]. do 2 f_equal. rewrite map_map. cbn [fst snd].
    induction IH as [|[k x] d Hx _ IHd]; [reflexivity|]. cbn [forallb map fst snd] in *.
    apply andb_true_iff in H as [H1 H2]. apply andb_true_iff in H1 as [_ H1]. now rewrite Hx, IHd.
Qed.

(** ** Reading compact JSON *)

Definition cmember (kv : string * json) : string := (quoted (fst kv) ++ ": " ++ compact (snd kv))%string.
Lemma compact_obj l : compact (JObj l) = String "{" (join ", " (map cmember l) ++ "}").
Proof. reflexivity. Qed.

Lemma compact_start j : exists c r, compact j = String c r /\ is_space c = false /\ c <> "]"%char /\ c <> "}"%char.
Proof.
  destruct j as [|[]|z|s|l|l]; try (cbn; eexists; eexists; split; [reflexivity|]; repeat split; discriminate).
  apply str_of_Z_start.
Qed.
Lemma skip_compact j s : skip_space (compact j ++ s) = (compact j ++ s)%string.
Proof. destruct (compact_start j) as (c & r & -> & H & _). cbn. now rewrite H. Qed.

Definition CReads (j : json) : Prop := forall s f, jsize j <= f -> rest_ok j s ->
  read_json f (compact j ++ s) = Some (j, s).

Lemma read_items_compact l : forall f s, Forall CReads l -> l <> [] ->
  list_sum (map (fun x => S (jsize x)) l) <= f ->
  read_items f (join ", " (map compact l) ++ String "]" s) = Some (l, s).
Proof.
  intros f s. revert f. induction l as [|x l IH]; intros f H N L; [congruence|].
  inversion H as [|? ? Hx Hl]; subst. cbn [map list_sum] in L. destruct f as [|f]; [cbn in L; lia|].
  destruct l as [|y l].
  - cbn [map join read_items]. rewrite Hx; [|cbn in L; lia|intros _; reflexivity]. reflexivity.
  - cbn [map]. rewrite join_cons. rewrite !sapp_assoc. cbn [append]. cbn [read_items].
    rewrite Hx; [|cbn in L; lia|intros _; reflexivity].
    cbn [skip_space is_space Ascii.eqb Bool.eqb orb].
    specialize (IH f Hl ltac:(discriminate) ltac:(cbn in *; lia)). cbn [map] in IH.
    assert (E : skip_space (join ", " (compact y :: map compact l) ++ String "]" s) =
                (join ", " (compact y :: map compact l) ++ String "]" s)%string).
    { destruct l as [|z l]; [apply skip_compact|]. cbn [map]. rewrite join_cons, sapp_assoc. apply skip_compact. }
    rewrite E, IH. reflexivity.
Qed.

Lemma read_members_compact l : forall f s, Forall (fun kv => CReads (snd kv)) l -> l <> [] ->
  list_sum (map (fun kv => S (jsize (snd kv))) l) <= f ->
  read_members f (join ", " (map cmember l) ++ String "}" s) = Some (l, s).
Proof.
  intros f s. revert f. induction l as [|[k x] l IH]; intros f H N L; [congruence|].
  inversion H as [|? ? Hx Hl]; subst. cbn [map list_sum snd] in *. destruct f as [|f]; [cbn in L; lia|].
  assert (M : forall t, (cmember (k, x) ++ t)%string =
      String quote (escaped k ++ String quote (String ":" (String " " (compact x ++ t))))%string).
  { intro t. unfold cmember, quoted. cbn [fst snd append]. now rewrite !sapp_assoc. }
  destruct l as [|y l].
  - cbn [map join]. rewrite M. cbn [read_members]. rewrite Ascii.eqb_refl, read_escaped.
    cbn [skip_space is_space Ascii.eqb Bool.eqb orb]. rewrite skip_compact.
    rewrite Hx; [|cbn in L; lia|intros _; reflexivity]. reflexivity.
  - cbn [map]. rewrite join_cons, sapp_assoc, M. cbn [read_members]. rewrite Ascii.eqb_refl, read_escaped.
    cbn [skip_space is_space Ascii.eqb Bool.eqb orb]. rewrite skip_compact.
    rewrite Hx; [|cbn in L; lia|intros _; reflexivity]. cbn [append].
    cbn [skip_space is_space Ascii.eqb Bool.eqb orb].
    specialize (IH f Hl ltac:(discriminate) ltac:(cbn in *; lia)). cbn [map] in IH.
    assert (E : skip_space (join ", " (cmember y :: map cmember l) ++ String "}" s) =
                (join ", " (cmember y :: map cmember l) ++ String "}" s)%string).
    { destruct l as [|z l]; reflexivity. }
    rewrite E, IH. reflexivity.
Qed.

Lemma creads_all j : CReads j.
Proof.
  induction j as [|b|z|t|l IH|l IH] using json_ind'; intros s f L R;
    (destruct f as [|f]; [cbn in L; lia|]).
  - reflexivity.
  - now destruct b.
  - apply read_int. now apply R.
  - cbn [compact]. unfold quoted. cbn [append read_json]. rewrite sapp_assoc.
    cbn [Ascii.eqb Bool.eqb quote]. cbn [append]. now rewrite read_escaped.
  - destruct l as [|x l]; [reflexivity|].
    assert (I : read_items f (join ", " (map compact (x :: l)) ++ String "]" s) = Some (x :: l, s)).
    { apply read_items_compact; [exact IH|discriminate|]. cbn [jsize] in L. lia. }
    change (compact (JArr (x :: l))) with (String "[" (join ", " (map compact (x :: l)) ++ "]")%string).
    cbn [append read_json]. cbn [Ascii.eqb Bool.eqb quote]. rewrite !sapp_assoc. cbn [append].
    assert (E : exists c r, (join ", " (map compact (x :: l)) ++ String "]" s)%string = String c r
                /\ is_space c = false /\ c <> "]"%char).
    { destruct (compact_start x) as (c & r & E & Hs & Hc & _). cbn [map].
      destruct l as [|z l]; [|cbn [map]; rewrite join_cons]; cbn [join map]; rewrite E; eexists; eexists; cbn; eauto. }
    destruct E as (c & r & E & Hs & Hc). rewrite E in *. cbn [skip_space]. rewrite Hs.
    destruct (Ascii.eqb_spec c "]"); [congruence|]. rewrite I. reflexivity.
  - destruct l as [|x l]; [reflexivity|].
    assert (I : read_members f (join ", " (map cmember (x :: l)) ++ String "}" s) = Some (x :: l, s)).
    { apply read_members_compact; [exact IH|discriminate|]. cbn [jsize] in L. lia. }
    rewrite compact_obj. cbn [append read_json]. cbn [Ascii.eqb Bool.eqb quote]. rewrite !sapp_assoc. cbn [append].
    assert (E : exists r, (join ", " (map cmember (x :: l)) ++ String "}" s)%string = String quote r).
    { cbn [map]. destruct l as [|z l]; eexists; reflexivity. }
    destruct E as (r & E). rewrite E in *. cbn [skip_space is_space quote Ascii.eqb Bool.eqb orb].
    rewrite I. reflexivity.
Qed.

Lemma compact_length j : jsize j <= String.length (compact j).
Proof.
  induction j as [|b|z|t|l IH|l IH] using json_ind'; try (cbn; lia).
  - destruct b; cbn; lia.
  - destruct (str_of_Z_start z) as (c & r & E & _). cbn [compact jsize]. rewrite E. cbn. lia.
  - cbn [compact jsize String.length]. rewrite slength_app.
    pose proof (join_length 2 ", " (map compact l) eq_refl) as C. rewrite map_length in C.
    assert (G : list_sum (map (fun x => S (jsize x)) l) <=
                list_sum (map String.length (map compact l)) + List.length l).
    { clear C. induction IH as [|y l' Hy _ IHl]; cbn; [lia|]. unfold list_sum in *. lia. }
    cbn [String.length] in *. destruct l; [cbn; lia|]. cbn [List.length] in *. lia.
  - rewrite compact_obj. cbn [jsize String.length]. rewrite slength_app.
    pose proof (join_length 2 ", " (map cmember l) eq_refl) as C. rewrite map_length in C.
    assert (G : list_sum (map (fun kv => S (jsize (snd kv))) l) <=
                list_sum (map String.length (map cmember l)) + List.length l).
    { clear C. induction IH as [|y l' Hy _ IHl]; [cbn; lia|].
      assert (String.length (compact (snd y)) <= String.length (cmember y)).
      { unfold cmember. rewrite !slength_app. lia. }
      unfold list_sum in *. cbn [map fold_right List.length] in *. lia. }
    cbn [String.length] in *. destruct l; [cbn; lia|]. cbn [List.length] in *. lia.
Qed.

Lemma read_compact j : read_value (compact j) = Some (j, ""%string).
Proof.
  rewrite <- (sapp_nil (compact j)). apply creads_all.
  - rewrite sapp_nil. pose proof (compact_length j). lia.
  - intros _. exact I.
Qed.

(** ** Compact JSON is ASCII *)

Lemma escape_ascii c : is_ascii (escape c) = true.
Proof. destruct c as [[] [] [] [] [] [] [] []]; reflexivity. Qed.
Lemma escaped_ascii s : is_ascii (escaped s) = true.
Proof. induction s as [|c s IH]; [reflexivity|]. cbn [escaped]. now rewrite is_ascii_app, escape_ascii. Qed.
Lemma quoted_ascii s : is_ascii (quoted s) = true.
Proof. unfold quoted. cbn [is_ascii]. rewrite is_ascii_app, escaped_ascii. reflexivity. Qed.
Lemma uint_ascii d : is_ascii (NilEmpty.string_of_uint d) = true.
Proof. induction d; cbn; auto. Qed.
Lemma uint_ascii0 d : is_ascii (NilZero.string_of_uint d) = true.
Proof. destruct d as [|d|d|d|d|d|d|d|d|d|d]; [reflexivity|exact (uint_ascii _)..]. Qed.
Lemma str_of_Z_ascii z : is_ascii (str_of_Z z) = true.
Proof. unfold str_of_Z, NilZero.string_of_int. destruct (Z.to_int z) as [d|d]; apply uint_ascii0. Qed.
Lemma compact_ascii j : is_ascii (compact j) = true.
Proof.
  induction j as [|b|z|t|l IH|l IH] using json_ind'; try reflexivity.
  - now destruct b.
  - apply str_of_Z_ascii.
  - apply quoted_ascii.
  - cbn [compact is_ascii]. rewrite is_ascii_app. cbn [is_ascii]. rewrite join_ascii; [reflexivity|reflexivity|].
    apply forallb_forall. intros s Hs. apply in_map_iff in Hs as (x & <- & Hx).
    rewrite Forall_forall in IH. auto.
  - rewrite compact_obj. cbn [is_ascii]. rewrite is_ascii_app. cbn [is_ascii]. rewrite join_ascii; [reflexivity|reflexivity|].
    apply forallb_forall. intros s Hs. apply in_map_iff in Hs as (x & <- & Hx).
    rewrite Forall_forall in IH. unfold cmember. rewrite !is_ascii_app, quoted_ascii, IH by assumption. reflexivity.
Qed.

(** ** The JSON codec *)

Lemma json_codec_lemma v : serializable v = true ->
  exists b, json_encode v = Ok b /\ b <> ""%string /\ is_ascii b = true /\ json_decode b = Ok (jsonified v).
Proof.
  intro H. exists (compact (jtree v)). unfold json_encode. rewrite json_value_eq, H. cbn [bind].
  rewrite utf8_ascii by apply compact_ascii. split; [reflexivity|].
  destruct (compact_start (jtree v)) as (c & r & E & Hs & _). split; [rewrite E; discriminate|].
  split; [apply compact_ascii|]. unfold json_decode.
  pose proof (utf8_read (compact (jtree v))) as U. rewrite utf8_ascii in U by apply compact_ascii. rewrite U.
  rewrite <- (sapp_nil (compact _)), skip_compact, sapp_nil, read_compact. cbn [skip_space]. now rewrite value_jtree.
Qed.
(** *** What comes before and after *)

Lemma encode_compact v : serializable v = true -> json_encode v = Ok (compact (jtree v)).
Proof. intro H. unfold json_encode. rewrite json_value_eq, H. cbn [bind]. now rewrite utf8_ascii by apply compact_ascii. Qed.
Lemma un_utf8_ascii s t : is_ascii s = true -> un_utf8 (s ++ t) = option_map (append s) (un_utf8 t).
Proof.
  induction s as [|c s IH]; cbn [append].
  - intros _. now destruct (un_utf8 t).
  - cbn [is_ascii un_utf8]. intro H. apply andb_true_iff in H as [H1 H2]. rewrite H1, (IH H2). now destruct (un_utf8 t).
Qed.
Lemma read_ascii s : is_ascii s = true -> un_utf8 s = Some s.
Proof. intro H. rewrite <- (sapp_nil s) at 1. rewrite un_utf8_ascii by exact H. cbn. now rewrite sapp_nil. Qed.
Lemma blank_space c : existsb (Nat.eqb (nat_of_ascii c)) [32; 9; 10; 13] = is_space c.
Proof. destruct c as [[] [] [] [] [] [] [] []]; reflexivity. Qed.
Lemma blank_skip w s : all_blank w = true -> skip_space (w ++ s) = skip_space s.
Proof.
  induction w as [|c w IH]; [reflexivity|]. cbn [all_blank append skip_space]. rewrite blank_space. intro H.
  apply andb_true_iff in H as [-> H]. now apply IH.
Qed.
Lemma blank_ascii w : all_blank w = true -> is_ascii w = true.
Proof.
  induction w as [|c w IH]; [reflexivity|]. cbn [all_blank is_ascii]. intro H. apply andb_true_iff in H as [H1 H2].
  rewrite (IH H2), andb_true_r. revert H1. destruct c as [[] [] [] [] [] [] [] []]; vm_compute; congruence.
Qed.
Lemma not_blank_skip t : all_blank t = false -> skip_space t <> ""%string.
Proof.
  induction t as [|c t IH]; [discriminate|]. cbn [all_blank skip_space]. rewrite blank_space. destruct (is_space c); [exact IH|discriminate].
Qed.
Lemma read_before j s : no_digit s -> read_value (compact j ++ s) = Some (j, s).
Proof.
  intro H. apply creads_all; [|intros _; exact H]. rewrite slength_app. pose proof (compact_length j). lia.
Qed.
Lemma blank_no_digit w : all_blank w = true -> no_digit w.
Proof. destruct w as [|c w]; [intro; exact I|]. cbn. intro H. apply andb_true_iff in H as [H _]. revert H. destruct c as [[] [] [] [] [] [] [] []]; vm_compute; congruence. Qed.

Lemma json_spaces v b w w' : json_encode v = Ok b -> all_blank w = true -> all_blank w' = true ->
  json_decode (w ++ b ++ w') = Ok (jsonified v).
Proof.
  intros E H H'. assert (S : serializable v = true) by (destruct (serializable v) eqn:S; [reflexivity|]; unfold json_encode in E; rewrite json_value_eq, S in E; discriminate).
  rewrite (encode_compact v S) in E. injection E as <-. unfold json_decode.
  rewrite read_ascii by (rewrite !is_ascii_app, (blank_ascii w H), (blank_ascii w' H'), compact_ascii; reflexivity).
  rewrite blank_skip by exact H. rewrite skip_compact, read_before by now apply blank_no_digit.
  rewrite <- (sapp_nil w'), blank_skip by exact H'. cbn [skip_space]. now rewrite value_jtree.
Qed.
Lemma json_extra v b t : json_encode v = Ok b -> is_ascii t = true -> all_blank t = false ->
  json_decode (b ++ " " ++ t) = Exc ValueError.
Proof.
  intros E A H. assert (S : serializable v = true) by (destruct (serializable v) eqn:S; [reflexivity|]; unfold json_encode in E; rewrite json_value_eq, S in E; discriminate).
  rewrite (encode_compact v S) in E. injection E as <-. unfold json_decode.
  rewrite read_ascii by (rewrite !is_ascii_app, A, compact_ascii; reflexivity).
  rewrite skip_compact, read_before by reflexivity. change (skip_space (" " ++ t)) with (skip_space t).
  pose proof (not_blank_skip t H). destruct (skip_space t); [contradiction|reflexivity].
Qed.
Lemma json_no_text v b c t : json_encode v = Ok b -> no_start c = true -> json_decode (b ++ String c t) = Exc UnicodeDecodeError.
Proof.
  intros E H. assert (S : serializable v = true) by (destruct (serializable v) eqn:S; [reflexivity|]; unfold json_encode in E; rewrite json_value_eq, S in E; discriminate).
  rewrite (encode_compact v S) in E. injection E as <-. unfold json_decode. rewrite un_utf8_ascii by apply compact_ascii.
  assert (X : un_utf8 (String c t) = None).
  { revert H. destruct c as [[] [] [] [] [] [] [] []]; try discriminate; reflexivity. }
  rewrite X. reflexivity.
Qed.
Lemma json_refused_lemma v : serializable v = false -> json_encode v = Exc TypeError.
Proof. intro H. unfold json_encode. now rewrite json_value_eq, H. Qed.

Lemma dset_length {V} (d : dict V) k v : List.length (dset d k v) = List.length d + (if dhas d k then 0 else 1).
Proof.
  unfold dhas. induction d as [|[k' v'] d IH]; [reflexivity|]. cbn [dset dget]. destruct (keqb k' k); cbn [List.length]; lia.
Qed.
Lemma dupdate_length {V} (l : dict V) : forall d, List.length (dupdate d l) <= List.length d + List.length l.
Proof.
  unfold dupdate. induction l as [|[k v] l IH]; intro d; [cbn; lia|]. cbn [fold_left fst snd List.length].
  specialize (IH (dset d k v)). rewrite dset_length in IH. destruct (dhas d k); lia.
Qed.
(** Nothing is lost only if no key comes twice. *)
Lemma dupdate_full {V} (l : dict V) : forall d, List.length (dupdate d l) = List.length d + List.length l ->
  dupdate d l = d ++ l.
Proof.
  unfold dupdate. induction l as [|[k v] l IH]; intros d H; [symmetry; apply app_nil_r|].
  cbn [fold_left fst snd List.length] in *. pose proof (dupdate_length l (dset d k v)) as L. unfold dupdate in L.
  rewrite dset_length in L. destruct (dhas d k) eqn:E; [lia|].
  assert (D : dset d k v = d ++ [(k, v)]).
  { clear - E. unfold dhas in E. induction d as [|[k' v'] d IH]; [reflexivity|]. cbn [dget dset app] in *.
    destruct (keqb k' k); [discriminate|]. now rewrite IH. }
  rewrite D in *. rewrite IH by (rewrite app_length in *; cbn [List.length] in *; lia).
  now rewrite <- app_assoc.
Qed.

Lemma map_id_Forall {A} (f : A -> A) l : map f l = l <-> Forall (fun x => f x = x) l.
Proof.
  split.
  - induction l as [|x l IH]; constructor; cbn in *; [congruence|]. apply IH. congruence.
  - induction 1 as [|x l Hx _ IH]; [reflexivity|]. cbn. congruence.
Qed.
Lemma forallb_map_id {A} (f : A -> A) (p : A -> bool) l : Forall (fun x => f x = x <-> p x = true) l ->
  (map f l = l <-> forallb p l = true).
Proof.
  intro H. rewrite map_id_Forall. induction H as [|x l Hx _ IH]; cbn [forallb]; [split; auto|].
  rewrite andb_true_iff, <- Hx, <- IH. split; [inversion 1; auto|]. intros [? ?]. now constructor.
Qed.

Lemma stable_iff v : wfv v = true -> serializable v = true -> (jsonified v = v <-> json_stable v = true).
Proof.
  assert (L : forall l, Forall (fun v => wfv v = true -> serializable v = true -> (jsonified v = v <-> json_stable v = true)) l ->
      forallb wfv l = true -> forallb serializable l = true -> Forall (fun v => jsonified v = v <-> json_stable v = true) l).
  { induction 1 as [|x l Hx _ IH]; constructor; cbn [forallb] in *; apply andb_true_iff in H, H0; destruct H, H0; auto. }
  induction v as [k|l IH|l IH|c d IH] using val_ind'; intros W S.
  - cbn in *. tauto.
  - cbn [jsonified json_stable]. rewrite <- (forallb_map_id jsonified json_stable l) by (apply L; assumption).
    split; congruence.
  - cbn. split; discriminate.
  - cbn [wfv serializable] in W, S. apply andb_true_iff in W as [Wd W], S as [Hc S].
    cbn [jsonified json_stable].
    set (f := fun kv : key * val => (KStr (key_text (fst kv)), jsonified (snd kv))).
    assert (F : Forall (fun kv => f kv = kv <-> is_str (fst kv) && json_stable (snd kv) = true) d).
    { clear Wd. induction IH as [|[k x] d Hx _ IHd]; constructor; cbn [forallb fst snd] in *;
        apply andb_true_iff in W as [W1 W2], S as [S1 S2]; [|auto].
      apply andb_true_iff in S1 as [B S1]. rewrite andb_true_iff, <- Hx by assumption. unfold f. cbn [fst snd].
      split; [intro E; injection E as E1 E2|intros [E1 E2]].
      - split; [|exact E2]. rewrite <- E1. reflexivity.
      - destruct k; try discriminate. cbn. congruence. }
    assert (E : dict_of (map f d) = d <-> map f d = d).
    { split; intro E; [|now rewrite E, dict_of_wfd].
      unfold dict_of in E. rewrite dupdate_full in E; [exact E|]. rewrite E. cbn. now rewrite map_length. }
    destruct c; [|split; [congruence|discriminate]..].
    rewrite <- (forallb_map_id f (fun kv => is_str (fst kv) && json_stable (snd kv)) d F), <- E. fold f. split; congruence.
Qed.
Lemma stable_serializable v : json_stable v = true -> serializable v = true.
Proof.
  induction v as [k|l IH|l IH|c d IH] using val_ind'; cbn; try tauto; try discriminate.
  - rewrite !forallb_forall. rewrite Forall_forall in IH. auto.
  - destruct c; try discriminate. cbn. rewrite !forallb_forall. rewrite Forall_forall in IH.
    intros H kv Hin. specialize (H kv Hin). apply andb_true_iff in H as [H1 H2]. rewrite (IH kv Hin H2).
    destruct (fst kv); try discriminate. reflexivity.
Qed.

(** Encoding, whatever the value, and reading back. *)
Lemma json_round_trip v : wfv v = true ->
  (json_stable v = true <-> exists b, json_encode v = Ok b /\ json_decode b = Ok v).
Proof.
  intro W. split.
  - intro H. pose proof (stable_serializable v H) as S. destruct (json_codec_lemma v S) as (b & E & _ & _ & D).
    exists b. split; [exact E|]. rewrite D. f_equal. now apply stable_iff.
  - intros (b & E & D). destruct (serializable v) eqn:S; [|rewrite json_refused_lemma in E by exact S; discriminate].
    destruct (json_codec_lemma v S) as (b' & E' & _ & _ & D'). rewrite E in E'. injection E' as <-.
    rewrite D in D'. injection D' as D'. apply stable_iff; auto.
Qed.

(** What is stored in shared memory comes back. *)
Lemma json_shared s v a ok : wf s -> serializable v = true -> content s a <> Some ""%string ->
  (ok = false -> content s a = None) ->
  exists s1, run (memorize json_encode v a ok) s = (Some (Ok a), s1) /\ only_at (eq a) s s1 /\
    run (remember json_decode a) s1 = (Some (Ok (jsonified v)), s1).
Proof.
  intros W S C O. destruct (json_codec_lemma v S) as (b & E & N & _ & D).
  destruct (memorize_ok json_encode s v b a ok W E N C O) as (s1 & i & R & W1 & A & F).
  exists s1. split; [exact R|]. split; [exact F|]. eapply remember_ok; eauto.
Qed.
