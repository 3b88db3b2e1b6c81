(** Proofs about the tables of parquet metadata. *)
From Verif Require Export Summary_Spec Frame_Rows.
Open Scope nat_scope.

(** ** Text labels *)

Lemma keqb_str a b : keqb (KStr a) (KStr b) = String.eqb a b.
Proof.
  unfold keqb. cbn [knorm]. destruct (key_eq_dec (KStr a) (KStr b)) as [E|N].
  - injection E as ->. symmetry. apply String.eqb_refl.
  - symmetry. apply String.eqb_neq. congruence.
Qed.
Definition tin (f : string) (l : list string) : bool := existsb (String.eqb f) l.
Lemma tin_true f l : tin f l = true <-> In f l.
Proof.
  unfold tin. rewrite existsb_exists. split.
  - intros (x & Hx & E). apply String.eqb_eq in E. now subst.
  - intro H. exists f. split; [exact H|apply String.eqb_refl].
Qed.
Lemma tin_false f l : tin f l = false <-> ~ In f l.
Proof. rewrite <- tin_true. destruct (tin f l); split; congruence. Qed.
Lemma key_in_str f l : key_in (KStr f) (map KStr l) = tin f l.
Proof. unfold key_in, tin. induction l as [|x r IH]; [reflexivity|]. cbn. now rewrite keqb_str, IH. Qed.
Lemma distinct_str l : distinct_labels (map KStr l) <-> NoDup l.
Proof.
  induction l as [|x r IH]; cbn; [split; constructor|]. rewrite IH. split.
  - intros [F N]. constructor; [|exact N]. intro H. rewrite Forall_map, Forall_forall in F. specialize (F x H).
    rewrite keqb_str, String.eqb_refl in F. discriminate.
  - intro N. inversion N; subst. split; [|assumption]. rewrite Forall_map, Forall_forall. intros y Hy. rewrite keqb_str.
    apply String.eqb_neq. intro E. subst. contradiction.
Qed.
Lemma dup_str l : forall seen, NoDup l -> (forall x, In x l -> ~ In x seen) ->
  existsb (fun b => b) (dup_from (map KStr seen) (map KStr l)) = false.
Proof.
  induction l as [|x r IH]; intros seen N D; [reflexivity|]. cbn [map dup_from existsb]. inversion N; subst.
  rewrite key_in_str. rewrite (proj2 (tin_false x seen) (D x (or_introl eq_refl))). cbn [orb].
  apply (IH (x :: seen)); [assumption|]. intros y Hy [<-|E]; [contradiction|]. exact (D y (or_intror Hy) E).
Qed.
Lemma no_dup_str l : NoDup l -> existsb (fun b => b) (duplicated (map KStr l)) = false.
Proof. intro N. apply (dup_str l []); [exact N|]. intros x _ []. Qed.
Lemma dup_str_true l : forall seen, ~ NoDup l \/ (exists x, In x l /\ In x seen) ->
  existsb (fun b => b) (dup_from (map KStr seen) (map KStr l)) = true.
Proof.
  induction l as [|x r IH]; intros seen H.
  - exfalso. destruct H as [H|(x & [] & _)]. apply H. constructor.
  - cbn [map dup_from existsb]. rewrite key_in_str. destruct (tin x seen) eqn:E; [reflexivity|]. cbn [orb].
    apply (IH (x :: seen)). apply tin_false in E. destruct H as [H|(y & [->|Hy] & Hs)].
    + destruct (in_dec string_dec x r) as [I|I]; [right; exists x; split; [exact I|now left]|].
      left. intro N. apply H. now constructor.
    + contradiction.
    + right. exists y. split; [exact Hy|now right].
Qed.

Section Keyed.
  Context {V : Type}.
  Definition keyed (fs : list string) (g : string -> V) : list (key * V) := map (fun f => (KStr f, g f)) fs.
  Lemma keyed_keys fs g : map fst (keyed fs g) = map KStr fs.
  Proof. unfold keyed. rewrite map_map. reflexivity. Qed.
  Lemma keyed_get fs g f : dget (keyed fs g) (KStr f) = if tin f fs then Some (g f) else None.
  Proof.
    induction fs as [|x r IH]; [reflexivity|]. cbn. rewrite keqb_str, String.eqb_sym. destruct (String.eqb_spec f x); subst; [reflexivity|].
    exact IH.
  Qed.
  Lemma keyed_filter fs g f : NoDup fs ->
    filter (fun c => keqb (fst c) (KStr f)) (keyed fs g) = if tin f fs then [(KStr f, g f)] else [].
  Proof.
    induction 1 as [|x r N ND IH]; [reflexivity|]. cbn. rewrite keqb_str, String.eqb_sym. destruct (String.eqb_spec f x) as [->|E].
    - cbn [orb]. f_equal. fold (keyed r g). rewrite IH. apply tin_false in N. now rewrite N.
    - cbn [orb]. exact IH.
  Qed.
  Lemma keyed_ext fs g h : (forall f, In f fs -> g f = h f) -> keyed fs g = keyed fs h.
  Proof. intro E. apply map_ext_in. intros f Hf. now rewrite E. Qed.
  Lemma keyed_app a b g : keyed (a ++ b) g = keyed a g ++ keyed b g.
  Proof. apply map_app. Qed.
  Lemma keyed_wfd fs g : NoDup fs -> wfd (keyed fs g) = true.
  Proof. intro N. apply distinct_wfd. rewrite keyed_keys. now apply distinct_str. Qed.
  Lemma keyed_inv (l : list (key * V)) fs (d : V) : map fst l = map KStr fs -> NoDup fs ->
    l = keyed fs (fun f => match dget l (KStr f) with Some v => v | None => d end).
  Proof.
    revert l; induction fs as [|x r IH]; intros [|[k v] l] E N; try discriminate; [reflexivity|].
    cbn in E. injection E as -> E. inversion N; subst. cbn. rewrite keqb_str, String.eqb_refl. f_equal.
    rewrite (IH l E H2) at 1. apply keyed_ext. intros f Hf. rewrite keqb_str. destruct (String.eqb_spec x f); [subst; contradiction|reflexivity].
  Qed.
End Keyed.

Lemma Forall2_map_in {A B} (R : A -> B -> Prop) (g : A -> B) l : (forall x, In x l -> R x (g x)) -> Forall2 R l (map g l).
Proof. induction l as [|x r IH]; intro H; constructor; [apply H; now left|]. apply IH. intros y Hy. apply H. now right. Qed.
Lemma first_seen_in l x : In x (first_seen l) <-> In x l.
Proof.
  induction l as [|y r IH]; [reflexivity|]. cbn. rewrite filter_In, IH. destruct (String.eqb_spec x y) as [->|N].
  - cbn. split; auto.
  - cbn. split; [intros [E|[H _]]; auto|intros [E|H]; auto].
Qed.
Lemma first_seen_nodup l : NoDup (first_seen l).
Proof.
  induction l as [|y r IH]; [constructor|]. cbn. constructor; [|now apply NoDup_filter].
  rewrite filter_In. intros [_ E]. rewrite String.eqb_refl in E. discriminate.
Qed.
Lemma first_seen_id l : NoDup l -> first_seen l = l.
Proof.
  induction 1 as [|y r N ND IH]; [reflexivity|]. cbn. rewrite IH. f_equal.
  assert (G : forall m, ~ In y m -> filter (fun z => negb (String.eqb z y)) m = m).
  { induction m as [|z m IHm]; intro H; [reflexivity|]. cbn. destruct (String.eqb_spec z y) as [->|E]; [destruct H; now left|].
    cbn. f_equal. apply IHm. intro; apply H; now right. }
  now apply G.
Qed.

Section Tables.
  Context {X : Type} (naX : X -> bool) (eqX : X -> X -> bool).
  Hypothesis HX : cells naX eqX.
  Notation cell := (mcell X).
  Notation record := (dict cell).
  Notation isna := (misna naX).
  Notation ceq := (mceq eqX).

  Lemma mcells : cells isna ceq.
  Proof.
    destruct HX as [R S T]. split.
    - intros [|z|s|x]; cbn; [reflexivity|now rewrite Z.eqb_refl|now rewrite String.eqb_refl|apply R].
    - intros [|z|s|x] [|z'|s'|x']; cbn; try reflexivity; [apply Z.eqb_sym|apply String.eqb_sym|apply S].
    - intros [|z|s|x] [|z'|s'|x'] [|z''|s''|x'']; cbn; try discriminate.
      + rewrite !Z.eqb_eq. congruence.
      + rewrite !String.eqb_eq. congruence.
      + apply T.
  Qed.

  (** ** Keys of records *)

  Definition texty (r : record) : Prop := wfd r = true /\ exists fs, dkeys r = map KStr fs.
  Lemma texty_fields r : texty r -> exists fs, dkeys r = map KStr fs /\ NoDup fs /\ forall f, In f fs <-> dget r (KStr f) <> None.
  Proof.
    intros [W [fs E]]. assert (N : NoDup fs).
    { clear -W E. revert fs E. induction r as [|[k v] r IH]; intros [|f fs] E; try discriminate; [constructor|].
      cbn in E. injection E as -> E. apply wfd_cons in W. destruct W as [G W]. constructor; [|now apply IH].
      intro H. assert (I : In (KStr f) (dkeys r)) by (unfold dkeys; rewrite E; now apply in_map).
      apply in_map_iff in I. destruct I as ([k v'] & Ek & I). cbn in Ek. subst k.
      apply (dget_None_In _ _ _ _ G) in I. rewrite keqb_refl in I. discriminate. }
    exists fs. split; [exact E|]. split; [exact N|]. intro f.
    rewrite (keyed_inv r fs Na E N), keyed_get. rewrite <- tin_true. destruct (tin f fs); split; congruence.
  Qed.
  Lemma all_keys_from (recs : list record) : Forall texty recs -> forall seen, NoDup seen ->
    exists fs, fold_left (fun seen r => seen ++ filter (fun k => negb (key_in k seen)) (dkeys r)) recs (map KStr seen) = map KStr fs /\
      NoDup fs /\ forall f, In f fs <-> In f seen \/ exists r, In r recs /\ dget r (KStr f) <> None.
  Proof.
    induction 1 as [|r recs T F IH]; intros seen N.
    - exists seen. split; [reflexivity|]. split; [exact N|]. intro f. split; [auto|]. intros [H|(r & [] & _)]; exact H.
    - destruct (texty_fields r T) as (fs & E & NF & G). cbn [fold_left]. rewrite E.
      assert (Q : filter (fun k => negb (key_in k (map KStr seen))) (map KStr fs) = map KStr (filter (fun f => negb (tin f seen)) fs)).
      { clear. induction fs as [|x r IH]; [reflexivity|]. cbn [map filter]. rewrite key_in_str. destruct (tin x seen); cbn; [exact IH|now rewrite IH]. }
      rewrite Q, <- map_app.
      destruct (IH (seen ++ filter (fun f => negb (tin f seen)) fs)) as (fs' & E' & N' & G').
      { clear -N NF. assert (D : forall x, In x (filter (fun f => negb (tin f seen)) fs) -> ~ In x seen).
        { intros x Hx. apply filter_In in Hx. destruct Hx as [_ Hx]. apply tin_false. now destruct (tin x seen). }
        assert (N2 := NoDup_filter (fun f => negb (tin f seen)) NF). revert D N2.
        generalize (filter (fun f => negb (tin f seen)) fs). intros l D N2. clear NF fs.
        induction N as [|x s I N IHs]; [exact N2|]. cbn. constructor.
        - rewrite in_app_iff. intros [C|C]; [contradiction|]. apply (D x C). now left.
        - apply IHs. intros y Hy C. apply (D y Hy). now right. }
      exists fs'. split; [exact E'|]. split; [exact N'|]. intro f. rewrite G', in_app_iff, filter_In, G. split.
      + intros [[H|[H _]]|(r' & H & H')]; [now left|right; exists r; split; [now left|exact H]|right; exists r'; split; [now right|exact H']].
      + intros [H|(r' & [<-|H] & H')]; [now left; left| |now right; exists r'].
        destruct (tin f seen) eqn:S; [left; left; now apply tin_true|left; right; now split].
  Qed.
  Lemma all_keys_ok (recs : list record) : Forall texty recs -> exists fs, all_keys recs = map KStr fs /\ NoDup fs /\
    forall f, In f fs <-> exists r, In r recs /\ dget r (KStr f) <> None.
  Proof.
    intro F. destruct (all_keys_from recs F [] (NoDup_nil _)) as (fs & E & N & G). exists fs. split; [exact E|]. split; [exact N|].
    intro f. rewrite G. split; [intros [[]|H]; exact H|auto].
  Qed.

  Lemma at_key_field f (r : record) : at_key (KStr f) r = field f r.
  Proof. reflexivity. Qed.
  Lemma frame_of_ok (recs : list record) fs : all_keys recs = map KStr fs ->
    columns (frame_of recs) = keyed fs (fun f => map (field f) recs).
  Proof. intro E. unfold frame_of, keyed. cbn [columns]. rewrite E, map_map. reflexivity. Qed.

  (** ** Records of parquet files *)

  Variable recs : list record.
  Hypothesis Hrec : Forall (@proper X) recs.
  Hypothesis Hne : recs <> [].

  Lemma proper_texty : Forall texty recs.
  Proof.
    eapply Forall_impl; [|exact Hrec]. intros r [W T _ _ _]. split; [exact W|].
    clear W. induction (dkeys r) as [|k l IH]; [exists []; reflexivity|].
    destruct IH as [fs E]; [intros k' Hk; apply T; now right|]. destruct (T k (or_introl eq_refl)) as [f ->]. exists (f :: fs). cbn. now rewrite E.
  Qed.
  Definition fields_ok (fs : list string) : Prop :=
    all_keys recs = map KStr fs /\ NoDup fs /\ (forall f, In f fs <-> exists r, In r recs /\ dget r (KStr f) <> None).
  Lemma have_fields : exists fs, fields_ok fs.
  Proof. apply all_keys_ok, proper_texty. Qed.
  Lemma some_record : exists r, In r recs.
  Proof. destruct recs as [|r l]; [congruence|]. exists r. now left. Qed.
  Lemma in_proper r : In r recs -> @proper X r.
  Proof. rewrite Forall_forall in Hrec. apply Hrec. Qed.
  Lemma path_field fs : fields_ok fs -> In "path_in_schema" fs.
  Proof.
    intros (_ & _ & G). apply G. destruct some_record as [r Hr]. exists r. split; [exact Hr|].
    destruct (pr_path _ (in_proper r Hr)) as [p E]. congruence.
  Qed.
  Lemma size_field fs f : fields_ok fs -> In f sizes -> In f fs.
  Proof.
    intros (_ & _ & G) I. apply G. destruct some_record as [r Hr]. exists r. split; [exact Hr|].
    destruct (pr_sizes _ (in_proper r Hr) f I) as [z E]. congruence.
  Qed.
  Lemma no_given fs f : fields_ok fs -> In f fs -> ~ In f (map snd given_names).
  Proof.
    intros (_ & _ & G) I C. apply G in I. destruct I as (r & Hr & N). apply N. exact (pr_names _ (in_proper r Hr) f C).
  Qed.
  Lemma field_path r : In r recs -> field "path_in_schema" r = Txt (path_of r).
  Proof. intro Hr. destruct (pr_path _ (in_proper r Hr)) as [p E]. unfold path_of, field. now rewrite E. Qed.

  Lemma columns_get fs (df : frame cell) g f : columns df = keyed fs g -> NoDup fs ->
    loc_name df (KStr f) = if tin f fs then [(KStr f, g f)] else [].
  Proof. intros E N. unfold loc_name. rewrite E. now apply keyed_filter. Qed.
  Lemma column_get fs (df : frame cell) g f : columns df = keyed fs g -> NoDup fs -> In f fs -> column df (KStr f) = Ok (g f).
  Proof. intros E N I. unfold column. rewrite (columns_get fs df g f E N). apply tin_true in I. now rewrite I. Qed.

  Lemma path_column fs : fields_ok fs -> column (frame_of recs) (KStr "path_in_schema") = Ok (map Txt (map path_of recs)).
  Proof.
    intro F. rewrite (column_get fs _ _ _ (frame_of_ok recs fs (proj1 F)) (proj1 (proj2 F)) (path_field fs F)).
    f_equal. rewrite map_map. apply map_ext_in. apply field_path.
  Qed.

  (** ** Paths *)

  Lemma alike_txt a b : alike naX eqX (Txt a) (Txt b) = String.eqb a b.
  Proof. unfold alike. cbn. apply orb_false_r. Qed.
  Lemma existsb_txt a l : existsb (alike naX eqX (Txt a)) (map Txt l) = tin a l.
  Proof. induction l as [|x r IH]; [reflexivity|]. cbn [map existsb]. rewrite alike_txt, IH. reflexivity. Qed.
  Lemma unique_txt l : forall seen, unique naX eqX (map Txt seen) (map Txt l) = map Txt (filter (fun x => negb (tin x seen)) (first_seen l)).
  Proof.
    induction l as [|x r IH]; intro seen; [reflexivity|]. cbn [map unique first_seen filter]. rewrite existsb_txt.
    assert (G : forall m s, filter (fun y => negb (tin y s)) (filter (fun y => negb (String.eqb y x)) m) = filter (fun y => negb (tin y (x :: s))) m).
    { intros m s. induction m as [|y m IHm]; [reflexivity|]. cbn [filter]. change (tin y (x :: s)) with (String.eqb y x || tin y s).
      destruct (String.eqb y x); cbn [negb orb filter]; [exact IHm|]. destruct (tin y s); cbn [negb]; [exact IHm|now rewrite IHm]. }
    destruct (tin x seen) eqn:E; cbn [negb].
    - rewrite IH, G. f_equal. apply filter_ext. intro y. change (tin y (x :: seen)) with (String.eqb y x || tin y seen).
      destruct (String.eqb_spec y x) as [->|]; [now rewrite E|reflexivity].
    - cbn [map]. f_equal. change (Txt x :: map Txt seen) with (map (@Txt X) (x :: seen)). rewrite IH, G. reflexivity.
  Qed.
  Lemma unique_ok : unique naX eqX [] (map Txt (map path_of recs)) = map Txt (paths recs).
  Proof.
    change (@nil cell) with (map (@Txt X) []). rewrite unique_txt. f_equal. unfold paths.
    induction (first_seen _) as [|x r IH]; [reflexivity|]. change (x :: filter (fun x => negb (tin x [])) r = x :: r). now rewrite IH.
  Qed.
  Lemma duplicated_txt l : any_duplicated naX eqX (map Txt l) = false <-> NoDup l.
  Proof.
    induction l as [|x r IH]; cbn; [split; constructor|]. rewrite existsb_txt, orb_false_iff, IH, tin_false. split.
    - intros [A B]. now constructor.
    - intro N. inversion N; subst. auto.
  Qed.

  (** ** One column *)

  Definition of_path (p : string) : list record := filter (fun r => String.eqb (path_of r) p) recs.
  Lemma of_path_ne p : In p (paths recs) -> of_path p <> [].
  Proof.
    unfold paths. rewrite first_seen_in, in_map_iff. intros (r & E & Hr) C.
    assert (I : In r (of_path p)) by (apply filter_In; split; [exact Hr|rewrite E; apply String.eqb_refl]). rewrite C in I. destruct I.
  Qed.
  Lemma values_ne p f : In p (paths recs) -> exists v l, values recs p f = v :: l.
  Proof.
    intro H. unfold values. fold (of_path p). assert (N := of_path_ne p H). destruct (of_path p) as [|r l]; [congruence|].
    cbn. eauto.
  Qed.
  Definition agree (p f : string) : bool := constant_series isna ceq true (values recs p f).
  Lemma agree_ok p f : agree p f = true <-> all_equal naX eqX (values recs p f).
  Proof. apply constant_ok, mcells. Qed.
  Lemma agree_no p f : agree p f = false <-> ~ all_equal naX eqX (values recs p f).
  Proof. rewrite <- agree_ok. destruct (agree p f); split; congruence. Qed.

  (** What the table shows. *)
  Definition shown (p f : string) : cell :=
    if tin f sizes then Int (sum_of (values recs p f))
    else if agree p f then hd Na (values recs p f) else Na.
  Lemma shown_ok p f : In p (paths recs) -> sums_up naX eqX recs p f (shown p f).
  Proof.
    intro H. unfold shown. destruct (tin f sizes) eqn:S; [apply su_total; now apply tin_true|]. apply tin_false in S.
    destruct (agree p f) eqn:A.
    - destruct (values_ne p f H) as (v & l & E). rewrite E. cbn [hd]. apply su_equal with l; [exact S|exact E|]. rewrite <- E. now apply agree_ok.
    - apply su_varied; [exact S|]. now apply agree_no.
  Qed.

  Section Slice.
    Variables (fs : list string) (p : string).
    Hypothesis F : fields_ok fs.
    Hypothesis Hp : In p (paths recs).
    Definition slice : frame cell := loc_rows (frame_of recs) (map (fun v => ceq v (Txt p)) (map Txt (map path_of recs))).
    Lemma slice_mask : map (fun v => ceq v (Txt p)) (map (@Txt X) (map path_of recs)) = map (fun r => String.eqb (path_of r) p) recs.
    Proof. rewrite !map_map. reflexivity. Qed.
    Lemma slice_columns : columns slice = keyed fs (values recs p).
    Proof.
      destruct F as (E & _ & _). unfold slice, loc_rows. cbn [columns]. rewrite (frame_of_ok recs fs E). unfold keyed. rewrite map_map.
      apply map_ext. intro f. cbn [fst snd]. f_equal. rewrite slice_mask, mask_of_map, mask_map. reflexivity.
    Qed.
    Lemma slice_labels : List.length (labels slice) = List.length (of_path p).
    Proof.
      unfold slice, loc_rows. cbn [labels]. rewrite slice_mask. unfold of_path. rewrite <- (mask_map _ recs).
      apply mask_len. unfold frame_of. cbn [labels]. now rewrite map_length, seq_length.
    Qed.
    Lemma slice_rect : rectangular slice.
    Proof.
      unfold rectangular. rewrite slice_columns, slice_labels. unfold keyed. rewrite Forall_map. apply Forall_forall. intros f _. cbn [snd].
      unfold values. rewrite map_length. reflexivity.
    Qed.
    Lemma slice_constants : extract_constants isna ceq slice true false HowRows true =
      Ok (AsDict (keyed (filter (agree p) fs) (fun f => hd Na (values recs p f))), slice).
    Proof.
      destruct (constants_dict isna ceq mcells slice false true slice_rect) as (d & cs & vs & E & S & Q).
      - intro C. assert (L := slice_labels). rewrite C in L. apply (of_path_ne p Hp). destruct (of_path p); [reflexivity|discriminate].
      - unfold names. rewrite slice_columns, keyed_keys. apply distinct_str. apply F.
      - rewrite E. f_equal. f_equal. f_equal.
        assert (O : cs = keyed (filter (agree p) fs) (values recs p)).
        { assert (S2 := sorted_out_filter (fun c => constant isna ceq true (snd c)) (fun c => constant_series isna ceq true (snd c)) (columns slice)
                          (fun c _ => constant_ok isna ceq mcells true (snd c))).
          destruct (sorted_out_det _ _ _ _ S _ _ S2) as [SD _]. rewrite <- SD, slice_columns. unfold keyed. clear.
          induction fs as [|f r IH]; [reflexivity|]. cbn [map filter snd]. fold (agree p f). destruct (agree p f); cbn; now rewrite IH. }
        rewrite O in Q. clear -Q Hp Hrec Hne. revert d Q. generalize (filter (agree p) fs). induction l as [|f r IH]; intros d Q.
        + now inversion Q.
        + cbn in Q. inversion Q as [|[k v] c d' cs' [E1 E2] Q' E3 E4]; subst. cbn in E1, E2. subst k. cbn. f_equal; [|now apply IH].
          f_equal. destruct (values recs p f); [discriminate|]. cbn in E2. now injection E2 as ->.
    Qed.
    Lemma total_values f : In f sizes -> total naX (values recs p f) = Ok (sum_of (values recs p f)).
    Proof.
      intro I. unfold values. fold (of_path p).
      assert (A : forall r, In r (of_path p) -> exists z, field f r = Int z).
      { intros r Hr. apply filter_In in Hr. destruct Hr as [Hr _]. destruct (pr_sizes _ (in_proper r Hr) f I) as [z E]. exists z. unfold field. now rewrite E. }
      induction (of_path p) as [|r l IH]; [reflexivity|]. cbn [map]. destruct (A r (or_introl eq_refl)) as [z ->].
      cbn [total sum_of]. rewrite IH; [reflexivity|]. intros r' Hr. apply A. now right.
    Qed.
    (** The labels of a column's Series. *)
    Definition kept (extended : bool) : list string :=
      if extended then filter (agree p) fs else filter (fun f => tin f BRIEF_PQ_META_FIELDS) (filter (agree p) fs).
    Lemma brief_tin f : existsb (fun g => keqb (KStr f) (KStr g)) BRIEF_PQ_META_FIELDS = tin f BRIEF_PQ_META_FIELDS.
    Proof. unfold tin. induction BRIEF_PQ_META_FIELDS as [|x r IH]; [reflexivity|]. cbn [existsb]. now rewrite keqb_str, IH. Qed.
    Lemma series_ok extended : column_series naX eqX (frame_of recs) (map Txt (map path_of recs)) extended (Txt p) =
      Ok (keyed (kept extended) (fun f => hd Na (values recs p f)) ++ keyed sizes (fun f => Int (sum_of (values recs p f)))).
    Proof.
      unfold column_series. fold slice. rewrite slice_constants. cbn [bind fst].
      assert (N : NoDup fs) by apply F.
      assert (T : forall f, In f sizes -> (s <- column slice (KStr f) ;; t <- total naX s ;; Ok (KStr f, Int t)) =
                    Ok (KStr f, @Int X (sum_of (values recs p f)))).
      { intros f I. rewrite (column_get fs _ _ _ slice_columns N (size_field fs f F I)). cbn [bind]. rewrite (total_values f I). reflexivity. }
      assert (M : mapM (fun f => s <- column slice (KStr f) ;; t <- total naX s ;; Ok (KStr f, Int t)) summed =
                  Ok (keyed sizes (fun f => @Int X (sum_of (values recs p f))))).
      { change summed with sizes. cbn [sizes mapM]. rewrite !T by (cbn; auto). reflexivity. }
      rewrite M. cbn [bind]. f_equal. f_equal. unfold kept. destruct extended; [reflexivity|].
      rewrite keyfilter_wfd by (apply keyed_wfd, NoDup_filter, N).
      generalize (filter (agree p) fs). induction l as [|f r IH]; [reflexivity|].
      cbn [keyed map filter fst]. rewrite brief_tin. fold (@keyed cell). destruct (tin f BRIEF_PQ_META_FIELDS); cbn [keyed map]; [f_equal; exact IH|exact IH].
    Qed.
  End Slice.

  (** ** Putting columns together *)

  Lemma same_labels_str a b : same_labels (map KStr a) (map KStr b) = true <-> a = b.
  Proof.
    revert b; induction a as [|x r IH]; intros [|y t]; cbn; try (split; [discriminate|discriminate]); [tauto|].
    rewrite keqb_str, andb_true_iff, String.eqb_eq, IH. split; [intros [-> ->]; reflexivity|intro E; injection E; auto].
  Qed.
  Lemma nth_keyed (fs : list string) (g : string -> cell) j f : nth_error fs j = Some f -> nth j (map snd (keyed fs g)) Na = g f.
  Proof.
    intro E. unfold keyed. rewrite map_map. cbn [snd]. apply nth_error_nth. now apply map_nth_error.
  Qed.
  Lemma combine_seq {A B} (h : nat * A -> B) (l : list A) : forall n (k : A -> B),
    (forall j f, nth_error l j = Some f -> h (n + j, f) = k f) -> map h (combine (seq n (List.length l)) l) = map k l.
  Proof.
    induction l as [|x r IH]; intros n k H; [reflexivity|]. cbn. f_equal.
    - rewrite <- (H 0 x eq_refl). f_equal. f_equal. lia.
    - apply IH. intros j f E. rewrite <- (H (S j) f E). f_equal. f_equal. lia.
  Qed.
  Definition ranked (n : nat) : list key := map KInt (map Z.of_nat (seq 0 n)).
  Lemma concat_ok {P} (ps : list P) (ls : P -> list string) (g : P -> string -> cell) : ps <> [] -> (forall p, In p ps -> NoDup (ls p)) ->
    exists U, concat_T (map (fun p => keyed (ls p) (g p)) ps) =
      Ok {| labels := ranked (List.length ps);
            columns := keyed U (fun f => map (fun p => if tin f (ls p) then g p f else Na) ps) |} /\
      NoDup U /\ forall f, In f U <-> exists p, In p ps /\ In f (ls p).
  Proof.
    intros NE N. set (l := map (fun p => keyed (ls p) (g p)) ps).
    assert (L : List.length l = List.length ps) by apply map_length.
    assert (TX : Forall texty l).
    { apply Forall_forall. intros t Ht. apply in_map_iff in Ht. destruct Ht as (p & <- & Hp). split; [apply keyed_wfd, N, Hp|].
      exists (ls p). unfold dkeys. apply keyed_keys. }
    assert (EP : exists p0 ps', ps = p0 :: ps') by (destruct ps; [congruence|eauto]). destruct EP as (p0 & ps' & EP).
    assert (L0 : exists l', l = keyed (ls p0) (g p0) :: l') by (unfold l; rewrite EP; cbn; eauto).
    destruct L0 as [l' L0]. unfold concat_T. rewrite L0. rewrite <- L0.
    fold (ranked (List.length l)). rewrite L.
    destruct (forallb (fun t => same_labels (map fst (keyed (ls p0) (g p0))) (map fst t)) l') eqn:S.
    - assert (A : forall p, In p ps -> ls p = ls p0).
      { intros p Hp. rewrite EP in Hp. destruct Hp as [<-|Hp]; [reflexivity|]. rewrite forallb_forall in S.
        assert (I : In (keyed (ls p) (g p)) l').
        { assert (Q : l' = map (fun p => keyed (ls p) (g p)) ps') by (unfold l in L0; rewrite EP in L0; cbn in L0; now injection L0).
          rewrite Q. apply in_map_iff. now exists p. }
        specialize (S _ I). rewrite !keyed_keys in S. symmetry. now apply same_labels_str. }
      exists (ls p0). split; [|split].
      + f_equal. f_equal. rewrite keyed_keys.
        assert (Q : List.length (keyed (ls p0) (g p0)) = List.length (map KStr (ls p0))) by (unfold keyed; now rewrite !map_length).
        rewrite Q.
        transitivity (map (fun k => (k, match k with KStr f => map (fun p => if tin f (ls p) then g p f else Na) ps | _ => [] end)) (map KStr (ls p0)));
          [|unfold keyed; rewrite map_map; reflexivity].
        apply combine_seq. intros j k E. cbn [fst snd Nat.add]. f_equal. rewrite nth_error_map in E.
        destruct (nth_error (ls p0) j) as [f|] eqn:Ef; [|discriminate]. cbn in E. injection E as <-.
        unfold l. rewrite map_map. apply map_ext_in. intros p Hp. rewrite (nth_keyed _ _ j f) by (rewrite (A p Hp); exact Ef).
        assert (I : tin f (ls p) = true) by (rewrite (A p Hp); apply tin_true; eapply nth_error_In; exact Ef). now rewrite I.
      + apply N. rewrite EP. now left.
      + intro f. split; [intro H; exists p0; split; [rewrite EP; now left|exact H]|intros (p & Hp & H); now rewrite <- (A p Hp)].
    - assert (D : existsb (fun t : list (key * cell) => existsb (fun b => b) (duplicated (map fst t))) l = false).
      { destruct (existsb _ l) eqn:E; [|reflexivity]. apply existsb_exists in E. destruct E as (t & Ht & E). unfold l in Ht.
        apply in_map_iff in Ht. destruct Ht as (p & <- & Hp). rewrite keyed_keys, (no_dup_str _ (N p Hp)) in E. discriminate. }
      rewrite D. destruct (all_keys_ok l TX) as (U & EU & NU & G). exists U. split; [|split; [exact NU|]].
      + f_equal. f_equal. rewrite EU. unfold keyed. rewrite map_map. apply map_ext. intro f. f_equal. unfold l. rewrite map_map.
        apply map_ext. intro p. unfold at_key. rewrite keyed_get. destruct (tin f (ls p)); reflexivity.
      + intro f. rewrite G. split.
        * intros (t & Ht & H). unfold l in Ht. apply in_map_iff in Ht. destruct Ht as (p & <- & Hp). rewrite keyed_get in H.
          exists p. split; [exact Hp|]. apply tin_true. destruct (tin f (ls p)); congruence.
        * intros (p & Hp & H). exists (keyed (ls p) (g p)). split; [unfold l; apply in_map_iff; now exists p|].
          rewrite keyed_get, (proj2 (tin_true _ _) H). discriminate.
  Qed.

  Lemma mapM_ok {A B} (f : A -> res B) (g : A -> B) l : (forall x, In x l -> f x = Ok (g x)) -> mapM f l = Ok (map g l).
  Proof.
    induction l as [|x r IH]; intro H; [reflexivity|]. cbn. rewrite (H x (or_introl eq_refl)), IH by (intros y Hy; apply H; now right). reflexivity.
  Qed.
  Lemma mapM_map {A B C} (f : B -> res C) (g : A -> B) l : mapM f (map g l) = mapM (fun x => f (g x)) l.
  Proof. induction l as [|x r IH]; [reflexivity|]. cbn. now rewrite IH. Qed.

  (** ** Names *)

  Lemma find_renamed f : find (fun p => keqb (KStr f) (KStr (fst p))) renamed = find (fun p => String.eqb (fst p) f) given_names.
  Proof.
    change renamed with given_names. induction given_names as [|x r IH]; [reflexivity|]. cbn. rewrite keqb_str, String.eqb_sym, IH. reflexivity.
  Qed.
  Lemma rename_ok (df : frame cell) U c : columns df = keyed U c ->
    columns (rename renamed df) = map (fun f => (KStr (given_name f), c f)) U.
  Proof.
    intro E. unfold rename. cbn [columns]. rewrite E. unfold keyed. rewrite map_map. apply map_ext. intro f. cbn [fst snd].
    rewrite find_renamed. unfold given_name. destruct (find _ given_names) as [[a b]|]; reflexivity.
  Qed.
  Lemma given_name_inj f g : ~ In f (map snd given_names) -> ~ In g (map snd given_names) -> given_name f = given_name g -> f = g.
  Proof.
    unfold given_name, given_names. cbn [map snd find fst].
    destruct (String.eqb_spec "physical_type" f), (String.eqb_spec "physical_type" g); cbn [snd]; try congruence.
    1: { intros _ H. destruct (String.eqb_spec "path_in_schema" g), (String.eqb_spec "has_dictionary_page" g),
           (String.eqb_spec "total_compressed_size" g), (String.eqb_spec "total_uncompressed_size" g); cbn [snd]; try discriminate;
         intros <-; destruct H; cbn; auto. }
    1: { intros H _. destruct (String.eqb_spec "path_in_schema" f), (String.eqb_spec "has_dictionary_page" f),
           (String.eqb_spec "total_compressed_size" f), (String.eqb_spec "total_uncompressed_size" f); cbn [snd]; try discriminate;
         intros ->; destruct H; cbn; auto. }
    destruct (String.eqb_spec "path_in_schema" f), (String.eqb_spec "path_in_schema" g); cbn [snd]; try congruence.
    1: { intros _ H. destruct (String.eqb_spec "has_dictionary_page" g),
           (String.eqb_spec "total_compressed_size" g), (String.eqb_spec "total_uncompressed_size" g); cbn [snd]; try discriminate;
         intros <-; destruct H; cbn; auto. }
    1: { intros H _. destruct (String.eqb_spec "has_dictionary_page" f),
           (String.eqb_spec "total_compressed_size" f), (String.eqb_spec "total_uncompressed_size" f); cbn [snd]; try discriminate;
         intros ->; destruct H; cbn; auto. }
    destruct (String.eqb_spec "has_dictionary_page" f), (String.eqb_spec "has_dictionary_page" g); cbn [snd]; try congruence.
    1: { intros _ H. destruct (String.eqb_spec "total_compressed_size" g), (String.eqb_spec "total_uncompressed_size" g); cbn [snd]; try discriminate;
         intros <-; destruct H; cbn; auto. }
    1: { intros H _. destruct (String.eqb_spec "total_compressed_size" f), (String.eqb_spec "total_uncompressed_size" f); cbn [snd]; try discriminate;
         intros ->; destruct H; cbn; auto. }
    destruct (String.eqb_spec "total_compressed_size" f), (String.eqb_spec "total_compressed_size" g); cbn [snd]; try congruence.
    1: { intros _ H. destruct (String.eqb_spec "total_uncompressed_size" g); cbn [snd]; try discriminate; intros <-; destruct H; cbn; auto 6. }
    1: { intros H _. destruct (String.eqb_spec "total_uncompressed_size" f); cbn [snd]; try discriminate; intros ->; destruct H; cbn; auto 6. }
    destruct (String.eqb_spec "total_uncompressed_size" f), (String.eqb_spec "total_uncompressed_size" g); cbn [snd]; try congruence.
    1: { intros _ H <-. destruct H; cbn; auto 6. }
    1: { intros H _ ->. destruct H; cbn; auto 6. }
  Qed.
  Lemma given_nodup U : NoDup U -> (forall f, In f U -> ~ In f (map snd given_names)) -> NoDup (map given_name U).
  Proof.
    induction 1 as [|x r N ND IH]; intro H; [constructor|]. cbn. constructor.
    - rewrite in_map_iff. intros (y & E & Hy). apply N. rewrite <- (given_name_inj y x); auto; [apply H; now right|apply H; now left].
    - apply IH. intros f Hf. apply H. now right.
  Qed.
  Lemma renamed_get (df : frame cell) U c f : columns df = keyed U c -> NoDup U -> (forall f, In f U -> ~ In f (map snd given_names)) ->
    ~ In f (map snd given_names) ->
    loc_name (rename renamed df) (KStr (given_name f)) = if tin f U then [(KStr (given_name f), c f)] else [].
  Proof.
    intros E N H Hf. unfold loc_name. rewrite (rename_ok df U c E). clear E. induction N as [|x r NI N IH]; [reflexivity|].
    cbn [map filter fst]. rewrite keqb_str. change (tin f (x :: r)) with (String.eqb f x || tin f r).
    destruct (String.eqb_spec f x) as [->|D].
    - rewrite String.eqb_refl. cbn [orb]. f_equal. rewrite IH by (intros g Hg; apply H; now right).
      apply tin_false in NI. now rewrite NI.
    - destruct (String.eqb_spec (given_name x) (given_name f)) as [C|C].
      + exfalso. apply D. symmetry. apply given_name_inj; [apply H; now left|exact Hf|exact C].
      + cbn [orb]. apply IH. intros g Hg. apply H. now right.
  Qed.

  (** ** Tables *)

  Lemma paths_ne : paths recs <> [].
  Proof.
    destruct some_record as [r Hr]. assert (I : In (path_of r) (paths recs)) by (apply first_seen_in; now apply in_map).
    intro C. rewrite C in I. destruct I.
  Qed.
  (** The frame before renaming has [U] columns that show what they should. *)
  Definition showing (df : frame cell) (U : list string) : Prop :=
    labels df = ranked (List.length (paths recs)) /\
    columns df = keyed U (fun f => map (fun p => shown p f) (paths recs)) /\ NoDup U /\
    (forall f, In f U -> ~ In f (map snd given_names)).

  Lemma missing_shown fs p f : fields_ok fs -> In p (paths recs) -> ~ In f fs -> shown p f = Na.
  Proof.
    intros F Hp N. unfold shown. destruct (tin f sizes) eqn:S.
    - exfalso. apply N. apply size_field; [exact F|now apply tin_true].
    - destruct (agree p f); [|reflexivity].
      assert (A : forall r, In r recs -> field f r = Na).
      { intros r Hr. unfold field. destruct (dget r (KStr f)) eqn:E; [|reflexivity]. exfalso. apply N. apply F. exists r. split; [exact Hr|congruence]. }
      unfold values. destruct (filter _ recs) as [|r l] eqn:E; [reflexivity|]. cbn. apply A.
      assert (I : In r (filter (fun r => String.eqb (path_of r) p) recs)) by (rewrite E; now left). now apply filter_In in I.
  Qed.

  Lemma one_value p f r : NoDup (map path_of recs) -> In r recs -> path_of r = p -> values recs p f = [field f r].
  Proof.
    intros N Hr <-. unfold values.
    assert (E : filter (fun r' => String.eqb (path_of r') (path_of r)) recs = [r]); [|now rewrite E].
    clear -N Hr. induction recs as [|x l IH]; [destruct Hr|]. cbn in N. inversion N as [|y m NI ND]; subst. cbn [filter].
    destruct Hr as [->|Hr].
    - rewrite String.eqb_refl. f_equal. assert (Q : forall r', In r' l -> String.eqb (path_of r') (path_of r) = false).
      { intros r' H'. apply String.eqb_neq. intro E. apply NI. rewrite <- E. now apply in_map. }
      clear -Q. induction l as [|z l IH]; [reflexivity|]. cbn [filter]. rewrite (Q z (or_introl eq_refl)). apply IH. intros r' H'. apply Q. now right.
    - destruct (String.eqb_spec (path_of x) (path_of r)) as [E|_]; [|now apply IH]. exfalso. apply NI. rewrite E. now apply in_map.
  Qed.
  Lemma shown_single fs : fields_ok fs -> NoDup (map path_of recs) ->
    showing (frame_of recs) fs.
  Proof.
    intros F N. assert (E : paths recs = map path_of recs) by now apply first_seen_id.
    split; [|split; [|split; [apply F|intros f; now apply no_given]]].
    - unfold frame_of. cbn [labels]. rewrite E, map_length. unfold ranked. now rewrite map_map.
    - rewrite (frame_of_ok recs fs (proj1 F)). apply keyed_ext. intros f Hf. rewrite E, map_map. apply map_ext_in. intros r Hr.
      unfold shown, agree. rewrite (one_value (path_of r) f r N Hr eq_refl). destruct (tin f sizes) eqn:S.
      + apply tin_true in S. destruct (pr_sizes _ (in_proper r Hr) f S) as [z Ez]. unfold field. rewrite Ez. cbn. now rewrite Z.add_0_r.
      + unfold constant_series. cbn [filter]. destruct (negb (isna (field f r))) eqn:I; cbn [forallb hd]; [|reflexivity].
        rewrite (c_refl _ _ mcells), I. reflexivity.
  Qed.

  (** Several row groups: Series with labels [ls p]. *)
  Lemma flatten_ok fs extended : fields_ok fs ->
    (forall p f, In p (paths recs) -> In f (kept fs p extended) -> ~ In f sizes) ->
    exists df U, flatten_meta_df naX eqX (frame_of recs) extended = Ok df /\ showing df U /\
      (forall f, In f U <-> In f sizes \/ exists p, In p (paths recs) /\ In f (kept fs p extended)).
  Proof.
    intros F D. unfold flatten_meta_df. rewrite (path_column fs F). cbn [bind]. rewrite unique_ok, mapM_map.
    assert (NK : forall p, NoDup (kept fs p extended)).
    { intro p. unfold kept. destruct extended; repeat apply NoDup_filter; apply F. }
    assert (NS : NoDup sizes) by (apply distinct_str; vm_compute; repeat constructor).
    assert (SE : forall p, In p (paths recs) -> column_series naX eqX (frame_of recs) (map Txt (map path_of recs)) extended (Txt p) =
                   Ok (keyed (kept fs p extended ++ sizes) (shown p))).
    { intros p Hp. rewrite (series_ok fs p F Hp extended). rewrite keyed_app. f_equal. apply f_equal2; apply keyed_ext; intros f Hf; unfold shown.
      - rewrite (proj2 (tin_false f sizes) (D p f Hp Hf)).
        assert (A : agree p f = true) by (unfold kept in Hf; destruct extended; repeat (apply filter_In in Hf; destruct Hf as [Hf ?]); auto).
        now rewrite A.
      - now rewrite (proj2 (tin_true f sizes) Hf). }
    rewrite (mapM_ok _ _ _ SE). cbn [bind].
    destruct (concat_ok (paths recs) (fun p => kept fs p extended ++ sizes) shown paths_ne) as (U & E & NU & G).
    { intros p Hp. specialize (D p). specialize (NK p). revert NK D. generalize (kept fs p extended). intros l NK D. induction NK as [|x r NI NK IH]; [exact NS|].
      cbn. constructor; [|apply IH; intros f Hp' Hf; apply D; [exact Hp'|now right]].
      rewrite in_app_iff. intros [C|C]; [contradiction|]. apply (D x Hp (or_introl eq_refl) C). }
    rewrite E. eexists _, U. split; [reflexivity|]. split.
    - split; [reflexivity|]. split; [|split; [exact NU|]]; cbn [columns].
      + apply keyed_ext. intros f Hf. apply map_ext_in. intros p Hp. destruct (tin f (kept fs p extended ++ sizes)) eqn:T; [reflexivity|].
        apply tin_false in T. rewrite in_app_iff in T. apply G in Hf. destruct Hf as (q & Hq & Hf). apply in_app_iff in Hf.
        unfold shown. destruct (tin f sizes) eqn:S; [exfalso; apply T; right; now apply tin_true|].
        destruct Hf as [Hf|Hf]; [|apply tin_true in Hf; congruence].
        destruct (agree p f) eqn:A; [|reflexivity]. exfalso. apply T. left. unfold kept in *. destruct extended.
        * apply filter_In in Hf. apply filter_In. tauto.
        * apply filter_In in Hf. destruct Hf as [Hf B]. apply filter_In in Hf. apply filter_In. split; [apply filter_In; tauto|exact B].
      + intros f Hf. apply G in Hf. destruct Hf as (q & Hq & Hf). apply in_app_iff in Hf. apply (no_given fs); [exact F|].
        destruct Hf as [Hf|Hf]; [|now apply size_field].
        unfold kept in Hf. destruct extended; repeat (apply filter_In in Hf; destruct Hf as [Hf ?]); exact Hf.
    - intro f. rewrite G. split.
      + intros (p & Hp & H). apply in_app_iff in H. destruct H; [right; now exists p|now left].
      + intros [H|(p & Hp & H)].
        * assert (PN := paths_ne). destruct (paths recs) as [|p l]; [congruence|]. exists p. split; [now left|]. apply in_app_iff. now right.
        * exists p. split; [exact Hp|]. apply in_app_iff. now left.
  Qed.
  Lemma kept_brief fs p f : In f (kept fs p false) -> ~ In f sizes.
  Proof.
    unfold kept. rewrite filter_In. intros [_ B] S. apply tin_true in B. cbn in B, S.
    repeat (destruct S as [<-|S]; [repeat (destruct B as [B|B]; [discriminate B|]); exact B|]). exact S.
  Qed.

  (** The frame before renaming, brief: its columns, and the missing ones. *)
  Lemma prepared fs : fields_ok fs -> exists df U,
    (paths0 <- column (frame_of recs) (KStr "path_in_schema") ;;
     (if any_duplicated naX eqX paths0 then flatten_meta_df naX eqX (frame_of recs) false else Ok (frame_of recs))) = Ok df /\
    showing df U /\ (forall p f, In p (paths recs) -> In f brief_fields -> ~ In f U -> shown p f = Na).
  Proof.
    intro F. rewrite (path_column fs F). cbn [bind].
    destruct (any_duplicated naX eqX (map Txt (map path_of recs))) eqn:D.
    - destruct (flatten_ok fs false F (fun p f _ => kept_brief fs p f)) as (df & U & E & S & G). exists df, U. split; [exact E|]. split; [exact S|].
      intros p f Hp Hb NU. rewrite G in NU. destruct (in_dec string_dec f fs) as [I|I]; [|now apply (missing_shown fs)].
      unfold shown. destruct (tin f sizes) eqn:Z0; [exfalso; apply NU; left; now apply tin_true|].
      destruct (agree p f) eqn:A; [|reflexivity]. exfalso. apply NU. right. exists p. split; [exact Hp|].
      unfold kept. apply filter_In. split; [apply filter_In; tauto|]. apply tin_true. apply tin_false in Z0. cbn in Hb, Z0 |- *. tauto.
    - apply duplicated_txt in D. exists (frame_of recs), fs. split; [reflexivity|]. split; [now apply shown_single|].
      intros p f Hp _ N. now apply (missing_shown fs).
  Qed.

  Lemma brief_not_given f : In f brief_fields -> ~ In f (map snd given_names).
  Proof.
    intros H C. cbn in H, C. repeat (destruct H as [<-|H]; [repeat (destruct C as [C|C]; [discriminate C|]); exact C|]). exact H.
  Qed.
  Definition brief_table : frame cell :=
    {| labels := ranked (List.length (paths recs));
       columns := map (fun f => (KStr (given_name f), map (fun p => shown p f) (paths recs))) brief_fields |}.
  Lemma brief_ok : meta_record_df naX eqX recs false = Ok brief_table.
  Proof.
    destruct have_fields as [fs F]. destruct (prepared fs F) as (df & U & E & (SL & SC & SN & SG) & M).
    unfold meta_record_df. revert E. destruct (column (frame_of recs) (KStr "path_in_schema")) as [ps|]; [|discriminate]. cbn [bind]. intros ->. cbn [bind].
    unfold reindex.
    assert (ND : existsb (fun b => b) (duplicated (names (rename renamed df))) = false).
    { unfold names. rewrite (rename_ok df U _ SC), map_map. cbn [fst]. rewrite <- map_map with (f := given_name) (g := KStr).
      apply no_dup_str, given_nodup; [exact SN|exact SG]. }
    rewrite ND. f_equal. unfold brief_table. f_equal; [exact SL|].
    change (map KStr brief_columns) with (map KStr (map given_name brief_fields)). rewrite !map_map. apply map_ext_in. intros f Hf. f_equal.
    rewrite (renamed_get df U _ f SC SN SG (brief_not_given f Hf)). destruct (tin f U) eqn:T; [reflexivity|]. cbn [labels rename].
    rewrite SL. apply tin_false in T.
    assert (A : map (fun p => shown p f) (paths recs) = map (fun _ => Na) (paths recs)) by (apply map_ext_in; intros p Hp; now apply M).
    rewrite A. unfold ranked. rewrite !map_map. clear. generalize 0. induction (paths recs) as [|p l IH]; intro n; [reflexivity|]. cbn. now rewrite IH.
  Qed.
  Lemma brief_tells f : In f brief_fields -> tells naX eqX brief_table recs f.
  Proof.
    intro H. exists (map (fun p => shown p f) (paths recs)). split; [|apply Forall2_map_in; intros p Hp; now apply shown_ok].
    cbn in H. repeat (destruct H as [<-|H]; [reflexivity|]). destruct H.
  Qed.

  Lemma extended_tells df U : showing df U -> forall f, In f U -> tells naX eqX (rename renamed df) recs f.
  Proof.
    intros (SL & SC & SN & SG) f Hf. exists (map (fun p => shown p f) (paths recs)). split; [|apply Forall2_map_in; intros p Hp; now apply shown_ok].
    rewrite (renamed_get df U _ f SC SN SG (SG f Hf)), (proj2 (tin_true _ _) Hf). reflexivity.
  Qed.
  Lemma extended_names df U : showing df U -> forall n, In n (names (rename renamed df)) <-> exists f, n = KStr (given_name f) /\ In f U.
  Proof.
    intros (SL & SC & SN & SG) n. unfold names. rewrite (rename_ok df U _ SC), map_map, in_map_iff. cbn [fst]. split.
    - intros (f & <- & H). now exists f.
    - intros (f & -> & H). now exists f.
  Qed.
  Lemma extended_single : NoDup (map path_of recs) -> exists df, meta_record_df naX eqX recs true = Ok df /\
    (forall f, (exists r, In r recs /\ dget r (KStr f) <> None) -> tells naX eqX df recs f) /\
    (forall n, In n (names df) -> exists f r, n = KStr (given_name f) /\ In r recs /\ dget r (KStr f) <> None).
  Proof.
    intro N. destruct have_fields as [fs F]. unfold meta_record_df. rewrite (path_column fs F). cbn [bind].
    rewrite (proj2 (duplicated_txt _) N). cbn [bind]. eexists. split; [reflexivity|]. assert (S := shown_single fs F N). split.
    - intros f Hf. apply (extended_tells _ fs S). now apply F.
    - intros n Hn. apply (extended_names _ fs S) in Hn. destruct Hn as (f & -> & Hf). apply F in Hf. destruct Hf as (r & Hr & D). now exists f, r.
  Qed.
  Lemma sizes_varied_dup : (forall p f, In p (paths recs) -> In f sizes -> ~ all_equal naX eqX (values recs p f)) ->
    any_duplicated naX eqX (map Txt (map path_of recs)) = true.
  Proof.
    intro H. destruct (any_duplicated _ _ _) eqn:D; [reflexivity|]. exfalso. apply duplicated_txt in D.
    destruct some_record as [r Hr]. assert (Hp : In (path_of r) (paths recs)) by (apply first_seen_in; now apply in_map).
    apply (H _ "num_values" Hp (or_introl eq_refl)). rewrite (one_value _ _ r D Hr eq_refl).
    intros x y [[<-|[]] Nx] [[<-|[]] _]. rewrite (c_refl _ _ mcells), (Nx eq_refl). reflexivity.
  Qed.
  Lemma extended_ok : (forall p f, In p (paths recs) -> In f sizes -> ~ all_equal naX eqX (values recs p f)) ->
    exists df, meta_record_df naX eqX recs true = Ok df /\
    (forall f, In f sizes \/ (exists p, In p (paths recs) /\ agreed naX eqX recs p f) -> tells naX eqX df recs f) /\
    (forall n, In n (names df) -> exists f, n = KStr (given_name f) /\ (In f sizes \/ exists p, In p (paths recs) /\ agreed naX eqX recs p f)).
  Proof.
    intro H. destruct have_fields as [fs F]. unfold meta_record_df. rewrite (path_column fs F). cbn [bind]. rewrite (sizes_varied_dup H).
    destruct (flatten_ok fs true F) as (df & U & E & S & G).
    { intros p f Hp Hf Hs. unfold kept in Hf. apply filter_In in Hf. destruct Hf as [_ A]. apply agree_ok in A. exact (H p f Hp Hs A). }
    rewrite E. cbn [bind]. eexists. split; [reflexivity|].
    assert (K : forall f p, In f (kept fs p true) <-> agreed naX eqX recs p f).
    { intros f p. unfold kept, agreed. rewrite filter_In, agree_ok. destruct F as (_ & _ & FG). rewrite FG. reflexivity. }
    split.
    - intros f Hf. apply (extended_tells _ U S). apply G. destruct Hf as [Hf|(p & Hp & Hf)]; [now left|]. right. exists p. split; [exact Hp|]. now apply K.
    - intros n Hn. apply (extended_names _ U S) in Hn. destruct Hn as (f & -> & Hf). exists f. split; [reflexivity|]. apply G in Hf.
      destruct Hf as [Hf|(p & Hp & Hf)]; [now left|]. right. exists p. split; [exact Hp|]. now apply K.
  Qed.

  (** A size that is the same in all row groups of one column but not of another. *)
  Lemma extended_error p q f : In p (paths recs) -> In q (paths recs) -> In f sizes ->
    all_equal naX eqX (values recs p f) -> ~ all_equal naX eqX (values recs q f) -> meta_record_df naX eqX recs true = Exc ValueError.
  Proof.
    intros Hp Hq Hf A B. destruct have_fields as [fs F]. unfold meta_record_df. rewrite (path_column fs F). cbn [bind].
    assert (D : any_duplicated naX eqX (map Txt (map path_of recs)) = true).
    { destruct (any_duplicated _ _ _) eqn:D; [reflexivity|]. exfalso. apply duplicated_txt in D. apply B. unfold paths in Hq.
      rewrite first_seen_in, in_map_iff in Hq. destruct Hq as (r & E & Hr).
      rewrite (one_value q f r D Hr E). intros x y [[<-|[]] Nx] [[<-|[]] _]. rewrite (c_refl _ _ mcells), (Nx eq_refl). reflexivity. }
    rewrite D. unfold flatten_meta_df. rewrite (path_column fs F). cbn [bind]. rewrite unique_ok, mapM_map.
    rewrite (mapM_ok _ (fun p => keyed (kept fs p true) (fun f => hd Na (values recs p f)) ++ keyed sizes (fun f => Int (sum_of (values recs p f)))) (paths recs))
      by (intros x Hx; now apply series_ok).
    cbn [bind].
    set (ser := fun x => keyed (kept fs x true) (fun f => hd Na (values recs x f)) ++ keyed sizes (fun f => @Int X (sum_of (values recs x f)))).
    assert (LB : forall x, map fst (ser x) = map KStr (kept fs x true ++ sizes)) by (intro x; unfold ser; rewrite !map_app, !keyed_keys; reflexivity).
    assert (Kp : In f (kept fs p true)) by (apply filter_In; split; [now apply size_field|now apply agree_ok]).
    assert (Kq : ~ In f (kept fs q true)) by (unfold kept; rewrite filter_In, agree_ok; tauto).
    assert (DP : ~ NoDup (kept fs p true ++ sizes)).
    { intro N. apply in_split in Kp. destruct Kp as (l1 & l2 & E). rewrite E, <- app_assoc in N. cbn in N.
      apply NoDup_remove_2 in N. apply N. rewrite !in_app_iff. auto. }
    assert (DQ : kept fs q true ++ sizes <> kept fs p true ++ sizes) by (intro E; apply app_inv_tail in E; congruence).
    assert (R : concat_T (map ser (paths recs)) = Exc ValueError).
    { destruct (paths recs) as [|p0 ps] eqn:EP; [destruct Hp|]. unfold concat_T. cbn [map].
      destruct (forallb _ (map ser ps)) eqn:S.
      - exfalso. rewrite forallb_forall in S.
        assert (SA : forall x, In x (p0 :: ps) -> kept fs p0 true ++ sizes = kept fs x true ++ sizes).
        { intros x [<-|Hx]; [reflexivity|]. apply same_labels_str. rewrite <- !LB. apply S. now apply in_map. }
        apply DQ. rewrite <- (SA p Hp), <- (SA q Hq). reflexivity.
      - assert (XX : existsb (fun t : list (key * cell) => existsb (fun b => b) (duplicated (map fst t))) (ser p0 :: map ser ps) = true).
        { apply existsb_exists. exists (ser p). split; [change (In (ser p) (map ser (p0 :: ps))); now apply in_map|].
          rewrite LB. unfold duplicated. apply (dup_str_true _ []). now left. }
        rewrite XX. reflexivity. }
    rewrite R. reflexivity.
  Qed.

  (** ** Sideways *)

  Lemma shown_path p : In p (paths recs) -> shown p "path_in_schema" = Txt p.
  Proof.
    intro Hp. assert (A : forall v, In v (values recs p "path_in_schema") -> v = Txt p).
    { intros v Hv. unfold values in Hv. apply in_map_iff in Hv. destruct Hv as (r & <- & Hr). apply filter_In in Hr. destruct Hr as [Hr E].
      rewrite (field_path r Hr). apply String.eqb_eq in E. now rewrite E. }
    unfold shown. cbn [tin existsb sizes String.eqb Ascii.eqb Bool.eqb orb].
    assert (G : agree p "path_in_schema" = true).
    { apply agree_ok. intros x y [Hx _] [Hy _]. rewrite (A x Hx), (A y Hy). cbn. apply String.eqb_refl. }
    rewrite G. destruct (values_ne p "path_in_schema" Hp) as (v & l & E). rewrite E in *. cbn. apply A. now left.
  Qed.
  Lemma somes_some {A} (l : list A) : somes (map Some l) = l.
  Proof. induction l as [|x r IH]; [reflexivity|]. cbn. now rewrite IH. Qed.
  Lemma brief_row i p : nth_error (paths recs) i = Some p -> somes (row brief_table i) = map (shown p) brief_fields.
  Proof.
    intro E. rewrite <- (somes_some (map (shown p) brief_fields)). f_equal. unfold row, brief_table. cbn [columns]. rewrite !map_map. apply map_ext.
    intro f. cbn [snd]. exact (map_nth_error (fun q => shown q f) i (paths recs) E).
  Qed.
  Lemma combine_rows (l : list string) (h : string -> cell) (g : nat -> list cell) (k : string -> list cell) : forall n,
    (forall j p, nth_error l j = Some p -> g (n + j) = k p) ->
    combine (map h l) (map g (seq n (List.length l))) = map (fun p => (h p, k p)) l.
  Proof.
    induction l as [|p l IH]; intros n H; [reflexivity|]. cbn. f_equal.
    - f_equal. rewrite <- (H 0 p eq_refl). f_equal. lia.
    - apply IH. intros j q E. rewrite <- (H (S j) q E). f_equal. lia.
  Qed.
  Lemma sideways_ok nc f : metadata_records nc f = Ok recs -> exists t, meta_column_df naX eqX nc f false = Ok t /\
    t_rows t = map KStr (map given_name brief_fields) /\
    Forall2 (fun p c => fst c = Txt p /\ Forall2 (fun f v => sums_up naX eqX recs p f v) brief_fields (snd c)) (paths recs) (t_columns t).
  Proof.
    intro E. unfold meta_column_df. rewrite E. cbn [bind]. rewrite brief_ok. cbn [bind].
    assert (C : column brief_table (KStr "column") = Ok (map (fun p => shown p "path_in_schema") (paths recs))) by reflexivity.
    rewrite C. cbn [bind]. eexists. split; [reflexivity|]. cbn [t_rows t_columns]. split; [reflexivity|].
    assert (L : List.length (labels brief_table) = List.length (paths recs)) by (unfold brief_table, ranked; cbn [labels]; now rewrite !map_length, seq_length).
    rewrite L, (combine_rows _ _ _ (fun p => map (shown p) brief_fields) 0).
    - apply Forall2_map_in. intros p Hp. cbn [fst snd]. split; [now apply shown_path|]. apply Forall2_map_in. intros f' _. now apply shown_ok.
    - intros j p Ej. now apply brief_row.
  Qed.
End Tables.

(** ** Files *)

Section Files.
  Context {X : Type} (naX : X -> bool) (eqX : X -> X -> bool).

  Lemma mapM_Forall2 {A B} (f : A -> res B) (R : A -> B -> Prop) l : (forall x, In x l -> exists y, f x = Ok y /\ R x y) ->
    exists ys, mapM f l = Ok ys /\ Forall2 R l ys.
  Proof.
    induction l as [|x l IH]; intro H; [exists []; split; [reflexivity|constructor]|].
    destruct (H x (or_introl eq_refl)) as (y & E & Q). destruct IH as (ys & Es & Qs); [intros z Hz; apply H; now right|].
    exists (y :: ys). cbn. rewrite E, Es. split; [reflexivity|now constructor].
  Qed.
  Lemma mapM_fails {A B} (f : A -> res B) e l : (forall x, In x l -> f x = Exc e \/ exists y, f x = Ok y) ->
    (exists x, In x l /\ f x = Exc e) -> mapM f l = Exc e.
  Proof.
    induction l as [|x l IH]; intros H (z & Hz & Ez); [destruct Hz|]. cbn.
    destruct (H x (or_introl eq_refl)) as [E|[y E]]; [now rewrite E|]. rewrite E. cbn.
    rewrite IH; [reflexivity|intros w Hw; apply H; now right|].
    destruct Hz as [<-|Hz]; [congruence|]. now exists z.
  Qed.

  Lemma merged_ok (c : chunk X) d g i : wfd (c_fields c) = true -> wfd d = true -> c_stats c = Some (Some d) ->
    exists r, chunk_record c g i = Ok r /\ merged c d g i r /\ wfd r = true.
  Proof.
    intros W D S. unfold chunk_record. rewrite S. cbn [bind]. eexists. split; [reflexivity|]. split.
    - intro f. unfold dupdate at 1. cbn [fold_left fst snd]. rewrite !dget_dset, !keqb_str, (String.eqb_sym f "row_group"), (String.eqb_sym f "col_ix").
      destruct (String.eqb_spec "col_ix" f) as [<-|N]; [reflexivity|]. destruct (String.eqb_spec "row_group" f); [reflexivity|].
      now rewrite dget_dupdate_wf.
    - apply wfd_dupdate, wfd_dupdate, W.
  Qed.

  Variables (nc : nat) (f : list (list (chunk X))).
  Definition whole (i g : nat) (P : chunk X -> Prop) : Prop := exists row c, nth_error f g = Some row /\ nth_error row i = Some c /\ P c.
  Lemma in_cells i g : In (i, g) (list_prod (seq 0 nc) (seq 0 (List.length f))) <-> i < nc /\ g < List.length f.
  Proof. rewrite in_prod_iff, !in_seq. lia. Qed.
  Lemma records_ok : (forall i g, i < nc -> g < List.length f -> whole i g (fun c => wfd (c_fields c) = true /\ exists d, c_stats c = Some (Some d) /\ wfd d = true)) ->
    exists recs, metadata_records nc f = Ok recs /\
      Forall2 (fun ig r => record_of_chunk f (fst ig) (snd ig) r) (list_prod (seq 0 nc) (seq 0 (List.length f))) recs.
  Proof.
    intro H. apply mapM_Forall2. intros [i g] I. apply in_cells in I. destruct I as [Hi Hg]. cbn [fst snd].
    destruct (H i g Hi Hg) as (row & c & E1 & E2 & W & d & S & D). rewrite E1, E2.
    destruct (merged_ok c d g i W D S) as (r & E & M & _). exists r. split; [exact E|]. exists row, c, d. auto.
  Qed.
  Lemma records_fail ext : (forall i g, i < nc -> g < List.length f -> whole i g (fun _ => True)) ->
    (exists i g, i < nc /\ g < List.length f /\ whole i g (fun c => c_stats c = Some None)) ->
    meta_column_df naX eqX nc f ext = Exc TypeError.
  Proof.
    intros H (i & g & Hi & Hg & row & c & E1 & E2 & S). unfold meta_column_df.
    assert (Q : metadata_records nc f = Exc TypeError); [|now rewrite Q]. apply mapM_fails.
    - intros [i' g'] I. apply in_cells in I. destruct I as [Hi' Hg']. cbn [fst snd].
      destruct (H i' g' Hi' Hg') as (row' & c' & E1' & E2' & _). rewrite E1', E2'. unfold chunk_record.
      destruct (c_stats c') as [[d|]|]; cbn [bind]; [right; eauto|now left|right; eauto].
    - exists (i, g). split; [now apply in_cells|]. cbn [fst snd]. rewrite E1, E2. unfold chunk_record. rewrite S. reflexivity.
  Qed.
  Lemma no_groups ext : f = [] -> meta_column_df naX eqX nc f ext = Exc KeyError.
  Proof.
    intros ->. unfold meta_column_df, metadata_records. cbn [List.length seq]. generalize (seq 0 nc). intro l.
    assert (Q : forall m : list nat, list_prod m (@nil nat) = []) by (induction m; [reflexivity|exact IHm]). rewrite Q. reflexivity.
  Qed.
End Files.
