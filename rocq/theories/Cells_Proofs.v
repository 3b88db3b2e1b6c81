(** Lemmas about extract_constants with lists in cells. *)
From Coq Require Import Lia.
From Verif Require Export Cells_Spec.
From Verif Require Import Frame_Lemmas Frame_Proofs.
Open Scope nat_scope.

Section Nested.
  Context {atom : Type}.
  Context (isna : atom -> bool) (ceq : atom -> atom -> bool).
  Notation kept dropna s := (filter (counts isna dropna) s).

  Lemma kept_eq (dropna : bool) (s : list (ncell atom)) : (if dropna then filter (fun v => negb (nested_na isna v)) s else s) = kept dropna s.
  Proof.
    destruct dropna; [apply filter_ext; intros []; reflexivity|]. symmetry. induction s as [|[a|l] r IH]; cbn; [reflexivity|f_equal; exact IH..].
  Qed.
  Lemma begins_iff dropna s v n : begins isna dropna s v n <-> exists r, kept dropna s = v :: r /\ n = S (List.length r).
  Proof.
    split.
    - intros (a & b & -> & F & C & ->). assert (E : kept dropna a = []).
      { induction F as [|x r Hx _ IH]; cbn; [reflexivity|]. rewrite Hx. exact IH. }
      rewrite filter_app, E. cbn [app filter]. rewrite C. exists (kept dropna b). split; reflexivity.
    - intros (r & E & ->). revert r E. induction s as [|x s IH]; intros r E; [discriminate|]. cbn in E. destruct (counts isna dropna x) eqn:Cx.
      + injection E as -> E. exists [], s. split; [reflexivity|]. split; [constructor|]. split; [exact Cx|]. cbn [filter]. rewrite Cx. cbn. f_equal. rewrite E. reflexivity.
      + destruct (IH r E) as (a & b & -> & F & C & N). exists (x :: a), b. split; [reflexivity|]. split; [constructor; assumption|]. split; [exact C|].
        cbn [filter app]. rewrite Cx. exact N.
  Qed.

  (** The verdict on one series. *)
  Lemma series_cases dropna s :
    (misfit isna dropna s /\ constant_nested isna ceq dropna s = Exc ValueError) \/
    (~ misfit isna dropna s /\ constant_nested isna ceq dropna s = Ok (constant_series (nested_na isna) (plain_eq ceq) dropna s)).
  Proof.
    unfold constant_nested, constant_series. rewrite !kept_eq. unfold misfit. destruct (kept dropna s) as [|v r] eqn:K.
    - right. split; [|reflexivity]. intros (l & n & B & _). apply begins_iff in B. destruct B as (r & E & _). rewrite K in E. discriminate.
    - destruct v as [a|l].
      + right. split.
        * intros (l & n & B & _). apply begins_iff in B. destruct B as (r' & E & _). rewrite K in E. discriminate.
        * cbn [series_eq bind]. f_equal.
          generalize (NAtom a :: r). intro q. induction q as [|x q IH]; cbn; [reflexivity|]. rewrite IH. destruct x; reflexivity.
      + unfold series_eq. destruct (Nat.eqb_spec (List.length (NList l :: r)) (List.length l)) as [L|L].
        * right. split.
          -- intros (l' & n & B & N). apply begins_iff in B. destruct B as (r' & E & ->). rewrite K in E. injection E as <- <-. cbn in L. lia.
          -- cbn [bind]. f_equal. destruct l as [|m l]; [discriminate L|]. reflexivity.
        * left. split; [|reflexivity]. exists l, (S (List.length r)). split; [apply begins_iff; exists r; auto|]. cbn in L. lia.
  Qed.

  Lemma find_cases dropna l : forall found,
    ((exists c, In c l /\ misfit isna dropna (snd c)) /\ exists f, find_constants isna ceq dropna l found = (f, Some ValueError)) \/
    ((forall c, In c l -> ~ misfit isna dropna (snd c)) /\
     find_constants isna ceq dropna l found =
       (found ++ map fst (filter (fun c => constant_series (nested_na isna) (plain_eq ceq) dropna (snd c)) l), None)).
  Proof.
    induction l as [|[k s] r IH]; intro found; cbn [find_constants].
    - right. split; [intros c []|]. cbn. rewrite app_nil_r. reflexivity.
    - destruct (series_cases dropna s) as [[M E]|[M E]]; rewrite E.
      + left. split; [exists (k, s); split; [left; reflexivity|exact M]|exists found; reflexivity].
      + set (b := constant_series _ _ _ _). destruct (IH (if b then found ++ [k] else found)) as [[(c & I & Mc) F]|[N F]].
        * left. split; [exists c; split; [right; exact I|exact Mc]|exact F].
        * right. split; [intros c [<-|I]; [exact M|exact (N c I)]|]. rewrite F. cbn [filter snd]. fold b. destruct b; [|reflexivity].
          cbn [map fst]. rewrite <- app_assoc. reflexivity.
  Qed.

  Lemma nested_misfit df to_dict drop h dropna : h <> HowOther ->
    (exists c, In c (series_of h df) /\ misfit isna dropna (snd c)) ->
    extract_nested isna ceq df to_dict drop h dropna = Exc ValueError.
  Proof.
    intros H (c & I & M). unfold extract_nested. fold (@series_of atom h df).
    destruct (find_cases dropna (series_of h df) []) as [[_ [f F]]|[N _]]; [|exfalso; exact (N c I M)].
    destruct h; [| |congruence]; cbn [series_of] in F |- *; rewrite F; reflexivity.
  Qed.
  Lemma nested_plain df to_dict drop h dropna :
    (forall c, In c (series_of h df) -> ~ misfit isna dropna (snd c)) ->
    extract_nested isna ceq df to_dict drop h dropna = extract_constants (nested_na isna) (plain_eq ceq) df to_dict drop h dropna.
  Proof.
    intro N. unfold extract_nested, extract_constants.
    destruct (find_cases dropna (series_of h df) []) as [[(c & I & M) _]|[_ F]]; [exfalso; exact (N c I M)|].
    destruct h; [| |reflexivity]; cbn [series_of] in F; rewrite F; reflexivity.
  Qed.

  Lemma plainly_iff dropna s : ~ misfit isna dropna s ->
    (constant_series (nested_na isna) (plain_eq ceq) dropna s = true <-> plainly_constant isna ceq dropna s).
  Proof.
    intros _. unfold constant_series. rewrite kept_eq. unfold plainly_constant. destruct (kept dropna s) as [|v r] eqn:K.
    - split; [intros _; left|reflexivity]. apply Forall_forall. intros c I. destruct (counts isna dropna c) eqn:C; [|reflexivity].
      assert (J : In c (kept dropna s)) by (apply filter_In; auto). rewrite K in J. destruct J.
    - rewrite forallb_forall. split.
      + intro H. right. destruct v as [a|l]; [|discriminate (H (NList l) (or_introl eq_refl))].
        exists a, (S (List.length r)). split; [apply begins_iff; exists r; auto|]. intros c I C.
        assert (J : In c (kept dropna s)) by (apply filter_In; auto). rewrite K in J. specialize (H c J). destruct c as [b|l]; [exists b; split; [reflexivity|exact H]|discriminate].
      + intros [F|(a & n & B & H)] c I.
        * rewrite Forall_forall in F. rewrite <- K in I. apply filter_In in I. rewrite (F c (proj1 I)) in I. destruct I; discriminate.
        * apply begins_iff in B. destruct B as (r' & E & _). rewrite K in E. injection E as -> _. rewrite <- K in I. apply filter_In in I.
          destruct (H c (proj1 I) (proj2 I)) as (b & -> & Eb). exact Eb.
  Qed.

  Lemma key_in_found (P : key * list (ncell atom) -> bool) l c : distinct_labels (map fst l) -> In c l ->
    key_in (fst c) (map fst (filter P l)) = P c.
  Proof.
    intros D I. unfold key_in. destruct (P c) eqn:E.
    - apply existsb_exists. exists (fst c). split; [apply in_map, filter_In; auto|apply keqb_refl].
    - destruct (existsb _ _) eqn:X; [|reflexivity]. apply existsb_exists in X. destruct X as (k & J & Q). apply in_map_iff in J.
      destruct J as (c' & <- & J). apply filter_In in J. destruct J as [J Pc].
      assert (F := distinct_find _ D _ J). assert (W : In c (filter (labelled (fst c')) l)) by (apply filter_In; split; [exact I|exact Q]).
      rewrite F in W. destruct W as [<-|[]]. congruence.
  Qed.
  Lemma nested_frames df drop dropna : distinct_labels (names df) ->
    (forall c, In c (columns df) -> ~ misfit isna dropna (snd c)) -> exists a b,
    extract_nested isna ceq df false drop HowRows dropna = Ok (AsFrame a, if drop then b else df) /\
    labels a = labels df /\ labels b = labels df /\
    sorted_out (fun c => plainly_constant isna ceq dropna (snd c)) (columns df) (columns a) (columns b).
  Proof.
    intros D N. rewrite (nested_plain df false drop HowRows dropna N).
    set (m := constant_flags (nested_na isna) (plain_eq ceq) dropna (columns df)).
    exists (loc_columns df m), (loc_columns df (map negb m)). split; [reflexivity|]. split; [reflexivity|]. split; [reflexivity|].
    cbn [columns loc_columns]. unfold m, constant_flags. rewrite map_map, !mask_map. apply sorted_out_filter. intros c I.
    rewrite (key_in_found (fun c => constant_series (nested_na isna) (plain_eq ceq) dropna (snd c)) _ _ D I). apply plainly_iff, N, I.
  Qed.

  Lemma first_row_exc (df : frame (ncell atom)) e : first_row_dict df = Exc e -> e = IndexError.
  Proof. unfold first_row_dict. destruct (labels df); [intros [= <-]; reflexivity|discriminate]. Qed.
  Lemma nested_raises df to_dict drop h dropna e : extract_nested isna ceq df to_dict drop h dropna = Exc e -> e = ValueError \/ e = IndexError.
  Proof.
    destruct h; [| |intros [= <-]; auto].
    - destruct (find_cases dropna (series_of HowRows df) []) as [[M _]|[N _]].
      + rewrite nested_misfit; [intros [= <-]; auto|discriminate|exact M].
      + rewrite nested_plain by exact N. cbn. destruct to_dict; [|discriminate]. destruct (first_row_dict _) eqn:E; cbn; [discriminate|].
        intros [= <-]. right. exact (first_row_exc _ _ E).
    - destruct (find_cases dropna (series_of HowColumns df) []) as [[M _]|[N _]].
      + rewrite nested_misfit; [intros [= <-]; auto|discriminate|exact M].
      + rewrite nested_plain by exact N. cbn. destruct to_dict; [|discriminate]. destruct (first_row_dict _) eqn:E; cbn; [discriminate|].
        intros [= <-]. right. exact (first_row_exc _ _ E).
  Qed.

  (** What the handler would find. *)
  Lemma tuple_eq_iff a b : tuple_eq ceq a b = true <-> Forall2 (fun x y => ceq x y = true) a b.
  Proof.
    unfold tuple_eq. rewrite andb_true_iff, Nat.eqb_eq. revert b. induction a as [|x a IH]; intros [|y b]; cbn.
    - split; [constructor|auto].
    - split; [intros [H _]; discriminate|intro H; inversion H].
    - split; [intros [H _]; discriminate|intro H; inversion H].
    - rewrite andb_true_iff. specialize (IH b). split.
      + intros [L [A B]]. constructor; [exact A|]. apply IH. auto.
      + intro H. inversion H; subst. destruct (proj2 IH ltac:(assumption)) as [L B]. auto.
  Qed.
  Lemma handler_lists l ls : constant_tuples ceq (map NList (l :: ls)) =
    Ok (forallb (tuple_eq ceq l) (l :: ls)).
  Proof.
    cbn [map constant_tuples]. change (NList l :: map NList ls) with (map (@NList atom) (l :: ls)).
    assert (E : forall q : list (list atom), mapM (fun c => match c with NList m => Ok m | NAtom _ => Exc TypeError end) (map NList q) = Ok q).
    { induction q as [|x q IH]; cbn; [reflexivity|]. rewrite IH. reflexivity. }
    rewrite E. reflexivity.
  Qed.
  Lemma handler_iff l ls : constant_tuples ceq (map NList (l :: ls)) = Ok true <->
    Forall (fun m => Forall2 (fun x y => ceq x y = true) l m) (l :: ls).
  Proof.
    rewrite handler_lists. split.
    - intros [= H]. change (forallb (tuple_eq ceq l) (l :: ls) = true) in H. rewrite forallb_forall in H. apply Forall_forall. intros m I. apply tuple_eq_iff, H, I.
    - intro H. f_equal. apply forallb_forall. intros m I. apply tuple_eq_iff. rewrite Forall_forall in H. apply H, I.
  Qed.

  Lemma lists_never dropna (s : list (ncell atom)) l n : begins isna dropna s (NList l) n -> ~ plainly_constant isna ceq dropna s.
  Proof.
    intro B. apply begins_iff in B. destruct B as (r & K & _). intros [F|(a & m & B & _)].
    - assert (J : In (NList l) (kept dropna s)) by (rewrite K; left; reflexivity). apply filter_In in J. rewrite Forall_forall in F. rewrite (F _ (proj1 J)) in J. destruct J; discriminate.
    - apply begins_iff in B. destruct B as (r' & E & _). rewrite K in E. discriminate.
  Qed.
End Nested.
