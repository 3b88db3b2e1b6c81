(** Labels, caches, patterns, subframes. *)
From Verif Require Export Scrape_Text.
Open Scope string_scope.

(** ** Trimming *)

Lemma trim_pvl head a b r : cut_after pvl_end head a b -> trim_head head r = decode a.
Proof. intro H. apply cut_iff in H. unfold trim_head. now rewrite H. Qed.
Lemma trim_nulls head a b r : ~ occurs pvl_end head -> cut_after nulls_end head a b -> trim_head head r = decode a.
Proof. intros N H. apply cut_none in N. apply cut_iff in H. unfold trim_head. now rewrite N, H. Qed.
Lemma trim_neither head r : ~ occurs pvl_end head -> ~ occurs nulls_end head ->
  trim_head head r = if r then Exc ValueError else decode head.
Proof. intros N M. apply cut_none in N, M. unfold trim_head. now rewrite N, M. Qed.
(** One of the three holds. *)
Lemma trim_cases head : (exists a b, cut_after pvl_end head a b) \/
  (~ occurs pvl_end head /\ exists a b, cut_after nulls_end head a b) \/ (~ occurs pvl_end head /\ ~ occurs nulls_end head).
Proof.
  destruct (cut pvl_end head) as [[a b]|] eqn:E; [left; exists a, b; now apply cut_iff|]. apply cut_none in E.
  destruct (cut nulls_end head) as [[a b]|] eqn:F; [right; left; split; [exact E|]; exists a, b; now apply cut_iff|]. apply cut_none in F. auto.
Qed.
(** Text up to a found ending can be decoded. *)
Lemma text_head n s : is_text s -> forall pat a b, (exists p x, pat = p ++ String x "" /\ (N_of_ascii x < 128)%N) ->
  cut_after pat (read_n n s) a b -> is_text a.
Proof.
  intros T pat a b (p & x & -> & X) (E & [y ->] & _). destruct (read_spec n s) as [r [E2 _]]. rewrite E in E2.
  rewrite <- app_assoc_s in *. rewrite app_assoc_s in E2. rewrite E2 in T. eapply is_text_cut; eauto.
Qed.
Lemma trim_text n s r : is_text s -> occurs pvl_end (read_n n s) \/ occurs nulls_end (read_n n s) ->
  exists a b, trim_head (read_n n s) r = Ok a /\ read_n n s = a ++ b.
Proof.
  intros T H. destruct (trim_cases (read_n n s)) as [(a & b & C)|[(N & a & b & C)|[N M]]]; [| |tauto].
  - exists a, b. split; [|apply C]. rewrite (trim_pvl _ _ _ _ C). apply decode_ok. eapply text_head; [exact T| |exact C].
    exists (String "E" (String "N" (String "D" (String (ascii_of_nat 13) "")))), (ascii_of_nat 10). split; [reflexivity|]. reflexivity.
  - exists a, b. split; [|apply C]. rewrite (trim_nulls _ _ _ _ N C). apply decode_ok. eapply text_head; [exact T| |exact C].
    exists (String (ascii_of_nat 0) (String (ascii_of_nat 0) "")), (ascii_of_nat 0). split; [reflexivity|]. reflexivity.
Qed.
Lemma trim_file l n r w : trim_label l n r w =
  match disk w (name_of l) with
  | None => (Exc FileNotFoundError, w)
  | Some c => (trim_head (read_n n c) r, {| disk := disk w; opened := name_of l :: opened w |})
  end.
Proof. unfold trim_label, ebind, read_file, eof. destruct (disk w (name_of l)); reflexivity. Qed.
Lemma label_text l n w : get_label_text l n w =
  match disk w (name_of l) with
  | None => (Exc FileNotFoundError, w)
  | Some c => (decode (read_n n c), {| disk := disk w; opened := name_of l :: opened w |})
  end.
Proof. unfold get_label_text, ebind, read_file, eof. destruct (disk w (name_of l)); reflexivity. Qed.
Lemma trim_reader_ok r n f : trim_reader r n f = (match r with Open s => trim_head (read_n n s) f | Closed => Exc ValueError end, Closed).
Proof. destruct r; reflexivity. Qed.

(** Reading part of a text *)
Lemma label_cut cs l n w c : Forall scalar cs -> disk w (name_of l) = Some c -> c = text_of cs ->
  ((exists k, read_n n c = text_of (firstn k cs)) /\ fst (get_label_text l n w) = Ok (read_n n c)) \/
  (~ (exists k, read_n n c = text_of (firstn k cs)) /\ fst (get_label_text l n w) = Exc UnicodeDecodeError).
Proof.
  intros F D E. rewrite label_text, D. cbn [fst]. destruct (read_spec n c) as [r [E2 _]]. rewrite E in E2 at 1.
  rewrite <- (text_prefix cs F _ _ E2). destruct (decode_other (read_n n c) _ eq_refl) as [H|H]; rewrite H.
  - left. split; [now apply decode_ok|reflexivity].
  - right. split; [now apply decode_bad|reflexivity].
Qed.

(** ** Caches *)

Section Cache.
  Context {A B W : Type} (aeqb : A -> A -> bool) (f : A -> eff W B) (K : decides aeqb).

  Lemma memo_cons (m : memo A B) a b x : memo_get aeqb ((a, b) :: m) x = if aeqb a x then Some b else memo_get aeqb m x.
  Proof. unfold memo_get. cbn [find fst]. destruct (aeqb a x); reflexivity. Qed.
  Lemma cached_eq a s : cached aeqb f a s = match memo_get aeqb (fst s) a with
    | Some b => (Ok b, s)
    | None => match f a (snd s) with (Ok b, w) => (Ok b, ((a, b) :: fst s, w)) | (Exc e, w) => (Exc e, (fst s, w)) end
    end.
  Proof. reflexivity. Qed.
  Lemma happens_ok h : forall s os s', happens aeqb f h s = (os, s') -> forall a,
    memo_get aeqb (fst s') a = match memo_get aeqb (fst s) a with Some b => Some b | None => first_answer aeqb a os end.
  Proof.
    induction h as [|[x|g] h IH]; intros s os s' E a; cbn [happens] in E.
    - injection E as <- <-. cbn. destruct (memo_get aeqb (fst s) a); reflexivity.
    - destruct (cached aeqb f x s) as [o s1] eqn:C. destruct (happens aeqb f h s1) as [os1 s2] eqn:H. injection E as <- <-.
      rewrite (IH _ _ _ H a). unfold cached in C. destruct (memo_get aeqb (fst s) x) as [b|] eqn:M.
      + injection C as <- <-. cbn [first_answer]. destruct (memo_get aeqb (fst s) a) eqn:N; [reflexivity|].
        destruct (aeqb x a) eqn:Q; [|reflexivity]. apply K in Q. congruence.
      + destruct (f x (snd s)) as [[b|e] w]; injection C as <- <-; cbn [fst first_answer]; [|reflexivity].
        rewrite memo_cons. destruct (aeqb x a) eqn:Q; [|reflexivity]. apply K in Q. subst. now rewrite M.
    - now rewrite (IH _ _ _ E a).
  Qed.
  Lemma cached_ok h w os m w' a : happens aeqb f h ([], w) = (os, (m, w')) ->
    match first_answer aeqb a os with
    | Some b => cached aeqb f a (m, w') = (Ok b, (m, w'))
    | None => fst (cached aeqb f a (m, w')) = fst (f a w') /\ snd (snd (cached aeqb f a (m, w'))) = snd (f a w')
    end.
  Proof.
    intro E. assert (M := happens_ok h _ _ _ E a). cbn [fst] in M. unfold memo_get at 2 in M. cbn in M.
    unfold cached. cbn [fst snd]. rewrite M. destruct (first_answer aeqb a os); [reflexivity|].
    destruct (f a w') as [[b|e] w2]; auto.
  Qed.
End Cache.
Lemma label_decides : decides label_eqb.
Proof.
  intros [a|a] [b|b]; cbn; split; intro H; try discriminate; try (apply String.eqb_eq in H; congruence); injection H as ->; apply String.eqb_refl.
Qed.
Lemma string_decides : decides String.eqb.
Proof. intros a b. apply String.eqb_eq. Qed.

Section Scraper.
  Context {pattern V : Type} (peqb : pattern -> pattern -> bool) (PK : decides peqb).
  Context (search : pattern -> string -> res (option match_)) (literal_eval : string -> res V).
  Context (text_value : string -> V) (none : V).
  Let scraper := make_scraper search literal_eval text_value none.

  Lemma scraped_decides : decides (scraped_eqb peqb).
  Proof.
    intros [a p] [b q]. unfold scraped_eqb. cbn. rewrite andb_true_iff, (label_decides a b), (PK p q). split; [intros [-> ->]; reflexivity|intro H; injection H; auto].
  Qed.
  Lemma scraper_ok text p r : scraper text p = r <->
    match search p text with
    | Exc e => r = Exc e
    | Ok None => r = Ok none
    | Ok (Some NoGroup) => r = Exc IndexError
    | Ok (Some (Group None)) => r = Ok none
    | Ok (Some (Group (Some g))) =>
        match literal_eval g with
        | Ok v => r = Ok v
        | Exc e => (In e [ValueError; UnicodeDecodeError; SyntaxError] /\ r = Ok (text_value g)) \/
                   (~ In e [ValueError; UnicodeDecodeError; SyntaxError] /\ r = Exc e)
        end
    end.
  Proof.
    unfold scraper, make_scraper. destruct (search p text) as [[[|[g|]]|]|e]; cbn [bind]; try (split; intro H; now symmetry).
    destruct (literal_eval g) as [v|e]; [split; intro H; now symmetry|].
    destruct e; cbn; split; intro H; try (left; split; [tauto|now symmetry]); try (right; split; [intuition discriminate|now symmetry]);
      destruct H as [[H1 H2]|[H1 H2]]; try (now symmetry); try (exfalso; intuition discriminate).
  Qed.

  Lemma loader_keeps l s t : memo_get label_eqb (fst s) l = Some t -> forall l', memo_get label_eqb (fst (snd (cached_label_loader l' s))) l = Some t.
  Proof.
    intros H l'. unfold cached_label_loader, cached. destruct (memo_get label_eqb (fst s) l') eqn:E; [exact H|].
    destruct (get_label_text l' default_size (snd s)) as [[b|e] w]; cbn [snd fst]; [|exact H].
    rewrite memo_cons. destruct (label_eqb l' l) eqn:Q; [|exact H]. apply label_decides in Q. congruence.
  Qed.
  Lemma loader_has l s t : fst (cached_label_loader l s) = Ok t -> memo_get label_eqb (fst (snd (cached_label_loader l s))) l = Some t.
  Proof.
    unfold cached_label_loader, cached. destruct (memo_get label_eqb (fst s) l) eqn:E; cbn [fst snd].
    - intro H. injection H as <-. exact E.
    - destruct (get_label_text l default_size (snd s)) as [[b|e] w]; cbn [snd fst]; [|discriminate].
      intro H. injection H as <-. rewrite memo_cons. assert (Q : label_eqb l l = true) by now apply label_decides. now rewrite Q.
  Qed.
  Notation sff := (scrape_from_file peqb search literal_eval text_value none).
  Notation text_at s l := (memo_get label_eqb (fst (snd s)) l).
  Lemma ask_step l p (s : memo (label * pattern) V * (memo label string * world)) :
    (forall l' p' v, memo_get (scraped_eqb peqb) (fst s) (l', p') = Some v -> exists t, text_at s l' = Some t /\ scraper t p' = Ok v) ->
    let s' := snd (sff (l, p) s) in
    (forall l' t, text_at s l' = Some t -> text_at s' l' = Some t) /\
    (forall l' p' v, memo_get (scraped_eqb peqb) (fst s') (l', p') = Some v -> exists t, text_at s' l' = Some t /\ scraper t p' = Ok v) /\
    (forall v, fst (sff (l, p) s) = Ok v -> exists t, text_at s' l = Some t /\ scraper t p = Ok v).
  Proof.
    intro I. cbv zeta. unfold scrape_from_file. rewrite cached_eq. unfold scrape_uncached. destruct (memo_get (scraped_eqb peqb) (fst s) (l, p)) as [v|] eqn:M.
    - cbn. split; [auto|]. split; [exact I|]. intros v' H. injection H as <-. now apply I.
    - cbn [snd fst]. unfold ebind, eof.
      assert (Kp := loader_keeps). assert (Hs := loader_has l (snd s)).
      destruct (cached_label_loader l (snd s)) as [[t|e] s1] eqn:L.
      + specialize (Hs t eq_refl). cbn [fst snd] in Hs.
        assert (Kp' : forall l' t', text_at s l' = Some t' -> memo_get label_eqb (fst s1) l' = Some t').
        { intros l' t' H. specialize (Kp l' (snd s) t' H l). rewrite L in Kp. exact Kp. }
        fold (scraper t p). destruct (scraper t p) as [v|e] eqn:S; cbn [fst snd].
        * split; [exact Kp'|]. split.
          -- intros l' p' v'. rewrite memo_cons. destruct (scraped_eqb peqb (l, p) (l', p')) eqn:Q.
             ++ intro H. injection H as <-. apply scraped_decides in Q. injection Q as <- <-. eauto.
             ++ intro H. destruct (I _ _ _ H) as (t' & T & Sc). exists t'. split; [auto|exact Sc].
          -- intros v' H. injection H as <-. eauto.
        * split; [exact Kp'|]. split; [|discriminate]. intros l' p' v' H. destruct (I _ _ _ H) as (t' & T & Sc). exists t'. split; [auto|exact Sc].
      + assert (Kp' : forall l' t', text_at s l' = Some t' -> memo_get label_eqb (fst s1) l' = Some t').
        { intros l' t' H. specialize (Kp l' (snd s) t' H l). rewrite L in Kp. exact Kp. }
        cbn [fst snd]. split; [exact Kp'|]. split; [|discriminate]. intros l' p' v' H. destruct (I _ _ _ H) as (t' & T & Sc). exists t'. split; [auto|exact Sc].
  Qed.
  Lemma asks_text h : forall s, 
    (forall l' p' v, memo_get (scraped_eqb peqb) (fst s) (l', p') = Some v -> exists t, text_at s l' = Some t /\ scraper t p' = Ok v) ->
    let r := happens (scraped_eqb peqb) (scrape_uncached search literal_eval text_value none) (asks h) s in
    (forall l' t, text_at s l' = Some t -> text_at (snd r) l' = Some t) /\
    (forall l p v, In ((l, p), Ok v) (fst r) -> exists t, text_at (snd r) l = Some t /\ scraper t p = Ok v).
  Proof.
    induction h as [|[[l p]|g] h IH]; intros s I; cbn [asks happens].
    - cbn. split; [auto|tauto].
    - destruct (ask_step l p s I) as (K1 & I1 & V1). unfold scrape_from_file in K1, I1, V1. fold scraper in K1, I1, V1.
      destruct (cached (scraped_eqb peqb) _ (l, p) s) as [o s1]. cbn [fst snd] in *. destruct (IH s1 I1) as [K2 V2].
      destruct (happens _ _ (asks h) s1) as [os s2]. cbn [fst snd] in *. split; [auto|].
      intros l' p' v [H|H]; [|auto]. injection H as -> -> ->. destruct (V1 v eq_refl) as (t & T & S). exists t. split; [auto|exact S].
    - destruct (IH (fst s, (fst (snd s), g (snd (snd s)))) I) as [K2 V2]. split; [exact K2|exact V2].
  Qed.
  Lemma one_text h w : exists text, forall l p v,
    In ((l, p), Ok v) (fst (happens (scraped_eqb peqb) (scrape_uncached search literal_eval text_value none) (asks h) ([], ([], w)))) ->
    exists t, text l = Some t /\ scraper t p = Ok v.
  Proof.
    set (r := happens _ _ _ _). exists (fun l => text_at (snd r) l). intros l p v H. 
    destruct (asks_text h ([], ([], w))) as [_ G]; [intros; discriminate|]. apply G, H.
  Qed.

  (** ** scrape_patterns *)
  Lemma pairs_ok text (regex : dict pattern) ps : mapM (fun fp => v <- scraper text (snd fp) ;; Ok (fst fp, v)) regex = Ok ps ->
    Forall2 (fun fp fv => fst fv = fst fp /\ scraper text (snd fp) = Ok (snd fv)) regex ps.
  Proof.
    revert ps; induction regex as [|[k p] regex IH]; intros ps H; cbn [mapM] in H.
    - injection H as <-. constructor.
    - cbn [fst snd] in H. destruct (scraper text p) as [v|] eqn:E; [|discriminate]. cbn [bind] in H.
      destruct (mapM _ regex) as [ps'|]; [|discriminate]. cbn [bind] in H. injection H as <-. constructor; [auto|now apply IH].
  Qed.
  Lemma pairs_get text (regex : dict pattern) ps : wfd regex = true -> 
    Forall2 (fun fp fv => fst fv = fst fp /\ scraper text (snd fp) = Ok (snd fv)) regex ps ->
    dict_of ps = ps /\ map fst ps = map fst regex /\
    forall k, match dget regex k with Some p => exists v, dget ps k = Some v /\ scraper text p = Ok v | None => dget ps k = None end.
  Proof.
    intros Wf F.
    assert (G : forall k, match dget regex k with Some p => exists v, dget ps k = Some v /\ scraper text p = Ok v | None => dget ps k = None end).
    { intro k. clear Wf. induction F as [|[k1 p1] [k2 v2] r q [E1 E2] F IH]; [reflexivity|]. cbn in E1, E2. subst k2. cbn [dget].
      destruct (keqb k1 k); [exists v2; auto|exact IH]. }
    assert (N : map fst ps = map fst regex).
    { clear -F. induction F as [|a b r q [E _] F IH]; [reflexivity|]. cbn. now rewrite E, IH. }
    split; [|auto]. apply dict_of_wfd. clear G. revert ps F N. induction regex as [|[k p] regex IH]; intros ps F N; inversion F as [|a [k2 v2] r q [E1 E2] F']; subst; [reflexivity|].
    cbn in E1. subst k2. apply wfd_cons in Wf. destruct Wf as [W1 W2]. apply wfd_cons. split; [|apply IH; auto; now injection N].
    cbn in N. injection N as N. clear -N W1. revert regex N W1. induction q as [|[a b] q IH]; intros [|[a' b'] regex] N W; try discriminate; [reflexivity|].
    cbn in N. injection N as -> N. cbn in *. destruct (keqb a' k); [discriminate|]. eapply IH; eauto.
  Qed.
  Context {W : Type}.
  Lemma patterns_ok l (regex : dict pattern) (supp : option (label -> string -> eff W (option (dict V)))) loader w d w' :
    wfd regex = true -> scrape_patterns search literal_eval text_value none l regex supp loader w = (Ok d, w') ->
    exists text w1 extra, loader l w = (Ok text, w1) /\
      match supp with None => extra = [] /\ w' = w1 | Some g => g l text w1 = (Ok (Some extra), w') end /\
      forall k, dget d k = match dget (rev extra) k with
                           | Some v => Some v
                           | None => match dget regex k with
                                     | Some p => match scraper text p with Ok v => Some v | Exc _ => None end
                                     | None => None
                                     end
                           end.
  Proof.
    intros Wf H. unfold scrape_patterns, ebind, eof, eret in H. destruct (loader l w) as [[text|e] w1] eqn:L; [|discriminate].
    fold scraper in H. destruct (mapM _ regex) as [ps|e] eqn:M; [|discriminate].
    assert (P := pairs_ok _ _ _ M). destruct (pairs_get _ _ _ Wf P) as (E & _ & G). rewrite E in H.
    assert (X : forall k, dget ps k = match dget regex k with Some p => match scraper text p with Ok v => Some v | Exc _ => None end | None => None end).
    { intro k. specialize (G k). destruct (dget regex k) as [p|]; [|exact G]. destruct G as [v [G1 G2]]. now rewrite G2. }
    destruct supp as [g|].
    - destruct (g l text w1) as [[[ex|]|e] w2] eqn:Q; [|discriminate|discriminate]. injection H as <- <-.
      exists text, w1, ex. split; [reflexivity|]. split; [exact Q|]. intro k. rewrite dget_dupdate, X. reflexivity.
    - injection H as <- <-. exists text, w1, []. split; [reflexivity|]. split; [auto|]. intro k. cbn. apply X.
  Qed.
  Lemma patterns_raise l (regex : dict pattern) (supp : option (label -> string -> eff W (option (dict V)))) loader w e w' :
    scrape_patterns search literal_eval text_value none l regex supp loader w = (Exc e, w') <->
    loader l w = (Exc e, w') \/
    exists text w1, loader l w = (Ok text, w1) /\
      ((exists k p before after, regex = (before ++ (k, p) :: after)%list /\ scraper text p = Exc e /\ w' = w1 /\
          Forall (fun fp => exists v, scraper text (snd fp) = Ok v) before) \/
       (Forall (fun fp => exists v, scraper text (snd fp) = Ok v) regex /\
        exists g, supp = Some g /\ (g l text w1 = (Exc e, w') \/ (g l text w1 = (Ok None, w') /\ e = TypeError)))).
  Proof.
    assert (MM : forall text l, match mapM (fun fp : key * pattern => v <- scraper text (snd fp) ;; Ok (fst fp, v)) l with
              | Ok _ => Forall (fun fp => exists v, scraper text (snd fp) = Ok v) l
              | Exc e => exists k p before after, l = (before ++ (k, p) :: after)%list /\ scraper text p = Exc e /\ Forall (fun fp => exists v, scraper text (snd fp) = Ok v) before
              end).
    { intros text l0. induction l0 as [|[k p] l0 IH]; [constructor|]. cbn [mapM fst snd]. destruct (scraper text p) as [v|e0] eqn:E; cbn [bind].
      - destruct (mapM _ l0) as [ps|e0]; cbn [bind].
        + constructor; [eauto|exact IH].
        + destruct IH as (k' & p' & b & a & -> & Q & F). exists k', p', ((k, p) :: b), a. split; [reflexivity|]. split; [exact Q|]. constructor; [eauto|exact F].
      - exists k, p, [], l0. split; [reflexivity|]. split; [exact E|constructor]. }
    unfold scrape_patterns, ebind, eof, eret. fold scraper. destruct (loader l w) as [[text|e0] w1] eqn:L.
    2:{ split; [intro H; left; congruence|]. intros [H|(text & w2 & H & _)]; [congruence|discriminate]. }
    specialize (MM text regex). destruct (mapM _ regex) as [ps|e0].
    - split.
      + intro H. right. exists text, w1. split; [reflexivity|]. right. split; [exact MM|]. destruct supp as [g|]; [|discriminate]. exists g. split; [reflexivity|].
        destruct (g l text w1) as [[[ex|]|e1] w2]; [discriminate| |left; congruence]. right. unfold eraise in H. injection H as <- <-. auto.
      + intros [H|(t & w2 & H & G)]; [discriminate|]. injection H as <- <-. destruct G as [(k & p & b & a & -> & Q & -> & _)|[_ (g & -> & [G|[G ->]])]].
        * exfalso. apply Forall_app in MM. destruct MM as [_ MM]. inversion MM; subst. cbn in *. destruct H1 as [v H1]. congruence.
        * now rewrite G.
        * now rewrite G.
    - destruct MM as (k & p & b & a & -> & Q & F). split.
      + intro H. injection H as <- <-. right. exists text, w1. split; [reflexivity|]. left. exists k, p, b, a. auto.
      + intros [H|(t & w2 & H & G)]; [discriminate|]. injection H as <- <-. destruct G as [(k' & p' & b' & a' & E & Q' & -> & F')|[F' _]].
        * assert (X : scraper text p' = scraper text p).
          { revert b' E F'. induction F as [|x b Hx F IH]; intros [|y b'] E F'; cbn in E; injection E as E1 E2; subst.
            - reflexivity.
            - inversion F'; subst. destruct H1 as [v H1]. cbn in H1. congruence.
            - destruct Hx as [v Hx]. cbn in Hx. congruence.
            - inversion F'; subst. eapply IH; eauto. }
          rewrite Q, Q' in X. injection X as ->. reflexivity.
        * exfalso. apply Forall_app in F'. destruct F' as [_ F']. inversion F'; subst. destruct H1 as [v H1]. cbn in H1. congruence.
  Qed.
End Scraper.

Lemma bulk_from {W F D} (f : F -> eff W D) files : forall acc w,
  efoldM (fun metaframe file => d <~ f file ;; eret (metaframe ++ [d])%list) files acc w =
  match emapM f files w with (Ok ds, w') => (Ok (acc ++ ds)%list, w') | (Exc e, w') => (Exc e, w') end.
Proof.
  induction files as [|x r IH]; intros acc w; cbn [efoldM emapM].
  - unfold eret. now rewrite app_nil_r.
  - unfold ebind, eret. destruct (f x w) as [[d|e] w1]; [|reflexivity]. rewrite IH. destruct (emapM f r w1) as [[ds|e] w2]; [|reflexivity].
    now rewrite <- app_assoc.
Qed.
Lemma bulk_ok {W F D} (f : F -> eff W D) files w ds w' : bulk_scrape_metadata files f w = (Ok ds, w') <-> one_by_one f files w ds w'.
Proof.
  unfold bulk_scrape_metadata. rewrite bulk_from. cbn [app].
  assert (E : emapM f files w = (Ok ds, w') <-> one_by_one f files w ds w').
  { revert w ds; induction files as [|x r IH]; intros w ds; cbn [emapM].
    - unfold eret. split; intro H; [injection H as <- <-; constructor|inversion H; subst; reflexivity].
    - unfold ebind, eret. split.
      + destruct (f x w) as [[d|e] w1] eqn:E; [|discriminate]. destruct (emapM f r w1) as [[es|e] w2] eqn:G; [|discriminate].
        intro H. injection H as <- <-. econstructor; [exact E|]. now apply IH.
      + intro H. inversion H as [|? ? ? d w1 es w2 E1 E2]; subst. rewrite E1. apply IH in E2. now rewrite E2. }
  rewrite <- E. destruct (emapM f files w) as [[es|e] w2]; split; intro H; try discriminate; injection H as <- <-; reflexivity.
Qed.
Lemma bulk_raise {W F D} (f : F -> eff W D) files w e w' : bulk_scrape_metadata files f w = (Exc e, w') <->
  exists a x b ds w1, files = (a ++ x :: b)%list /\ one_by_one f a w ds w1 /\ f x w1 = (Exc e, w').
Proof.
  unfold bulk_scrape_metadata. rewrite bulk_from. cbn [app].
  assert (E : emapM f files w = (Exc e, w') <-> exists a x b ds w1, files = (a ++ x :: b)%list /\ one_by_one f a w ds w1 /\ f x w1 = (Exc e, w')).
  { revert w; induction files as [|x r IH]; intro w; cbn [emapM].
    - split; [discriminate|]. intros ([|] & x & b & ds & w1 & H & _); discriminate.
    - unfold ebind, eret. split.
      + destruct (f x w) as [[d|e1] w1] eqn:E.
        * destruct (emapM f r w1) as [[es|e2] w2] eqn:G; [discriminate|]. intro H.
          assert (Q : emapM f r w1 = (Exc e, w')) by congruence. apply IH in Q. destruct Q as (a & y & b & ds & w3 & -> & O & Y).
          exists (x :: a), y, b, (d :: ds), w3. split; [reflexivity|]. split; [econstructor; eauto|exact Y].
        * intro H. injection H as <- <-. exists [], x, r, [], w. split; [reflexivity|]. split; [constructor|exact E].
      + intros (a & y & b & ds & w1 & H & O & Y). destruct a as [|a0 a]; cbn in H; injection H as -> ->.
        * inversion O; subst. now rewrite Y.
        * inversion O as [|? ? ? d w2 es w3 E1 E2]; subst. rewrite E1.
          assert (Q : emapM f (a ++ y :: b) w2 = (Exc e, w')) by (apply IH; eauto 10). now rewrite Q. }
  rewrite <- E. destruct (emapM f files w) as [[es|e1] w2]; split; intro H; try discriminate; injection H as <- <-; reflexivity.
Qed.

(** ** Subframes *)

Lemma block_ok text b : subframe_block text = Some b <->
  exists a rest m after, cut_after "SUBFRAME" text a rest /\ cut_after "END" rest m after /\ b = "SUBFRAME" ++ m.
Proof.
  unfold subframe_block. split.
  - destruct (cut "SUBFRAME" text) as [[a rest]|] eqn:E; [|discriminate]. destruct (cut "END" rest) as [[m after]|] eqn:F; [|discriminate].
    intro H. exists a, rest, m, after. split; [now apply cut_iff|]. split; [now apply cut_iff|]. congruence.
  - intros (a & rest & m & after & H1 & H2 & ->). apply cut_iff in H1, H2. now rewrite H1, H2.
Qed.
Lemma block_none text : subframe_block text = None <-> ~ exists x y z, text = x ++ "SUBFRAME" ++ y ++ "END" ++ z.
Proof.
  unfold subframe_block. destruct (cut "SUBFRAME" text) as [[a rest]|] eqn:E.
  - apply cut_iff in E. destruct (cut "END" rest) as [[m after]|] eqn:F.
    + split; [discriminate|]. intro H. exfalso. apply cut_iff in F. destruct E as (-> & [x ->] & _), F as (-> & [y ->] & _).
      apply H. exists x, y, after. rewrite !app_assoc_s. reflexivity.
    + split; [|reflexivity]. intros _ (x & y & z & H). apply cut_none in F. apply F.
      destruct E as (E1 & E2 & M). assert (L : (String.length a <= String.length (x ++ "SUBFRAME"))%nat).
      { eapply M; [rewrite H, <- (app_assoc_s x); reflexivity|now exists x]. }
      rewrite E1, <- app_assoc_s in H. symmetry in H. destruct (app_split _ _ _ _ H) as [[u [U1 U2]]|(u & c0 & U1 & U2)].
      * exists (u ++ y), z. rewrite U2, app_assoc_s. reflexivity.
      * exfalso. rewrite U1, !app_len in L. cbn in L. lia.
  - split; [|reflexivity]. intros _ (x & y & z & H). apply cut_none in E. apply E. exists x, (y ++ "END" ++ z). exact H.
Qed.

Lemma all_chars_app p a b : all_chars p (a ++ b) = all_chars p a && all_chars p b.
Proof. induction a as [|c a IH]; [reflexivity|]. cbn. now rewrite IH, andb_assoc. Qed.
Lemma runs_skip g s : others g -> runs "" (g ++ s) = runs "" s.
Proof.
  unfold others. induction g as [|c g IH]; intro H; [reflexivity|]. cbn in *. apply andb_true_iff in H. destruct H as [H1 H2].
  apply negb_true_iff in H1. rewrite H1. auto.
Qed.
Lemma runs_take d : forall cur s, all_chars digit d = true -> runs cur (d ++ s) = runs (cur ++ d) s.
Proof.
  induction d as [|c d IH]; intros cur s H; [cbn; now rewrite app_nil_rs|]. cbn in *. apply andb_true_iff in H. destruct H as [H1 H2].
  rewrite H1, IH by exact H2. now rewrite app_assoc_s.
Qed.
Lemma runs_numbered s l : numbered s l -> runs "" s = l.
Proof.
  induction 1 as [g G|g d G [D1 D2]|g d c s l G [D1 D2] C N IH].
  - rewrite <- (app_nil_rs g), runs_skip by exact G. reflexivity.
  - rewrite runs_skip by exact G. rewrite <- (app_nil_rs d) at 1. rewrite runs_take by exact D2. cbn. destruct d; [congruence|reflexivity].
  - rewrite runs_skip by exact G. rewrite runs_take by exact D2. cbn [append]. cbn [runs]. rewrite C. destruct d; [congruence|]. f_equal.
    rewrite <- IH. cbn [runs]. now rewrite C.
Qed.
Lemma numbered_total n : forall s, (String.length s <= n)%nat -> exists l, numbered s l.
Proof.
  assert (Sp : forall p s, exists a b, s = a ++ b /\ all_chars p a = true /\ match b with "" => True | String c _ => p c = false end).
  { intros p s. induction s as [|c s (a & b & E & A & B)]; [exists "", ""; auto|]. destruct (p c) eqn:P.
    - exists (String c a), b. cbn. rewrite E, P. auto.
    - exists "", (String c s). auto. }
  induction n as [|n IH]; intros s L.
  - destruct s; [|cbn in L; lia]. exists []. now constructor.
  - destruct (Sp (fun c => negb (digit c)) s) as (g & r & -> & G & R). destruct r as [|c r].
    { rewrite app_nil_rs. exists []. now constructor. }
    apply negb_false_iff in R. destruct (Sp digit (String c r)) as (d & r' & E & D & R').
    assert (Dn : d <> ""). { intros ->. cbn in E. subst r'. congruence. }
    rewrite E. destruct r' as [|c' r'].
    { rewrite app_nil_rs. exists [d]. constructor; [exact G|split; auto]. }
    destruct (IH (String c' r')) as [l N].
    { rewrite E, !app_len in L. destruct d; [congruence|]. cbn [String.length] in *. lia. }
    exists (d :: l). constructor; auto. split; auto.
Qed.
Lemma numbered_iff s l : numbered s l <-> runs "" s = l.
Proof.
  split; [apply runs_numbered|]. intro H. destruct (numbered_total (String.length s) s (le_n _)) as [l' N].
  rewrite (runs_numbered _ _ N) in H. now subst.
Qed.
Lemma run_value_snoc s : forall acc c, run_value acc (s ++ String c "") = (10 * run_value acc s + digit_value c)%Z.
Proof. induction s as [|d s IH]; intros acc c; cbn [append run_value]; [lia|apply IH]. Qed.
Lemma decimal_ok s z : decimal s z -> run_value 0 s = z.
Proof. induction 1 as [c H|s z c D IH H]; [cbn [run_value]; lia|]. now rewrite run_value_snoc, IH. Qed.
Lemma literal_int_ok d : digits d -> (proper d -> literal_int d = Ok (run_value 0 d)) /\ (~ proper d -> literal_int d = Exc SyntaxError).
Proof.
  intros [N D]. destruct d as [|c [|c' r]]; [congruence| |].
  - split; [reflexivity|]. intro P. exfalso. apply P. destruct (zero_char c) eqn:Z; [right; cbn; now rewrite Z|left; eauto].
  - unfold literal_int. destruct (zero_char c) eqn:Z; cbn [andb].
    + destruct (all_chars zero_char (String c' r)) eqn:A; cbn [negb].
      * split; [reflexivity|]. intro P. exfalso. apply P. right. cbn [all_chars] in *. now rewrite Z.
      * split; [|reflexivity]. intros [(c0 & r0 & E & Q)|Q]; [congruence|]. cbn [all_chars] in *. rewrite Z in Q. cbn [andb] in Q. congruence.
    + split; [reflexivity|]. intro P. exfalso. apply P. left. eauto.
Qed.
Lemma runs_digits s l : numbered s l -> Forall digits l.
Proof. induction 1; repeat constructor; auto; apply H0. Qed.
Lemma subframe_ok text b l : subframe_block text = Some b -> numbered b l -> 
  (Forall proper l -> l <> [] -> scrape_subframe text = Ok (match l with [d] => One (run_value 0 d) | _ => Many (map (run_value 0) l) end)) /\
  (~ Forall proper l \/ l = [] -> scrape_subframe text = Exc SyntaxError).
Proof.
  intros B N. unfold scrape_subframe. rewrite B, (runs_numbered _ _ N). assert (D := runs_digits _ _ N). clear B N.
  assert (M1 : Forall proper l -> mapM literal_int l = Ok (map (run_value 0) l)).
  { intro P. induction P as [|d r P F IH]; [reflexivity|]. inversion D; subst. cbn [mapM map]. rewrite (proj1 (literal_int_ok d H1) P). cbn [bind]. now rewrite IH. }
  assert (Pd : forall d, proper d \/ ~ proper d).
  { intro d. unfold proper. destruct (all_chars zero_char d) eqn:A; [auto|]. destruct d as [|c r]; [right; intros [(c & r & E & _)|E]; discriminate|].
    destruct (zero_char c) eqn:Z; [|left; left; eauto]. right. intros [(c0 & r0 & E & Q)|Q]; congruence. }
  assert (M2 : ~ Forall proper l -> mapM literal_int l = Exc SyntaxError).
  { clear M1. induction D as [|d r D F IH]; intro P; [exfalso; apply P; constructor|]. cbn [mapM]. destruct (Pd d) as [Q|Q].
    - rewrite (proj1 (literal_int_ok d D) Q). cbn [bind]. rewrite IH; [reflexivity|]. intro R. apply P. now constructor.
    - rewrite (proj2 (literal_int_ok d D) Q). reflexivity. }
  split.
  - intros P NE. destruct l as [|d [|d2 r]]; [congruence| |].
    + specialize (M1 P). cbn [mapM map literal_ints] in *. destruct (literal_int d); [|discriminate]. cbn [bind] in *. injection M1 as ->. reflexivity.
    + unfold literal_ints. rewrite (M1 P). reflexivity.
  - intros [P| ->]; [|reflexivity]. destruct l as [|d [|d2 r]]; [reflexivity| |].
    + specialize (M2 P). cbn [mapM literal_ints] in *. destruct (literal_int d); [discriminate|]. cbn [bind] in *. injection M2 as ->. reflexivity.
    + unfold literal_ints. rewrite (M2 P). reflexivity.
Qed.
Lemma digits_decimal d : digits d -> decimal d (run_value 0 d).
Proof.
  intros [N D].
  assert (G : forall s acc pre, decimal pre acc -> all_chars digit s = true -> decimal (pre ++ s) (run_value acc s)).
  { induction s as [|c s IH]; intros acc pre P A; [now rewrite app_nil_rs|]. cbn [all_chars] in A. apply andb_true_iff in A. destruct A as [A1 A2].
    cbn [run_value]. change (String c s) with (String c "" ++ s). rewrite <- app_assoc_s. apply IH; [|exact A2].
    replace (acc * 10 + digit_value c)%Z with (10 * acc + digit_value c)%Z by lia. now constructor. }
  destruct d as [|c r]; [congruence|]. cbn [all_chars] in D. apply andb_true_iff in D. destruct D as [D1 D2].
  apply (G r (digit_value c) (String c "")); [now constructor|exact D2].
Qed.
Lemma decimal_fun d z : digits d -> decimal d z <-> z = run_value 0 d.
Proof. intro D. split; [intro H; now rewrite (decimal_ok _ _ H)|intros ->; now apply digits_decimal]. Qed.
Lemma values_decimal l : Forall digits l -> Forall2 decimal l (map (run_value 0) l).
Proof. induction 1 as [|d r D F IH]; [constructor|]. cbn [map]. constructor; [now apply digits_decimal|exact IH]. Qed.

(** ** As stated *)

Lemma trim_exact head r :
  (exists a b, cut_after pvl_end head a b /\ trim_head head r = decode a) \/
  (~ occurs pvl_end head /\ exists a b, cut_after nulls_end head a b /\ trim_head head r = decode a) \/
  (~ occurs pvl_end head /\ ~ occurs nulls_end head /\ trim_head head r = if r then Exc ValueError else decode head).
Proof.
  destruct (trim_cases head) as [(a & b & C)|[(N & a & b & C)|[N M]]].
  - left. exists a, b. split; [exact C|]. eapply trim_pvl, C.
  - right; left. split; [exact N|]. exists a, b. split; [exact C|]. eapply trim_nulls; eassumption.
  - right; right. split; [exact N|]. split; [exact M|]. now apply trim_neither.
Qed.
Lemma decode_exact s : (is_text s /\ decode s = Ok s) \/ (~ is_text s /\ decode s = Exc UnicodeDecodeError).
Proof.
  destruct (decode_other s _ eq_refl) as [H|H].
  - left. split; [now apply decode_ok|exact H].
  - right. split; [now apply decode_bad|exact H].
Qed.
Lemma loader_ok h w os m w' l : happens label_eqb (fun l => get_label_text l default_size) h ([], w) = (os, (m, w')) ->
  match first_answer label_eqb l os with
  | Some b => cached_label_loader l (m, w') = (Ok b, (m, w'))
  | None => fst (cached_label_loader l (m, w')) = fst (get_label_text l default_size w')
  end.
Proof.
  intro H. assert (G := cached_ok label_eqb _ label_decides h w os m w' l H). destruct (first_answer label_eqb l os); [exact G|apply G].
Qed.
Lemma trimmer_ok h w os m w' l : happens label_eqb (fun l => trim_label l max_label_size false) h ([], w) = (os, (m, w')) ->
  match first_answer label_eqb l os with
  | Some b => cached_label_trimmer l (m, w') = (Ok b, (m, w'))
  | None => fst (cached_label_trimmer l (m, w')) = fst (trim_label l max_label_size false w')
  end.
Proof.
  intro H. assert (G := cached_ok label_eqb _ label_decides h w os m w' l H). destruct (first_answer label_eqb l os); [exact G|apply G].
Qed.

Section Once.
  Context {A B W : Type} (aeqb : A -> A -> bool) (f : A -> eff W B) (K : decides aeqb).
  Lemma memo_in (m : memo A B) a b : NoDup (map fst m) -> In (a, b) m <-> memo_get aeqb m a = Some b.
  Proof.
    induction m as [|[x y] m IH]; intro N; [split; [intros []|discriminate]|]. cbn in N. inversion N as [|? ? N1 N2]; subst. rewrite memo_cons. cbn [In].
    destruct (aeqb x a) eqn:Q.
    - apply K in Q. subst. split; [intros [H|H]; [congruence|]|intro H; left; congruence]. exfalso. apply N1. change a with (fst (a, b)). now apply in_map.
    - rewrite <- (IH N2). split; [intros [H|H]; [|exact H]|auto]. injection H as -> ->. assert (aeqb a a = true) by now apply K. congruence.
  Qed.
  Lemma memo_none (m : memo A B) a : memo_get aeqb m a = None -> ~ In a (map fst m).
  Proof.
    induction m as [|[x y] m IH]; intro H; [auto|]. rewrite memo_cons in H. destruct (aeqb x a) eqn:Q; [discriminate|]. cbn. intros [E|E]; [|now apply IH].
    cbn in E. subst. assert (aeqb a a = true) by now apply K. congruence.
  Qed.
  Lemma happens_nodup h : forall s os s', happens aeqb f h s = (os, s') -> NoDup (map fst (fst s)) -> NoDup (map fst (fst s')).
  Proof.
    induction h as [|[x|g] h IH]; intros s os s' E N; cbn [happens] in E.
    - injection E as <- <-. exact N.
    - destruct (cached aeqb f x s) as [o s1] eqn:C. destruct (happens aeqb f h s1) as [os1 s2] eqn:H. injection E as <- <-.
      eapply IH; [exact H|]. rewrite cached_eq in C. destruct (memo_get aeqb (fst s) x) eqn:M; [injection C as <- <-; exact N|].
      destruct (f x (snd s)) as [[b|e] w]; injection C as <- <-; [|exact N]. cbn. constructor; [now apply memo_none|exact N].
    - eapply IH; [exact E|exact N].
  Qed.
End Once.
Lemma one_read h w os m w' : happens label_eqb (fun l => get_label_text l default_size) h ([], w) = (os, (m, w')) ->
  NoDup (map fst m) /\ forall l b, In (l, b) m <-> first_answer label_eqb l os = Some b.
Proof.
  intro H. assert (N : NoDup (map fst m)) by (apply (happens_nodup label_eqb _ label_decides _ _ _ _ H); constructor).
  split; [exact N|]. intros l b. rewrite (memo_in label_eqb label_decides m l b N). assert (G := happens_ok label_eqb _ label_decides _ _ _ _ H l).
  cbn [fst] in G. rewrite G. reflexivity.
Qed.

Lemma patterns_order {pattern V} search literal_eval text_value (none : V) {W} l (regex : dict pattern) (loader : label -> eff W string) w d w' :
  wfd regex = true -> scrape_patterns search literal_eval text_value none l regex None loader w = (Ok d, w') -> map fst d = map fst regex.
Proof.
  intros Wf H. unfold scrape_patterns, ebind, eof, eret in H. destruct (loader l w) as [[text|e] w1]; [|discriminate].
  destruct (mapM _ regex) as [ps|e] eqn:M; [|discriminate]. assert (P := pairs_ok _ _ _ _ _ _ _ M).
  destruct (pairs_get _ _ _ _ _ _ _ Wf P) as (E & N & _). rewrite E in H. injection H as <- <-. exact N.
Qed.

Lemma subframe_attribute text : scrape_subframe text = Exc AttributeError <-> ~ exists x y z, text = x ++ "SUBFRAME" ++ y ++ "END" ++ z.
Proof.
  rewrite <- block_none. unfold scrape_subframe. destruct (subframe_block text) as [b|]; [|tauto]. split; [|discriminate]. intro H. exfalso.
  assert (L : forall d e, literal_int d = Exc e -> e = SyntaxError).
  { intros d e. unfold literal_int. destruct d as [|c [|c' r]]; try discriminate. destruct (_ && _); congruence. }
  unfold literal_ints in H. destruct (runs "" b) as [|d [|d2 r]]; [discriminate| |].
  - destruct (literal_int d) eqn:E; [discriminate|]. apply L in E. subst. discriminate.
  - remember (d :: d2 :: r) as ds. clear Heqds. assert (M : mapM literal_int ds = Exc AttributeError) by (destruct (mapM literal_int ds); [discriminate|]; cbn in H; congruence). clear H.
    induction ds as [|x ds IH]; [discriminate|]. cbn [mapM] in M. destruct (literal_int x) eqn:E; cbn [bind] in M.
    + destruct (mapM literal_int ds); [discriminate|]. cbn [bind] in M. apply IH. congruence.
    + apply L in E. congruence.
Qed.
Lemma subframe_numbers text a rest m after l :
  cut_after "SUBFRAME" text a rest -> cut_after "END" rest m after -> numbered ("SUBFRAME" ++ m) l ->
  (Forall proper l -> exists zs, Forall2 decimal l zs /\
     match zs with
     | [] => scrape_subframe text = Exc SyntaxError
     | [z] => scrape_subframe text = Ok (One z)
     | _ => scrape_subframe text = Ok (Many zs)
     end) /\
  (~ Forall proper l -> scrape_subframe text = Exc SyntaxError).
Proof.
  intros C1 C2 N. assert (B : subframe_block text = Some ("SUBFRAME" ++ m)) by (apply block_ok; eauto 10).
  destruct (subframe_ok text _ l B N) as [S1 S2]. split; [|auto]. intro P. exists (map (run_value 0) l).
  split; [apply values_decimal, (runs_digits _ _ N)|]. destruct l as [|d [|d2 r]]; [now apply S2; right| |]; apply S1; auto; discriminate.
Qed.
Lemma numbered_one s : exists l, numbered s l /\ forall l', numbered s l' -> l' = l.
Proof. exists (runs "" s). split; [now apply numbered_iff|]. intros l' H. symmetry. now apply numbered_iff. Qed.

Lemma ascii_text s : all_chars (in_range 0 127) s = true -> valid_utf8 s = true.
Proof. induction s as [|c s IH]; intro H; [reflexivity|]. cbn [all_chars] in H. apply andb_true_iff in H. destruct H as [H1 H2]. cbn [valid_utf8]. rewrite H1. auto. Qed.
Lemma label_ascii l n w c : disk w (name_of l) = Some c -> all_chars (in_range 0 127) c = true -> fst (get_label_text l n w) = Ok (read_n n c).
Proof.
  intros D A. rewrite label_text, D. cbn [fst]. unfold decode. rewrite ascii_text; [reflexivity|].
  destruct (read_spec n c) as [r [E _]]. rewrite E, all_chars_app in A. apply andb_true_iff in A. apply A.
Qed.
Lemma label_all l n w c : (n < 0)%Z -> disk w (name_of l) = Some c -> is_text c -> fst (get_label_text l n w) = Ok c.
Proof.
  intros N D T. rewrite label_text, D. cbn [fst]. unfold read_n. apply Z.ltb_lt in N. rewrite N. now apply decode_ok.
Qed.

Lemma take_prefix a b : take (String.length a) (a ++ b) = a.
Proof. induction a as [|c a IH]; cbn; [now destruct b|now rewrite IH]. Qed.
Lemma sizes_ok l w a b : disk w (name_of l) = Some (a ++ b) ->
  (Z.of_nat (String.length a) = 35592%Z -> is_text a -> fst (cached_label_loader l ([], w)) = Ok a) /\
  (Z.of_nat (String.length a) = (500 * 1024)%Z -> fst (cached_label_trimmer l ([], w)) = trim_head a false).
Proof.
  intro Hd. split.
  - intros Hl Ht. unfold cached_label_loader, cached, get_label_text, read_file, default_size. cbn [memo_get find fst snd option_map]. unfold ebind. rewrite Hd.
    rewrite <- Hl. unfold read_n. rewrite (proj2 (Z.ltb_ge _ _)) by lia. rewrite Nat2Z.id, take_prefix. apply decode_ok in Ht. unfold eof. now rewrite Ht.
  - intro Hl. unfold cached_label_trimmer, cached, trim_label, read_file, max_label_size. cbn [memo_get find fst snd option_map]. unfold ebind. rewrite Hd.
    change (500 * 1024)%Z with 512000%Z in *. rewrite <- Hl. unfold read_n. rewrite (proj2 (Z.ltb_ge _ _)) by lia. rewrite Nat2Z.id, take_prefix.
    unfold eof. now destruct (trim_head a false).
Qed.
