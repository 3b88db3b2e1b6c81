(** Stickies in concurrent use: every call takes effect at one moment. *)
From Verif Require Export Reg_Spec Sticky_Proofs.

Section Reg.
  Context {V : Type} (enc : V -> res bytes) (dec : bytes -> res V) (isnone : V -> bool).
  Variables (a : string) (j : N).
  Notation posted := (posted enc dec isnone a).

  Definition stands (s : store) (b : board V) : Prop :=
    wf s /\ names s a = Some j /\ b_shared b <> None /\ posted s (b_shared b).

  (** [p] is what is left of call [o] by process [i] before it takes effect;
      [n] bounds the operations left. *)
  Fixpoint pre (i : nat) (o : uop V) (ca : option V) (n : nat) (p : prog (sout V * sticky V)) {struct n} : Prop :=
    match n, p with
    | S n, Do op k =>
        forall s b, stands s b -> b_cached b i = ca ->
        (snd (step op s) = s /\ pre i o ca n (k (fst (step op s)))) \/
        (let bs := board_step enc b (named i o) in
         k (fst (step op s)) = Ret (fst bs, mkSticky a (b_cached (snd bs) i)) /\ stands (snd (step op s)) (snd bs))
    | _, _ => False
    end.

  Lemma stands_at s b : stands s b -> exists v c, b_shared b = Some v /\ isnone v = false /\ enc v = Ok c /\ c <> "" /\ dec c = Ok v /\ at_ s a j c.
  Proof.
    intros (W & N & H & P). destruct (b_shared b) as [v|]; [|easy]. destruct P as ((_ & Nv) & c & Ec & Hc & Dc & Cc).
    exists v, c. repeat split; auto. unfold content in Cc. now rewrite N in Cc.
  Qed.

  Definition ordinary_call (o : uop V) : Prop :=
    match o with UStick v => stable enc dec v /\ isnone v = false | URead _ => True | UClose => False end.

  Lemma begin_call i o ca : ordinary_call o ->
    (exists x, uop_prog enc dec isnone (mkSticky a ca) o = Ret (x, mkSticky a ca) /\ forall b, b_cached b i = ca -> board_step enc b (named i o) = (x, b)) \/
    pre i o ca 4 (uop_prog enc dec isnone (mkSticky a ca) o).
  Proof.
    destruct o as [v|r|]; cbn [ordinary_call uop_prog named]; [| |easy].
    - intros [(c & Ec & Hc & Dc) Nv]. right. unfold stick. rewrite Ec.
      assert (Hl : String.length c <> 0) by now apply length_ne.
      unfold open_block, shm_create, pbind. cbn [of_res ptry]. destruct (String.length c) as [|m] eqn:El; [easy|].
      cbn -[step]. intros s b St _. left. destruct St as (W & N & St). cbn [step]. rewrite N. cbn [fst snd]. split; [reflexivity|].
      cbn -[step]. clear s b W N St. intros s b (W & N & St) _. left. cbn [step]. rewrite N. cbn [fst snd]. split; [reflexivity|].
      cbn -[step]. clear s b W N St. intros s b St _. left. destruct (stands_at _ _ St) as (w1 & d1 & _ & _ & _ & Hd1 & _ & _ & Md).
      cbn [step]. rewrite Md. destruct d1; [easy|]. cbn [fst snd]. split; [reflexivity|].
      cbn -[step board_step]. clear s b St Md. intros s b St Cb. right. destruct (stands_at _ _ St) as (w & d & Eb & Nw & Ed & Hd & Dd & A).
      pose proof St as (W & N & _ & P). cbn [board_step]. rewrite Eb. unfold width. rewrite Ec, Ed.
      destruct A as [An Am]. cbn [step]. rewrite Am. destruct (Nat.eqb_spec (String.length c) (String.length d)) as [L|L].
      + cbn [fst snd b_cached]. split.
        * cbn. unfold cached, set_cache. now rewrite Nv, Nat.eqb_refl.
        * destruct (write_ok s a j d c W (conj An Am) L) as (s' & R & W' & A' & _). unfold shm_write in R. rewrite run_prim in R.
          cbn [step hid] in R. rewrite Am in R. rewrite (proj2 (Nat.eqb_eq _ _) L) in R. cbn [fst snd] in R. injection R as <-.
          split; [exact W'|]. split; [apply A'|]. split; [easy|]. split; [split; [exists c; auto|exact Nv]|]. exists c. eauto using at_content.
      + cbn [fst snd]. split; [cbn; now rewrite Cb|exact St].
    - intros _. unfold sticky_read. cbn [st_cached].
      assert (F : (ca = None \/ r = true) -> pre i (URead r) ca 4
        (let! r := (let! block := ptry (shm_attach a) (fun h => Ret (Some h)) (fun e => match e with FileNotFoundError => Ret None | _ => Raise e end) in
          match block with
          | None => Ret (None, mkSticky a ca)
          | Some h => let! b := shm_read h in let! v := of_res (dec b) in Ret (cached isnone v, mkSticky a (cached isnone v))
          end) in Ret (YRead (fst r), snd r))).
      { intro Hr.
        cbn -[step]. intros s b (W & N & St) _. left. cbn [step]. rewrite N. cbn [fst snd]. split; [reflexivity|].
        cbn -[step]. clear s b W N St. intros s b St _. left. destruct (stands_at _ _ St) as (w1 & d1 & _ & _ & _ & Hd1 & _ & _ & Md).
        cbn [step]. rewrite Md. destruct d1; [easy|]. cbn [fst snd]. split; [reflexivity|].
        cbn -[step board_step]. clear s b St Md. intros s b St Cb. right. destruct (stands_at _ _ St) as (w & e & Eb & Nw & Ed & He & Dd & A).
        cbn [step]. rewrite (proj2 A). cbn [fst snd of_res pbind]. cbn [named board_step]. unfold pbind. cbn [ptry of_res]. rewrite Dd. rewrite Eb, Cb. cbn. unfold cached. rewrite Nw.
        assert (G : match ca with Some v => if r then (YRead (Some w), mkBoard (Some w) (set_cache (b_cached b) i (Some w))) else (YRead (Some v), b) | None => (YRead (Some w), mkBoard (Some w) (set_cache (b_cached b) i (Some w))) end
                    = (YRead (Some w), mkBoard (Some w) (set_cache (b_cached b) i (Some w)))).
        { destruct Hr as [->| ->]; [reflexivity|]. now destruct ca. }
        rewrite G. cbn [fst snd b_cached b_shared]. split.
        - unfold set_cache. now rewrite Nat.eqb_refl.
        - destruct St as (W & N & Hn & P). split; [exact W|]. split; [exact N|]. cbn [b_shared]. split; [easy|]. now rewrite Eb in P. }
      destruct ca as [v|]; [|right; auto]. destruct r; [right; auto|]. left. exists (YRead (Some v)). split; [reflexivity|].
      intros b Cb. cbn [board_step]. now rewrite Cb.
  Qed.

  Lemma step_others b i o i' : i' <> i -> b_cached (snd (board_step enc b (named i o))) i' = b_cached b i'.
  Proof.
    intro H. assert (E : Nat.eqb i' i = false) by now apply Nat.eqb_neq.
    destruct o as [v|r|]; cbn [named board_step]; destruct (b_shared b); try destruct (Nat.eqb (width enc v) (width enc v0)); try destruct (b_cached b i), r;
      cbn; unfold set_cache; rewrite ?E; reflexivity.
  Qed.

  (** ** Calls in an order *)
  Fixpoint left_over (todo : nat -> list (uop V)) (order : list nat) : nat -> list (uop V) :=
    match order with [] => todo | i :: r => left_over (drop_first todo i) r end.
  Lemma drop_empty (todo : nat -> list (uop V)) i : todo i = [] -> forall i', drop_first todo i i' = todo i'.
  Proof. intros H i'. unfold drop_first. destruct (Nat.eqb_spec i' i) as [->|_]; [now rewrite H|reflexivity]. Qed.
  Lemma calls_ext order : forall f g : nat -> list (uop V), (forall i, f i = g i) -> calls f order = calls g order.
  Proof.
    induction order as [|i r IH]; intros f g H; cbn [calls]; [reflexivity|]. rewrite <- (H i). destruct (f i) eqn:E.
    - now apply IH.
    - f_equal. apply IH. intro i'. unfold drop_first. now rewrite H.
  Qed.
  Lemma calls_app order i o l : forall todo : nat -> list (uop V), left_over todo order i = o :: l -> calls todo (order ++ [i]) = calls todo order ++ [named i o].
  Proof.
    induction order as [|i' r IH]; intros todo; cbn [left_over app calls].
    - now intros ->.
    - intro H. destruct (todo i') eqn:E; [|cbn [app]; f_equal; now apply IH].
      rewrite (calls_ext (r ++ [i]) todo (drop_first todo i')), (calls_ext r todo (drop_first todo i')) by (intro; symmetry; now apply drop_empty). now apply IH.
  Qed.
  Lemma left_over_app order i : forall (todo : nat -> list (uop V)) i', left_over todo (order ++ [i]) i' = drop_first (left_over todo order) i i'.
  Proof. induction order as [|i1 r IH]; intros todo i'; cbn [app left_over]; [reflexivity|apply IH]. Qed.
  Lemma board_run_snoc h o : forall b, board_run enc b (h ++ [o]) =
    (fst (board_run enc b h) ++ [fst (board_step enc (snd (board_run enc b h)) o)], snd (board_step enc (snd (board_run enc b h)) o)).
  Proof.
    induction h as [|o1 h IH]; intro b; cbn [app board_run].
    - cbn [fst snd]. now destruct (board_step enc b o).
    - destruct (board_step enc b o1) as [x b1]. rewrite IH. now destruct (board_run enc b1 h).
  Qed.
  Lemma told_app i order (outs : list (sout V)) i' x : List.length outs = List.length order ->
    told i (order ++ [i']) (outs ++ [x]) = told i order outs ++ (if Nat.eqb i' i then [x] else []).
  Proof.
    intro H. unfold told. enough (E : combine (order ++ [i']) (outs ++ [x]) = combine order outs ++ [(i', x)]).
    { rewrite E, filter_app, map_app. cbn [filter fst]. now destruct (Nat.eqb i' i). }
    revert outs H. induction order as [|o r IH]; intros [|y ys] H; try easy. cbn [app combine]. now rewrite IH by now injection H.
  Qed.

  (** ** Invariant *)
  Variables (v0 : V) (cache : nat -> option V) (todo : nat -> list (uop V)).

  (** [m]: own turns still needed, at most. *)
  Definition user_ok (i m : nat) (b : board V) (rest : list (uop V)) (tld : list (sout V)) (u : user V) : Prop :=
    match u_now u with
    | None => u_obj u = mkSticky a (b_cached b i) /\ rest = u_todo u /\ tld = u_results u /\ 6 * List.length (u_todo u) <= m
    | Some (Ret (x, k)) => k = mkSticky a (b_cached b i) /\ rest = u_todo u /\ tld = u_results u ++ [x] /\ 1 + 6 * List.length (u_todo u) <= m
    | Some p => u_obj u = mkSticky a (b_cached b i) /\ tld = u_results u /\
        exists o n, 1 + n + 6 * List.length (u_todo u) <= m /\ rest = o :: u_todo u /\ pre i o (b_cached b i) n p
    end.
  Definition one_less (f : nat -> nat) (i i' : nat) : nat := if Nat.eqb i' i then pred (f i') else f i'.
  Definition reg_inv (f : nat -> nat) (order : list nat) (c : uconfig V) : Prop :=
    let ob := board_run enc (mkBoard (Some v0) cache) (calls todo order) in
    List.length (fst ob) = List.length order /\ stands (snd c) (snd ob) /\
    forall i, (ordinary_calls enc dec isnone (left_over todo order i) /\
       List.length (told i order (fst ob)) + List.length (left_over todo order i) = List.length (todo i)) /\
      user_ok i (f i) (snd ob) (left_over todo order i) (told i order (fst ob)) (fst c i).

  Lemma user_ok_ext i m b b' rest tld u : b_cached b' i = b_cached b i -> user_ok i m b rest tld u -> user_ok i m b' rest tld u.
  Proof. unfold user_ok. now intros ->. Qed.

  (** The call of [i] takes effect. *)
  Lemma effect f order i o u' us s s' l :
    reg_inv f order (us, s) -> left_over todo order i = o :: l ->
    let ob := board_run enc (mkBoard (Some v0) cache) (calls todo order) in
    let bs := board_step enc (snd ob) (named i o) in
    stands s' (snd bs) -> user_ok i (pred (f i)) (snd bs) l (told i order (fst ob) ++ [fst bs]) u' ->
    reg_inv (one_less f i) (order ++ [i]) (set_user us i u', s').
  Proof.
    intros (HL & HS & HU) Hl. cbv zeta. intros S' U'. unfold reg_inv. rewrite (calls_app order i o l) by exact Hl.
    rewrite board_run_snoc. cbn [fst snd]. set (ob := board_run enc _ _) in *. split; [rewrite !app_length; cbn; lia|]. split; [exact S'|].
    intro i'. destruct (HU i') as [O1 O2]. rewrite left_over_app, (told_app i' order (fst ob) i) by exact HL. unfold drop_first, set_user, one_less. cbn [fst] in *.
    destruct (Nat.eqb_spec i' i) as [->|Hi].
    - rewrite Nat.eqb_refl, Hl in *. cbn [tl]. split; [|exact U']. destruct O1 as [O1 O3]. split; [now inversion O1|]. rewrite app_length. cbn [List.length] in *. lia.
    - rewrite (proj2 (Nat.eqb_neq i i')), app_nil_r by auto. split; [exact O1|]. eapply user_ok_ext; [|exact O2]. now apply step_others.
  Qed.

  Lemma quiet_turn f order i u' us s :
    reg_inv f order (us, s) ->
    let ob := board_run enc (mkBoard (Some v0) cache) (calls todo order) in
    user_ok i (pred (f i)) (snd ob) (left_over todo order i) (told i order (fst ob)) u' ->
    reg_inv (one_less f i) order (set_user us i u', s).
  Proof.
    intros (HL & HS & HU) ob U'. split; [exact HL|]. split; [exact HS|]. intro i'. destruct (HU i') as [O1 O2]. split; [exact O1|].
    unfold set_user, one_less. cbn [fst] in *. destruct (Nat.eqb_spec i' i) as [->|_]; assumption.
  Qed.

  Lemma turn_inv f order i c : reg_inv f order c -> exists more, reg_inv (one_less f i) (order ++ more) (uturn enc dec isnone i c).
  Proof.
    destruct c as [us s]. intro H. pose proof H as (HL & HS & HU). destruct (HU i) as [[O1 _] O2]. unfold uturn. cbn [fst snd] in *.
    set (ob := board_run enc _ _) in *. unfold user_ok in O2. unfold user_step. destruct (u_now (us i)) as [[[x k]|e| |B op k]|] eqn:E.
    - destruct O2 as (-> & Hr & Ht & Hm). exists []. rewrite app_nil_r. apply quiet_turn; [exact H|]. fold ob. cbn -[Nat.mul]. repeat split; auto; lia.
    - destruct O2 as (_ & _ & o & [|n] & _ & _ & []).
    - destruct O2 as (_ & _ & o & [|n] & _ & _ & []).
    - destruct O2 as (Ho & Ht & o & n & Hn & Hr & P). destruct n as [|n]; [easy|]. cbn [pre] in P.
      specialize (P s (snd ob) HS eq_refl). cbn [prog_step]. destruct (step op s) as [r s'] eqn:Es. cbn [fst snd] in P. destruct P as [[-> P]|[Hk S']].
      + exists []. rewrite app_nil_r. apply quiet_turn; [exact H|]. fold ob. unfold user_ok. cbn [u_now u_obj u_results u_todo].
        destruct n as [|n]; [easy|]. destruct (k r) as [| | |B' op' k'] eqn:Ek; try easy. split; [exact Ho|]. split; [exact Ht|]. exists o, (S n). split; [lia|]. split; [exact Hr|exact P].
      + exists [i]. rewrite Hk. eapply effect; [exact H|exact Hr|exact S'|]. fold ob. unfold user_ok. cbn [u_now u_todo u_results]. split; [reflexivity|]. split; [reflexivity|]. rewrite Ht. split; [reflexivity|lia].
    - destruct O2 as (Ho & Hr & Ht & Hm). destruct (u_todo (us i)) as [|o r] eqn:Et.
      + exists []. rewrite app_nil_r. apply quiet_turn; [exact H|]. fold ob. unfold user_ok. rewrite E, Et. repeat split; auto. cbn. lia.
      + rewrite Ho. rewrite Hr in O1. inversion O1 as [|o' r' Oo Or]. subst o' r'. cbn [List.length] in Hm.
        destruct (begin_call i o (b_cached (snd ob) i) Oo) as [(x & Ex & Eb)|P].
        * exists [i]. rewrite Ex. specialize (Eb (snd ob) eq_refl). eapply effect; [exact H|exact Hr| |]; fold ob; rewrite Eb; cbn [fst snd]; [exact HS|].
          unfold user_ok. cbn [u_now u_todo u_results]. rewrite Ht. repeat split; auto. lia.
        * exists []. rewrite app_nil_r. apply quiet_turn; [exact H|]. fold ob. unfold user_ok. cbn [u_now u_obj u_results u_todo].
          destruct (uop_prog enc dec isnone _ o) as [| | |B' op' k'] eqn:Ek; try easy. split; [reflexivity|]. split; [exact Ht|]. exists o, 4. split; [lia|]. split; [exact Hr|exact P].
  Qed.

  Definition after_move (f : nat -> nat) (w : option nat) : nat -> nat := match w with Some i => one_less f i | None => f end.
  Lemma moves_inv f order w c c' : reg_inv f order c -> moves enc dec isnone a w c c' -> exists more, reg_inv (after_move f w) (order ++ more) c'.
  Proof.
    intros H M. destruct M as [i c|us s s' W' S']; [now apply turn_inv|]. exists []. rewrite app_nil_r.
    destruct H as (HL & (W & N & Hn & P) & HU). split; [exact HL|]. split; [|exact HU]. cbn [snd] in *.
    set (ob := board_run enc _ _) in *. destruct S' as [S1 S2]. split; [exact W'|]. split; [now rewrite S1|]. split; [exact Hn|].
    destruct (b_shared (snd ob)) as [v|]; [|easy]. destruct P as (Pv & d & Ed & Hd & Dd & Cd). split; [exact Pv|]. exists d. repeat split; auto.
    unfold content in *. rewrite S1. rewrite N in *. now rewrite (S2 j eq_refl).
  Qed.

  (** ** What happens *)
  Lemma start_inv s : wf s -> names s a = Some j -> stable enc dec v0 -> isnone v0 = false -> on_board enc a v0 s ->
    (forall i, ordinary_calls enc dec isnone (todo i)) -> reg_inv (fun i => 6 * List.length (todo i)) [] (beginning a cache todo s).
  Proof.
    intros W N Sv Nv (c & Ec & Cc) Ht. unfold reg_inv. cbn [calls board_run fst snd left_over beginning]. split; [reflexivity|]. split.
    - split; [exact W|]. split; [exact N|]. cbn [b_shared]. split; [easy|]. split; [now split|]. exists c. destruct Sv as (c' & Ec' & Hc & Dc).
      rewrite Ec in Ec'. injection Ec' as <-. auto.
    - intro i. split; [split; [apply Ht|reflexivity]|]. unfold user_ok. cbn. repeat split; auto.
  Qed.

  Fixpoint budget (f : nat -> nat) (who : nat -> option nat) (n : nat) : nat -> nat :=
    match n with 0 => f | S n => after_move (budget f who n) (who n) end.
  Lemma budget_le f who i : forall n, budget f who n i <= f i - turns_of i who n.
  Proof.
    induction n as [|n IH]; [unfold turns_of; cbn; lia|]. cbn [budget]. unfold turns_of in *. rewrite seq_S, filter_app, app_length. cbn [plus filter].
    unfold after_move, one_less. destruct (who n) as [k|]; [|cbn; lia]. rewrite (Nat.eqb_sym i k). destruct (Nat.eqb k i); cbn [List.length]; lia.
  Qed.
  Lemma history_inv f who t : forall n, reg_inv f [] (t 0) -> happens enc dec isnone a who t n ->
    exists ord, ord 0 = [] /\ (forall m, m < n -> exists more, ord (S m) = ord m ++ more) /\
      forall m, m <= n -> reg_inv (budget f who m) (ord m) (t m).
  Proof.
    induction n as [|n IH]; intros H0 H.
    - exists (fun _ => []). split; [reflexivity|]. split; [lia|]. intros m Hm. replace m with 0 by lia. exact H0.
    - destruct (IH H0) as (ord & A & B & C); [intros m Hm; apply H; lia|].
      destruct (moves_inv _ _ _ _ _ (C n ltac:(lia)) (H n ltac:(lia))) as [more D].
      exists (fun m => if Nat.leb m n then ord m else ord n ++ more). split; [exact A|]. split.
      + intros m Hm. rewrite (proj2 (Nat.leb_le m n)) by lia. destruct (Nat.leb_spec (S m) n) as [L|L]; [now apply B|]. exists more. f_equal. f_equal. lia.
      + intros m Hm. destruct (Nat.leb_spec m n) as [L|L]; [now apply C|]. replace m with (S n) by lia. exact D.
  Qed.

  Lemma inv_explains f order c : reg_inv f order c -> explains enc a v0 cache todo order c.
  Proof.
    intros (HL & HS & HU). unfold explains. destruct (board_run enc (mkBoard (Some v0) cache) (calls todo order)) as [outs b]. cbn [fst snd] in *. split; [exact HL|]. split.
    - destruct (stands_at _ _ HS) as (v & c' & Eb & _ & Ec & _ & _ & A). exists v. split; [exact Eb|]. exists c'. eauto using at_content.
    - intro i. cbv zeta. destruct (HU i) as [_ O2]. unfold user_ok in O2. destruct (u_now (fst c i)) as [[[x k]|e| |B op k]|].
      + right. split; [easy|]. exists x. apply O2.
      + left. apply O2.
      + left. apply O2.
      + left. apply O2.
      + left. apply O2.
  Qed.
  Lemma inv_done f order c i : reg_inv f order c -> f i = 0 -> u_now (fst c i) = None /\ u_todo (fst c i) = [] /\
    List.length (u_results (fst c i)) = List.length (todo i).
  Proof.
    intros (HL & HS & HU) F. destruct (HU i) as [[_ O3] O2]. rewrite F in O2. unfold user_ok in O2. destruct (u_now (fst c i)) as [[[x k]|e| |B op k]|].
    - exfalso. destruct O2 as (H1 & H2 & H3 & Hm); lia.
    - exfalso. destruct O2 as (H1 & H2 & o & n & Hm & H3); lia.
    - exfalso. destruct O2 as (H1 & H2 & o & n & Hm & H3); lia.
    - exfalso. destruct O2 as (H1 & H2 & o & n & Hm & H3); lia.
    - destruct O2 as (H1 & Hr & Ht & Hm). destruct (u_todo (fst c i)); [|exfalso; cbn in Hm; lia]. rewrite Hr, Ht in O3. cbn in O3. repeat split; auto; lia.
  Qed.
End Reg.
