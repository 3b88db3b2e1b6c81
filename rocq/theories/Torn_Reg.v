(** Stickies whose bytes are copied one at a time. *)
From Verif Require Export Torn_Spec Reg_Lemmas.

(** ** Bytes *)
Lemma str_ext x : forall y, (forall k, String.get k x = String.get k y) -> x = y.
Proof.
  induction x as [|c x IH]; intros [|d y] H; [reflexivity|specialize (H 0); discriminate H..|].
  assert (E := H 0). injection E as ->. f_equal. apply IH. intro k. exact (H (S k)).
Qed.
Lemma get_some b : forall k, k < String.length b -> exists c, String.get k b = Some c.
Proof. induction b as [|c b IH]; intros k H; cbn in H; [lia|]. destruct k as [|k]; cbn; [eauto|]. apply IH. lia. Qed.
Lemma get_none b : forall k, String.length b <= k -> String.get k b = None.
Proof. induction b as [|c b IH]; intros k H; cbn in H; [now destruct k|]. destruct k as [|k]; [lia|]. cbn. apply IH. lia. Qed.
Lemma get_lt b k c : String.get k b = Some c -> k < String.length b.
Proof. intro H. destruct (Nat.lt_ge_cases k (String.length b)) as [L|L]; [exact L|]. rewrite get_none in H by exact L. discriminate. Qed.
Lemma set_byte_length k c b : String.length (set_byte k c b) = String.length b.
Proof. revert k. induction b as [|x b IH]; intros [|k]; cbn; auto. Qed.
Lemma set_byte_get k c b : forall i, String.get i (set_byte k c b) = if Nat.eqb i k && Nat.ltb k (String.length b) then Some c else String.get i b.
Proof.
  revert k. induction b as [|x b IH]; intros k i.
  - destruct (Nat.eqb i k); destruct k, i; reflexivity.
  - destruct k as [|k]; cbn [set_byte String.length].
    + destruct i as [|i]; reflexivity.
    + destruct i as [|i]; cbn [String.get]; [reflexivity|]. rewrite IH. reflexivity.
Qed.
Lemma assemble_length n : forall k got, String.length (assemble n k got) = n.
Proof. induction n as [|n IH]; intros k got; cbn; auto. Qed.
Lemma assemble_get n : forall i k got, k < n -> String.get k (assemble n i got) = Some (match byte_at (i + k) got with Some c => c | None => zero end).
Proof.
  induction n as [|n IH]; intros i k got H; [lia|]. cbn [assemble]. destruct k as [|k]; cbn [String.get]; [now rewrite Nat.add_0_r|].
  rewrite IH by lia. now rewrite Nat.add_succ_r.
Qed.
Lemma byte_at_none k got : byte_at k got = None <-> ~ In k (map fst got).
Proof.
  induction got as [|[i c] r IH]; cbn; [tauto|]. destruct (Nat.eqb_spec i k) as [->|H]; [split; [discriminate|tauto]|]. rewrite IH. tauto.
Qed.
Definition places_in (n : nat) (got : copied) : Prop := NoDup (map fst got) /\ forall k, In k (map fst got) -> k < n.
Lemma places_in_more n got k c : places_in n got -> k < n -> byte_at k got = None -> places_in n ((k, c) :: got).
Proof. intros [H1 H2] Hk Hb. apply byte_at_none in Hb. split; cbn; [now constructor|]. intros i [<-|Hi]; auto. Qed.
Lemma places_in_full n got k : places_in n got -> List.length got = n -> k < n -> exists c, byte_at k got = Some c.
Proof.
  intros [H1 H2] HL Hk. destruct (byte_at k got) as [c|] eqn:E; [eauto|]. apply byte_at_none in E. elim E. apply (NoDup_length_incl (l := map fst got) (l' := seq 0 n)); auto.
  - rewrite map_length, seq_length. lia.
  - intros i Hi. apply in_seq. specialize (H2 i Hi). lia.
  - apply in_seq. lia.
Qed.

Lemma copy_read j got k s b : mem s j = Some b -> b <> "" ->
  copy (ORead j) got k s =
    match String.get k b, byte_at k got with
    | Some c, None =>
        if Nat.eqb (List.length ((k, c) :: got)) (String.length b) then Last (Ok (assemble (String.length b) 0 ((k, c) :: got))) s else Part ((k, c) :: got) s
    | _, _ => Already
    end.
Proof. intros M H. cbn [copy]. rewrite M. destruct b; [easy|reflexivity]. Qed.
Lemma copy_write j w got k s b : mem s j = Some b -> b <> "" ->
  copy (OWrite j w) got k s =
    if Nat.eqb (String.length w) (String.length b) then
      match String.get k w, byte_at k got with
      | Some c, None =>
          let s' := {| names := names s; mem := upd_mem (mem s) j (set_byte k c b); next := next s |} in
          if Nat.eqb (List.length ((k, c) :: got)) (String.length b) then Last (Ok tt) s' else Part ((k, c) :: got) s'
      | _, _ => Already
      end
    else Whole.
Proof. intros M H. cbn [copy]. rewrite M. destruct b; [easy|reflexivity]. Qed.

Section Torn.
  Context {V : Type} (enc : V -> res bytes) (dec : bytes -> res V) (isnone : V -> bool).
  Variables (a : string) (j : N) (n : nat) (Sh : nat -> ascii -> Prop) (P : V -> Prop).
  Hypothesis (Hn : n <> 0).
  Notation sprog := (prog (sout V * sticky V)).

  Definition shape (b : bytes) : Prop := String.length b = n /\ forall k c, String.get k b = Some c -> Sh k c.
  Hypothesis (HP : forall b w, shape b -> dec b = Ok w -> isnone w = false -> P w).
  Definition good (s : store) : Prop := wf s /\ names s a = Some j /\ exists b, mem s j = Some b /\ shape b.
  Lemma shape_cons b : shape b -> exists c r, b = String c r.
  Proof. intros [H _]. destruct b as [|c r]; [cbn in H; lia|eauto]. Qed.
  Lemma shape_set b k c : shape b -> Sh k c -> shape (set_byte k c b).
  Proof.
    intros [H1 H2] H. split; [now rewrite set_byte_length|]. intros i d. rewrite set_byte_get. destruct (Nat.eqb_spec i k) as [->|_]; cbn [andb]; [|apply H2].
    destruct (Nat.ltb k (String.length b)); [intros [= <-]; exact H|apply H2].
  Qed.

  (** *** What a call may do, whatever others do *)
  Definition fit {B} (o : op B) : Prop :=
    match o with
    | OCreate x | OOpen x => x = a
    | OTrunc _ _ | OUnlink _ => False
    | OAttach i | ORead i => i = j
    | OWrite i w => i = j /\ (String.length w = n -> shape w)
    end.
  Definition answer {B} (o : op B) : res B -> Prop :=
    match o in op B return res B -> Prop with
    | OCreate _ => fun r => r = Exc FileExistsError
    | OOpen _ => fun r => r = Ok j
    | OAttach _ => fun r => r = Ok tt
    | ORead _ => fun r => exists b, r = Ok b /\ shape b
    | OWrite _ w => fun r => r = if Nat.eqb (String.length w) n then Ok tt else Exc ValueError
    | _ => fun _ => True
    end.
  Definition fine_cache (c : option V) : Prop := forall w, c = Some w -> P w.
  Definition fine_answer (x : sout V) : Prop :=
    match x with
    | YDone r => r = Ok tt \/ r = Exc ValueError
    | YRead (Some w) => P w
    | YRead None => exists b w, shape b /\ dec b = Ok w /\ isnone w = true
    end.
  Definition fine_end (r : sout V * sticky V) : Prop := fine_answer (fst r) /\ st_address (snd r) = a /\ fine_cache (st_cached (snd r)).
  Fixpoint safe (p : sprog) : Prop :=
    match p with
    | Ret x => fine_end x
    | Do o k => fit o /\ forall r, answer o r -> safe (k r)
    | _ => True
    end.
  Definition fine_call (o : uop V) : Prop :=
    match o with
    | UStick v => isnone v = false /\ P v /\ exists c, enc v = Ok c /\ c <> "" /\ (String.length c = n -> shape c)
    | URead _ => True
    | UClose => False
    end.
  Lemma call_safe k o : st_address k = a -> fine_cache (st_cached k) -> fine_call o -> safe (uop_prog enc dec isnone k o).
  Proof.
    destruct k as [a' ca]. cbn [st_address st_cached]. intros -> Hc. destruct o as [v|r|]; cbn [fine_call uop_prog]; [| |easy].
    - intros (Nv & Pv & c & Ec & Hcc & Sc). unfold stick. rewrite Ec.
      assert (Hl : String.length c <> 0) by (destruct c; [easy|discriminate]).
      unfold open_block, shm_create, pbind. cbn [of_res ptry]. destruct (String.length c) as [|m] eqn:El; [easy|].
      cbn. split; [reflexivity|]. intros r ->. cbn. split; [reflexivity|]. intros r ->. cbn. split; [reflexivity|]. intros r ->. cbn. split; [rewrite El; auto|].
      intros r ->. rewrite El. destruct (Nat.eqb_spec (S m) n); cbn.
      + split; [now left|]. split; [reflexivity|]. unfold cached. cbn. rewrite Nv. now intros w [= <-].
      + split; [now right|]. split; [reflexivity|exact Hc].
    - intros _. unfold sticky_read. cbn [st_cached].
      assert (F : safe (let! r := (let! block := ptry (shm_attach a) (fun h => Ret (Some h)) (fun e => match e with FileNotFoundError => Ret None | _ => Raise e end) in
          match block with
          | None => Ret (None, mkSticky a ca)
          | Some h => let! b := shm_read h in let! v := of_res (dec b) in Ret (cached isnone v, mkSticky a (cached isnone v))
          end) in Ret (YRead (fst r), snd r))).
      { cbn. split; [reflexivity|]. intros x ->. cbn. split; [reflexivity|]. intros x ->. cbn. split; [reflexivity|]. intros x (b & -> & Sb). cbn.
        destruct (dec b) as [w|e] eqn:Ed; cbn; [|exact Logic.I]. unfold fine_end, cached. cbn. destruct (isnone w) eqn:Nw.
        - split; [exists b, w; auto|]. split; [reflexivity|discriminate].
        - split; [eapply HP; eauto|]. split; [reflexivity|]. intros w' [= <-]. eapply HP; eauto. }
      destruct ca as [v|]; [|exact F]. destruct r; [exact F|]. cbn. split; [now apply Hc|]. split; [reflexivity|exact Hc].
  Qed.

  (** An operation other than a copy. *)
  Lemma step_fit {B} (o : op B) s : good s -> fit o -> answer o (fst (step o s)) /\ good (snd (step o s)).
  Proof.
    intros G F. pose proof G as (W & N & b & M & Sb). destruct (shape_cons b Sb) as (c & r & Eb). destruct o as [x|i z|x|i|x|i|i w]; cbn [fit] in F; try easy.
    - subst x. cbn [step]. rewrite N. now split.
    - subst x. cbn [step]. rewrite N. now split.
    - subst i. cbn [step]. rewrite M, Eb. now split.
    - subst i. cbn [step]. rewrite M. split; [exists b; auto|exact G].
    - destruct F as [-> F]. cbn [step]. rewrite M. rewrite (proj1 Sb). cbn [answer]. destruct (Nat.eqb_spec (String.length w) n) as [L|L]; cbn [fst snd]; [|now split].
      split; [reflexivity|]. destruct (write_ok s a j b w W (conj N M)) as (s' & R & W' & A' & _); [now rewrite L, (proj1 Sb)|].
      unfold shm_write in R. rewrite run_prim in R. cbn [step hid] in R. rewrite M, (proj1 Sb), (proj2 (Nat.eqb_eq _ _) L) in R. cbn [fst snd] in R. injection R as <-.
      split; [exact W'|]. split; [exact N|]. exists w. split; [apply A'|auto].
  Qed.
  Lemma put_good s b b' : good s -> mem s j = Some b -> shape b' -> good {| names := names s; mem := upd_mem (mem s) j b'; next := next s |}.
  Proof.
    intros (W & N & b0 & M & Sb) M' Sb'. rewrite M in M'. injection M' as ->.
    destruct (write_ok s a j b b' W (conj N M)) as (s' & R & W' & A' & _); [now rewrite (proj1 Sb), (proj1 Sb')|].
    unfold shm_write in R. rewrite run_prim in R. cbn [step hid] in R. rewrite M, (proj1 Sb), (proj2 (Nat.eqb_eq _ _) (proj1 Sb')) in R. cbn [fst snd] in R. injection R as <-.
    split; [exact W'|]. split; [exact N|]. exists b'. split; [apply A'|exact Sb'].
  Qed.

  (** *** A user *)
  Definition under_way (got : copied) : Prop := places_in n got /\ List.length got < n /\ forall k c, byte_at k got = Some c -> Sh k c.
  Lemma under_way_none : under_way [].
  Proof. split; [split; [constructor|intros ? []]|]. split; [cbn; lia|discriminate]. Qed.
  Definition copying_ok {B} (o : op B) (got : copied) : Prop :=
    match o with
    | ORead _ => under_way got
    | OWrite _ w => if Nat.eqb (String.length w) n then under_way got else got = []
    | _ => got = []
    end.
  Lemma copying_none {B} (o : op B) : copying_ok o [].
  Proof. pose proof under_way_none. destruct o; cbn; auto. now destruct (Nat.eqb _ _). Qed.
  Definition now_ok (p : option sprog) (got : copied) : Prop :=
    match p with
    | Some p => safe p /\ match p with Do o _ => copying_ok o got | _ => got = [] end
    | None => got = []
    end.
  Definition user_ok (u : user V) (got : copied) : Prop :=
    st_address (u_obj u) = a /\ fine_cache (st_cached (u_obj u)) /\ Forall fine_call (u_todo u) /\ Forall fine_answer (u_results u) /\ now_ok (u_now u) got.
  Lemma now_none p : safe p -> now_ok (Some p) [].
  Proof. intro H. split; [exact H|]. destruct p; auto. apply copying_none. Qed.

  (** What copying byte [k] does, in the cases that there are. *)
  Lemma byte_cases {B} (o : op B) (kk : res B -> sprog) got k s : good s -> safe (Do o kk) -> copying_ok o got ->
    (* as before *)
    (byte_step (Do o kk) got k s = Some (Do o kk, got, s)) \/
    (* one operation *)
    (got = [] /\ byte_step (Do o kk) got k s = Some (kk (fst (step o s)), [], snd (step o s))) \/
    (* a byte *)
    (exists c b, mem s j = Some b /\ shape b /\ byte_at k got = None /\ Sh k c /\ k < n /\ places_in n ((k, c) :: got) /\ List.length got < n /\
       (forall i d, byte_at i ((k, c) :: got) = Some d -> Sh i d) /\
       exists s', ((match o with ORead _ => True | _ => False end /\ String.get k b = Some c /\ s' = s) \/
                   (match o with OWrite i w => i = j /\ shape w /\ String.get k w = Some c | _ => False end /\
                    s' = {| names := names s; mem := upd_mem (mem s) j (set_byte k c b); next := next s |})) /\
       if Nat.eqb (S (List.length got)) n
       then byte_step (Do o kk) got k s =
         Some (kk (match o in op B return res B with ORead _ => Ok (assemble n 0 ((k, c) :: got)) | OWrite _ _ => Ok tt | _ => Exc ValueError end), [], s')
       else byte_step (Do o kk) got k s = Some (Do o kk, (k, c) :: got, s')).
  Proof.
    intros G [F Hk] Hg. pose proof G as (W & N & b & M & Sb). destruct (shape_cons b Sb) as (c0 & r0 & Eb).
    destruct o as [x|i z|x|i|x|i|i w]; cbn [fit copying_ok] in F, Hg; try easy.
    - right. left. split; [exact Hg|]. cbn [byte_step copy]. now destruct (step (OCreate x) s).
    - right. left. split; [exact Hg|]. cbn [byte_step copy]. now destruct (step (OOpen x) s).
    - right. left. split; [exact Hg|]. cbn [byte_step copy]. now destruct (step (OAttach i) s).
    - subst i. pose proof (copy_read j got k s b M ltac:(congruence)) as CR. rewrite (proj1 Sb) in CR. destruct (String.get k b) as [c|] eqn:Eg.
      2:{ left. cbn [byte_step]. now rewrite CR. }
      destruct (byte_at k got) as [d|] eqn:Ek.
      { left. cbn [byte_step]. now rewrite CR. }
      right. right. exists c, b. destruct Hg as (G1 & G2 & G3). pose proof (get_lt _ _ _ Eg) as Hlt. rewrite (proj1 Sb) in Hlt. pose proof (proj2 Sb _ _ Eg) as Hs.
      split; [exact M|]. split; [exact Sb|]. split; [reflexivity|]. split; [exact Hs|]. split; [exact Hlt|]. split; [now apply places_in_more|]. split; [exact G2|]. split.
      { intros i d. cbn. destruct (Nat.eqb_spec k i) as [->|_]; [intros [= <-]; exact Hs|apply G3]. }
      exists s. split; [left; auto|]. cbn [byte_step]. rewrite CR. cbn [List.length].
      now destruct (Nat.eqb (S (List.length got)) n).
    - destruct F as [-> F]. pose proof (copy_write j w got k s b M ltac:(congruence)) as CW. rewrite (proj1 Sb) in CW. destruct (Nat.eqb_spec (String.length w) n) as [L|L].
      2:{ right. left. split; [exact Hg|]. cbn [byte_step]. rewrite CW. now destruct (step (OWrite j w) s). }
      pose proof (F L) as Sw.
      destruct (String.get k w) as [c|] eqn:Eg.
      2:{ left. cbn [byte_step]. now rewrite CW. }
      destruct (byte_at k got) as [d|] eqn:Ek.
      { left. cbn [byte_step]. now rewrite CW. }
      right. right. exists c, b. destruct Hg as (G1 & G2 & G3). pose proof (get_lt _ _ _ Eg) as Hlt. rewrite L in Hlt. pose proof (proj2 Sw _ _ Eg) as Hs.
      split; [exact M|]. split; [exact Sb|]. split; [reflexivity|]. split; [exact Hs|]. split; [exact Hlt|]. split; [now apply places_in_more|]. split; [exact G2|]. split.
      { intros i d. cbn. destruct (Nat.eqb_spec k i) as [->|_]; [intros [= <-]; exact Hs|apply G3]. }
      eexists. split; [right; split; [auto|reflexivity]|]. cbn [byte_step]. rewrite CW.
      cbn [List.length]. now destruct (Nat.eqb (S (List.length got)) n).
  Qed.

  Lemma full_shape got : places_in n got -> List.length got = n -> (forall i d, byte_at i got = Some d -> Sh i d) -> shape (assemble n 0 got).
  Proof.
    intros H1 H2 H3. split; [apply assemble_length|]. intros k c H. pose proof (get_lt _ _ _ H) as L. rewrite assemble_length in L. rewrite assemble_get in H by exact L.
    cbn [plus] in H. destruct (places_in_full n got k H1 H2 L) as [d Hd]. rewrite Hd in H. injection H as <-. now apply H3.
  Qed.

  Lemma user_turn u got k s u2 got2 s2 : good s -> user_ok u got -> byte_user enc dec isnone u got k s = (u2, got2, s2) -> good s2 /\ user_ok u2 got2.
  Proof.
    intros G (U1 & U2 & U3 & U4 & U5) H. unfold byte_user in H. unfold user_ok.
    destruct (u_now u) as [p|] eqn:En.
    2:{ unfold user_step in H. rewrite En in H. destruct (u_todo u) as [|o r] eqn:Et.
        - injection H as <- <- <-. split; [exact G|]. rewrite En, Et. cbn [now_ok]. auto.
        - injection H as <- <- <-. split; [exact G|]. cbn. inversion_clear U3. repeat (split; auto); [now apply call_safe|].
          pose proof (now_none _ (call_safe (u_obj u) o U1 U2 H)) as [_ Q]. exact Q. }
    cbn [now_ok] in U5. destruct U5 as [Sp Cg]. destruct p as [[x kk]|e| |B o kk].
    - cbn in Sp. destruct Sp as (S1 & S2 & S3). unfold user_step in H. rewrite En in H. injection H as <- <- <-. split; [exact G|]. cbn [u_obj u_now u_todo u_results now_ok].
      split; [exact S2|]. split; [exact S3|]. split; [exact U3|]. split; [|reflexivity]. apply Forall_app. split; [exact U4|]. constructor; [exact S1|constructor].
    - unfold user_step in H. rewrite En in H. cbn in H. injection H as <- <- <-. split; [exact G|]. rewrite En. exact (conj U1 (conj U2 (conj U3 (conj U4 (conj Logic.I eq_refl))))).
    - unfold user_step in H. rewrite En in H. cbn in H. injection H as <- <- <-. split; [exact G|]. rewrite En. exact (conj U1 (conj U2 (conj U3 (conj U4 (conj Logic.I eq_refl))))).
    - destruct (byte_cases o kk got k s G Sp Cg) as [E|[[-> E]|(c & b & M & Sb & Ek & Hs & Hlt & Hp & Hl & Hb & s' & Hs' & E)]].
      + rewrite E in H. injection H as <- <- <-. split; [exact G|]. cbn [u_obj u_now u_todo u_results now_ok]. exact (conj U1 (conj U2 (conj U3 (conj U4 (conj Sp Cg))))).
      + rewrite E in H. injection H as <- <- <-. destruct Sp as [F Sk]. destruct (step_fit o s G F) as [A G']. split; [exact G'|].
        cbn [u_obj u_now u_todo u_results]. split; [exact U1|]. split; [exact U2|]. split; [exact U3|]. split; [exact U4|]. apply now_none. now apply Sk.
      + assert (G' : good s').
        { destruct Hs' as [(_ & _ & ->)|(Ho & ->)]; [exact G|]. eapply put_good; eauto. now apply shape_set. }
        destruct (Nat.eqb_spec (S (List.length got)) n) as [L|L]; rewrite E in H; injection H as <- <- <-; (split; [exact G'|]);
          cbn [u_obj u_now u_todo u_results]; (split; [exact U1|]); (split; [exact U2|]); (split; [exact U3|]); (split; [exact U4|]).
        * apply now_none. destruct Sp as [F Sk]. apply Sk. destruct o; destruct Hs' as [(Ho & _)|(Ho & _)]; try easy; cbn [answer].
          -- eexists. split; [reflexivity|]. apply full_shape; auto.
          -- destruct Ho as (_ & Sw & _). now rewrite (proj2 (Nat.eqb_eq _ _) (proj1 Sw)).
        * split; [exact Sp|]. assert (Q : under_way ((k, c) :: got)). { split; [exact Hp|]. split; [cbn [List.length]; lia|exact Hb]. }
          destruct o; destruct Hs' as [(Ho & _)|(Ho & _)]; try easy; cbn [copying_ok]. destruct Ho as (_ & Sw & _). now rewrite (proj2 (Nat.eqb_eq _ _) (proj1 Sw)).
  Qed.

  Definition all_ok (c : bconf V) : Prop := good (snd c) /\ forall i, user_ok (fst (fst c i)) (snd (fst c i)).
  Lemma good_env s s' : good s -> wf s' -> same_at s s' a -> good s'.
  Proof. intros (W & N & b & M & Sb) W' [E1 E2]. split; [exact W'|]. split; [now rewrite E1|]. exists b. split; [|exact Sb]. now rewrite (E2 j N). Qed.
  Lemma all_ok_moves c c' : all_ok c -> byte_moves enc dec isnone a c c' -> all_ok c'.
  Proof.
    intros [G U] H. destruct H as [i k c|us s s' W E].
    - unfold buturn. destruct (byte_user enc dec isnone (fst (fst c i)) (snd (fst c i)) k (snd c)) as [[u g] s'] eqn:E.
      destruct (user_turn _ _ _ _ _ _ _ G (U i) E) as [G' U']. split; [exact G'|]. intro i'. cbn [fst snd]. destruct (Nat.eqb i' i); [exact U'|apply U].
    - split; [eapply good_env; eauto|exact U].
  Qed.
  Lemma all_ok_happens t N : all_ok (t 0) -> byte_happens enc dec isnone a t N -> forall m, m <= N -> all_ok (t m).
  Proof. intros H0 HH m. induction m as [|m IH]; intro L; [exact H0|]. eapply all_ok_moves; [apply IH; lia|apply HH; lia]. Qed.
End Torn.

(** ** One byte *)
Section One.
  Context {V : Type} (enc : V -> res bytes) (dec : bytes -> res V) (isnone : V -> bool).
  Variables (a : string) (j : N) (p : nat) (base : bytes) (P : V -> Prop).
  Hypothesis (Hp : p < String.length base).
  Notation n := (String.length base).
  Definition but_one (k : nat) (c : ascii) : Prop := k = p \/ String.get k base = Some c.
  Notation shape := (shape n but_one).
  Notation user_ok := (user_ok enc dec isnone a j n but_one P).
  Notation good := (good a j n but_one).
  Hypothesis (HP : forall b w, shape b -> dec b = Ok w -> isnone w = false -> P w).

  Lemma shape_get b k : shape b -> k <> p -> String.get k b = String.get k base.
  Proof.
    intros [L H] Hk. destruct (String.get k b) as [c|] eqn:E.
    - destruct (H _ _ E) as [->|Hc]; [easy|now symmetry].
    - destruct (String.get k base) as [d|] eqn:E'; [|reflexivity]. apply get_lt in E'. rewrite <- L in E'. destruct (get_some _ _ E') as [c Ec]. congruence.
  Qed.
  Lemma shape_eq b w c : shape b -> shape w -> String.get p w = Some c -> set_byte p c b = w.
  Proof.
    intros Sb Sw E. apply str_ext. intro k. rewrite set_byte_get. destruct (Nat.eqb_spec k p) as [->|Hk]; cbn [andb].
    - rewrite (proj1 Sb), (proj2 (Nat.ltb_lt _ _) Hp). now symmetry.
    - now rewrite (shape_get b k Sb Hk), (shape_get w k Sw Hk).
  Qed.
  Lemma base_shape : shape base.
  Proof. split; [reflexivity|]. intros k c H. now right. Qed.
  Lemma shape_same b k c : shape b -> but_one k c -> k <> p -> set_byte k c b = b.
  Proof.
    intros Sb [->|H] Hk; [easy|]. apply str_ext. intro i. rewrite set_byte_get. destruct (Nat.eqb_spec i k) as [->|_]; cbn [andb]; [|reflexivity].
    destruct (Nat.ltb k (String.length b)); [|reflexivity]. now rewrite (shape_get b k Sb Hk).
  Qed.

  Definition after {B} (o : op B) (c : ascii) : res B :=
    match o in op B return res B with ORead _ => Ok (set_byte p c base) | OWrite _ _ => Ok tt | _ => Exc ValueError end.
  Definition sim (u : user V) (got : copied) (u' : user V) : Prop :=
    u_obj u' = u_obj u /\ u_todo u' = u_todo u /\ u_results u' = u_results u /\
    u_now u' = match u_now u with
               | Some (Do o kk) => match byte_at p got with None => Some (Do o kk) | Some c => Some (kk (after o c)) end
               | x => x
               end.
  Lemma sim_refl u : sim u [] u.
  Proof. repeat split. now destruct (u_now u) as [[]|]. Qed.
  Lemma sim_eq u got u' : sim u got u' -> byte_at p got = None -> u' = u.
  Proof.
    intros (H1 & H2 & H3 & H4) E. rewrite E in H4. destruct u, u'. cbn in *. subst. f_equal. now destruct u_now as [[]|].
  Qed.
  Lemma full_eq got c : places_in n got -> List.length got = n -> (forall i d, byte_at i got = Some d -> but_one i d) -> byte_at p got = Some c ->
    assemble n 0 got = set_byte p c base.
  Proof.
    intros H1 H2 H3 E. symmetry. apply shape_eq; [exact base_shape| |].
    - split; [apply assemble_length|]. intros k d H. pose proof (get_lt _ _ _ H) as L. rewrite assemble_length in L. rewrite assemble_get in H by exact L.
      cbn [plus] in H. destruct (places_in_full n got k H1 H2 L) as [d' Hd]. rewrite Hd in H. injection H as <-. now apply H3.
    - rewrite assemble_get by exact Hp. cbn [plus]. now rewrite E.
  Qed.

  Lemma sim_turn u got u' k s u2 got2 s2 : good s -> user_ok u got -> sim u got u' -> byte_user enc dec isnone u got k s = (u2, got2, s2) ->
    (sim u2 got2 u' /\ wf s2 /\ same_at s s2 a) \/ (exists u2', user_step enc dec isnone u' s = (u2', s2) /\ sim u2 got2 u2').
  Proof.
    intros G (_ & _ & _ & _ & U5) HS H. pose proof G as (W & N & _). unfold byte_user in H.
    assert (Same : (u_now u = None \/ exists q, u_now u = Some q /\ match q with Do _ _ => False | _ => True end) ->
      (let '(v, s') := user_step enc dec isnone u s in (v, [], s')) = (u2, got2, s2) ->
      exists u2', user_step enc dec isnone u' s = (u2', s2) /\ sim u2 got2 u2').
    { intros Hq E. assert (Eu : u' = u).
      { destruct HS as (H1 & H2 & H3 & H4). destruct u, u'. cbn in *. subst. f_equal. destruct Hq as [->|([] & -> & Hq)]; easy. }
      rewrite Eu. destruct (user_step enc dec isnone u s) as [v s']. injection E as <- <- <-. exists v. split; [reflexivity|apply sim_refl]. }
    destruct (u_now u) as [q|] eqn:En; [|right; apply Same; auto].
    destruct q as [x|e| |B o kk]; try (right; apply Same; [right; eexists; split; [reflexivity|exact Logic.I]|exact H]). clear Same.
    cbn [now_ok] in U5. destruct U5 as [Sp Cg].
    destruct (byte_cases dec isnone a j n but_one P ltac:(lia) HP o kk got k s G Sp Cg) as [E|[[-> E]|(c & b & M & Sb & Ek & Hs & Hlt & Hpl & Hl & Hb & s' & Hs' & E)]].
    - rewrite E in H. injection H as <- <- <-. left. split; [|split; [exact W|apply same_refl]]. unfold sim in *. cbn [u_obj u_now u_todo u_results]. now rewrite En in HS.
    - rewrite E in H. injection H as <- <- <-. right. rewrite (sim_eq _ _ _ HS eq_refl). unfold user_step. rewrite En. cbn [prog_step].
      destruct (step o s) as [r s']. cbn [fst snd]. eexists. split; [reflexivity|apply sim_refl].
    - assert (G' : good s').
      { destruct Hs' as [(_ & _ & ->)|(Ho & ->)]; [exact G|]. eapply put_good; eauto. now apply shape_set. }
      (* the same after the byte, before it matters whether it was the last *)
      assert (Mid : forall u2 got2, u_obj u2 = u_obj u -> u_todo u2 = u_todo u -> u_results u2 = u_results u ->
        (forall u', sim u ((k, c) :: got) u' -> sim u2 got2 u') ->
        (sim u2 got2 u' /\ wf s' /\ same_at s s' a) \/ (exists u2', user_step enc dec isnone u' s = (u2', s') /\ sim u2 got2 u2')).
      { intros v gv _ _ _ Hv. destruct (Nat.eq_dec k p) as [->|Hk].
        - right. rewrite (sim_eq _ _ _ HS Ek). unfold user_step. rewrite En. cbn [prog_step].
          assert (Es : step o s = (after o c, s')).
          { destruct o as [y|i z|y|i|y|i|i w]; destruct Hs' as [(Ho & Ec & ->)|(Ho & ->)]; try easy; destruct Sp as [F _]; cbn [fit] in F.
            - subst i. cbn [step after]. rewrite M. f_equal. f_equal. symmetry. apply shape_eq; [exact base_shape|exact Sb|exact Ec].
            - destruct Ho as (-> & Sw & Ec). cbn [step after]. rewrite M, (proj1 Sb), (proj1 Sw), Nat.eqb_refl. now rewrite (shape_eq b w c Sb Sw Ec). }
          rewrite Es. eexists. split; [reflexivity|]. apply Hv. unfold sim. cbn [u_obj u_now u_todo u_results byte_at]. rewrite En, Nat.eqb_refl. auto.
        - left. split; [apply Hv|].
          + unfold sim in *. cbn [byte_at]. now rewrite (proj2 (Nat.eqb_neq _ _) Hk).
          + split; [apply G'|]. destruct Hs' as [(_ & _ & ->)|(Ho & ->)]; [apply same_refl|].
            split; [reflexivity|]. intros i _. cbn [mem]. unfold upd_mem. destruct (N.eqb_spec i j) as [->|_]; [|reflexivity]. rewrite (shape_same b k c Sb Hs Hk). now symmetry. }
      destruct (Nat.eqb_spec (S (List.length got)) n) as [L|L]; rewrite E in H; injection H as <- <- <-.
      + apply Mid; try reflexivity. intros v (V1 & V2 & V3 & V4). unfold sim. cbn [u_obj u_now u_todo u_results]. split; [exact V1|]. split; [exact V2|]. split; [exact V3|].
        rewrite En in V4. destruct (places_in_full n _ p Hpl L Hp) as [d Hd]. rewrite Hd in V4. rewrite V4.
        assert (Ea : after o d = match o in op B return res B with ORead _ => Ok (assemble n 0 ((k, c) :: got)) | OWrite _ _ => Ok tt | _ => Exc ValueError end).
        { destruct o; try reflexivity. cbn [after]. f_equal. symmetry. now apply full_eq. }
        rewrite <- Ea. now destruct (kk (after o d)).
      + apply Mid; try reflexivity. intros v (V1 & V2 & V3 & V4). rewrite En in V4. unfold sim. cbn [u_obj u_now u_todo u_results]. auto.
  Qed.

  Definition sims (c : bconf V) (c' : uconfig V) : Prop := snd c = snd c' /\ forall i, sim (fst (fst c i)) (snd (fst c i)) (fst c' i).
  Lemma sims_moves c c' d : all_ok enc dec isnone a j n but_one P c -> sims c c' -> byte_moves enc dec isnone a c d ->
    exists w d', moves enc dec isnone a w c' d' /\ sims d d'.
  Proof.
    intros [G U] [E HS] H. destruct c' as [us' s0]. cbn [snd fst] in *. subst s0. destruct H as [i k c|us s s' W Hs].
    - unfold buturn. destruct (byte_user enc dec isnone (fst (fst c i)) (snd (fst c i)) k (snd c)) as [[u g] s'] eqn:Eb.
      destruct (sim_turn _ _ _ _ _ _ _ _ G (U i) (HS i) Eb) as [(S' & W' & A')|(u2 & Eu & S')].
      + exists None, (us', s'). split; [now constructor|]. split; [reflexivity|]. intro i'. cbn [fst snd]. destruct (Nat.eqb_spec i' i) as [->|_]; [exact S'|apply HS].
      + exists (Some i), (set_user us' i u2, s'). split.
        * replace (set_user us' i u2, s') with (uturn enc dec isnone i (us', snd c)) by (unfold uturn; cbn [fst snd]; now rewrite Eu). constructor.
        * split; [reflexivity|]. intro i'. cbn [fst snd]. unfold set_user. destruct (Nat.eqb_spec i' i) as [->|_]; [exact S'|apply HS].
    - exists None, (us', s'). split; [now constructor|]. split; [reflexivity|exact HS].
  Qed.
  Lemma sims_happens t c0 N : all_ok enc dec isnone a j n but_one P (t 0) -> sims (t 0) c0 -> byte_happens enc dec isnone a t N ->
    exists who t', t' 0 = c0 /\ happens enc dec isnone a who t' N /\ forall m, m <= N -> sims (t m) (t' m).
  Proof.
    intros A0 S0. induction N as [|N IH]; intro HH.
    - exists (fun _ => None), (fun _ => c0). split; [reflexivity|]. split; [intros m Hm; lia|]. intros m Hm. now replace m with 0 by lia.
    - destruct IH as (who & t' & E0 & HH' & HS); [intros m Hm; apply HH; lia|].
      destruct (sims_moves (t N) (t' N) (t (S N))) as (w & d' & Hm & Sd); [|apply HS; lia|apply HH; lia|].
      { eapply all_ok_happens; eauto; lia. }
      exists (fun m => if Nat.eqb m N then w else who m), (fun m => if Nat.eqb m (S N) then d' else t' m). split; [exact E0|]. split.
      + intros m Hlt. cbv beta. destruct (Nat.eqb_spec m N) as [->|Hne].
        * rewrite Nat.eqb_refl. rewrite (proj2 (Nat.eqb_neq N (S N))) by lia. exact Hm.
        * rewrite (proj2 (Nat.eqb_neq m (S N))), (proj2 (Nat.eqb_neq (S m) (S N))) by lia. apply HH'. lia.
      + intros m Hle. destruct (Nat.eqb_spec m (S N)) as [->|Hne]; [exact Sd|apply HS; lia].
  Qed.
End One.

Section Ends.
  Context {V : Type} (enc : V -> res bytes) (dec : bytes -> res V) (isnone : V -> bool).
  Variables (a : string) (v0 : V) (cache : nat -> option V) (todo : nat -> list (uop V)) (t : nat -> bconf V) (N : nat) (s : store).
  Hypotheses (W : wf s) (Hv : stable enc dec v0) (Nv : isnone v0 = false) (OB : on_board enc a v0 s)
    (HO : forall i, ordinary_calls enc dec isnone (todo i))
    (T0 : t 0 = byte_beginning a cache todo s) (HH : byte_happens enc dec isnone a t N).

  Lemma board_at : exists j b, enc v0 = Ok b /\ b <> "" /\ names s a = Some j /\ mem s j = Some b.
  Proof.
    destruct Hv as (b & Eb & Hb & _), OB as (b' & Eb' & C). rewrite Eb in Eb'. injection Eb' as <-. unfold content in C. destruct (names s a) as [j|] eqn:En; [|discriminate]. exists j, b. auto.
  Qed.
  Lemma start_ok j b Sh (P : V -> Prop) : names s a = Some j -> mem s j = Some b -> b <> "" -> shape (String.length b) Sh b ->
    (forall i w, cache i = Some w -> P w) -> (forall i w, In (UStick w) (todo i) -> P w) ->
    (forall i w c, In (UStick w) (todo i) -> enc w = Ok c -> String.length c = String.length b -> shape (String.length b) Sh c) ->
    all_ok enc dec isnone a j (String.length b) Sh P (t 0).
  Proof.
    intros En Em Hb Sb Pc Pt Ps. rewrite T0. split; [split; [exact W|]; split; [exact En|]; exists b; auto|]. intro i. unfold user_ok. cbn [byte_beginning fst snd u_obj u_now u_todo u_results st_address st_cached now_ok]. split; [reflexivity|]. split; [intros w Hw; eauto|].
    split; [|split; [constructor|reflexivity]]. pose proof (HO i) as Hi. unfold ordinary_calls in Hi. rewrite Forall_forall in *. intros o Ho. specialize (Hi o Ho).
    destruct o as [w|r|]; cbn; auto. destruct Hi as [(c & Ec & Hc & _) Nw]. split; [exact Nw|]. split; [eauto|]. exists c. repeat split; auto; eapply Ps; eauto.
  Qed.

  Lemma mixing m : m <= N ->
    (exists b, content (snd (t m)) a = Some b /\ String.length b = width enc v0 /\ mixture enc (written v0 todo) b) /\
    forall i x, In x (u_results (fst (view (t m)) i)) -> mixed_answer enc dec isnone (width enc v0) (written v0 todo) cache x.
  Proof.
    intro L. destruct board_at as (j & b & Eb & Hb & En & Em).
    set (Sh := fun k c => exists w e, written v0 todo w /\ enc w = Ok e /\ String.length e = String.length b /\ String.get k e = Some c).
    set (P := fun w => written v0 todo w \/ (exists i, cache i = Some w) \/ exists e, shape (String.length b) Sh e /\ dec e = Ok w).
    assert (Mx : forall e, shape (String.length b) Sh e -> mixture enc (written v0 todo) e).
    { intros e [Le He] k c Hk. destruct (He k c Hk) as (w & d & H1 & H2 & H3 & H4). exists w, d. rewrite Le. auto. }
    assert (Hn : String.length b <> 0) by (destruct b; [easy|discriminate]).
    assert (Ew : width enc v0 = String.length b) by (unfold width; now rewrite Eb). rewrite Ew.
    assert (A0 : all_ok enc dec isnone a j (String.length b) Sh P (t 0)).
    { apply (start_ok j b Sh P); auto.
      - split; [reflexivity|]. intros k c Hk. exists v0, b. repeat split; auto. now left.
      - intros i w H. right. left. now exists i.
      - intros i w H. left. right. now exists i.
      - intros i w c Hi Ec Lc. split; [exact Lc|]. intros k d Hk. exists w, c. repeat split; auto. right. now exists i. }
    destruct (all_ok_happens enc dec isnone a j (String.length b) Sh P Hn (fun e w H1 H2 _ => or_intror (or_intror (ex_intro _ e (conj H1 H2)))) t N A0 HH m L) as [(_ & N1 & d & M1 & Sd) U].
    split.
    - exists d. unfold content. rewrite N1. split; [exact M1|]. split; [apply Sd|now apply Mx].
    - intros i x Hx. destruct (U i) as (_ & _ & _ & U4 & _). rewrite Forall_forall in U4. specialize (U4 x Hx). destruct x as [r|[w|]]; cbn in *; auto.
      + destruct U4 as [H|[H|(e & Se & De)]]; [now left|right; now left|]. right. right. exists e. split; [apply Se|]. auto.
      + destruct U4 as (e & w & Se & De & Hw). exists e, w. split; [apply Se|]. auto.
  Qed.

  Lemma one_byte_register p : one_byte enc p v0 (written v0 todo) ->
    exists ord, ord 0 = [] /\ (forall m, m < N -> exists more, ord (S m) = ord m ++ more) /\
      forall m, m <= N -> explains enc a v0 cache todo (ord m) (view (t m)).
  Proof.
    intros (b & Eb & Hp & HB). destruct board_at as (j & b' & Eb' & Hb & En & Em). rewrite Eb in Eb'. injection Eb' as <-.
    set (P := fun w : V => True).
    assert (A0 : all_ok enc dec isnone a j (String.length b) (but_one p b) P (t 0)).
    { apply (start_ok j b (but_one p b) P); auto; try (intros; exact Logic.I).
      - split; [reflexivity|]. intros k c Hk. now right.
      - intros i w c Hi Ec Lc. split; [exact Lc|]. intros k d Hk. destruct (Nat.eq_dec k p) as [->|Hne]; [now left|right].
        rewrite <- Hk. symmetry. apply (HB w c); auto. right. now exists i. }
    destruct (sims_happens enc dec isnone a j p b P Hp (fun _ _ _ _ _ => Logic.I) t (beginning a cache todo s) N A0) as (who & t' & E0 & HH' & HS).
    { rewrite T0. split; [reflexivity|]. intro i. apply sim_refl. }
    { exact HH. }
    destruct (register enc dec isnone a v0 cache todo who t' N s W Hv Nv OB HO E0 HH') as (ord & O1 & O2 & O3). exists ord. split; [exact O1|]. split; [exact O2|].
    intros m Hm. specialize (O3 m Hm). destruct (HS m Hm) as [Es Hs]. unfold explains in *. destruct (board_run enc (mkBoard (Some v0) cache) (calls todo (ord m))) as [outs bd].
    destruct O3 as (Q1 & Q2 & Q3). split; [exact Q1|]. split; [cbn [view snd]; now rewrite Es|]. intro i. specialize (Q3 i). cbv zeta in *. cbn [view fst].
    destruct (Hs i) as (_ & _ & R1 & R2). rewrite R1, R2 in Q3. destruct Q3 as [Q3|[Q3 Q4]]; [now left|right]. split; [|exact Q4].
    destruct (u_now (fst (fst (t m) i))); [discriminate|exact Q3].
  Qed.
End Ends.
