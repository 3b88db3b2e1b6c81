(** The properties of dynamic.py, before they get their names. *)
From Coq Require Import Lia.
From Verif Require Export Dyn_Proofs.

Section Lemmas.
  Context {G KW V W : Type}.
  Context (none : V) (globals : G) (compiler : string -> res pcode) (trace : exn -> string * list frame).
  Context (run : @pyfun G -> list V -> KW -> eff W V).
  Notation dyn := (@dyn G).
  Notation error := (@error G).
  Notation op := (@op G KW V).
  Notation do_op := (do_op none globals compiler trace run).
  Notation do_ops := (do_ops none globals compiler trace run).
  Notation load := (load (W := W) globals compiler trace).
  Notation compile_source_method := (compile_source_method (G := G) (W := W) compiler trace).
  Notation define_method := (define_method (W := W) globals).
  Notation call := (call none globals compiler trace run).
  Notation built := (built (W := W) globals compiler trace).
  Implicit Types (d : dyn) (w : W) (s : dyn * W) (f : flag).

  (** ** C54 *)

  Lemma history_lemma s l : built s ->
    loaded (fst (snd (do_ops l s))) = defined none globals compiler trace run l s (loaded (fst s)).
  Proof. intro H. apply loaded_ops; [|reflexivity]. now apply (built_inv globals compiler trace). Qed.

  Lemma twice_lemma d w f :
    (loaded d = true -> load FFalse (d, w) = (Exc AlreadyLoadedError, (d, w))) /\
    (loaded d = true -> f <> FTrue -> define_method f (d, w) = (Exc AlreadyLoadedError, (d, w))) /\
    (compiled d = true -> compile_source_method FFalse (d, w) = (Exc AlreadyLoadedError, (d, w))) /\
    (compiled d = true -> load FFalse (d, w) = (Exc AlreadyLoadedError, (d, w))).
  Proof.
    split; [intro L; rewrite load_run, L; reflexivity|]. split.
    { intros L N. rewrite define_run, L. destruct f; try reflexivity. now destruct N. }
    split; [intro C; rewrite compile_run, C; reflexivity|].
    intro C. rewrite load_run, C, orb_true_r. reflexivity.
  Qed.

  Lemma load_lemma f d w u d' w' : load f (d, w) = (Ok u, (d', w')) ->
    w' = w /\ same_settings d d' /\ (loaded d = true -> f = FTrue) /\
    exists c, rd (code d') = Some c /\ rd (func d') = Some (Made c (globals_of globals d)) /\
      dname d' = c_name c /\ dsig d' = SigOf (Made c (globals_of globals d)) /\
      (compile_source compiler (source d) = Ok c \/
       (exists e, compile_source compiler (source d) = Exc e /\ is_Exception e = true) /\ rd (code d) = Some c).
  Proof.
    intro H. destruct (load_ok _ _ _ _ _ _ _ _ _ H) as (A & B & _ & C & c & D1 & _ & D2 & D3 & D4 & D5). eauto 10.
  Qed.

  Lemma load_works f d w c : loaded d = false -> compiled d = false -> compile_source compiler (source d) = Ok c ->
    c_closure c = false -> exists d', load f (d, w) = (Ok tt, (d', w)) /\ rd (func d') = Some (Made c (globals_of globals d)).
  Proof.
    intros L K C Cl. rewrite load_run, L, K. unfold base_fault. rewrite C. cbn [orb].
    assert (E : define_method f (after_compile compiler trace d, w) =
      (Ok tt, (let g := Made c (globals_of globals d) in set_func (set_code d (Here (Some c))) (Here (Some g)) (c_name c) (SigOf g), w))).
    { rewrite define_run. unfold loaded. rewrite after_func. fold (loaded d). rewrite L. unfold after_compile. rewrite C. cbn [code set_code rd].
      rewrite Cl. destruct f; reflexivity. }
    destruct f; rewrite E; eexists; split; reflexivity.
  Qed.

  Lemma load_fails f d w e d' w' : load f (d, w) = (Exc e, (d', w')) ->
    w' = w /\ same_settings d d' /\ func d' = func d /\ dname d' = dname d /\ dsig d' = dsig d.
  Proof. intro H. destruct (load_exc _ _ _ _ _ _ _ _ _ H) as (A & B & C & D & E & _). auto. Qed.

  Lemma call_lemma o args kw d w : loaded d = false ->
    call o args kw (d, w) =
      match load_on_call d with
      | FTrue => match load FFalse (d, w) with (Ok _, s') => call o args kw s' | (Exc e, s') => (Exc e, s') end
      | _ => (Exc UnreadyError, (d, w))
      end.
  Proof. exact (call_unloaded none globals compiler trace run o args kw d w). Qed.

  Lemma name_lemma s l : built s -> let d := fst (snd (do_ops l s)) in
    match rd (func d) with
    | Some f => dsig d = SigOf f /\ dname d = fun_name f
    | None => dsig d = SigEmpty \/ dsig d = SigNone
    end.
  Proof.
    intro H. apply (built_inv globals compiler trace) in H. apply (inv_ops none globals compiler trace run l) in H. apply H.
  Qed.

  Definition here {A} (a : attr A) : bool := match a with Here _ => true | Unset => false end.
  Lemma here_op o d w : inv d ->
    let (y, s') := do_op o (d, w) in
    here (func (fst s')) = here (func d) || defines globals compiler trace o (d, w) y.
  Proof.
    intro H. destruct o; cbn [Dyn_Model.do_op clears defines].
    - unfold ebind. destruct (load reload (d, w)) as [[u|e] [d' w']] eqn:E.
      + destruct (load_ok _ _ _ _ _ _ _ _ _ E) as (_ & _ & _ & _ & c & _ & _ & F & _). unfold eret. cbn [fst ok].
        rewrite orb_true_r. now destruct (func d').
      + destruct (load_exc _ _ _ _ _ _ _ _ _ E) as (_ & _ & F & _). cbn [fst ok]. rewrite F. now rewrite orb_false_r.
    - unfold ebind. rewrite compile_run.
      destruct recompile, (compiled d); try (cbn; now rewrite orb_false_r);
        (destruct (compile_source compiler (source d)) as [c|e]; [cbn; now rewrite orb_false_r|]; destruct (is_Exception e); cbn; now rewrite orb_false_r).
    - unfold ebind. rewrite define_run. destruct (loaded d) eqn:L, redefine; try (cbn; now rewrite orb_false_r);
      (destruct (rd (code d)) as [c|]; [|cbn; now rewrite orb_false_r]; destruct (c_closure c); [cbn; now rewrite orb_false_r|cbn; now rewrite orb_true_r]).
    - unfold ebind. rewrite unload_run. destruct (code d) eqn:C; [cbn; now rewrite orb_false_r|].
      destruct (func d) eqn:F; cbn; [now rewrite F|reflexivity].
    - destruct (call_cases none globals compiler trace run opt args kw d w H) as [(L & -> & LC)|[(L & LC & e & s' & E & ->)|(d' & g & F & I & -> & J)]].
      + cbn [fst]. rewrite L. destruct (load_on_call d); try (now destruct LC); cbn; now rewrite orb_false_r.
      + cbn [fst]. rewrite L, LC, E. cbn [fst ok negb andb]. destruct s' as [d' w'].
        destruct (load_exc _ _ _ _ _ _ _ _ _ E) as (_ & _ & F & _). cbn [fst]. now rewrite F, orb_false_r.
      + rewrite (call_loaded none globals compiler trace run opt args kw d' w g F (proj1 I)).
        assert (X : here (func d) || (negb (loaded d) && match load_on_call d with FTrue => true | _ => false end && ok (fst (load FFalse (d, w)))) = true).
        { destruct J as [(L & ->)|(-> & -> & u & ->)]; [|apply orb_true_r]. unfold loaded in L. destruct (func d); [discriminate|reflexivity]. }
        assert (Y : here (func d') = true) by (destruct (func d'); [discriminate|reflexivity]).
        cbn [fst]. rewrite X. destruct (run g args kw w) as [[v|e] w']; [exact Y|].
        destruct (is_optional d' opt && is_Exception e); exact Y.
    - cbn. now rewrite orb_false_r.
    - cbn. now rewrite orb_false_r.
    - cbn. now rewrite orb_false_r.
    - cbn. now rewrite orb_false_r.
  Qed.
  Lemma here_ops l : forall s b, inv (fst s) -> here (func (fst s)) = b ->
    here (func (fst (snd (do_ops l s)))) = ever_defined none globals compiler trace run l s b.
  Proof.
    induction l as [|o l IH]; intros [d w] b H Hb; [exact Hb|]. cbn [Dyn_Model.do_ops ever_defined].
    pose proof (here_op o d w H) as L. pose proof (inv_op none globals compiler trace run o d w H) as I.
    destruct (do_op o (d, w)) as [y s']. cbn [fst snd] in *. rewrite Hb in L. specialize (IH s' _ I L).
    now destruct (do_ops l s') as [ys s''].
  Qed.
  Lemma init_here c fn name sig src g opt lzy loc w d w' : (fn = Unset \/ exists h, fn = Here (Some h)) ->
    init globals compiler trace c fn name sig src g opt lzy loc w = (Ok d, w') -> here (func d) = loaded d.
  Proof.
    intros Hf. unfold init. set (d0 := {| source := src |}).
    assert (B : here (func d0) = loaded d0) by (destruct Hf as [->|[h ->]]; reflexivity).
    destruct lzy; intro H; try (injection H as <- <-; exact B).
    destruct (load FFalse (d0, w)) as [[u|e] [d1 w1]] eqn:E.
    - injection H as <- <-. destruct (load_ok _ _ _ _ _ _ _ _ _ E) as (_ & _ & _ & _ & k & _ & _ & F & _).
      unfold loaded. rewrite F. now destruct (func d1).
    - destruct (load_exc _ _ _ _ _ _ _ _ _ E) as (_ & _ & F & _). destruct e; try discriminate. injection H as <- <-.
      unfold loaded. rewrite F. exact B.
  Qed.
  Lemma built_here s : built s -> here (func (fst s)) = loaded (fst s).
  Proof.
    destruct 1 as [src g opt lzy loc w d w' H|f fc src g opt lzy loc w d w' H].
    - eapply init_here; [|exact H]. now left.
    - unfold from_function in H.
      destruct (match g_source f with Exc TypeError => (fc, g_source fc) | s => (f, s) end) as [h [sc|e]]; [|discriminate].
      destruct (g_fun h) as [[[[n name] c] gl]|]; [|discriminate].
      eapply init_here; [|exact H]. right. eauto.
  Qed.

  Lemma unload_lemma s l : built s -> let (d, w) := snd (do_ops l s) in
    if ever_defined none globals compiler trace run l s (loaded (fst s))
    then exists d', unload (d, w) = (Ok tt, (d', w)) /\ blank d d'
    else exists d', unload (d, w) = (Exc AttributeError, (d', w)) /\ d' = set_code d Unset.
  Proof.
    intro H. pose proof (here_ops l s _ (built_inv globals compiler trace _ H) (built_here _ H)) as E.
    pose proof (inv_ops none globals compiler trace run l s (built_inv globals compiler trace _ H)) as I.
    destruct (snd (do_ops l s)) as [d w]. cbn [fst] in *. rewrite <- E. destruct I as (_ & _ & C & _).
    rewrite unload_run. destruct (func d) eqn:F; cbn [here].
    - destruct (code d) eqn:K; eexists; (split; [reflexivity|]); [|reflexivity]. destruct d. cbn in *. now subst.
    - destruct (code d) eqn:K; [specialize (C eq_refl); discriminate|]. eexists. split; [reflexivity|]. repeat split.
  Qed.

  (** ** C55 *)

  Lemma faults_lemma s l : built s -> let d := fst (snd (do_ops l s)) in
    errors d = faults_since none globals compiler trace run l s (errors (fst s)) /\
    call_fail d = existsb is_call (errors d) /\ compile_fail d = existsb is_compile (errors d).
  Proof.
    intros H. apply (built_inv globals compiler trace) in H. cbv zeta. split; [now apply errors_ops|].
    apply (inv_ops none globals compiler trace run l) in H. split; apply H.
  Qed.
  Lemma built_errors src g opt loc w d w' :
    construct globals compiler trace src g opt FFalse loc w = (Ok d, w') -> errors d = [].
  Proof.
    unfold construct, init. set (d0 := {| source := src |}). destruct (load FFalse (d0, w)) as [[u|e] [d1 w1]] eqn:E; intro H.
    - injection H as <- <-. destruct (load_ok _ _ _ _ _ _ _ _ _ E) as (_ & _ & -> & _ & c & _ & _ & _ & _ & _ & [S|[(e & S & Ex) K]]).
      + unfold load_faults, compile_faults. cbn [loaded compiled d0 func code rd is_set]. unfold d0 in S at 1. cbn [source] in *.
        cbn [source d0]. rewrite S. reflexivity.
      + discriminate.
    - destruct (load_exc _ _ _ _ _ _ _ _ _ E) as (_ & _ & _ & _ & _ & Er & _).
      rewrite load_run in E. change (loaded d0 || compiled d0) with false in E. cbv iota in E. unfold base_fault in E. destruct (compile_source compiler (source d0)) as [c|x] eqn:C.
      + destruct e; try discriminate. rewrite define_run in E. unfold loaded in E. rewrite after_func in E. cbn [d0 func rd is_set] in E.
        unfold after_compile in E. rewrite C in E. cbn [code set_code rd] in E. destruct (c_closure c); discriminate.
      + destruct (is_Exception x) eqn:X.
        * rewrite define_run in E. unfold loaded in E. rewrite after_func in E. cbn [d0 func rd is_set] in E.
          unfold after_compile in E. rewrite C in E. cbn [code set_errors rd] in E. injection E as <- <- <-. discriminate.
        * injection E as <- <- <-. destruct x; discriminate.
  Qed.

  Lemma optional_lemma s l o args kw : built s -> let (d, w) := snd (do_ops l s) in
    forall g, rd (func d) = Some g ->
    call o args kw (d, w) =
      match run g args kw w with
      | (Ok v, w') => (Ok v, (d, w'))
      | (Exc e, w') =>
          if is_optional d o && is_Exception e
          then (Ok none, (set_errors d (errors d ++ [call_error trace g e]) true (compile_fail d), w'))
          else (Exc e, (d, w'))
      end.
  Proof.
    intro H. apply (built_inv globals compiler trace) in H. apply (inv_ops none globals compiler trace run l) in H.
    destruct (snd (do_ops l s)) as [d w]. intros g F. apply call_loaded; [exact F|apply H].
  Qed.

  (** ** C56 *)

  Lemma load_bad f d w e : compile_source compiler (source d) = Exc e -> is_Exception e = true ->
    loaded d = false -> compiled d = false ->
    load f (d, w) = (Exc TypeError, (set_errors d (errors d ++ [compile_error trace e]) (call_fail d) true, w)).
  Proof.
    intros C X L K. rewrite load_run, L, K. unfold base_fault. rewrite C, X. cbn [orb].
    assert (E : define_method f (after_compile compiler trace d, w) =
      (Exc TypeError, (set_errors d (errors d ++ [compile_error trace e]) (call_fail d) true, w))).
    { rewrite define_run. unfold loaded. rewrite after_func. fold (loaded d). rewrite L. unfold after_compile. rewrite C. cbn [code set_errors].
      unfold compiled in K. destruct (rd (code d)); [discriminate|]. destruct f; reflexivity. }
    destruct f; exact E.
  Qed.

  Lemma bad_init_lemma src g opt loc w e : compile_source compiler src = Exc e -> is_Exception e = true ->
    fst (construct globals compiler trace src g opt FFalse loc w) = Exc TypeError /\
    forall lzy, lzy <> FFalse -> exists d, construct globals compiler trace src g opt lzy loc w = (Ok d, w) /\
      errors d = [] /\ loaded d = false /\ compiled d = false /\ source d = src /\ load_on_call d = loc.
  Proof.
    intros C X. split.
    - unfold construct, init. rewrite (load_bad FFalse _ w e); auto.
    - intros lzy N. unfold construct, init. destruct lzy; try (now destruct N); eexists; repeat split.
  Qed.

  Lemma bad_calls_lemma n o args kw : forall d w e, compile_source compiler (source d) = Exc e -> is_Exception e = true ->
    loaded d = false -> compiled d = false -> load_on_call d = FTrue ->
    let '(ys, (d', w')) := do_ops (repeat (OCall o args kw) n) (d, w) in
    ys = repeat (Exc TypeError) n /\ w' = w /\ errors d' = errors d ++ repeat (compile_error trace e) n /\ loaded d' = false.
  Proof.
    induction n as [|n IH]; intros d w e C X L K LC; cbn [repeat Dyn_Model.do_ops].
    - now rewrite app_nil_r.
    - cbn [Dyn_Model.do_op]. rewrite (call_unloaded none globals compiler trace run o args kw d w L), LC, (load_bad FFalse d w e C X L K).
      set (d1 := set_errors d (errors d ++ [compile_error trace e]) (call_fail d) true).
      specialize (IH d1 w e C X L K LC). destruct (do_ops (repeat (OCall o args kw) n) (d1, w)) as [ys [d' w']].
      destruct IH as (-> & -> & E & L'). split; [reflexivity|]. split; [reflexivity|]. split; [|exact L'].
      rewrite E. cbn [d1 errors set_errors]. now rewrite <- app_assoc.
  Qed.

  Lemma reload_lemma d w e g c : compile_source compiler (source d) = Exc e -> is_Exception e = true ->
    rd (func d) = Some g -> rd (code d) = Some c -> c_closure c = false ->
    exists d', load FTrue (d, w) = (Ok tt, (d', w)) /\ rd (func d') = Some (Made c (globals_of globals d)) /\
      errors d' = errors d ++ [compile_error trace e] /\ compile_fail d' = true.
  Proof.
    intros C X F K Cl. rewrite load_run. unfold base_fault. rewrite C, X, define_run.
    unfold loaded. rewrite after_func, F. cbn [is_set]. unfold after_compile. rewrite C. cbn [code set_errors]. rewrite K, Cl.
    eexists. split; [reflexivity|]. repeat split.
  Qed.

  Lemma from_lemma (f fc : @callable G) n name c gl (s0 : string) src g opt lzy loc w :
    (g_source f = Ok s0 /\ g_fun f = Some (n, name, c, gl)) \/
    (g_source f = Exc TypeError /\ g_source fc = Ok s0 /\ g_fun fc = Some (n, name, c, gl)) ->
    exists d, from_function globals compiler trace f fc src g opt lzy loc w = (Ok d, w) /\
      rd (func d) = Some (Given n name c gl) /\ rd (code d) = Some c /\ errors d = [] /\
      source d = src /\ globals_ d = g.
  Proof.
    intro H. unfold from_function.
    assert (E : exists h, match g_source f with Exc TypeError => (fc, g_source fc) | s => (f, s) end = (h, Ok s0) /\ g_fun h = Some (n, name, c, gl)).
    { destruct H as [(-> & H)|(-> & -> & H)]; eauto. }
    destruct E as (h & -> & ->). unfold init. destruct lzy; eexists; repeat split.
  Qed.

  (** A Dynamic without source: reloading, and calls after unload. *)
  Lemma no_source_lemma d w c : source d = None -> rd (code d) = Some c -> loaded d = true ->
    (if c_closure c then fst (load FTrue (d, w)) = Exc TypeError
     else exists d', load FTrue (d, w) = (Ok tt, (d', w)) /\ rd (func d') = Some (Made c (globals_of globals d))) /\
    exists d', unload (d, w) = (Ok tt, (d', w)) /\
      forall o args kw, load_on_call d = FTrue -> fst (call o args kw (d', w)) = Exc TypeError.
  Proof.
    intros S K L. split.
    - rewrite load_run. unfold base_fault. rewrite S. cbn [compile_source is_Exception]. rewrite define_run.
      unfold loaded. rewrite after_func. fold (loaded d). rewrite L. unfold after_compile. rewrite S. cbn [compile_source code set_errors].
      rewrite K. destruct (c_closure c); [reflexivity|]. eexists. split; reflexivity.
    - rewrite unload_run. destruct (code d); [discriminate|]. unfold loaded in L. destruct (func d); [discriminate|].
      eexists. split; [reflexivity|]. intros p args kw LC. rewrite call_unloaded by reflexivity. cbn [load_on_call set_errors set_func set_code].
      rewrite LC. rewrite (load_bad FFalse _ w TypeError); try reflexivity. cbn. now rewrite S.
  Qed.
End Lemmas.

Lemma codechild_lemma c ix : match get_codechild c ix with
  | Ok d => exists a b, c_consts c = a ++ Some d :: b /\ Z.of_nat (codes a) = ix
  | Exc e => (ix < 0)%Z /\ e = ValueError \/ (Z.of_nat (codes (c_consts c)) <= ix)%Z /\ e = StopIteration
  end.
Proof.
  unfold get_codechild. destruct (Z.ltb_spec ix 0) as [L|L]; [now left|].
  assert (G : forall l n, match nth_error (flat_map (fun o => match o with Some c => [c] | None => [] end) l) n with
    | Some d => exists a b, l = a ++ Some d :: b /\ codes a = n | None => codes l <= n end).
  { induction l as [|[x|] l IH]; intro n.
    - destruct n; cbn; lia.
    - destruct n as [|n]; cbn [flat_map app nth_error]; [exists [], l; split; reflexivity|].
      specialize (IH n). destruct (nth_error _ n) as [d|]; [|cbn; unfold codes in IH; lia].
      destruct IH as (a & b & -> & <-). exists (Some x :: a), b. split; reflexivity.
    - cbn [flat_map app]. specialize (IH n). destruct (nth_error _ n) as [d|]; [|exact IH].
      destruct IH as (a & b & -> & <-). exists (None :: a), b. split; reflexivity. }
  specialize (G (c_consts c) (Z.to_nat ix)). destruct (nth_error _ _) as [d|].
  - destruct G as (a & b & E & N). exists a, b. split; [exact E|]. rewrite N. now apply Z2Nat.id.
  - right. split; [|reflexivity]. apply Nat2Z.inj_le in G. now rewrite Z2Nat.id in G.
Qed.

