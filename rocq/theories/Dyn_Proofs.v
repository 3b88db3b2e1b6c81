(** Proofs about dynamic.py. *)
From Verif Require Export Dyn_Spec.

Section Proofs.
  Context {G KW V W : Type}.
  Context (none : V) (globals : G) (compiler : string -> res pcode) (trace : exn -> string * list frame).
  Context (run : @pyfun G -> list V -> KW -> eff W V).
  Notation dyn := (@dyn G).
  Notation error := (@error G).
  Notation op := (@op G KW V).
  Notation do_op := (do_op none globals compiler trace run).
  Notation do_ops := (do_ops none globals compiler trace run).
  Notation load := (load (W := W) globals compiler trace).
  Notation compile_source_method := (compile_source_method (G := G) (W := W) compiler trace).
  Notation define_method := (define_method (W := W) globals).
  Notation call := (call none globals compiler trace run).
  Implicit Types (d : dyn) (w : W) (s : dyn * W) (f : flag).

  Lemma kbd (e : exn) {A} (a b : A) : is_Exception e = false \/ e <> KeyboardInterrupt ->
    match e with KeyboardInterrupt => a | _ => if is_Exception e then b else a end = if is_Exception e then b else a.
  Proof. now destruct e. Qed.

  (** The methods as functions of the state. *)
  Lemma compile_run f d w : compile_source_method f (d, w) =
    match f, compiled d with
    | FFalse, true => (Exc AlreadyLoadedError, (d, w))
    | _, _ =>
        match compile_source compiler (source d) with
        | Ok c => (Ok tt, (set_code d (Here (Some c)), w))
        | Exc e => if is_Exception e
                   then (Ok tt, (set_errors d (errors d ++ [compile_error trace e]) (call_fail d) true, w))
                   else (Exc e, (d, w))
        end
    end.
  Proof.
    unfold Dyn_Model.compile_source_method, ebind, Dyn_Model.get, compiled. cbn [fst snd].
    destruct f, (is_set (rd (code d))); try reflexivity;
      (destruct (compile_source compiler (source d)) as [c|e]; [reflexivity|]; destruct e; reflexivity).
  Qed.

  Lemma define_run f d w : define_method f (d, w) =
    match loaded d, f with
    | true, FFalse | true, FNone | true, FOther => (Exc AlreadyLoadedError, (d, w))
    | _, _ =>
        match rd (code d) with
        | Some c => if c_closure c then (Exc TypeError, (d, w))
                    else let g := Made c (globals_of globals d) in
                         (Ok tt, (set_func d (Here (Some g)) (c_name c) (SigOf g), w))
        | None => (Exc TypeError, (d, w))
        end
    end.
  Proof.
    unfold Dyn_Model.define_method, ebind, Dyn_Model.get, loaded, eof, define, globals_of. cbn [fst snd].
    destruct (is_set (rd (func d))), f; try reflexivity;
      (destruct (rd (code d)) as [c|]; [|reflexivity]; destruct (c_closure c); reflexivity).
  Qed.

  (** The state after compilation. *)
  Definition after_compile d : dyn :=
    match compile_source compiler (source d) with
    | Ok c => set_code d (Here (Some c))
    | Exc e => set_errors d (errors d ++ [compile_error trace e]) (call_fail d) true
    end.
  Definition base_fault d : option exn :=
    match compile_source compiler (source d) with
    | Ok _ => None
    | Exc e => if is_Exception e then None else Some e
    end.
  Lemma load_run f d w : load f (d, w) =
    match f, loaded d || compiled d with
    | FFalse, true => (Exc AlreadyLoadedError, (d, w))
    | _, _ => match base_fault d with
              | Some e => (Exc e, (d, w))
              | None => define_method f (after_compile d, w)
              end
    end.
  Proof.
    unfold Dyn_Model.load. unfold ebind at 1, Dyn_Model.get. cbn [fst snd]. fold (loaded d).
    assert (E : (u <~ compile_source_method f;; define_method f) (d, w) =
      match f, compiled d with
      | FFalse, true => (Exc AlreadyLoadedError, (d, w))
      | _, _ => match base_fault d with
                | Some e => (Exc e, (d, w))
                | None => define_method f (after_compile d, w)
                end
      end).
    { unfold ebind. rewrite compile_run. unfold base_fault, after_compile.
      destruct f, (compiled d); try reflexivity;
        (destruct (compile_source compiler (source d)) as [c|e]; [reflexivity|]; destruct (is_Exception e); reflexivity). }
    destruct f, (loaded d); cbn [orb]; try exact E; reflexivity.
  Qed.

  Lemma after_settings d : same_settings d (after_compile d).
  Proof. unfold after_compile. destruct (compile_source compiler (source d)); repeat split. Qed.
  Lemma after_func d : func (after_compile d) = func d.
  Proof. unfold after_compile. now destruct (compile_source compiler (source d)). Qed.
  Lemma settings_trans d d' d'' : same_settings d d' -> same_settings d' d'' -> same_settings d d''.
  Proof. unfold same_settings. intros (-> & -> & -> & -> & ->) (-> & -> & -> & -> & ->). repeat split. Qed.

  (** A load that works. *)
  Lemma load_ok f d w u d' w' : load f (d, w) = (Ok u, (d', w')) ->
    w' = w /\ same_settings d d' /\ errors d' = errors d ++ load_faults compiler trace d f /\
    (loaded d = true -> f = FTrue) /\
    exists c, rd (code d') = Some c /\ c_closure c = false /\ rd (func d') = Some (Made c (globals_of globals d)) /\
      dname d' = c_name c /\ dsig d' = SigOf (Made c (globals_of globals d)) /\
      (compile_source compiler (source d) = Ok c \/
       (exists e, compile_source compiler (source d) = Exc e /\ is_Exception e = true) /\ rd (code d) = Some c).
  Proof.
    rewrite load_run. intro H.
    assert (K : f <> FFalse \/ loaded d || compiled d = false).
    { destruct f; try (left; discriminate). destruct (loaded d || compiled d); [discriminate|now right]. }
    assert (H' : match base_fault d with Some e => (Exc e, (d, w)) | None => define_method f (after_compile d, w) end = (Ok u, (d', w'))).
    { destruct f, (loaded d || compiled d); try exact H. discriminate. }
    clear H. destruct (base_fault d) as [e|] eqn:Eb; [discriminate|].
    assert (EL : load_faults compiler trace d f = match compile_source compiler (source d) with
                   | Exc e => if is_Exception e then [compile_error trace e] else [] | Ok _ => [] end).
    { unfold load_faults, compile_faults. destruct K as [K|K]; [now destruct f|].
      apply orb_false_elim in K. destruct K as [-> ->]. now destruct f. }
    rewrite define_run in H'. unfold loaded in H' at 1. rewrite after_func in H'. fold (loaded d) in H'.
    assert (L : loaded d = true -> f = FTrue) by (intro L; rewrite L in H'; destruct f; (reflexivity || discriminate)).
    assert (H : match rd (code (after_compile d)) with
         | Some c => if c_closure c then (Exc TypeError, (after_compile d, w))
                    else let g := Made c (globals_of globals (after_compile d)) in
                         (Ok tt, (set_func (after_compile d) (Here (Some g)) (c_name c) (SigOf g), w))
         | None => (Exc TypeError, (after_compile d, w)) end = (Ok u, (d', w'))).
    { destruct (loaded d), f; try exact H'; discriminate. }
    clear H'. destruct (rd (code (after_compile d))) as [c|] eqn:Ec; [|discriminate].
    destruct (c_closure c) eqn:Ecl; [discriminate|]. injection H as _ <- <-.
    assert (Eg : globals_of globals (after_compile d) = globals_of globals d).
    { unfold globals_of. now rewrite (proj1 (proj2 (after_settings d))). }
    rewrite Eg. split; [reflexivity|]. split; [exact (after_settings d)|]. split.
    { rewrite EL. cbn [errors set_func]. unfold after_compile, base_fault in *.
      destruct (compile_source compiler (source d)) as [x|e]; [cbn; now rewrite app_nil_r|].
      destruct (is_Exception e); [reflexivity|discriminate]. }
    split; [exact L|]. exists c. cbn [code func dname dsig set_func rd]. split; [exact Ec|]. split; [exact Ecl|]. split; [reflexivity|].
    split; [reflexivity|]. split; [reflexivity|].
    unfold after_compile, base_fault in *. destruct (compile_source compiler (source d)) as [x|e].
    - left. cbn in Ec. now injection Ec as <-.
    - right. split; [|exact Ec]. exists e. split; [reflexivity|]. now destruct (is_Exception e).
  Qed.

  (** A load that fails. *)
  Lemma load_exc f d w e d' w' : load f (d, w) = (Exc e, (d', w')) ->
    w' = w /\ same_settings d d' /\ func d' = func d /\ dname d' = dname d /\ dsig d' = dsig d /\
    errors d' = errors d ++ load_faults compiler trace d f /\ call_fail d' = call_fail d.
  Proof.
    rewrite load_run. intro H.
    assert (K : (f = FFalse /\ loaded d || compiled d = true /\ d' = d /\ w' = w) \/
      (load_faults compiler trace d f = match compile_source compiler (source d) with
                   | Exc e => if is_Exception e then [compile_error trace e] else [] | Ok _ => [] end /\
       match base_fault d with Some e => (Exc e, (d, w)) | None => define_method f (after_compile d, w) end = (Exc e, (d', w')))).
    { unfold load_faults, compile_faults. destruct f; try (right; split; [reflexivity|exact H]).
      destruct (loaded d), (compiled d); cbn [orb] in *; try (left; injection H as <- <- <-; auto; fail). now right. }
    clear H. destruct K as [(-> & L & -> & ->)|[EL H]].
    - split; [reflexivity|]. split; [repeat split|]. split; [reflexivity|]. split; [reflexivity|]. split; [reflexivity|]. split; [|reflexivity].
      unfold load_faults, compile_faults. destruct (loaded d), (compiled d); try discriminate; now rewrite app_nil_r.
    - destruct (base_fault d) as [x|] eqn:Eb.
      + injection H as <- <- <-. split; [reflexivity|]. split; [repeat split|]. split; [reflexivity|]. split; [reflexivity|]. split; [reflexivity|]. split; [|reflexivity].
        rewrite EL. unfold base_fault in Eb. destruct (compile_source compiler (source d)) as [c|y]; [discriminate|].
        destruct (is_Exception y); [discriminate|]. now rewrite app_nil_r.
      + assert (d' = after_compile d /\ w' = w) as [-> ->].
        { rewrite define_run in H. destruct (loaded (after_compile d)), f; try (injection H as <- <- <-; now split);
          (destruct (rd (code (after_compile d))) as [c|]; [|injection H as <- <- <-; now split];
           destruct (c_closure c); [injection H as <- <- <-; now split|discriminate]). }
        split; [reflexivity|]. split; [apply after_settings|]. split; [apply after_func|].
        rewrite EL. unfold after_compile, base_fault in *.
        destruct (compile_source compiler (source d)) as [c|y]; [cbn; rewrite app_nil_r; repeat split|].
        destruct (is_Exception y); [repeat split|discriminate].
  Qed.

  (** Calls. *)
  Lemma call_unloaded o args kw d w : loaded d = false ->
    call o args kw (d, w) =
      match load_on_call d with
      | FTrue => match load FFalse (d, w) with (Ok _, s') => call o args kw s' | (Exc e, s') => (Exc e, s') end
      | _ => (Exc UnreadyError, (d, w))
      end.
  Proof.
    intro L. unfold Dyn_Model.call at 1. unfold ebind at 1. unfold _maybe_load_on_call at 1. unfold ebind at 1, Dyn_Model.get at 1.
    cbn [fst snd]. fold (loaded d). rewrite L. destruct (load_on_call d); try reflexivity.
    destruct (load FFalse (d, w)) as [[u|e] [d' w']] eqn:E; [|reflexivity].
    destruct (load_ok _ _ _ _ _ _ E) as (_ & _ & _ & _ & c & _ & _ & F & _).
    unfold Dyn_Model.call, _maybe_load_on_call, ebind, Dyn_Model.get. cbn [fst snd]. rewrite F. reflexivity.
  Qed.

  Lemma rev_cases {A} (l : list A) : l = [] \/ exists r x, l = r ++ [x].
  Proof. induction l as [|x l _] using rev_ind; [now left|right; eauto]. Qed.

  Lemma finally_keeps d w : call_fail d = existsb is_call (errors d) ->
    finally_call_fail (d, w) = (d, w).
  Proof.
    intro H. unfold finally_call_fail. cbn [fst snd]. destruct (rev_cases (errors d)) as [->|(r & x & E)]; [reflexivity|].
    rewrite E, rev_app_distr. cbn [rev app]. destruct (e_category x) eqn:Ex; [reflexivity|].
    f_equal. rewrite E in H. rewrite existsb_app in H. cbn [existsb] in H. unfold is_call in H at 2. rewrite Ex, orb_true_r in H.
    rewrite <- E. unfold set_errors. destruct d. cbn in *. now subst.
  Qed.
  Lemma finally_sets d w r e : errors d = r ++ [e] -> e_category e = Call ->
    finally_call_fail (d, w) = (set_errors d (errors d) true (compile_fail d), w).
  Proof. intros E Ex. unfold finally_call_fail. cbn [fst snd]. rewrite E, rev_app_distr. cbn [rev app]. now rewrite Ex. Qed.

  Lemma call_loaded o args kw d w g : rd (func d) = Some g -> call_fail d = existsb is_call (errors d) ->
    call o args kw (d, w) =
      match run g args kw w with
      | (Ok v, w') => (Ok v, (d, w'))
      | (Exc e, w') =>
          if is_optional d o && is_Exception e
          then (Ok none, (set_errors d (errors d ++ [call_error trace g e]) true (compile_fail d), w'))
          else (Exc e, (d, w'))
      end.
  Proof.
    intros F C. unfold Dyn_Model.call. unfold ebind at 1, _maybe_load_on_call at 1. unfold ebind at 1, Dyn_Model.get at 1. cbn [fst snd].
    rewrite F. cbn [is_set]. unfold eret at 1. unfold ebind at 1, Dyn_Model.get at 1. cbn [fst snd].
    assert (CF : forall w, call_func run args kw (d, w) = (fst (run g args kw w), (d, snd (run g args kw w)))).
    { intro w0. unfold call_func, ebind, Dyn_Model.get. cbn [fst snd]. rewrite F. unfold lift. cbn [fst snd].
      destruct (run g args kw w0); reflexivity. }
    unfold is_optional.
    assert (P : (call_func run args kw (d, w)) = match run g args kw w with (Ok v, w') => (Ok v, (d, w')) | (Exc e, w') => (Exc e, (d, w')) end).
    { rewrite CF. destruct (run g args kw w) as [[v|e] w']; reflexivity. }
    assert (Q : (let (r, s') :=
          dontcare none (call_func run)
            (fun e => eret (report_of trace e))
            (fun r => x <~ Dyn_Model.get ;;
               put (set_errors x (errors x ++ [{| e_report := r; e_func := rd (func x); e_category := Call |}])
                      (call_fail x) (compile_fail x)))
            args kw (d, w)
        in (r, finally_call_fail s')) =
      match run g args kw w with
      | (Ok v, w') => (Ok v, (d, w'))
      | (Exc e, w') =>
          if is_Exception e
          then (Ok none, (set_errors d (errors d ++ [call_error trace g e]) true (compile_fail d), w'))
          else (Exc e, (d, w'))
      end).
    { unfold dontcare, optionalize, ecatch. rewrite CF. destruct (run g args kw w) as [[v|e] w']; cbn [fst snd].
      - now rewrite finally_keeps.
      - assert (E : forall B (a b : B), match e with KeyboardInterrupt => a | _ => if is_Exception e then b else a end = if is_Exception e then b else a)
          by now destruct e.
        rewrite E. destruct (is_Exception e).
        + unfold ebind, eret, Dyn_Model.get, put. cbn [fst snd]. rewrite F.
          rewrite (finally_sets _ _ (errors d) (call_error trace g e)); reflexivity.
        + unfold eraise. now rewrite finally_keeps. }
    destruct o; cbn [andb]; try exact Q; [exact P|]. destruct (optional d); cbn [andb]; try exact Q. exact P.
  Qed.

  (** ** The invariant *)

  Definition inv d : Prop :=
    call_fail d = existsb is_call (errors d) /\ compile_fail d = existsb is_compile (errors d) /\
    (code d = Unset -> func d = Unset) /\
    match rd (func d) with
    | Some f => dsig d = SigOf f /\ dname d = fun_name f
    | None => dsig d = SigEmpty \/ dsig d = SigNone
    end.

  Lemma inv_after d : inv d -> inv (after_compile d).
  Proof.
    intros (A & B & C & D). unfold after_compile. destruct (compile_source compiler (source d)) as [c|e].
    - repeat split; cbn; auto. discriminate.
    - repeat split; cbn; auto; rewrite existsb_app; cbn; [now rewrite orb_false_r|now rewrite orb_true_r].
  Qed.
  Lemma inv_compile f d w : inv d -> inv (fst (snd (compile_source_method f (d, w)))).
  Proof.
    intro H. pose proof (inv_after d H) as A. unfold after_compile in A. rewrite compile_run.
    assert (inv (fst (snd (match compile_source compiler (source d) with
        | Ok c => (Ok tt, (set_code d (Here (Some c)), w))
        | Exc e => if is_Exception e
                   then (Ok tt, (set_errors d (errors d ++ [compile_error trace e]) (call_fail d) true, w))
                   else (Exc e, (d, w)) end)))).
    { destruct (compile_source compiler (source d)) as [c|e]; [exact A|]. destruct (is_Exception e); [exact A|exact H]. }
    destruct f, (compiled d); assumption.
  Qed.
  Lemma inv_define f d w : inv d -> inv (fst (snd (define_method f (d, w)))).
  Proof.
    intro H. rewrite define_run.
    assert (inv (fst (snd (match rd (code d) with
        | Some c => if c_closure c then (Exc TypeError, (d, w))
                    else let g := Made c (globals_of globals d) in
                         (Ok tt, (set_func d (Here (Some g)) (c_name c) (SigOf g), w))
        | None => (Exc TypeError, (d, w))
        end)))).
    { destruct (rd (code d)) as [c|] eqn:E; [|exact H]. destruct (c_closure c); [exact H|].
      destruct H as (A & B & C & D). repeat split; cbn; auto. intro U. rewrite U in E. discriminate. }
    destruct (loaded d), f; assumption.
  Qed.
  Lemma inv_load f d w : inv d -> inv (fst (snd (load f (d, w)))).
  Proof.
    intro H. rewrite load_run.
    assert (inv (fst (snd (match base_fault d with
              | Some e => (Exc e, (d, w))
              | None => define_method f (after_compile d, w) end)))).
    { destruct (base_fault d); [exact H|]. apply inv_define, inv_after, H. }
    destruct f, (loaded d || compiled d); assumption.
  Qed.
  Lemma inv_errors d l : inv d -> inv (set_errors d (errors d ++ [l]) (is_call l || call_fail d) (is_compile l || compile_fail d)).
  Proof.
    intros (A & B & C & D). repeat split; cbn; auto; rewrite existsb_app; cbn; rewrite orb_false_r, orb_comm; now f_equal.
  Qed.
  Lemma call_cases o args kw d w : inv d ->
    (* not loaded *)
    (loaded d = false /\ call o args kw (d, w) = (Exc UnreadyError, (d, w)) /\ load_on_call d <> FTrue) \/
    (loaded d = false /\ load_on_call d = FTrue /\ exists e s', load FFalse (d, w) = (Exc e, s') /\ call o args kw (d, w) = (Exc e, s')) \/
    exists d' g, rd (func d') = Some g /\ inv d' /\ call o args kw (d, w) = call o args kw (d', w) /\
      ((loaded d = true /\ d' = d) \/ (loaded d = false /\ load_on_call d = FTrue /\ exists u, load FFalse (d, w) = (Ok u, (d', w)))).
  Proof.
    intro H. destruct (loaded d) eqn:L.
    - right. right. unfold loaded in L. destruct (rd (func d)) as [g|] eqn:F; [|discriminate]. exists d, g.
      split; [exact F|]. split; [exact H|]. split; [reflexivity|]. left. now split.
    - rewrite (call_unloaded o args kw d w L). destruct (load_on_call d) eqn:LC; try (left; repeat split; discriminate).
      right. pose proof (inv_load FFalse d w H) as I. destruct (load FFalse (d, w)) as [[u|e] [d' w']] eqn:E.
      + right. destruct (load_ok _ _ _ _ _ _ E) as (-> & _ & _ & _ & c & _ & _ & F & _).
        exists d', (Made c (globals_of globals d)). split; [exact F|]. split; [exact I|]. split; [reflexivity|].
        right. repeat split. exists u. reflexivity.
      + left. repeat split. eauto.
  Qed.

  Lemma inv_call o args kw d w : inv d -> inv (fst (snd (call o args kw (d, w)))).
  Proof.
    intro H. destruct (call_cases o args kw d w H) as [(_ & -> & _)|[(_ & _ & e & s' & E & ->)|(d' & g & F & I & -> & _)]].
    - exact H.
    - cbn [fst snd]. pose proof (inv_load FFalse d w H) as I. rewrite E in I. exact I.
    - rewrite (call_loaded o args kw d' w g F (proj1 I)). destruct (run g args kw w) as [[v|e] w']; [exact I|].
      destruct (is_optional d' o && is_Exception e); [|exact I].
      exact (inv_errors d' (call_error trace g e) I).
  Qed.

  Lemma unload_run d w : unload (d, w) =
    match code d, func d with
    | Unset, _ => (Exc AttributeError, (d, w))
    | Here _, Unset => (Exc AttributeError, (set_code d Unset, w))
    | Here _, Here _ =>
        (Ok tt, (set_errors (set_func (set_code d (Here None)) (Here None) "Dynamic" SigNone) [] false false, w))
    end.
  Proof. unfold unload, ebind, Dyn_Model.get, put. cbn [fst snd]. destruct (code d); [reflexivity|]. destruct (func d); reflexivity. Qed.
  Lemma inv_unload d w : inv d -> inv (fst (snd (unload (d, w)))).
  Proof.
    intro H. rewrite unload_run. destruct (code d) eqn:C; [exact H|]. destruct (func d) eqn:F.
    - destruct H as (A & B & _ & D). split; [exact A|]. split; [exact B|]. split; [intros _; exact F|].
      cbn [set_code func dsig dname]. exact D.
    - repeat split; cbn; auto. discriminate.
  Qed.

  Lemma unit_state {A B T} (m : eff T A) (b : B) (s : T) : snd ((u <~ m ;; eret b) s) = snd (m s).
  Proof. unfold ebind. destruct (m s) as [[a|e] s']; reflexivity. Qed.
  Lemma unit_ok {A B T} (m : eff T A) (b : B) (s : T) : ok (fst ((u <~ m ;; eret b) s)) = ok (fst (m s)).
  Proof. unfold ebind. destruct (m s) as [[a|e] s']; reflexivity. Qed.

  Lemma inv_op o d w : inv d -> inv (fst (snd (do_op o (d, w)))).
  Proof.
    intro H. destruct o; cbn [Dyn_Model.do_op]; rewrite ?unit_state.
    - now apply inv_load.
    - now apply inv_compile.
    - now apply inv_define.
    - now apply inv_unload.
    - now apply inv_call.
    - exact H.
    - exact H.
    - exact H.
    - exact H.
  Qed.
  Lemma inv_ops l : forall s, inv (fst s) -> inv (fst (snd (do_ops l s))).
  Proof.
    induction l as [|o l IH]; intros [d w] H; [exact H|]. cbn [Dyn_Model.do_ops].
    pose proof (inv_op o d w H) as I. destruct (do_op o (d, w)) as [y s']. specialize (IH s' I).
    now destruct (do_ops l s') as [ys s''].
  Qed.

  Lemma inv_init c fn name sig src g opt lzy loc w d w' :
    (c = Unset -> fn = Unset) -> match rd fn with Some f => sig = SigOf f /\ name = fun_name f | None => sig = SigEmpty \/ sig = SigNone end ->
    init globals compiler trace c fn name sig src g opt lzy loc w = (Ok d, w') -> inv d.
  Proof.
    intros H1 H2. unfold init. set (d0 := {| source := src |}).
    assert (I : inv d0) by (repeat split; auto). destruct lzy; intro H; try (injection H as <- <-; exact I).
    pose proof (inv_load FFalse d0 w I) as J. destruct (load FFalse (d0, w)) as [[u|e] [d1 w1]]; [injection H as <- <-; exact J|].
    destruct e; try discriminate. injection H as <- <-. exact J.
  Qed.
  Lemma built_inv s : built globals compiler trace s -> inv (fst s).
  Proof.
    destruct 1 as [src g opt lzy loc w d w' H|f fc src g opt lzy loc w d w' H].
    - eapply inv_init; [| |exact H]; cbn; auto.
    - unfold from_function in H.
      destruct (match g_source f with Exc TypeError => (fc, g_source fc) | s => (f, s) end) as [h [sc|e]]; [|discriminate].
      destruct (g_fun h) as [[[[n name] c] gl]|]; [|discriminate].
      eapply inv_init; [| |exact H]; cbn; auto. discriminate.
  Qed.

  (** ** Histories *)

  Lemma loaded_op o d w : inv d ->
    let (y, s') := do_op o (d, w) in
    loaded (fst s') = if clears o y then false else if defines globals compiler trace o (d, w) y then true else loaded d.
  Proof.
    intro H. destruct o; cbn [Dyn_Model.do_op clears defines].
    - unfold ebind. destruct (load reload (d, w)) as [[u|e] [d' w']] eqn:E.
      + destruct (load_ok _ _ _ _ _ _ E) as (_ & _ & _ & _ & c & _ & _ & F & _). unfold loaded, eret. cbn [fst]. now rewrite F.
      + destruct (load_exc _ _ _ _ _ _ E) as (_ & _ & F & _). unfold loaded. cbn [fst ok]. now rewrite F.
    - unfold ebind. rewrite compile_run.
      destruct recompile, (compiled d); try reflexivity;
        (destruct (compile_source compiler (source d)) as [c|e]; [reflexivity|]; destruct (is_Exception e); reflexivity).
    - unfold ebind. rewrite define_run. destruct (loaded d) eqn:L, redefine; try (cbn; assumption);
      (destruct (rd (code d)) as [c|]; [|cbn; assumption]; destruct (c_closure c); [cbn; assumption|reflexivity]).
    - unfold ebind. rewrite unload_run. destruct (code d) eqn:C; [reflexivity|]. destruct (func d) eqn:F; [|reflexivity].
      cbn. unfold loaded. cbn. reflexivity.
    - destruct (call_cases opt args kw d w H) as [(L & -> & LC)|[(L & LC & e & s' & E & ->)|(d' & g & F & I & -> & J)]].
      + cbn [fst]. rewrite L. now destruct (load_on_call d).
      + cbn [fst]. rewrite L, LC, E. cbn. destruct s' as [d' w']. destruct (load_exc _ _ _ _ _ _ E) as (_ & _ & F & _).
        unfold loaded in *. cbn. now rewrite F.
      + rewrite (call_loaded opt args kw d' w g F (proj1 I)).
        assert (X : (if negb (loaded d) && match load_on_call d with FTrue => true | _ => false end && ok (fst (load FFalse (d, w))) then true else loaded d) = true).
        { destruct J as [(-> & ->)|(-> & -> & u & ->)]; reflexivity. }
        cbn [fst]. rewrite X. destruct (run g args kw w) as [[v|e] w']; [cbn; unfold loaded; now rewrite F|].
        destruct (is_optional d' opt && is_Exception e); cbn; unfold loaded; cbn; now rewrite F.
    - reflexivity.
    - reflexivity.
    - reflexivity.
    - reflexivity.
  Qed.

  Lemma loaded_ops l : forall s b, inv (fst s) -> loaded (fst s) = b ->
    loaded (fst (snd (do_ops l s))) = defined none globals compiler trace run l s b.
  Proof.
    induction l as [|o l IH]; intros [d w] b H Hb; [exact Hb|]. cbn [Dyn_Model.do_ops defined].
    pose proof (loaded_op o d w H) as L. pose proof (inv_op o d w H) as I.
    destruct (do_op o (d, w)) as [y s']. cbn [fst snd] in *. rewrite Hb in L. specialize (IH s' _ I L).
    now destruct (do_ops l s') as [ys s''].
  Qed.

  Lemma errors_op o d w : inv d ->
    let (y, s') := do_op o (d, w) in
    errors (fst s') = if clears o y then [] else errors d ++ faults globals compiler trace run o (d, w).
  Proof.
    intro H. destruct o; cbn [Dyn_Model.do_op clears faults].
    - unfold ebind. destruct (load reload (d, w)) as [[u|e] [d' w']] eqn:E.
      + apply (load_ok _ _ _ _ _ _ E).
      + apply (load_exc _ _ _ _ _ _ E).
    - unfold ebind. rewrite compile_run. unfold compile_faults.
      destruct recompile, (compiled d); try (cbn; now rewrite app_nil_r);
        (destruct (compile_source compiler (source d)) as [c|e]; [cbn; now rewrite app_nil_r|]; destruct (is_Exception e); cbn; now rewrite ?app_nil_r).
    - unfold ebind. rewrite define_run. destruct (loaded d) eqn:L, redefine; try (cbn; now rewrite app_nil_r);
      (destruct (rd (code d)) as [c|]; [|cbn; now rewrite app_nil_r]; destruct (c_closure c); cbn; now rewrite app_nil_r).
    - unfold ebind. rewrite unload_run. destruct (code d) eqn:C; [cbn; now rewrite app_nil_r|].
      destruct (func d) eqn:F; [cbn; now rewrite app_nil_r|reflexivity].
    - destruct (call_cases opt args kw d w H) as [(L & -> & LC)|[(L & LC & e & s' & E & ->)|(d' & g & F & I & -> & J)]].
      + cbn [fst]. rewrite L. destruct (load_on_call d); now rewrite ?app_nil_r.
      + cbn [fst]. rewrite L, LC, E. cbn [fst snd]. destruct s' as [d' w']. destruct (load_exc _ _ _ _ _ _ E) as (_ & _ & F & _ & _ & Er & _).
        cbn [fst snd]. rewrite Er. unfold run_faults. rewrite F.
        unfold loaded in L. destruct (rd (func d)); [discriminate|]. now rewrite app_nil_r.
      + assert (R : run_faults trace run d' w opt args kw =
            if is_optional d' opt then match fst (run g args kw w) with Exc e => if is_Exception e then [call_error trace g e] else [] | Ok _ => [] end else []).
        { unfold run_faults. now rewrite F. }
        assert (X : errors d ++ (if loaded d then run_faults trace run d w opt args kw
             else match load_on_call d with
                  | FTrue => load_faults compiler trace d FFalse ++ run_faults trace run (fst (snd (load FFalse (d, w)))) w opt args kw
                  | _ => [] end) = errors d' ++ run_faults trace run d' w opt args kw).
        { destruct J as [(-> & ->)|(-> & -> & u & E)]; [reflexivity|]. rewrite E. cbn [fst snd].
          destruct (load_ok _ _ _ _ _ _ E) as (_ & _ & -> & _). now rewrite app_assoc. }
        rewrite X, R, (call_loaded opt args kw d' w g F (proj1 I)).
        destruct (run g args kw w) as [[v|e] w']; [cbn; destruct (is_optional d' opt); now rewrite app_nil_r|].
        cbn [fst]. destruct (is_optional d' opt), (is_Exception e); cbn; now rewrite ?app_nil_r.
    - cbn. now rewrite app_nil_r.
    - cbn. now rewrite app_nil_r.
    - cbn. now rewrite app_nil_r.
    - cbn. now rewrite app_nil_r.
  Qed.
  Lemma errors_ops l : forall s acc, inv (fst s) -> errors (fst s) = acc ->
    errors (fst (snd (do_ops l s))) = faults_since none globals compiler trace run l s acc.
  Proof.
    induction l as [|o l IH]; intros [d w] acc H Ha; [exact Ha|]. cbn [Dyn_Model.do_ops faults_since].
    pose proof (errors_op o d w H) as L. pose proof (inv_op o d w H) as I.
    destruct (do_op o (d, w)) as [y s']. cbn [fst snd] in *. rewrite Ha in L. specialize (IH s' _ I L).
    now destruct (do_ops l s') as [ys s''].
  Qed.
End Proofs.
