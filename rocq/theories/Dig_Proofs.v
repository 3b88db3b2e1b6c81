(** Proofs about digsource (dynamic.py). *)
From Verif Require Export Dig_Spec Dyn_Lemmas.

Section Dig.
  Context {G KW V W : Type}.
  Context (none : V) (globals : G) (compiler : string -> res pcode) (trace : exn -> string * list frame).
  Context (run : @pyfun G -> list V -> KW -> eff W V).
  Context (given_source : N -> res string).
  Notation dyn := (@dyn G).
  Notation do_op := (do_op none globals compiler trace run).
  Notation do_ops := (do_ops none globals compiler trace run).
  Notation dig d := (digsource given_source (as_obj d)).
  Implicit Types (d : dyn) (w : W).

  (** No function, or one made from code. *)
  Definition own d : Prop := match rd (func d) with Some (Given _ _ _ _) => False | _ => True end.

  Lemma func_op o d w : inv d ->
    let (y, s') := do_op o (d, w) in
    if clears o y || defines globals compiler trace o (d, w) y then own (fst s') else rd (func (fst s')) = rd (func d).
  Proof.
    intro H. destruct o; cbn [Dyn_Model.do_op clears defines].
    - unfold ebind. destruct (load globals compiler trace reload (d, w)) as [[u|e] [d' w']] eqn:E.
      + destruct (load_ok _ _ _ _ _ _ _ _ _ E) as (_ & _ & _ & _ & c & _ & _ & F & _). cbn. unfold own. now rewrite F.
      + destruct (load_exc _ _ _ _ _ _ _ _ _ E) as (_ & _ & F & _). cbn. now rewrite F.
    - unfold ebind. rewrite compile_run.
      destruct recompile, (compiled d); try reflexivity;
        (destruct (compile_source compiler (source d)) as [c|e]; [reflexivity|]; destruct (is_Exception e); reflexivity).
    - unfold ebind. rewrite define_run. destruct (loaded d) eqn:L, redefine; try reflexivity;
      (destruct (rd (code d)) as [c|]; [|reflexivity]; destruct (c_closure c); [reflexivity|exact I]).
    - unfold ebind. rewrite unload_run. destruct (code d) eqn:C; [reflexivity|].
      destruct (func d) eqn:F; cbn; [now rewrite F|exact I].
    - destruct (call_cases none globals compiler trace run opt args kw d w H) as [(L & -> & LC)|[(L & LC & e & s' & E & ->)|(d' & g & F & I & -> & J)]].
      + cbn [fst]. rewrite L. destruct (load_on_call d); try reflexivity. now destruct LC.
      + cbn [fst]. rewrite L, LC, E. cbn [fst ok negb andb orb]. destruct s' as [d' w'].
        destruct (load_exc _ _ _ _ _ _ _ _ _ E) as (_ & _ & F & _). cbn [fst]. now rewrite F.
      + rewrite (call_loaded none globals compiler trace run opt args kw d' w g F (proj1 I)). cbn [fst].
        assert (X : forall (s : res V * (dyn * W)), func (fst (snd s)) = func d' ->
          let (y, s') := s in
          if false || (negb (loaded d) && match load_on_call d with FTrue => true | _ => false end && ok (fst (load globals compiler trace FFalse (d, w))))
          then own (fst s') else rd (func (fst s')) = rd (func d)).
        { intros [y [d1 w1]] Q. cbn [fst snd] in *. destruct J as [(L & ->)|(L & LC & u & E)].
          - rewrite L. cbn. now rewrite Q.
          - rewrite L, LC, E. cbn. destruct (load_ok _ _ _ _ _ _ _ _ _ E) as (_ & _ & _ & _ & c & _ & _ & F' & _).
            unfold own. now rewrite Q, F'. }
        destruct (run g args kw w) as [[v|e] w']; [apply (X (Ok v, (d', w'))); reflexivity|].
        destruct (is_optional d' opt && is_Exception e); [apply (X (Ok none, (_, w'))); reflexivity|apply (X (Exc e, (d', w'))); reflexivity].
    - reflexivity.
    - reflexivity.
    - reflexivity.
    - reflexivity.
  Qed.

  Lemma own_ops l : forall s, inv (fst s) -> own (fst s) -> own (fst (snd (do_ops l s))).
  Proof.
    induction l as [|o l IH]; intros [d w] H Ho; [exact Ho|]. cbn [Dyn_Model.do_ops].
    pose proof (func_op o d w H) as L. pose proof (inv_op none globals compiler trace run o d w H) as I.
    destruct (do_op o (d, w)) as [y s']. cbn [fst snd] in *.
    assert (O : own (fst s')). { destruct (clears o y || _); [exact L|]. unfold own. now rewrite L. }
    specialize (IH s' I O). now destruct (do_ops l s') as [ys s''].
  Qed.
  Lemma func_ops l : forall s, inv (fst s) ->
    if kept none globals compiler trace run l s then rd (func (fst (snd (do_ops l s)))) = rd (func (fst s))
    else own (fst (snd (do_ops l s))).
  Proof.
    induction l as [|o l IH]; intros [d w] H; [reflexivity|]. cbn [Dyn_Model.do_ops kept].
    pose proof (func_op o d w H) as L. pose proof (inv_op none globals compiler trace run o d w H) as I.
    destruct (do_op o (d, w)) as [y s'] eqn:E. cbn [fst snd] in *. specialize (IH s' I). pose proof (own_ops l s' I) as J.
    destruct (do_ops l s') as [ys s'']. cbn [fst snd] in *.
    destruct (clears o y); [cbn; exact (J L)|]. destruct (defines globals compiler trace o (d, w) y); [cbn; exact (J L)|].
    cbn in *. destruct (kept none globals compiler trace run l s'); [now rewrite IH|exact IH].
  Qed.

  Lemma dig_lemma s l : built globals compiler trace s ->
    let d := fst (snd (do_ops l s)) in
    dig d = if loaded d then if kept none globals compiler trace run l s then dig (fst s) else Exc OSError else Exc TypeError.
  Proof.
    intros H d. apply (built_inv globals compiler trace) in H. pose proof (func_ops l s H) as F. fold d in F. clearbody d.
    unfold as_obj, loaded, is_set. destruct (kept none globals compiler trace run l s).
    - rewrite F. destruct (rd (func (fst s))); reflexivity.
    - unfold own in F. destruct (rd (func d)) as [[c g|n m c g]|]; [reflexivity|contradiction|reflexivity].
  Qed.

  Lemma dig_from f fc n name c gl src0 src g opt lzy loc w d w' :
    g_source f = Ok src0 -> g_fun f = Some (n, name, c, gl) ->
    from_function globals compiler trace f fc src g opt lzy loc w = (Ok d, w') -> dig d = given_source n.
  Proof.
    intros A B E. unfold from_function in E. rewrite A, B in E. unfold init in E.
    assert (F : rd (func d) = Some (Given n name c gl)).
    { destruct lzy; injection E as <- <-; reflexivity. }
    unfold as_obj. rewrite F. reflexivity.
  Qed.

  Lemma dig_never src g opt lzy loc w d w' l r : construct globals compiler trace src g opt lzy loc w = (Ok d, w') ->
    dig (fst (snd (do_ops l (d, w')))) <> Ok r.
  Proof.
    intro E.
    assert (I0 : inv d /\ own d).
    { split; [exact (built_inv globals compiler trace (d, w') (built_init _ _ _ _ _ _ _ _ _ _ _ E))|].
      unfold construct, init in E. destruct lzy; try (injection E as <- <-; exact I).
        destruct (load globals compiler trace FFalse _) as [[u|e] [d1 w1]] eqn:L.
        + injection E as <- <-. destruct (load_ok _ _ _ _ _ _ _ _ _ L) as (_ & _ & _ & _ & c & _ & _ & F & _). unfold own. now rewrite F.
        + destruct (load_exc _ _ _ _ _ _ _ _ _ L) as (_ & _ & F & _).
          destruct e; try discriminate. injection E as <- <-. unfold own. rewrite F. exact I. }
    pose proof (own_ops l (d, w') (proj1 I0) (proj2 I0)) as O. unfold own in O. unfold as_obj.
    destruct (rd (func _)) as [[c g'|n m c g']|]; [discriminate|contradiction|discriminate].
  Qed.
End Dig.
