(** Statements about copying byte by byte, ready for Torn_Props.v. *)
From Verif Require Export Torn_Lock Torn_Reg.

(** ** Schedules *)
Fixpoint btidy (n fuel : nat) (g : stage -> bool) (sched : list (nat * nat)) (f : bconfig) : bool :=
  match sched with
  | [] => true
  | (i, k) :: r => allowed n g (without_bytes f) i && btidy n fuel g r (bgo fuel i k f)
  end.
Lemma bgo_other fuel i k f j : j <> i -> b_procs (bgo fuel i k f) j = b_procs f j.
Proof.
  intro H. unfold bgo. destruct (byte_stage fuel (fst (b_procs f i)) (snd (b_procs f i)) k (b_mem f)) as [[[[st' g'] s'] o]|]; cbn [b_procs]; [|reflexivity].
  unfold set_bproc. destruct (Nat.eqb_spec j i); [congruence|reflexivity].
Qed.
Fixpoint begun (fuel : nat) (sched : list (nat * nat)) (f : bconfig) : nat :=
  match sched with [] => 0 | (i, k) :: r => begun fuel r (bgo fuel i k f) + begins (without_bytes f) i end.
Lemma btidy_execution name n fuel g R sched : enforces g R -> forall f, btidy n fuel g sched f = true -> (forall j, n <= j -> ~ entering (without_bytes f) j) ->
  byte_execution name fuel R (begun fuel sched f) f (bplay fuel sched f).
Proof.
  intro HR. assert (H : forall f m f0, btidy n fuel g sched f = true -> (forall j, n <= j -> ~ entering (without_bytes f) j) ->
    byte_execution name fuel R m f0 f -> byte_execution name fuel R (begun fuel sched f + m) f0 (bplay fuel sched f)).
  { induction sched as [|[i k] r IH]; intros f m f0 HT HB HE; cbn [bplay begun]; [exact HE|]. cbn [btidy] in HT.
    apply andb_prop in HT as [HT HT2]. destruct (allowed_ok n g R (without_bytes f) i HR HB HT) as [Hi Hr]. rewrite <- Nat.add_assoc.
    apply IH; [exact HT2| |].
    - intros j Hj [p Hp]. apply (HB j Hj). exists p. cbn [without_bytes procs] in *. now rewrite bgo_other in Hp by lia.
    - constructor; [exact HE|exact Hr]. }
  intros f HT HB. rewrite <- (Nat.add_0_r (begun fuel sched f)). apply H; auto. constructor.
Qed.

(** ** Small whole numbers *)
Lemma map_same {A B} (f g : A -> B) l : map f l = map g l -> forall x, In x l -> f x = g x.
Proof. induction l as [|y l IH]; cbn; [easy|]. intros [= H1 H2] x [->|H]; auto. Qed.
Definition int_form (z : Z) : bytes := String (ascii_of_nat 128) (String (ascii_of_nat 5) (String "K" (String (low z) "."))).
Lemma int_bytes limit z : (0 <= z < 256)%Z -> int_enc (S limit) z = Ok (int_form z) /\ int_dec (S limit) (int_form z) = Ok z.
Proof.
  intro H. assert (E : In (Z.to_nat z) (seq 0 256)) by (apply in_seq; lia). rewrite <- (Z2Nat.id z) by lia. split.
  - apply (map_same (fun k => int_enc (S limit) (Z.of_nat k)) (fun k => Ok (int_form (Z.of_nat k))) (seq 0 256)); [vm_compute; reflexivity|exact E].
  - apply (map_same (fun k => int_dec (S limit) (int_form (Z.of_nat k))) (fun k => Ok (Z.of_nat k)) (seq 0 256)); [vm_compute; reflexivity|exact E].
Qed.
Lemma small_ints limit v (pool : Z -> Prop) : (0 <= v < 256)%Z -> (forall w, pool w -> (0 <= w < 256)%Z) ->
  one_byte (int_enc (S limit)) 3 v pool /\ forall w, pool w -> stable (int_enc (S limit)) (int_dec (S limit)) w.
Proof.
  intros Hv HP. split.
  - exists (int_form v). split; [now apply int_bytes|]. split; [cbn; lia|]. intros w e Hw Ew _ k Hk. rewrite (proj1 (int_bytes limit w (HP w Hw))) in Ew. injection Ew as <-.
    destruct k as [|[|[|[|k]]]]; try reflexivity. easy.
  - intros w Hw. exists (int_form w). split; [now apply int_bytes, HP|]. split; [discriminate|]. now apply int_bytes, HP.
Qed.
