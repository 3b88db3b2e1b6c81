(** Facts about decimal notation and string concatenation: the addresses
    built by the code are distinct. *)
From Coq Require Import DecimalString Decimal DecimalZ DecimalFacts Lia.
From Verif Require Export Index_Model.

Lemma append_cancel a b c : (a ++ b = a ++ c)%string -> b = c.
Proof. induction a as [|x a IH]; cbn; [auto|]. intros [= H]. auto. Qed.
Lemma append_length a b : String.length (a ++ b) = String.length a + String.length b.
Proof. induction a as [|x a IH]; cbn; [reflexivity|]. now rewrite IH. Qed.
Lemma append_self a b : a = (a ++ b)%string -> b = "".
Proof.
  intro H. apply (f_equal String.length) in H. rewrite append_length in H. destruct b; [reflexivity|cbn in H; lia].
Qed.
Lemma append_assoc a b c : ((a ++ b) ++ c = a ++ b ++ c)%string.
Proof. induction a as [|x a IH]; cbn; [reflexivity|]. now rewrite IH. Qed.

(** Every character satisfies [p]. *)
Definition sforall (p : ascii -> bool) (s : string) : bool :=
  forallb p (list_ascii_of_string s).
Lemma sforall_app p a b : sforall p (a ++ b) = sforall p a && sforall p b.
Proof.
  unfold sforall. induction a as [|x a IH]; cbn; [reflexivity|]. now rewrite IH, andb_assoc.
Qed.

(** Characters of decimal numbers. *)
Definition num_char (c : ascii) : bool :=
  let n := N_of_ascii c in
  ((48 <=? n) && (n <=? 57))%N || (n =? 45)%N.

Lemma uint_chars d : sforall num_char (NilEmpty.string_of_uint d) = true.
Proof. induction d; cbn; auto. Qed.
Lemma str_of_Z_chars z : sforall num_char (str_of_Z z) = true.
Proof.
  unfold str_of_Z, NilZero.string_of_int, NilZero.string_of_uint.
  destruct (Z.to_int z) as [d|d]; destruct d; try apply uint_chars; try reflexivity;
    unfold sforall; cbn [list_ascii_of_string forallb]; apply andb_true_iff; (split; [reflexivity|]);
    apply (uint_chars (_ : uint)).
Qed.
Lemma str_of_Z_inj a b : str_of_Z a = str_of_Z b -> a = b.
Proof.
  assert (H : forall z, NilZero.int_of_string (str_of_Z z) = Some (Z.to_int z)).
  { intro z. apply NilZero.isi.
    - destruct z as [|p|p]; cbn; try discriminate. pose proof (DecimalPos.Unsigned.to_uint_nonnil p). congruence.
    - destruct z as [|p|p]; cbn; try discriminate. pose proof (DecimalPos.Unsigned.to_uint_nonnil p). congruence. }
  intro E. apply (f_equal NilZero.int_of_string) in E. rewrite !H in E.
  assert (E' : Z.to_int a = Z.to_int b) by congruence.
  rewrite <- (DecimalZ.of_to a), <- (DecimalZ.of_to b). now rewrite E'.
Qed.
Lemma str_of_Z_ne z : str_of_Z z <> "".
Proof.
  unfold str_of_Z, NilZero.string_of_int, NilZero.string_of_uint. destruct (Z.to_int z) as [d|d]; destruct d; discriminate.
Qed.
(** A number is never followed by more text in another number. *)
Lemma str_of_Z_no_suffix a b c r : num_char c = false -> (str_of_Z a ++ String c r)%string <> str_of_Z b.
Proof.
  intros Hc E. pose proof (str_of_Z_chars b) as H. rewrite <- E, sforall_app in H.
  unfold sforall in H at 2. cbn in H. rewrite Hc in H. rewrite andb_false_r in H. discriminate.
Qed.
(** ... and never starts with a letter. *)
Lemma str_of_Z_head z c r : num_char c = false -> str_of_Z z <> String c r.
Proof.
  intros Hc E. pose proof (str_of_Z_chars z) as H. rewrite E in H. unfold sforall in H. cbn in H. now rewrite Hc in H.
Qed.
Lemma str_of_Z_head' z c r t : num_char c = false -> (str_of_Z z ++ t)%string <> String c r.
Proof.
  intros Hc E. pose proof (str_of_Z_ne z) as Hn. pose proof (str_of_Z_chars z) as H.
  destruct (str_of_Z z) as [|d u]; [congruence|]. cbn in E. injection E as -> _. unfold sforall in H. cbn in H.
  now rewrite Hc in H.
Qed.
Lemma str_of_Z_app_inj a b c r r' : num_char c = false ->
  (str_of_Z a ++ String c r = str_of_Z b ++ String c r')%string -> a = b /\ r = r'.
Proof.
  intros Hc E. assert (str_of_Z a = str_of_Z b /\ r = r') as [E1 E2]; [|split; [now apply str_of_Z_inj|assumption]].
  pose proof (str_of_Z_chars a) as Ha. pose proof (str_of_Z_chars b) as Hb. revert E Ha Hb.
  generalize (str_of_Z a) (str_of_Z b). intro x. induction x as [|d x IH]; intros [|e y]; cbn; intros E Ha Hb.
  - injection E as ->. auto.
  - injection E as E1 E2. subst e. unfold sforall in Hb. cbn in Hb. rewrite Hc in Hb. discriminate.
  - injection E as E1 E2. subst d. unfold sforall in Ha. cbn in Ha. rewrite Hc in Ha. discriminate.
  - injection E as -> E. unfold sforall in Ha, Hb. cbn in Ha, Hb. apply andb_true_iff in Ha, Hb.
    destruct (IH y E) as [-> ->]; try apply Ha; try apply Hb. auto.
Qed.

(** ** The addresses of one index are distinct *)

(** Suffixes of the addresses an index (and its lock) uses. *)
Inductive suffix (hash : string -> string) : Type :=
| SMem | SKey (ix : Z) | SName (raw : string) | SVal (ix : Z) | SCount | SMarker (n : Z) | SLock (n : Z).

Section Addr.
  Variable hash : string -> string.
  Definition addr (I : string) (x : suffix hash) : string :=
    match x with
    | SMem _ => I
    | SKey _ ix => key_address I ix
    | SName _ raw => name_address hash I raw
    | SVal _ ix => val_address I ix
    | SCount _ => count_address I
    | SMarker _ n => marker_address I n
    | SLock _ n => lock_address I n
    end.
  Definition same_suffix (x y : suffix hash) : Prop :=
    match x, y with
    | SMem _, SMem _ => True
    | SKey _ a, SKey _ b => a = b
    | SName _ a, SName _ b => hash a = hash b
    | SVal _ a, SVal _ b => a = b
    | SCount _, SCount _ => True
    | SMarker _ a, SMarker _ b => a = b
    | SLock _ a, SLock _ b => a = b
    | _, _ => False
    end.

  Local Ltac addr_go E :=
    first
      [ discriminate E
      | (apply append_self in E; discriminate E)
      | (symmetry in E; apply append_self in E; discriminate E)
      | (apply append_cancel in E; cbn in E;
         first [ discriminate E
               | injection E as E;
                 first [ now apply str_of_Z_inj
                       | exact E
                       | (eapply str_of_Z_head in E; [exact E|reflexivity])
                       | (symmetry in E; eapply str_of_Z_head in E; [exact E|reflexivity])
                       | (eapply str_of_Z_head' in E; [exact E|reflexivity])
                       | (symmetry in E; eapply str_of_Z_head' in E; [exact E|reflexivity])
                       | (eapply str_of_Z_no_suffix in E; [exact E|reflexivity])
                       | (symmetry in E; eapply str_of_Z_no_suffix in E; [exact E|reflexivity])
                       | (apply str_of_Z_app_inj in E; [apply E|reflexivity]) ] ]) ].

  Lemma addr_inj I x y : addr I x = addr I y -> same_suffix x y.
  Proof.
    destruct x, y; cbn [addr same_suffix]; unfold key_address, name_address, val_address, count_address, marker_address, lock_address;
      intro E; try exact Logic.I; addr_go E.
  Qed.
  Lemma addr_neq I x y : ~ same_suffix x y -> addr I x <> addr I y.
  Proof. intros H E. apply H. eapply addr_inj; eauto. Qed.
End Addr.
