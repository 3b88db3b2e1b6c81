(** Numbers in order. *)
From Coq Require Import Lia QArith SpecFloat.
From Verif Require Export Float_Spec.
Open Scope nat_scope.

Section Order.
  Context {num : Type}.
  Context (good : num -> bool) (leb ltb : num -> num -> bool).
  Context (ord : ordered good leb ltb).
  Lemma o_total a b : good a = true -> good b = true -> leb a b = true \/ leb b a = true.
  Proof. apply ord. Qed.
  Lemma o_trans a b c : leb a b = true -> leb b c = true -> leb a c = true.
  Proof. apply ord. Qed.
  Lemma o_good a b : leb a b = true -> good a = true /\ good b = true.
  Proof. apply ord. Qed.
  Lemma o_ltb a b : ltb a b = good a && good b && negb (leb b a).
  Proof. apply ord. Qed.
  Lemma o_refl a : good a = true -> leb a a = true.
  Proof. intro H. now destruct (o_total a a H H). Qed.
  Lemma ltb_iff a b : ltb a b = true <-> good a = true /\ good b = true /\ leb b a = false.
  Proof.
    rewrite o_ltb. destruct (good a), (good b), (leb b a); cbn; split; intro H; try discriminate; auto; now destruct H as (? & ? & ?).
  Qed.
  Lemma ltb_leb a b : ltb a b = true -> leb a b = true.
  Proof. rewrite ltb_iff. intros (A & B & C). destruct (o_total a b A B) as [H|H]; [exact H|congruence]. Qed.
  Lemma lt_le_trans a b c : ltb a b = true -> leb b c = true -> ltb a c = true.
  Proof.
    rewrite !ltb_iff. intros (A & B & C) H. destruct (o_good b c H) as [_ D]. repeat split; auto.
    destruct (leb c a) eqn:E; [|reflexivity]. now rewrite (o_trans b c a H E) in C.
  Qed.
  Lemma le_lt_trans a b c : leb a b = true -> ltb b c = true -> ltb a c = true.
  Proof.
    rewrite !ltb_iff. intros H (A & B & C). destruct (o_good a b H) as [D _]. repeat split; auto.
    destruct (leb c a) eqn:E; [|reflexivity]. now rewrite (o_trans c a b E H) in C.
  Qed.
  Lemma not_lt a b : good a = true -> good b = true -> ltb a b = false -> leb b a = true.
  Proof. intros A B. rewrite o_ltb, A, B. cbn. now destruct (leb b a). Qed.
End Order.

Lemma q_ordered : ordered (fun _ => true) Qle_bool q_ltb.
Proof.
  split; [|split; [|split]].
  - intros a b _ _. rewrite !Qle_bool_iff. destruct (Qlt_le_dec a b); [left; now apply Qlt_le_weak|now right].
  - intros a b c. rewrite !Qle_bool_iff. apply Qle_trans.
  - auto.
  - reflexivity.
Qed.

(** ** Doubles *)

Definition f_rank (x : spec_float) : Z * Z * Z :=
  match x with
  | S754_zero _ => (0, 0, 0)%Z
  | S754_infinity false => (2, 0, 0)%Z
  | S754_infinity true => (-2, 0, 0)%Z
  | S754_nan => (0, 0, 0)%Z
  | S754_finite false m e => (1, e, Z.pos m)%Z
  | S754_finite true m e => (-1, - e, - Z.pos m)%Z
  end.
Definition lex3 (a b : Z * Z * Z) : comparison :=
  let '(x1, y1, z1) := a in let '(x2, y2, z2) := b in
  match Z.compare x1 x2 with Eq => match Z.compare y1 y2 with Eq => Z.compare z1 z2 | c => c end | c => c end.
Lemma f_compare a b : f_good a = true -> f_good b = true -> SFcompare a b = Some (lex3 (f_rank a) (f_rank b)).
Proof.
  destruct a as [sa|[]| |[] ma ea], b as [sb|[]| |[] mb eb]; cbn [f_good]; intros Ha Hb; try discriminate; try reflexivity.
  cbn. rewrite Z.compare_opp. rewrite (Z.compare_antisym ea eb). destruct (Z.compare ea eb); cbn; try reflexivity.
Qed.
Lemma lex3_trans a b c : lex3 a b <> Gt -> lex3 b c <> Gt -> lex3 a c <> Gt.
Proof.
  destruct a as [[a1 a2] a3], b as [[b1 b2] b3], c as [[c1 c2] c3]. unfold lex3.
  destruct (Z.compare_spec a1 b1), (Z.compare_spec b1 c1), (Z.compare_spec a1 c1); try congruence; try lia;
  destruct (Z.compare_spec a2 b2), (Z.compare_spec b2 c2), (Z.compare_spec a2 c2); try congruence; try lia;
  destruct (Z.compare_spec a3 b3), (Z.compare_spec b3 c3), (Z.compare_spec a3 c3); try congruence; try lia.
Qed.
Lemma lex3_anti a b : lex3 b a = CompOpp (lex3 a b).
Proof.
  destruct a as [[a1 a2] a3], b as [[b1 b2] b3]. unfold lex3.
  rewrite (Z.compare_antisym a1 b1), (Z.compare_antisym a2 b2), (Z.compare_antisym a3 b3).
  now destruct (Z.compare a1 b1), (Z.compare a2 b2), (Z.compare a3 b3).
Qed.
Lemma sf_leb a b : SFleb a b = f_good a && f_good b && match lex3 (f_rank a) (f_rank b) with Gt => false | _ => true end.
Proof.
  unfold SFleb. destruct (f_good a) eqn:A.
  - destruct (f_good b) eqn:B; [rewrite (f_compare a b A B); cbn; now destruct (lex3 _ _)|].
    destruct b; try discriminate. now destruct a as [| |[]|[]].
  - destruct a; try discriminate. reflexivity.
Qed.
Lemma sf_ltb a b : SFltb a b = f_good a && f_good b && match lex3 (f_rank a) (f_rank b) with Lt => true | _ => false end.
Proof.
  unfold SFltb. destruct (f_good a) eqn:A.
  - destruct (f_good b) eqn:B; [rewrite (f_compare a b A B); cbn; now destruct (lex3 _ _)|].
    destruct b; try discriminate. now destruct a as [| |[]|[]].
  - destruct a; try discriminate. reflexivity.
Qed.
Lemma f_ordered : ordered f_good SFleb SFltb.
Proof.
  split; [|split; [|split]].
  - intros a b A B. rewrite !sf_leb, A, B, (lex3_anti (f_rank a) (f_rank b)). cbn. destruct (lex3 _ _); cbn; auto.
  - intros a b c. rewrite !sf_leb. destruct (f_good a); [|discriminate]. destruct (f_good b); [|discriminate]. cbn.
    intro H. destruct (f_good c); [|discriminate]. cbn. intro H'.
    assert (K : lex3 (f_rank a) (f_rank c) <> Gt) by (apply lex3_trans with (f_rank b); intro E; [rewrite E in H|rewrite E in H']; discriminate).
    destruct (lex3 (f_rank a) (f_rank c)); auto.
  - intros a b. rewrite sf_leb. intro H. apply andb_prop in H. destruct H as [H _]. now apply andb_prop in H.
  - intros a b. rewrite sf_ltb, sf_leb, (lex3_anti (f_rank a) (f_rank b)). destruct (f_good a), (f_good b); cbn; try reflexivity.
    now destruct (lex3 _ _).
Qed.

