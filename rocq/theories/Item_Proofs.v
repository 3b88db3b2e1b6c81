(** Lemmas about itemize_numpy. *)
From Coq Require Import Lia Znumtheory.
From Verif Require Export Item_Spec.
From Verif Require Import Py_Facts.
Open Scope Z_scope.

(** ** One cycle of 400 years, day by day *)

Ltac months C := repeat match type of C with _ \/ _ => destruct C as [C|C] end; subst.
Definition dim (leap : bool) (m : Z) : Z := nth (Z.to_nat (m - 1)) (month_table leap) 0.
Definition next (t : Z * Z * Z) : Z * Z * Z :=
  let '(y, m, d) := t in
  if d <? dim (is_leap y) m then (y, m, d + 1) else if m <? 12 then (y, m + 1, 1) else (y + 1, 1, 1).
Definition valid (t : Z * Z * Z) : bool :=
  let '(y, m, d) := t in (1 <=? m) && (m <=? 12) && (1 <=? d) && (d <=? dim (is_leap y) m).
Definition in_cycle (r : Z) : Z * Z * Z :=
  let '(y, days) := year_in_cycle r in
  let '(m, d) := month_of_days (month_table (is_leap y)) 1 days in (y, m, d).
(** The days of the years before [y], of those from 0 on. *)
Definition start (y : Z) : Z := 365 * y + (y + 3) / 4 - (y + 99) / 100 + (y + 399) / 400.
Definition year_len (y : Z) : Z := if is_leap y then 366 else 365.
Lemma leap_mod y : is_leap y = ((y mod 4 =? 0) && (negb (y mod 100 =? 0) || (y mod 400 =? 0)))%bool.
Proof. unfold is_leap. change 3 with (Z.ones 2). rewrite Z.land_ones by lia. reflexivity. Qed.

Fixpoint check (f : Z -> bool) (n : nat) (r : Z) : bool :=
  match n with O => true | S n => if f r then check f n (r + 1) else false end.
Lemma check_all f n : forall r i, check f n r = true -> r <= i < r + Z.of_nat n -> f i = true.
Proof.
  induction n as [|n IH]; intros r i H Hi; [lia|]. cbn [check] in H. destruct (f r) eqn:E; [|discriminate].
  destruct (Z.eq_dec i r) as [->|N]; [exact E|]. apply (IH (r + 1)); [exact H|lia].
Qed.
Lemma starts_checked : check (fun y => start (y + 1) =? start y + year_len y) 400 0 = true.
Proof. vm_compute. reflexivity. Qed.
Lemma start_next y : 0 <= y < 400 -> start (y + 1) = start y + year_len y.
Proof. intro H. apply Z.eqb_eq. exact (check_all _ _ _ y starts_checked H). Qed.
Lemma len_pos y : 365 <= year_len y.
Proof. unfold year_len. destruct (is_leap y); lia. Qed.
Lemma start_before k : 0 <= k -> forall y, 0 <= y -> y + k < 400 -> start y + year_len y <= start (y + 1 + k).
Proof.
  intro H. pattern k. apply natlike_ind; [| |exact H]; clear k H.
  - intros y Hy H. rewrite Z.add_0_r, start_next by lia. lia.
  - intros k Hk IH y Hy H. replace (y + 1 + Z.succ k) with (y + 1 + k + 1) by lia. rewrite start_next by lia.
    specialize (IH y Hy ltac:(lia)). pose proof (len_pos (y + 1 + k)). lia.
Qed.
Lemma start_unique y d y' d' : 0 <= y < 400 -> 0 <= y' < 400 -> 0 <= d < year_len y -> 0 <= d' < year_len y' ->
  start y + d = start y' + d' -> y = y' /\ d = d'.
Proof.
  intros Hy Hy' Hd Hd' E. destruct (Z.lt_trichotomy y y') as [L|[->|L]]; [|split; lia|].
  - pose proof (start_before (y' - y - 1) ltac:(lia) y ltac:(lia) ltac:(lia)) as S. replace (y + 1 + (y' - y - 1)) with y' in S by lia. lia.
  - pose proof (start_before (y - y' - 1) ltac:(lia) y' ltac:(lia) ltac:(lia)) as S. replace (y' + 1 + (y - y' - 1)) with y in S by lia. lia.
Qed.

Lemma year_sound r y d : 0 <= r < 146097 -> year_in_cycle r = (y, d) -> 0 <= y < 400 /\ r = start y + d /\ 0 <= d < year_len y.
Proof.
  intros H. unfold year_in_cycle.
  destruct (Z.leb_spec 366 r) as [A|A].
  2:{ intro Q; apply pair_equal_spec in Q; destruct Q as [<- <-]. change (start 0) with 0. change (year_len 0) with 366. lia. }
  set (a := (r - 1) / _). set (ra := (r - 1) mod _).
  assert (Ea : r - 1 = 36524 * a + ra /\ 0 <= ra < 36524) by (split; [apply Z.div_mod; lia|apply Z.mod_pos_bound; lia]). clearbody a ra.
  assert (Ba : 0 <= a <= 3) by lia.
  destruct (Z.leb_spec 365 ra) as [B|B].
  2:{ intro Q; apply pair_equal_spec in Q; destruct Q as [<- <-]. assert (C : a = 1 \/ a = 2 \/ a = 3) by lia. destruct C as [->|[->| ->]].
      - change (start (100 * 1)) with 36525. change (year_len (100 * 1)) with 365. lia.
      - change (start (100 * 2)) with 73049. change (year_len (100 * 2)) with 365. lia.
      - change (start (100 * 3)) with 109573. change (year_len (100 * 3)) with 365. lia. }
  set (b := (ra + 1) / _). set (rb := (ra + 1) mod _).
  assert (Eb : ra + 1 = 1461 * b + rb /\ 0 <= rb < 1461) by (split; [apply Z.div_mod; lia|apply Z.mod_pos_bound; lia]). clearbody b rb.
  assert (Bb : 0 <= b <= 24) by lia.
  destruct (Z.leb_spec 366 rb) as [D|D].
  - set (c := (rb - 1) / 365). set (rc := (rb - 1) mod 365).
    assert (Ec : rb - 1 = 365 * c + rc /\ 0 <= rc < 365) by (split; [apply Z.div_mod; lia|apply Z.mod_pos_bound; lia]). clearbody c rc.
    assert (Bc : 1 <= c <= 3) by lia. intro Q; apply pair_equal_spec in Q; destruct Q as [<- <-]. unfold year_len. rewrite leap_mod. unfold start.
    replace ((100 * a + 4 * b + c) mod 4) with c by (apply (Z.mod_unique _ _ (25 * a + b)); lia).
    replace (c =? 0) with false by (symmetry; apply Z.eqb_neq; lia). cbn [andb].
    replace ((100 * a + 4 * b + c + 3) / 4) with (25 * a + b + 1) by (apply (Z.div_unique _ _ _ (c - 1)); lia).
    replace ((100 * a + 4 * b + c + 99) / 100) with (a + 1) by (apply (Z.div_unique _ _ _ (4 * b + c - 1)); lia).
    replace ((100 * a + 4 * b + c + 399) / 400) with 1 by (apply (Z.div_unique _ _ _ (100 * a + 4 * b + c - 1)); lia). lia.
  - intro Q; apply pair_equal_spec in Q; destruct Q as [<- <-]. unfold year_len. rewrite leap_mod. unfold start.
    destruct (Z.eq_dec b 0) as [->|Nb]; [lia|].
    replace ((100 * a + 4 * b) mod 4) with 0 by (apply (Z.mod_unique _ _ (25 * a + b)); lia).
    replace ((100 * a + 4 * b) mod 100) with (4 * b) by (apply (Z.mod_unique _ _ a); lia).
    replace (4 * b =? 0) with false by (symmetry; apply Z.eqb_neq; lia). cbn [andb orb negb Z.eqb].
    replace ((100 * a + 4 * b + 3) / 4) with (25 * a + b) by (apply (Z.div_unique _ _ _ 3); lia).
    replace ((100 * a + 4 * b + 99) / 100) with (a + 1) by (apply (Z.div_unique _ _ _ (4 * b - 1)); lia).
    replace ((100 * a + 4 * b + 399) / 400) with 1 by (apply (Z.div_unique _ _ _ (100 * a + 4 * b - 1)); lia). lia.
Qed.

(** The days of a year. *)
Definition in_year (leap : bool) (days : Z) : Z * Z := month_of_days (month_table leap) 1 days.
Definition next_in (leap : bool) (t : Z * Z) : option (Z * Z) :=
  let '(m, d) := t in if d <? dim leap m then Some (m, d + 1) else if m <? 12 then Some (m + 1, 1) else None.
Definition day_good (leap : bool) (days : Z) : bool :=
  let '(m, d) := in_year leap days in
  (1 <=? m) && (m <=? 12) && (1 <=? d) && (d <=? dim leap m) &&
  match next_in leap (m, d) with
  | Some (m', d') => let '(a, b) := in_year leap (days + 1) in (a =? m') && (b =? d') && (days + 1 <? (if leap then 366 else 365))
  | None => days + 1 =? (if leap then 366 else 365)
  end.
Lemma year_checked leap : check (day_good leap) (if leap then 366 else 365) 0 = true.
Proof. destruct leap; vm_compute; reflexivity. Qed.
Lemma days_good y d : 0 <= d < year_len y -> day_good (is_leap y) d = true.
Proof.
  intro H. apply (check_all _ _ _ _ (year_checked (is_leap y))). unfold year_len in H. destruct (is_leap y); exact H.
Qed.

Lemma in_cycle_good r : 0 <= r < 146097 ->
  valid (in_cycle r) = true /\ next (in_cycle r) = if r =? 146096 then (400, 1, 1) else in_cycle (r + 1).
Proof.
  intro H. unfold in_cycle. destruct (year_in_cycle r) as [y d] eqn:E. destruct (year_sound _ _ _ H E) as (Hy & R & Hd).
  pose proof (days_good y d Hd) as G. unfold day_good, in_year in G. change (month_table (is_leap y)) with (month_table (is_leap y)) in G.
  destruct (month_of_days (month_table (is_leap y)) 1 d) as [m dd] eqn:M. apply andb_prop in G. destruct G as [V G].
  split; [exact V|]. unfold next. unfold next_in in G.
  assert (S400 : start 400 = 146097) by reflexivity.
  assert (Top : start y + year_len y <= 146097).
  { rewrite <- start_next by exact Hy. rewrite <- S400. destruct (Z.eq_dec y 399) as [->|]; [reflexivity|].
    pose proof (start_before (400 - (y + 1) - 1) ltac:(lia) (y + 1) ltac:(lia) ltac:(lia)) as S.
    replace (y + 1 + 1 + (400 - (y + 1) - 1)) with 400 in S by lia. pose proof (len_pos (y + 1)). lia. }
  assert (Len : (if is_leap y then 366 else 365) = year_len y) by reflexivity. rewrite Len in G.
  assert (W : forall m' d', (let '(a, b) := month_of_days (month_table (is_leap y)) 1 (d + 1) in (a =? m') && (b =? d') && (d + 1 <? year_len y)) = true ->
     (y, m', d') = (if r =? 146096 then (400, 1, 1) else let '(y, days) := year_in_cycle (r + 1) in
        let '(m, d) := month_of_days (month_table (is_leap y)) 1 days in (y, m, d))).
  { intros m' d' G'. destruct (month_of_days (month_table (is_leap y)) 1 (d + 1)) as [a b] eqn:M'. apply andb_prop in G'. destruct G' as [G' L].
    apply andb_prop in G'. destruct G' as [G1 G2]. apply Z.eqb_eq in G1, G2. apply Z.ltb_lt in L. subst a b.
    destruct (Z.eqb_spec r 146096); [lia|]. destruct (year_in_cycle (r + 1)) as [y' e] eqn:E'.
    destruct (year_sound (r + 1) y' e ltac:(lia) E') as (Hy' & R' & He).
    destruct (start_unique y (d + 1) y' e Hy Hy' ltac:(lia) He ltac:(lia)) as [<- <-]. rewrite M'. reflexivity. }
  destruct (dd <? dim (is_leap y) m); [apply W, G|]. destruct (m <? 12); [apply W, G|].
  apply Z.eqb_eq in G. clear W. destruct (Z.eqb_spec r 146096) as [L|L].
  - assert (y = 399); [|subst; reflexivity]. destruct (Z.eq_dec y 399) as [|Ny]; [assumption|exfalso].
    pose proof (start_before (400 - (y + 1) - 1) ltac:(lia) (y + 1) ltac:(lia) ltac:(lia)) as S.
    replace (y + 1 + 1 + (400 - (y + 1) - 1)) with 400 in S by lia. pose proof (len_pos (y + 1)). rewrite start_next in S by exact Hy. lia.
  - assert (y < 399).
    { destruct (Z.eq_dec y 399) as [->|]; [|lia]. change (start 399) with 145732 in *. change (year_len 399) with 365 in *. lia. }
    destruct (year_in_cycle (r + 1)) as [y' e] eqn:E'. destruct (year_sound (r + 1) y' e ltac:(lia) E') as (Hy' & R' & He).
    pose proof (len_pos (y + 1)) as LP.
    destruct (start_unique (y + 1) 0 y' e ltac:(lia) Hy' ltac:(lia) He) as [<- <-]; [rewrite start_next by exact Hy; lia|].
    destruct (is_leap (y + 1)); reflexivity.
Qed.

Definition shift (k : Z) (t : Z * Z * Z) : Z * Z * Z := let '(y, m, d) := t in (y + k, m, d).
Lemma mod_shift y q k c : 0 < c -> k = c * q -> (y + k) mod c = y mod c.
Proof. intros Hc ->. rewrite Z.mul_comm. apply Z_mod_plus_full. Qed.
Lemma leap_shift y q : is_leap (y + 400 * q) = is_leap y.
Proof.
  rewrite !leap_mod. rewrite (mod_shift y (100 * q) _ 4), (mod_shift y (4 * q) _ 100), (mod_shift y q _ 400) by lia. reflexivity.
Qed.
Lemma next_shift q t : next (shift (400 * q) t) = shift (400 * q) (next t).
Proof.
  destruct t as [[y m] d]. unfold shift, next. rewrite leap_shift.
  destruct (d <? _); [reflexivity|]. destruct (m <? 12); [reflexivity|]. f_equal. f_equal. lia.
Qed.
Lemma valid_shift q t : valid (shift (400 * q) t) = valid t.
Proof. destruct t as [[y m] d]. unfold shift, valid. rewrite leap_shift. reflexivity. Qed.

Lemma civil_cycle n :
  civil n = shift (400 * ((n - 10957) / 146097 + 5)) (in_cycle ((n - 10957) mod 146097)).
Proof.
  unfold civil, in_cycle, year_of_days. change (365 * 30 + 7) with 10957. change cycle_days with 146097.
  destruct (year_in_cycle _) as [y days].
  replace (400 * ((n - 10957) / 146097) + y + 2000) with (y + 400 * ((n - 10957) / 146097 + 5)) by lia.
  rewrite leap_shift. destruct (month_of_days _ _ _) as [m d]. reflexivity.
Qed.

Lemma civil_good n : valid (civil n) = true /\ next (civil n) = civil (n + 1).
Proof.
  rewrite !civil_cycle, next_shift, valid_shift. set (a := n - 10957). replace (n + 1 - 10957) with (a + 1) by (unfold a; lia).
  pose proof (Z.mod_pos_bound a 146097 ltac:(lia)) as B. pose proof (Z.div_mod a 146097 ltac:(lia)) as E.
  set (q := a / 146097) in *. set (r := a mod 146097) in *. clearbody q r.
  destruct (in_cycle_good r B) as [V N]. split; [exact V|]. rewrite N. destruct (Z.eqb_spec r 146096) as [R|R].
  - replace ((a + 1) / 146097) with (q + 1) by (apply (Z.div_unique _ _ _ 0); lia).
    replace ((a + 1) mod 146097) with 0 by (apply (Z.mod_unique _ _ (q + 1)); lia).
    change (in_cycle 0) with (0, 1, 1). unfold shift. f_equal. f_equal. lia.
  - replace ((a + 1) / 146097) with q by (apply (Z.div_unique _ _ _ (r + 1)); lia).
    replace ((a + 1) mod 146097) with (r + 1) by (apply (Z.mod_unique _ _ q); lia). reflexivity.
Qed.

(** ** The calendar *)

Lemma leap_iff y : is_leap y = true <-> leap_year y.
Proof.
  rewrite leap_mod. unfold leap_year. rewrite andb_true_iff, orb_true_iff, negb_true_iff, !Z.eqb_eq, Z.eqb_neq.
  rewrite <- !(Z.mod_divide y) by lia. tauto.
Qed.
Lemma dim_iff y m l : 1 <= m <= 12 -> (days_in_month y m l <-> l = dim (is_leap y) m).
Proof.
  intro H. assert (L : is_leap y = true <-> leap_year y) by apply leap_iff. unfold days_in_month.
  assert (C : m = 1 \/ m = 2 \/ m = 3 \/ m = 4 \/ m = 5 \/ m = 6 \/ m = 7 \/ m = 8 \/ m = 9 \/ m = 10 \/ m = 11 \/ m = 12) by lia.
  destruct (is_leap y) eqn:E.
  - assert (Y : leap_year y) by (apply L; reflexivity). clear L.
    months C; cbn; intuition (try lia; try congruence).
  - assert (Y : ~ leap_year y) by (intro W; apply L in W; discriminate). clear L.
    months C; cbn; intuition (try lia; try congruence).
Qed.
Lemma dim_month y m l : days_in_month y m l -> 1 <= m <= 12.
Proof. intros [[-> _]|[[H _]|[H _]]]; [lia|cbn in H; lia..]. Qed.
Lemma date_iff t : calendar_date t <-> valid t = true.
Proof.
  destruct t as [[y m] d]. unfold calendar_date, valid. rewrite !andb_true_iff, !Z.leb_le. split.
  - intros (l & Hl & Hd). pose proof (dim_month _ _ _ Hl) as M. apply dim_iff in Hl; [|exact M]. subst l. lia.
  - intros [[[H1 H2] H3] H4]. exists (dim (is_leap y) m). split; [apply dim_iff; [lia|reflexivity]|lia].
Qed.
Lemma after_iff t t' : valid t = true -> (day_after t t' <-> t' = next t).
Proof.
  destruct t as [[y m] d]. unfold valid, day_after, next. rewrite !andb_true_iff, !Z.leb_le. intros [[[H1 H2] H3] H4].
  split.
  - intros (l & Hl & C). apply dim_iff in Hl; [|lia]. subst l.
    destruct C as [[C ->]|[C [[D ->]|[D ->]]]].
    + apply Z.ltb_lt in C. rewrite C. reflexivity.
    + replace (d <? _) with false by (symmetry; apply Z.ltb_ge; lia). apply Z.ltb_lt in D. rewrite D. reflexivity.
    + replace (d <? _) with false by (symmetry; apply Z.ltb_ge; lia). subst m. reflexivity.
  - intros ->. exists (dim (is_leap y) m). split; [apply dim_iff; [lia|reflexivity]|].
    destruct (Z.ltb_spec d (dim (is_leap y) m)) as [C|C]; [left; split; [exact C|reflexivity]|].
    right. split; [lia|]. destruct (Z.ltb_spec m 12); [left|right]; (split; [lia|reflexivity]).
Qed.

Lemma civil_counts : counts_days civil.
Proof.
  split; [vm_compute; reflexivity|]. intro n. destruct (civil_good n) as [V N]. split; [apply date_iff, V|]. apply after_iff; [exact V|auto].
Qed.

Lemma dim_pos l m : 1 <= m <= 12 -> 28 <= dim l m.
Proof.
  intro H. assert (C : m = 1 \/ m = 2 \/ m = 3 \/ m = 4 \/ m = 5 \/ m = 6 \/ m = 7 \/ m = 8 \/ m = 9 \/ m = 10 \/ m = 11 \/ m = 12) by lia.
  months C; destruct l; vm_compute; discriminate.
Qed.
Lemma next_injective t t' : valid t = true -> valid t' = true -> next t = next t' -> t = t'.
Proof.
  destruct t as [[y m] d], t' as [[y' m'] d']. unfold valid, next. rewrite !andb_true_iff, !Z.leb_le.
  intros [[[H1 H2] H3] H4] [[[G1 G2] G3] G4].
  destruct (Z.ltb_spec d (dim (is_leap y) m)), (Z.ltb_spec d' (dim (is_leap y') m')), (Z.ltb_spec m 12), (Z.ltb_spec m' 12);
    intro E; apply pair_equal_spec in E; destruct E as [E E3]; apply pair_equal_spec in E; destruct E as [E1 E2]; try lia.
  all: try (assert (y = y') by lia; assert (m = m') by lia; subst; f_equal; lia).
Qed.
Lemma counts_unique f g : counts_days f -> counts_days g -> forall n, f n = g n.
Proof.
  intros [F0 F] [G0 G].
  assert (P : forall h, (h = f \/ h = g) -> forall n, valid (h n) = true /\ h (n + 1) = next (h n)).
  { intros h Hh n. assert (X : calendar_date (h n) /\ day_after (h n) (h (n + 1))) by (destruct Hh; subst h; auto).
    destruct X as [X Y]. apply date_iff in X. split; [exact X|]. apply after_iff; assumption. }
  assert (U : forall n, 0 <= n -> f n = g n).
  { apply natlike_ind; [congruence|]. intros n _ IH. unfold Z.succ.
    rewrite (proj2 (P f (or_introl eq_refl) n)), (proj2 (P g (or_intror eq_refl) n)), IH. reflexivity. }
  assert (D : forall n, 0 <= n -> f (- n) = g (- n)).
  { apply natlike_ind; [cbn; congruence|]. intros n _ IH.
    destruct (P f (or_introl eq_refl) (- Z.succ n)) as [V1 E1]. destruct (P g (or_intror eq_refl) (- Z.succ n)) as [V2 E2].
    replace (- Z.succ n + 1) with (- n) in E1, E2 by lia. apply next_injective; [assumption..|]. congruence. }
  intro n. destruct (Z.le_gt_cases 0 n); [auto|]. replace n with (- - n) by lia. apply D. lia.
Qed.
Lemma number_iff t n : day_number t n <-> civil n = t.
Proof.
  split; [intros (f & F & <-); apply counts_unique; [apply civil_counts|exact F]|].
  intro H. exists civil. split; [apply civil_counts|exact H].
Qed.

(** ** Instants *)

Definition year (t : Z * Z * Z) : Z := fst (fst t).
Lemma next_year t : valid t = true -> year t <= year (next t).
Proof. destruct t as [[y m] d]. intros _. unfold next, year. destruct (d <? _); [cbn; lia|]. destruct (m <? 12); cbn; lia. Qed.
Lemma year_grows n k : 0 <= k -> year (civil n) <= year (civil (n + k)).
Proof.
  intro H. pattern k. apply natlike_ind; [rewrite Z.add_0_r; lia| |exact H]. clear k H. intros k Hk IH.
  replace (n + Z.succ k) with (n + k + 1) by lia. destruct (civil_good (n + k)) as [V N]. rewrite <- N. pose proof (next_year _ V). lia.
Qed.
Lemma year_first n : 1 <= year (civil n) <-> -719162 <= n.
Proof.
  split; intro H.
  - destruct (Z.le_gt_cases (-719162) n) as [L|L]; [exact L|exfalso].
    pose proof (year_grows n (-719163 - n) ltac:(lia)) as G. replace (n + (-719163 - n)) with (-719163) in G by lia.
    replace (year (civil (-719163))) with 0 in G by (vm_compute; reflexivity). lia.
  - pose proof (year_grows (-719162) (n + 719162) ltac:(lia)) as G. replace (-719162 + (n + 719162)) with n in G by lia.
    replace (year (civil (-719162))) with 1 in G by (vm_compute; reflexivity). exact G.
Qed.
Lemma year_last n : year (civil n) <= 9999 <-> n < 2932897.
Proof.
  split; intro H.
  - destruct (Z.lt_ge_cases n 2932897) as [L|L]; [exact L|exfalso].
    pose proof (year_grows 2932897 (n - 2932897) ltac:(lia)) as G. replace (2932897 + (n - 2932897)) with n in G by lia.
    replace (year (civil 2932897)) with 10000 in G by (vm_compute; reflexivity). lia.
  - pose proof (year_grows n (2932896 - n) ltac:(lia)) as G. replace (n + (2932896 - n)) with 2932896 in G by lia.
    replace (year (civil 2932896)) with 9999 in G by (vm_compute; reflexivity). exact G.
Qed.
Lemma out_of_years n : ((year (civil n) <? 1) || (9999 <? year (civil n)))%bool = negb ((-719162 <=? n) && (n <? 2932897)).
Proof.
  pose proof (year_first n) as A. pose proof (year_last n) as B.
  destruct (Z.ltb_spec (year (civil n)) 1), (Z.ltb_spec 9999 (year (civil n))), (Z.leb_spec (-719162) n), (Z.ltb_spec n 2932897); cbn; try reflexivity; exfalso; lia.
Qed.

Lemma years_iff t q r : t = q * 86400000000 + r -> 0 <= r < 86400000000 -> (python_years t <-> -719162 <= q < 2932897).
Proof. intros -> H. unfold python_years. change (year_begins 1) with (-719162). change (year_begins 10000) with 2932897. lia. Qed.

(** How a count of units is broken down. *)
Lemma broken_down_at u l t : lasts u l -> exists n us, broken_down u t = (civil n, us) /\
  t * l = n * 86400000000 + us /\ 0 <= us < 86400000000 /\ (whole_days u = true -> us = 0).
Proof.
  intro H. assert (M : forall c, 0 < c -> t = c * (t / c) + t mod c /\ 0 <= t mod c < c) by (intros c Hc; split; [apply Z.div_mod; lia|apply Z.mod_pos_bound; lia]).
  destruct H; unfold broken_down.
  7:{ exists (t * 7), 0. repeat split; lia. }
  all: eexists _, _; split; [reflexivity|].
  - specialize (M 86400000000 ltac:(lia)). change (per_day Uus) with 86400000000. change (micros_per_day / 86400000000) with 1. repeat split; try lia. discriminate.
  - specialize (M 86400000 ltac:(lia)). change (per_day Ums) with 86400000. change (micros_per_day / 86400000) with 1000. repeat split; try lia. discriminate.
  - specialize (M 86400 ltac:(lia)). change (per_day Us) with 86400. change (micros_per_day / 86400) with 1000000. repeat split; try lia. discriminate.
  - specialize (M 1440 ltac:(lia)). change (per_day Um) with 1440. change (micros_per_day / 1440) with 60000000. repeat split; try lia. discriminate.
  - specialize (M 24 ltac:(lia)). change (per_day Uh) with 24. change (micros_per_day / 24) with 3600000000. repeat split; try lia. discriminate.
  - specialize (M 1 ltac:(lia)). change (per_day UD) with 1. change (micros_per_day / 1) with 86400000000. repeat split; lia.
Qed.

Lemma lasts_micros u l : lasts u l -> to_micros u = true.
Proof. intros []; reflexivity. Qed.
Lemma item_at u l k n : lasts u l ->
  (python_years (n * k * l) -> at_micros (item_datetime u k (Some n)) (n * k * l)) /\
  (~ python_years (n * k * l) -> item_datetime u k (Some n) = PInt n).
Proof.
  intro H. destruct (broken_down_at u l (n * k) H) as (q & us & B & E & R & W).
  pose proof (years_iff _ _ _ E R) as Y. rewrite E in *.
  assert (X : item_datetime u k (Some n) = let '(y, m, d) := civil q in
     if ((y <? 1) || (9999 <? y))%bool then PInt n
     else if whole_days u then PDate y m d
     else PDatetime y m d (us / 3600000000) (us / 60000000 mod 60) (us / 1000000 mod 60) (us mod 1000000)).
  { unfold item_datetime. rewrite (lasts_micros _ _ H), B. destruct (civil q) as [[y m] d]. destruct H; reflexivity. }
  rewrite X. clear X. pose proof (out_of_years q) as O. destruct (civil q) as [[y m] d] eqn:Cq. change (year (y, m, d)) with y in O. rewrite O.
  assert (D : day_number (y, m, d) q) by (apply number_iff, Cq). split; intro P.
  - apply Y in P. replace (negb _) with false by (destruct (Z.leb_spec (-719162) q), (Z.ltb_spec q 2932897); try reflexivity; lia).
    destruct (whole_days u).
    + rewrite W, Z.add_0_r by reflexivity. constructor. exact D.
    + assert (F : us = us / 3600000000 * 3600000000 + (us / 60000000 mod 60) * 60000000 + (us / 1000000 mod 60) * 1000000 + us mod 1000000).
      { clear -R. pose proof (Z.div_mod us 1000000 ltac:(lia)) as A1. pose proof (Z.div_mod (us / 1000000) 60 ltac:(lia)) as A2.
        rewrite Z.div_div in A2 by lia. change (1000000 * 60) with 60000000 in A2.
        pose proof (Z.div_mod (us / 60000000) 60 ltac:(lia)) as A3. rewrite Z.div_div in A3 by lia. change (60000000 * 60) with 3600000000 in A3. lia. }
      replace (q * 86400000000 + us) with (q * 86400000000 + us / 3600000000 * 3600000000 + (us / 60000000 mod 60) * 60000000 + (us / 1000000 mod 60) * 1000000 + us mod 1000000) by lia.
      constructor; [exact D| |apply Z.mod_pos_bound; lia..].
      split; [apply Z.div_pos; lia|apply Z.div_lt_upper_bound; lia].
  - replace (negb _) with true; [reflexivity|]. destruct (Z.leb_spec (-719162) q), (Z.ltb_spec q 2932897); try reflexivity. exfalso. apply P, Y. lia.
Qed.

Lemma at_inj v t t' : at_micros v t -> at_micros v t' -> t = t'.
Proof.
  assert (U : forall d n n', day_number d n -> day_number d n' -> n = n').
  { intros d n n' A B. apply number_iff in A, B. subst d.
    assert (G : forall n k, 0 < k -> civil n <> civil (n + k)).
    { clear. intros n k Hk E.
      (* the position in the calendar grows *)
      set (pos := fun t : Z * Z * Z => let '(y, m, d) := t in (y * 12 + m) * 32 + d).
      assert (S : forall n, pos (civil n) < pos (civil (n + 1))).
      { clear. intro n. destruct (civil_good n) as [V N]. rewrite <- N. destruct (civil n) as [[y m] d]. unfold valid in V. unfold next.
        rewrite !andb_true_iff, !Z.leb_le in V. destruct V as [[[V1 V2] V3] V4].
        assert (dim (is_leap y) m <= 31).
        { clear -V1 V2. generalize (is_leap y). intro l. assert (C : m = 1 \/ m = 2 \/ m = 3 \/ m = 4 \/ m = 5 \/ m = 6 \/ m = 7 \/ m = 8 \/ m = 9 \/ m = 10 \/ m = 11 \/ m = 12) by lia.
          months C; destruct l; vm_compute; discriminate. }
        destruct (d <? _); [cbn; lia|]. destruct (Z.ltb_spec m 12); unfold pos; lia. }
      assert (G : forall j, 0 <= j -> pos (civil n) <= pos (civil (n + j))).
      { apply natlike_ind; [rewrite Z.add_0_r; lia|]. intros j Hj IH. replace (n + Z.succ j) with (n + j + 1) by lia. specialize (S (n + j)). lia. }
      specialize (G (k - 1) ltac:(lia)). specialize (S (n + (k - 1))). replace (n + (k - 1) + 1) with (n + k) in S by lia. rewrite <- E in S. lia. }
    destruct (Z.lt_trichotomy n n') as [L|[L|L]]; [|exact L|].
    - exfalso. apply (G n (n' - n) ltac:(lia)). replace (n + (n' - n)) with n' by lia. congruence.
    - exfalso. apply (G n' (n - n') ltac:(lia)). replace (n' + (n - n')) with n by lia. congruence. }
  intros A B. destruct A; inversion B; subst.
  - f_equal. eapply U; eassumption.
  - assert (n = n0) by (eapply U; eassumption). subst. reflexivity.
Qed.

Lemma item_months k n : python_time UM (n * k) ->
  exists y m, item_datetime UM k (Some n) = PDate y m 1 /\ 1 <= m <= 12 /\ n * k = 12 * (y - 1970) + (m - 1).
Proof.
  unfold python_time. intro H. pose proof (Z.div_mod (n * k) 12 ltac:(lia)) as E. pose proof (Z.mod_pos_bound (n * k) 12 ltac:(lia)) as B.
  exists (1970 + n * k / 12), (n * k mod 12 + 1). cbn -[Z.div Z.modulo Z.add Z.mul Z.ltb].
  destruct (Z.ltb_spec (1970 + n * k / 12) 1); [exfalso; lia|]. destruct (Z.ltb_spec 9999 (1970 + n * k / 12)); [exfalso; lia|]. cbn [orb].
  split; [reflexivity|]. lia.
Qed.
Lemma item_years k n : python_time UY (n * k) -> item_datetime UY k (Some n) = PDate (1970 + n * k) 1 1.
Proof.
  unfold python_time. intro H. cbn -[Z.add Z.mul Z.ltb].
  destruct (Z.ltb_spec (1970 + n * k) 1); [exfalso; lia|]. destruct (Z.ltb_spec 9999 (1970 + n * k)); [exfalso; lia|]. reflexivity.
Qed.

Lemma item_length u l k n : lasts u l ->
  (-999999999 * 86400000000 <= n * k * l < 1000000000 * 86400000000 ->
   exists d s us, item_timedelta u k (Some n) = PTimedelta d s us /\
     n * k * l = d * 86400000000 + s * 1000000 + us /\ 0 <= s < 86400 /\ 0 <= us < 1000000) /\
  (~ (-999999999 * 86400000000 <= n * k * l < 1000000000 * 86400000000) -> item_timedelta u k (Some n) = PInt n).
Proof.
  intro H. assert (X : exists q us, item_timedelta u k (Some n) =
      (if ((q <? -999999999) || (999999999 <? q))%bool then PInt n else PTimedelta q (us / 1000000) (us mod 1000000)) /\
      n * k * l = q * 86400000000 + us /\ 0 <= us < 86400000000).
  { pose proof (lasts_micros u l H) as T. set (t := n * k).
    set (t' := t * (match u with UW => 7 | _ => 1 end)).
    exists (t' / per_day u), ((t' mod per_day u) * (micros_per_day / per_day u)).
    split; [unfold item_timedelta; rewrite T; destruct H; reflexivity|].
    assert (M : forall c, 0 < c -> t' = c * (t' / c) + t' mod c /\ 0 <= t' mod c < c) by (intros c Hc; split; [apply Z.div_mod; lia|apply Z.mod_pos_bound; lia]).
    destruct H; cbn [per_day].
    - specialize (M (24 * 60 * 60 * 1000 * 1000) ltac:(lia)). change (micros_per_day / _) with 1. unfold t', t in *. lia.
    - specialize (M (24 * 60 * 60 * 1000) ltac:(lia)). change (micros_per_day / _) with 1000. unfold t', t in *. lia.
    - specialize (M (24 * 60 * 60) ltac:(lia)). change (micros_per_day / _) with 1000000. unfold t', t in *. lia.
    - specialize (M (24 * 60) ltac:(lia)). change (micros_per_day / _) with 60000000. unfold t', t in *. lia.
    - specialize (M 24 ltac:(lia)). change (micros_per_day / _) with 3600000000. unfold t', t in *. lia.
    - specialize (M 1 ltac:(lia)). change (micros_per_day / _) with 86400000000. unfold t', t in *. lia.
    - specialize (M 1 ltac:(lia)). change (micros_per_day / _) with 86400000000. unfold t', t in *. lia. }
  destruct X as (q & us & -> & E & B). rewrite E. pose proof (Z.div_mod us 1000000 ltac:(lia)) as D. pose proof (Z.mod_pos_bound us 1000000 ltac:(lia)) as R.
  split; intro P.
  - destruct (Z.ltb_spec q (-999999999)); [exfalso; lia|]. destruct (Z.ltb_spec 999999999 q); [exfalso; lia|].
    eexists _, _, _. split; [reflexivity|]. lia.
  - destruct (Z.ltb_spec q (-999999999)); [reflexivity|]. destruct (Z.ltb_spec 999999999 q); [reflexivity|]. exfalso. lia.
Qed.

(** ** Objects *)

Lemma scalar_ind' (P : scalar -> Prop) : (forall x, (forall fs, x <> NRecord fs) -> P x) ->
  (forall fs, Forall (fun f => P (snd f)) fs -> P (NRecord fs)) -> forall x, P x.
Proof.
  intros H0 H1. fix F 1. intro x. destruct x; try (apply H0; intro; discriminate). apply H1.
  induction fields as [|f r IH]; constructor; [apply F|exact IH].
Qed.
Lemma pyval_ind' (P : pyval -> Prop) :
  (forall v, match v with PTuple l | PList l => Forall P l | PDict l => Forall (fun kv => P (snd kv)) l | _ => True end -> P v) -> forall v, P v.
Proof.
  intro H. fix F 1. intro v. apply H. destruct v; try exact Logic.I; (induction l as [|x r IH]; constructor; [apply F|exact IH]).
Qed.

Lemma encode_list l : encode (PTuple l) = bind (mapM encode l) (fun l' => Ok (DArr l')).
Proof.
  cbn. match goal with |- bind ?a _ = bind ?b _ => assert (E : a = b) end; [|rewrite E; reflexivity].
  induction l as [|x r IH]; cbn [mapM]; [reflexivity|]. rewrite IH. reflexivity.
Qed.
Lemma mapM_iff {A B} (f : A -> res B) l : forall m, mapM f l = Ok m <-> Forall2 (fun a b => f a = Ok b) l m.
Proof.
  induction l as [|x r IH]; cbn; intro m.
  - split; [intros [= <-]; constructor|intro H; inversion H; reflexivity].
  - split.
    + destruct (f x) as [y|e] eqn:E; cbn; [|discriminate]. destruct (mapM f r) as [ys|e] eqn:E2; cbn; [|discriminate].
      intros [= <-]. constructor; [exact E|]. apply IH. reflexivity.
    + intro H. inversion H as [|? y ? ys Hy Hys]; subst. rewrite Hy. cbn. apply IH in Hys. rewrite Hys. reflexivity.
Qed.

Lemma itemize_twice v : itemize_numpy (itemize_numpy v) = itemize_numpy v.
Proof.
  assert (X : forall x, itemize_numpy (item x) = item x).
  { intros []; cbn [item]; try reflexivity.
    - unfold item_datetime. destruct n as [n|]; [|reflexivity]. destruct u; try reflexivity; cbn [to_micros whole_days];
        destruct (broken_down _ _) as [[[y m] d] us]; destruct (_ || _)%bool; reflexivity.
    - unfold item_timedelta. destruct n as [n|]; [|reflexivity]. destruct u; try reflexivity; cbn [to_micros]; destruct (_ || _)%bool; reflexivity. }
  destruct v; cbn [itemize_numpy]; try reflexivity. apply X.
Qed.

Lemma datetime_plain u k n : ~ numpy_inside (item_datetime u k n).
Proof.
  unfold item_datetime. destruct n as [n|]; [|auto]. destruct u; auto; cbn [to_micros whole_days];
    destruct (broken_down _ _) as [[[y m] d] us]; destruct (_ || _)%bool; auto.
Qed.
Lemma timedelta_plain u k n : ~ numpy_inside (item_timedelta u k n).
Proof. unfold item_timedelta. destruct n as [n|]; [|auto]. destruct u; auto; cbn [to_micros]; destruct (_ || _)%bool; auto. Qed.
Lemma item_plain x : numpy_inside (item x) <-> extended_inside x.
Proof.
  induction x as [x H|fs H] using scalar_ind'.
  - destruct x; cbn; try tauto; try (exfalso; apply (H fields); reflexivity).
    + split; [apply datetime_plain|contradiction].
    + split; [apply timedelta_plain|contradiction].
  - cbn. induction H as [|[k y] r Hy _ IH]; cbn; [tauto|]. cbn in Hy. rewrite Hy, IH. reflexivity.
Qed.

Lemma encode_type v e : encode v = Exc e -> e = TypeError.
Proof.
  revert e. induction v as [v H] using pyval_ind'. intro e.
  assert (L : forall l, Forall (fun v => forall e, encode v = Exc e -> e = TypeError) l -> encode (PTuple l) = Exc e -> e = TypeError).
  { intros l Hl. rewrite encode_list. induction Hl as [|x r Hx _ IH]; cbn; [discriminate|].
    destruct (encode x) eqn:E; cbn; [|intros [= <-]; apply Hx; first [exact E|reflexivity]].
    destruct (mapM encode r) eqn:E2; cbn in *; [discriminate|]. intros [= <-]. apply IH. reflexivity. }
  destruct v; cbn [encode]; try discriminate; try (intros [= <-]; reflexivity).
  - exact (L l H).
  - exact (L l H).
  - induction H as [|[k x] r Hx _ IH]; cbn; [discriminate|]. cbn in Hx, IH.
    destruct (encode x) eqn:E; cbn; [|intros [= <-]; apply Hx; first [exact E|reflexivity]].
    match goal with |- context [bind ?a (fun ys => Ok ((k, _) :: ys))] => destruct a eqn:E2; cbn in *; [discriminate|] end.
    intros [= <-]. apply IH. reflexivity.
  - destruct x; try discriminate; try (intros [= <-]; reflexivity). destruct w; try discriminate; intros [= <-]; reflexivity.
Qed.

Lemma encode_kept v d : encode v = Ok d -> encode (itemize_numpy v) = Ok d.
Proof.
  destruct v; cbn [itemize_numpy]; auto. destruct x; cbn; try discriminate; auto. destruct w; try discriminate; auto.
Qed.

Lemma coarse_cases u : coarse u -> u = UY \/ u = UM \/ exists l, lasts u l.
Proof.
  unfold coarse. destruct u; intro H; auto; try (exfalso; apply H; cbn; tauto); right; right; eexists; constructor.
Qed.
Lemma lasts_time u l t : lasts u l -> (python_time u t <-> python_years (t * l)).
Proof.
  intro H. assert (X : python_time u t <-> (forall l, lasts u l -> python_years (t * l))) by (destruct H; reflexivity).
  rewrite X. split; [auto|]. intros Y l' H'. assert (l' = l) by (destruct H; inversion H'; reflexivity). subst. exact Y.
Qed.
Lemma date_fails v t : at_micros v t -> encode v = Exc TypeError.
Proof. intros []; reflexivity. Qed.
Lemma years_dec t : python_years t \/ ~ python_years t.
Proof. unfold python_years. lia. Qed.

Lemma datetime_stands u k n d : encode (item_datetime u k n) = Ok d <-> stands_for (NDatetime u k n) d.
Proof.
  destruct n as [n|].
  2:{ split; [intros [= <-]; constructor|intro H; inversion H; reflexivity]. }
  assert (C : u = UGeneric \/ In u [Uns; Ups; Ufs; Uas] \/ coarse u) by (unfold coarse; destruct u; first [left; reflexivity|right; left; cbn; tauto|right; right; cbn; intuition discriminate]).
  destruct C as [->|[C|C]].
  - split; [intros [= <-]; constructor|]. intro H. inversion H; subst; try reflexivity; exfalso; match goal with Q : coarse _ |- _ => apply Q; cbn; tauto | Q : In _ _ |- _ => cbn in Q; intuition discriminate end.
  - assert (X : item_datetime u k (Some n) = PInt n) by (cbn in C; destruct C as [<-|[<-|[<-|[<-|[]]]]]; reflexivity). rewrite X.
    split; [intros [= <-]; apply sf_fine, C|]. intro H. inversion H; subst; try reflexivity. exfalso. cbn in C. clear - C. intuition discriminate.
  - assert (Y : forall P : Prop, (python_time u (n * k) -> encode (item_datetime u k (Some n)) = Exc TypeError) ->
       (~ python_time u (n * k) -> item_datetime u k (Some n) = PInt n) -> (python_time u (n * k) \/ ~ python_time u (n * k)) ->
       (encode (item_datetime u k (Some n)) = Ok d <-> stands_for (NDatetime u k (Some n)) d)).
    { intros _ A B [D|D].
      - rewrite (A D). split; [discriminate|]. intro H. inversion H; subst; exfalso; [apply C; cbn; tauto|unfold coarse in C; cbn in *; tauto|contradiction].
      - rewrite (B D). split; [intros [= <-]; apply sf_far; assumption|]. intro H. inversion H; subst; try reflexivity. exfalso. apply C. cbn. tauto. }
    apply (Y True); clear Y; destruct (coarse_cases u C) as [->|[->|[l L]]].
    + intro P. rewrite item_years by exact P. reflexivity.
    + intro P. destruct (item_months k n P) as (y & m & -> & _). reflexivity.
    + intro P. apply (date_fails _ (n * k * l)). apply (item_at u l k n L). apply (lasts_time u l _ L), P.
    + unfold python_time. intro P. cbn -[Z.add Z.mul Z.ltb]. destruct (Z.ltb_spec (1970 + n * k) 1); [reflexivity|]. destruct (Z.ltb_spec 9999 (1970 + n * k)); [reflexivity|]. exfalso. lia.
    + unfold python_time. intro P. pose proof (Z.div_mod (n * k) 12 ltac:(lia)) as E. pose proof (Z.mod_pos_bound (n * k) 12 ltac:(lia)) as B.
      cbn -[Z.div Z.modulo Z.add Z.mul Z.ltb].
      destruct (Z.ltb_spec (1970 + n * k / 12) 1); [reflexivity|]. destruct (Z.ltb_spec 9999 (1970 + n * k / 12)); [reflexivity|]. exfalso. lia.
    + intro P. apply (item_at u l k n L). intro Q. apply P, (lasts_time u l _ L), Q.
    + cbn. lia.
    + cbn. lia.
    + rewrite (lasts_time u l _ L). apply years_dec.
Qed.
Lemma timedelta_stands u k n d : encode (item_timedelta u k n) = Ok d <-> stands_for (NTimedelta u k n) d.
Proof.
  destruct n as [n|].
  2:{ split; [intros [= <-]; constructor|intro H; inversion H; reflexivity]. }
  assert (C : In u [UY; UM; Uns; Ups; Ufs; Uas; UGeneric] \/ exists l, lasts u l)
    by (destruct u; try (left; cbn; tauto); right; eexists; constructor).
  destruct C as [C|[l L]].
  - assert (X : item_timedelta u k (Some n) = PInt n) by (cbn in C; repeat (destruct C as [<-|C]; [reflexivity|]); contradiction). rewrite X.
    split; [intros [= <-]; apply sf_delta, C|]. intro H. inversion H; subst; reflexivity.
  - destruct (item_length u l k n L) as [A B].
    assert (D : -999999999 * 86400000000 <= n * k * l < 1000000000 * 86400000000 \/ ~ (-999999999 * 86400000000 <= n * k * l < 1000000000 * 86400000000)) by lia.
    destruct D as [D|D].
    + destruct (A D) as (x & y & z & -> & _). split; [discriminate|]. intro H. exfalso. inversion H as [ | | | | | | | | |? ? ? Hu|? ? ? l' L' F| ]; subst.
      * destruct L; cbn in Hu; intuition discriminate.
      * assert (l' = l) by (destruct L; inversion L'; reflexivity). subst. exact (F D).
    + rewrite (B D). split; [intros [= <-]; exact (sf_long u k n l L D)|]. intro H. inversion H; subst; reflexivity.
Qed.
Lemma item_stands x d : encode (itemize_numpy (PNumpy x)) = Ok d <-> stands_for x d.
Proof.
  cbn [itemize_numpy]. revert d. induction x as [x H|fs H] using scalar_ind'; intro d.
  - destruct x; cbn [item]; try apply datetime_stands; try apply timedelta_stands; try (exfalso; apply (H fields); reflexivity).
    all: split; [try discriminate; try (intros [= <-]; constructor)|intro Q; inversion Q; reflexivity].
  - cbn [item]. rewrite encode_list. split.
    + destruct (mapM encode _) as [ds|] eqn:E; cbn; [|discriminate]. intros [= <-]. constructor.
      apply mapM_iff in E. clear - E H. remember (map _ fs) as l. revert fs H Heql. induction E as [|v dd l ds Hv _ IH]; intros [|f fs] H Q; try discriminate; constructor.
      * inversion H; subst. injection Q as -> _. apply H2. exact Hv.
      * inversion H; subst. injection Q as _ ->. apply IH; [assumption|reflexivity].
    + intro Q. inversion Q as [ | | | | | | | | | | |? ds F]; subst. assert (E : mapM encode (map (fun f => item (snd f)) fs) = Ok ds); [|rewrite E; reflexivity].
      apply mapM_iff. clear Q. induction F as [|f dd fs ds Hf _ IH]; constructor; inversion H; subst; [apply H2, Hf|apply IH; assumption].
Qed.
