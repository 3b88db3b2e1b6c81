(** Calls in a child process. *)
From Coq Require Import Lia Wf_nat.
From Verif Require Export Tutil_Spec.
Open Scope Z_scope.

(** ** Lengths *)

Lemma size_app a b : size (a ++ b) = size a + size b.
Proof. unfold size. rewrite app_length. lia. Qed.
Lemma size_pos a : 0 <= size a.
Proof. unfold size. lia. Qed.
Lemma size_cons x a : size (x :: a) = 1 + size a.
Proof. unfold size. cbn [List.length]. lia. Qed.
Lemma size_be k : forall n, size (big_endian k n) = Z.of_nat k.
Proof. induction k as [|k IH]; intro n; [reflexivity|]. cbn [big_endian]. rewrite size_app, IH. unfold size. cbn. lia. Qed.
Lemma of_bytes_snoc l x : of_bytes (l ++ [x]) = of_bytes l * 256 + x.
Proof. unfold of_bytes. now rewrite fold_left_app. Qed.
Lemma of_be k : forall n, 0 <= n < 256 ^ Z.of_nat k -> of_bytes (big_endian k n) = n.
Proof.
  induction k as [|k IH]; intros n H; [cbn in H; cbn; lia|]. cbn [big_endian]. rewrite of_bytes_snoc.
  rewrite Nat2Z.inj_succ, Z.pow_succ_r in H by lia. rewrite IH; [pose proof (Z_div_mod_eq_full n 256); lia|].
  split; [apply Z.div_pos; lia|]. apply Z.div_lt_upper_bound; lia.
Qed.
Lemma header_size n : size (header n) = if n <=? 2147483647 then 4 else 12.
Proof. unfold header. destruct (n <=? 2147483647); [apply size_be|]. now rewrite size_app, !size_be. Qed.
Lemma frame_size b : size (frame b) = size b + prefix_size b.
Proof. unfold frame, prefix_size. rewrite size_app, header_size. destruct (size b <=? 2147483647); lia. Qed.
Lemma firstn_pre {A} (h : list A) : forall g y b, g ++ y = h ++ b -> (List.length h <= List.length g)%nat -> exists g', g = h ++ g' /\ g' ++ y = b.
Proof.
  induction h as [|x h IH]; intros g y b E L; [exists g; auto|]. destruct g as [|z g]; [cbn in L; lia|]. cbn in E. injection E as -> E. cbn in L.
  destruct (IH g y b E) as (g' & -> & E'); [lia|]. exists g'. auto.
Qed.
Lemma firstn_exact {A} (h r : list A) n : List.length h = n -> firstn n (h ++ r) = h.
Proof. intros <-. rewrite firstn_app, firstn_all, Nat.sub_diag. cbn. now rewrite app_nil_r. Qed.
Lemma skipn_exact {A} (h r : list A) n : List.length h = n -> skipn n (h ++ r) = r.
Proof. intros <-. now rewrite skipn_app, skipn_all, Nat.sub_diag. Qed.
Lemma len_be k n : List.length (big_endian k n) = k.
Proof. pose proof (size_be k n) as H. unfold size in H. lia. Qed.
(** Having got part of a frame, it waits for more, but not for more than comes;
    having got all, it has the message. *)
Lemma wanted_ok g y b : size b < 2 ^ 64 -> g ++ y = frame b ->
  (y = [] -> wanted g = 0 /\ message_of g = b) /\ (y <> [] -> 0 < wanted g <= size y).
Proof.
  intros B E. assert (S := frame_size b). rewrite <- E, size_app in S. assert (P := size_pos b). assert (Pg := size_pos g).
  assert (Y : y <> [] -> 0 < size y). { destruct y; [congruence|]. intros _. rewrite size_cons. pose proof (size_pos y). lia. }
  unfold prefix_size in S. unfold frame, header in E. unfold wanted, message_of. destruct (size b <=? 2147483647) eqn:H; [apply Z.leb_le in H|apply Z.leb_gt in H].
  - destruct (size g <? 4) eqn:G; [apply Z.ltb_lt in G|apply Z.ltb_ge in G].
    + split; [intros ->; change (size []) with 0 in *; lia|lia].
    + destruct (firstn_pre _ _ _ _ E) as (g' & -> & E'); [rewrite len_be; unfold size in G; lia|].
      rewrite firstn_exact, skipn_exact by apply len_be. rewrite of_be by (cbn; lia). replace (size b =? 4294967295) with false by lia.
      split; [intros ->; rewrite app_nil_r in E'; subst g'; change (size []) with 0 in *; split; [|reflexivity]; lia|].
      intro N. specialize (Y N). lia.
  - destruct (size g <? 4) eqn:G; [apply Z.ltb_lt in G|apply Z.ltb_ge in G].
    + split; [intros ->; change (size []) with 0 in *; lia|lia].
    + rewrite <- app_assoc in E. destruct (firstn_pre _ _ _ _ E) as (g' & -> & E'); [rewrite len_be; unfold size in G; lia|].
      rewrite (firstn_exact _ g' 4) by apply len_be. rewrite (skipn_exact _ g' 4) by apply len_be. rewrite (of_be 4 4294967295) by (cbn; lia).
      rewrite Z.eqb_refl. rewrite size_app, size_be in *.
      destruct (Z.of_nat 4 + size g' <? 12) eqn:G2; [apply Z.ltb_lt in G2|apply Z.ltb_ge in G2].
      * split; [intros ->; change (size []) with 0 in *; lia|lia].
      * destruct (firstn_pre _ _ _ _ E') as (g2 & -> & E2); [rewrite len_be; unfold size in G2; lia|].
        rewrite (firstn_exact _ g2 8) by apply len_be. rewrite of_be by (split; [lia|change (256 ^ Z.of_nat 8) with (2 ^ 64); exact B]).
        rewrite app_assoc, (skipn_exact _ g2 12) by (rewrite app_length, !len_be; reflexivity).
        split; [intros ->; rewrite app_nil_r in E2; subst g2; split; [|reflexivity]; change (size []) with 0 in *; lia|]. intro N. specialize (Y N). lia.
Qed.

Section Piped.
  Context {obj : Type} (dumps : obj -> res (list byte_)) (loads : list byte_ -> res obj) (exn_obj : exn -> obj) (cap : Z).
  Notation step := (step dumps loads exn_obj cap).
  Notation sent := (sent dumps exn_obj).
  Notation pickled := (pickled dumps exn_obj).
  Notation started := (@started obj).

  Lemma sent_ok r b : pickled r b -> sent r = Some (frame b).
  Proof.
    intros (v & T & D & B). unfold sent. assert (B' : size b <? 18446744073709551616 = true) by now apply Z.ltb_lt.
    destruct T as [->|(e & -> & I & ->)]; [|rewrite I]; now rewrite D, B'.
  Qed.
  Lemma sent_some r m : sent r = Some m -> exists b, pickled r b /\ m = frame b.
  Proof.
    unfold sent. destruct r as [v|e].
    - destruct (dumps v) as [b|] eqn:D; [|discriminate]. destruct (size b <? 18446744073709551616) eqn:B; [|discriminate]. apply Z.ltb_lt in B.
      intro H. exists b. split; [|congruence]. exists v. split; [now left|]. auto.
    - destruct (is_Exception e) eqn:I; [|discriminate]. destruct (dumps (exn_obj e)) as [b|] eqn:D; [|discriminate]. destruct (size b <? 18446744073709551616) eqn:B; [|discriminate]. apply Z.ltb_lt in B.
      intro H. exists b. split; [|congruence]. exists (exn_obj e). split; [right; eauto|]. auto.
  Qed.

  Section Sends.
    Context (r : res obj) (b : list byte_) (P : pickled r b).
    Let m := frame b.
    Let B : size b < 2 ^ 64. Proof. destruct P as (v & _ & _ & B). exact B. Qed.
    Let M : sent r = Some m. Proof. now apply sent_ok. Qed.
    Let Mn : 0 < size m. Proof. unfold m. rewrite frame_size. unfold prefix_size. pose proof (size_pos b). destruct (size b <=? 2147483647); lia. Qed.

    Inductive inv : system obj -> Prop :=
    | i_call : inv {| ch := Calling; pipe := []; pa := Joining |}
    | i_send p y : p ++ y = m -> (p = [] \/ size p <= cap) -> inv {| ch := Sending y; pipe := p; pa := Joining |}
    | i_join : size m <= cap -> inv {| ch := Ended; pipe := m; pa := Joining |}
    | i_recv p g : size m <= cap -> g ++ p = m -> inv {| ch := Ended; pipe := p; pa := Receiving g |}
    | i_done : size m <= cap -> inv {| ch := Ended; pipe := []; pa := Done (loads b) |}.
    Definition measure (s : system obj) : nat :=
      (match ch s with Calling => List.length m + 2 | Sending y => List.length y + 1 | Ended => 0 end +
       match pa s with Joining => List.length m + 2 | Receiving _ => List.length (pipe s) + 1 | Done _ => 0 end)%nat.
    Lemma inv_step s t : inv s -> step (Some r) s t -> inv t /\ (measure t < measure s)%nat.
    Proof.
      intros I T. destruct I as [|p y E F|F|p g F E|F]; inversion T; subst; unfold measure; cbn [ch pa pipe].
      - match goal with H : Some _ = Some _ |- _ => injection H as <- end. rewrite M. split; [constructor; [reflexivity|now left]|]. cbn. lia.
      - split; [|cbn; rewrite app_length; destruct x; [congruence|]; cbn; lia].
        constructor; [now rewrite <- app_assoc|now right].
      - rewrite app_nil_r in E. subst p. split; [|cbn; lia]. constructor. destruct F as [F|F]; [|exact F]. rewrite F in Mn. unfold size in Mn. cbn in Mn. lia.
      - split; [|cbn; lia]. constructor; [exact F|reflexivity].
      - split; [|cbn; rewrite app_length; destruct x; [congruence|]; cbn; lia]. constructor; [exact F|now rewrite <- app_assoc].
      - destruct (wanted_ok g p b B E) as [W1 W2]. destruct p as [|z p]; [|specialize (W2 ltac:(discriminate)); lia].
        destruct (W1 eq_refl) as [_ ->]. split; [now constructor|]. cbn. lia.
    Qed.
    Lemma surely_inv (Q : system obj -> Prop) : (forall s, inv s -> (Q s /\ stuck (step (Some r)) s) \/ exists t, step (Some r) s t) ->
      forall s, inv s -> surely (step (Some r)) Q s.
    Proof.
      intros Hp s. induction s as [s IH] using (well_founded_induction (well_founded_ltof _ measure)). intro I. constructor.
      - intros t T. destruct (inv_step s t I T) as [J L]. apply IH; [exact L|exact J].
      - destruct (Hp s I); auto.
    Qed.
    Lemma returns_ok : size m <= cap -> surely (step (Some r)) (fun s => pa s = Done (loads b)) started.
    Proof.
      intro F. apply surely_inv; [|constructor]. intros s I. destruct I as [|p y E _|_|p g _ E|_].
      - right. eexists. now constructor.
      - right. destruct y as [|z y]; [eexists; constructor|]. exists {| ch := Sending []; pipe := p ++ (z :: y); pa := Joining |}.
        rewrite <- (app_nil_r (z :: y)) at 1. constructor; [discriminate|]. now rewrite E.
      - right. eexists. constructor.
      - right. destruct (wanted_ok g p b B E) as [W1 W2]. destruct p as [|z p].
        + eexists. apply s_done. now apply W1.
        + exists {| ch := Ended; pipe := p; pa := Receiving (g ++ [z]) |}. change (z :: p) with ([z] ++ p). constructor; [discriminate|].
          specialize (W2 ltac:(discriminate)). unfold size at 1. cbn. lia.
      - left. split; [reflexivity|]. intros t T. inversion T.
    Qed.
    Lemma deadlock_ok : cap < size m -> surely (step (Some r)) (fun s => pa s = Joining /\ exists y, ch s = Sending y /\ y <> []) started.
    Proof.
      intro F. apply surely_inv; [|constructor]. intros s I. destruct I as [|p y E C|?|p g ? E|?]; try lia.
      - right. eexists. now constructor.
      - destruct y as [|z y].
        { exfalso. rewrite app_nil_r in E. subst p. destruct C as [C|C]; [rewrite C in Mn; unfold size in Mn; cbn in Mn; lia|lia]. }
        destruct (Z_le_gt_dec (size p + 1) cap) as [L|L].
        + right. exists {| ch := Sending y; pipe := p ++ [z]; pa := Joining |}. change (z :: y) with ([z] ++ y). constructor; [discriminate|].
          rewrite size_app. unfold size at 2. cbn. lia.
        + left. split; [split; [reflexivity|]; exists (z :: y); split; [reflexivity|discriminate]|].
          intros t T. inversion T; subst. match goal with H : size _ <= cap |- _ => rewrite size_app in H end. destruct x as [|c x]; [congruence|]. rewrite size_cons in *. pose proof (size_pos x). lia.
    Qed.
    Lemma reach_inv s t : inv s -> gets_to dumps loads exn_obj cap (Some r) s t -> inv t.
    Proof. intros I R. induction R as [|x y z T R IH]; [exact I|]. apply IH. eapply inv_step; eassumption. Qed.
    Lemma reach_done s x : gets_to dumps loads exn_obj cap (Some r) started s -> pa s = Done x -> size m <= cap /\ x = loads b.
    Proof. intros R D. assert (I : inv s) by (eapply reach_inv; [constructor|exact R]). destruct I; cbn in D; try discriminate. split; [assumption|congruence]. Qed.
  End Sends.

  Section Silent.
    Context (r : res obj) (N : sent r = None).
    Inductive quiet : system obj -> Prop :=
    | q_call : quiet {| ch := Calling; pipe := []; pa := Joining |}
    | q_join : quiet {| ch := Ended; pipe := []; pa := Joining |}
    | q_recv : quiet {| ch := Ended; pipe := []; pa := Receiving [] |}.
    Lemma quiet_step s t : quiet s -> step (Some r) s t -> (quiet t /\ s <> t) /\ pa s = Joining.
    Proof.
      intros Q T. destruct Q; inversion T; subst.
      - match goal with H : Some _ = Some _ |- _ => injection H as <- end. rewrite N. repeat split; [constructor|discriminate].
      - repeat split; [constructor|discriminate].
      - destruct x; [congruence|discriminate].
      - discriminate.
    Qed.
    Lemma quiet_ok : surely (step (Some r)) (fun s => ch s = Ended /\ pa s = Receiving []) started.
    Proof.
      assert (Q3 : surely (step (Some r)) (fun s => ch s = Ended /\ pa s = Receiving []) {| ch := Ended; pipe := []; pa := Receiving [] |}).
      { assert (St : stuck (step (Some r)) {| ch := Ended; pipe := []; pa := Receiving [] |}).
        { intros t T. destruct (quiet_step _ _ q_recv T) as [_ H]. discriminate. }
        constructor; [intros t T; destruct (St _ T)|]. left. split; [split; reflexivity|exact St]. }
      constructor; [|right; eexists; constructor; reflexivity]. intros t T. inversion T; subst. match goal with H : Some _ = Some _ |- _ => injection H as <- end. rewrite N.
      constructor; [|right; eexists; constructor]. intros t2 T2. inversion T2; subst. exact Q3.
    Qed.
    Lemma quiet_reach s : gets_to dumps loads exn_obj cap (Some r) started s -> quiet s.
    Proof.
      intro R. assert (Q : quiet started) by constructor. revert Q. induction R as [|x y z T R IH]; intro Q; [exact Q|]. apply IH. eapply quiet_step; eassumption.
    Qed.
  End Silent.

  Lemma piped_returns r b : pickled r b -> size b + prefix_size b <= cap -> surely (step (Some r)) (fun s => pa s = Done (loads b)) started.
  Proof. intros P F. apply returns_ok; [exact P|]. now rewrite frame_size. Qed.
  Lemma piped_deadlock r b : pickled r b -> cap < size b + prefix_size b ->
    surely (step (Some r)) (fun s => pa s = Joining /\ exists y, ch s = Sending y /\ y <> []) started.
  Proof. intros P F. eapply deadlock_ok; [exact P|]. now rewrite frame_size. Qed.
  Lemma piped_silent r : ~ (exists b, pickled r b) -> surely (step (Some r)) (fun s => ch s = Ended /\ pa s = Receiving []) started.
  Proof. intro N. apply quiet_ok. destruct (sent r) as [m|] eqn:E; [|reflexivity]. exfalso. apply N. destruct (sent_some _ _ E) as [b [P _]]. eauto. Qed.
  Lemma piped_forever : stuck (step None) started.
  Proof. intros t T. inversion T; subst. discriminate. Qed.
  Lemma piped_iff o x : (exists s, gets_to dumps loads exn_obj cap o started s /\ pa s = Done x) <->
    exists r b, o = Some r /\ pickled r b /\ size b + prefix_size b <= cap /\ x = loads b.
  Proof.
    split.
    - intros (s & R & D). destruct o as [r|].
      + destruct (sent r) as [m|] eqn:E.
        * destruct (sent_some _ _ E) as (b & P & ->). destruct (reach_done r b P s x R D) as [F ->]. rewrite frame_size in F. eauto 10.
        * apply (quiet_reach r E) in R. destruct R; discriminate.
      + destruct R as [|y z T R]; [discriminate|]. destruct (piped_forever _ T).
    - intros (r & b & -> & P & F & ->). assert (S := piped_returns r b P F). clear -S. induction S as [s K IH D].
      destruct D as [[D _]|[t T]].
      + exists s. split; [constructor|exact D].
      + destruct (IH t T) as (u & R & D). exists u. split; [econstructor; eassumption|exact D].
  Qed.
End Piped.
