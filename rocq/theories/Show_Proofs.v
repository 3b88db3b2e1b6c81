(** Printing notepads, Stickies and stacks. *)
From Coq Require Import Lia.
From Verif Require Export Show_Spec.
From Verif Require Import Sticky_Proofs Grid_Lemmas Codec_Ast.

Section Show.
  Variable rm : cls -> string -> string.
  Definition texts (ks : list string) : val := VList (map (fun k => VAtom (KStr k)) ks).
  Lemma texts_literal ks : is_literal (texts ks) = true /\ wfv (texts ks) = true.
  Proof. unfold texts. induction ks as [|k ks [A B]]; [now split|]. cbn in *. now rewrite A, B. Qed.
  Lemma with_keys_says c ks : says c (with_keys rm c ks) ks.
  Proof. eexists. split; [reflexivity|]. destruct (texts_literal ks). now apply literal_repr. Qed.
  Lemma append_inj a b c : (a ++ b)%string = (a ++ c)%string -> b = c.
  Proof. induction a as [|x a IH]; cbn; intro H; [exact H|]. injection H as H. auto. Qed.
  Lemma texts_inj a b : texts a = texts b -> a = b.
  Proof. unfold texts. intro H. injection H as H. revert b H. induction a as [|x a IH]; intros [|y b] H; try discriminate H; [reflexivity|]. injection H as H1 H2. f_equal; auto. Qed.
  Lemma says_one c t a b : says c t a -> says c t b -> a = b.
  Proof.
    intros (x & -> & Hx) (y & E & Hy). apply append_inj, append_inj in E. subst y. rewrite Hx in Hy. injection Hy as Hy. apply texts_inj. unfold texts. now f_equal.
  Qed.
  Lemma with_keys_same c a b : with_keys rm c a = with_keys rm c b <-> a = b.
  Proof. split; [|now intros ->]. intro H. apply (says_one c (with_keys rm c a)); [apply with_keys_says|rewrite H; apply with_keys_says]. Qed.

  Lemma np_shown {V} hash K P (enc : V -> res bytes) dec isnone h s0 s nl c : preached hash K P enc dec isnone h s0 s ->
    exists t, run (let! p := notepad P false nl in np_str rm c p) s = (Some (Ok t), s) /\ says c t (map fst (pad_after enc isnone h)).
  Proof.
    intro Hr. destruct (preached_rep _ _ _ _ _ _ _ _ _ Hr) as (HK & W & _ & n & R & Q & Hc). eexists. split; [|apply with_keys_says].
    rewrite (run_bind_ok _ _ _ _ _ (notepad_attach hash K P (next s0) enc dec _ s nl W R)). unfold np_str.
    rewrite (run_bind_ok _ _ _ _ _ (np_keys_rep hash K P (next s0) enc dec _ s nl R)). reflexivity.
  Qed.
  Lemma keys_from_any x s : no_empty_keys (ix_name x) s -> wf s -> forall n i, exists ks, run (keys_from x n i) s = (Some (Ok ks), s).
  Proof.
    intros NE W. induction n as [|n IH]; intro i; cbn [keys_from]; [eexists; reflexivity|]. destruct (IH (i + 1)%Z) as [r E].
    rewrite run_bind, run_ptry. destruct (names s (key_address (ix_name x) i)) as [j|] eqn:N.
    - destruct (mem s j) as [b|] eqn:M; [|exfalso; eapply (proj1 (proj2 W)); eauto].
      assert (A : at_ s (key_address (ix_name x) i) j b) by (split; auto). assert (B : b <> ""%string) by (intros ->; exact (NE i j N M)).
      rewrite (run_bind_ok _ _ _ _ _ (attach_ok _ _ _ _ A B)), (read_ok _ _ _ _ A). cbn [run]. rewrite (run_bind_ok _ _ _ _ _ E). eexists; reflexivity.
    - rewrite (run_bind_exc _ _ _ _ _ (attach_none _ _ N)). cbn [run]. rewrite (run_bind_ok _ _ _ _ _ E). eexists; reflexivity.
  Qed.
  Lemma np_never_fails c p s b : wf s -> mem s (hid (ix_mem (p_index p))) = Some b -> no_empty_keys (ix_name (p_index p)) s ->
    exists ks t, run (np_keys p) s = (Some (Ok ks), s) /\ run (np_str rm c p) s = (Some (Ok t), s) /\ says c t ks.
  Proof.
    intros W M NE. assert (E : exists ks, run (np_keys p) s = (Some (Ok ks), s)).
    { unfold np_keys, update, update_length. destruct (keys_from_any (p_index p) s NE W (Z.to_nat (from_bytes b)) 0) as [ks E]. exists ks.
      assert (R : run (shm_read (ix_mem (p_index p))) s = (Some (Ok b), s)) by (unfold shm_read; cbn; rewrite M; reflexivity).
      rewrite run_bind, (run_bind_ok _ _ _ _ _ R). cbn [run]. exact E. }
    destruct E as [ks E]. exists ks. eexists. split; [exact E|]. unfold np_str. rewrite (run_bind_ok _ _ _ _ _ E). split; [reflexivity|apply with_keys_says].
  Qed.
  Lemma gp_shown hash K P jenc jdec itemsize h s0 s nl c : greached hash K P jenc jdec itemsize h s0 s ->
    exists t, run (let! p := gridpaper P false nl in gp_str rm c p) s = (Some (Ok t), s) /\ says c t (map fst (sheets_after itemsize h)).
  Proof.
    intro Hr. destruct (greached_rep hash K P jenc jdec itemsize h s0 s Hr) as (W & _ & n & R & Q & Hc & Hl). eexists. split; [|apply with_keys_says].
    rewrite (run_bind_ok _ _ _ _ _ (gridpaper_attach hash K P (next s0) jenc jdec itemsize _ s nl W R)). unfold gp_str. cbn [p_index].
    pose proof (gr_meta _ _ _ _ _ _ _ _ _ R) as M. pose proof (m_rep _ _ _ _ _ _ _ _ M) as RR.
    assert (E : run (meta_keys (mkIndex (pad_index P) {| hname := pad_index P; hid := next s0 |} nl)) s = (Some (Ok (map fst (sheets_after itemsize h))), s)).
    { unfold meta_keys. rewrite (run_bind_ok _ _ _ _ _ (length_rep hash K (pad_index P) (next s0) _ _ s nl RR)). rewrite Nat2Z.id.
      rewrite map_map. rewrite (map_ext _ fst) by (intro; apply listing_fst). apply (load_from_ok (pad_index P) jdec). cbn [Z.add]. intros j k E. unfold load_key. cbn [ix_name].
      rewrite map_map, (map_ext _ fst) in RR by (intro; apply listing_fst).
      destruct (content_at _ _ _ (rep_key _ _ _ _ _ _ _ RR _ _ E)) as [a A].
      assert (Hne : k <> ""%string) by (eapply (rep_ne' hash K (pad_index P) (next s0)); eauto; eapply nth_error_In; eauto).
      rewrite (run_bind_ok _ _ _ _ _ (attach_ok _ _ _ _ A Hne)), (read_ok _ _ _ _ A). reflexivity. }
    rewrite (run_bind_ok _ _ _ _ _ E). reflexivity.
  Qed.
End Show.

(** ** Stickies *)
Section Stickies.
  Variable rm : cls -> string -> string.
  Variables (enc : val -> res bytes) (dec : bytes -> res val) (isnone : val -> bool) (a : string).

  Lemma board_learns (b : board val) o i : b_cached (snd (board_step enc b o)) i =
    match learns o (fst (board_step enc b o)) with Some (j, v) => if Nat.eqb i j then Some v else b_cached b i | None => b_cached b i end.
  Proof.
    destruct b as [sh ca]. destruct o as [j v|j re|j]; cbn [board_step b_shared b_cached].
    - destruct sh as [w|]; [destruct (Nat.eqb (width enc v) (width enc w))|]; reflexivity.
    - destruct (ca j) as [v|] eqn:E; [destruct re|]; try (destruct sh as [w|]; reflexivity). cbn. destruct (Nat.eqb_spec i j) as [->|]; [exact E|reflexivity].
    - destruct sh; reflexivity.
  Qed.
  Lemma sops_known h : forall b objs s, wf s -> posted enc dec isnone a s (b_shared b) -> objs_of a b objs -> Forall (plain_sop enc dec isnone) h ->
    exists l objs' s', run (sops_objs enc dec isnone objs h) s = (Some (Ok (l, objs')), s') /\ map fst l = h /\ map snd l = fst (board_run enc b h) /\
      forall i, st_cached (objs' i) = known i (b_cached b i) l.
  Proof.
    induction h as [|o h IH]; intros b objs s W Ps Ho F; cbn [sops_objs].
    - exists [], objs, s. split; [reflexivity|]. split; [reflexivity|]. split; [reflexivity|]. intro i. now rewrite (Ho i).
    - inversion F as [|? ? F1 F2]; subst. destruct (sop_rep enc dec isnone a b objs s o W Ps Ho F1) as (objs1 & s1 & E & W1 & P1 & O1 & _).
      destruct (IH _ objs1 s1 W1 P1 O1 F2) as (l & objs2 & s2 & E2 & M1 & M2 & C). eexists _, objs2, s2. rewrite (run_bind_ok _ _ _ _ _ E). cbn [snd fst].
      rewrite (run_bind_ok _ _ _ _ _ E2). cbn [run fst snd]. split; [reflexivity|]. cbn [map fst snd]. split; [now rewrite M1|]. split.
      + rewrite M2. cbn [board_run]. destruct (board_step enc b o) as [x b1]. cbn [fst snd]. now destruct (board_run enc b1 h).
      + intro i. rewrite C. cbn [known]. f_equal. apply board_learns.
  Qed.
  Lemma sticky_shown h s : wf s -> names s a = None -> Forall (plain_sop enc dec isnone) h ->
    exists l objs s', run (sops_objs enc dec isnone (fun _ => mkSticky a None) h) s = (Some (Ok (l, objs)), s') /\ map fst l = h /\
      forall i, match known i None l with
                | Some v => sticky_str rm (objs i) = py_str_of rm v /\ sticky_repr rm (objs i) = ("sticky: " ++ repr rm v)%string
                | None => sticky_str rm (objs i) = "unread sticky"%string /\ sticky_repr rm (objs i) = "unread sticky"%string
                end.
  Proof.
    intros W N F. destruct (sops_known h (mkBoard None (fun _ => None)) (fun _ => mkSticky a None) s W N (fun _ => eq_refl) F) as (l & objs & s' & E & M & _ & C).
    exists l, objs, s'. split; [exact E|]. split; [exact M|]. intro i. specialize (C i). cbn [b_cached] in C. unfold sticky_str, sticky_repr. rewrite C. now destruct (known i None l).
  Qed.
End Stickies.
(** The value can be read from what repr() says. *)
Lemma repr_read rm (k : sticky val) v : st_cached k = Some v -> is_literal v = true -> wfv v = true ->
  exists t, sticky_repr rm k = ("sticky: " ++ t)%string /\ literal_eval t = Some v.
Proof. intros E L W. unfold sticky_repr. rewrite E. eexists. split; [reflexivity|]. now apply literal_repr. Qed.

(** ** Stacks *)
Lemma split_plain c s : has_char c s = false -> split_at c s = [s].
Proof. induction s as [|x s IH]; cbn; [reflexivity|]. intro H. apply orb_false_iff in H as [-> H]. now rewrite (IH H). Qed.
Lemma split_app c s r : has_char c s = false -> split_at c (s ++ String c r) = s :: split_at c r.
Proof.
  induction s as [|x s IH]; cbn; [intros _; now rewrite Ascii.eqb_refl|]. intro H. apply orb_false_iff in H as [E H]. rewrite E, (IH H). reflexivity.
Qed.
Lemma split_join c l : l <> [] -> Forall (fun s => has_char c s = false) l -> split_at c (join (String c "") l) = l.
Proof.
  induction l as [|x l IH]; [congruence|]. intros _ F. inversion F as [|? ? Hx Fl]; subst. destruct l as [|y l]; [now apply split_plain|].
  change (join (String c "") (x :: y :: l)) with (x ++ (String c "") ++ join (String c "") (y :: l))%string. cbn [String.append]. rewrite split_app by exact Hx. f_equal. apply IH; [discriminate|exact Fl].
Qed.
Lemma has_char_app c a b : has_char c (a ++ b) = has_char c a || has_char c b.
Proof. induction a as [|x a IH]; cbn; [reflexivity|]. rewrite IH. apply orb_assoc. Qed.
Lemma num_no_char c z : num_char c = false -> has_char c (str_of_Z z) = false.
Proof.
  intro N. pose proof (str_of_Z_chars z) as H. revert H. induction (str_of_Z z) as [|x s IH]; cbn; [reflexivity|]. intro H. apply andb_prop in H as [Hx Hs]. rewrite (IH Hs).
  destruct (Ascii.eqb_spec x c) as [->|]; [congruence|reflexivity].
Qed.
Lemma split_part c d s x : has_char c s = false -> In x (split_at d s) -> has_char c x = false.
Proof.
  revert x. induction s as [|y s IH]; cbn; intros x H I; [destruct I as [<-|[]]; reflexivity|]. apply orb_false_iff in H as [E H]. destruct (Ascii.eqb y d).
  - destruct I as [<-|I]; [reflexivity|now apply IH].
  - destruct (split_at d s) as [|z l].
    + destruct I as [<-|[]]. cbn. now rewrite E.
    + destruct I as [<-|I]; [cbn; rewrite E; apply (IH z H); now left|apply IH; [exact H|now right]].
Qed.
Lemma path_name_char c s : has_char c s = false -> has_char c (path_name s) = false.
Proof.
  intro H. unfold path_name. set (l := filter _ _). assert (F : forall x, In x l -> has_char c x = false) by (intros x I; apply filter_In in I as [I _]; now apply (split_part c "/" s)).
  clearbody l. induction l as [|x l IH]; [reflexivity|]. destruct l as [|y l]; [apply F; now left|]. apply IH. intros z I. apply F. now right.
Qed.
Lemma stack_read st : st <> [] -> Forall plain_frame st -> read_stack (printstack st) = map shown_frame st.
Proof.
  intros N F. unfold read_stack, printstack. rewrite split_join.
  - rewrite map_map. apply map_ext_in. intros f I. apply (proj1 (Forall_forall _ _) F) in I. destruct (I ":"%char) as [I1 I2]; [now right; left|].
    unfold print_frame, shown_frame. cbn [String.append]. rewrite split_app by now apply path_name_char. rewrite split_app by now apply num_no_char. now rewrite split_plain.
  - now destruct st.
  - apply Forall_forall. intros t I. apply in_map_iff in I as (f & <- & I). apply (proj1 (Forall_forall _ _) F) in I. destruct (I ";"%char) as [I1 I2]; [now left|].
    unfold print_frame. rewrite !has_char_app, (path_name_char _ _ I1), I2, (num_no_char ";" (fr_line f)) by reflexivity. reflexivity.
Qed.

(** ** Names of files *)
Lemma split_nonempty c s : split_at c s <> [].
Proof. induction s as [|x s IH]; cbn; [discriminate|]. destruct (Ascii.eqb x c); [discriminate|]. destruct (split_at c s); discriminate. Qed.
Lemma split_app2 c a b : split_at c (a ++ String c b) = split_at c a ++ split_at c b.
Proof.
  induction a as [|x a IH]; cbn.
  - now rewrite Ascii.eqb_refl.
  - rewrite IH. destruct (Ascii.eqb x c); [reflexivity|]. pose proof (split_nonempty c a) as N. destruct (split_at c a); [contradiction|reflexivity].
Qed.
Lemma last_filter_app {A} (f : A -> bool) (d : A) l m :
  last (filter f (l ++ m)) d = match filter f m with [] => last (filter f l) d | _ => last (filter f m) d end.
Proof.
  rewrite filter_app. destruct (filter f m) as [|x r]; [now rewrite app_nil_r|].
  induction (filter f l) as [|y t IH]; [reflexivity|]. cbn [app last]. destruct (t ++ x :: r) eqn:E; [now destruct t|exact IH].
Qed.
Lemma name_of_path : path_name "" = ""%string /\ path_name "." = ""%string /\
  (forall n, component n -> path_name n = n) /\
  (forall d, path_name (d ++ "/") = path_name d) /\
  (forall d, path_name (d ++ "/.") = path_name d) /\
  (forall d n, component n -> path_name (d ++ "/" ++ n) = n).
Proof.
  assert (H : forall n, component n -> filter (fun x => negb (String.eqb x "" || String.eqb x ".")) (split_at "/" n) = [n]).
  { intros n (A & B & C). rewrite (split_plain _ _ C). cbn. apply String.eqb_neq in A, B. now rewrite A, B. }
  repeat split.
  - intros n Hn. unfold path_name. now rewrite (H n Hn).
  - intro d. unfold path_name. cbn [append]. rewrite split_app2, last_filter_app. reflexivity.
  - intro d. unfold path_name. cbn [append]. rewrite split_app2, last_filter_app. reflexivity.
  - intros d n Hn. unfold path_name. cbn [append]. rewrite split_app2, last_filter_app, (H n Hn). reflexivity.
Qed.
