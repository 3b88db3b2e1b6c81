(** Lemmas about the shared-memory model. *)
From Coq Require Export Lia ZifyBool ZifyNat ZifyN.
From Verif Require Export Shm_Spec.
Ltac Zify.zify_post_hook ::= Z.div_mod_to_equations.

(** ** Running programs *)

Lemma run_ptry {A B} (p : prog A) (k : A -> prog B) h s :
  run (ptry p k h) s =
  match run p s with
  | (Some (Ok a), s') => run (k a) s'
  | (Some (Exc e), s') => run (h e) s'
  | (None, s') => (None, s')
  end.
Proof.
  revert s. induction p as [a|e| |C o f IH]; intro s; try reflexivity.
  cbn [ptry run]. destruct (step o s) as [r s']. apply IH.
Qed.

Lemma run_bind {A B} (p : prog A) (k : A -> prog B) s :
  run (pbind p k) s =
  match run p s with
  | (Some (Ok a), s') => run (k a) s'
  | (Some (Exc e), s') => (Some (Exc e), s')
  | (None, s') => (None, s')
  end.
Proof. unfold pbind. rewrite run_ptry. reflexivity. Qed.

Lemma run_bind_ok {A B} (p : prog A) (k : A -> prog B) s a s' :
  run p s = (Some (Ok a), s') -> run (pbind p k) s = run (k a) s'.
Proof. intro H. rewrite run_bind, H. reflexivity. Qed.

Lemma run_bind_exc {A B} (p : prog A) (k : A -> prog B) s e s' :
  run p s = (Some (Exc e), s') -> run (pbind p k) s = (Some (Exc e), s').
Proof. intro H. rewrite run_bind, H. reflexivity. Qed.

Lemma run_bind_stuck {A B} (p : prog A) (k : A -> prog B) s s' :
  run p s = (None, s') -> run (pbind p k) s = (None, s').
Proof. intro H. rewrite run_bind, H. reflexivity. Qed.

Lemma run_bind_ret {A B} (a : A) (k : A -> prog B) s : run (pbind (Ret a) k) s = run (k a) s.
Proof. reflexivity. Qed.

Lemma run_prim {B} (o : op B) s :
  run (prim o) s = (Some (fst (step o s)), snd (step o s)).
Proof. unfold prim. cbn [run]. destruct (step o s) as [[b|e] s']; reflexivity. Qed.

Lemma run_of_res {A} (r : res A) s : run (of_res r) s = (Some r, s).
Proof. destruct r; reflexivity. Qed.

(** ** Stores *)

Lemma wf_empty : wf empty_store.
Proof. repeat split; discriminate. Qed.

Lemma eqb_ne a b : a <> b -> String.eqb a b = false.
Proof. apply String.eqb_neq. Qed.
Lemma zeros_length n : String.length (zeros n) = n.
Proof. unfold zeros. induction n as [|n IH]; cbn in *; congruence. Qed.
Lemma zeros_ne n : n <> 0 -> zeros n <> "".
Proof. destruct n; [lia|]. discriminate. Qed.
Lemma length_0 b : String.length b = 0 -> b = "".
Proof. destruct b; [reflexivity|discriminate]. Qed.
Lemma length_ne b : b <> "" -> String.length b <> 0.
Proof. destruct b; [congruence|discriminate]. Qed.

Lemma same_refl s a : same_at s s a.
Proof. split; auto. Qed.
Lemma same_trans s1 s2 s3 a : same_at s1 s2 a -> same_at s2 s3 a -> same_at s1 s3 a.
Proof.
  intros [N1 M1] [N2 M2]. split; [congruence|]. intros i Hi.
  rewrite M2 by congruence. auto.
Qed.
Lemma same_content s s' a : same_at s s' a -> content s' a = content s a.
Proof. intros [HN HM]. unfold content. rewrite HN. destruct (names s a); auto. Qed.
Lemma only_refl A s : only_at A s s.
Proof. intros a _. apply same_refl. Qed.
Lemma only_trans A s1 s2 s3 : only_at A s1 s2 -> only_at A s2 s3 -> only_at A s1 s3.
Proof. intros H1 H2 a Ha. eapply same_trans; eauto. Qed.
Lemma only_sub (A B : string -> Prop) s s' : only_at A s s' -> (forall a, A a -> B a) -> only_at B s s'.
Proof. intros H Hs a Ha. apply H. auto. Qed.

(** [at_ s a i b]: name [a] points to inode [i] holding [b]. *)
Definition at_ (s : store) (a : string) (i : N) (b : bytes) : Prop :=
  names s a = Some i /\ mem s i = Some b.

Lemma at_content s a i b : at_ s a i b -> content s a = Some b.
Proof. intros [H1 H2]. unfold content. rewrite H1. exact H2. Qed.
Lemma content_at s a b : content s a = Some b -> exists i, at_ s a i b.
Proof.
  unfold content, at_. destruct (names s a) as [i|] eqn:E; [|discriminate]. intro H. exists i. auto.
Qed.
Lemma content_none s a : wf s -> content s a = None -> names s a = None.
Proof.
  intros (_ & H & _). unfold content. destruct (names s a) as [i|] eqn:E; [|reflexivity].
  intro Hc. destruct (H _ _ E Hc).
Qed.
Lemma names_none s a : names s a = None -> content s a = None.
Proof. unfold content. intros ->. reflexivity. Qed.
Lemma at_same s s' a i b : at_ s a i b -> same_at s s' a -> at_ s' a i b.
Proof. intros [H1 H2] [N1 M1]. split; [congruence|]. rewrite M1 by assumption. exact H2. Qed.

(** ** SharedMemory *)

Lemma attach_ok s a i b : at_ s a i b -> b <> "" ->
  run (shm_attach a) s = (Some (Ok {| hname := a; hid := i |}), s).
Proof.
  intros [H1 H2] Hb. unfold shm_attach. rewrite run_bind, run_prim. cbn [step]. rewrite H1. cbn [fst snd].
  rewrite run_bind, run_prim. cbn [step]. rewrite H2. destruct b; [congruence|]. reflexivity.
Qed.
Lemma attach_none s a : names s a = None ->
  run (shm_attach a) s = (Some (Exc FileNotFoundError), s).
Proof. intro H. unfold shm_attach. rewrite run_bind, run_prim. cbn [step]. rewrite H. reflexivity. Qed.
Lemma attach_empty s a i : at_ s a i "" ->
  run (shm_attach a) s = (Some (Exc ValueError), s).
Proof.
  intros [H1 H2]. unfold shm_attach. rewrite run_bind, run_prim. cbn [step]. rewrite H1. cbn [fst snd].
  rewrite run_bind, run_prim. cbn [step]. rewrite H2. reflexivity.
Qed.
Lemma attach_store s a : snd (run (shm_attach a) s) = s.
Proof.
  unfold shm_attach. rewrite run_bind, run_prim. cbn [step]. destruct (names s a); [|reflexivity].
  cbn [fst snd]. rewrite run_bind, run_prim. cbn [step]. destruct (mem s n) as [[|? ?]|]; reflexivity.
Qed.

Lemma attach_step s i b : mem s i = Some b -> b <> "" ->
  run (prim (OAttach i)) s = (Some (Ok tt), s).
Proof. intros H Hb. rewrite run_prim. cbn [step]. rewrite H. destruct b; [congruence|reflexivity]. Qed.

Lemma create_ok s a size : wf s -> names s a = None -> size <> 0 ->
  exists s', run (shm_create a size) s = (Some (Ok {| hname := a; hid := next s |}), s') /\
    wf s' /\ at_ s' a (next s) (zeros size) /\ only_at (eq a) s s'.
Proof.
  intros (Hinj & Hmem & Hnext) Hn Hs. unfold shm_create. destruct size as [|n]; [congruence|].
  rewrite run_bind, run_prim. cbn [step]. rewrite Hn. cbn [fst snd].
  rewrite run_bind, run_prim. cbn [step fst snd names mem next].
  match goal with |- exists s', run _ ?x = _ /\ _ => set (s1 := x) end.
  assert (Ha : run (prim (OAttach (next s))) s1 = (Some (Ok tt), s1)).
  { apply (attach_step _ _ (zeros (S n))); [|discriminate]. unfold s1. cbn [mem]. unfold upd_mem.
    rewrite N.eqb_refl. reflexivity. }
  rewrite (run_bind_ok _ _ _ _ _ Ha).
  exists s1. split; [reflexivity|]. subst s1. clear Ha.
  assert (Hold : forall x i, names s x = Some i -> i <> next s).
  { intros x i Hx ->. apply (Hmem _ _ Hx). apply Hnext. lia. }
  split; [|split].
  - repeat split; cbn [names mem next]; unfold upd_name, upd_mem.
    + intros x y i. destruct (String.eqb_spec x a) as [->|Hx]; destruct (String.eqb_spec y a) as [->|Hy]; try congruence.
      * intros [= <-] H. destruct (Hold _ _ H eq_refl).
      * intros H [= <-]. destruct (Hold _ _ H eq_refl).
      * apply Hinj.
    + intros x i. destruct (N.eqb_spec i (next s)); [discriminate|].
      destruct (String.eqb_spec x a); [congruence|]. apply Hmem.
    + intros i Hi. destruct (N.eqb_spec i (next s)); [lia|]. apply Hnext. lia.
  - split; cbn [names mem]; unfold upd_name, upd_mem; rewrite ?String.eqb_refl, ?N.eqb_refl; reflexivity.
  - intros x Hx. split; cbn [names mem]; unfold upd_name, upd_mem.
    + rewrite eqb_ne by congruence. reflexivity.
    + intros i Hi. specialize (Hold _ _ Hi). apply N.eqb_neq in Hold. rewrite Hold. reflexivity.
Qed.
Lemma create_exists s a size i : names s a = Some i -> size <> 0 ->
  run (shm_create a size) s = (Some (Exc FileExistsError), s).
Proof.
  intros H Hs. unfold shm_create. destruct size; [congruence|].
  rewrite run_bind, run_prim. cbn [step]. rewrite H. reflexivity.
Qed.
Lemma create_zero s a : run (shm_create a 0) s = (Some (Exc ValueError), s).
Proof. reflexivity. Qed.

Lemma unlink_ok s a i : wf s -> names s a = Some i ->
  exists s', (forall j, run (shm_unlink {| hname := a; hid := j |}) s = (Some (Ok tt), s')) /\
    wf s' /\ names s' a = None /\ only_at (eq a) s s'.
Proof.
  intros (Hinj & Hmem & Hnext) Hn. eexists. split.
  { intro j. unfold shm_unlink. rewrite run_prim. cbn [step hname]. rewrite Hn. reflexivity. }
  cbn [snd]. split; [|split].
  - repeat split; cbn [names mem next]; unfold upd_name.
    + intros x y k. destruct (String.eqb x a); [discriminate|]. destruct (String.eqb y a); [discriminate|]. apply Hinj.
    + intros x k. destruct (String.eqb x a); [discriminate|]. apply Hmem.
    + apply Hnext.
  - cbn. unfold upd_name. rewrite String.eqb_refl. reflexivity.
  - intros x Hx. split; cbn [names mem]; [|auto]. unfold upd_name. rewrite eqb_ne by congruence. reflexivity.
Qed.
Lemma unlink_none s a j : names s a = None ->
  run (shm_unlink {| hname := a; hid := j |}) s = (Some (Exc FileNotFoundError), s).
Proof. intro H. unfold shm_unlink. rewrite run_prim. cbn [step hname]. rewrite H. reflexivity. Qed.

Lemma read_ok s a i b : at_ s a i b ->
  run (shm_read {| hname := a; hid := i |}) s = (Some (Ok b), s).
Proof. intros [_ H]. unfold shm_read. rewrite run_prim. cbn [step hid]. rewrite H. reflexivity. Qed.

Lemma write_ok s a i b b' : wf s -> at_ s a i b -> String.length b' = String.length b ->
  exists s', run (shm_write {| hname := a; hid := i |} b') s = (Some (Ok tt), s') /\
    wf s' /\ at_ s' a i b' /\ only_at (eq a) s s'.
Proof.
  intros (Hinj & Hmem & Hnext) [Hn Hm] Hl. unfold shm_write. rewrite run_prim. cbn [step hid].
  rewrite Hm. rewrite Hl, Nat.eqb_refl. cbn [fst snd]. eexists. split; [reflexivity|]. split; [|split].
  - repeat split; cbn [names mem next]; unfold upd_mem.
    + exact Hinj.
    + intros x k Hx. destruct (N.eqb k i); [discriminate|]. eapply Hmem; eauto.
    + intros k Hk. destruct (N.eqb_spec k i); [|auto]. subst. rewrite Hnext in Hm by assumption. discriminate.
  - split; cbn; [exact Hn|]. unfold upd_mem. rewrite N.eqb_refl. reflexivity.
  - intros x Hx. split; cbn [names mem]; [reflexivity|]. intros k Hk. unfold upd_mem.
    destruct (N.eqb_spec k i); [|reflexivity]. subst. destruct Hx. eapply Hinj; eauto.
Qed.
Lemma write_len s a i b b' : at_ s a i b -> String.length b' <> String.length b ->
  run (shm_write {| hname := a; hid := i |} b') s = (Some (Exc ValueError), s).
Proof.
  intros [_ H] Hl. unfold shm_write. rewrite run_prim. cbn [step hid]. rewrite H.
  apply Nat.eqb_neq in Hl. rewrite Hl. reflexivity.
Qed.

(** ** memutilz *)

(** Creating or overwriting: a fresh zeroed block, nothing else touched. *)
Lemma open_fresh s a size : wf s -> size <> 0 -> content s a <> Some "" ->
  exists s' i, run (open_block a size true true) s = (Some (Ok {| hname := a; hid := i |}), s') /\
    wf s' /\ at_ s' a i (zeros size) /\ only_at (eq a) s s'.
Proof.
  intros W Hs Hc. unfold open_block. rewrite run_ptry. destruct (names s a) as [i|] eqn:E.
  - rewrite (create_exists s a size i) by assumption.
    assert (exists b, at_ s a i b /\ b <> "") as (b & Hat & Hb).
    { unfold content in Hc. rewrite E in Hc. cbn in Hc. destruct (mem s i) as [b|] eqn:M.
      - exists b. repeat split; congruence.
      - destruct W as (_ & W & _). destruct (W _ _ E M). }
    rewrite (run_bind_ok _ _ _ _ _ (attach_ok _ _ _ _ Hat Hb)).
    destruct (unlink_ok s a i W E) as (s1 & R1 & W1 & N1 & O1).
    rewrite (run_bind_ok _ _ _ _ _ (R1 i)).
    destruct (create_ok s1 a size W1 N1 Hs) as (s2 & R2 & W2 & A2 & O2).
    exists s2, (next s1). repeat split; try apply W2; try apply A2; auto;
      eapply (only_trans _ _ _ _ O1 O2); eauto.
  - destruct (create_ok s a size W E Hs) as (s' & R & W' & A' & O').
    rewrite R. exists s', (next s). repeat split; try apply W'; try apply A'; auto; apply O'; auto.
Qed.

Lemma open_existing s a size ow i b : at_ s a i b -> b <> "" -> size <> 0 -> ow = false ->
  run (open_block a size true ow) s = (Some (Ok {| hname := a; hid := i |}), s).
Proof.
  intros Hat Hb Hs ->. unfold open_block. rewrite run_ptry, (create_exists s a size i) by (assumption || apply Hat).
  apply (attach_ok _ _ _ _ Hat Hb).
Qed.
Lemma open_new s a size ow : wf s -> names s a = None -> size <> 0 ->
  exists s', run (open_block a size true ow) s = (Some (Ok {| hname := a; hid := next s |}), s') /\
    wf s' /\ at_ s' a (next s) (zeros size) /\ only_at (eq a) s s'.
Proof.
  intros W E Hs. unfold open_block. rewrite run_ptry.
  destruct (create_ok s a size W E Hs) as (s' & R & W' & A' & O'). rewrite R. exists s'. auto.
Qed.
Lemma open_zero s a ow : run (open_block a 0 true ow) s = (Some (Exc ValueError), s).
Proof. reflexivity. Qed.
Lemma open_half_made s a i size ow : at_ s a i "" -> size <> 0 ->
  run (open_block a size true ow) s = (Some (Exc ValueError), s).
Proof.
  intros Hat Hs. unfold open_block. rewrite run_ptry, (create_exists s a size i) by (assumption || apply Hat).
  destruct ow; [|apply (attach_empty _ _ _ Hat)].
  rewrite (run_bind_exc _ _ _ _ _ (attach_empty _ _ _ Hat)). reflexivity.
Qed.
Lemma open_nocreate s a size ow :
  run (open_block a size false ow) s = run (shm_attach a) s.
Proof.
  unfold open_block. rewrite run_ptry. pose proof (attach_store s a) as Hs.
  unfold shm_attach in *. rewrite run_bind, run_prim in *. cbn [step] in *.
  destruct (names s a) as [i|]; [|reflexivity]. cbn [fst snd] in *.
  rewrite run_bind, run_prim in *. cbn [step] in *.
  destruct (mem s i) as [[|c b]|]; reflexivity.
Qed.

Lemma exists_spec s a : wf s ->
  run (exists_block a) s = (Some (Ok (match content s a with Some _ => true | None => false end)), s).
Proof.
  intro W. unfold exists_block. rewrite run_ptry. destruct (content s a) as [b|] eqn:E.
  - destruct (content_at _ _ _ E) as [i Hat]. destruct b as [|c b].
    + rewrite (attach_empty _ _ _ Hat). reflexivity.
    + rewrite (attach_ok _ _ _ _ Hat) by discriminate. reflexivity.
  - rewrite attach_none by (apply content_none; assumption). reflexivity.
Qed.
Lemma exists_names s a : wf s ->
  run (exists_block a) s = (Some (Ok (match names s a with Some _ => true | None => false end)), s).
Proof.
  intro W. rewrite exists_spec by assumption. unfold content. destruct (names s a) as [i|] eqn:E; [|reflexivity].
  destruct W as (_ & W & _). specialize (W _ _ E). destruct (mem s i); [reflexivity|congruence].
Qed.

Lemma delete_ok s a i b mo : wf s -> at_ s a i b -> b <> "" ->
  exists s', run (delete_block a mo) s = (Some (Ok tt), s') /\
    wf s' /\ names s' a = None /\ only_at (eq a) s s'.
Proof.
  intros W Hat Hb. destruct (unlink_ok s a i W (proj1 Hat)) as (s' & R & W' & N' & O').
  exists s'. unfold delete_block. rewrite run_ptry, (run_bind_ok _ _ _ _ _ (attach_ok _ _ _ _ Hat Hb)), (R i). auto.
Qed.
Lemma delete_missing s a mo : names s a = None ->
  run (delete_block a mo) s = (Some (Exc FileNotFoundError), s).
Proof. intro H. unfold delete_block. rewrite run_ptry, (run_bind_exc _ _ _ _ _ (attach_none _ _ H)). reflexivity. Qed.
Lemma delete_half_made s a i mo : at_ s a i "" ->
  run (delete_block a mo) s = (Some (Exc ValueError), s).
Proof. intro H. unfold delete_block. rewrite run_ptry, (run_bind_exc _ _ _ _ _ (attach_empty _ _ _ H)). reflexivity. Qed.

Lemma fetch_ok s a i b : at_ s a i b -> b <> "" ->
  run (fetch_block_bytes a) s = (Some (Ok b), s).
Proof.
  intros Hat Hb. unfold fetch_block_bytes. rewrite (run_bind_ok _ _ _ _ _ (attach_ok _ _ _ _ Hat Hb)).
  apply (read_ok _ _ _ _ Hat).
Qed.
Lemma fetch_missing s a : names s a = None ->
  run (fetch_block_bytes a) s = (Some (Exc FileNotFoundError), s).
Proof. intro H. unfold fetch_block_bytes. apply (run_bind_exc _ _ _ _ _ (attach_none _ _ H)). Qed.

(** Overwrite and fill. *)
Lemma put_ok s a v : wf s -> v <> "" -> content s a <> Some "" ->
  exists s' i, run (let! h := open_block a (String.length v) true true in shm_write h v) s = (Some (Ok tt), s') /\
    wf s' /\ at_ s' a i v /\ only_at (eq a) s s'.
Proof.
  intros W Hv Hc. destruct (open_fresh s a (String.length v) W) as (s1 & i & R1 & W1 & A1 & O1); auto using length_ne.
  rewrite (run_bind_ok _ _ _ _ _ R1).
  destruct (write_ok s1 a i _ v W1 A1) as (s2 & R2 & W2 & A2 & O2); [now rewrite zeros_length|].
  exists s2, i. rewrite R2. repeat split; try apply W2; try apply A2; eapply (only_trans _ _ _ _ O1 O2); eauto.
Qed.

(** ** Little-endian integers *)

Lemma le_length w n : String.length (le_digits w n) = w.
Proof. revert n. induction w as [|w IH]; intro n; cbn [le_digits String.length]; [reflexivity|]. now rewrite IH. Qed.
Lemma from_le w n : (0 <= n < 256 ^ Z.of_nat w)%Z -> from_bytes (le_digits w n) = n.
Proof.
  revert n. induction w as [|w IH]; intros n Hn; cbn [le_digits from_bytes].
  - change (256 ^ Z.of_nat 0)%Z with 1%Z in Hn. lia.
  - rewrite Nat2Z.inj_succ, Z.pow_succ_r in Hn by lia.
    rewrite N_ascii_embedding by lia. rewrite IH by lia. lia.
Qed.
Lemma to_bytes_ok w n b : to_bytes w n = Ok b ->
  (0 <= n < 256 ^ Z.of_nat w)%Z /\ from_bytes b = n /\ String.length b = w.
Proof.
  unfold to_bytes. destruct (_ && _) eqn:E; [|discriminate]. intros [= <-].
  assert (0 <= n < 256 ^ Z.of_nat w)%Z by lia. split; [assumption|]. split; [now apply from_le|apply le_length].
Qed.
Lemma to_bytes_in w n : (0 <= n < 256 ^ Z.of_nat w)%Z -> to_bytes w n = Ok (le_digits w n).
Proof. intro H. unfold to_bytes. replace (_ && _) with true by lia. reflexivity. Qed.
Lemma to_bytes_out w n : ~ (0 <= n < 256 ^ Z.of_nat w)%Z -> to_bytes w n = Exc OverflowError.
Proof. intro H. unfold to_bytes. replace (_ && _) with false by lia. reflexivity. Qed.
Lemma from_bytes_range b : (0 <= from_bytes b < 256 ^ Z.of_nat (String.length b))%Z.
Proof.
  induction b as [|c b IH]; cbn [from_bytes String.length].
  - change (256 ^ Z.of_nat 0)%Z with 1%Z. lia.
  - rewrite Nat2Z.inj_succ, Z.pow_succ_r by lia. pose proof (N_ascii_bounded c). lia.
Qed.
Lemma le_from b : le_digits (String.length b) (from_bytes b) = b.
Proof.
  induction b as [|c b IH]; cbn [from_bytes String.length le_digits]; [reflexivity|].
  pose proof (N_ascii_bounded c).
  replace ((Z.of_N (N_of_ascii c) + 256 * from_bytes b) mod 256)%Z with (Z.of_N (N_of_ascii c)) by lia.
  replace ((Z.of_N (N_of_ascii c) + 256 * from_bytes b) / 256)%Z with (from_bytes b) by lia.
  rewrite N2Z.id, ascii_N_embedding, IH. reflexivity.
Qed.
Lemma le_ne w n : w <> 0 -> le_digits w n <> "".
Proof. destruct w; [congruence|discriminate]. Qed.

(** ** memorize / remember *)

Section Mnemonic.
  Context {V : Type} (encode : V -> res bytes) (decode : bytes -> res V).

  Lemma memorize_ok s v b a ok : wf s -> encode v = Ok b -> b <> "" -> content s a <> Some "" ->
    (ok = false -> content s a = None) ->
    exists s' i, run (memorize encode v a ok) s = (Some (Ok a), s') /\
      wf s' /\ at_ s' a i b /\ only_at (eq a) s s'.
  Proof.
    intros W He Hb Hc Hok. unfold memorize.
    assert (R0 : run (if ok then Ret false else exists_block a) s = (Some (Ok false), s)).
    { destruct ok; [reflexivity|]. rewrite exists_spec, Hok by auto. reflexivity. }
    rewrite (run_bind_ok _ _ _ _ _ R0). rewrite He. cbn [of_res]. rewrite run_bind_ret.
    destruct (open_fresh s a (String.length b) W) as (s1 & i & R1 & W1 & A1 & O1); auto using length_ne.
    rewrite (run_bind_ok _ _ _ _ _ R1).
    destruct (write_ok s1 a i _ b W1 A1) as (s2 & R2 & W2 & A2 & O2); [now rewrite zeros_length|].
    rewrite (run_bind_ok _ _ _ _ _ R2). exists s2, i. repeat split; try apply W2; try apply A2;
      eapply (only_trans _ _ _ _ O1 O2); eauto.
  Qed.
  Lemma memorize_occupied s v a : wf s -> content s a <> None ->
    run (memorize encode v a false) s = (Some (Exc FileExistsError), s).
  Proof.
    intros W Hc. unfold memorize. rewrite run_bind, exists_spec by assumption.
    destruct (content s a); [reflexivity|congruence].
  Qed.
  Lemma memorize_unencodable s v a e : wf s -> encode v = Exc e ->
    run (memorize encode v a true) s = (Some (Exc e), s).
  Proof. intros W He. unfold memorize. cbn [pbind ptry]. rewrite He. reflexivity. Qed.
  Lemma remember_ok s a i b v : at_ s a i b -> b <> "" -> decode b = Ok v ->
    run (remember decode a) s = (Some (Ok v), s).
  Proof.
    intros Hat Hb Hd. unfold remember. rewrite (run_bind_ok _ _ _ _ _ (fetch_ok _ _ _ _ Hat Hb)), Hd. reflexivity.
  Qed.
  Lemma remember_missing s a : names s a = None ->
    run (remember decode a) s = (Some (Exc FileNotFoundError), s).
  Proof. intro H. unfold remember. apply (run_bind_exc _ _ _ _ _ (fetch_missing _ _ H)). Qed.
End Mnemonic.

(** ** Frame of arbitrary commands *)

Lemma names_cases s a : wf s -> names s a = None \/ exists i b, at_ s a i b.
Proof.
  intros (_ & W & _). destruct (names s a) as [i|] eqn:E; [|auto]. right.
  destruct (mem s i) as [b|] eqn:M; [|destruct (W _ _ E M)]. exists i, b. split; assumption.
Qed.

Lemma attach_frame s a : wf s ->
  exists r, run (shm_attach a) s = (Some r, s) /\
  (forall h, r = Ok h -> hname h = a /\ exists b, at_ s a (hid h) b /\ b <> "").
Proof.
  intro W. destruct (names_cases s a W) as [N|(i & b & A)].
  - rewrite attach_none by assumption. eexists. split; [reflexivity|]. discriminate.
  - destruct (string_dec b "") as [->|Hb].
    + rewrite (attach_empty _ _ _ A). eexists. split; [reflexivity|]. discriminate.
    + rewrite (attach_ok _ _ _ _ A Hb). eexists. split; [reflexivity|]. intros h [= <-]. cbn. eauto.
Qed.

Lemma open_frame s a size c ow : wf s ->
  exists r s', run (open_block a size c ow) s = (Some r, s') /\ wf s' /\ only_at (eq a) s s' /\
  (forall h, r = Ok h -> hname h = a /\ exists b, at_ s' a (hid h) b /\ b <> "").
Proof.
  intro W. destruct c.
  - destruct (Nat.eq_dec size 0) as [->|Hs].
    { rewrite open_zero. do 2 eexists. split; [reflexivity|]. repeat split; try apply W; try discriminate; auto using only_refl. }
    destruct (names_cases s a W) as [N|(i & b & A)].
    + destruct (open_new s a size ow W N Hs) as (s' & R & W' & A' & O'). rewrite R. do 2 eexists. split; [reflexivity|].
      split; [assumption|]. split; [assumption|]. intros h [= <-]. cbn. split; [reflexivity|]. eexists. split; [exact A'|]. now apply zeros_ne.
    + destruct (string_dec b "") as [->|Hb].
      * rewrite (open_half_made _ _ _ _ _ A Hs). do 2 eexists. split; [reflexivity|].
        split; [assumption|]. split; [apply only_refl|]. discriminate.
      * destruct ow.
        -- destruct (open_fresh s a size W Hs) as (s' & j & R & W' & A' & O').
           { rewrite (at_content _ _ _ _ A). congruence. }
           rewrite R. do 2 eexists. split; [reflexivity|]. split; [assumption|]. split; [assumption|].
           intros h [= <-]. cbn. split; [reflexivity|]. eexists. split; [exact A'|]. now apply zeros_ne.
        -- rewrite (open_existing _ _ _ _ _ _ A Hb Hs eq_refl). do 2 eexists. split; [reflexivity|].
           split; [assumption|]. split; [apply only_refl|]. intros h [= <-]. cbn. eauto.
  - rewrite open_nocreate. destruct (attach_frame s a W) as (r & -> & H). exists r, s. auto using only_refl.
Qed.

Lemma write_frame s h b : wf s -> (exists b0, at_ s (hname h) (hid h) b0) ->
  exists r s', run (shm_write h b) s = (Some r, s') /\ wf s' /\ only_at (eq (hname h)) s s'.
Proof.
  intros W [b0 A]. destruct h as [a i]. cbn in A.
  destruct (Nat.eq_dec (String.length b) (String.length b0)) as [E|E].
  - destruct (write_ok s a i b0 b W A E) as (s' & R & W' & A' & O'). eauto.
  - rewrite (write_len _ _ _ _ _ A E). do 2 eexists. split; [reflexivity|]. auto using only_refl.
Qed.

Lemma memorize_frame {V} (encode : V -> res bytes) s v a ok : wf s ->
  exists r s', run (memorize encode v a ok) s = (Some r, s') /\ wf s' /\ only_at (eq a) s s'.
Proof.
  intro W. unfold memorize.
  assert (exists o, run (if ok then Ret false else exists_block a) s = (Some (Ok o), s)) as [o R].
  { destruct ok; [eexists; reflexivity|]. rewrite exists_spec by assumption. eauto. }
  rewrite (run_bind_ok _ _ _ _ _ R). destruct o; [do 2 eexists; split; [reflexivity|]; auto using only_refl|].
  rewrite run_bind, run_of_res. destruct (encode v) as [b|e]; [|do 2 eexists; split; [reflexivity|]; auto using only_refl].
  destruct (open_frame s a (String.length b) true true W) as ([h|e] & s1 & R1 & W1 & O1 & H1).
  - rewrite (run_bind_ok _ _ _ _ _ R1). destruct (H1 h eq_refl) as (<- & b1 & A1 & _).
    destruct (write_frame s1 h b W1) as (r & s2 & R2 & W2 & O2); [eauto|].
    rewrite run_bind, R2. destruct r as [[]|e]; do 2 eexists; (split; [reflexivity|]); split; auto; eapply only_trans; eauto.
  - rewrite (run_bind_exc _ _ _ _ _ R1). eauto 6.
Qed.

Lemma delete_frame s a mo : wf s ->
  exists r s', run (delete_block a mo) s = (Some r, s') /\ wf s' /\ only_at (eq a) s s'.
Proof.
  intro W. destruct (names_cases s a W) as [N|(i & b & A)].
  - rewrite delete_missing by assumption. do 2 eexists. split; [reflexivity|]. auto using only_refl.
  - destruct (string_dec b "") as [->|Hb].
    + rewrite (delete_half_made _ _ _ _ A). do 2 eexists. split; [reflexivity|]. auto using only_refl.
    + destruct (delete_ok s a i b mo W A Hb) as (s' & R & W' & N' & O'). eauto.
Qed.

Lemma cmd_frame {V} (encode : V -> res bytes) decode s (c : cmd V) : wf s ->
  wf (snd (run (cmd_prog encode decode c) s)) /\
  only_at (eq (cmd_address c)) s (snd (run (cmd_prog encode decode c) s)).
Proof.
  intro W. destruct c as [a v ok|a|a size cr ow|a b|a mo|a]; cbn [cmd_prog cmd_address].
  - destruct (memorize_frame encode s v a ok W) as (r & s' & R & W' & O'). rewrite run_bind, R. destruct r; auto.
  - unfold remember, fetch_block_bytes. rewrite run_bind, run_bind, run_bind.
    destruct (attach_frame s a W) as (r & -> & H). destruct r as [h|e]; [|cbn; auto using only_refl].
    destruct (H h eq_refl) as (_ & b & [_ A] & _). unfold shm_read. rewrite run_prim. cbn [step]. rewrite A. cbn [fst snd].
    rewrite run_of_res. destruct (decode b); cbn; auto using only_refl.
  - destruct (open_frame s a size cr ow W) as (r & s' & R & W' & O' & _). rewrite run_bind, R. destruct r; auto.
  - rewrite run_bind. destruct (attach_frame s a W) as (r & -> & H). destruct r as [h|e]; [|cbn; auto using only_refl].
    destruct (H h eq_refl) as (<- & b0 & A & _). destruct (write_frame s h b W) as (r & s' & R & W' & O'); [eauto|].
    rewrite R. auto.
  - destruct (delete_frame s a mo W) as (r & s' & R & W' & O'). rewrite R. auto.
  - rewrite run_bind, exists_spec by assumption. cbn. auto using only_refl.
Qed.

Lemma after_cmds_frame {V} (encode : V -> res bytes) decode (cs : list (cmd V)) s a : wf s ->
  (forall c, In c cs -> cmd_address c <> a) ->
  wf (after_cmds encode decode cs s) /\ same_at s (after_cmds encode decode cs s) a.
Proof.
  revert s. induction cs as [|c cs IH]; intros s W H; cbn [after_cmds fold_left]; [auto using same_refl|].
  destruct (cmd_frame encode decode s c W) as [W1 O1].
  destruct (IH (snd (run (cmd_prog encode decode c) s)) W1) as [W2 S2]; [intros; apply H; now right|].
  split; [exact W2|]. eapply same_trans; [apply O1|exact S2]. apply H. now left.
Qed.

Lemma remember_after {V} (encode : V -> res bytes) (decode : bytes -> res V) s v b a ok cs : wf s ->
  encode v = Ok b -> b <> "" -> decode b = Ok v -> content s a <> Some "" ->
  (ok = false -> content s a = None) ->
  (forall c, In c cs -> cmd_address c <> a) ->
  exists s1, run (memorize encode v a ok) s = (Some (Ok a), s1) /\ only_at (eq a) s s1 /\
    let s2 := after_cmds encode decode cs s1 in
    run (remember decode a) s2 = (Some (Ok v), s2).
Proof.
  intros W He Hb Hd Hc Hok Hcs. destruct (memorize_ok encode s v b a ok W He Hb Hc Hok) as (s1 & i & R & W1 & A1 & O1).
  exists s1. split; [exact R|]. split; [exact O1|]. cbv zeta.
  destruct (after_cmds_frame encode decode cs s1 a W1 Hcs) as [W2 S2].
  eapply remember_ok; eauto using at_same.
Qed.

Lemma memorize_occupied_iff {V} (encode : V -> res bytes) s v a : wf s -> encode v <> Exc FileExistsError ->
  (content s a <> None <-> exists s', run (memorize encode v a false) s = (Some (Exc FileExistsError), s')).
Proof.
  intros W He. split; intro H.
  - exists s. now apply memorize_occupied.
  - destruct H as [s' H]. intro Hc. unfold memorize in H.
    rewrite run_bind, exists_spec, Hc in H by assumption. rewrite run_bind, run_of_res in H.
    destruct (encode v) as [b|e]; [|congruence].
    destruct (Nat.eq_dec (String.length b) 0) as [E|E].
    + rewrite E, run_bind, open_zero in H. congruence.
    + destruct (open_new s a (String.length b) true W (content_none _ _ W Hc) E) as (s1 & R1 & W1 & A1 & O1).
      rewrite (run_bind_ok _ _ _ _ _ R1) in H.
      destruct (write_ok s1 a _ _ b W1 A1) as (s2 & R2 & _); [now rewrite zeros_length|].
      rewrite (run_bind_ok _ _ _ _ _ R2) in H. discriminate.
Qed.

(** Statement-shaped lemmas for Shm_Props.v *)
Lemma open_overwrite_spec s a size : wf s -> size <> 0 -> content s a <> Some "" ->
  exists s' h, run (open_block a size true true) s = (Some (Ok h), s') /\
    content s' a = Some (zeros size) /\ only_at (eq a) s s' /\ wf s' /\
    forall b, String.length b = size ->
      exists s'', run (shm_write h b) s' = (Some (Ok tt), s'') /\
        content s'' a = Some b /\ only_at (eq a) s s'' /\
        run (fetch_block_bytes a) s'' = (Some (Ok b), s'').
Proof.
  intros W Hs Hc. destruct (open_fresh s a size W Hs Hc) as (s' & i & R & W' & A' & O').
  exists s', {| hname := a; hid := i |}. split; [exact R|]. split; [apply (at_content _ _ _ _ A')|].
  split; [exact O'|]. split; [exact W'|]. intros b Hb.
  destruct (write_ok s' a i _ b W' A') as (s'' & R2 & W2 & A2 & O2); [now rewrite zeros_length|].
  exists s''. split; [exact R2|]. split; [apply (at_content _ _ _ _ A2)|].
  split; [eapply only_trans; eauto|]. eapply fetch_ok; [exact A2|]. intros ->. cbn in Hb. congruence.
Qed.
Lemma open_keep_spec s a size b : content s a = Some b -> b <> "" -> size <> 0 ->
  exists h, run (open_block a size true false) s = (Some (Ok h), s) /\
    hname h = a /\ names s a = Some (hid h).
Proof.
  intros Hc Hb Hs. destruct (content_at _ _ _ Hc) as [i A].
  exists {| hname := a; hid := i |}. split; [eapply open_existing; eauto|]. split; [reflexivity|apply A].
Qed.
Lemma delete_spec s a b mo : wf s -> content s a = Some b -> b <> "" ->
  exists s', run (delete_block a mo) s = (Some (Ok tt), s') /\
    content s' a = None /\ only_at (eq a) s s' /\ wf s'.
Proof.
  intros W Hc Hb. destruct (content_at _ _ _ Hc) as [i A].
  destruct (delete_ok s a i b mo W A Hb) as (s' & R & W' & N' & O'). exists s'. auto using names_none.
Qed.
Lemma delete_missing_spec s a mo : wf s -> content s a = None ->
  run (delete_block a mo) s = (Some (Exc FileNotFoundError), s).
Proof. intros W H. apply delete_missing. now apply content_none. Qed.
Lemma half_made_spec s a size ow mo : content s a = Some "" -> size <> 0 ->
  run (open_block a size true ow) s = (Some (Exc ValueError), s) /\
  run (delete_block a mo) s = (Some (Exc ValueError), s) /\
  run (fetch_block_bytes a) s = (Some (Exc ValueError), s).
Proof.
  intros Hc Hs. destruct (content_at _ _ _ Hc) as [i A]. split; [eapply open_half_made; eauto|].
  split; [eapply delete_half_made; eauto|]. unfold fetch_block_bytes.
  apply (run_bind_exc _ _ _ _ _ (attach_empty _ _ _ A)).
Qed.
Lemma to_bytes_spec w n :
  (0 <= n < 256 ^ Z.of_nat w)%Z ->
  exists b, to_bytes w n = Ok b /\ String.length b = w /\ from_bytes b = n.
Proof. intro H. exists (le_digits w n). rewrite to_bytes_in by assumption. repeat split; [apply le_length|now apply from_le]. Qed.
Lemma from_bytes_spec b :
  to_bytes (String.length b) (from_bytes b) = Ok b.
Proof. rewrite to_bytes_in by apply from_bytes_range. f_equal. apply le_from. Qed.

(** Every primitive keeps the store well-formed (truncating needs an existing
    inode). *)
Definition trunc_ok {B} (o : op B) (s : store) : Prop :=
  match o with OTrunc i _ => mem s i <> None | _ => True end.

Lemma upd_mem_wf s i b : wf s -> mem s i <> None ->
  wf {| names := names s; mem := upd_mem (mem s) i b; next := next s |}.
Proof.
  intros (Hinj & Hmem & Hnext) Hi. repeat split; cbn [names mem next]; unfold upd_mem.
  - exact Hinj.
  - intros x k Hx. destruct (N.eqb k i); [discriminate|]. eapply Hmem; eauto.
  - intros k Hk. destruct (N.eqb_spec k i); [|auto]. subst. rewrite Hnext in Hi by assumption. congruence.
Qed.
Lemma step_wf {B} (o : op B) s : wf s -> trunc_ok o s -> wf (snd (step o s)).
Proof.
  intros W Ht. destruct o as [a|i n|a|i|a|i|i b]; cbn [step].
  - destruct (names s a) eqn:E; [exact W|]. cbn [snd]. destruct W as (Hinj & Hmem & Hnext).
    assert (Hold : forall x i, names s x = Some i -> i <> next s).
    { intros x i Hx ->. apply (Hmem _ _ Hx). apply Hnext. lia. }
    repeat split; cbn [names mem next]; unfold upd_name, upd_mem.
    + intros x y i. destruct (String.eqb_spec x a) as [->|Hx]; destruct (String.eqb_spec y a) as [->|Hy]; try congruence.
      * intros [= <-] H. destruct (Hold _ _ H eq_refl).
      * intros H [= <-]. destruct (Hold _ _ H eq_refl).
      * apply Hinj.
    + intros x i. destruct (N.eqb_spec i (next s)); [discriminate|].
      destruct (String.eqb_spec x a); [congruence|]. apply Hmem.
    + intros i Hi. destruct (N.eqb_spec i (next s)); [lia|]. apply Hnext. lia.
  - apply upd_mem_wf; assumption.
  - destruct (names s a); exact W.
  - destruct (mem s i) as [[|? ?]|]; exact W.
  - destruct (names s a) eqn:E; [|exact W]. destruct W as (Hinj & Hmem & Hnext).
    repeat split; cbn [snd names mem next]; unfold upd_name.
    + intros x y k. destruct (String.eqb x a); [discriminate|]. destruct (String.eqb y a); [discriminate|]. apply Hinj.
    + intros x k. destruct (String.eqb x a); [discriminate|]. apply Hmem.
    + apply Hnext.
  - destruct (mem s i); exact W.
  - destruct (mem s i) eqn:E; [|exact W]. destruct (Nat.eqb _ _); [|exact W]. cbn [snd].
    apply upd_mem_wf; [exact W|congruence].
Qed.
