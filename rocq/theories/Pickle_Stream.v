(** Loading what the opcodes were written as, frames and all. *)
From Verif Require Export Pickle_Code.
From Coq Require Import Lia.

Definition ops (its : list item) : list opc := flat_map (fun i => match i with Bound => [] | Op o => [o] end) its.
Lemma ops_app a b : ops (a ++ b) = ops a ++ ops b. Proof. apply flat_map_app. Qed.

Inductive stream : list opc -> string -> Prop :=
| st_nil : stream [] ""
| st_op o os s : encodable o = true -> (forall n, o <> OFrame n) -> stream os s -> stream (o :: os) (code o ++ s)
| st_frame n os s : encodable (OFrame n) = true -> os <> [] -> (n <= len s)%Z -> stream os s -> stream os (code (OFrame n) ++ s).

Fixpoint codes (os : list opc) : string := match os with [] => "" | o :: r => code o ++ codes r end%string.
Definition plain_op (o : opc) : Prop := encodable o = true /\ forall n, o <> OFrame n.
Lemma codes_app a b : codes (a ++ b) = (codes a ++ codes b)%string.
Proof. induction a as [|o a IH]; cbn; [reflexivity|]. now rewrite IH, app_ass. Qed.
Lemma stream_codes a b s : Forall plain_op a -> stream b s -> stream (a ++ b) (codes a ++ s).
Proof. intros H Hs. induction H as [|o a [H1 H2] H IH]; cbn; [exact Hs|]. rewrite app_ass. now constructor. Qed.
Lemma stream_close a b s f : Forall plain_op a -> f = codes a -> a ++ b <> [] -> (len f < 256 ^ 8)%Z -> stream b s -> stream (a ++ b) (close_frame (Some f) ++ s).
Proof.
  intros H -> Hne Hl Hs. pose proof (stream_codes _ _ _ H Hs) as Hc. unfold close_frame. destruct (Z.leb_spec 4 (len (codes a))); [|exact Hc].
  rewrite app_ass. pose proof (len_nonneg s). constructor; auto.
  - cbn [encodable]. apply andb_true_iff. split; [apply Z.leb_le|apply Z.ltb_lt]; lia.
  - rewrite len_app. lia.
Qed.
Lemma close_len f : (len f <= len (close_frame (Some f)))%Z.
Proof. unfold close_frame. destruct (4 <=? len f)%Z; [|lia]. rewrite len_app. pose proof (len_nonneg (code (OFrame (len f)))). lia. Qed.
Lemma frames_stream its cur a :
  Forall plain_op a -> so_far cur = codes a -> Forall plain_op (ops its) -> (len (frames cur its) < 256 ^ 8)%Z ->
  stream (a ++ ops its) (frames cur its).
Proof.
  revert cur a. induction its as [|i its IH]; intros cur a Ha Hc Hi Hl; cbn [frames] in *.
  - cbn [ops flat_map]. destruct cur as [f|]; cbn [so_far] in Hc.
    + destruct a as [|o a]; [cbn in Hc; subst f; cbn; constructor|].
      pose proof (close_len f). rewrite <- (app_nil_r' (close_frame _)). apply stream_close; auto; [discriminate|lia|constructor].
    + pose proof (stream_codes a [] "" Ha st_nil) as H. rewrite <- Hc in H. exact H.
  - destruct i as [|o].
    + change (ops (Bound :: its)) with (ops its) in *. destruct (Z.leb_spec frame_target (len (so_far cur))) as [Hb|Hb].
      * rewrite len_app in Hl. destruct cur as [f|]; [|cbn in Hb; unfold frame_target in Hb; lia]. cbn [so_far] in *. pose proof (close_len f).
        pose proof (len_nonneg (frames None its)). pose proof (len_nonneg (close_frame (Some f))). apply stream_close; auto; [|lia|].
        -- destruct a; [subst f; unfold frame_target in Hb; cbn in Hb; lia|discriminate].
        -- apply (IH None []); auto. lia.
      * apply IH; auto.
    + change (ops (Op o :: its)) with (o :: ops its) in *. inversion Hi as [|? ? Ho Hi']; subst.
      assert (Hgo : forall c, c = code o -> (len (frames (Some (so_far cur ++ c)%string) its) < 256 ^ 8)%Z -> stream (a ++ o :: ops its) (frames (Some (so_far cur ++ c)%string) its)).
      { intros c -> Hc2. change (o :: ops its) with ([o] ++ ops its). rewrite app_assoc. apply IH; auto.
        - apply Forall_app. auto.
        - cbn [so_far]. rewrite codes_app, Hc. cbn [codes]. now rewrite app_nil_r'. }
      destruct (blob o) as [[hd data]|] eqn:Eb; [|now apply Hgo]. apply blob_code in Eb.
      destruct (frame_target <=? len data)%Z; [|now apply Hgo].
      assert (Es : (hd ++ data ++ frames None its = code o ++ frames None its)%string) by (now rewrite Eb, app_ass). rewrite Es in *. rewrite !len_app in Hl.
      pose proof (len_nonneg (frames None its)). pose proof (len_nonneg (close_frame cur)). pose proof (len_nonneg (code o)).
      assert (Hs : stream (o :: ops its) (code o ++ frames None its)) by (destruct Ho; constructor; auto; apply (IH None []); auto; lia).
      destruct cur as [f|]; cbn [so_far] in Hc.
      * pose proof (close_len f). apply stream_close; auto; [|lia]. now destruct a.
      * cbn [close_frame append]. pose proof (stream_codes a _ _ Ha Hs) as H2. rewrite <- Hc in H2. exact H2.
Qed.

Fixpoint execs (limit : nat) (os : list opc) (m : mach) : option mach :=
  match os with
  | [] => Some m
  | o :: r => match exec limit o m with Some m' => execs limit r m' | None => None end
  end.
Lemma execs_app limit a b m : execs limit (a ++ b) m = match execs limit a m with Some m' => execs limit b m' | None => None end.
Proof. revert m. induction a as [|o a IH]; intro m; cbn; [reflexivity|]. destruct (exec limit o m); auto. Qed.

Lemma load_stream limit os s : stream os s -> forall os0, os = os0 ++ [OStop] -> forall m m' junk fuel, execs limit os0 m = Some m' ->
  (len (s ++ junk) < Z.of_nat fuel)%Z -> load limit fuel (s ++ junk) m = Some (m', junk).
Proof.
  induction 1 as [|o os s He Hn Hs IH|n os s He Hne Hn Hs IH]; intros os0 E m m' junk fuel Hx Hl.
  - destruct os0; discriminate.
  - rewrite app_ass in *. rewrite len_app in Hl. pose proof (code_length _ He). pose proof (len_nonneg (s ++ junk)). destruct fuel as [|fuel]; [lia|]. cbn [load].
    rewrite parse_code; [|exact He|intros n Ho; exfalso; exact (Hn n Ho)].
    destruct os0 as [|o0 os0]; cbn in E; injection E as -> E.
    + injection Hx as <-. subst os. inversion Hs as [| |n ? s' _ Hx _ _]; subst; [reflexivity|now destruct Hx].
    + cbn [execs] in Hx. destruct (exec limit o0 m) as [m1|] eqn:E1; [|discriminate].
      assert (Hr : load limit fuel (s ++ junk) m1 = Some (m', junk)) by (apply (IH os0); auto; lia).
      destruct o0; try exact Hr. discriminate E1.
  - rewrite app_ass in *. rewrite len_app in Hl. pose proof (code_length _ He). pose proof (len_nonneg (s ++ junk)). destruct fuel as [|fuel]; [lia|]. cbn [load].
    rewrite parse_code; [|exact He|intros k [= <-]; rewrite len_app; pose proof (len_nonneg junk); lia].
    cbn [exec]. apply (IH os0); auto. lia.
Qed.

(** More input, more patience. *)
Lemma load_more limit t fuel : forall s m m' r, load limit fuel s m = Some (m', r) -> forall fuel', (fuel <= fuel')%nat -> load limit fuel' (s ++ t) m = Some (m', (r ++ t)%string).
Proof.
  induction fuel as [|fuel IH]; intros s m m' r H fuel' Hf; [discriminate|]. destruct fuel' as [|fuel']; [lia|]. cbn [load] in *.
  destruct (parse s) as [[o r1]|] eqn:E; [|discriminate]. rewrite (parse_more _ t _ _ E).
  assert (Hgo : match exec limit o m with Some m1 => load limit fuel r1 m1 | None => None end = Some (m', r) ->
    match exec limit o m with Some m1 => load limit fuel' (r1 ++ t) m1 | None => None end = Some (m', (r ++ t)%string)).
  { destruct (exec limit o m); [|discriminate]. intro H1. apply IH; [exact H1|lia]. }
  destruct o; try (now apply Hgo). now injection H as <- <-.
Qed.
