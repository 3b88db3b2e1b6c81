(** The guarded sections of index operations are short. *)
From Verif Require Export Done_Spec Free_Guarded Fair_Proofs.

(** ** The guarded section is short *)
Ltac sizes := match goal with |- context [shm_create _ (String.length ?t)] => let n := fresh "n" in generalize (String.length t); intros n; destruct n end.
Ltac brfs := brf; repeat (cbn [wpb pbind ptry of_res]; sizes; brf).
Lemma guarded_brief hash x o s : quick o -> brief any 30 (guarded hash x o) s.
Proof.
  intro Hq. unfold brief. destruct o as [k ok|k|k|]; [| | |destruct Hq]; cbn [guarded].
  - unfold _add, check, check_raw, update_length, open_block. brfs.
  - unfold _delitem, check, check_raw, update_length, open_block, delete_block. brfs.
  - unfold check, check_raw. brfs.
Qed.
