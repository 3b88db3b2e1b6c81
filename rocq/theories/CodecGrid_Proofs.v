(** GridPaper's metadata survive the JSON codec. *)
From Coq Require Import Lia.
From Verif Require Import Codec_Proofs.
From Verif Require Export CodecGrid_Model Meta_Spec.
From Verif Require Import Grid_Proofs.

Lemma shape_read l : mapM as_dim (map jsonified (map (fun n => VAtom (KInt (Z.of_nat n))) l)) = Ok l.
Proof.
  induction l as [|n l IH]; [reflexivity|]. cbn [map mapM jsonified as_dim].
  replace (Z.of_nat n <? 0)%Z with false by lia. cbn [bind]. rewrite IH. cbn [bind]. now rewrite Nat2Z.id.
Qed.
Lemma metadata_stable itemsize md : stable (array_encode itemsize) array_decode md.
Proof.
  assert (S : serializable (array_metadata itemsize md) = true).
  { cbn. rewrite andb_true_r. apply forallb_forall. intros v H. apply in_map_iff in H as (n & <- & _). reflexivity. }
  destruct (json_codec_lemma _ S) as (b & E & N & _ & D). exists b. split; [exact E|]. split; [exact N|].
  unfold array_decode. rewrite D.
  change (jsonified (array_metadata itemsize md)) with
    (VDict CDict
      [(KStr "name", VAtom (KStr (am_name md)));
       (KStr "dtype", VAtom (KStr (am_dtype md)));
       (KStr "shape", VList (map jsonified (map (fun n => VAtom (KInt (Z.of_nat n))) (am_shape md))));
       (KStr "size", VAtom (KInt (Z.of_nat (nbytes itemsize (am_dtype md) (am_shape md)))))]).
  pose proof (shape_read (am_shape md)) as R. revert R. generalize (map jsonified (map (fun n => VAtom (KInt (Z.of_nat n))) (am_shape md))).
  generalize (nbytes itemsize (am_dtype md) (am_shape md)). intros z l R. cbn -[mapM]. rewrite R. now destruct md.
Qed.
Lemma values_stable v : wfv v = true -> json_stable v = true -> stable json_encode json_decode v.
Proof.
  intros W S. destruct (json_codec_lemma v (stable_serializable v S)) as (b & E & N & _ & D).
  exists b. split; [exact E|]. split; [exact N|]. rewrite D. f_equal. apply stable_iff; auto using stable_serializable.
Qed.
