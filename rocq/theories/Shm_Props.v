(** Properties of memutilz.py and codecs.py (C34-C36). *)
From Verif Require Import Shm_Proofs.

(** A store with a block "x" holding 3 bytes, one leftover of a process that
    died while creating "h". *)
Definition ex_store : store :=
  snd (run (shm_create "x" 3) (crash 1 (shm_create "h" 4) empty_store)).

(** ** C34 *)

(** Overwriting: a fresh zeroed block; what is then written is what is
    fetched; nothing else changes. *)
Theorem C34_open_overwrite : forall s a size,
  wf s -> size <> 0 -> content s a <> Some "" ->
  exists s' h, run (open_block a size true true) s = (Some (Ok h), s') /\
    content s' a = Some (zeros size) /\ only_at (eq a) s s' /\ wf s' /\
    forall b, String.length b = size ->
      exists s'', run (shm_write h b) s' = (Some (Ok tt), s'') /\
        content s'' a = Some b /\ only_at (eq a) s s'' /\
        run (fetch_block_bytes a) s'' = (Some (Ok b), s'').
Proof. exact open_overwrite_spec. Qed.
Print Assumptions C34_open_overwrite.

(** Without overwrite an existing block is returned and nothing changes,
    whatever size was asked for. *)
Theorem C34_open_existing : forall s a size b,
  content s a = Some b -> b <> "" -> size <> 0 ->
  exists h, run (open_block a size true false) s = (Some (Ok h), s) /\
    hname h = a /\ names s a = Some (hid h).
Proof. exact open_keep_spec. Qed.
Print Assumptions C34_open_existing.

Theorem C34_exists_block : forall s a, wf s ->
  run (exists_block a) s =
  (Some (Ok (match content s a with Some _ => true | None => false end)), s).
Proof. exact exists_spec. Qed.
Print Assumptions C34_exists_block.

Theorem C34_delete_block : forall s a b mo,
  wf s -> content s a = Some b -> b <> "" ->
  exists s', run (delete_block a mo) s = (Some (Ok tt), s') /\
    content s' a = None /\ only_at (eq a) s s' /\ wf s'.
Proof. exact delete_spec. Qed.
Print Assumptions C34_delete_block.

(** missing_ok has no effect: deleting an absent block always raises. *)
Theorem C34_missing_ok_refuted : forall s a mo,
  wf s -> content s a = None ->
  run (delete_block a mo) s = (Some (Exc FileNotFoundError), s).
Proof. exact delete_missing_spec. Qed.
Print Assumptions C34_missing_ok_refuted.

(** A block whose creator died before giving it a size can be neither
    opened, nor overwritten, nor deleted. *)
Theorem C34_half_made_block_refuted : forall s a size ow mo,
  content s a = Some "" -> size <> 0 ->
  run (open_block a size true ow) s = (Some (Exc ValueError), s) /\
  run (delete_block a mo) s = (Some (Exc ValueError), s) /\
  run (fetch_block_bytes a) s = (Some (Exc ValueError), s).
Proof. exact half_made_spec. Qed.
Print Assumptions C34_half_made_block_refuted.

Example C34_ex :
  wf ex_store /\ content ex_store "x" = Some (zeros 3) /\ content ex_store "h" = Some "" /\
  content ex_store "y" = None /\
  content (snd (run (open_block "x" 2 true true) ex_store)) "x" = Some (zeros 2) /\
  content (snd (run (delete_block "x" false) ex_store)) "x" = None.
Proof.
  split; [|vm_compute; auto 10].
  destruct (create_ok (crash 1 (shm_create "h" 4) empty_store) "x" 3) as (s' & R & W & _).
  - exact (step_wf (OCreate "h") empty_store wf_empty I).
  - reflexivity.
  - discriminate.
  - unfold ex_store. rewrite R. exact W.
Qed.

(** ** C35 *)

Theorem C35_round_trip : forall (V : Type) (encode : V -> res bytes) (decode : bytes -> res V)
    s v b a ok cs,
  wf s -> encode v = Ok b -> b <> "" -> decode b = Ok v -> content s a <> Some "" ->
  (ok = false -> content s a = None) ->
  (forall c, In c cs -> cmd_address c <> a) ->
  exists s1, run (memorize encode v a ok) s = (Some (Ok a), s1) /\ only_at (eq a) s s1 /\
    let s2 := after_cmds encode decode cs s1 in
    run (remember decode a) s2 = (Some (Ok v), s2).
Proof. exact @remember_after. Qed.
Print Assumptions C35_round_trip.

Theorem C35_exists_ok_false : forall (V : Type) (encode : V -> res bytes) s v a,
  wf s -> content s a <> None ->
  run (memorize encode v a false) s = (Some (Exc FileExistsError), s).
Proof. exact @memorize_occupied. Qed.
Print Assumptions C35_exists_ok_false.

Theorem C35_exists_ok_false_iff : forall (V : Type) (encode : V -> res bytes) s v a,
  wf s -> encode v <> Exc FileExistsError ->
  (content s a <> None <->
   exists s', run (memorize encode v a false) s = (Some (Exc FileExistsError), s')).
Proof. exact @memorize_occupied_iff. Qed.
Print Assumptions C35_exists_ok_false_iff.

(** A value that cannot be encoded leaves the store as it was. *)
Theorem C35_unencodable : forall (V : Type) (encode : V -> res bytes) s v a e,
  wf s -> encode v = Exc e ->
  run (memorize encode v a true) s = (Some (Exc e), s).
Proof. exact @memorize_unencodable. Qed.
Print Assumptions C35_unencodable.

(** The codec adding a marker byte. *)
Example C35_ex :
  let encode (v : string) := Ok (String "V" v) in
  let decode b := match b with String "V" v => Ok v | _ => Exc ValueError end in
  let cs := [CMemorize "y" "old" true; COpen "z" 4 true true; CDelete "y" false; CWrite "z" "abcd"] in
  (forall v, exists b, encode v = Ok b /\ b <> "" /\ decode b = Ok v) /\
  (forall c, In c cs -> cmd_address c <> "x") /\
  let s2 := after_cmds encode decode cs (snd (run (memorize encode "hello" "x" true) ex_store)) in
  run (remember decode "x") s2 = (Some (Ok "hello"), s2) /\ content s2 "z" = Some "abcd" /\
  run (memorize encode "bye" "x" false) s2 = (Some (Exc FileExistsError), s2).
Proof.
  cbv zeta. split; [|split].
  - intro v. exists (String "V" v). repeat split; discriminate.
  - intros c H. cbn in H. intuition (subst; discriminate).
  - vm_compute. auto.
Qed.

(** ** C36 *)

Theorem C36_round_trip : forall w n,
  (0 <= n < 256 ^ Z.of_nat w)%Z ->
  exists b, to_bytes w n = Ok b /\ String.length b = w /\ from_bytes b = n.
Proof. exact to_bytes_spec. Qed.
Print Assumptions C36_round_trip.

Theorem C36_out_of_range : forall w n,
  ~ (0 <= n < 256 ^ Z.of_nat w)%Z -> to_bytes w n = Exc OverflowError.
Proof. exact to_bytes_out. Qed.
Print Assumptions C36_out_of_range.

(** Every block content is the encoding of the number it decodes to. *)
Theorem C36_inverse : forall b, to_bytes (String.length b) (from_bytes b) = Ok b.
Proof. exact from_bytes_spec. Qed.
Print Assumptions C36_inverse.

Example C36_ex :
  to_bytes 2 258 = Ok (String "002" (String "001" "")) /\
  to_bytes 5 (2 ^ 40) = Exc OverflowError /\ to_bytes 8 (-1) = Exc OverflowError /\
  from_bytes (String "002" (String "001" "")) = 258%Z.
Proof. vm_compute. auto. Qed.
