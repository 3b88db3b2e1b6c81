(** The keys a Notepad keeps for its index (C83). *)
From Verif Require Import Reserved_Proofs Pad_Props.

(** Assigning to a str key that starts with "index" is refused and changes
    nothing, for Notepad and for GridPaper; so is deleting "index" and
    "index_lock". *)
Theorem C83_set : forall (V : Type) hash (enc : V -> res bytes) jenc itemsize fuel p k v meta a ok s, reserved_key k ->
  run (np_set hash enc fuel p k v meta ok) s = (Some (Exc KeyError), s) /\
  run (gp_set hash jenc itemsize fuel p k a ok) s = (Some (Exc KeyError), s).
Proof. intros. split; [now apply set_reserved|now apply gset_reserved]. Qed.
Print Assumptions C83_set.

Theorem C83_del_two : forall hash fuel p k s, kisstr k = true -> ktext k = "index" \/ ktext k = "index_lock" ->
  run (np_del hash fuel p k) s = (Some (Exc KeyError), s) /\ run (gp_del hash fuel p k) s = (Some (Exc KeyError), s).
Proof. exact del_two. Qed.
Print Assumptions C83_del_two.

(** Deleting any other str key that starts with "index" raises KeyError too
    and costs no value, but removes the block at its address. *)
Theorem C83_del : forall (V : Type) hash K P (enc : V -> res bytes) dec isnone h s0 s,
  preached hash K P enc dec isnone h s0 s ->
  forall k nl fuel, reserved_key k -> kraw k = ktext k -> K (ktext k) -> fuel <> 0 ->
  content s (pad_address P (ktext k)) <> Some "" ->
  exists s', run (let! p := notepad P false nl in np_del hash fuel p k) s = (Some (Exc KeyError), s') /\
    only_at (fun a => a = pad_address P (ktext k) \/ lock_names (pad_index P) a) s s' /\
    (content s (pad_address P (ktext k)) = None -> s' = s) /\
    forall k' nl', pad_key K k' ->
      run (np_getitem dec isnone (mkPad P (mkIndex (pad_index P) (mkHandle (pad_index P) (next s0)) nl')) k') s' =
      (Some (look isnone (value_of (ktext k') (pad_after enc isnone h))), s').
Proof. exact @del_reserved. Qed.
Print Assumptions C83_del.

(** So deleting "index_key_<i>" fails with KeyError, yet the [i]th key is no
    longer listed. *)
Theorem C83_key_block_refuted : forall (V : Type) hash K P (enc : V -> res bytes) dec isnone h s0 s,
  preached hash K P enc dec isnone h s0 s ->
  forall i nl fuel nl', i < List.length (pad_after enc isnone h) -> K (key_slot i) -> fuel <> 0 ->
  exists s', run (let! p := notepad P false nl in np_del hash fuel p (skey (key_slot i))) s = (Some (Exc KeyError), s') /\
    run (let! p := notepad P false nl' in np_keys p) s' = (Some (Ok (without i (map fst (pad_after enc isnone h)))), s').
Proof. exact @del_key_slot. Qed.
Print Assumptions C83_key_block_refuted.

(** Deleting "index_name_<hash>" of a key fails with KeyError, yet the key,
    though still listed, can no longer be deleted (the attempt loses its value
    only) and is listed twice once it is assigned again. *)
Theorem C83_name_block_refuted : forall (V : Type) hash K P (enc : V -> res bytes) dec isnone h s0 s,
  preached hash K P enc dec isnone h s0 s ->
  forall k v nl fuel nl', pad_key K k -> value_of (ktext k) (pad_after enc isnone h) = Some (Some v) ->
  K (name_slot hash (ktext k)) -> fuel <> 0 ->
  exists s', run (let! p := notepad P false nl in np_del hash fuel p (skey (name_slot hash (ktext k)))) s = (Some (Exc KeyError), s') /\
    run (let! p := notepad P false nl' in np_keys p) s' = (Some (Ok (map fst (pad_after enc isnone h))), s') /\
    (exists s2, run (let! p := notepad P false nl' in np_del hash fuel p k) s' = (Some (Exc KeyError), s2) /\
       run (let! p := notepad P false nl' in np_keys p) s2 = (Some (Ok (map fst (pad_after enc isnone h))), s2) /\
       run (let! p := notepad P false nl' in np_getitem dec isnone p k) s2 = (Some (Exc FileNotFoundError), s2)) /\
    (forall w, stable enc dec w ->
     exists s2, run (let! p := notepad P false nl' in np_set hash enc fuel p k w false true) s' = (Some (Ok tt), s2) /\
       run (let! p := notepad P false nl' in np_keys p) s2 = (Some (Ok (map fst (pad_after enc isnone h) ++ [ktext k])), s2)).
Proof. exact @del_name_slot. Qed.
Print Assumptions C83_name_block_refuted.

(** A key that is not a str but reads "index" is accepted; its value replaces
    the length of the index, and the encoded value, read as a number, says
    how many keys are listed from then on. *)
Theorem C83_not_str_refuted : forall (V : Type) hash K P (enc : V -> res bytes) dec isnone h s0 s,
  preached hash K P enc dec isnone h s0 s ->
  forall k w b nl fuel nl', kisstr k = false -> ktext k = "index" -> kraw k = "index" -> K "index" ->
  enc w = Ok b -> b <> "" -> fuel <> 0 ->
  exists s', run (let! p := notepad P false nl in np_set hash enc fuel p k w false true) s = (Some (Ok tt), s') /\
    run (let! p := notepad P false nl' in np_keys p) s' =
    (Some (Ok (firstn (Z.to_nat (from_bytes b)) (map fst (pad_after enc isnone h) ++ ["index"]))), s').
Proof. exact @set_index_object. Qed.
Print Assumptions C83_not_str_refuted.

(** The notepad of C43's example: its keys are "7" and "b".  A codec that
    puts the byte 1 in front shows a listing cut short. *)
Definition rx_enc (v : string) : res bytes := Ok (String "001" v).
Definition rx_dec (b : bytes) : res string := match b with String _ v => Ok v | EmptyString => Exc UnpicklingError end.
Example C83_ex :
  let s := snd (px_run px_history) in
  preached px_hash px_any "n" px_enc px_dec px_none px_history empty_store s /\
  map fst (pad_after px_enc px_none px_history) = ["7"; "b"] /\
  reserved_key (skey "indexes") /\ reserved_key (skey (key_slot 0)) /\
  content s (pad_address "n" "indexes") = None /\ content s (pad_address "n" (key_slot 0)) = Some "7" /\
  key_slot 0 = "index_key_0" /\ without 0 ["7"; "b"] = ["b"] /\ name_slot px_hash "b" = "index_name_b" /\
  value_of "b" (pad_after px_enc px_none px_history) = Some (Some "2") /\
  (let del k := run (let! p := notepad "n" false false in np_del px_hash 2 p (skey k)) s in
   let keys s := fst (run (let! p := notepad "n" false false in np_keys p) s) in
   fst (del "index_key_0") = Some (Exc KeyError) /\ keys (snd (del "index_key_0")) = Some (Ok ["b"]) /\
   fst (del "indexes") = Some (Exc KeyError) /\ keys (snd (del "indexes")) = Some (Ok ["7"; "b"]) /\
   fst (del "index_name_b") = Some (Exc KeyError) /\
   (let again := run (let! p := notepad "n" false true in np_set px_hash px_enc 1 p (skey "b") "3" false true) (snd (del "index_name_b")) in
    fst again = Some (Ok tt) /\ keys (snd again) = Some (Ok ["7"; "b"; "b"])) /\
   (let over := run (let! p := notepad "n" false true in np_set px_hash rx_enc 1 p (okey "index") "" false true) s in
    fst over = Some (Ok tt) /\ keys (snd over) = Some (Ok ["7"]))).
Proof.
  cbv zeta. split; [exact px_reached|]. split; [vm_compute; reflexivity|].
  split; [split; reflexivity|]. split; [split; reflexivity|].
  repeat match goal with |- _ /\ _ => split end; vm_compute; reflexivity.
Qed.
