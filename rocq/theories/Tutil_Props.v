(** C67, C75: the helpers in test_utils/core.py. *)
From Coq Require Import Lia.
From Verif Require Import Tutil_Proofs Rand_Proofs.

(** ** C67: calls in a child process *)
Open Scope Z_scope.

(** If what is to be sent can be pickled and fits in the pipe, every schedule ends
    with its copy received. *)
Theorem C67_returns : forall obj (dumps : obj -> res (list byte_)) loads exn_obj cap r b,
  pickled dumps exn_obj r b -> size b + prefix_size b <= cap ->
  surely (step dumps loads exn_obj cap (Some r)) (fun s => pa s = Done (loads b)) started.
Proof. exact @piped_returns. Qed.
Print Assumptions C67_returns.

(** If it does not fit, every schedule ends with the child waiting to send the rest
    and the parent waiting for the child to end. *)
Theorem C67_deadlock : forall obj (dumps : obj -> res (list byte_)) loads exn_obj cap r b,
  pickled dumps exn_obj r b -> cap < size b + prefix_size b ->
  surely (step dumps loads exn_obj cap (Some r)) (fun s => pa s = Joining /\ exists y, ch s = Sending y /\ y <> []) started.
Proof. exact @piped_deadlock. Qed.
Print Assumptions C67_deadlock.

(** If there is nothing to send (it cannot be pickled, or what was raised is not an
    Exception), every schedule ends with the child ended and the parent waiting to
    receive. *)
Theorem C67_silent : forall obj (dumps : obj -> res (list byte_)) loads exn_obj cap r,
  ~ (exists b, pickled dumps exn_obj r b) ->
  surely (step dumps loads exn_obj cap (Some r)) (fun s => ch s = Ended /\ pa s = Receiving []) started.
Proof. exact @piped_silent. Qed.
Print Assumptions C67_silent.

(** So: a result comes back exactly in the first case, and it is that. *)
Theorem C67_result_iff : forall obj (dumps : obj -> res (list byte_)) loads exn_obj cap o x,
  (exists s, gets_to dumps loads exn_obj cap o started s /\ pa s = Done x) <->
  exists r b, o = Some r /\ pickled dumps exn_obj r b /\ size b + prefix_size b <= cap /\ x = loads b.
Proof. exact @piped_iff. Qed.
Print Assumptions C67_result_iff.

(** The frame around a message: reading any part of it one waits for more, but not
    for more than comes. *)
Theorem C67_framing : forall g y b, size b < 2 ^ 64 -> g ++ y = frame b ->
  (y = [] -> wanted g = 0 /\ message_of g = b) /\ (y <> [] -> 0 < wanted g <= size y).
Proof. exact wanted_ok. Qed.
Print Assumptions C67_framing.

(** Objects for the examples: lists of bytes, and exceptions. *)
Definition ex_obj : Type := (list Z + exn)%type.
Definition ex_dumps (v : ex_obj) : res (list byte_) := match v with inl l => Ok l | inr TypeError => Ok [7; 7] | inr _ => Exc AttributeError end.
Definition ex_loads (b : list byte_) : res ex_obj := Ok (inl b).
Example C67_fits : pickled ex_dumps (@inr (list Z) exn) (Ok (inl [1; 2; 3])) [1; 2; 3] /\ size [1; 2; 3] + prefix_size [1; 2; 3] = 7.
Proof. split; [exists (inl [1; 2; 3]); repeat split; now left|reflexivity]. Qed.
Example C67_exception : pickled ex_dumps (@inr (list Z) exn) (Exc TypeError) [7; 7].
Proof. exists (inr TypeError). split; [right; exists TypeError; auto|]. split; reflexivity. Qed.
Example C67_unpicklable : ~ exists b, pickled ex_dumps (@inr (list Z) exn) (Exc ValueError) b.
Proof. intros (b & v & [T|(e & T & _ & ->)] & D & _); [discriminate|]. injection T as <-. discriminate. Qed.
Example C67_interrupt : ~ exists b, pickled ex_dumps (@inr (list Z) exn) (Exc KeyboardInterrupt) b.
Proof. intros (b & v & [T|(e & T & I & ->)] & _); [discriminate|]. injection T as <-. discriminate. Qed.
(** The schedule of a result of three bytes over a pipe of seven. *)
Example C67_run : exists s, gets_to ex_dumps ex_loads inr 7 (Some (Ok (inl [1; 2; 3]))) started s /\ pa s = Done (Ok (inl [1; 2; 3])).
Proof. apply C67_result_iff. exists (Ok (inl [1; 2; 3])), [1; 2; 3]. split; [reflexivity|]. split; [apply C67_fits|]. split; [cbn; lia|reflexivity]. Qed.
(** ... and over one of six there is none. *)
Example C67_no_run : ~ exists s x, gets_to ex_dumps ex_loads inr 6 (Some (Ok (inl [1; 2; 3]))) started s /\ pa s = Done x.
Proof.
  intros (s & x & R & D). assert (H : exists s, gets_to ex_dumps ex_loads inr 6 (Some (Ok (inl [1; 2; 3]))) started s /\ pa s = Done x) by eauto.
  apply C67_result_iff in H. destruct H as (r & b & H & (v & T & E & _) & F & _). injection H as <-. destruct T as [T|(e & T & _)]; [|discriminate].
  injection T as <-. cbn in E. injection E as <-. cbn in F. lia.
Qed.

(** ** C75: random nested dictionaries *)
Open Scope nat_scope.

(** Whatever the random numbers: a result comes from that many assignments along
    paths of generated keys, not too long, of generated values. *)
Theorem C75_history : forall R T pick coin randval hash fuel quantity maxdepth types keytypes (r : R) v r',
  plain_values randval types -> 1 <= maxdepth <= fuel ->
  random_nested_dict (T := T) pick coin randval hash fuel quantity maxdepth types keytypes r = (Ok v, r') ->
  exists h m, List.length h = quantity /\
    Forall (entry_ok randval hash maxdepth types (match keytypes with Some l => l | None => types end)) h /\
    foldM (fun m e => nd_set m (fst e) (snd e)) h (VDict CNesting []) = Ok m /\ v = plainified m.
Proof. exact @rand_history. Qed.
Print Assumptions C75_history.

(** It is made of plain dictionaries, those inside it not empty, of at most that
    depth, with at most that many leaves. *)
Theorem C75_shape : forall R T pick coin randval hash fuel quantity maxdepth types keytypes (r : R) v r',
  plain_values randval types -> 1 <= maxdepth <= fuel ->
  random_nested_dict (T := T) pick coin randval hash fuel quantity maxdepth types keytypes r = (Ok v, r') ->
  is_mapping v = true /\ no_nesting v = true /\ inner_full v = true /\ depth v <= maxdepth /\ leaf_count v <= quantity.
Proof. exact @rand_shape. Qed.
Print Assumptions C75_shape.

(** With exactly that many if no path is that of another or leads to it. *)
Theorem C75_distinct : forall R T (randval : T -> eff R val) hash maxdepth types keytypes h m, plain_values randval types ->
  Forall (entry_ok randval hash maxdepth types keytypes) h -> ForallOrdPairs (fun a b => diverge (fst a) (fst b) = true) h ->
  foldM (fun m e => nd_set m (fst e) (snd e)) h (VDict CNesting []) = Ok m -> leaf_count (plainified m) = List.length h.
Proof. exact @rand_distinct. Qed.
Print Assumptions C75_distinct.

(** What it can raise. *)
Theorem C75_raises : forall R T pick coin randval hash fuel quantity maxdepth types keytypes (r : R) e r',
  plain_values randval types -> 1 <= maxdepth <= fuel ->
  random_nested_dict (T := T) pick coin randval hash fuel quantity maxdepth types keytypes r = (Exc e, r') ->
  let kt := match keytypes with Some l => l | None => types end in
  e = AttributeError \/ e = TypeError \/ (e = IndexError /\ (kt = [] \/ types = [])) \/
  (exists t r1 r2, (In t kt \/ In t types) /\ randval t r1 = (Exc e, r2)) \/ (exists v, from_types randval kt v /\ hash v = Exc e).
Proof. exact @rand_raises. Qed.
Print Assumptions C75_raises.

(** With one level it does not. *)
Theorem C75_flat : forall R T pick coin (randval : T -> eff R val) hash fuel quantity types keytypes (r : R),
  let kt := match keytypes with Some l => l | None => types end in
  plain_values randval types -> 1 <= fuel -> types <> [] -> kt <> [] ->
  (forall t s, exists v s', randval t s = (Ok v, s')) -> (forall v, from_types randval kt v -> exists k, hash v = Ok k) ->
  exists v r', random_nested_dict pick coin randval hash fuel quantity 1 types keytypes r = (Ok v, r').
Proof. exact @rand_flat. Qed.
Print Assumptions C75_flat.

(** A generator that reads its numbers from a list, for the examples: the type of
    small integers, and that of lists. *)
Definition ex_next (r : list nat) : nat * list nat := match r with [] => (0, []) | i :: r => (i, r) end.
Definition ex_pick (n : nat) (r : list nat) : nat * list nat := let (i, r) := ex_next r in (i mod n, r).
Definition ex_coin (r : list nat) : bool * list nat := let (i, r) := ex_next r in (Nat.odd i, r).
Definition ex_randval (t : bool) : eff (list nat) val :=
  fun r => if t then let (i, r) := ex_next r in (Ok (VAtom (KInt (Z.of_nat i))), r) else (Ok (VList []), r).
Definition ex_hash (v : val) : res key := match v with VAtom k => Ok k | _ => Exc TypeError end.
Definition ex_random := random_nested_dict ex_pick ex_coin ex_randval ex_hash 10.
Example C75_ex_plain : plain_values ex_randval [true] /\ forall v, from_types ex_randval [true] v -> exists k, ex_hash v = Ok k.
Proof.
  assert (G : forall v, from_types ex_randval [true] v -> exists k, v = VAtom k).
  { intros v (t & r & r' & [<-|[]] & E). unfold ex_randval in E. destruct (ex_next r) as [i r1]. injection E as <- <-. eauto. }
  split; intros v H; destruct (G v H) as [k ->]; [split; reflexivity|exists k; reflexivity].
Qed.
(** {7: {8: 1, 9: 2}, 6: 3} *)
Example C75_ex : fst (ex_random 3 2 [true] None [1; 0; 7; 0; 1; 0; 8;  1; 0; 0; 0; 2; 0; 9;  0; 0; 3; 0; 6]) =
  Ok (VDict CDict [(KInt 7, VDict CDict [(KInt 8, VAtom (KInt 1)); (KInt 9, VAtom (KInt 2))]); (KInt 6, VAtom (KInt 3))]).
Proof. reflexivity. Qed.
(** A key that is that of a leaf. *)
Theorem C75_returns_refuted : exists r, fst (ex_random 2 2 [true] None r) = Exc TypeError.
Proof. exists [0; 0; 1; 0; 5;  1; 0; 5; 0; 2; 0; 3]. reflexivity. Qed.
Print Assumptions C75_returns_refuted.
Example C75_attribute_error : fst (ex_random 2 3 [true] None [0; 0; 1; 0; 5;  2; 0; 5; 0; 2; 0; 3]) = Exc AttributeError.
Proof. reflexivity. Qed.
(** The same key twice, or that of a level. *)
Theorem C75_quantity_refuted : exists r v, fst (ex_random 2 2 [true] None r) = Ok v /\ leaf_count v = 1.
Proof. exists [0; 0; 1; 0; 5;  0; 0; 2; 0; 5]. eexists. split; reflexivity. Qed.
Print Assumptions C75_quantity_refuted.
(** Types whose values are unhashable are not left out of the keys. *)
Theorem C75_hashable_refuted : exists r, fst (ex_random 1 1 [true; false] None r) = Exc TypeError.
Proof. exists [0; 0; 1; 1]. reflexivity. Qed.
Print Assumptions C75_hashable_refuted.
