(** What it means that operations of several processes at one Notepad, on
    keys of their own, happen one after another. *)
From Verif Require Export Team_Model Done_Spec.
From Coq Require Export Permutation.

Section Team.
  Variable hash : bytes -> string.
  Context {V : Type} (enc : V -> res bytes) (dec : bytes -> res V) (isnone : V -> bool).

  (** Does it write? *)
  Definition writes (o : pop V) : Prop := match o with PSet _ _ _ | PDel _ => True | _ => False end.

  (** Every process has one key; whatever one of them sets or deletes, the
      others leave alone (any number of them may read the same key). *)
  Definition own_keys (K : string -> Prop) (ops : nat -> pop V) : Prop :=
    (forall i, exists k, pop_key (ops i) = Some k /\ pad_key K k) /\
    (forall i k v ok, ops i = PSet k v ok -> sound_value enc dec v) /\
    (forall i j k k', i <> j -> writes (ops i) -> pop_key (ops i) = Some k -> pop_key (ops j) = Some k' -> ktext k <> ktext k').

  (** [team_moves n t t']: [n] moves lead from [t] to [t'].  A move is a turn of
      one of the processes [is], or anything whatsoever done to the store that
      leaves the blocks of the notepad alone.  Those at the lock are orderly: while one
      of them takes its slot, no other does so or removes a marker. *)
  Inductive team_moves (fuel : nat) (p : pad) (ops : nat -> pop V) (is : list nat) : nat -> team V -> team V -> Prop :=
  | moves_none t : team_moves fuel p ops is 0 t t
  | moves_turn n t t' i : team_moves fuel p ops is n t t' -> In i is ->
      (acts t' i = Through -> orderly (ix_name (p_index p)) (users (guards t')) i) ->
      team_moves fuel p ops is (S n) t (team_turn enc fuel p ops i t')
  | moves_env n t t' s : team_moves fuel p ops is n t t' -> wf s ->
      (forall a, pad_names hash (p_prefix p) a -> same_at (board_of t') s a) ->
      team_moves fuel p ops is (S n) t (mkTeam (on_store s (guards t')) (acts t')).

  Definition over_with (t : team V) (i : nat) (x : pout V) : Prop := acts t i = After (Ret x).
  Definition over (t : team V) (i : nat) : Prop := exists x, over_with t i x.

  (** Whoever comes to notepad [P] finds the entries [l]: any further visits
      one after another answer as for [l]. *)
  Definition holds (K : string -> Prop) (P : string) (b : Z) (s : store) (l : list (string * option V)) : Prop :=
    forall h, Forall (plain_pvisit enc dec K) h -> (b + 2 * Z.of_nat (List.length h) < 256 ^ 5)%Z ->
      fst (run (pvisits_prog hash enc dec isnone P h) s) = Some (Ok (fst (pad_run enc isnone l (map pv_op h)))).

  (** All of [is] are through: there is an order in which the results are those
      of the operations one after another, the notepad is the one that results
      from that, and the lock is free. *)
  Definition done_together (K : string -> Prop) (P : string) (k : Z) (l0 : list (string * option V)) (ops : nat -> pop V) (is : list nat) (t : team V) : Prop :=
    exists l, Permutation l is /\
      (forall l1 i l2, l = l1 ++ i :: l2 -> over_with t i (fst (pad_step enc isnone (snd (pad_run enc isnone l0 (map ops l1))) (ops i)))) /\
      holds K P (k + Z.of_nat (List.length l0 + 2 * List.length is)) (board_of t) (snd (pad_run enc isnone l0 (map ops l))) /\
      exists c, (k <= c <= k + Z.of_nat (List.length is))%Z /\ free_lock (pad_index P) c (board_of t).

  (** [team_turns sched t t']: the processes of [sched] are given turns one after
      the other; one that is at the lock and may not move at present does
      nothing with its turn.  Between any two turns anybody may do anything to
      the store that leaves the blocks of the notepad alone. *)
  Inductive team_turns (fuel : nat) (p : pad) (ops : nat -> pop V) : list nat -> team V -> team V -> Prop :=
  | turns_over t : team_turns fuel p ops [] t t
  | turns_one t i r t' : (acts t i = Through -> orderly (ix_name (p_index p)) (users (guards t)) i) ->
      team_turns fuel p ops r (team_turn enc fuel p ops i t) t' -> team_turns fuel p ops (i :: r) t t'
  | turns_stay t i r t' : acts t i = Through -> ~ orderly (ix_name (p_index p)) (users (guards t)) i ->
      team_turns fuel p ops r t t' -> team_turns fuel p ops (i :: r) t t'
  | turns_else t s r t' : wf s -> (forall a, pad_names hash (p_prefix p) a -> same_at (board_of t) s a) ->
      team_turns fuel p ops r (mkTeam (on_store s (guards t)) (acts t)) t' -> team_turns fuel p ops r t t'.
End Team.

(** So many pieces of a schedule are enough for [n] processes: those that the
    guarded operations need, and for each process so many for what comes
    before and after. *)
Definition enough_team (n : nat) : nat := enough_guarded n + 30.
