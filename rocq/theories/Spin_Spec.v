(** Specification vocabulary for waiting and closing: who is in the queue. *)
From Verif Require Export Lock_Model Shm_Spec Index_Spec.

(** A lock object that holds nothing: its counter block is attached; its slot
    number and floor are left over from earlier use. *)
Definition idle (name : string) (ch : N) (n f spins : Z) (mx : option Z) : lockst :=
  mkLock name (mkHandle (count_address name) ch) n f None None false spins mx.

(** A lock object that has slot [n], counting from floor [f]. *)
Definition slotted (name : string) (ch mh : N) (n f spins : Z) (mx : option Z)
    (lock : option handle) : lockst :=
  mkLock name (mkHandle (count_address name) ch) n f
    (Some (mkHandle (marker_address name n) mh)) lock false spins mx.

(** Somebody has placed a lock in a slot from [f] up to, not including, [n]. *)
Definition ahead (name : string) (f n : Z) (s : store) : Prop :=
  exists k, (f <= k < n)%Z /\ names s (lock_address name k) <> None.

(** The counter says [c], the next [j] slots are taken, the one after is free,
    and somebody there has placed a lock. *)
Definition queued (name : string) (ch : N) (c : Z) (j : nat) (s : store) : Prop :=
  (0 <= c < 256 ^ 5)%Z /\
  names s (count_address name) = Some ch /\ mem s ch = Some (le_digits 5 c) /\
  (forall n, (c < n <= c + Z.of_nat j)%Z -> names s (marker_address name n) <> None) /\
  names s (marker_address name (c + Z.of_nat j + 1)) = None /\
  names s (lock_address name (c + Z.of_nat j + 1)) = None /\
  ahead name c (c + Z.of_nat j + 1) s.

(** The blocks of a lock object, and none of them half made. *)
Definition lock_blocks (l : lockst) : list string :=
  map hname (match l_lock l with Some h => [h] | None => [] end ++ [l_count l] ++
             match l_marker l with Some h => [h] | None => [] end).
Definition no_half_made (l : lockst) (s : store) : Prop :=
  forall a, In a (lock_blocks l) -> content s a <> Some "".

(** Rounds of waiting before a limit [m] is passed, [sp] being spent already:
    never less than one. *)
Definition rounds (m sp : Z) : nat := S (Z.to_nat (m - sp)).
