(** Model of random_nested_dict in dustgoggles/test_utils/core.py.  Definitions
    only.

    The random generator and the generators of values are parameters.  Leaves that
    can be indexed (a str by an int, say) are taken not to be: what happens next is
    the same, as they have no items and cannot be assigned to. *)
From Verif Require Export Struct_Model Eff_Model.

Section Rand.
  (** States of the generator; types; RNG.choice as the index chosen;
      [RNG.random() > branch_weight]; core.py:14-28 randval; hashing. *)
  Context {R T : Type} (pick : nat -> R -> nat * R) (coin : R -> bool * R) (randval : T -> eff R val) (hash : val -> res key).

  Definition choice {A} (l : list A) : eff R A :=
    fun r => match l with
             | [] => (Exc IndexError, r)
             | x :: _ => let (i, r') := pick (List.length l) r in (Ok (nth i l x), r')
             end.
  Definition toss : eff R bool := fun r => let (b, r') := coin r in (Ok b, r').

  (** cytoolz.get_in of a NestingDict: levels are made on the way; None if a key is
      unhashable or there is nothing to index.  A key is what hashing it gives. *)
  Definition get_in (keys : list (res key)) (m : val) : res (val * val) :=
    ks <- mapM (fun k => k) keys ;; nd_get m ks.

  (** core.py:31-40 pick_key_at_level: the key, and the mapping afterwards.
      [None.items()] is an AttributeError. *)
  Definition pick_key_at_level (m : val) (keys : list (res key)) (hashables : list T) : eff R (res key * val) :=
    match get_in keys m with
    | Ok (VDict _ d, m1) =>
        let nestkeys := map fst (filter (fun kv => is_nesting (snd kv)) d) in
        fresh <~ match nestkeys with [] => eret true | _ => toss end ;;
        if (fresh : bool) then t <~ choice hashables ;; v <~ randval t ;; eret (hash v, m1)
        else k <~ choice nestkeys ;; eret (Ok k, m1)
    | _ => eraise AttributeError
    end.

  (** core.py:55-60: the keys of the levels above. *)
  Fixpoint pick_keys (n : nat) (m : val) (keys : list (res key)) (keytypes : list T) : eff R (list (res key) * val) :=
    match n with
    | O => eret (keys, m)
    | S n => km <~ pick_key_at_level m keys keytypes ;; pick_keys n (snd km) (keys ++ [fst km]) keytypes
    end.

  (** core.py:54-63: one more entry.  The value comes first. *)
  Definition add_entry (maxdepth : nat) (types keytypes : list T) (m : val) : eff R val :=
    level <~ choice (seq 0 maxdepth) ;;
    km <~ pick_keys level m [] keytypes ;;
    t <~ choice types ;;
    v <~ randval t ;;
    lm <~ match get_in (fst km) (snd km) with Ok lm => eret (Some lm) | Exc _ => eret None end ;;
    kt <~ choice keytypes ;;
    k <~ randval kt ;;
    match lm with
    | None => eraise TypeError
    | Some (_, m1) => eof (ks <- mapM (fun k => k) (fst km ++ [hash k]) ;; nd_set m1 ks v)
    end.

  (** core.py:43-64 random_nested_dict.  Every type is hashable, so [keytypes] is by
      default all of [types].  [fuel]: how deep todict may recurse. *)
  Definition random_nested_dict (fuel quantity maxdepth : nat) (types : list T) (keytypes : option (list T)) : eff R val :=
    let keytypes := match keytypes with Some l => l | None => types end in
    nest <~ efoldM (fun m _ => add_entry maxdepth types keytypes m) (seq 0 quantity) (VDict CNesting []) ;;
    d <~ eof (todict fuel nest) ;;
    eret (fst d).
End Rand.
