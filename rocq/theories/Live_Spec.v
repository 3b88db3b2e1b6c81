(** What readers of a TagIndex may see while one process adds keys to it. *)
From Verif Require Export Conc_Model Index_Spec.

(** Visits that remove nothing; visits that only look. *)
Definition removes_nothing (h : list visit) : Prop :=
  Forall (fun v => match v_op v with IRemove _ => False | _ => True end) h.
Definition only_looks (h : list visit) : Prop :=
  Forall (fun v => match v_op v with ICheck _ | IUpdate => True | _ => False end) h.

(** [reads F lo ops outs]: what a reader sees, step by step, of an index that
    grows to hold the keys [F] in that order, when the first [lo] keys are
    known to be there.
    - A listing is the first [n] keys for some [n], and perhaps a last entry
      of as many NUL characters as the next key is long.  Listings only grow.
    - A key that is not in [F] is not found.
    - Key number [j] may not be found as long as key number [j + 1] was not
      listed; it is found at [j], or wrongly at 0 in the same period.  Once
      found, it is in every listing. *)
Fixpoint reads (F : list string) (lo : nat) (ops : list iop) (outs : list iout) : Prop :=
  match ops, outs with
  | [], [] => True
  | IUpdate :: ops', OKeys l :: outs' =>
      exists n, lo <= n <= List.length F /\
        (l = firstn n F \/
         exists k, nth_error F n = Some k /\ l = firstn n F ++ [zeros (String.length k)]) /\
        reads F n ops' outs'
  | ICheck k :: ops', OFound o :: outs' =>
      match position (ktext k) F with
      | None => o = None /\ reads F lo ops' outs'
      | Some j =>
          o = None /\ lo <= S (Z.to_nat j) /\ reads F lo ops' outs' \/
          (o = Some j \/ o = Some 0%Z /\ lo <= S (Z.to_nat j)) /\ reads F (Nat.max lo (S (Z.to_nat j))) ops' outs'
      end
  | _, _ => False
  end.
