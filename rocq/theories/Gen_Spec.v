(** What random values should be.  Definitions only. *)
From Verif Require Export Gen_Model Rand_Spec.
Open Scope Z_scope.

Section Spec.
  Context {R : Type} (word : R -> Z * R) (below : Z -> R -> Z * R).
  Definition generator : Prop :=
    (forall r, 0 <= fst (word r) < 2 ^ 32) /\ (forall n r, 0 < n -> 0 <= fst (below n r) < n).
End Spec.

Definition letter (c : ascii) : Prop := (97 <= nat_of_ascii c <= 122 \/ 65 <= nat_of_ascii c <= 90)%nat.
(** Text of one to ten letters. *)
Definition word_like (s : string) : Prop :=
  (1 <= String.length s <= 10)%nat /\ forall i c, String.get i s = Some c -> letter c.
(** A float of that many hundredths; -0.0 has none. *)
Definition float_of (d : Z) (v : val) : Prop := v = VAtom (KOther "float" (fold_sign d)) \/ (d = 0 /\ v = VAtom (KOther "-0.0" 0)).
Definition money (v : val) : Prop := exists d, - 10000000 <= d <= 10000000 /\ float_of d v.

Definition value_of_type (t : basic) (v : val) : Prop :=
  match t with
  | TStr => exists s, v = VAtom (KStr s) /\ word_like s
  | TInt => exists z, v = VAtom (KInt z) /\ -100000 <= z <= 100000
  | TFloat => money v
  | TTuple => exists l, v = VTup l /\ (1 <= List.length l <= 10)%nat /\ Forall money l
  end.

(** The number a value is, in hundredths. *)
Definition number (v : val) : option Z :=
  match v with
  | VAtom (KInt z) => Some (100 * z)
  | VAtom (KOther "float" n) => Some (unfold_sign n)
  | VAtom (KOther "-0.0" _) => Some 0
  | _ => None
  end.
Definition same_number (v w : val) : Prop := exists d, number v = Some d /\ number w = Some d.
(** Equality of text, numbers and tuples of numbers. *)
Definition equal_values (v w : val) : Prop :=
  v = w \/ same_number v w \/ exists l m, v = VTup l /\ w = VTup m /\ Forall2 same_number l m.

(** Dictionaries in one another, with one value. *)
Fixpoint only (p : list key) (v : val) : val := match p with [] => v | k :: p => VDict CDict [(k, only p v)] end.

(** A key made from a value of one of those types. *)
Definition basic_key (types : list basic) (k : key) : Prop :=
  exists t v, In t types /\ value_of_type t v /\ hash_val v = Ok k.
Definition basic_of (types : list basic) (v : val) : Prop := exists t, In t types /\ value_of_type t v.
