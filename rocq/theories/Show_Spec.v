(** What printed notepads, Stickies and stacks should say.  Definitions only. *)
From Verif Require Export Show_Model Pad_Spec.

(** The text after the class name, as the list it says. *)
Definition says (class text : string) (ks : list string) : Prop :=
  exists t, text = (class ++ " with keys " ++ t)%string /\ literal_eval t = Some (VList (map (fun k => VAtom (KStr k)) ks)).

(** No key block is empty (an interrupted addition leaves one, see C39). *)
Definition no_empty_keys (name : string) (s : store) : Prop :=
  forall i n, names s (key_address name i) = Some n -> mem s n <> Some ""%string.

(** What a call makes an object know: what it stuck, or read. *)
Definition learns (o : sop val) (x : sout val) : option (nat * val) :=
  match o, x with
  | SStick i v, YDone (Ok _) => Some (i, v)
  | SRead i _, YRead (Some v) => Some (i, v)
  | _, _ => None
  end.
(** The value last learnt by object [i]. *)
Fixpoint known (i : nat) (p : option val) (l : list (sop val * sout val)) : option val :=
  match l with
  | [] => p
  | (o, x) :: r => known i (match learns o x with Some (j, v) => if Nat.eqb i j then Some v else p | None => p end) r
  end.

(** All calls, with what they answered, and the objects afterwards. *)
Fixpoint sops_objs (enc : val -> res bytes) (dec : bytes -> res val) (isnone : val -> bool)
    (objs : nat -> sticky val) (h : list (sop val)) : prog (list (sop val * sout val) * (nat -> sticky val)) :=
  match h with
  | [] => Ret ([], objs)
  | o :: r =>
      let! x := sop_prog enc dec isnone objs o in
      let! xs := sops_objs enc dec isnone (snd x) r in Ret ((o, fst x) :: fst xs, snd xs)
  end.

(** A stack as read from its text. *)
Definition read_stack (s : string) : list (list string) := map (split_at ":") (split_at ";" s).
Definition shown_frame (f : stackframe) : list string := [path_name (fr_file f); str_of_Z (fr_line f); fr_function f].
Definition plain_frame (f : stackframe) : Prop :=
  forall c, In c [";"; ":"]%char -> has_char c (fr_file f) = false /\ has_char c (fr_function f) = false.

(** A component of a path that is a name. *)
Definition component (n : string) : Prop := n <> ""%string /\ n <> "."%string /\ has_char "/" n = false.
