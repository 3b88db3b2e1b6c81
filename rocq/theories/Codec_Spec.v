(** What the codecs preserve. *)
From Verif Require Export Codec_Model Shm_Spec.

(** The text of a key in a JSON object. *)
Definition key_text (k : key) : string :=
  match k with
  | KNone => "null"
  | KBool b => if b then "true" else "false"
  | KInt z => str_of_Z z
  | KStr s | KOther s _ => s
  end.
Definition builtin (k : key) : bool := match k with KOther _ _ => false | _ => true end.

(** Values that JSON knows, whatever becomes of them. *)
Fixpoint serializable (v : val) : bool :=
  match v with
  | VAtom k => builtin k
  | VList l | VTup l => forallb serializable l
  | VDict c d => is_dict_cls c && forallb (fun kv => builtin (fst kv) && serializable (snd kv)) d
  end.
(** What becomes of them: tuples are lists, keys are text, and of entries
    whose keys have the same text the last stays. *)
Fixpoint jsonified (v : val) : val :=
  match v with
  | VAtom k => VAtom k
  | VList l | VTup l => VList (map jsonified l)
  | VDict _ d => VDict CDict (dict_of (map (fun kv => (KStr (key_text (fst kv)), jsonified (snd kv))) d))
  end.
(** Values that survive. *)
Fixpoint json_stable (v : val) : bool :=
  match v with
  | VAtom k => builtin k
  | VList l => forallb json_stable l
  | VTup _ => false
  | VDict CDict d => forallb (fun kv => is_str (fst kv) && json_stable (snd kv)) d
  | VDict _ _ => false
  end.

(** Literals: nothing but None, booleans, integers, text, lists, tuples and
    dictionaries. *)
Fixpoint is_literal (v : val) : bool :=
  match v with
  | VAtom k => builtin k
  | VList l | VTup l => forallb is_literal l
  | VDict CDict d => forallb (fun kv => builtin (fst kv) && is_literal (snd kv)) d
  | VDict _ _ => false
  end.
Definition is_text (v : val) : bool := match v with VAtom (KStr _) => true | _ => false end.

(** Bytes below 128. *)
Fixpoint is_ascii (s : string) : bool :=
  match s with "" => true | String c r => Nat.ltb (nat_of_ascii c) 128 && is_ascii r end%string.

(** Nothing but spaces, tabs and line ends. *)
Fixpoint all_blank (s : string) : bool :=
  match s with
  | "" => true
  | String c r => existsb (Nat.eqb (nat_of_ascii c)) [32; 9; 10; 13] && all_blank r
  end%string.
(** Bytes that do not begin a character in UTF-8. *)
Definition no_start (c : ascii) : bool :=
  let n := nat_of_ascii c in (Nat.leb 128 n && Nat.leb n 193) || Nat.leb 245 n.

(** Characters that can be seen, or spaces. *)
Definition visible (c : ascii) : bool :=
  let n := nat_of_ascii c in (Nat.leb 32 n && Nat.leb n 126) || (Nat.leb 161 n && Nat.leb n 172) || Nat.leb 174 n.
(** How much space text takes up between quotes: escapes take two, or four if there
    is no short one; an apostrophe has to be escaped only if there is a double quote
    as well. *)
Fixpoint occurs (n : nat) (s : string) : bool :=
  match s with "" => false | String c r => Nat.eqb (nat_of_ascii c) n || occurs n r end%string.
Definition room (both : bool) (c : ascii) : nat :=
  let n := nat_of_ascii c in
  if existsb (Nat.eqb n) [9; 10; 13; 92] then 2
  else if Nat.eqb n 39 then if both then 2 else 1
  else if (Nat.leb 32 n && Nat.leb n 126) || (Nat.leb 161 n && negb (Nat.eqb n 173)) then 1
  else 4.
Fixpoint rooms (both : bool) (s : string) : nat :=
  match s with "" => 0 | String c r => room both c + rooms both r end%string.

(** A name that does not begin like one of the constants. *)
Definition letter (c : ascii) : bool :=
  let n := nat_of_ascii c in (Nat.leb 65 n && Nat.leb n 90) || (Nat.leb 97 n && Nat.leb n 122) || Nat.eqb n 95.
Definition class_name (s : string) : bool :=
  match s with
  | String c r => letter c && negb (existsb (fun k => prefix k s) ["None"; "True"; "False"])
  | "" => false
  end%string.
