(** Model of the json module as tracker.py uses it: [json.dumps(_, indent=2)],
    and a reader for what it writes.  Nothing here comes from /repo (Python's
    json/encoder.py and json/decoder.py).  Definitions only.

    Simplifications: no floats; characters are code points up to 255. *)
From Coq Require Import DecimalString.
From Verif Require Export Track_Model.

Inductive json : Type :=
| JNull
| JBool (b : bool)
| JInt (z : Z)
| JStr (s : string)
| JArr (l : list json)
| JObj (l : list (string * json)).

(** ** Writing *)

(** Python values to JSON: other objects raise TypeError; keys are
    converted. *)
Definition json_atom (k : key) : res json :=
  match k with
  | KNone => Ok JNull
  | KBool b => Ok (JBool b)
  | KInt z => Ok (JInt z)
  | KStr s => Ok (JStr s)
  | KOther _ _ => Exc TypeError
  end.
Definition json_key (k : key) : res string :=
  match k with
  | KNone => Ok "null"%string
  | KBool true => Ok "true"%string
  | KBool false => Ok "false"%string
  | KInt z => Ok (str_of_Z z)
  | KStr s => Ok s
  | KOther _ _ => Exc TypeError
  end.
Fixpoint json_of (v : mval) : res json :=
  match v with
  | MAtom k => json_atom k
  | MList l =>
      l' <- (fix go l := match l with
                         | [] => Ok []
                         | x :: r => y <- json_of x ;; ys <- go r ;; Ok (y :: ys)
                         end) l ;; Ok (JArr l')
  | MObj _ => Exc TypeError
  end.
Definition json_dict {A} (f : A -> res json) (d : dict A) : res json :=
  l <- mapM (fun kv => k <- json_key (fst kv) ;; v <- f (snd kv) ;; Ok (k, v)) d ;; Ok (JObj l).
Definition json_jval (v : jval) : res json :=
  match v with
  | JVal v => json_of v
  | JHistory h => l <- mapM (json_dict json_of) h ;; Ok (JArr l)
  end.

Definition quote : ascii := """"%char.
Definition backslash : ascii := "\"%char.
Definition hex_digit (n : nat) : ascii :=
  ascii_of_nat (if Nat.ltb n 10 then 48 + n else 87 + n).
(** json.encoder.py_encode_basestring_ascii *)
Definition escape (c : ascii) : string :=
  if Ascii.eqb c quote then String backslash (String quote "")
  else if Ascii.eqb c backslash then String backslash (String backslash "")
  else if Ascii.eqb c "010" then String backslash "n"
  else if Ascii.eqb c "013" then String backslash "r"
  else if Ascii.eqb c "009" then String backslash "t"
  else if Ascii.eqb c "012" then String backslash "f"
  else if Ascii.eqb c "008" then String backslash "b"
  else let n := nat_of_ascii c in
       if Nat.leb 32 n && Nat.leb n 126 then String c ""
       else String backslash (String "u" (String "0" (String "0"
              (String (hex_digit (n / 16)) (String (hex_digit (n mod 16)) ""))))).
Fixpoint escaped (s : string) : string :=
  match s with
  | "" => ""
  | String c r => escape c ++ escaped r
  end%string.
Definition quoted (s : string) : string := String quote (escaped s ++ String quote "").

Fixpoint spaces (n : nat) : string := match n with O => "" | S m => String " " (String " " (spaces m)) end.
Definition newline (lvl : nat) : string := String "010" (spaces lvl).
Fixpoint commas (lvl : nat) (l : list string) : string :=
  match l with
  | [] => ""
  | [x] => x
  | x :: r => x ++ String "," (newline lvl) ++ commas lvl r
  end%string.

Fixpoint print (lvl : nat) (j : json) : string :=
  match j with
  | JNull => "null"
  | JBool true => "true"
  | JBool false => "false"
  | JInt z => str_of_Z z
  | JStr s => quoted s
  | JArr [] => "[]"
  | JArr l => String "[" (newline (S lvl) ++ commas (S lvl) (map (print (S lvl)) l) ++ newline lvl ++ "]")
  | JObj [] => "{}"
  | JObj l => String "{" (newline (S lvl) ++
                commas (S lvl) (map (fun kv => quoted (fst kv) ++ String ":" (String " " (print (S lvl) (snd kv)))) l) ++
                newline lvl ++ "}")
  end%string.

(** json.dumps of a document. *)
Definition json_dumps (d : dict jval) : res string := j <- json_dict json_jval d ;; Ok (print 0 j).

(** ** Reading *)

Definition is_space (c : ascii) : bool :=
  Ascii.eqb c " " || Ascii.eqb c "009" || Ascii.eqb c "010" || Ascii.eqb c "013".
Fixpoint skip_space (s : string) : string :=
  match s with
  | String c r => if is_space c then skip_space r else s
  | "" => ""
  end%string.

(** The text after [p], if it starts with [p]. *)
Fixpoint after (p s : string) : option string :=
  match p, s with
  | ""%string, _ => Some s
  | String a p, String b s => if Ascii.eqb a b then after p s else None
  | _, _ => None
  end.

Definition hex_value (c : ascii) : option nat :=
  let n := nat_of_ascii c in
  if Nat.leb 48 n && Nat.leb n 57 then Some (n - 48)
  else if Nat.leb 97 n && Nat.leb n 102 then Some (n - 87)
  else if Nat.leb 65 n && Nat.leb n 70 then Some (n - 55)
  else None.
Definition unescape (c : ascii) : option ascii :=
  if Ascii.eqb c "n" then Some "010"%char
  else if Ascii.eqb c "r" then Some "013"%char
  else if Ascii.eqb c "t" then Some "009"%char
  else if Ascii.eqb c "f" then Some "012"%char
  else if Ascii.eqb c "b" then Some "008"%char
  else if Ascii.eqb c "/" || Ascii.eqb c quote || Ascii.eqb c backslash then Some c
  else None.

(** The rest of a string literal, up to its closing quote. *)
Definition keep (c : ascii) (o : option (string * string)) : option (string * string) :=
  match o with Some (t, r) => Some (String c t, r) | None => None end.
Fixpoint read_chars (s : string) : option (string * string) :=
  match s with
  | "" => None
  | String c r =>
      if Ascii.eqb c quote then Some (""%string, r)
      else if Ascii.eqb c backslash then
        match r with
        | "" => None
        | String e r =>
            if Ascii.eqb e "u" then
              match r with
              | String z1 (String z2 (String a (String b r))) =>
                  if Ascii.eqb z1 "0" && Ascii.eqb z2 "0" then
                    match hex_value a, hex_value b with
                    | Some x, Some y => keep (ascii_of_nat (16 * x + y)) (read_chars r)
                    | _, _ => None
                    end
                  else None
              | _ => None
              end
            else match unescape e with Some c => keep c (read_chars r) | None => None end
        end
      else if Nat.leb 32 (nat_of_ascii c) then keep c (read_chars r) else None
  end%string.

Definition is_digit (c : ascii) : bool := Nat.leb 48 (nat_of_ascii c) && Nat.leb (nat_of_ascii c) 57.
(** The digits at the start of a text, and the rest. *)
Fixpoint digits (s : string) : string * string :=
  match s with
  | String c r => if is_digit c then let (d, r') := digits r in (String c d, r') else (""%string, s)
  | "" => (""%string, ""%string)
  end%string.
(** (Leading zeros, which Python rejects, are accepted.) *)
Definition read_number (s : string) : option (Z * string) :=
  let (d, r) := digits s in
  match d with
  | ""%string => None
  | _ => match NilZero.uint_of_string d with Some u => Some (Z.of_uint u, r) | None => None end
  end.

Definition ored {A B C} (f : A -> B) (o : option (A * C)) : option (B * C) :=
  match o with Some (a, r) => Some (f a, r) | None => None end.
Definition literal (j : json) (o : option string) : option (json * string) :=
  match o with Some r => Some (j, r) | None => None end.

Fixpoint read_json (fuel : nat) (s : string) : option (json * string) :=
  match fuel, s with
  | S f, String c r =>
      if Ascii.eqb c "n" then literal JNull (after "ull" r)
      else if Ascii.eqb c "t" then literal (JBool true) (after "rue" r)
      else if Ascii.eqb c "f" then literal (JBool false) (after "alse" r)
      else if Ascii.eqb c quote then ored JStr (read_chars r)
      else if Ascii.eqb c "-" then ored (fun z => JInt (- z)) (read_number r)
      else if Ascii.eqb c "[" then
        match skip_space r with
        | String e r' => if Ascii.eqb e "]" then Some (JArr [], r') else ored JArr (read_items f (String e r'))
        | "" => None
        end
      else if Ascii.eqb c "{" then
        match skip_space r with
        | String e r' => if Ascii.eqb e "}" then Some (JObj [], r') else ored JObj (read_members f (String e r'))
        | "" => None
        end
      else ored JInt (read_number s)
  | _, _ => None
  end%string
with read_items (fuel : nat) (s : string) : option (list json * string) :=
  match fuel with
  | O => None
  | S f =>
      match read_json f s with
      | None => None
      | Some (j, r) =>
          match skip_space r with
          | String e r' =>
              if Ascii.eqb e "]" then Some ([j], r')
              else if Ascii.eqb e "," then ored (cons j) (read_items f (skip_space r'))
              else None
          | "" => None
          end
      end
  end%string
with read_members (fuel : nat) (s : string) : option (list (string * json) * string) :=
  match fuel, s with
  | S f, String q r =>
      if Ascii.eqb q quote then
        match read_chars r with
        | None => None
        | Some (k, r) =>
            match skip_space r with
            | String e r' =>
                if Ascii.eqb e ":" then
                  match read_json f (skip_space r') with
                  | None => None
                  | Some (j, r) =>
                      match skip_space r with
                      | String e r' =>
                          if Ascii.eqb e "}" then Some ([(k, j)], r')
                          else if Ascii.eqb e "," then ored (cons (k, j)) (read_members f (skip_space r'))
                          else None
                      | "" => None
                      end
                  end
                else None
            | "" => None
            end
        end
      else None
  | _, _ => None
  end%string.

(** A reader of JSON values. *)
Definition read_value (s : string) : option (json * string) := read_json (S (String.length s)) s.
