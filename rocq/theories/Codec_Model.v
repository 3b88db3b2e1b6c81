(** Model of the JSON and AST codecs of dustgoggles/codex/codecs.py.
    Definitions only.

    Simplifications: characters are code points up to 255; no floats, sets,
    bytes or complex numbers; no limits on recursion or on the digits of an
    int; json.loads of bytes that
    do not start like JSON text in UTF-8 (it guesses other encodings) and
    literal_eval of text other than that of a literal in the forms that
    repr writes are not modelled. *)
From Coq Require Import DecimalString.
From Verif Require Export Json_Model.

(** ** Text and bytes *)

(** [str.encode()] *)
Fixpoint utf8 (s : string) : string :=
  match s with
  | "" => ""
  | String c r =>
      let n := nat_of_ascii c in
      if Nat.ltb n 128 then String c (utf8 r)
      else String (ascii_of_nat (192 + n / 64)) (String (ascii_of_nat (128 + n mod 64)) (utf8 r))
  end%string.
(** [bytes.decode()], for characters up to 255. *)
Fixpoint un_utf8 (s : string) : option string :=
  match s with
  | "" => Some ""
  | String a r =>
      let n := nat_of_ascii a in
      if Nat.ltb n 128 then option_map (String a) (un_utf8 r)
      else if Nat.leb 194 n && Nat.leb n 195 then
        match r with
        | String b r' =>
            let m := nat_of_ascii b in
            if Nat.leb 128 m && Nat.ltb m 192
            then option_map (String (ascii_of_nat (64 * (n - 192) + (m - 128)))) (un_utf8 r')
            else None
        | "" => None
        end
      else None
  end%string.

(** [sep.join(l)] *)
Fixpoint join (sep : string) (l : list string) : string :=
  match l with
  | [] => ""
  | [x] => x
  | x :: r => x ++ sep ++ join sep r
  end%string.

(** ** codecs.py:14-30 json_codec_factory *)

(** Python values to JSON: dictionaries are those of [dict] and its
    subclasses. *)
Fixpoint json_value (v : val) : res json :=
  match v with
  | VAtom k => json_atom k
  | VList l | VTup l =>
      js <- (fix go l := match l with
                         | [] => Ok []
                         | x :: r => j <- json_value x ;; js <- go r ;; Ok (j :: js)
                         end) l ;; Ok (JArr js)
  | VDict c d =>
      if is_dict_cls c then
        js <- (fix go d := match d with
                           | [] => Ok []
                           | (k, x) :: r => s <- json_key k ;; j <- json_value x ;; js <- go r ;; Ok ((s, j) :: js)
                           end) d ;; Ok (JObj js)
      else Exc TypeError
  end.
(** json.dumps without indent. *)
Fixpoint compact (j : json) : string :=
  match j with
  | JNull => "null"
  | JBool true => "true"
  | JBool false => "false"
  | JInt z => str_of_Z z
  | JStr s => quoted s
  | JArr l => String "[" (join ", " (map compact l) ++ "]")
  | JObj l => String "{" (join ", " (map (fun kv => quoted (fst kv) ++ ": " ++ compact (snd kv)) l) ++ "}")
  end%string.
Definition json_encode (v : val) : res string := j <- json_value v ;; Ok (utf8 (compact j)).

(** JSON to Python values: of entries with the same key, the last counts. *)
Fixpoint from_json (j : json) : val :=
  match j with
  | JNull => VAtom KNone
  | JBool b => VAtom (KBool b)
  | JInt z => VAtom (KInt z)
  | JStr s => VAtom (KStr s)
  | JArr l => VList (map from_json l)
  | JObj l => VDict CDict (dict_of (map (fun kv => (KStr (fst kv), from_json (snd kv))) l))
  end.
(** json.loads; JSONDecodeError is a ValueError. *)
Definition json_decode (b : string) : res val :=
  match un_utf8 b with
  | None => Exc UnicodeDecodeError
  | Some s =>
      match read_value (skip_space s) with
      | Some (j, r) => match skip_space r with ""%string => Ok (from_json j) | _ => Exc ValueError end
      | None => Exc ValueError
      end
  end.

(** ** codecs.py:33-47 ast_codec_factory *)

Definition apostrophe : ascii := "'"%char.
Fixpoint has_char (c : ascii) (s : string) : bool :=
  match s with "" => false | String a r => Ascii.eqb a c || has_char c r end%string.
Definition hex2 (n : nat) : string := String (hex_digit (n / 16)) (String (hex_digit (n mod 16)) "").
(** repr() of a str (CPython unicode_repr). *)
Definition quote_for (s : string) : ascii :=
  if has_char apostrophe s && negb (has_char quote s) then quote else apostrophe.
Definition printable (n : nat) : bool :=
  (Nat.leb 32 n && Nat.leb n 126) || (Nat.leb 161 n && negb (Nat.eqb n 173)).
Definition repr_char (q c : ascii) : string :=
  if Ascii.eqb c q || Ascii.eqb c backslash then String backslash (String c "")
  else if Ascii.eqb c "009" then String backslash "t"
  else if Ascii.eqb c "010" then String backslash "n"
  else if Ascii.eqb c "013" then String backslash "r"
  else if printable (nat_of_ascii c) then String c ""
  else String backslash (String "x" (hex2 (nat_of_ascii c))).
Fixpoint repr_chars (q : ascii) (s : string) : string :=
  match s with "" => "" | String c r => repr_char q c ++ repr_chars q r end%string.
Definition repr_str (s : string) : string :=
  let q := quote_for s in String q (repr_chars q s ++ String q "").
Definition repr_key (k : key) : string := match k with KStr s => repr_str s | _ => py_str k end.

Section Ast.
  (** repr() of a mapping of a class other than dict, from the repr of a dict
      with the same entries. *)
  Variable repr_mapping : cls -> string -> string.

  Fixpoint repr (v : val) : string :=
    match v with
    | VAtom k => repr_key k
    | VList l => String "[" (join ", " (map repr l) ++ "]")
    | VTup [x] => String "(" (repr x ++ ",)")
    | VTup l => String "(" (join ", " (map repr l) ++ ")")
    | VDict c d =>
        let s := String "{" (join ", " (map (fun kv => repr_key (fst kv) ++ ": " ++ repr (snd kv)) d) ++ "}") in
        match c with CDict => s | _ => repr_mapping c s end
    end%string.
  (** str() is repr(), except for a str, which is itself. *)
  Definition py_str_of (v : val) : string := match v with VAtom k => py_str k | _ => repr v end.
  Definition ast_encode (v : val) : string := utf8 (py_str_of v).
End Ast.

(** ** literal_eval *)

(** The rest of a string literal, up to its closing quote [q]. *)
Definition py_unescape (c : ascii) : option ascii :=
  if Ascii.eqb c "n" then Some "010"%char
  else if Ascii.eqb c "r" then Some "013"%char
  else if Ascii.eqb c "t" then Some "009"%char
  else if Ascii.eqb c quote || Ascii.eqb c apostrophe || Ascii.eqb c backslash then Some c
  else None.
Fixpoint lit_chars (q : ascii) (s : string) : option (string * string) :=
  match s with
  | "" => None
  | String c r =>
      if Ascii.eqb c q then Some (""%string, r)
      else if Ascii.eqb c backslash then
        match r with
        | "" => None
        | String e r =>
            if Ascii.eqb e "x" then
              match r with
              | String a (String b r) =>
                  match hex_value a, hex_value b with
                  | Some x, Some y => keep (ascii_of_nat (16 * x + y)) (lit_chars q r)
                  | _, _ => None
                  end
              | _ => None
              end
            else match py_unescape e with Some c => keep c (lit_chars q r) | None => None end
        end
      else if Ascii.eqb c "010" || Ascii.eqb c "013" then None
      else keep c (lit_chars q r)
  end%string.

Definition lit_atom (k : key) (o : option string) : option (val * string) :=
  match o with Some r => Some (VAtom k, r) | None => None end.
Definition blank (c : ascii) : bool := Ascii.eqb c " " || Ascii.eqb c "009".
Fixpoint skip_blank (s : string) : string :=
  match s with
  | String c r => if blank c then skip_blank r else s
  | "" => ""
  end%string.

(** A literal at the start of a text, and the rest.  Unhashable keys of
    dictionaries are not read; neither are strings next to each other. *)
Fixpoint lit (fuel : nat) (s : string) : option (val * string) :=
  match fuel, s with
  | S f, String c r =>
      if Ascii.eqb c "N" then lit_atom KNone (after "one" r)
      else if Ascii.eqb c "T" then lit_atom (KBool true) (after "rue" r)
      else if Ascii.eqb c "F" then lit_atom (KBool false) (after "alse" r)
      else if Ascii.eqb c quote || Ascii.eqb c apostrophe then ored (fun t => VAtom (KStr t)) (lit_chars c r)
      else if Ascii.eqb c "-" then ored (fun z => VAtom (KInt (- z))) (read_number r)
      else if Ascii.eqb c "[" then ored (fun p => VList (fst p)) (lit_items f "]" (skip_blank r))
      else if Ascii.eqb c "(" then
        ored (fun p => match p with ([x], false) => x | (l, _) => VTup l end) (lit_items f ")" (skip_blank r))
      else if Ascii.eqb c "{" then ored (fun d => VDict CDict (dict_of d)) (lit_members f (skip_blank r))
      else ored (fun z => VAtom (KInt z)) (read_number s)
  | _, _ => None
  end%string
(** Elements up to the closing bracket, and whether there was a comma after
    the last. *)
with lit_items (fuel : nat) (close : ascii) (s : string) : option ((list val * bool) * string) :=
  match fuel, s with
  | S f, String c r =>
      if Ascii.eqb c close then Some (([], true), r)
      else
        match lit f s with
        | None => None
        | Some (v, r) =>
            match skip_blank r with
            | String e r' =>
                if Ascii.eqb e close then Some (([v], false), r')
                else if Ascii.eqb e "," then
                  ored (fun p => (v :: fst p, snd p)) (lit_items f close (skip_blank r'))
                else None
            | "" => None
            end
        end
  | _, _ => None
  end%string
with lit_members (fuel : nat) (s : string) : option (list (key * val) * string) :=
  match fuel, s with
  | S f, String c r =>
      if Ascii.eqb c "}" then Some ([], r)
      else
        match lit f s with
        | Some (VAtom k, r) =>
            match skip_blank r with
            | String e r' =>
                if Ascii.eqb e ":" then
                  match lit f (skip_blank r') with
                  | None => None
                  | Some (v, r) =>
                      match skip_blank r with
                      | String e r' =>
                          if Ascii.eqb e "}" then Some ([(k, v)], r')
                          else if Ascii.eqb e "," then ored (cons (k, v)) (lit_members f (skip_blank r'))
                          else None
                      | "" => None
                      end
                  end
                else None
            | "" => None
            end
        | _ => None
        end
  | _, _ => None
  end%string.
(** literal_eval, None if the text is not in the form modelled.  (Leading
    zeros, which Python rejects, are accepted.) *)
Definition literal_eval (s : string) : option val :=
  match lit (S (String.length s)) (skip_blank s) with
  | Some (v, r) => match skip_blank r with ""%string => Some v | _ => None end
  | None => None
  end.
Definition ast_decode (b : string) : option val :=
  match un_utf8 b with Some s => literal_eval s | None => None end.
