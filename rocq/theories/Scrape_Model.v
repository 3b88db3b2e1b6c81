(** Model of dustgoggles/scrape.py.  Definitions only.

    Text is represented by its UTF-8 bytes, on which searching for ASCII text is
    the same.  Parameters: re.search with its first group, and literal_eval.
    Simplifications: a label is a name or a Path of that name (names are not
    normalized), both of which open the same file; files are changed by others only
    between calls; [\d] is 0-9 (other decimal digits are not modelled), and
    integers may have any number of digits. *)
From Verif Require Export Eff_Model.
Open Scope string_scope.

(** ** Bytes and text *)

(** bytes.decode() (strict UTF-8): the bytes themselves, if valid. *)
Definition in_range (lo hi : N) (c : ascii) : bool := N.leb lo (N_of_ascii c) && N.leb (N_of_ascii c) hi.
Definition tail_byte : ascii -> bool := in_range 128 191.
Fixpoint valid_utf8 (s : string) : bool :=
  match s with
  | "" => true
  | String a r =>
      if in_range 0 127 a then valid_utf8 r
      else match r with
      | "" => false
      | String b r1 =>
          if in_range 194 223 a then tail_byte b && valid_utf8 r1
          else match r1 with
          | "" => false
          | String c r2 =>
              if in_range 224 239 a
              then in_range (if N.eqb (N_of_ascii a) 224 then 160 else 128) (if N.eqb (N_of_ascii a) 237 then 159 else 191) b && tail_byte c && valid_utf8 r2
              else match r2 with
              | "" => false
              | String d r3 =>
                  in_range 240 244 a &&
                  in_range (if N.eqb (N_of_ascii a) 240 then 144 else 128) (if N.eqb (N_of_ascii a) 244 then 143 else 191) b &&
                  tail_byte c && tail_byte d && valid_utf8 r3
              end
          end
      end
  end.
Definition decode (b : string) : res string := if valid_utf8 b then Ok b else Exc UnicodeDecodeError.

(** file.read(n): all of it if negative. *)
Fixpoint take (n : nat) (s : string) : string :=
  match n, s with S m, String c r => String c (take m r) | _, _ => "" end.
Definition read_n (n : Z) (s : string) : string := if (n <? 0)%Z then s else take (Z.to_nat n) s.

(** The text up to and including the first occurrence of [pat], and the rest:
    re.search for plain text. *)
Fixpoint cut (pat s : string) : option (string * string) :=
  if prefix pat s then Some (pat, substring (String.length pat) (String.length s) s)
  else match s with
       | "" => None
       | String c r => match cut pat r with Some (a, b) => Some (String c a, b) | None => None end
       end.

(** ** Files *)

Inductive label := LStr (name : string) | LPath (name : string).
Definition name_of (l : label) : string := match l with LStr n => n | LPath n => n end.
Definition label_eqb (a b : label) : bool :=
  match a, b with LStr x, LStr y => String.eqb x y | LPath x, LPath y => String.eqb x y | _, _ => false end.
(** The files, and those opened so far (latest first). *)
Record world := { disk : string -> option string; opened : list string }.
Definition read_file (name : string) (n : Z) : eff world string :=
  fun w => match disk w name with
           | None => (Exc FileNotFoundError, w)
           | Some c => (Ok (read_n n c), {| disk := disk w; opened := name :: opened w |})
           end.

(** scrape.py:33-40 get_label_text *)
Definition get_label_text (l : label) (byte_size : Z) : eff world string :=
  b <~ read_file (name_of l) byte_size ;; eof (decode b).
Definition default_size : Z := 35592.

(** scrape.py:75-82 head_file, of a file by name; of an open reader: what is
    left to read, or closed.  It is closed afterwards. *)
Inductive reader := Open (left_ : string) | Closed.
Definition head_reader (r : reader) (n : Z) : res string * reader :=
  match r with Open s => (Ok (read_n n s), Closed) | Closed => (Exc ValueError, Closed) end.

(** scrape.py:85-88 KNOWN_LABEL_ENDINGS *)
Definition pvl_end : string := String "E" (String "N" (String "D" (String (ascii_of_nat 13) (String (ascii_of_nat 10) "")))).
Definition nulls_end : string := let z := ascii_of_nat 0 in String z (String z (String z "")).
(** scrape.py:94-99 *)
Definition trim_head (head : string) (raise_for_failure : bool) : res string :=
  match cut pvl_end head with
  | Some (a, _) => decode a
  | None =>
      match cut nulls_end head with
      | Some (a, _) => decode a
      | None => if raise_for_failure then Exc ValueError else decode head
      end
  end.
(** scrape.py:91-99 trim_label, of a file by name; of a reader. *)
Definition trim_label (l : label) (max_size : Z) (raise_for_failure : bool) : eff world string :=
  head <~ read_file (name_of l) max_size ;; eof (trim_head head raise_for_failure).
Definition trim_reader (r : reader) (max_size : Z) (raise_for_failure : bool) : res string * reader :=
  match head_reader r max_size with
  | (Ok head, r') => (trim_head head raise_for_failure, r')
  | (Exc e, r') => (Exc e, r')
  end.

(** ** functools.cache *)

Section Cache.
  Context {A B W : Type} (aeqb : A -> A -> bool) (f : A -> eff W B).
  (** Results by arguments.  Only what is returned is kept. *)
  Definition memo : Type := list (A * B).
  Definition memo_get (m : memo) (a : A) : option B := option_map snd (find (fun p => aeqb (fst p) a) m).
  Definition cached (a : A) : eff (memo * W) B :=
    fun s => match memo_get (fst s) a with
             | Some b => (Ok b, s)
             | None => match f a (snd s) with
                       | (Ok b, w) => (Ok b, ((a, b) :: fst s, w))
                       | (Exc e, w) => (Exc e, (fst s, w))
                       end
             end.
  (** A caller changes the object it was given (a list): the one kept. *)
  Definition modify (a : A) (g : B -> B) (s : memo * W) : memo * W :=
    (map (fun p => if aeqb (fst p) a then (fst p, g (snd p)) else p) (fst s), snd s).
  (** What happens: calls, and changes of the world. *)
  Inductive event := Call (a : A) | Meanwhile (g : W -> W).
  Fixpoint happens (h : list event) (s : memo * W) : list (A * res B) * (memo * W) :=
    match h with
    | [] => ([], s)
    | Call a :: r => let '(o, s1) := cached a s in let '(os, s2) := happens r s1 in ((a, o) :: os, s2)
    | Meanwhile g :: r => happens r (fst s, g (snd s))
    end.
End Cache.
Arguments memo : clear implicits.
Arguments event : clear implicits.
Arguments Call {A W}. Arguments Meanwhile {A W}.

(** scrape.py:63 cached_label_loader; scrape.py:102 cached_label_trimmer (with
    the default arguments) *)
Definition cached_label_loader : label -> eff (memo label string * world) string := cached label_eqb (fun l => get_label_text l default_size).
Definition max_label_size : Z := 500 * 1024.
Definition cached_label_trimmer : label -> eff (memo label string * world) string := cached label_eqb (fun l => trim_label l max_label_size false).
(** scrape.py:142 cached_exists *)
Definition exists_ (name : string) : eff world bool := fun w => (Ok (match disk w name with Some _ => true | None => false end), w).
Definition cached_exists : string -> eff (memo string bool * world) bool := cached String.eqb exists_.
(** scrape.py:141 cached_ls: of the names in a directory, in the order the
    system gives *)
Definition cached_ls (listdir : string -> eff world (list string)) : string -> eff (memo string (list string) * world) (list string) := cached String.eqb listdir.

(** ** Patterns *)

(** A match: no first group in the pattern, or the group (None if it took no
    part). *)
Inductive match_ := NoGroup | Group (g : option string).

Section Scraper.
  Context {pattern V : Type} (peqb : pattern -> pattern -> bool).
  Context (search : pattern -> string -> res (option match_)) (literal_eval : string -> res V).
  Context (text_value : string -> V) (none : V).

  (** scrape.py:16-30 make_scraper.  literal_eval(None) is a ValueError. *)
  Definition make_scraper (label_text : string) (p : pattern) : res V :=
    m <- search p label_text ;;
    match m with
    | None => Ok none
    | Some NoGroup => Exc IndexError
    | Some (Group None) => Ok none
    | Some (Group (Some g)) =>
        match literal_eval g with
        | Ok v => Ok v
        | Exc ValueError | Exc UnicodeDecodeError | Exc SyntaxError => Ok (text_value g)
        | Exc e => Exc e
        end
    end.

  (** scrape.py:66-68 scrape_from_file *)
  Definition scraped_eqb (a b : label * pattern) : bool := label_eqb (fst a) (fst b) && peqb (snd a) (snd b).
  Definition scrape_uncached (a : label * pattern) : eff (memo label string * world) V :=
    t <~ cached_label_loader (fst a) ;; eof (make_scraper t (snd a)).
  Definition scrape_from_file : label * pattern -> eff (memo (label * pattern) V * (memo label string * world)) V :=
    cached scraped_eqb scrape_uncached.

  (** scrape.py:105-125 scrape_patterns.  [Some None]: the supplemental function
      returns something that is not a mapping. *)
  Definition scrape_patterns {W} (label_ : label) (metadata_regex : dict pattern)
      (supplemental : option (label -> string -> eff W (option (dict V)))) (loader : label -> eff W string) : eff W (dict V) :=
    label_text <~ loader label_ ;;
    pairs <~ eof (mapM (fun fp => v <- make_scraper label_text (snd fp) ;; Ok (fst fp, v)) metadata_regex) ;;
    let metadata := dict_of pairs in
    match supplemental with
    | None => eret metadata
    | Some g => d <~ g label_ label_text ;;
                match d with Some d => eret (dupdate metadata d) | None => eraise TypeError end
    end.
End Scraper.

(** scrape.py:128-137 bulk_scrape_metadata, of the files the iterable yields *)
Definition bulk_scrape_metadata {W F D} (files : list F) (pattern_scraper : F -> eff W D) : eff W (list D) :=
  efoldM (fun metaframe file => d <~ pattern_scraper file ;; eret (metaframe ++ [d])%list) files [].

(** ** scrape.py:43-59 scrape_subframe *)

Definition digit (c : ascii) : bool := in_range 48 57 c.
(** re.findall(r"\d+", s) *)
Fixpoint runs (cur s : string) : list string :=
  match s with
  | "" => match cur with "" => [] | _ => [cur] end
  | String c r => if digit c then runs (cur ++ String c "") r else match cur with "" => runs "" r | _ => cur :: runs "" r end
  end.
(** literal_eval of a digit run: leading zeros are a SyntaxError, unless all are
    zeros. *)
Definition digit_value (c : ascii) : Z := Z.of_N (N_of_ascii c) - 48.
Fixpoint run_value (acc : Z) (s : string) : Z := match s with "" => acc | String c r => run_value (acc * 10 + digit_value c)%Z r end.
Fixpoint all_chars (p : ascii -> bool) (s : string) : bool := match s with "" => true | String c r => p c && all_chars p r end.
Definition zero_char (c : ascii) : bool := N.eqb (N_of_ascii c) 48.
Definition literal_int (s : string) : res Z :=
  match s with
  | String c (String _ _ as r) => if zero_char c && negb (all_chars zero_char r) then Exc SyntaxError else Ok (run_value 0 s)
  | _ => Ok (run_value 0 s)
  end.
(** A single number is not a tuple. *)
Inductive numbers := One (z : Z) | Many (l : list Z).
Definition literal_ints (l : list string) : res numbers :=
  match l with
  | [] => Exc SyntaxError
  | [s] => z <- literal_int s ;; Ok (One z)
  | _ => zs <- mapM literal_int l ;; Ok (Many zs)
  end.
(** re.search(r"SUBFRAME.*?END", DOTALL); None has no attribute group *)
Definition subframe_block (text : string) : option string :=
  match cut "SUBFRAME" text with
  | None => None
  | Some (_, rest) => match cut "END" rest with Some (b, _) => Some ("SUBFRAME" ++ b) | None => None end
  end.
Definition scrape_subframe (text : string) : res numbers :=
  match subframe_block text with
  | None => Exc AttributeError
  | Some b => literal_ints (runs "" b)
  end.
