(** What the label readers should do. *)
From Verif Require Export Scrape_Model.
From Coq Require Export NArith.
Open Scope string_scope.

(** ** Text *)

(** UTF-8 as in RFC 3629: the bytes of a Unicode scalar value. *)
Definition scalar (c : N) : Prop := (c < 55296 \/ (57344 <= c /\ c < 1114112))%N.
Definition byte (n : N) : ascii := ascii_of_N n.
Definition encode (c : N) : string :=
  (if c <? 128 then String (byte c) ""
   else if c <? 2048 then String (byte (192 + c / 64)) (String (byte (128 + c mod 64)) "")
   else if c <? 65536 then
     String (byte (224 + c / 4096)) (String (byte (128 + c / 64 mod 64)) (String (byte (128 + c mod 64)) ""))
   else String (byte (240 + c / 262144)) (String (byte (128 + c / 4096 mod 64))
          (String (byte (128 + c / 64 mod 64)) (String (byte (128 + c mod 64)) ""))))%N.
Fixpoint text_of (cs : list N) : string := match cs with [] => "" | c :: r => encode c ++ text_of r end.
Definition is_text (s : string) : Prop := exists cs, Forall scalar cs /\ s = text_of cs.

(** ** Searching *)

Definition ends_with (pat s : string) : Prop := exists a, s = a ++ pat.
Definition occurs (pat s : string) : Prop := exists a b, s = a ++ pat ++ b.
(** [s] cut right after the first [pat]. *)
Definition cut_after (pat s a b : string) : Prop :=
  s = a ++ b /\ ends_with pat a /\
  forall a' b', s = a' ++ b' -> ends_with pat a' -> (String.length a <= String.length a')%nat.

(** ** Caches *)

(** The first result that was not an error. *)
Fixpoint first_answer {A B} (aeqb : A -> A -> bool) (a : A) (l : list (A * res B)) : option B :=
  match l with
  | [] => None
  | (a', Ok b) :: r => if aeqb a' a then Some b else first_answer aeqb a r
  | (_, Exc _) :: r => first_answer aeqb a r
  end.
Definition decides {A} (aeqb : A -> A -> bool) : Prop := forall a b, aeqb a b = true <-> a = b.

(** ** Numbers in a text *)

(** Runs of digits with other characters between. *)
Definition digits (s : string) : Prop := s <> "" /\ all_chars digit s = true.
Definition others (s : string) : Prop := all_chars (fun c => negb (digit c)) s = true.
Inductive numbered : string -> list string -> Prop :=
| nu_none g : others g -> numbered g []
| nu_last g d : others g -> digits d -> numbered (g ++ d) [d]
| nu_more g d c s l : others g -> digits d -> digit c = false -> numbered (String c s) l -> numbered (g ++ d ++ String c s) (d :: l).
(** The number [d] stands for, in decimal. *)
Inductive decimal : string -> Z -> Prop :=
| dec_one c : digit c = true -> decimal (String c "") (digit_value c)
| dec_more s z c : decimal s z -> digit c = true -> decimal (s ++ String c "") (10 * z + digit_value c).
(** Literals: no leading zero, or only zeros. *)
Definition proper (d : string) : Prop := (exists c r, d = String c r /\ zero_char c = false) \/ all_chars zero_char d = true.

(** ** Histories *)

(** Patterns asked for, and changes of the files in between. *)
Fixpoint asks {pattern} (h : list (label * pattern + (world -> world))) : list (event (label * pattern) (memo label string * world)) :=
  match h with
  | [] => []
  | inl a :: r => Call a :: asks r
  | inr g :: r => Meanwhile (fun s => (fst s, g (snd s))) :: asks r
  end.
(** What each call does, one after another. *)
Inductive one_by_one {W F D} (f : F -> eff W D) : list F -> W -> list D -> W -> Prop :=
| obo_nil w : one_by_one f [] w [] w
| obo_cons x r w d w1 ds w2 : f x w = (Ok d, w1) -> one_by_one f r w1 ds w2 -> one_by_one f (x :: r) w (d :: ds) w2.
