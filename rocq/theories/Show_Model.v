(** Model of how notepads, Stickies and stacks are printed
    (dustgoggles/codex/implements.py).  Definitions only.

    Simplifications: keys are ASCII (the names of blocks are UTF-8, what is printed
    is text); the values of a Sticky are those of Py_Model. *)
From Verif Require Export Pad_Model Codec_Model.

Section Show.
  (** repr() of mappings of other classes. *)
  Variable repr_mapping : cls -> string -> string.

  Definition with_keys (class : string) (ks : list string) : string :=
    (class ++ " with keys " ++ repr repr_mapping (VList (map (fun k => VAtom (KStr k)) ks)))%string.

  (** implements.py:818-822 Notepad.__str__ and __repr__ *)
  Definition np_str (class : string) (p : pad) : prog string :=
    let! ks := np_keys p in Ret (with_keys class ks).
  (** implements.py:927-933 GridPaper.__str__ and __repr__ *)
  Definition gp_str (class : string) (p : pad) : prog string :=
    let! ks := meta_keys (p_index p) in Ret (with_keys class ks).

  (** implements.py:994-998 Sticky.__str__ *)
  Definition sticky_str (k : sticky val) : string :=
    match st_cached k with Some v => py_str_of repr_mapping v | None => "unread sticky" end.
  (** implements.py:1000-1004 Sticky.__repr__ *)
  Definition sticky_repr (k : sticky val) : string :=
    match st_cached k with Some v => ("sticky: " ++ repr repr_mapping v)%string | None => "unread sticky" end.
End Show.

(** [s.split(c)] *)
Fixpoint split_at (c : ascii) (s : string) : list string :=
  match s with
  | "" => [""]
  | String a r =>
      if Ascii.eqb a c then "" :: split_at c r
      else match split_at c r with x :: l => String a x :: l | [] => [String a ""] end
  end%string.
(** [Path(s).name]: the last component, of those that are neither empty nor a dot. *)
Definition path_name (s : string) : string :=
  last (filter (fun x => negb (String.eqb x "" || String.eqb x ".")) (split_at "/" s)) ""%string.

(** implements.py:117-123 printstack *)
Record stackframe := mkFrame { fr_file : string; fr_line : Z; fr_function : string }.
Definition print_frame (f : stackframe) : string :=
  (path_name (fr_file f) ++ ":" ++ str_of_Z (fr_line f) ++ ":" ++ fr_function f)%string.
Definition printstack (stack : list stackframe) : string := join ";" (map print_frame stack).
