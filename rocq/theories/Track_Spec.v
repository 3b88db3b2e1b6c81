(** What the properties C31-C33 of tracker.py mean.  Definitions only. *)
From Verif Require Export Track_Model Json_Model.

(** ** The log file *)

Definition sep : string := String "," (String "010" "").
(** The documents between brackets, separated by a comma and a newline. *)
Definition array (docs : list string) : string := ("[" ++ String.concat sep docs ++ "]")%string.

(** What matters for the files: documents written, files removed. *)
Inductive event := Wrote (path doc : string) | Removed (path : string).

(** The documents written to a path since it was last removed. *)
Definition since1 (path : string) (docs : list string) (e : event) : list string :=
  match e with
  | Wrote p d => if String.eqb p path then docs ++ [d] else docs
  | Removed p => if String.eqb p path then [] else docs
  end.
Definition docs_since (start : string -> list string) (evs : list event) (path : string) : list string :=
  fold_left (since1 path) evs (start path).

Section Events.
  Context (dumps : dict jval -> res string).
  (** The event of a successful operation in a state. *)
  Definition event_of (o : top) (s : tstate) : list event :=
    match o with
    | TDump i now =>
        match nth_error (trackers s) i with
        | Some t =>
            if paused t then []
            else match dumps (document (stamped now t)) with
                 | Ok doc => [Wrote (outpath t) doc]
                 | Exc _ => []
                 end
        | None => []
        end
    | TClear i => match nth_error (trackers s) i with Some t => [Removed (outpath t)] | None => [] end
    | _ => []
    end.
  Fixpoint events (os : list top) (s : tstate) : list event :=
    match os with
    | [] => []
    | o :: r => event_of o s ++ events r (snd (tstep dumps o s))
    end.
End Events.

(** The files are the arrays of the documents [docs]. *)
Definition files_are (fs : files) (docs : string -> list string) : Prop :=
  forall p, dget fs (KStr p) = match docs p with [] => None | ds => Some (array ds) end.

Definition no_crash (os : list top) : Prop :=
  forall o, In o os -> match o with TCrash _ _ _ => False | _ => True end.
Definition all_ok (rs : list (res unit)) : Prop := Forall (fun r => r = Ok tt) rs.

(** ** Reading a log *)

(** JSON whitespace. *)
Fixpoint skip_ws (s : string) : string :=
  match s with
  | String (" " | "009" | "010" | "013") r => skip_ws r
  | _ => s
  end.

(** A reader of JSON arrays, built on a reader of documents, which yields
    what the document means and what is left after it. *)
Section Reader.
  Context {D : Type} (read_doc : string -> option (D * string)).

  (** After a document: a comma and another one, or the end. *)
  Fixpoint read_rest (fuel : nat) (s : string) : option (list D) :=
    match fuel with
    | O => None
    | S f =>
        match skip_ws s with
        | String "]" r => match skip_ws r with ""%string => Some [] | _ => None end
        | String "," r =>
            match read_doc (skip_ws r) with
            | Some (d, r') => match read_rest f r' with Some ds => Some (d :: ds) | None => None end
            | None => None
            end
        | _ => None
        end
    end.
  Definition read_log (s : string) : option (list D) :=
    match skip_ws s with
    | String "[" r =>
        match skip_ws r with
        | String "]" r => match skip_ws r with ""%string => Some [] | _ => None end
        | r =>
            match read_doc r with
            | Some (d, r') => match read_rest (S (String.length r')) r' with Some ds => Some (d :: ds) | None => None end
            | None => None
            end
        end
    | _ => None
    end.

  (** [doc] is an object that means [d]. *)
  Context (denotes : string -> D -> Prop).
  Record reader_ok : Prop := {
    rd_object : forall doc d, denotes doc d -> exists r, doc = String "{" r;
    rd_reads : forall doc d rest, denotes doc d -> read_doc (doc ++ rest) = Some (d, rest);
    rd_prefix : forall p q d, denotes (p ++ q) d -> q <> ""%string -> read_doc p = None;
    rd_nothing : read_doc "" = None;
    rd_comma : forall r, read_doc (String "," r) = None
  }.
End Reader.

(** The text of a JSON object. *)
Definition is_document (doc : string) (j : json) : Prop := (exists l, j = JObj l) /\ doc = print 0 j.

(** The operations never remove the file [p], and the process does not end. *)
Definition keeps (p : string) (o : top) (s : tstate) : Prop :=
  match o with
  | TCrash _ _ _ => False
  | TClear i => forall t, nth_error (trackers s) i = Some t -> outpath t <> p
  | _ => True
  end.
Fixpoint never_cleared (dumps : dict jval -> res string) (p : string) (os : list top) (s : tstate) : Prop :=
  match os with
  | [] => True
  | o :: r => keeps p o s /\ never_cleared dumps p r (snd (tstep dumps o s))
  end.

(** ** History *)

(** What the i-th operation adds to the history of the j-th tracker. *)
Inductive hevent := Tracked (target caller : string) (lineno : Z) (md : dict mval) | MetaSet (md : dict mval) | Cleared.
Definition hevent_of (j : nat) (o : top) : list hevent :=
  match o with
  | TTrack i t c l md => if Nat.eqb i j then [Tracked t c l md] else []
  | TSetMetadata i md => if Nat.eqb i j then [MetaSet md] else []
  | TClear i => if Nat.eqb i j then [Cleared] else []
  | _ => []
  end.

(** The calls of track since the last clear, each with the settings of
    metadata made before it, newest last. *)
Definition hstep (acc : list (dict mval) * list (string * string * Z * list (dict mval) * dict mval)) (e : hevent) :=
  let (sets, calls) := acc in
  match e with
  | Tracked t c l md => (sets, calls ++ [(t, c, l, sets, md)])
  | MetaSet md => (sets ++ [md], calls)
  | Cleared => (sets, [])
  end.
Definition calls_since (evs : list hevent) := snd (fold_left hstep evs ([], [])).

(** The value of a key: the last one given for it. *)
Definition last_given (k : key) (ds : list (dict mval)) : option mval :=
  fold_left (fun acc d => match dget (rev d) k with Some v => Some v | None => acc end) ds None.

(** What a record says about a key: the call's metadata first, then the
    tracker's, then the built-in fields. *)
Definition record_field (call : string * string * Z * list (dict mval) * dict mval) (n : Z) (k : key) : option mval :=
  let '(target, caller, lineno, sets, md) := call in
  match last_given k (sets ++ [md]) with
  | Some v => Some v
  | None =>
      if keqb k (KStr "target") then Some (MStr target)
      else if keqb k (KStr "caller") then Some (MStr caller)
      else if keqb k (KStr "lineno") then Some (MInt lineno)
      else if keqb k (KStr "trackcount") then Some (MInt n)
      else None
  end.

(** A string without underscores. *)
Fixpoint no_underscore (s : string) : Prop :=
  match s with "" => True | String c r => c <> "_"%char /\ no_underscore r end%string.
