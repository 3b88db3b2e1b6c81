(** Model of dustgoggles/tracker.py and of exc_report (dustgoggles/dynamic.py).
    Definitions only.

    Simplifications: a file system is a dictionary from paths (compared as
    strings) to contents, opening a file that exists never fails, and the
    directory of the logs exists; the clock is an argument; json.dumps is a
    parameter; TrivialTracker, whose methods do nothing, is the [None] case
    of [track_with]. *)
From Verif Require Export Py_Model.

(** Values found in history records: atoms, lists, and other objects. *)
Inductive mval : Type :=
| MAtom (k : key)
| MList (l : list mval)
| MObj (n : N).
Definition MStr s := MAtom (KStr s).
Definition MInt z := MAtom (KInt z).

(** ** dynamic.py:57-77 exc_report *)

(** A traceback entry: tb_lineno, and of its frame the module's __name__ (if
    [getmodule] finds one), the (qualified) code name and the file name. *)
Record frame := { f_module : option string; f_code : string; f_line : Z; f_file : string }.

(** [shown] is [f"{type(exc)}: {exc}"].  Three lists, filled in one loop over
    the traceback. *)
Definition exc_report (shown : string) (tb : list frame) : dict mval :=
  let '(lineno, name, filename) :=
    fold_left (fun acc fr =>
        let '(ls, ns, fs) := acc in
        let n := match f_module fr with
                 | Some m => (m ++ "." ++ f_code fr)%string
                 | None => f_code fr
                 end in
        (ls ++ [MInt (f_line fr)], ns ++ [MStr n], fs ++ [MStr (f_file fr)]))
      tb ([], [], []) in
  [(KStr "exception", MStr shown); (KStr "lineno", MList lineno);
   (KStr "name", MList name); (KStr "filename", MList filename)].

(** ** tracker.py:27-96 Tracker *)

(** Values of self.log: the "history" entry is the history list itself, so
    it shows every later change. *)
Inductive lval : Type := LVal (v : mval) | LHistory.

Record tracker := {
  history : list (dict mval);
  metadata : dict mval;
  counter : Z;  (** what [next(self.counter)] yields next *)
  tname : key;
  log : dict lval;
  outpath : string;
  paused : bool
}.

(** tracker.py:30-43 __init__. *)
Definition new_tracker (name : key) (identifier outdir now : string) : tracker :=
  let identifier := if String.eqb identifier "" then identifier else (identifier ++ "_")%string in
  {| history := []; metadata := []; counter := 1; tname := name;
     log := [(KStr "name", LVal (MAtom name)); (KStr "init_timestamp", LVal (MStr now));
             (KStr "history", LHistory)];
     outpath := (outdir ++ "/" ++ identifier ++ py_str name ++ ".json")%string;
     paused := false |}.

Definition upd_history t h c :=
  {| history := h; metadata := metadata t; counter := c; tname := tname t; log := log t;
     outpath := outpath t; paused := paused t |}.
Definition upd_log t l :=
  {| history := history t; metadata := metadata t; counter := counter t; tname := tname t; log := l;
     outpath := outpath t; paused := paused t |}.
Definition upd_name t n :=
  {| history := history t; metadata := metadata t; counter := counter t; tname := n; log := log t;
     outpath := outpath t; paused := paused t |}.

(** tracker.py:50-67 track.  [target] is [func.__name__], or [str(func)] if
    it has none; [caller] and [lineno] describe the calling frame. *)
Definition track (target caller : string) (lineno : Z) (md : dict mval) (t : tracker) : tracker :=
  let rec :=
    dupdate (dupdate
      (dict_of [(KStr "target", MStr target); (KStr "caller", MStr caller);
                (KStr "lineno", MInt lineno); (KStr "trackcount", MInt (counter t))])
      (metadata t)) md in
  upd_history t (history t ++ [rec]) (counter t + 1).

(** tracker.py:69-70 set_metadata. *)
Definition set_metadata (md : dict mval) (t : tracker) : tracker :=
  {| history := history t; metadata := dupdate (metadata t) md; counter := counter t;
     tname := tname t; log := log t; outpath := outpath t; paused := paused t |}.

(** tracker.py:72-76, 95-96 the property paused. *)
Definition set_paused (b : bool) (t : tracker) : tracker :=
  {| history := history t; metadata := metadata t; counter := counter t;
     tname := tname t; log := log t; outpath := outpath t; paused := b |}.

Notation files := (dict string).

(** tracker.py:45-48 clear. *)
Definition clear (t : tracker) (fs : files) : tracker * files :=
  (upd_history t [] 1, ddel fs (KStr (outpath t))).

(** [sorted(keys, key=lambda n: "history" in n)]: stable, False first. *)
Definition about_history (k : key) : bool :=
  match String.index 0 "history" (py_str k) with Some _ => true | None => false end.
Definition key_order (ks : list key) : list key :=
  filter (fun k => negb (about_history k)) ks ++ filter about_history ks.

(** What json.dumps gets: the log with the history in place. *)
Inductive jval : Type := JVal (v : mval) | JHistory (h : list (dict mval)).
Definition resolve (h : list (dict mval)) (v : lval) : jval :=
  match v with LVal v => JVal v | LHistory => JHistory h end.
Definition document (t : tracker) : dict jval := map (fun kv => (fst kv, resolve (history t) (snd kv))) (log t).

(** A file opened for writing: its contents and the position. *)
Record stream := { content : string; pos : nat }.
Definition write (data : string) (s : stream) : stream :=
  {| content := (substring 0 (pos s) (content s) ++ data ++
                 substring (pos s + String.length data) (String.length (content s)) (content s))%string;
     pos := pos s + String.length data |}.

Section Dump.
  (** [json.dumps(_, indent=2)] *)
  Context (dumps : dict jval -> res string).

  (** tracker.py:82-84 the log that is written. *)
  Definition stamped (now : string) (t : tracker) : tracker :=
    let l := dset (log t) (KStr "write_timestamp") (LVal (MStr now)) in
    upd_log t (dict_of (flat_map (fun k => match dget l k with Some v => [(k, v)] | None => [] end)
                                 (key_order (dkeys l)))).

  (** tracker.py:85-91 opening the file and writing what comes before the
      document; [seek(-1, SEEK_END)] fails on an empty file. *)
  Definition open_log (fs : files) (path : string) : res stream :=
    match dget fs (KStr path) with
    | Some s =>
        if Nat.eqb (String.length s) 0 then Exc OSError
        else Ok (write (String "," (String "010" "")) {| content := s; pos := String.length s - 1 |})
    | None => Ok (write "[" {| content := ""; pos := 0 |})
    end.

  (** tracker.py:79-93 dump.  The [with] block closes the file also when
      json.dumps raises. *)
  Definition dump (now : string) (t : tracker) (fs : files) : res unit * tracker * files :=
    if paused t then (Ok tt, t, fs) else
    let t := stamped now t in
    match open_log fs (outpath t) with
    | Exc e => (Exc e, t, fs)
    | Ok s =>
        match dumps (document t) with
        | Exc e => (Exc e, t, dset fs (KStr (outpath t)) (content s))
        | Ok doc => (Ok tt, t, dset fs (KStr (outpath t)) (content (write "]" (write doc s))))
        end
    end.

  (** A dump stopped by the end of the process after the first [n] bytes it
      writes have reached the file (bytes reach it in order, because they are
      buffered). *)
  Definition crashed_dump (n : nat) (now : string) (t : tracker) (fs : files) : files :=
    if paused t then fs else
    let t := stamped now t in
    let p := KStr (outpath t) in
    let data := match dumps (document t) with Ok doc => (doc ++ "]")%string | Exc _ => "" end in
    match dget fs p with
    | Some s =>
        if Nat.eqb (String.length s) 0 then fs
        else dset fs p (content (write (substring 0 n (String "," (String "010" "") ++ data))
                                       {| content := s; pos := String.length s - 1 |}))
    | None => dset fs p (substring 0 n ("[" ++ data))
    end.

  (** ** Histories: several trackers sharing a file system *)

  Inductive top : Type :=
  | TNew (name : key) (identifier outdir now : string)
  | TTrack (i : nat) (target caller : string) (lineno : Z) (md : dict mval)
  | TSetMetadata (i : nat) (md : dict mval)
  | TPause (i : nat) (b : bool)
  | TName (i : nat) (name : key)
  | TDump (i : nat) (now : string)
  | TClear (i : nat)
  | TCrash (i n : nat) (now : string).

  Record tstate := { trackers : list tracker; fs : files }.

  Fixpoint set_nth {A} (l : list A) (i : nat) (x : A) : list A :=
    match l, i with
    | [], _ => []
    | _ :: r, O => x :: r
    | y :: r, S i => y :: set_nth r i x
    end.
  Definition on_tracker (i : nat) (s : tstate) (f : tracker -> res unit * tracker * files) : res unit * tstate :=
    match nth_error (trackers s) i with
    | None => (Ok tt, s)
    | Some t => let '(r, t', fs') := f t in (r, {| trackers := set_nth (trackers s) i t'; fs := fs' |})
    end.

  (** One operation on the [i]-th tracker created ([TName]: assignment to
      tracker.name, as composition.py:37 does). *)
  Definition tstep (o : top) (s : tstate) : res unit * tstate :=
    match o with
    | TNew name ident outdir now =>
        (Ok tt, {| trackers := trackers s ++ [new_tracker name ident outdir now]; fs := fs s |})
    | TTrack i target caller lineno md =>
        on_tracker i s (fun t => (Ok tt, track target caller lineno md t, fs s))
    | TSetMetadata i md => on_tracker i s (fun t => (Ok tt, set_metadata md t, fs s))
    | TPause i b => on_tracker i s (fun t => (Ok tt, set_paused b t, fs s))
    | TName i n => on_tracker i s (fun t => (Ok tt, upd_name t n, fs s))
    | TDump i now => on_tracker i s (fun t => dump now t (fs s))
    | TClear i => on_tracker i s (fun t => let (t', f') := clear t (fs s) in (Ok tt, t', f'))
    | TCrash i n now => on_tracker i s (fun t => (Ok tt, t, crashed_dump n now t (fs s)))
    end.

  (** The results of the operations and the state at the end. *)
  Fixpoint trun (os : list top) (s : tstate) : list (res unit) * tstate :=
    match os with
    | [] => ([], s)
    | o :: r => let (x, s') := tstep o s in let (xs, s'') := trun r s' in (x :: xs, s'')
    end.
End Dump.
