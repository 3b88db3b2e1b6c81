(** Model of dump() of Notepad and GridPaper and of close(dump=True)
    (dustgoggles/codex/implements.py:795-812, 897-921).  Definitions only.

    Simplifications: the working directory can be written to; a program
    gives the files written, in order, and how it ended. *)
From Verif Require Export Pad_Model.

(** [text.replace(".", "_")] *)
Fixpoint undot (s : string) : string :=
  match s with
  | "" => ""
  | String c r => String (if Ascii.eqb c "." then "_" else c)%char (undot r)
  end%string.
(** implements.py:796-797, 898-899. *)
Definition dump_file (P k : string) : string := undot (P ++ "_" ++ k).

(** Files written, and the end. *)
Definition dumped : Type := list (string * bytes) * res unit.

(** A program up to its end. *)
Definition outcome {A} (p : prog A) : prog (res A) := ptry p (fun a => Ret (Ok a)) (fun e => Ret (Exc e)).

Section Dump.
  (** One dump; one deletion; closing the index. *)
  Variables (dump : string -> prog dumped) (del : string -> prog unit) (close : prog unit).

  (** implements.py:804-809, 916-920. *)
  Fixpoint dump_each (ks : list string) (files : list (string * bytes)) : prog dumped :=
    match ks with
    | [] => let! r := outcome close in Ret (files, r)
    | k :: rest =>
        let! d := dump k in
        match snd d with
        | Exc e => Ret (files ++ fst d, Exc e)
        | Ok _ =>
            let! r := outcome (del k) in
            match r with
            | Exc e => Ret (files ++ fst d, Exc e)
            | Ok _ => dump_each rest (files ++ fst d)
            end
        end
    end.
End Dump.

Section Pads.
  Variable hash : bytes -> string.

  (** implements.py:795-800 Notepad.dump with mode "wb": the file is opened, and so
      emptied, first. *)
  Definition np_dump (p : pad) (k : ikey) : prog dumped :=
    let fn := dump_file (p_prefix p) (ktext k) in
    let! r := outcome (np_get_raw p k) in
    Ret (match r with Ok b => ([(fn, b)], Ok tt) | Exc e => ([(fn, ""%string)], Exc e) end).
  (** implements.py:802-812 Notepad.close(dump=True); update() is not asked for
      what it does when it raises. *)
  Definition np_close_dump (fuel : nat) (p : pad) : prog dumped :=
    let! ks := np_keys p in
    dump_each (fun k => np_dump p (skey k)) (fun k => np_del hash fuel p (skey k)) (tag_close (p_index p)) ks [].

  Variables (jdec : bytes -> res ameta) (itemsize : string -> nat).
  (** implements.py:897-900 GridPaper.dump: the array is read first. *)
  Definition gp_dump (p : pad) (k : ikey) : prog dumped :=
    let! r := outcome (gp_getitem hash jdec itemsize p k) in
    Ret (match r with Ok a => ([(dump_file (p_prefix p) (ktext k), a_data a)], Ok tt) | Exc e => ([], Exc e) end).
  (** implements.py:915-921 GridPaper.close(dump=True). *)
  Definition gp_close_dump (fuel : nat) (p : pad) : prog dumped :=
    let! ks := gp_keys p in
    dump_each (fun k => gp_dump p (skey k)) (fun k => gp_del hash fuel p (skey k)) (tag_close (p_index p)) ks [].
End Pads.
