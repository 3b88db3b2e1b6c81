(** Specification vocabulary for unguarded concurrent use of one note. *)
From Verif Require Export Conc_Model Shm_Spec.

(** What processes do to one address with no lock: overwrite it with given
    bytes (codecs.py:77-95), or fetch its bytes (memutilz.py:22-27). *)
Inductive job := Overwrite (b : bytes) | Fetch.
Definition job_prog (a : string) (j : job) : prog string :=
  match j with
  | Overwrite b => memorize (fun x => Ok x) b a true
  | Fetch => fetch_block_bytes a
  end.

(** The bytes some job overwrites with. *)
Definition offered (js : list job) (b : bytes) : Prop := In (Overwrite b) js.

(** Everybody has come to an end. *)
Definition all_done {A} (ps : list (prog A)) : Prop := forall p, In p ps -> outcome p <> None.

(** What a job may come to, the address holding [old] at first. *)
Definition job_result (js : list job) (old : bytes) (j : job) (r : res string) : Prop :=
  match j, r with
  | Overwrite _, Ok _ => True
  | Overwrite _, Exc e => e = FileNotFoundError \/ e = FileExistsError \/ e = ValueError
  | Fetch, Ok b => b = old \/ exists v, offered js v /\ (b = v \/ b = zeros (String.length v))
  | Fetch, Exc e => e = FileNotFoundError \/ e = ValueError
  end.
