(** What is left in the files. *)
From Verif Require Export Dump_Model Pad_Spec.

(** The content of a file after writing: the last written. *)
Fixpoint file_after (ws : list (string * bytes)) (fn : string) : option bytes :=
  match ws with
  | [] => None
  | (n, b) :: r => match file_after r fn with Some b' => Some b' | None => if String.eqb n fn then Some b else None end
  end.
Fixpoint dotless (s : string) : bool :=
  match s with "" => true | String c r => negb (Ascii.eqb c ".") && dotless r end%string.
