(** C80: dumping notepads to files. *)
From Verif Require Import Dump_Proofs Pad_Props Sticky_Proofs.

(** close(dump=True) writes the encoding of every value to the file of its key and
    removes every block; if no key has a dot, every value is in its file. *)
Theorem C80_notepad : forall (V : Type) hash K P (enc : V -> res bytes) dec isnone h s0 s,
  preached hash K P enc dec isnone h s0 s ->
  forall nl fuel, fuel <> 0 -> Forall (fun e => snd e <> None) (pad_after enc isnone h) ->
  exists ws s', run (let! p := notepad P false nl in np_close_dump hash fuel p) s = (Some (Ok (ws, Ok tt)), s') /\
    wf s' /\ vacant (pad_names hash P) s' /\ only_at (pad_names hash P) s0 s' /\
    Forall2 (fun e w => fst w = dump_file P (fst e) /\ exists v, snd e = Some v /\ enc v = Ok (snd w)) (pad_after enc isnone h) ws /\
    (Forall (fun k => dotless k = true) (map fst (pad_after enc isnone h)) ->
     forall k v, In (k, Some v) (pad_after enc isnone h) -> exists b, enc v = Ok b /\ file_after ws (dump_file P k) = Some b).
Proof. exact @pad_files. Qed.
Print Assumptions C80_notepad.

(** The same for a GridPaper without locking: the bytes of the arrays. *)
Theorem C80_gridpaper : forall hash K P jenc jdec itemsize h s0 s, greached hash K P jenc jdec itemsize h s0 s ->
  forall fuel, exists ws s', run (let! p := gridpaper P false true in gp_close_dump hash jdec itemsize fuel p) s = (Some (Ok (ws, Ok tt)), s') /\
    wf s' /\ vacant (grid_names hash P) s' /\ only_at (grid_names hash P) s0 s' /\
    Forall2 (fun e w => w = (dump_file P (fst e), a_data (sh_arr (snd e)))) (sheets_after itemsize h) ws /\
    (Forall (fun k => dotless k = true) (map fst (sheets_after itemsize h)) ->
     forall k n a, grid_after itemsize k None (map gv_op h) = Some (mkSheet n a) -> file_after ws (dump_file P k) = Some (a_data a)).
Proof. exact grid_files. Qed.
Print Assumptions C80_gridpaper.

(** dump() of one key; that of a key without a value raises, having emptied the file. *)
Theorem C80_dump : forall (V : Type) hash K P (enc : V -> res bytes) dec isnone h s0 s,
  preached hash K P enc dec isnone h s0 s -> forall nl k, pad_key K k ->
  exists r, run (let! p := notepad P false nl in np_dump p k) s = (Some (Ok r), s) /\
    match value_of (ktext k) (pad_after enc isnone h) with
    | Some (Some v) => exists b, enc v = Ok b /\ r = ([(dump_file P (ktext k), b)], Ok tt)
    | _ => r = ([(dump_file P (ktext k), ""%string)], Exc FileNotFoundError)
    end.
Proof. exact @pad_dump_one. Qed.
Print Assumptions C80_dump.

(** Closing stops at the first such key: it empties its file and raises; the values
    before it are in their files and gone from memory, those after it still in
    memory only. *)
Theorem C80_stops_refuted : forall (V : Type) hash K P (enc : V -> res bytes) dec isnone h s0 s,
  preached hash K P enc dec isnone h s0 s ->
  forall nl fuel l1 k l2, fuel <> 0 -> pad_after enc isnone h = l1 ++ (k, None) :: l2 -> Forall (fun e => snd e <> None) l1 ->
  exists ws s', run (let! p := notepad P false nl in np_close_dump hash fuel p) s =
      (Some (Ok (ws ++ [(dump_file P k, ""%string)], Exc FileNotFoundError)), s') /\ wf s' /\
    Forall2 (fun e w => fst w = dump_file P (fst e) /\ exists v, snd e = Some v /\ enc v = Ok (snd w)) l1 ws /\
    (forall k' o, In (k', o) l1 -> content s' (pad_address P k') = None) /\
    (forall k' v, In (k', Some v) l2 -> exists b, enc v = Ok b /\ content s' (pad_address P k') = Some b).
Proof. exact @pad_stops. Qed.
Print Assumptions C80_stops_refuted.

Definition dx_holed : list (pvisit string) := px_holed ++ [mkPVisit true 1 (PSet (skey "d") "4" true)].
Example C80_stops_ex :
  let s := snd (px_run dx_holed) in
  preached px_hash px_any "n" px_enc px_dec px_none dx_holed empty_store s /\
  pad_after px_enc px_none dx_holed = [("7", Some "77"); ("b", Some "2")] ++ ("c", None) :: [("d", Some "4")] /\
  fst (run (let! p := notepad "n" false false in np_close_dump px_hash 2 p) s) =
    Some (Ok ([("n_7", ".77"); ("n_b", ".2"); ("n_c", "")], Exc FileNotFoundError)).
Proof.
  cbv zeta. split; [eapply px_reached_of; [apply px_plain_of; reflexivity|reflexivity|vm_compute; reflexivity]|].
  split; vm_compute; reflexivity.
Qed.

(** dump() of a GridPaper reads the array before it opens the file: no file if there
    is no array. *)
Theorem C80_grid_dump : forall hash K P jenc jdec itemsize h s0 s, greached hash K P jenc jdec itemsize h s0 s ->
  forall nl k, pad_key K k ->
  run (let! p := gridpaper P false nl in gp_dump hash jdec itemsize p k) s =
  (Some (Ok (match grid_after itemsize (ktext k) None (map gv_op h) with
             | Some sh => ([(dump_file P (ktext k), a_data (sh_arr sh))], Ok tt)
             | None => ([], Exc KeyError)
             end)), s).
Proof. exact grid_dump_one. Qed.
Print Assumptions C80_grid_dump.

Example C80_grid_dump_ex :
  let s := snd (gx_run gx_history) in
  let dump k := fst (run (let! p := gridpaper "g" false true in gp_dump px_hash gx_dec gx_item p (skey k)) s) in
  dump "p" = Some (Ok ([("g_p", "xyz")], Ok tt)) /\ dump "q" = Some (Ok ([], Exc KeyError)).
Proof. cbv zeta. split; vm_compute; reflexivity. Qed.

Example C80_ex :
  let s := snd (px_run px_history) in
  preached px_hash px_any "n" px_enc px_dec px_none px_history empty_store s /\
  Forall (fun e => snd e <> None) (pad_after px_enc px_none px_history) /\
  map fst (pad_after px_enc px_none px_history) = ["7"; "b"] /\
  fst (run (let! p := notepad "n" false false in np_close_dump px_hash 2 p) s) =
    Some (Ok ([("n_7", ".77"); ("n_b", ".2")], Ok tt)) /\
  greached px_hash px_any "g" gx_enc gx_dec gx_item gx_history empty_store (snd (gx_run gx_history)) /\
  fst (run (let! p := gridpaper "g" false true in gp_close_dump px_hash gx_dec gx_item 1 p) (snd (gx_run gx_history))) =
    Some (Ok ([("g_p", "xyz")], Ok tt)) /\
  pad_key px_any (skey "z") /\
  fst (run (let! p := notepad "n" false false in np_dump p (skey "z")) s) = Some (Ok ([("n_z", "")], Exc FileNotFoundError)).
Proof.
  cbv zeta. split; [exact px_reached|]. split; [vm_compute; repeat constructor; discriminate|]. split; [vm_compute; reflexivity|].
  split; [vm_compute; reflexivity|]. split; [exact gx_reached|]. split; [vm_compute; reflexivity|].
  split; [repeat split; discriminate|]. vm_compute. reflexivity.
Qed.

(** Keys that differ in a dot share a file: closing keeps only one of their values. *)
Definition dx_history : list (pvisit string) :=
  [ mkPVisit true 1 (PSet (skey "a.b") "1" true); mkPVisit true 1 (PSet (skey "a_b") "2" true) ].
Theorem C80_dots_refuted :
  let s := snd (px_run dx_history) in
  preached px_hash px_any "n" px_enc px_dec px_none dx_history empty_store s /\
  Forall (fun e => snd e <> None) (pad_after px_enc px_none dx_history) /\
  dict_after "a.b" None (map pv_op dx_history) = Some "1"%string /\
  exists ws s', run (let! p := notepad "n" false true in np_close_dump px_hash 1 p) s = (Some (Ok (ws, Ok tt)), s') /\
    dump_file "n" "a.b" = dump_file "n" "a_b" /\ file_after ws (dump_file "n" "a.b") = Some ".2"%string.
Proof.
  cbv zeta. split; [eapply px_reached_of; [apply px_plain_of; reflexivity|reflexivity|vm_compute; reflexivity]|].
  split; [vm_compute; repeat constructor; discriminate|]. split; [reflexivity|].
  eexists _, (snd (run (let! p := notepad "n" false true in np_close_dump px_hash 1 p) (snd (px_run dx_history)))).
  split; [|split; [reflexivity|]].
  - rewrite (surjective_pairing (run (let! p := notepad "n" false true in np_close_dump px_hash 1 p) (snd (px_run dx_history)))).
    apply f_equal2; [vm_compute; reflexivity|reflexivity].
  - reflexivity.
Qed.
Print Assumptions C80_dots_refuted.
