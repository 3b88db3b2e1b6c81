(** C100: what notepads, Stickies and stacks print. *)
From Coq Require Import Lia.
From Verif Require Import Codec_Spec Show_Proofs Sticky_Proofs Grid_Lemmas Pad_Props.

(** ** C100: printing *)

(** After any history a Notepad prints its keys, in the order of keys(), so that
    the list can be read back; printing changes nothing. *)
Theorem C100_notepad : forall rm (V : Type) hash K P (enc : V -> res bytes) dec isnone h s0 s nl c, preached hash K P enc dec isnone h s0 s ->
  exists t, run (let! p := notepad P false nl in np_str rm c p) s = (Some (Ok t), s) /\ says c t (map fst (pad_after enc isnone h)).
Proof. exact @np_shown. Qed.
Print Assumptions C100_notepad.

(** The text says one list only: two notepads print the same just when they list
    the same keys in the same order. *)
Theorem C100_one : forall c t a b, says c t a -> says c t b -> a = b.
Proof. exact says_one. Qed.
Print Assumptions C100_one.
Theorem C100_same : forall rm c a b, with_keys rm c a = with_keys rm c b <-> a = b.
Proof. exact with_keys_same. Qed.
Print Assumptions C100_same.

(** Whatever blocks are missing, a Notepad with an index can be printed, as long as
    none of the blocks of keys is empty. *)
Theorem C100_never_fails : forall rm c p s b, wf s -> mem s (hid (ix_mem (p_index p))) = Some b -> no_empty_keys (ix_name (p_index p)) s ->
  exists ks t, run (np_keys p) s = (Some (Ok ks), s) /\ run (np_str rm c p) s = (Some (Ok t), s) /\ says c t ks.
Proof. exact np_never_fails. Qed.
Print Assumptions C100_never_fails.

Theorem C100_gridpaper : forall rm hash K P jenc jdec itemsize h s0 s nl c, greached hash K P jenc jdec itemsize h s0 s ->
  exists t, run (let! p := gridpaper P false nl in gp_str rm c p) s = (Some (Ok t), s) /\ says c t (map fst (sheets_after itemsize h)).
Proof. exact gp_shown. Qed.
Print Assumptions C100_gridpaper.

Definition wx_none (c : cls) (s : string) : string := s.
Example C100_ex_notepad :
  fst (run (let! p := notepad "n" false false in np_str wx_none "Notepad" p) (snd (px_run px_history))) = Some (Ok "Notepad with keys ['7', 'b']") /\
  says "Notepad" "Notepad with keys ['7', 'b']" ["7"; "b"] /\
  fst (run (let! p := gridpaper "g" false false in gp_str wx_none "GridPaper" p) (snd (gx_run gx_history))) = Some (Ok "GridPaper with keys ['p']").
Proof. split; [vm_compute; reflexivity|]. split; [exists "['7', 'b']"%string; split; [reflexivity|vm_compute; reflexivity]|vm_compute; reflexivity]. Qed.
Example C100_ex_quotes : with_keys wx_none "Notepad" ["it's"; "a', 'b"; """"] = "Notepad with keys [""it's"", ""a', 'b"", '""']".
Proof. vm_compute. reflexivity. Qed.

(** A GridPaper whose last key was being removed when the process died cannot be
    printed any more, though a Notepad in that state can. *)
Definition wx_grid : store := snd (gx_run (firstn 2 gx_history)).
Definition wx_dead (n : nat) : store := crash n (let! p := gridpaper "g" false true in gp_del px_hash 3 p (skey "q")) wx_grid.
Theorem C100_gridpaper_refuted : exists n,
  fst (run (let! p := gridpaper "g" false false in gp_str wx_none "GridPaper" p) (wx_dead n)) = Some (Exc FileNotFoundError) /\
  fst (run (let! p := notepad "g" false false in np_str wx_none "Notepad" p) (wx_dead n)) = Some (Ok "Notepad with keys ['p']").
Proof. exists 16. vm_compute. split; reflexivity. Qed.
Print Assumptions C100_gridpaper_refuted.

(** ** Stickies *)

(** A Sticky prints the value it stuck or read last, "unread sticky" if there is
    none; whatever others do, it changes only by its own calls. *)
Theorem C100_sticky : forall rm enc dec isnone a h s, wf s -> names s a = None -> Forall (plain_sop enc dec isnone) h ->
  exists l objs s', run (sops_objs enc dec isnone (fun _ => mkSticky a None) h) s = (Some (Ok (l, objs)), s') /\ map fst l = h /\
    forall i, match known i None l with
              | Some v => sticky_str rm (objs i) = py_str_of rm v /\ sticky_repr rm (objs i) = ("sticky: " ++ repr rm v)%string
              | None => sticky_str rm (objs i) = "unread sticky"%string /\ sticky_repr rm (objs i) = "unread sticky"%string
              end.
Proof. exact sticky_shown. Qed.
Print Assumptions C100_sticky.
Theorem C100_sticky_read : forall rm (k : sticky val) v, st_cached k = Some v -> is_literal v = true -> wfv v = true ->
  exists t, sticky_repr rm k = ("sticky: " ++ t)%string /\ literal_eval t = Some v.
Proof. exact repr_read. Qed.
Print Assumptions C100_sticky_read.

(** A codec of lists of one small integer. *)
Definition wx_enc (v : val) : res bytes := match v with VList [VAtom (KInt z)] => Ok (String (ascii_of_N (Z.to_N z)) "") | _ => Exc TypeError end.
Definition wx_dec (b : bytes) : res val := match b with String c "" => Ok (VList [VAtom (KInt (Z.of_N (N_of_ascii c)))]) | _ => Exc ValueError end.
Definition wx_nothing (v : val) : bool := match v with VAtom KNone => true | _ => false end.
Definition wx_val (z : Z) : val := VList [VAtom (KInt z)].
Definition wx_history : list (sop val) := [SStick 0 (wx_val 5); SRead 1 false; SStick 1 (wx_val 7); SRead 0 false; SClose 1; SRead 2 false].
Example C100_ex_sticky : Forall (plain_sop wx_enc wx_dec wx_nothing) wx_history /\
  match fst (run (sops_objs wx_enc wx_dec wx_nothing (fun _ => mkSticky "x" None) wx_history) empty_store) with
  | Some (Ok (l, objs)) => map (fun i => (known i None l, sticky_str wx_none (objs i), sticky_repr wx_none (objs i))) [0; 1; 2] =
      [(Some (wx_val 5), "[5]", "sticky: [5]"); (Some (wx_val 7), "[7]", "sticky: [7]"); (None, "unread sticky", "unread sticky")]%string
  | _ => False
  end.
Proof.
  split; [|vm_compute; reflexivity]. repeat apply Forall_cons; try apply Forall_nil; intros i v E; try discriminate E; injection E as <- <-;
    (split; [eexists; repeat split; try reflexivity; discriminate|reflexivity]).
Qed.
(** What it prints need not be what is at the address (here 7), and text that says
    it is unread prints the same as being unread. *)
Theorem C100_sticky_refuted :
  (exists h l objs s, run (sops_objs wx_enc wx_dec wx_nothing (fun _ => mkSticky "x" None) h) empty_store = (Some (Ok (l, objs)), s) /\
     sticky_str wx_none (objs 0) = "[5]"%string /\ content s "x" = Some (String (ascii_of_nat 7) "")) /\
  sticky_str wx_none (mkSticky "x" (Some (VAtom (KStr "unread sticky")))) = sticky_str wx_none (mkSticky "x" None).
Proof. split; [|reflexivity]. exists (firstn 4 wx_history). do 3 eexists. split; [vm_compute; reflexivity|]. split; vm_compute; reflexivity. Qed.
Print Assumptions C100_sticky_refuted.

(** ** Stacks *)

(** The text of a stack has the name of the file, the line and the function of
    every frame, unless there are colons or semicolons in them. *)
Theorem C100_stack : forall st, st <> [] -> Forall plain_frame st -> read_stack (printstack st) = map shown_frame st.
Proof. exact stack_read. Qed.
Print Assumptions C100_stack.
Definition wx_stack : list stackframe := [mkFrame "/usr/lib/a.py" 12 "f"; mkFrame "b.py" 7 "<module>"].
Example C100_ex_stack : Forall plain_frame wx_stack /\ printstack wx_stack = "a.py:12:f;b.py:7:<module>"%string /\ path_name "/x/y/./" = "y"%string.
Proof.
  split; [|split; vm_compute; reflexivity]. repeat constructor; destruct H as [<-|[<-|[]]]; reflexivity.
Qed.
(** The name of a file is the last part of its path, whatever comes before it;
    slashes and dots at the end do not count. *)
Theorem C100_name : path_name "" = ""%string /\ path_name "." = ""%string /\
  (forall n, component n -> path_name n = n) /\
  (forall d, path_name (d ++ "/") = path_name d) /\
  (forall d, path_name (d ++ "/.") = path_name d) /\
  (forall d n, component n -> path_name (d ++ "/" ++ n) = n).
Proof. exact name_of_path. Qed.
Print Assumptions C100_name.
Example C100_ex_name : component "a.py" /\ component ".." /\ path_name "/usr//lib/./a.py/." = "a.py"%string.
Proof. repeat split; try discriminate; vm_compute; reflexivity. Qed.
Theorem C100_stack_refuted : exists a b, map shown_frame a <> map shown_frame b /\ printstack a = printstack b.
Proof. exists [mkFrame "a:1:f;b" 2 "g"], [mkFrame "a" 1 "f"; mkFrame "b" 2 "g"]. split; [vm_compute; discriminate|vm_compute; reflexivity]. Qed.
Print Assumptions C100_stack_refuted.
(** Nor does it say which directory a file is in. *)
Theorem C100_stack_directory_refuted : exists a b, Forall plain_frame a /\ Forall plain_frame b /\ a <> b /\ printstack a = printstack b.
Proof.
  exists [mkFrame "/x/a.py" 1 "f"], [mkFrame "/y/a.py" 1 "f"]. split; [|split; [|split; [discriminate|vm_compute; reflexivity]]];
    repeat constructor; destruct H as [<-|[<-|[]]]; reflexivity.
Qed.
Print Assumptions C100_stack_directory_refuted.
