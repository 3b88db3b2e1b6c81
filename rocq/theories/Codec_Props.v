(** C77, C78: the JSON and AST codecs. *)
From Verif Require Import Codec_Proofs Codec_Ast CodecGrid_Proofs Grid_Proofs.

(** ** C77: JSON *)

(** What JSON knows becomes non-empty ASCII, which is read back as the value with
    lists for tuples and text for keys. *)
Theorem C77_encodes : forall v, serializable v = true ->
  exists b, json_encode v = Ok b /\ b <> ""%string /\ is_ascii b = true /\ json_decode b = Ok (jsonified v).
Proof. exact json_codec_lemma. Qed.
Print Assumptions C77_encodes.

(** Anything else is refused. *)
Theorem C77_refused : forall v, serializable v = false -> json_encode v = Exc TypeError.
Proof. exact json_refused_lemma. Qed.
Print Assumptions C77_refused.

(** Exactly the values without tuples and with text for keys come back as they were. *)
Theorem C77_round_trip : forall v, wfv v = true ->
  (json_stable v = true <-> exists b, json_encode v = Ok b /\ json_decode b = Ok v).
Proof. exact json_round_trip. Qed.
Print Assumptions C77_round_trip.

(** Blanks around a value do not matter; anything else after it is an error. *)
Theorem C77_spaces : forall v b w w', json_encode v = Ok b -> all_blank w = true -> all_blank w' = true ->
  json_decode (w ++ b ++ w') = Ok (jsonified v).
Proof. exact json_spaces. Qed.
Print Assumptions C77_spaces.
Theorem C77_extra : forall v b t, json_encode v = Ok b -> is_ascii t = true -> all_blank t = false ->
  json_decode (b ++ " " ++ t) = Exc ValueError.
Proof. exact json_extra. Qed.
Print Assumptions C77_extra.
Theorem C77_no_text : forall v b c t, json_encode v = Ok b -> no_start c = true ->
  json_decode (b ++ String c t) = Exc UnicodeDecodeError.
Proof. exact json_no_text. Qed.
Print Assumptions C77_no_text.
Example C77_around_ex :
  json_encode (VList [VAtom (KInt 1)]) = Ok "[1]"%string /\ all_blank (String "010" " ") = true /\ all_blank "" = true /\
  json_decode (String "010" " [1]") = Ok (VList [VAtom (KInt 1)]) /\
  is_ascii "[2]" = true /\ all_blank "[2]" = false /\ json_decode "[1] [2]" = Exc ValueError /\
  no_start "128" = true /\ json_decode ("[1]" ++ String "128" "") = Exc UnicodeDecodeError.
Proof. repeat split. Qed.

(** Through shared memory. *)
Theorem C77_shared : forall s v a ok, wf s -> serializable v = true -> content s a <> Some ""%string ->
  (ok = false -> content s a = None) ->
  exists s1, run (memorize json_encode v a ok) s = (Some (Ok a), s1) /\ only_at (eq a) s s1 /\
    run (remember json_decode a) s1 = (Some (Ok (jsonified v)), s1).
Proof. exact json_shared. Qed.
Print Assumptions C77_shared.

Definition cx_plain : val :=
  VDict CDict [(KStr "a", VList [VAtom (KInt (-7)); VAtom KNone; VAtom (KBool true)]);
               (KStr "b""\", VDict CDict [(KStr "", VAtom (KStr "x"))])].
Definition cx_tuple : val := VList [VTup [VAtom (KInt 1); VTup []]].
(** [{1: "x", "1": "y"}] *)
Definition cx_keys : val := VDict CDict [(KInt 1, VAtom (KStr "x")); (KStr "1", VAtom (KStr "y"))].
Definition cx_other : val := VList [VAtom (KOther "f" 0)].

Example C77_ex :
  wfv cx_plain = true /\ json_stable cx_plain = true /\
  json_encode cx_plain = Ok "{""a"": [-7, null, true], ""b\""\\"": {"""": ""x""}}"%string /\
  json_decode "{""a"": [-7, null, true], ""b\""\\"": {"""": ""x""}}" = Ok cx_plain /\
  serializable cx_tuple = true /\ wfv cx_tuple = true /\ json_stable cx_tuple = false /\
  serializable cx_other = false /\ json_encode cx_other = Exc TypeError /\
  wf empty_store /\ content empty_store "a" = None.
Proof. do 9 (split; [reflexivity|]). split; [exact wf_empty|reflexivity]. Qed.

(** Tuples come back as lists, keys as text, and of keys with the same text one is lost. *)
Theorem C77_refuted :
  serializable cx_tuple = true /\
  (b <- json_encode cx_tuple ;; json_decode b) = Ok (VList [VList [VAtom (KInt 1); VList []]]) /\
  wfv cx_keys = true /\ serializable cx_keys = true /\
  (b <- json_encode cx_keys ;; json_decode b) = Ok (VDict CDict [(KStr "1", VAtom (KStr "y"))]).
Proof. repeat split. Qed.
Print Assumptions C77_refuted.

(** ** The users of the JSON codec *)

(** The metadata of every array come back: the hypothesis on the codec in C48 holds
    for the one GridPaper has. *)
Theorem C48_json_codec : forall itemsize md, stable (array_encode itemsize) array_decode md.
Proof. exact metadata_stable. Qed.
Print Assumptions C48_json_codec.

Theorem C48_json_history : forall hash K P itemsize s nl h,
  collision_free hash K -> wf s -> vacant (grid_names hash P) s ->
  Forall (plain_gvisit itemsize K) h -> (Z.of_nat (List.length h) < 256 ^ 5)%Z ->
  exists s', run (gridpaper P true nl >>> gvisits_prog itemsize hash (array_encode itemsize) array_decode P h) s =
      (Some (Ok (fst (grid_run itemsize [] (map gv_op h)))), s') /\
    wf s' /\ only_at (grid_names hash P) s s'.
Proof.
  intros hash K P itemsize s nl h HK W Vc F L.
  destruct (grid_history hash K P (array_encode itemsize) array_decode itemsize s nl h HK (metadata_stable itemsize) W Vc F L)
    as (s' & c & E & W' & _ & _ & _ & _ & O'). eauto.
Qed.
Print Assumptions C48_json_history.

Definition cx_md : ameta := {| am_name := "g_p"; am_dtype := "<u2"; am_shape := [2; 3] |}.
Example C48_json_ex :
  array_encode (fun _ => 2) cx_md =
    Ok "{""name"": ""g_p"", ""dtype"": ""<u2"", ""shape"": [2, 3], ""size"": 12}"%string /\
  array_decode "{""name"": ""g_p"", ""dtype"": ""<u2"", ""shape"": [2, 3], ""size"": 12}" = Ok cx_md.
Proof. split; reflexivity. Qed.

(** The values of a MetaTagIndex that come back (what C41 asks of those added). *)
Theorem C41_json_values : forall v, wfv v = true -> json_stable v = true -> stable json_encode json_decode v.
Proof. exact values_stable. Qed.
Print Assumptions C41_json_values.

(** ** C78: literals *)

(** Literals other than text come back as they were. *)
Theorem C78_round_trip : forall rm v, is_literal v = true -> wfv v = true -> is_text v = false ->
  ast_decode (ast_encode rm v) = Some v.
Proof. exact ast_round_trip. Qed.
Print Assumptions C78_round_trip.

(** Text never does: it is encoded without its quotes, so it is read as the literal
    it looks like or not at all. *)
Theorem C78_text_refuted : forall rm t, ast_decode (ast_encode rm (VAtom (KStr t))) <> Some (VAtom (KStr t)).
Proof. exact ast_text. Qed.
Print Assumptions C78_text_refuted.

Theorem C78_lookalike : forall rm v, is_literal v = true -> wfv v = true ->
  ast_decode (ast_encode rm (VAtom (KStr (repr rm v)))) = Some v.
Proof. exact ast_lookalike. Qed.
Print Assumptions C78_lookalike.

(** Text inside other literals is quoted, without invisible characters, and as short
    as repr() makes it. *)
Theorem C78_visible : forall rm t, exists r, ast_encode rm (VList [VAtom (KStr t)]) = utf8 ("[" ++ r ++ "]") /\
  forallb visible (list_ascii_of_string r) = true /\ String.length r = 2 + rooms (occurs 39 t && occurs 34 t) t.
Proof. exact ast_shown. Qed.
Print Assumptions C78_visible.

(** A mapping that is shown as a call of its class does not come back. *)
Theorem C78_mapping_refuted : forall rm c d name rest,
  c <> CDict -> (forall s, rm c s = name ++ "(" ++ rest s)%string -> class_name name = true ->
  ast_decode (ast_encode rm (VDict c d)) = None.
Proof. exact ast_mapping. Qed.
Print Assumptions C78_mapping_refuted.

Definition cx_call (c : cls) (s : string) : string := ("OrderedDict" ++ "(" ++ s ++ ")")%string.
Definition cx_line : string := String "a" (String "010" (String "001" "'")).
Example C78_shown_ex :
  ast_encode cx_call (VList [VAtom (KStr cx_line)]) = "[""a\n\x01'""]"%string /\
  rooms (occurs 39 cx_line && occurs 34 cx_line) cx_line = 8 /\
  COrdered <> CDict /\ (forall s, cx_call COrdered s = "OrderedDict" ++ "(" ++ (s ++ ")"))%string /\ class_name "OrderedDict" = true /\
  ast_encode cx_call (VDict COrdered [(KInt 1, VAtom KNone)]) = "OrderedDict({1: None})"%string.
Proof. repeat split. discriminate. Qed.

Definition cx_literal : val :=
  VTup [VDict CDict [(KInt 1, VAtom (KStr "it's")); (KStr "1", VList [])];
        VTup [VAtom KNone]; VTup []; VAtom (KInt (-12)); VAtom (KStr "say ""hi""")].
Definition cx_no_mapping (c : cls) (s : string) : string := s.
Example C78_ex :
  is_literal cx_literal = true /\ wfv cx_literal = true /\ is_text cx_literal = false /\
  ast_encode cx_no_mapping cx_literal = "({1: ""it's"", '1': []}, (None,), (), -12, 'say ""hi""')"%string /\
  ast_decode "({1: ""it's"", '1': []}, (None,), (), -12, 'say ""hi""')" = Some cx_literal /\
  ast_decode (ast_encode cx_no_mapping (VAtom (KStr "12"))) = Some (VAtom (KInt 12)) /\
  ast_decode (ast_encode cx_no_mapping (VAtom (KStr "hello"))) = None.
Proof. repeat split. Qed.
