(** The repository's own tests (dustgoggles/tests, dustgoggles/codex/tests),
    said of the models: what they assert of the code holds of the models by
    computation.  This checks the models, not the code; nothing in the proofs
    depends on it.

    Left out: test_composition_equivalence (a whole novel and the regular
    expressions of the standard library), test_itemize_numpy and test_pdstr
    (not modelled).  Functions that the tests pass in are written out here.  A
    function wrapped by wrap_piped runs by itself, while the caller waits
    (C67); random numbers of the tests are variables or fixed. *)
From Coq Require Import Lia.
From Verif Require Import Func_Model Struct_Model.

(** ** tests/test_func.py *)

Notation zfn := (fn (list Z) Z unit).
Definition z_add : zfn := fun args _ => match args with [x; y] => eret (x + y)%Z | _ => eraise TypeError end.
Definition z_sub : zfn := fun args _ => match args with [x; y] => eret (x - y)%Z | _ => eraise TypeError end.

(** test_func.py:11-14 *)
Example test_pass_parameters : forall x y w,
  fst (pass_parameters z_add [x; y] tt w) = Ok (x + y)%Z /\ fst (pass_parameters z_sub [x; y] tt w) = Ok (x - y)%Z.
Proof. split; reflexivity. Qed.

(** test_func.py:17-25; [shout] returns a number.  The default is "". *)
Inductive shouted := Nothing | Number (z : Z).
Example test_catch_interaction : forall n : Z,
  let shout : fn unit shouted unit := fun _ _ => eret (Number n) in
  fst (catch_interaction (eret true) shout [] Nothing tt tt) = Ok Nothing /\
  fst (catch_interaction (eret false) shout [] Nothing tt tt) = Ok (Number n).
Proof. split; reflexivity. Qed.

(** test_func.py:28-31 *)
Example test_naturals : naturals_take 99 naturals = map Z.of_nat (seq 1 99).
Proof. vm_compute. reflexivity. Qed.

(** test_func.py:34-42 *)
Example test_zero : forall (x : option Z) w, fst (Func_Model.constant (W := unit) (K := unit) None [x] tt w) = Ok None.
Proof. reflexivity. Qed.
Example test_constant : forall x w, fst (Func_Model.constant (W := unit) (K := unit) 1%Z [x] tt w) = Ok 1%Z.
Proof. reflexivity. Qed.

(** test_func.py:45-56; the world is the list, and the numbers that come. *)
Definition terrible_side_effect (random : nat -> Z) : eff (list Z) Z :=
  fun l => (Ok 0%Z, l ++ [random (List.length l)]).
Example test_triggerize : forall random,
  let '(i, l) := efoldM (fun i _ => t <~ triggerize (terrible_side_effect random) i ;; eret (i + t)%Z) (seq 0 10) 1%Z [] in
  i = Ok 1024%Z /\ List.length l = 10.
Proof. split; reflexivity. Qed.

(** test_func.py:59-68; sets may be gone through in any order. *)
Definition py_in (c : list val) (x : val) : eff unit bool := eret (existsb (veqb x) c).
Definition zatom (z : Z) : val := VAtom (KInt z).
Definition satom (s : string) : val := VAtom (KStr s).
Definition a_B : val := VTup [satom "a"; satom "B"].
Definition reference_1 := [zatom 4; satom "dog"; a_B].
Definition reference_2 := [zatom 1; zatom 4; satom "dog"; satom "cat"; a_B].
Definition asked (oper : bool -> bool -> eff unit bool) (query reference : list val) : res bool :=
  fst (are_in (fun b => b) py_in query oper reference tt).
Example test_are_in :
  Forall (fun query =>
    asked and_ query reference_1 = Ok false /\ asked and_ query reference_2 = Ok true /\
    asked or_ query reference_1 = Ok true /\ asked or_ query reference_2 = Ok true)
  [[zatom 1; satom "cat"; a_B]; [zatom 1; a_B; satom "cat"]; [satom "cat"; zatom 1; a_B];
   [satom "cat"; a_B; zatom 1]; [a_B; zatom 1; satom "cat"]; [a_B; satom "cat"; zatom 1]].
Proof. repeat constructor. Qed.

(** test_func.py:71-76; the class float is of class type, and [it_is] a function. *)
Inductive pycls := Cint | Cstr | Cdict | Ctype | Cfunction.
Definition is_a (x : pycls) (l : list pycls) : bool :=
  existsb (fun c => match c, x with Cint, Cint | Cstr, Cstr | Cdict, Cdict | Ctype, Ctype | Cfunction, Cfunction => true | _, _ => false end) l.
Example test_is_it : let it_is := is_it is_a [Cint; Cstr; Cdict] in
  it_is Cdict = true /\ it_is Cint = true /\ it_is Ctype = false /\ it_is Cfunction = false.
Proof. repeat split. Qed.

(** test_func.py:79-90 *)
Definition sequences : list (iterable Z) := [Again [0; 1; 2]; Again [1; 2; 3]; Again [2; 3; 4]]%Z.
Example test_intersection : intersection Z.eqb (fun _ => true) sequences = Ok ([2%Z], sequences).
Proof. reflexivity. Qed.
Example test_disjoint : disjoint Z.eqb (fun _ => true) sequences = Ok [[0; 1]; [1; 3]; [3; 4]]%Z.
Proof. reflexivity. Qed.

(** test_func.py:94-105 *)
Inductive sv := One (z : Z) | Many (l : list sv).
Definition splattable : fn unit sv unit := fun args _ =>
  match args with [One x; One y; One z] => eret (One (x ^ 3 + 2 * y ^ 2 + 3 * z)%Z) | _ => eraise TypeError end.
Definition sv_seq (v : sv) : option (list sv) := match v with Many l => Some l | One _ => None end.
Example test_splat : let args := Many [One 2; One 3; One 4]%Z in
  fst (splattable [args] tt tt) = Exc TypeError /\ fst (splat sv_seq tt splattable args tt) = Ok (One 38%Z).
Proof. split; reflexivity. Qed.

(** ** tests/test_structures.py *)

(** test_structures.py:17-44 *)
Definition week (sales : Z) : val := VDict CDict [(KStr "sales", zatom sales); (KStr "unit", satom "million_usd")].
Definition as_nested : val :=
  VDict CDict
    [(KStr "April", VDict CDict [(KInt 1, week 100); (KInt 2, week 110); (KInt 3, week 80); (KInt 4, week 90)]);
     (KStr "May", VDict CDict [(KInt 1, week 130); (KInt 2, week 150); (KInt 3, week 60); (KInt 4, week 70)])].
Definition in_week_four (r : val) : bool := match dget (entries r) (KStr "week") with Some v => veqb v (zatom 4) | None => false end.
Definition sales_of (r : val) : option val := dget (entries r) (KStr "sales").
Example test_to_records : exists records,
  to_records as_nested (Some [KStr "month"; KStr "week"]) = Ok records /\
  map sales_of (filter in_week_four records) = [Some (zatom 90); Some (zatom 70)].
Proof. eexists. split; vm_compute; reflexivity. Qed.

(** test_structures.py:47-53, on some of the features of the file and some of
    their properties; a float is an object with its repr. *)
Definition fl (s : string) : val := VAtom (KOther s 0).
Definition features_json : val := VList
  [(VDict CDict [(KStr "type", (VAtom (KStr "Feature"))); (KStr "properties", (VDict CDict [(KStr "RMC", (VAtom (KStr "3_0"))); (KStr "site", (VAtom (KInt (3)))); (KStr "sol", (VAtom (KInt (13)))); (KStr "lon", (fl "77.45088572")); (KStr "lat", (fl "18.44462715")); (KStr "final", (VAtom (KStr "y")))])); (KStr "geometry", (VDict CDict [(KStr "type", (VAtom (KStr "Point"))); (KStr "coordinates", (VList [(fl "77.45088572000003"); (fl "18.444627149999974"); (fl "-2569.91")]))]))]);
   (VDict CDict [(KStr "type", (VAtom (KStr "Feature"))); (KStr "properties", (VDict CDict [(KStr "RMC", (VAtom (KStr "3_110"))); (KStr "site", (VAtom (KInt (3)))); (KStr "sol", (VAtom (KInt (14)))); (KStr "lon", (fl "77.45094676")); (KStr "lat", (fl "18.44454339")); (KStr "final", (VAtom (KStr "y")))])); (KStr "geometry", (VDict CDict [(KStr "type", (VAtom (KStr "Point"))); (KStr "coordinates", (VList [(fl "77.45094675999991"); (fl "18.44454338999998"); (fl "-2569.86")]))]))]);
   (VDict CDict [(KStr "type", (VAtom (KStr "Feature"))); (KStr "properties", (VDict CDict [(KStr "RMC", (VAtom (KStr "4_218"))); (KStr "site", (VAtom (KInt (4)))); (KStr "sol", (VAtom (KInt (100)))); (KStr "lon", (fl "77.45216155")); (KStr "lat", (fl "18.44376271")); (KStr "final", (VAtom (KStr "y")))])); (KStr "geometry", (VDict CDict [(KStr "type", (VAtom (KStr "Point"))); (KStr "coordinates", (VList [(fl "77.45216155000008"); (fl "18.443762710000044"); (fl "-2569.197")]))]))])].
Definition call_dig (p : key -> val -> bool) : ref := RCall (fun k v => Ok (p k v)).
Example test_dig_for : exists features, enumerate_as_mapping features_json = Ok features /\
  dig_for_value features (RConst (satom "coordinates")) "key" op_eq is_dict_cls =
    Ok (Some (VList [fl "77.45088572000003"; fl "18.444627149999974"; fl "-2569.91"])) /\
  dig_for_key features (call_dig (fun _ v => veqb v (zatom 100))) "value" op_eq is_dict_cls = Ok (Some (KStr "sol")) /\
  dig_for_values features (RConst (satom "lat")) "key" op_eq is_dict_cls = Ok (Some [(fl "18.44462715"); (fl "18.44454339"); (fl "18.44376271")]).
Proof. eexists. split; [reflexivity|]. vm_compute. repeat split. Qed.

(** test_structures.py:56-77 *)
Inductive ono := Str (s : string) | Num (z : Z) | Map (d : dict ono) | Obj (d : list (string * ono)).
Definition ono_item (o : ono) (k : key) : res ono :=
  match o with
  | Map d => match dget d k with Some v => Ok v | None => Exc KeyError end
  | _ => Exc TypeError
  end.
Definition ono_attr (o : ono) (n : string) : res ono :=
  match o with
  | Obj d => match find (fun kv => String.eqb (fst kv) n) d with Some (_, v) => Ok v | None => Exc AttributeError end
  | _ => Exc AttributeError
  end.
Definition ostension : ono :=
  Obj [("up", Obj [("right", Obj [("left",
    Map [(KStr "1", Num 2); (KStr "down", Obj [("ababselectstart", Map [(KStr "cat", Str "tabby")])])])])])].
Example test_get_from :
  get_from ono_item ono_attr ostension (map KStr ["up"; "right"; "left"; "down"; "ababselectstart"; "cat"]) (Num 0) = Ok (Str "tabby").
Proof. reflexivity. Qed.

(** ** tests/test_pivot.py *)
From Verif Require Import Frame_Model.

Inductive sorghum_cell := CInt (z : Z) | CStr (s : string).
Definition cell_eq (a b : sorghum_cell) : bool :=
  match a, b with CInt x, CInt y => Z.eqb x y | CStr x, CStr y => String.eqb x y | _, _ => false end.
(** test_utils/data/sorghum_forecast.csv *)
Definition sorghum : @Frame_Model.frame sorghum_cell :=
  {| labels := map (fun i => KInt (Z.of_nat i)) (seq 0 12);
     columns :=
    [(KStr "Commodity2", [CStr "Sorghum"; CStr "Sorghum"; CStr "Sorghum"; CStr "Sorghum"; CStr "Sorghum"; CStr "Sorghum"; CStr "Sorghum"; CStr "Sorghum"; CStr "Sorghum"; CStr "Sorghum"; CStr "Sorghum"; CStr "Sorghum"]);
     (KStr "Attribute", [CStr "Beginning stocks"; CStr "Beginning stocks"; CStr "Beginning stocks"; CStr "Beginning stocks"; CStr "Beginning stocks"; CStr "Beginning stocks"; CStr "Beginning stocks"; CStr "Beginning stocks"; CStr "Beginning stocks"; CStr "Beginning stocks"; CStr "Beginning stocks"; CStr "Beginning stocks"]);
     (KStr "Unit", [CStr "Million bushels"; CStr "Million bushels"; CStr "Million bushels"; CStr "Million bushels"; CStr "Million bushels"; CStr "Million bushels"; CStr "Million bushels"; CStr "Million bushels"; CStr "Million bushels"; CStr "Million bushels"; CStr "Million bushels"; CStr "Million bushels"]);
     (KStr "YearProjected2", [CInt 2022; CInt 2022; CInt 2022; CInt 2022; CInt 2022; CInt 2022; CInt 2022; CInt 2022; CInt 2022; CInt 2022; CInt 2022; CInt 2022]);
     (KStr "Year2", [CStr "2020/21"; CStr "2021/22"; CStr "2022/23"; CStr "2023/24"; CStr "2024/25"; CStr "2025/26"; CStr "2026/27"; CStr "2027/28"; CStr "2028/29"; CStr "2029/30"; CStr "2030/31"; CStr "2031/32"]);
     (KStr "Value", [CInt 30; CInt 20; CInt 37; CInt 32; CInt 30; CInt 28; CInt 31; CInt 34; CInt 32; CInt 30; CInt 28; CInt 26])] |}.
Definition value_sum (df : @Frame_Model.frame sorghum_cell) : Z :=
  fold_right (fun c n => match c with CInt z => (z + n)%Z | CStr _ => n end) 0%Z (flat_map snd (loc_name df (KStr "Value"))).

(** test_pivot.py:16-26 *)
Example test_extract_constants : exists variables,
  extract_constants (fun _ => false) cell_eq sorghum true true HowRows true =
    Ok (AsDict [(KStr "Commodity2", CStr "Sorghum"); (KStr "Attribute", CStr "Beginning stocks");
                (KStr "Unit", CStr "Million bushels"); (KStr "YearProjected2", CInt 2022)], variables) /\
  value_sum variables = 358%Z.
Proof. eexists. split; vm_compute; reflexivity. Qed.

(** test_pivot.py:59-64 *)
Definition before_2028 (c : sorghum_cell) : bool :=
  match c with CStr s => existsb (String.eqb (substring 0 4 s)) (map (fun i => str_of_Z (2000 + Z.of_nat i)) (seq 0 28)) | CInt _ => false end.
Example test_split_on :
  let (early, late) := split_on sorghum (map before_2028 (flat_map snd (loc_name sorghum (KStr "Year2")))) in
  List.length (labels early) = 8 /\ value_sum late = 116%Z.
Proof. vm_compute. split; reflexivity. Qed.

(** ** tests/test_composition.py *)
From Verif Require Import Comp_Model.

Definition binary (name : string) (f : Z -> Z -> Z) : @step Z unit :=
  Plain (Some name) ("<built-in function " ++ name ++ ">")
    (fun args kw => match args, kw with [x; y], [] => eret (f x y) | _, _ => eraise TypeError end).
Definition blank_world {V} (trks : list tracker) : @world V unit := {| objs := []; trks := trks; user := tt |}.
Definition c_none : Z := (-999)%Z.
Definition c_trace (e : exn) : string * list Track_Model.frame := ("", []).
Definition c_run (x : Z) : eff st Z := @execute Z unit c_none c_trace x.
(** test_composition.py:65-77; [sends[0] = []] and [inserts[2] = {}] are done to
    the dictionaries of the composition. *)
Definition ordering : eff st (Z * Z) :=
  _ <~ add_insert (KInt 0) (KInt 0) 1%Z ;;
  _ <~ add_insert (KInt 1) (KInt 0) 2%Z ;;
  _ <~ add_send (KInt 0) None (TStep (KInt 2)) (KInt 0) ;;
  first <~ c_run 2 ;;
  c <~ Comp_Model.get ;;
  _ <~ put (with_inserts (with_sends c (dset (sends c) (KInt 0) [])) (dset (inserts c) (KInt 2) [])) ;;
  _ <~ add_send (KInt 0) None (TStep (KInt 2)) (KInt 1) ;;
  second <~ c_run 2 ;;
  eret (first, second).
Example test_composition_ordering :
  let built := Comp_Model.construct c_none (SSeq [binary "add" Z.add; binary "mul" Z.mul; binary "sub" Z.sub]) SNone SNone None None false (blank_world []) in
  fst built = Ok tt /\ fst (ordering (snd built)) = Ok (-3, 3)%Z.
Proof. vm_compute. split; reflexivity. Qed.

(** ** tests/test_tracker.py *)

(** str, list of str, set of str, None. *)
Inductive word_value := Word (s : string) | Words (l : list string) | WordSet (l : list string) | NoWords.
Definition newline : ascii := ascii_of_nat 10.
Definition blank_char (c : ascii) : bool := Ascii.eqb c " " || Ascii.eqb c newline.
Fixpoint lstrip (s : string) : string := match s with String c r => if blank_char c then lstrip r else s | "" => "" end.
Fixpoint srev (s acc : string) : string := match s with String c r => srev r (String c acc) | "" => acc end.
Definition strip (s : string) : string := srev (lstrip (srev (lstrip s) "")) "".
Fixpoint smap (f : ascii -> ascii) (s : string) : string := match s with String c r => String (f c) (smap f r) | "" => "" end.
Definition lower_char (c : ascii) : ascii :=
  let n := nat_of_ascii c in if (Nat.leb 65 n && Nat.leb n 90)%bool then ascii_of_nat (n + 32) else c.
Fixpoint split_spaces (s : string) : list string :=
  match s with
  | "" => [""]
  | String c r => if Ascii.eqb c " " then "" :: split_spaces r
                  else match split_spaces r with w :: ws => String c w :: ws | [] => [String c ""] end
  end.
Definition on_words (name : string) (f : string -> word_value) : @step word_value unit :=
  Plain (Some name) ("<function " ++ name ++ ">") (fun args kw => match args, kw with [Word s], [] => eret (f s) | _, _ => eraise TypeError end).
Definition unique : @step word_value unit :=
  Plain (Some "set") "<class 'set'>" (fun args kw => match args, kw with [Words l], [] => eret (WordSet (nodup string_dec l)) | _, _ => eraise TypeError end).
Definition nl : string := String newline "".
Definition SUMMARY : string :=
  (nl ++ "Characterizing Positional Offsets in Map-Projected Mini-RF Monostatic Data " ++
   nl ++ "[#2856] This abstract is an update and summary of continuing efforts to correct " ++
   nl ++ "positional errors and reprocess map-projected Mini-RF monostatic data products." ++ nl)%string.
Definition EXPECTED_STEMS : list string :=
  [""; "abstract"; "monostatic"; "correct"; "offsets"; "this"; "to"; "update"; "map-projected"; "positional"; "products.";
   "continuing"; "mini-rf"; "summary"; "[#2856]"; "errors"; "is"; "and"; "characterizing"; "data"; "reprocess"; "of"; "an"; "efforts"; "in"].
Definition same_set (a b : list string) : bool :=
  (forallb (fun x => existsb (String.eqb x) b) a && forallb (fun x => existsb (String.eqb x) a) b)%bool.
Definition t_steps : dict (@step word_value unit) :=
  [(KStr "strip", on_words "strip" (fun s => Word (strip s)));
   (KStr "oneline", on_words "<lambda>" (fun s => Word (smap (fun c => if Ascii.eqb c newline then " "%char else c) s)));
   (KStr "lower", on_words "lower" (fun s => Word (smap lower_char s)));
   (KStr "split", on_words "<lambda>" (fun s => Words (split_spaces s)));
   (KStr "unique", unique)].
(** test_tracker.py:17-29 *)
Example test_tracker :
  let stemmer := snd (Comp_Model.construct NoWords (SMap t_steps) SNone SNone (Some "stemmer") (Some (Real 0)) false
                        (blank_world [new_tracker KNone "" "." "now"])) in
  let (stemmed, after) := @execute word_value unit NoWords c_trace (Word SUMMARY) stemmer in
  match stemmed, trks (snd after) with
  | Ok (WordSet l), [t] =>
      same_set l EXPECTED_STEMS = true /\
      option_map (fun r => dget r (KStr "target")) (nth_error (history t) 0) = Some (Some (MStr "strip")) /\
      option_map (fun r => dget r (KStr "step")) (nth_error (history t) 1) = Some (Some (MAtom (KStr "oneline")))
  | _, _ => False
  end.
Proof. vm_compute. repeat split. Qed.

(** ** tests/test_dynamic.py *)
From Verif Require Import Dyn_Model.

(** None, a number, a str. *)
Inductive dyn_value := DNone | DNum (z : Z) | DStr (s : string).
Definition testdef : string := ("def f(x: float) -> float:" ++ nl ++ "    return x + 1")%string.
Definition t_compiler (s : string) : res pcode :=
  if String.eqb s testdef then Ok (PCode 0 "<module>" false [Some (PCode 1 "f" false [None]); None]) else Exc SyntaxError.
Definition t_run (f : @pyfun unit) (args : list dyn_value) (kw : unit) : eff unit dyn_value :=
  match f, args with Made (PCode 1 _ _ _) _, [DNum x] => eret (DNum (x + 1)) | _, _ => eraise TypeError end.
Definition t_shown : string := "<class 'TypeError'>: can only concatenate str (not ""int"") to str".
Definition t_trace (e : exn) : string * list Track_Model.frame := (match e with TypeError => t_shown | _ => "" end, []).
(** test_dynamic.py:4-12 *)
Example test_dynamic_1 :
  match fst (Dyn_Model.construct (W := unit) tt t_compiler t_trace (Some testdef) None FTrue FFalse FTrue tt) with
  | Ok d =>
      let called x := call DNone tt t_compiler t_trace t_run FNone [x] tt in
      let (one, s) := called (DNum 1) (d, tt) in
      let (two, s') := called (DStr "j") s in
      one = Ok (DNum 2) /\ two = Ok DNone /\
      option_map (fun r => dget (e_report r) (KStr "exception")) (nth_error (Dyn_Model.errors (fst s')) 0) = Some (Some (MStr t_shown))
  | Exc _ => False
  end.
Proof. vm_compute. repeat split. Qed.

(** ** codex/tests/test_codex.py *)
From Verif Require Import Pad_Model Pickle_Model.
Open Scope nat_scope.

(** Objects as pickle sees them: what can be reached, and a value. *)
Notation pobj := (heap * pv)%type.
Definition p_enc (o : pobj) : res bytes := pickle_encode 20 (fst o) (snd o).
Definition p_dec (b : bytes) : res pobj := pickle_decode 20 b.
Definition p_none (o : pobj) : bool := match snd o with PNone => true | _ => false end.
(** [{"x": n}] and [n] *)
Definition x_is (n : Z) : pobj :=
  (fun i => match i with 0 => Some (NDict [(PRef 1, PInt n)]) | 1 => Some (NStr "x") | _ => None end, PRef 0).
Definition p_int (n : Z) : pobj := (fun _ => None, PInt n).
(** [square( **o)], TypeError unless [o] is a dict with the one key "x". *)
Definition square_kwargs (o : option pobj) : res Z :=
  match o with
  | Some (h, PRef r) =>
      match h r with
      | Some (NDict [(PRef k, PInt n)]) => match h k with Some (NStr "x") => Ok (n ^ 2)%Z | _ => Exc TypeError end
      | _ => Exc TypeError
      end
  | _ => Exc TypeError
  end.
Definition t_read (a : string) : prog (option pobj) :=
  let! r := sticky_read p_dec p_none (mkSticky a None) false in Ret (fst r).
Definition remote_square (a : string) : prog Z := let! o := t_read a in of_res (square_kwargs o).

(** test_codex.py:47-49 *)
Example test_sticky_1 : fst (run (remote_square "empty address") empty_store) = Some (Exc TypeError).
Proof. vm_compute. reflexivity. Qed.
(** test_codex.py:52-61; the address is that of a sticky note made here (2) or
    there (3). *)
Example test_sticky_2_3 :
  fst (run (let! k := note p_enc p_none "psm_1234" (x_is 12) in remote_square (st_address k)) empty_store) = Some (Ok 144%Z).
Proof. vm_compute. reflexivity. Qed.
(** test_codex.py:64-67; the one that sticks is done before the other reads. *)
Example test_sticky_4 :
  exists o, fst (run (note p_enc p_none "123456" (p_int 12) >>> t_read "123456") empty_store) = Some (Ok (Some o)) /\ snd o = PInt 12.
Proof. eexists. split; [vm_compute; reflexivity|reflexivity]. Qed.

(** test_codex.py:70-77; hashes of keys are the keys. *)
Definition t_hash (b : bytes) : string := b.
Definition look_up (title k : string) : prog Z :=
  let! p := notepad title false false in
  let! o := np_get p_dec p_none p (skey k) in of_res (square_kwargs o).
Definition t_notepad : prog (Z * Z) :=
  let! p := notepad "test_notepad_123456" true false in
  np_set t_hash p_enc 1 p (skey "cat") (x_is 2) false true >>>
  np_set t_hash p_enc 1 p (skey "dog") (x_is 3) false true >>>
  let! a := look_up "test_notepad_123456" "cat" in
  let! b := look_up "test_notepad_123456" "dog" in Ret (a, b).
Example test_notepad_1 : fst (run t_notepad empty_store) = Some (Ok (4, 9)%Z).
Proof. vm_compute. reflexivity. Qed.

(** ** codex/tests/test_array_codex.py *)
From Verif Require Import CodecGrid_Model.

(** A 3 by 3 array of one-byte integers. *)
Definition t_item (dt : string) : nat := if String.eqb dt "|u1" then 1 else 0.
Definition cells_of (a : arr) : list nat := map nat_of_ascii (list_ascii_of_string (a_data a)).
Definition t_arr (l : list nat) : arr := mkArr [3; 3] "|u1" (string_of_list_ascii (map ascii_of_nat l)).
Definition diag (n : nat) : list nat := [n; 0; 0; 0; n; 0; 0; 0; n].
Definition squared (o : option arr) : res arr :=
  match o with Some a => Ok (t_arr (map (fun n => n * n) (cells_of a))) | None => Exc TypeError end.
Definition dot (a b : list nat) : list nat :=
  flat_map (fun i => map (fun j => list_sum (map (fun k => nth (3 * i + k) a 0 * nth (3 * k + j) b 0) (seq 0 3))) (seq 0 3)) (seq 0 3).
Definition grid_look_up (title k : string) : prog arr :=
  let! p := gridpaper title false false in
  let! o := gp_get t_hash array_decode t_item p (skey k) in of_res (squared o).
(** test_array_codex.py:22-32 *)
Definition t_gridpaper : prog (list nat) :=
  let! p := gridpaper "test_gridpaper_123456" true false in
  gp_set t_hash (array_encode t_item) t_item 1 p (skey "cat") (t_arr (diag 2)) true >>>
  gp_set t_hash (array_encode t_item) t_item 1 p (skey "dog") (t_arr (diag 3)) true >>>
  let! a := grid_look_up "test_gridpaper_123456" "cat" in
  let! b := grid_look_up "test_gridpaper_123456" "dog" in Ret (dot (cells_of a) (cells_of b)).
Example test_gridpaper_1 : fst (run t_gridpaper empty_store) = Some (Ok (diag 36)).
Proof. vm_compute. reflexivity. Qed.
