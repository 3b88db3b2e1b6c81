(** Model of the pickle codec, the default of Notepad and the one of Sticky
    (dustgoggles/codex/codecs.py:50-64).  Definitions only.

    Everything but the last two definitions is CPython's
    (Modules/_pickle.c; opcodes: Lib/pickletools.py), protocol 5.

    Simplifications: of Python's objects only None, booleans, integers, floats
    (by their 64 bits), text of characters up to 255, bytes, lists, tuples and
    dictionaries; other opcodes are not read.  The recursion limit is [limit]
    containers within each other.  Keys of dictionaries are None, booleans,
    integers, text, bytes and tuples of these.  Why loading fails is not
    told apart. *)
From Verif Require Export Codec_Model Shm_Model.

(** ** Objects *)

(** Values: those without an identity worth mentioning, and references.  The
    empty tuple is one object only. *)
Inductive pv : Type :=
| PNone
| PBool (b : bool)
| PInt (z : Z)
| PFloat (bits : Z)
| PUnit
| PRef (x : nat).
Inductive node : Type :=
| NStr (s : string)
| NBytes (b : bytes)
| NList (l : list pv)
| NTup (l : list pv)
| NDict (d : list (pv * pv)).
Definition heap : Type := nat -> option node.

(** What a key is compared by; None if it is not hashable (or not modelled).
    A tuple gives its length and what its elements give. *)
Inductive token : Type := TNone | TInt (z : Z) | TStr (s : string) | TBytes (b : bytes) | TTup (n : nat).
Definition token_eq_dec (a b : token) : {a = b} + {a <> b}.
Proof. decide equality; auto using Z.eq_dec, string_dec, Nat.eq_dec. Defined.
Fixpoint all_some {A} (l : list (option A)) : option (list A) :=
  match l with
  | [] => Some []
  | Some a :: r => option_map (cons a) (all_some r)
  | None :: _ => None
  end.
Fixpoint key_of (limit : nat) (h : heap) (v : pv) : option (list token) :=
  match v with
  | PNone => Some [TNone]
  | PBool b => Some [TInt (if b then 1 else 0)]
  | PInt z => Some [TInt z]
  | PFloat _ => None
  | PUnit => Some [TTup 0]
  | PRef x =>
      match limit, h x with
      | S l, Some (NStr s) => Some [TStr s]
      | S l, Some (NBytes b) => Some [TBytes b]
      | S l, Some (NTup t) => option_map (fun ks => TTup (List.length t) :: List.concat ks) (all_some (map (key_of l h) t))
      | _, _ => None
      end
  end.
(** d[k] = v *)
Fixpoint set_key (limit : nat) (h : heap) (kt : list token) (k v : pv) (d : list (pv * pv)) : list (pv * pv) :=
  match d with
  | [] => [(k, v)]
  | (k1, v1) :: r =>
      match key_of limit h k1 with
      | Some kt1 => if list_eq_dec token_eq_dec kt1 kt then (k1, v) :: r else (k1, v1) :: set_key limit h kt k v r
      | None => (k1, v1) :: set_key limit h kt k v r
      end
  end.
(** The same for keys and values in turn. *)
Fixpoint set_items (limit : nat) (h : heap) (l : list pv) (d : list (pv * pv)) : option (list (pv * pv)) :=
  match l with
  | [] => Some d
  | k :: v :: r => match key_of limit h k with Some kt => set_items limit h r (set_key limit h kt k v d) | None => None end
  | [_] => None
  end.

(** ** Opcodes *)
Inductive opc : Type :=
| OPush (v : pv)        (* NONE, NEWTRUE, NEWFALSE, BININT1, BININT2, BININT, LONG1, LONG4, BINFLOAT, EMPTY_TUPLE *)
| ONew (n : node)       (* (SHORT_)BINUNICODE(8), (SHORT_)BINBYTES(8), EMPTY_LIST, EMPTY_DICT *)
| OMark | OPop | OPopMark
| OAppend | OAppends | OSetItem | OSetItems
| OTup (n : nat)        (* TUPLE1, TUPLE2, TUPLE3 *)
| OTuple
| OMemoize
| OGet (k : nat)        (* BINGET, LONG_BINGET *)
| OProto (n : Z) | OFrame (n : Z) | OStop.

Definition byte (n : N) : string := String (ascii_of_N n) "".
Definition len (s : string) : Z := Z.of_nat (String.length s).

(** An int in as few bytes as its sign allows (save_long). *)
Definition num_bits (z : Z) : Z := if (z =? 0)%Z then 0%Z else (Z.log2 (Z.abs z) + 1)%Z.
Definition long_bytes (z : Z) : bytes :=
  let n := S (Z.to_nat (num_bits z / 8)) in
  let d := le_digits n (z mod 256 ^ Z.of_nat n)%Z in
  let shorter := le_digits (n - 1) (z mod 256 ^ Z.of_nat (n - 1))%Z in
  if ((z <? 0) && (1 <? Z.of_nat n) && (- (256 ^ Z.of_nat (n - 1)) <=? 2 * z))%Z then shorter else d.
Definition signed (b : bytes) : Z :=
  let u := from_bytes b in let top := (256 ^ len b)%Z in
  if (2 * u <? top)%Z then u else (u - top)%Z.
Definition int_code (z : Z) : string :=
  (if (-2147483648 <=? z) && (z <=? 2147483647) then
     if (0 <=? z) && (z <? 256) then byte 75 ++ le_digits 1 z
     else if (0 <=? z) && (z <? 65536) then byte 77 ++ le_digits 2 z
     else byte 74 ++ le_digits 4 (z mod 256 ^ 4)
   else
     let d := long_bytes z in
     if len d <? 256 then byte 138 ++ le_digits 1 (len d) ++ d
     else byte 139 ++ le_digits 4 (len d) ++ d)%Z%string.
Fixpoint reversed (s : string) : string :=
  match s with "" => "" | String c r => reversed r ++ String c "" end%string.
(** Opcode and length of some bytes: with one, four or eight bytes for the length. *)
Definition sized (c1 c4 c8 : N) (b : bytes) : string :=
  (if len b <? 256 then byte c1 ++ le_digits 1 (len b)
   else if len b <? 256 ^ 4 then byte c4 ++ le_digits 4 (len b)
   else byte c8 ++ le_digits 8 (len b))%Z%string.
(** What is written with _Pickler_write_bytes: header and data. *)
Definition blob (o : opc) : option (string * string) :=
  match o with
  | ONew (NStr s) => Some (sized 140 88 141 (utf8 s), utf8 s)
  | ONew (NBytes b) => Some (sized 67 66 142 b, b)
  | _ => None
  end.
Definition code (o : opc) : string :=
  match o with
  | OPush PNone => byte 78
  | OPush (PBool true) => byte 136
  | OPush (PBool false) => byte 137
  | OPush (PInt z) => int_code z
  | OPush (PFloat bits) => byte 71 ++ reversed (le_digits 8 bits)
  | OPush PUnit => byte 41
  | OPush (PRef _) => ""
  | ONew (NStr s) => sized 140 88 141 (utf8 s) ++ utf8 s
  | ONew (NBytes b) => sized 67 66 142 b ++ b
  | ONew (NList _) => byte 93
  | ONew (NTup _) => ""
  | ONew (NDict _) => byte 125
  | OMark => byte 40
  | OPop => byte 48
  | OPopMark => byte 49
  | OAppend => byte 97
  | OAppends => byte 101
  | OSetItem => byte 115
  | OSetItems => byte 117
  | OTup n => byte (132 + N.of_nat n)
  | OTuple => byte 116
  | OMemoize => byte 148
  | OGet k => if (Z.of_nat k <? 256)%Z then byte 104 ++ le_digits 1 (Z.of_nat k) else byte 106 ++ le_digits 4 (Z.of_nat k)
  | OProto n => byte 128 ++ le_digits 1 n
  | OFrame n => byte 149 ++ le_digits 8 n
  | OStop => byte 46
  end%string.
(** Sizes that can be written. *)
Definition encodable (o : opc) : bool :=
  match o with
  | OPush (PInt z) => (len (long_bytes z) <? 2147483648)%Z
  | OPush (PFloat bits) => ((0 <=? bits) && (bits <? 256 ^ 8))%Z
  | OPush (PRef _) => false
  | ONew (NStr s) => (len (utf8 s) <? 256 ^ 8)%Z
  | ONew (NBytes b) => (len b <? 256 ^ 8)%Z
  | ONew (NList []) | ONew (NDict []) => true
  | ONew _ => false
  | OTup n => Nat.leb 1 n && Nat.leb n 3
  | OGet k => (Z.of_nat k <? 256 ^ 4)%Z
  | OProto n => ((0 <=? n) && (n <? 256))%Z
  | OFrame n => ((0 <=? n) && (n <? 256 ^ 8))%Z
  | _ => true
  end.

(** ** Pickling *)

(** [Bound]: _Pickler_OpcodeBoundary. *)
Inductive item : Type := Bound | Op (o : opc).
Fixpoint index_of (x : nat) (m : list nat) : option nat :=
  match m with
  | [] => None
  | y :: r => if Nat.eqb x y then Some 0 else option_map S (index_of x r)
  end.
Definition batch_size : nat := 1000.
Fixpoint chunk {A} (fuel n : nat) (l : list A) : list (list A) :=
  match fuel, l with
  | S f, _ :: _ => firstn n l :: chunk f n (skipn n l)
  | _, _ => []
  end.
Definition flat (d : list (pv * pv)) : list pv := flat_map (fun kv => [fst kv; snd kv]) d.

Section Save.
  (** What is written for a value, and the memo after it (in the order of its
      indices). *)
  Variable sv : pv -> list nat -> option (list item * list nat).
  Fixpoint saves (l : list pv) (m : list nat) : option (list item * list nat) :=
    match l with
    | [] => Some ([], m)
    | v :: r =>
        match sv v m with
        | Some (a, m1) => match saves r m1 with Some (b, m2) => Some (a ++ b, m2) | None => None end
        | None => None
        end
    end.
  (** batch_list_exact, batch_dict_exact: in batches between a mark and [o]. *)
  Fixpoint batches (o : opc) (ls : list (list pv)) (m : list nat) : option (list item * list nat) :=
    match ls with
    | [] => Some ([], m)
    | l :: r =>
        match saves l m with
        | Some (a, m1) => match batches o r m1 with Some (b, m2) => Some (Op OMark :: a ++ Op o :: b, m2) | None => None end
        | None => None
        end
    end.
  Definition single (o : opc) (l : list pv) (m : list nat) : option (list item * list nat) :=
    match saves l m with Some (a, m1) => Some (a ++ [Op o], m1) | None => None end.
  Definition save_list (l : list pv) (m : list nat) : option (list item * list nat) :=
    match l with
    | [] => Some ([], m)
    | [v] => single OAppend [v] m
    | _ => batches OAppends (chunk (List.length l) batch_size l) m
    end.
  Definition save_dict (d : list (pv * pv)) (m : list nat) : option (list item * list nat) :=
    match d with
    | [] => Some ([], m)
    | [(k, v)] => single OSetItem [k; v] m
    | _ => batches OSetItems (map flat (chunk (List.length d) batch_size d)) m
    end.
  (** A tuple may have been put into the memo while its elements were saved. *)
  Definition save_tuple (x : nat) (l : list pv) (m : list nat) : option (list item * list nat) :=
    match saves l m with
    | Some (a, m1) =>
        if Nat.leb (List.length l) 3 then
          match index_of x m1 with
          | Some k => Some (a ++ repeat (Op OPop) (List.length l) ++ [Op (OGet k)], m1)
          | None => Some (a ++ [Op (OTup (List.length l)); Op OMemoize], m1 ++ [x])
          end
        else
          match index_of x m1 with
          | Some k => Some (Op OMark :: a ++ [Op OPopMark; Op (OGet k)], m1)
          | None => Some (Op OMark :: a ++ [Op OTuple; Op OMemoize], m1 ++ [x])
          end
    | None => None
    end.
End Save.

(** save *)
Fixpoint save (limit : nat) (h : heap) (v : pv) (m : list nat) : option (list item * list nat) :=
  match limit with
  | O => None
  | S f =>
      match v with
      | PRef x =>
          match index_of x m with
          | Some k => Some ([Bound; Op (OGet k)], m)
          | None =>
              match h x with
              | Some (NStr s) => Some ([Bound; Op (ONew (NStr s)); Op OMemoize], m ++ [x])
              | Some (NBytes b) => Some ([Bound; Op (ONew (NBytes b)); Op OMemoize], m ++ [x])
              | Some (NList l) =>
                  match save_list (save f h) l (m ++ [x]) with
                  | Some (a, m1) => Some (Bound :: Op (ONew (NList [])) :: Op OMemoize :: a, m1)
                  | None => None
                  end
              | Some (NDict d) =>
                  match save_dict (save f h) d (m ++ [x]) with
                  | Some (a, m1) => Some (Bound :: Op (ONew (NDict [])) :: Op OMemoize :: a, m1)
                  | None => None
                  end
              | Some (NTup l) => match save_tuple (save f h) x l m with Some (a, m1) => Some (Bound :: a, m1) | None => None end
              | None => None
              end
          end
      | _ => Some ([Bound; Op (OPush v)], m)
      end
  end.

(** Frames: [cur] is what the current one has so far.  A frame is ended at
    the first boundary where it has 64 KiB; long text and bytes are written
    outside; less than four bytes are not worth a frame. *)
Definition frame_target : Z := 65536.
Definition close_frame (cur : option string) : string :=
  match cur with
  | None => ""
  | Some f => if (4 <=? len f)%Z then code (OFrame (len f)) ++ f else f
  end%string.
Definition so_far (cur : option string) : string := match cur with Some f => f | None => "" end.
Fixpoint frames (cur : option string) (its : list item) : string :=
  match its with
  | [] => close_frame cur
  | Bound :: r =>
      if (frame_target <=? len (so_far cur))%Z then close_frame cur ++ frames None r else frames cur r
  | Op o :: r =>
      match blob o with
      | Some (hd, data) =>
          if (frame_target <=? len data)%Z then close_frame cur ++ hd ++ data ++ frames None r
          else frames (Some (so_far cur ++ hd ++ data)) r
      | None => frames (Some (so_far cur ++ code o)) r
      end
  end%string.
Definition item_ok (i : item) : bool := match i with Bound => true | Op o => encodable o end.
(** pickle.dumps(v, protocol=5) *)
Definition dumps (limit : nat) (h : heap) (v : pv) : option bytes :=
  match save limit h v [] with
  | Some (its, _) => if forallb item_ok its then Some (code (OProto 5) ++ frames None (its ++ [Op OStop]))%string else None
  | None => None
  end.

(** ** Unpickling *)

(** The stack (its top first), the stacks below the marks, the objects made so
    far, and the memo. *)
Record mach : Type := mkMach { stk : list pv; below : list (list pv); cells : heap; fresh_id : nat; memo : list pv }.
Definition set_cell (h : heap) (x : nat) (n : node) (y : nat) : option node := if Nat.eqb y x then Some n else h y.
Definition alloc (n : node) (s : list pv) (b : list (list pv)) (m : mach) : mach :=
  mkMach (PRef (fresh_id m) :: s) b (set_cell (cells m) (fresh_id m) n) (S (fresh_id m)) (memo m).
(** Elements [l] for the list or dictionary on top of [s]. *)
Definition extend (limit : nat) (is_list : bool) (l s : list pv) (b : list (list pv)) (m : mach) : option mach :=
  match s with
  | PRef x :: _ =>
      match cells m x, is_list with
      | Some (NList a), true => Some (mkMach s b (set_cell (cells m) x (NList (a ++ l))) (fresh_id m) (memo m))
      | Some (NDict d), false =>
          match set_items limit (cells m) l d with
          | Some d' => Some (mkMach s b (set_cell (cells m) x (NDict d')) (fresh_id m) (memo m))
          | None => None
          end
      | _, _ => None
      end
  | _ => None
  end.
Definition exec (limit : nat) (o : opc) (m : mach) : option mach :=
  match o with
  | OPush v => Some (mkMach (v :: stk m) (below m) (cells m) (fresh_id m) (memo m))
  | ONew n => Some (alloc n (stk m) (below m) m)
  | OMark => Some (mkMach [] (stk m :: below m) (cells m) (fresh_id m) (memo m))
  | OPop =>
      match stk m, below m with
      | _ :: s, b => Some (mkMach s b (cells m) (fresh_id m) (memo m))
      | [], s :: b => Some (mkMach s b (cells m) (fresh_id m) (memo m))
      | [], [] => None
      end
  | OPopMark => match below m with s :: b => Some (mkMach s b (cells m) (fresh_id m) (memo m)) | [] => None end
  | OAppend => match stk m with v :: s => extend limit true [v] s (below m) m | [] => None end
  | OAppends => match below m with s :: b => extend limit true (rev (stk m)) s b m | [] => None end
  | OSetItem => match stk m with v :: k :: s => extend limit false [k; v] s (below m) m | _ => None end
  | OSetItems => match below m with s :: b => extend limit false (rev (stk m)) s b m | [] => None end
  | OTup n =>
      if Nat.leb n (List.length (stk m)) then Some (alloc (NTup (rev (firstn n (stk m)))) (skipn n (stk m)) (below m) m) else None
  | OTuple =>
      match below m, stk m with
      | s :: b, [] => Some (mkMach (PUnit :: s) b (cells m) (fresh_id m) (memo m))
      | s :: b, l => Some (alloc (NTup (rev l)) s b m)
      | [], _ => None
      end
  | OMemoize => match stk m with v :: _ => Some (mkMach (stk m) (below m) (cells m) (fresh_id m) (memo m ++ [v])) | [] => None end
  | OGet k => match nth_error (memo m) k with Some v => Some (mkMach (v :: stk m) (below m) (cells m) (fresh_id m) (memo m)) | None => None end
  | OProto n => if (n <=? 5)%Z then Some m else None
  | OFrame _ => Some m
  | OStop => None
  end.

(** Reading an opcode with its argument. *)
Fixpoint cut (n : nat) (s : string) : option (string * string) :=
  match n, s with
  | O, _ => Some (""%string, s)
  | S n', String c r => match cut n' r with Some (a, b) => Some (String c a, b) | None => None end
  | S _, ""%string => None
  end.
Definition cut_z (n : Z) (s : string) : option (string * string) := if (n <=? len s)%Z then cut (Z.to_nat n) s else None.
Definition field {A} (w : nat) (s : string) (f : Z -> string -> option A) : option A :=
  match cut w s with Some (a, r) => f (from_bytes a) r | None => None end.
Definition read_sized (w : nat) (s : string) (f : bytes -> option opc) : option (opc * string) :=
  field w s (fun n r => match cut_z n r with
                        | Some (a, r') => match f a with Some o => Some (o, r') | None => None end
                        | None => None
                        end).
Definition as_text (b : bytes) : option opc := option_map (fun s => ONew (NStr s)) (un_utf8 b).
Definition as_bytes (b : bytes) : option opc := Some (ONew (NBytes b)).
Definition as_int (b : bytes) : option opc := Some (OPush (PInt (signed b))).
Definition parse (s : string) : option (opc * string) :=
  match s with
  | "" => None
  | String c r =>
      match N_of_ascii c with
      | 78 => Some (OPush PNone, r)
      | 136 => Some (OPush (PBool true), r)
      | 137 => Some (OPush (PBool false), r)
      | 75 => field 1 r (fun n r => Some (OPush (PInt n), r))
      | 77 => field 2 r (fun n r => Some (OPush (PInt n), r))
      | 74 => match cut 4 r with Some (a, r) => Some (OPush (PInt (signed a)), r) | None => None end
      | 138 => read_sized 1 r as_int
      | 139 => field 4 r (fun n r0 => if (n <? 2147483648)%Z then read_sized 4 r as_int else None)
      | 71 => match cut 8 r with Some (a, r) => Some (OPush (PFloat (from_bytes (reversed a))), r) | None => None end
      | 41 => Some (OPush PUnit, r)
      | 140 => read_sized 1 r as_text
      | 88 => read_sized 4 r as_text
      | 141 => read_sized 8 r as_text
      | 67 => read_sized 1 r as_bytes
      | 66 => read_sized 4 r as_bytes
      | 142 => read_sized 8 r as_bytes
      | 93 => Some (ONew (NList []), r)
      | 125 => Some (ONew (NDict []), r)
      | 40 => Some (OMark, r)
      | 48 => Some (OPop, r)
      | 49 => Some (OPopMark, r)
      | 97 => Some (OAppend, r)
      | 101 => Some (OAppends, r)
      | 115 => Some (OSetItem, r)
      | 117 => Some (OSetItems, r)
      | 133 => Some (OTup 1, r)
      | 134 => Some (OTup 2, r)
      | 135 => Some (OTup 3, r)
      | 116 => Some (OTuple, r)
      | 148 => Some (OMemoize, r)
      | 104 => field 1 r (fun n r => Some (OGet (Z.to_nat n), r))
      | 106 => field 4 r (fun n r => Some (OGet (Z.to_nat n), r))
      | 128 => field 1 r (fun n r => Some (OProto n, r))
      | 149 => field 8 r (fun n r => if (n <=? len r)%Z then Some (OFrame n, r) else None)
      | 46 => Some (OStop, r)
      | _ => None
      end%N
  end.
(** Up to STOP; also what follows it. *)
Fixpoint load (limit fuel : nat) (s : string) (m : mach) : option (mach * string) :=
  match fuel with
  | O => None
  | S f =>
      match parse s with
      | Some (OStop, r) => Some (m, r)
      | Some (o, r) => match exec limit o m with Some m' => load limit f r m' | None => None end
      | None => None
      end
  end.
Definition blank_mach : mach := mkMach [] [] (fun _ => None) 0 [].
(** pickle.loads: the objects made and the value.  What comes after STOP is ignored. *)
Definition loads (limit : nat) (b : bytes) : option (heap * pv) :=
  match load limit (S (String.length b)) b blank_mach with
  | Some (m, _) => match stk m with v :: _ => Some (cells m, v) | [] => None end
  | None => None
  end.

(** ** codecs.py:50-64 pickle_codec_factory *)
Definition pickle_encode (limit : nat) (h : heap) (v : pv) : res bytes :=
  match dumps limit h v with Some b => Ok b | None => Exc RecursionError end.
Definition pickle_decode (limit : nat) (b : bytes) : res (heap * pv) :=
  match loads limit b with Some r => Ok r | None => Exc UnpicklingError end.
