(** Specification of Notepad, GridPaper and Sticky. *)
From Verif Require Export Meta_Spec Pad_Model.

(** ** Notepad *)

(** FileExistsError inside __setitem__ comes out as KeyError. *)
Definition as_key (e : exn) : exn := match e with FileExistsError => KeyError | _ => e end.

Section Pad.
  Context {V : Type}.
  (** Listed keys; [None]: listed, but without a value. *)
  Notation entries := (list (string * option V)).

  Inductive pop := PSet (k : ikey) (v : V) (exists_ok : bool) | PGet (k : ikey) | PGetDefault (k : ikey)
    | PDel (k : ikey) | PKeys | PItems | PClear.
  Inductive pout := WDone (r : res unit) | WGot (r : res V) | WGotDefault (r : res (option V))
    | WKeys (l : list string) | WItems (r : res (list (string * V))).

  (** Deleting [ks] one after another, up to the first failure. *)
  Fixpoint del_all (ks : list string) (l : entries) : res unit * entries :=
    match ks with
    | [] => (Ok tt, l)
    | k :: r =>
        match value_of k l with
        | Some (Some _) => del_all r (swap_entry k l)
        | _ => (Exc KeyError, l)
        end
    end.

  Definition look (isnone : V -> bool) (o : option (option V)) : res V :=
    match o with
    | Some (Some v) => if isnone v then Exc KeyError else Ok v
    | _ => Exc FileNotFoundError
    end.

  Definition pad_step (enc : V -> res bytes) (isnone : V -> bool) (l : entries) (o : pop) : pout * entries :=
    match o with
    | PSet k v ok =>
        match position (ktext k) (map fst l) with
        | Some _ =>
            if ok then match enc v with
                       | Ok _ => (WDone (Ok tt), put_entry (ktext k) (ktext k, Some v) l)
                       | Exc e => (WDone (Exc (as_key e)), l)
                       end
            else (WDone (Exc KeyError), l)
        | None =>
            match enc v with
            | Ok _ => (WDone (Ok tt), l ++ [(ktext k, Some v)])
            | Exc e => (WDone (Exc (as_key e)), l ++ [(ktext k, None)])
            end
        end
    | PGet k => (WGot (look isnone (value_of (ktext k) l)), l)
    | PGetDefault k =>
        (WGotDefault (match value_of (ktext k) l with
                      | Some (Some v) => Ok (if isnone v then None else Some v)
                      | _ => Exc FileNotFoundError
                      end), l)
    | PDel k =>
        match value_of (ktext k) l with
        | Some (Some _) => (WDone (Ok tt), swap_entry (ktext k) l)
        | _ => (WDone (Exc KeyError), l)
        end
    | PKeys => (WKeys (map fst l), l)
    | PItems => (WItems (mapM (fun e => v <- look isnone (Some (snd e)) ;; Ok (fst e, v)) l), l)
    | PClear => let '(r, l') := del_all (map fst l) l in (WDone r, l')
    end.
  Fixpoint pad_run (enc : V -> res bytes) (isnone : V -> bool) (l : entries) (h : list pop) : list pout * entries :=
    match h with
    | [] => ([], l)
    | o :: r =>
        let '(x, l1) := pad_step enc isnone l o in
        let '(xs, l2) := pad_run enc isnone l1 r in (x :: xs, l2)
    end.

  Definition pop_key (o : pop) : option ikey :=
    match o with PSet k _ _ | PGet k | PGetDefault k | PDel k => Some k | PKeys | PItems | PClear => None end.

  (** The same on the model.  Each visit attaches to the notepad first, as a
      new process would. *)
  Record pvisit := mkPVisit { pv_nl : bool; pv_fuel : nat; pv_op : pop }.

  Definition done {A} (p : prog A) : prog (res A) := ptry p (fun a => Ret (Ok a)) (fun e => Ret (Exc e)).

  Definition pvisit_prog (hash : bytes -> string) (enc : V -> res bytes) (dec : bytes -> res V) (isnone : V -> bool)
      (P : string) (v : pvisit) : prog pout :=
    let! p := notepad P false (pv_nl v) in
    match pv_op v with
    | PSet k w ok => let! r := done (np_set hash enc (pv_fuel v) p k w false ok) in Ret (WDone r)
    | PGet k => let! r := done (np_getitem dec isnone p k) in Ret (WGot r)
    | PGetDefault k => let! r := done (np_get dec isnone p k) in Ret (WGotDefault r)
    | PDel k => let! r := done (np_del hash (pv_fuel v) p k) in Ret (WDone r)
    | PKeys => let! l := np_keys p in Ret (WKeys l)
    | PItems => let! r := done (np_items dec isnone p) in Ret (WItems r)
    | PClear => let! r := done (np_clear hash (pv_fuel v) p) in Ret (WDone r)
    end.
  Fixpoint pvisits_prog (hash : bytes -> string) (enc : V -> res bytes) (dec : bytes -> res V) (isnone : V -> bool)
      (P : string) (h : list pvisit) : prog (list pout) :=
    match h with
    | [] => Ret []
    | v :: r =>
        let! x := pvisit_prog hash enc dec isnone P v in
        let! xs := pvisits_prog hash enc dec isnone P r in Ret (x :: xs)
    end.

  (** Keys that are not empty, not bytes, not in the reserved space; values
      that either survive the codec or cannot be encoded. *)
  Definition pad_key (K : string -> Prop) (k : ikey) : Prop := plain_key K k /\ starts_index (ktext k) = false.
  Definition sound_value (enc : V -> res bytes) (dec : bytes -> res V) (v : V) : Prop :=
    stable enc dec v \/ exists e, enc v = Exc e.
  Definition plain_pvisit (enc : V -> res bytes) (dec : bytes -> res V) (K : string -> Prop) (v : pvisit) : Prop :=
    pv_fuel v <> 0 /\ (forall k, pop_key (pv_op v) = Some k -> pad_key K k) /\
    (forall k w ok, pv_op v = PSet k w ok -> sound_value enc dec w).

  (** What a dict would have under [k]: the last value set and not deleted or
      cleared since. *)
  Fixpoint dict_after (k : string) (p : option V) (h : list pop) : option V :=
    match h with
    | [] => p
    | PSet k' v ok :: r =>
        dict_after k (if String.eqb (ktext k') k
                      then match p with Some w => if ok then Some v else Some w | None => Some v end
                      else p) r
    | PDel k' :: r => dict_after k (if String.eqb (ktext k') k then None else p) r
    | PClear :: r => dict_after k None r
    | _ :: r => dict_after k p r
    end.

  (** Values that a dict could not tell from what a Notepad does. *)
  Definition ordinary (enc : V -> res bytes) (isnone : V -> bool) (o : pop) : Prop :=
    forall k v ok, o = PSet k v ok -> isnone v = false /\ exists b, enc v = Ok b.
  (** [x] is what a dict with contents [d] answers to [o]. *)
  Definition dict_answers (d : string -> option V) (o : pop) (x : pout) : Prop :=
    match o with
    | PSet k v ok =>
        x = WDone (match d (ktext k) with Some _ => if ok then Ok tt else Exc KeyError | None => Ok tt end)
    | PGet k => x = WGot (match d (ktext k) with Some v => Ok v | None => Exc FileNotFoundError end)
    | PGetDefault k => x = WGotDefault (match d (ktext k) with Some v => Ok (Some v) | None => Exc FileNotFoundError end)
    | PDel k => x = WDone (match d (ktext k) with Some _ => Ok tt | None => Exc KeyError end)
    | PKeys => exists l, x = WKeys l /\ NoDup l /\ forall k, In k l <-> d k <> None
    | PItems => exists l, x = WItems (Ok l) /\ NoDup (map fst l) /\ forall k v, In (k, v) l <-> d k = Some v
    | PClear => x = WDone (Ok tt)
    end.
End Pad.
Arguments pop : clear implicits. Arguments pout : clear implicits. Arguments pvisit : clear implicits.

(** Names a notepad [P] can use. *)
Definition pad_names (hash : bytes -> string) (P : string) (a : string) : Prop :=
  index_names hash (pad_index P) a \/ exists k, starts_index k = false /\ a = pad_address P k.

(** [s] is the shared memory after Notepad [P] was created where none of its
    names were in use and went through the history [h]. *)
Definition preached {V} (hash : bytes -> string) (K : string -> Prop) (P : string)
    (enc : V -> res bytes) (dec : bytes -> res V) (isnone : V -> bool) (h : list (pvisit V)) (s0 s : store) : Prop :=
  collision_free hash K /\ Forall (plain_pvisit enc dec K) h /\
  (2 * Z.of_nat (List.length h) + 8 < 256 ^ 5)%Z /\
  wf s0 /\ vacant (pad_names hash P) s0 /\
  exists nl r,
    run (notepad P true nl >>> pvisits_prog hash enc dec isnone P h) s0 = (Some (Ok r), s).
Definition pad_after {V} (enc : V -> res bytes) (isnone : V -> bool) (h : list (pvisit V)) : list (string * option V) :=
  snd (pad_run enc isnone [] (map pv_op h)).

(** Neither prefix is the other one followed by "_...". *)
Definition apart (P Q : string) : Prop :=
  P <> Q /\ (forall t, Q <> (P ++ "_" ++ t)%string) /\ (forall t, P <> (Q ++ "_" ++ t)%string).

(** Visits to two notepads in any order. *)
Fixpoint mixed_prog {V} (hash : bytes -> string) (enc : V -> res bytes) (dec : bytes -> res V) (isnone : V -> bool)
    (P Q : string) (h : list (bool * pvisit V)) : prog (list (bool * pout V)) :=
  match h with
  | [] => Ret []
  | (b, v) :: r =>
      let! x := pvisit_prog hash enc dec isnone (if b then P else Q) v in
      let! xs := mixed_prog hash enc dec isnone P Q r in Ret ((b, x) :: xs)
  end.
Definition side {A} (b : bool) (l : list (bool * A)) : list A :=
  map snd (filter (fun x => Bool.eqb (fst x) b) l).

(** ** GridPaper *)

(** What is stored under a key: the size of its block, which never changes,
    and the array. *)
Record sheet := mkSheet { sh_size : nat; sh_arr : arr }.

Inductive gop := GSet (k : ikey) (a : arr) (exists_ok : bool) | GGet (k : ikey) | GGetDefault (k : ikey)
  | GDel (k : ikey) | GKeys | GClear.
Inductive gout := XDone (r : res unit) | XGot (r : res arr) | XGotDefault (r : res (option arr)) | XKeys (l : list string).

Section Grid.
  Variable itemsize : string -> nat.
  Notation size a := (nbytes itemsize (a_dtype a) (a_shape a)).
  Notation sheets := (list (string * sheet)).

  Definition grid_step (l : sheets) (o : gop) : gout * sheets :=
    match o with
    | GSet k a ok =>
        match value_of (ktext k) l with
        | Some sh =>
            if ok && Nat.eqb (size a) 0 then (XDone (Exc ValueError), l)
            else if Nat.ltb (sh_size sh) (size a) then (XDone (Exc TypeError), l)
            else (XDone (Ok tt), put_entry (ktext k) (ktext k, mkSheet (sh_size sh) a) l)
        | None =>
            if ok then
              if Nat.eqb (size a) 0 then (XDone (Exc ValueError), l)
              else (XDone (Ok tt), l ++ [(ktext k, mkSheet (size a) a)])
            else (XDone (Exc FileNotFoundError), l)
        end
    | GGet k => (XGot (match value_of (ktext k) l with Some sh => Ok (sh_arr sh) | None => Exc KeyError end), l)
    | GGetDefault k =>
        (XGotDefault (Ok (match value_of (ktext k) l with Some sh => Some (sh_arr sh) | None => None end)), l)
    | GDel k =>
        match value_of (ktext k) l with
        | Some _ => (XDone (Ok tt), swap_entry (ktext k) l)
        | None => (XDone (Exc KeyError), l)
        end
    | GKeys => (XKeys (map fst l), l)
    | GClear => (XDone (Exc AttributeError), l)
    end.
  Fixpoint grid_run (l : sheets) (h : list gop) : list gout * sheets :=
    match h with
    | [] => ([], l)
    | o :: r =>
        let '(x, l1) := grid_step l o in
        let '(xs, l2) := grid_run l1 r in (x :: xs, l2)
    end.

  Definition gop_key (o : gop) : option ikey :=
    match o with GSet k _ _ | GGet k | GGetDefault k | GDel k => Some k | GKeys | GClear => None end.

  Record gvisit := mkGVisit { gv_nl : bool; gv_fuel : nat; gv_op : gop }.
  Definition gvisit_prog (hash : bytes -> string) (jenc : ameta -> res bytes) (jdec : bytes -> res ameta)
      (P : string) (v : gvisit) : prog gout :=
    let! p := gridpaper P false (gv_nl v) in
    match gv_op v with
    | GSet k a ok => let! r := done (gp_set hash jenc itemsize (gv_fuel v) p k a ok) in Ret (XDone r)
    | GGet k => let! r := done (gp_getitem hash jdec itemsize p k) in Ret (XGot r)
    | GGetDefault k => let! r := done (gp_get hash jdec itemsize p k) in Ret (XGotDefault r)
    | GDel k => let! r := done (gp_del hash (gv_fuel v) p k) in Ret (XDone r)
    | GKeys => let! l := gp_keys p in Ret (XKeys l)
    | GClear => let! r := done (gp_clear p) in Ret (XDone r)
    end.
  Fixpoint gvisits_prog (hash : bytes -> string) (jenc : ameta -> res bytes) (jdec : bytes -> res ameta)
      (P : string) (h : list gvisit) : prog (list gout) :=
    match h with
    | [] => Ret []
    | v :: r =>
        let! x := gvisit_prog hash jenc jdec P v in
        let! xs := gvisits_prog hash jenc jdec P r in Ret (x :: xs)
    end.

  (** An array with at least one axis whose bytes fit its shape. *)
  Definition whole (a : arr) : Prop := a_shape a <> [] /\ String.length (a_data a) = size a.
  (** Deletions only through handles without lockout (see C42). *)
  Definition plain_gvisit (K : string -> Prop) (v : gvisit) : Prop :=
    gv_fuel v <> 0 /\ (forall k, gop_key (gv_op v) = Some k -> pad_key K k) /\
    (forall k a ok, gv_op v = GSet k a ok -> whole a) /\
    (forall k, gv_op v = GDel k -> gv_nl v = true).

  (** The array last stored under [k] by a store that was accepted, with
      the size of the first accepted one since it was last deleted. *)
  Fixpoint grid_after (k : string) (p : option sheet) (h : list gop) : option sheet :=
    match h with
    | [] => p
    | GSet k' a ok :: r =>
        grid_after k
          (if String.eqb (ktext k') k
           then match p with
                | Some sh => if ok && Nat.eqb (size a) 0 then p
                             else if Nat.ltb (sh_size sh) (size a) then p else Some (mkSheet (sh_size sh) a)
                | None => if ok && negb (Nat.eqb (size a) 0) then Some (mkSheet (size a) a) else None
                end
           else p) r
    | GDel k' :: r => grid_after k (if String.eqb (ktext k') k then None else p) r
    | _ :: r => grid_after k p r
    end.
End Grid.

Definition grid_names (hash : bytes -> string) (P : string) (a : string) : Prop :=
  meta_names hash (pad_index P) a \/ exists k, starts_index k = false /\ a = pad_address P k.
Definition sheets_after (itemsize : string -> nat) (h : list gvisit) : list (string * sheet) :=
  snd (grid_run itemsize [] (map gv_op h)).
Definition greached (hash : bytes -> string) (K : string -> Prop) (P : string)
    (jenc : ameta -> res bytes) (jdec : bytes -> res ameta) (itemsize : string -> nat) (h : list gvisit) (s0 s : store) : Prop :=
  collision_free hash K /\ (forall md, stable jenc jdec md) /\ Forall (plain_gvisit itemsize K) h /\
  (Z.of_nat (List.length h) + 8 < 256 ^ 5)%Z /\
  wf s0 /\ vacant (grid_names hash P) s0 /\
  exists nl r,
    run (gridpaper P true nl >>> gvisits_prog itemsize hash jenc jdec P h) s0 = (Some (Ok r), s).

(** ** Sticky *)

Section Stick.
  Context {V : Type}.
  (** The value at the address and the cached value of every object. *)
  Record board := mkBoard { b_shared : option V; b_cached : nat -> option V }.
  Inductive sop := SStick (i : nat) (v : V) | SRead (i : nat) (reread : bool) | SClose (i : nat).
  Inductive sout := YDone (r : res unit) | YRead (o : option V).

  Definition set_cache (f : nat -> option V) (i : nat) (v : option V) (j : nat) : option V :=
    if Nat.eqb j i then v else f j.

  Definition width (enc : V -> res bytes) (v : V) : nat :=
    match enc v with Ok b => String.length b | Exc _ => 0 end.
  Definition board_step (enc : V -> res bytes) (b : board) (o : sop) : sout * board :=
    match o with
    | SStick i v =>
        let yes := (YDone (Ok tt), mkBoard (Some v) (set_cache (b_cached b) i (Some v))) in
        match b_shared b with
        | None => yes
        | Some w => if Nat.eqb (width enc v) (width enc w) then yes else (YDone (Exc ValueError), b)
        end
    | SRead i reread =>
        match b_cached b i, reread with
        | Some v, false => (YRead (Some v), b)
        | _, _ =>
            match b_shared b with
            | Some v => (YRead (Some v), mkBoard (Some v) (set_cache (b_cached b) i (Some v)))
            | None => (YRead None, b)
            end
        end
    | SClose i =>
        match b_shared b with
        | Some _ => (YDone (Ok tt), mkBoard None (b_cached b))
        | None => (YDone (Exc FileNotFoundError), b)
        end
    end.
  Fixpoint board_run (enc : V -> res bytes) (b : board) (h : list sop) : list sout * board :=
    match h with
    | [] => ([], b)
    | o :: r =>
        let '(x, b1) := board_step enc b o in
        let '(xs, b2) := board_run enc b1 r in (x :: xs, b2)
    end.

  (** The same on the model: objects [objs i], all at address [a]. *)
  Definition stuck_on (objs : nat -> sticky V) (i : nat) (k : sticky V) (j : nat) : sticky V :=
    if Nat.eqb j i then k else objs j.
  Definition sop_prog (enc : V -> res bytes) (dec : bytes -> res V) (isnone : V -> bool)
      (objs : nat -> sticky V) (o : sop) : prog (sout * (nat -> sticky V)) :=
    match o with
    | SStick i v =>
        let! r := done (stick enc isnone (objs i) v) in
        Ret (match r with
             | Ok k => (YDone (Ok tt), stuck_on objs i k)
             | Exc e => (YDone (Exc e), objs)
             end)
    | SRead i reread =>
        let! r := sticky_read dec isnone (objs i) reread in
        Ret (YRead (fst r), stuck_on objs i (snd r))
    | SClose i => let! r := done (sticky_close (objs i)) in Ret (YDone r, objs)
    end.
  Fixpoint sops_prog (enc : V -> res bytes) (dec : bytes -> res V) (isnone : V -> bool)
      (objs : nat -> sticky V) (h : list sop) : prog (list sout) :=
    match h with
    | [] => Ret []
    | o :: r =>
        let! x := sop_prog enc dec isnone objs o in
        let! xs := sops_prog enc dec isnone (snd x) r in Ret (fst x :: xs)
    end.

  (** Values that survive the codec and are not None. *)
  Definition plain_sop (enc : V -> res bytes) (dec : bytes -> res V) (isnone : V -> bool) (o : sop) : Prop :=
    forall i v, o = SStick i v -> stable enc dec v /\ isnone v = false.

  (** The value last stuck and not pulled since. *)
  Fixpoint last_stuck (p : option V) (h : list sop) : option V :=
    match h with
    | [] => p
    | SStick _ v :: r => last_stuck (Some v) r
    | SClose _ :: r => last_stuck None r
    | SRead _ _ :: r => last_stuck p r
    end.
  (** All encodings have the same length. *)
  Definition same_width (enc : V -> res bytes) (n : nat) (h : list sop) : Prop :=
    forall i v, In (SStick i v) h -> width enc v = n.
End Stick.
Arguments sop : clear implicits. Arguments sout : clear implicits. Arguments board : clear implicits.
