(** Model of dustgoggles/func.py and of dontcare (dustgoggles/dynamic.py:40-44).
    Definitions only.

    Simplifications: [wraps] copies metadata only and is dropped; keyword
    arguments are one opaque object; the iterables of gmap and filtern are
    iterators over finitely many elements whose [next] has no effect besides
    advancing; gmap is modelled with its default mapper. *)
From Verif Require Export Eff_Model.

(** functools.reduce without an initial value, over a lazy iterable: each
    element is computed just before it is combined. *)
Definition reduce {W A} (oper : A -> A -> eff W A) (l : list (eff W A)) : eff W A :=
  match l with
  | [] => eraise TypeError
  | x :: r => a <~ x ;; efoldM (fun acc m => b <~ m ;; oper acc b) r a
  end.

(** func.py:47-58 are_in.  [contains] is operator.contains; what [oper]
    returns can be of any type [A] that bools embed into. *)
Definition are_in {W A I C} (of_bool : bool -> A) (contains : C -> I -> eff W bool)
    (items : list I) (oper : A -> A -> eff W A) (container : C) : eff W A :=
  reduce oper (map (fun i => b <~ contains container i ;; eret (of_bool b)) items).

(** operator.and_ and operator.or_ on bools. *)
Definition and_ {W} (a b : bool) : eff W bool := eret (a && b).
Definition or_ {W} (a b : bool) : eff W bool := eret (a || b).

(** func.py:61-67 is_it, with isinstance given. *)
Definition is_it {T C : Type} (isinstance : T -> list C -> bool) (types : list C) : T -> bool :=
  fun whatever => isinstance whatever types.

(** ** Sets *)

(** An argument of intersection: something that can be iterated over again
    and again, or an iterator. *)
Inductive iterable (E : Type) := Again (l : list E) | Once (l : list E).
Arguments Again {E} l.
Arguments Once {E} l.
(** What iterating over it yields, and what it is afterwards. *)
Definition drain {E} (i : iterable E) : list E * iterable E :=
  match i with Again l => (l, i) | Once l => (l, Once []) end.

Section Sets.
  Context {E : Type} (eqb : E -> E -> bool) (hashable : E -> bool).

  (** [x in s] for a list of representatives. *)
  Definition mem (x : E) (s : list E) : bool := existsb (eqb x) s.

  (** [set(l)]: one representative of each element (the order in which a set
      is iterated over is arbitrary; only membership matters). *)
  Fixpoint to_set (l : list E) : res (list E) :=
    match l with
    | [] => Ok []
    | x :: r =>
        if hashable x then
          s <- to_set r ;; Ok (if mem x s then s else x :: s)
        else Exc TypeError
    end.

  (** [a & b] *)
  Definition set_and (a b : list E) : list E := filter (fun x => mem x b) a.

  (** [x in shared] for a set *)
  Definition in_set (x : E) (s : list E) : res bool :=
    if hashable x then Ok (mem x s) else Exc TypeError.

  (** func.py:70-71 intersection: the set and the arguments afterwards. *)
  Definition intersection (its : list (iterable E)) : res (list E * list (iterable E)) :=
    sets <- mapM (fun i => to_set (fst (drain i))) its ;;
    match sets with
    | [] => Exc TypeError
    | s :: r => Ok (fold_left set_and r s, map (fun i => snd (drain i)) its)
    end.

  (** func.py:74-78 disjoint. *)
  Definition disjoint (its : list (iterable E)) : res (list (list E)) :=
    si <- intersection its ;;
    let (shared, its') := si in
    mapM (fun i => filterM (fun x => b <- in_set x shared ;; Ok (negb b)) (fst (drain i))) its'.
End Sets.

(** ** Function wrappers *)

Section Wrappers.
  (** World, values, keyword arguments. *)
  Context {W V K : Type}.
  Definition fn := list V -> K -> eff W V.

  (** func.py:8-9 pass_parameters. *)
  Definition pass_parameters (func : fn) : fn := func.

  (** func.py:12-21 catch_interaction; [truth] evaluates the truth value of
      [noninteractive]. *)
  Definition catch_interaction (truth : eff W bool) (func : fn) (args : list V) (default : V) (kw : K)
      : eff W V :=
    b <~ truth ;; if b : bool then eret default else func args kw.

  (** func.py:28-30 zero, 81-85 constant. *)
  Definition constant (v : V) : fn := fun _ _ => eret v.

  (** func.py:33-44 triggerize. *)
  Definition triggerize (niladic : eff W V) (deferred_state : V) : eff W V :=
    _ <~ niladic ;; eret deferred_state.

  (** func.py:88-93 splat; [as_seq] is iterating over a value, [None] if it
      is not iterable. *)
  Definition splat (as_seq : V -> option (list V)) (no_kw : K) (func : fn) (args : V) : eff W V :=
    match as_seq args with
    | Some l => func l no_kw
    | None => eraise TypeError
    end.

  (** [l[:n]] *)
  Definition slice_to (n : Z) (l : list V) : list V :=
    if (n <? 0)%Z then firstn (List.length l - Z.to_nat (- n)) l else firstn (Z.to_nat n) l.

  (** func.py:122-130 argstop; [as_slice] is the value as a sequence, [None]
      if it cannot be sliced and unpacked. *)
  Definition argstop (as_slice : V -> option (list V)) (func : fn) (arg_count : Z) (unpack : bool) : fn :=
    fun args kw =>
      match args, unpack with
      | [a], true =>
          match as_slice a with
          | Some l => func (slice_to arg_count l) kw
          | None => eraise TypeError
          end
      | _, _ => func (slice_to arg_count args) kw
      end.

  (** func.py:133-143 optionalize; [none] is None. *)
  Definition optionalize (none : V) (func : fn) (exc_callback : exn -> eff W V) : fn :=
    fun args kw =>
      ecatch (func args kw)
        (fun e => match e with
                  | KeyboardInterrupt => eraise e
                  | _ => if is_Exception e then (_ <~ exc_callback e ;; eret none) else eraise e
                  end).

  (** dynamic.py:41-45 dontcare: [report] is exc_report, [append] appends to
      [target] the report together with the function and category "call". *)
  Definition dontcare {R} (none : V) (func : fn) (report : exn -> eff W R) (append : R -> eff W unit) : fn :=
    optionalize none func (fun e => r <~ report e ;; _ <~ append r ;; eret none).

  (** One round of [map]: [next] on every iterator, in order; the first one
      that is at its end stops the round. *)
  Fixpoint next_all {A} (its : list (list A)) : option (list A) * list (list A) :=
    match its with
    | [] => (Some [], [])
    | [] :: r => (None, [] :: r)
    | (x :: l) :: r =>
        let (o, r') := next_all r in
        (match o with Some xs => Some (x :: xs) | None => None end, l :: r')
    end.

  (** func.py:96-111 gmap with mapper=map and evaluator=tuple: the values and
      the iterators afterwards.  [n] bounds the number of rounds. *)
  Fixpoint map_rounds {A B} (n : nat) (func : list A -> eff W B) (its : list (list A))
      : eff W (list B * list (list A)) :=
    match n with
    | O => eret ([], its)
    | S m =>
        match next_all its with
        | (None, its') => eret ([], its')
        | (Some args, its') =>
            y <~ func args ;;
            r <~ map_rounds m func its' ;; eret (y :: fst r, snd r)
        end
    end.
  Definition gmap {A B} (func : list A -> eff W B) (its : list (list A)) : eff W (list B * list (list A)) :=
    match its with
    | [] => eraise TypeError
    | i :: _ => map_rounds (S (List.length i)) func its
    end.

  (** func.py:114-119 filtern: the element and the iterator afterwards. *)
  Fixpoint filtern {A} (func : A -> eff W bool) (l : list A) : eff W (A * list A) :=
    match l with
    | [] => eraise StopIteration
    | x :: r => b <~ func x ;; if b : bool then eret (x, r) else filtern func r
    end.
End Wrappers.
Arguments fn : clear implicits.

(** func.py:24-25 naturals: itertools.accumulate over repeat(1); the state is
    the running total, [None] before the first element. *)
Definition naturals : option Z := None.
Definition naturals_next (total : option Z) : Z * option Z :=
  let t := match total with None => 1 | Some t => t + 1 end%Z in (t, Some t).
(** The first [n] elements. *)
Fixpoint naturals_take (n : nat) (total : option Z) : list Z :=
  match n with
  | O => []
  | S m => let (x, t) := naturals_next total in x :: naturals_take m t
  end.
