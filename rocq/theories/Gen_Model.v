(** Model of randval in dustgoggles/test_utils/core.py, and of what it uses of
    CPython's random and of doubles.  Definitions only.

    The generator gives words of 32 bits; how many of them random.randint needs
    (it draws again while the number is too large) is left open.  All doubles
    that occur are multiples of 2^-53 of at most 18 bits before the point, so
    exponents are never a matter.  A float with two decimals is given by its
    hundredths: the doubles nearest to different ones differ. *)
From Verif Require Export Rand_Model.
Open Scope Z_scope.

(** ** Doubles *)

(** [m / 2^d] rounded to an integer, a tie to the even one. *)
Definition half_even (m d : Z) : Z :=
  let q := m / 2 ^ d in
  match (m mod 2 ^ d) ?= 2 ^ (d - 1) with Lt => q | Gt => q + 1 | Eq => if Z.even q then q else q + 1 end.
(** [m >= 0] with 53 significant bits. *)
Definition to_double (m : Z) : Z := let d := Z.log2 m - 52 in if d <=? 0 then m else half_even m d * 2 ^ d.

(** ** Numbers *)
Section Gen.
  Context {R : Type} (word : R -> Z * R) (below : Z -> R -> Z * R).

  (** random.random(): this many 2^-53 (two words, _randommodule.c
      random_random). *)
  Definition random (r : R) : Z * R :=
    let (a, r) := word r in let (b, r) := word r in ((a / 32) * 2 ^ 26 + b / 64, r).
  (** random.randint(a, b) *)
  Definition randint (a b : Z) (r : R) : Z * R := let (n, r) := below (b - a + 1) r in (a + n, r).

  (** string.ascii_letters; random.choices(letters, k=n): floor(random() * 52.0). *)
  Definition letters : string := "abcdefghijklmnopqrstuvwxyzABCDEFGHIJKLMNOPQRSTUVWXYZ".
  Definition letter_index (k : Z) : Z := to_double (52 * k) / 2 ^ 53.
  Fixpoint choose_letters (n : nat) (r : R) : string * R :=
    match n with
    | O => (""%string, r)
    | S n =>
        let (k, r) := random r in
        let (s, r) := choose_letters n r in
        (match String.get (Z.to_nat (letter_index k)) letters with Some c => String c s | None => s end, r)
    end.

  (** core.py:20, 23 [round((RNG.random() - 0.5) * 200000, 2)] in hundredths, and
      whether it is negative.  The difference is exact; the product is rounded to
      a double, then to two decimals. *)
  Definition hundredths (k : Z) : Z :=
    let n := k - 2 ^ 52 in Z.sgn n * half_even (100 * to_double (Z.abs n * 200000)) 53.
  Definition fold_sign (z : Z) : N := if z <? 0 then Z.to_N (- 2 * z - 1) else Z.to_N (2 * z).
  Definition unfold_sign (n : N) : Z := if N.even n then Z.of_N (n / 2) else - Z.of_N ((n + 1) / 2).
  Definition float_val (k : Z) : val :=
    if (hundredths k =? 0) && (k <? 2 ^ 52) then VAtom (KOther "-0.0" 0) else VAtom (KOther "float" (fold_sign (hundredths k))).
  Definition rand_float (r : R) : val * R := let (k, r) := random r in (float_val k, r).
  Fixpoint rand_floats (n : nat) (r : R) : list val * R :=
    match n with O => ([], r) | S n => let (x, r) := rand_float r in let (l, r) := rand_floats n r in (x :: l, r) end.

  (** Types: four that are known, other callables with what calling them does,
      and what cannot be called. *)
  Inductive basic := TStr | TInt | TFloat | TTuple.
  Inductive itemtype := Basic (b : basic) | Calls (f : eff R val) | NotCallable.

  (** core.py:14-28 randval *)
  Definition basic_val (t : basic) (r : R) : val * R :=
    match t with
    | TStr => let (n, r) := randint 1 10 r in let (s, r) := choose_letters (Z.to_nat n) r in (VAtom (KStr s), r)
    | TInt => let (z, r) := randint (-100000) 100000 r in (VAtom (KInt z), r)
    | TFloat => rand_float r
    | TTuple => let (n, r) := randint 1 10 r in let (l, r) := rand_floats (Z.to_nat n) r in (VTup l, r)
    end.
  Definition randval (t : itemtype) : eff R val :=
    match t with
    | Basic b => fun r => let (v, r) := basic_val b r in (Ok v, r)
    | Calls f => f
    | NotCallable => eraise TypeError
    end.
End Gen.
Arguments itemtype : clear implicits.

(** Hashing and equality of these: floats that are integers are equal to them;
    tuples (without tuples in them) by their elements. *)
Definition float_key (n : N) : key := if unfold_sign n mod 100 =? 0 then KInt (unfold_sign n / 100) else KOther "float" n.
Definition atom_key (k : key) : key :=
  match k with
  | KOther "float" n => float_key n
  | KOther "-0.0" _ => KInt 0
  | k => k
  end.
Definition elem_code (k : key) : N :=
  match k with KInt z => 2 * fold_sign z | KOther _ n => 2 * n + 1 | _ => 0 end.
Definition hash_val (v : val) : res key :=
  match v with
  | VAtom k => Ok (atom_key k)
  | VTup l =>
      ks <- mapM (fun v => match v with VAtom k => Ok (atom_key k) | _ => Exc TypeError end) l ;;
      Ok (KOther "tuple" (fold_left (fun a k => a * 2 ^ 32 + elem_code k + 1) ks 0)%N)
  | VList _ | VDict _ _ => Exc TypeError
  end.
