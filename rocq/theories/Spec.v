(** * Spec.v -- what the IEEE layer is supposed to compute.

    Written with real numbers and Flocq's rounding operators.  From the model
    only the data types (formats, floats, rounding modes, status bits) and the
    type [outcome] of results are used; none of its functions. *)
From Coq Require Import ZArith Reals Bool.
From Flocq Require Import Core.
From Verif Require Import Machine SpecSig Ieee.
Local Open Scope Z_scope.

Notation r2 := radix2.

(** ** Formats the theorems speak about *)
Record sem_ok (S : Semantics) : Prop := {
  ok_prec : 3 <= PRECISION S <= 126;
  ok_min : - 2 ^ 20 <= MIN_EXP S <= -2;
  ok_max : PRECISION S <= MAX_EXP S <= 2 ^ 20;
  ok_nonfinite :
    match NONFINITE_BEHAVIOR S with
    | IEEE754 =>
      NAN_SIGNIFICAND_BASE S = 0 /\ NAN_PAYLOAD_MASK S = 2 ^ (PRECISION S - 1) - 1 /\
      (if X87 S then PRECISION S = 64 /\ QNAN_SIGNIFICAND S = 3 * 2 ^ 62
       else QNAN_SIGNIFICAND S = 2 ^ (PRECISION S - 2))
    | NanOnly =>
      NAN_SIGNIFICAND_BASE S = 2 ^ (PRECISION S - 1) - 1 /\ NAN_PAYLOAD_MASK S = 0 /\
      QNAN_SIGNIFICAND S = 0 /\ X87 S = false
    end
}.

(** ** Canonical values *)
Definition i32 (e : Z) : Prop := - 2 ^ 31 <= e <= 2 ^ 31 - 1.

(** significands a NaN of the format can carry *)
Definition nan_sig (S : Semantics) (s : Z) : Prop :=
  match NONFINITE_BEHAVIOR S with
  | IEEE754 => if X87 S then 0 <= s < 2 ^ PRECISION S /\ s <> 2 ^ (PRECISION S - 1)
               else 0 < s < 2 ^ (PRECISION S - 1)
  | NanOnly => s = 2 ^ (PRECISION S - 1) - 1
  end.

Definition canonical_normal (S : Semantics) (s e : Z) : Prop :=
  0 < s < 2 ^ PRECISION S /\ MIN_EXP S <= e <= MAX_EXP S /\
  (e = MIN_EXP S \/ 2 ^ (PRECISION S - 1) <= s) /\
  (NONFINITE_BEHAVIOR S = NanOnly -> e = MAX_EXP S -> s <> 2 ^ PRECISION S - 1).

Definition wf (S : Semantics) (x : Float) : Prop :=
  limb (sig x) /\ i32 (exp x) /\
  match category x with
  | Normal => canonical_normal S (sig x) (exp x)
  | Zero => True
  | Infinity => NONFINITE_BEHAVIOR S = IEEE754
  | NaN => nan_sig S (sig x)
  end.

(** ** The real number a finite value denotes *)
Definition signed (s : bool) (m : Z) : Z := if s then - m else m.
Definition finite (x : Float) : Prop := category x = Normal \/ category x = Zero.
Definition value (S : Semantics) (x : Float) : R :=
  match category x with
  | Normal => IZR (signed (sign x) (sig x)) * bpow r2 (exp x - (PRECISION S - 1))
  | _ => 0
  end.

(** ** Rounding *)
Definition max_sig (S : Semantics) : Z :=
  match NONFINITE_BEHAVIOR S with
  | IEEE754 => 2 ^ PRECISION S - 1
  | NanOnly => 2 ^ PRECISION S - 2
  end.
(** the largest finite number of the format *)
Definition max_finite (S : Semantics) : R := IZR (max_sig S) * bpow r2 (MAX_EXP S - (PRECISION S - 1)).
(** the smallest positive normal number of the format *)
Definition min_normal (S : Semantics) : R := bpow r2 (MIN_EXP S).
(** the smallest positive number *)
Definition min_positive (S : Semantics) : R := bpow r2 (MIN_EXP S - (PRECISION S - 1)).

Definition rnd_of (m : Round) : R -> Z :=
  match m with
  | NearestTiesToEven => ZnearestE
  | NearestTiesToAway => ZnearestA
  | TowardPositive => Zceil
  | TowardNegative => Zfloor
  | TowardZero => Ztrunc
  end.
(** the representable numbers of the format, without an upper limit on the
    exponent, and rounding to them *)
Definition fexp (S : Semantics) : Z -> Z := FLT_exp (MIN_EXP S - (PRECISION S - 1)) (PRECISION S).
Definition rounded (S : Semantics) (m : Round) (x : R) : R := round r2 (fexp S) (rnd_of m) x.
Definition representable (S : Semantics) (x : R) : Prop :=
  generic_format r2 (fexp S) x /\ (Rabs x <= max_finite S)%R.

(** does an overflowing result of this sign become an infinity? *)
Definition to_infinity (m : Round) (negative : bool) : bool :=
  match m with
  | NearestTiesToEven | NearestTiesToAway => true
  | TowardPositive => negb negative
  | TowardNegative => negative
  | TowardZero => false
  end.

(** the sign of a result: that of the exact value, [zs] if that is zero *)
Definition has_sign (x : R) (zs : bool) (f : Float) : Prop :=
  ((x < 0)%R -> sign f = true) /\ ((0 < x)%R -> sign f = false) /\ (x = 0%R -> sign f = zs).

(** [res] is the exact result [x], rounded once in mode [m].  [infinite] says
    whether an overflowing result of a given sign becomes an infinity. *)
Definition delivers (infinite : bool -> bool) (S : Semantics) (m : Round) (x : R) (zs : bool) (res : Z * Float) : Prop :=
  let (st, f) := res in
  let r := rounded S m x in
  wf S f /\ has_sign x zs f /\
  ((Rabs r <= max_finite S)%R ->
     finite f /\ value S f = r /\
     (r = x -> st = OK) /\
     (r <> x -> (min_normal S <= Rabs r)%R -> st = INEXACT) /\
     (r <> x -> (Rabs r < min_normal S)%R -> st = Z.lor UNDERFLOW INEXACT)) /\
  ((max_finite S < Rabs r)%R ->
     if infinite (sign f) then
       st = Z.lor OVERFLOW INEXACT /\
       category f = (match NONFINITE_BEHAVIOR S with IEEE754 => Infinity | NanOnly => NaN end)
     else st = INEXACT /\ category f = Normal /\ Rabs (value S f) = max_finite S).
(** IEEE 754, 7.4 *)
Notation correctly_rounded S m x := (delivers (to_infinity m) S m x).

(** The crate delivers the wrong side for overflowing negative results of a
    NaN-only format in the two directed modes, below the next power of two (see
    [..._refuted]). *)
Definition wrong_side (S : Semantics) (m : Round) (x : R) : bool :=
  match NONFINITE_BEHAVIOR S, m with
  | NanOnly, (TowardPositive | TowardNegative) => Rlt_bool x 0 && Rlt_bool (Rabs x) (bpow r2 (MAX_EXP S + 1))
  | _, _ => false
  end.
Definition crate_to_infinity (S : Semantics) (m : Round) (x : R) (negative : bool) : bool :=
  xorb (wrong_side S m x) (to_infinity m negative).
Notation crate_rounded S m x := (delivers (crate_to_infinity S m x) S m x).
(** the complement of those cases *)
Definition overflow_side_ok (S : Semantics) (m : Round) (x : R) : Prop :=
  NONFINITE_BEHAVIOR S = NanOnly -> (x < 0)%R -> m = TowardPositive \/ m = TowardNegative ->
  (Rabs x < bpow r2 (MAX_EXP S + 1))%R -> (Rabs (rounded S m x) <= max_finite S)%R.

(** ** Exception flags (IEEE 754, section 7; underflow is signaled for inexact
    results that are subnormal or zero after rounding) *)
Definition raised (flag st : Z) : Prop := Z.land st flag <> 0.
Definition flags_exact (S : Semantics) (m : Round) (x : R) (st : Z) (f : Float) : Prop :=
  (st = OK <-> finite f /\ value S f = x) /\
  (st <> OK -> raised INEXACT st) /\
  (raised UNDERFLOW st <-> finite f /\ value S f <> x /\ (Rabs (value S f) < min_normal S)%R) /\
  (raised OVERFLOW st <-> ~ finite f) /\
  (raised OVERFLOW st -> (max_finite S < Rabs (rounded S m x))%R) /\
  ~ raised INVALID_OP st /\ ~ raised DIV_BY_ZERO st.

(** the mirrored rounding mode *)
Definition mirrored (m : Round) : Round :=
  match m with TowardPositive => TowardNegative | TowardNegative => TowardPositive | _ => m end.

(** the sign of an exactly zero sum x + y (IEEE 754, 6.3); [sy] is the sign
    that y enters the sum with *)
Definition sum_zero_sign (x y : Float) (sy : bool) (m : Round) : bool :=
  match category x, category y, Bool.eqb (sign x) sy with
  | Zero, Zero, true => sign x
  | _, _, _ => match m with TowardNegative => true | _ => false end
  end.

(** the sign of an exactly zero sum p + z, where the product p has sign [g] *)
Definition fma_zero_sign (g : bool) (z : Float) (m : Round) : bool :=
  if Bool.eqb g (sign z) then g else match m with TowardNegative => true | _ => false end.

(** The crate's fused multiply-add loses its guard bits if a subnormal addend
    and a tiny product cancel (see [..._refuted]).  These are the operands for
    which it does not. *)
Definition fma_safe (S : Semantics) (x y z : Float) : Prop :=
  xorb (sign x) (sign y) = sign z \/ category z = Zero \/
  (min_normal S <= Rabs (value S z))%R \/
  (min_normal S <= Rabs (value S x * value S y))%R \/
  (Rabs (value S x * value S y) + min_positive S <= Rabs (value S z))%R \/
  (exists k, (value S x * value S y = IZR k * bpow r2 (MIN_EXP S - 2 * PRECISION S))%R).

(** ** Orders and integers *)

(** numbers and infinities in order *)
Inductive extended := NegInf | Fin (x : R) | PosInf.
Definition ext_of (S : Semantics) (x : Float) : option extended :=
  match category x with
  | NaN => None
  | Infinity => Some (if sign x then NegInf else PosInf)
  | _ => Some (Fin (value S x))
  end.
Definition ext_lt (x y : extended) : Prop :=
  match x, y with
  | NegInf, NegInf | PosInf, _ | _, NegInf => False
  | NegInf, _ | _, PosInf => True
  | Fin a, Fin b => (a < b)%R
  end.

(** the answer of a three-way comparison *)
Definition ext_compare (a b : extended) (c : comparison) : Prop :=
  match c with Lt => ext_lt a b | Eq => a = b | Gt => ext_lt b a end.
Definition ext_le (a b : extended) : Prop := ext_lt a b \/ a = b.

(** the results of two operations, if they are no NaNs, are ordered *)
Definition ordered (S : Semantics) (o o' : outcome (Z * Float)) : Prop :=
  exists st f st' f', o = Ret (st, f) /\ o' = Ret (st', f') /\
    (category f <> NaN -> category f' <> NaN -> exists a b, ext_of S f = Some a /\ ext_of S f' = Some b /\ ext_le a b).

(** ** NaNs *)

(** the quiet bit of a NaN significand; the x87 format asks for its explicit
    integer bit as well; a NaN-only format has no signaling NaNs *)
Definition signaling (S : Semantics) (x : Float) : bool :=
  match category x, NONFINITE_BEHAVIOR S with
  | NaN, IEEE754 =>
    negb (Z.testbit (sig x) (PRECISION S - 2) && (negb (X87 S) || Z.testbit (sig x) (PRECISION S - 1)))
  | _, _ => false
  end.
(** the same NaN with its quiet bit set *)
Definition quieted (S : Semantics) (x : Float) : Float :=
  mkFloat (match NONFINITE_BEHAVIOR S with IEEE754 => Z.setbit (sig x) (PRECISION S - 2) | NanOnly => sig x end)
    (exp x) (category x) (sign x).
(** on x87 a NaN without the integer bit counts as signaling however often it
    is quieted; those NaNs ("pseudo-NaNs") are excluded from some statements *)
Definition proper_nan (S : Semantics) (x : Float) : Prop :=
  X87 S = true -> category x = NaN -> Z.testbit (sig x) (PRECISION S - 1) = true.
(** the operand that is propagated *)
Definition first_nan (x y : Float) : Float := match category x with NaN => x | _ => y end.
Definition invalid_if (b : bool) : Z := if b then INVALID_OP else OK.
(** the NaN invalid operations deliver *)
Definition default_nan (S : Semantics) (f : Float) : Prop :=
  wf S f /\ category f = NaN /\ signaling S f = false.

(** what "infinity" is in the format: NaN-only formats have none *)
Definition infinity_of (S : Semantics) : Category :=
  match NONFINITE_BEHAVIOR S with IEEE754 => Infinity | NanOnly => NaN end.
Definition is_special (S : Semantics) (c : Category) (negative : bool) (f : Float) : Prop :=
  wf S f /\ category f = c /\ sign f = negative.

(** ** Interchange formats (IEEE 754-2008, 3.4)

    [bits] in all, one sign bit, [eb] exponent bits, the rest of the
    significand.  The fields of a pattern are plain quotients and remainders. *)
Definition field_sign (bits : Z) (b : Z) : bool := Z.odd (b / 2 ^ (bits - 1)).
Definition field_exp (bits eb : Z) (b : Z) : Z := (b / 2 ^ (bits - 1 - eb)) mod 2 ^ eb.
Definition field_frac (bits eb : Z) (b : Z) : Z := b mod 2 ^ (bits - 1 - eb).

(** what the standard (resp. the OCP 8-bit format E4M3) says a pattern means *)
Inductive meaning := MNumber (x : R) | MInfinity | MNaN (payload : Z).
Definition decoded (nf : NonfiniteBehavior) (bits eb : Z) (b : Z) : meaning :=
  let E := field_exp bits eb b in
  let F := field_frac bits eb b in
  let t := bits - 1 - eb in
  let bias := 2 ^ (eb - 1) - 1 in
  let s := if field_sign bits b then (-1)%R else 1%R in
  let number :=
    if E =? 0 then MNumber (s * (IZR F * bpow r2 (1 - bias - t)))
    else MNumber (s * (IZR (2 ^ t + F) * bpow r2 (E - bias - t))) in
  if E =? 2 ^ eb - 1 then
    match nf with
    | IEEE754 => if F =? 0 then MInfinity else MNaN F
    | NanOnly => if F =? 2 ^ t - 1 then MNaN F else number
    end
  else number.
Definition denotes (S : Semantics) (x : Float) (m : meaning) : Prop :=
  match m with
  | MNumber v => finite x /\ value S x = v
  | MInfinity => category x = Infinity
  | MNaN payload => category x = NaN /\ sig x = payload
  end.

(** the x87 80-bit format has an explicit integer bit (bit 63); the patterns
    that the 387 and later reject (nonzero exponent, integer bit clear) are
    read as NaNs *)
Definition decoded_x87 (b : Z) : meaning :=
  let E := field_exp 80 15 b in
  let F := field_frac 80 15 b in
  let s := if field_sign 80 b then (-1)%R else 1%R in
  if E =? 0 then MNumber (s * (IZR F * bpow r2 (1 - 16383 - 63)))
  else if E =? 32767 then (if F =? 2 ^ 63 then MInfinity else MNaN F)
  else if F <? 2 ^ 63 then MNaN F
  else MNumber (s * (IZR F * bpow r2 (E - 16383 - 63))).

(** the x87 patterns that are not pseudo-denormals, unnormals, pseudo-infinities
    or pseudo-NaNs below the top exponent *)
Definition x87_canonical_pattern (b : Z) : Prop :=
  field_exp 80 15 b = 32767 \/ (field_exp 80 15 b = 0 <-> field_frac 80 15 b < 2 ^ 63).

(** ** Integers *)

(** the float [x], converted to an integer between [lo] and [hi]: the integer
    [x] rounds to, or the nearer bound with the invalid flag; a NaN gives 0 *)
Definition converted_to_int (S : Semantics) (x : Float) (m : Round) (lo hi : Z) (st n : Z) : Prop :=
  match category x with
  | NaN => st = INVALID_OP /\ n = 0
  | Infinity => st = INVALID_OP /\ n = (if sign x then lo else hi)
  | _ =>
    let k := rnd_of m (value S x) in
    (k < lo -> st = INVALID_OP /\ n = lo) /\
    (hi < k -> st = INVALID_OP /\ n = hi) /\
    (lo <= k <= hi -> n = k /\ (IZR k = value S x -> st = OK) /\ (IZR k <> value S x -> st = INEXACT))
  end.

(** ** Neighbours *)

(** [r] is the least number of the format above [x]; the (positive) infinity
    if there is none *)
Definition least_above (S : Semantics) (x : extended) (r : Float) : Prop :=
  wf S r /\
  ((exists y, representable S y /\ ext_lt x (Fin y)) ->
     finite r /\ ext_lt x (Fin (value S r)) /\
     forall y, representable S y -> ext_lt x (Fin y) -> (value S r <= y)%R) /\
  (~ (exists y, representable S y /\ ext_lt x (Fin y)) -> category r = infinity_of S /\ sign r = false).
Definition greatest_below (S : Semantics) (x : extended) (r : Float) : Prop :=
  wf S r /\
  ((exists y, representable S y /\ ext_lt (Fin y) x) ->
     finite r /\ ext_lt (Fin (value S r)) x /\
     forall y, representable S y -> ext_lt (Fin y) x -> (y <= value S r)%R) /\
  (~ (exists y, representable S y /\ ext_lt (Fin y) x) -> category r = infinity_of S /\ sign r = true).

(** ** Formats containing one another *)

(** [T] has at least the precision and the range of [S] *)
Definition contains (T S : Semantics) : Prop :=
  PRECISION S <= PRECISION T /\ (min_positive T <= min_positive S)%R /\ (max_finite S <= max_finite T)%R.
