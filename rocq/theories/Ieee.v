(** * Ieee.v -- model of [IeeeFloat<S>] (src/ieee.rs) and of the default
    methods of [trait Float] (src/lib.rs).

    The associated constants of [trait Semantics] are the fields of the record
    [Semantics].  Constant expressions that depend on the format only (such as
    [1 << (S::PRECISION - 1)] or [S::MAX_EXP + 1]) are written as plain integer
    arithmetic; they are in range for every format satisfying [sem_ok]
    (Spec.v).  All arithmetic on run-time data goes through the checked
    operations of Machine.v. *)
From Coq Require Import ZArith List Bool.
From Verif Require Import Machine Sig.
Import ListNotations.
Local Open Scope Z_scope.

(** ** Types *)

(** src/lib.rs:121-128 [enum Category] *)
Inductive Category := Infinity | NaN | Normal | Zero.

(** src/lib.rs:130-138 [enum Round] *)
Inductive Round :=
| NearestTiesToEven | TowardPositive | TowardNegative | TowardZero | NearestTiesToAway.

(** src/lib.rs:47-66 [struct Status], a bit mask *)
Definition OK : Z := 0.
Definition INVALID_OP : Z := 1.
Definition DIV_BY_ZERO : Z := 2.
Definition OVERFLOW : Z := 4.
Definition UNDERFLOW : Z := 8.
Definition INEXACT : Z := 16.

(** src/ieee.rs:84-99 [enum NonfiniteBehavior] *)
Inductive NonfiniteBehavior := IEEE754 | NanOnly.

(** src/ieee.rs:121-175 [trait Semantics]; [X87] tells whether [from_bits] and
    [to_bits] are overridden as in src/ieee.rs:350-447. *)
Record Semantics := mkSem {
  BITS : Z;
  EXP_BITS : Z;
  PRECISION : Z;
  NONFINITE_BEHAVIOR : NonfiniteBehavior;
  MAX_EXP : Z;
  MIN_EXP : Z;
  NAN_SIGNIFICAND_BASE : Z;
  NAN_PAYLOAD_MASK : Z;
  QNAN_SIGNIFICAND : Z;
  X87 : bool
}.

(** src/ieee.rs:20-44 [struct IeeeFloat]; [sig] is the single limb. *)
Record Float := mkFloat {
  sig : Z;
  exp : Z;
  category : Category;
  sign : bool
}.

Definition category_eqb (a b : Category) : bool :=
  match a, b with
  | Infinity, Infinity | NaN, NaN | Normal, Normal | Zero, Zero => true
  | _, _ => false
  end.
Definition round_eqb (a b : Round) : bool :=
  match a, b with
  | NearestTiesToEven, NearestTiesToEven | TowardPositive, TowardPositive
  | TowardNegative, TowardNegative | TowardZero, TowardZero
  | NearestTiesToAway, NearestTiesToAway => true
  | _, _ => false
  end.
Definition nonfinite_eqb (a b : NonfiniteBehavior) : bool :=
  match a, b with
  | IEEE754, IEEE754 | NanOnly, NanOnly => true
  | _, _ => false
  end.

(** src/lib.rs:140-149 [impl Neg for Round] *)
Definition round_neg (r : Round) : Round :=
  match r with
  | TowardPositive => TowardNegative
  | TowardNegative => TowardPositive
  | _ => r
  end.
(** src/ieee.rs:102-109 [NegExt::negate_if] at type [Round] *)
Definition round_negate_if (r : Round) (n : bool) : Round := if n then round_neg r else r.

(** ** The formats *)

(** Default associated constants, src/ieee.rs:128-175.  The last argument of
    [mkSem] says that [from_bits]/[to_bits] are the default ones. *)
Definition ieee_semantics (bits exp_bits : Z) (nf : NonfiniteBehavior) : Semantics :=
  let precision := (bits - 1 - exp_bits) + 1 in
  let ieee_min_exp := - 2 ^ (exp_bits - 1) + 2 in
  let ieee_max_exp := - ieee_min_exp + 1 in
  let min_exp := ieee_min_exp in
  let extra := match nf with IEEE754 => 0 | NanOnly => 1 end in
  {| BITS := bits;
     EXP_BITS := exp_bits;
     PRECISION := precision;
     NONFINITE_BEHAVIOR := nf;
     MAX_EXP := ieee_max_exp + (min_exp - ieee_min_exp) + extra;
     MIN_EXP := min_exp;
     NAN_SIGNIFICAND_BASE := match nf with IEEE754 => 0 | NanOnly => 2 ^ (precision - 1) - 1 end;
     NAN_PAYLOAD_MASK := match nf with IEEE754 => 2 ^ (precision - 1) - 1 | NanOnly => 0 end;
     QNAN_SIGNIFICAND := match nf with IEEE754 => 2 ^ (precision - 2) | NanOnly => 0 end;
     X87 := false |}.

(** src/ieee.rs:310-343 *)
Definition HalfS := ieee_semantics 16 5 IEEE754.
Definition SingleS := ieee_semantics 32 8 IEEE754.
Definition DoubleS := ieee_semantics 64 11 IEEE754.
Definition QuadS := ieee_semantics 128 15 IEEE754.
Definition BFloatS := ieee_semantics 16 8 IEEE754.
Definition Float8E5M2S := ieee_semantics 8 5 IEEE754.
Definition Float8E4M3FNS := ieee_semantics 8 4 NanOnly.

(** src/ieee.rs:358-376 [impl Semantics for X87DoubleExtendedS]: PRECISION and
    QNAN_SIGNIFICAND are overridden, the other constants are the defaults. *)
Definition X87_QNAN_SIGNIFICAND : Z := 3 * 2 ^ 62.
Definition X87DoubleExtendedS : Semantics :=
  {| BITS := 80;
     EXP_BITS := 15;
     PRECISION := 64;
     NONFINITE_BEHAVIOR := IEEE754;
     MAX_EXP := 16383;
     MIN_EXP := -16382;
     NAN_SIGNIFICAND_BASE := 0;
     NAN_PAYLOAD_MASK := 2 ^ 63 - 1;
     QNAN_SIGNIFICAND := X87_QNAN_SIGNIFICAND;
     X87 := true |}.

(** src/ppc.rs:41-51 [FallbackS<F>] and src/ppc.rs:58-68 [FallbackExtendedS<F>];
    BITS = EXP_BITS = 0, so the bit conversions panic. *)
Definition fallback_semantics (precision max_exp min_exp : Z) : Semantics :=
  {| BITS := 0;
     EXP_BITS := 0;
     PRECISION := precision;
     NONFINITE_BEHAVIOR := IEEE754;
     MAX_EXP := max_exp;
     MIN_EXP := min_exp;
     NAN_SIGNIFICAND_BASE := 0;
     NAN_PAYLOAD_MASK := 2 ^ (precision - 1) - 1;
     QNAN_SIGNIFICAND := 2 ^ (precision - 2);
     X87 := false |}.
Definition FallbackS (F : Semantics) : Semantics :=
  fallback_semantics (PRECISION F * 2) (MAX_EXP F) (MIN_EXP F + PRECISION F).
Definition FallbackExtendedS (F : Semantics) : Semantics :=
  fallback_semantics (PRECISION F * 2) (MAX_EXP F) (MIN_EXP F).

(** ** Queries (src/lib.rs:487-547, src/ieee.rs:1783-1799) *)

(** src/ieee.rs:1783-1785 *)
Definition is_negative (x : Float) : bool := sign x.
(** src/lib.rs:506-508 *)
Definition is_zero (x : Float) : bool := category_eqb (category x) Zero.
(** src/lib.rs:515-517 *)
Definition is_infinite (x : Float) : bool := category_eqb (category x) Infinity.
(** src/lib.rs:520-522 *)
Definition is_nan (x : Float) : bool := category_eqb (category x) NaN.
(** src/lib.rs:501-503 *)
Definition is_finite (x : Float) : bool := negb (is_nan x) && negb (is_infinite x).
(** src/lib.rs:530-532 *)
Definition is_non_zero (x : Float) : bool := negb (is_zero x).
(** src/lib.rs:533-535 *)
Definition is_finite_non_zero (x : Float) : bool := is_finite x && negb (is_zero x).
(** src/lib.rs:536-547 *)
Definition is_pos_zero (x : Float) : bool := is_zero x && negb (is_negative x).
Definition is_neg_zero (x : Float) : bool := is_zero x && is_negative x.
Definition is_pos_infinity (x : Float) : bool := is_infinite x && negb (is_negative x).
Definition is_neg_infinity (x : Float) : bool := is_infinite x && is_negative x.

(** src/ieee.rs:1787-1789 [is_denormal] *)
Definition is_denormal (S : Semantics) (x : Float) : outcome bool :=
  if is_finite_non_zero x && (exp x =? MIN_EXP S) then
    let! b := get_bit [sig x] (PRECISION S - 1) in
    Ret (negb b)
  else Ret false.
(** src/lib.rs:493-495 [is_normal] *)
Definition is_normal (S : Semantics) (x : Float) : outcome bool :=
  let! d := is_denormal S x in
  Ret (negb d && is_finite_non_zero x).
(** src/ieee.rs:1791-1795 [is_signaling] *)
Definition is_signaling (S : Semantics) (x : Float) : bool :=
  is_nan x && negb (Z.land (sig x) (QNAN_SIGNIFICAND S) =? QNAN_SIGNIFICAND S).

(** ** Sign operations *)

(** src/ieee.rs:491-497 [impl Neg] *)
Definition neg (x : Float) : Float := mkFloat (sig x) (exp x) (category x) (negb (is_negative x)).
(** src/ieee.rs:102-109 [negate_if] *)
Definition negate_if (x : Float) (n : bool) : Float := if n then neg x else x.
(** src/ieee.rs:111-116 [with_sign] *)
Definition with_sign (x : Float) (s : bool) : Float := negate_if x (xorb (is_negative x) s).
(** src/lib.rs:328-334 [abs] *)
Definition abs (x : Float) : Float := if is_negative x then neg x else x.
(** src/lib.rs:335-341 [copy_sign] *)
Definition copy_sign (x y : Float) : Float :=
  if xorb (is_negative x) (is_negative y) then neg x else x.

(** ** Constants *)

(** src/ieee.rs:885-906 [qnan] *)
Definition qnan (S : Semantics) (payload : option Z) : Float :=
  let p := match payload with Some p => Z.land p (NAN_PAYLOAD_MASK S) | None => 0 end in
  mkFloat (Z.lor (Z.lor (NAN_SIGNIFICAND_BASE S) (QNAN_SIGNIFICAND S)) p)
    (match NONFINITE_BEHAVIOR S with IEEE754 => MAX_EXP S + 1 | NanOnly => MAX_EXP S end)
    NaN false.
(** src/ieee.rs:936 [NAN] *)
Definition NAN (S : Semantics) : Float := qnan S None.
(** src/ieee.rs:915-921 [ZERO] *)
Definition ZERO (S : Semantics) : Float := mkFloat 0 (MIN_EXP S - 1) Zero false.
(** src/ieee.rs:923-934 [INFINITY] *)
Definition INFINITY (S : Semantics) : Float :=
  match NONFINITE_BEHAVIOR S with
  | IEEE754 => mkFloat 0 (MAX_EXP S + 1) Infinity false
  | NanOnly => NAN S
  end.
(** src/ieee.rs:944-960 [snan] *)
Definition snan (S : Semantics) (payload : option Z) : Float :=
  let s := qnan S payload in
  let q := Z.land (QNAN_SIGNIFICAND S) (NAN_PAYLOAD_MASK S) in
  let sg := Z.land (sig s) (not128 q) in
  let sg := if Z.land sg (NAN_PAYLOAD_MASK S) =? 0 then Z.lor sg (Z.shiftr q 1) else sg in
  mkFloat sg (exp s) (category s) (sign s).
(** src/ieee.rs:962-983 [largest] *)
Definition largest (S : Semantics) : Float :=
  mkFloat (Z.land (2 ^ PRECISION S - 1)
             (match NONFINITE_BEHAVIOR S with IEEE754 => not128 0 | NanOnly => not128 1 end))
    (MAX_EXP S) Normal false.
(** src/ieee.rs:988-994 [SMALLEST] *)
Definition SMALLEST (S : Semantics) : Float := mkFloat 1 (MIN_EXP S) Normal false.
(** src/ieee.rs:996-1007 [smallest_normalized] *)
Definition smallest_normalized (S : Semantics) : Float :=
  mkFloat (2 ^ (PRECISION S - 1)) (MIN_EXP S) Normal false.

(** src/ieee.rs:1767-1781 [bitwise_eq] *)
Definition bitwise_eq (x y : Float) : bool :=
  if negb (category_eqb (category x) (category y)) || negb (Bool.eqb (is_negative x) (is_negative y))
  then false
  else if category_eqb (category x) Zero || category_eqb (category x) Infinity then true
  else if is_finite_non_zero x && negb (exp x =? exp y) then false
  else sig x =? sig y.

(** src/lib.rs:551-565 [is_smallest], [is_smallest_normalized], [is_largest] *)
Definition is_smallest (S : Semantics) (x : Float) : bool := bitwise_eq (copy_sign (SMALLEST S) x) x.
Definition is_smallest_normalized (S : Semantics) (x : Float) : bool :=
  bitwise_eq (copy_sign (smallest_normalized S) x) x.
Definition is_largest (S : Semantics) (x : Float) : bool := bitwise_eq (copy_sign (largest S) x) x.

(** ** Bit patterns *)

(** src/ieee.rs:194-209, the closure [try_category_from_special] *)
Definition try_category_from_special (S : Semantics) (r special : Float) : option Category :=
  let special := copy_sign special r in
  let sig_mask := if is_nan special then not128 (NAN_PAYLOAD_MASK S) else not128 0 in
  if Bool.eqb (is_negative special) (is_negative r)
     && (exp special =? exp r)
     && (Z.land (sig special) sig_mask =? Z.land (sig r) sig_mask)
  then Some (category special) else None.

(** [specials.into_iter().find_map(f)] *)
Fixpoint find_map {A B} (f : A -> option B) (l : list A) : option B :=
  match l with
  | [] => None
  | x :: r => match f x with Some y => Some y | None => find_map f r end
  end.

(** src/ieee.rs:177-235 [Semantics::from_bits] (default) *)
Definition from_bits_default (S : Semantics) (bits : Z) : outcome Float :=
  assertb (PRECISION S <? BITS S) (
  let sgn := Z.land bits (2 ^ (BITS S - 1)) in
  let exponent := Z.land (Z.shiftr (Z.land bits (not128 sgn)) (BITS S - 1 - EXP_BITS S))
                         (2 ^ EXP_BITS S - 1) in
  let! e := chk32 (as_i32 exponent + (MIN_EXP S - 1)) in
  let r := mkFloat (Z.land bits (2 ^ (PRECISION S - 1) - 1)) e Zero (negb (sgn =? 0)) in
  match find_map (try_category_from_special S r) [ZERO S; INFINITY S; NAN S] with
  | Some c => Ret (mkFloat (sig r) (exp r) c (sign r))
  | None =>
    if exp r =? MIN_EXP S - 1 then
      Ret (mkFloat (sig r) (MIN_EXP S) Normal (sign r))
    else
      let! l := set_bit [sig r] (PRECISION S - 1) in
      let! s0 := get l 0 in
      Ret (mkFloat s0 (exp r) Normal (sign r))
  end).

(** src/ieee.rs:237-276 [Semantics::to_bits] (default) *)
Definition to_bits_default (S : Semantics) (x : Float) : outcome Z :=
  assertb (PRECISION S <? BITS S) (
  let! integer_bit := get_bit [sig x] (PRECISION S - 1) in
  let significand := Z.land (sig x) (2 ^ (PRECISION S - 1) - 1) in
  let! '(significand, exponent) :=
    (match category x with
     | Normal =>
       if (exp x =? MIN_EXP S) && negb integer_bit then
         let! e := chk32 (exp x - 1) in Ret (significand, e)
       else Ret (significand, exp x)
     | Zero => Ret (sig (ZERO S), exp (ZERO S))
     | Infinity => Ret (sig (INFINITY S), exp (INFINITY S))
     | NaN => Ret (significand, exp (NAN S))
     end) in
  let! e := chk32 (exponent - (MIN_EXP S - 1)) in
  let exponent := wrap128 e in
  let! a := shl128 (b2z (is_negative x)) (BITS S - 1) in
  let! b := shl128 exponent (PRECISION S - 1) in
  Ret (Z.lor (Z.lor a b) significand)).

(** src/ieee.rs:379-413 [X87DoubleExtendedS::from_bits] *)
Definition from_bits_x87 (S : Semantics) (bits : Z) : outcome Float :=
  let sgn := Z.land bits (2 ^ (BITS S - 1)) in
  let exponent := Z.land (Z.shiftr (Z.land bits (not128 sgn)) (BITS S - 1 - EXP_BITS S))
                         (2 ^ EXP_BITS S - 1) in
  let! e := chk32 (as_i32 exponent + (MIN_EXP S - 1)) in
  let sg := Z.land bits (2 ^ PRECISION S - 1) in
  let s := negb (sgn =? 0) in
  let integer_bit := Z.shiftr sg (PRECISION S - 1) in
  let top := 2 ^ (PRECISION S - 1) in
  if (e =? MIN_EXP S - 1) && (sg =? 0) then Ret (mkFloat sg e Zero s)
  else if (e =? MAX_EXP S + 1) && (sg =? top) then Ret (mkFloat sg e Infinity s)
  else if (e =? MAX_EXP S + 1) && negb (sg =? top)
       || negb (e =? MAX_EXP S + 1) && negb (e =? MIN_EXP S - 1) && (integer_bit =? 0)
  then Ret (mkFloat sg (MAX_EXP S + 1) NaN s)
  else if e =? MIN_EXP S - 1 then Ret (mkFloat sg (MIN_EXP S) Normal s)
  else Ret (mkFloat sg e Normal s).

(** src/ieee.rs:414-445 [X87DoubleExtendedS::to_bits] *)
Definition to_bits_x87 (S : Semantics) (x : Float) : outcome Z :=
  let! integer_bit := get_bit [sig x] (PRECISION S - 1) in
  let significand := Z.land (sig x) (2 ^ PRECISION S - 1) in
  let '(significand, exponent) :=
    match category x with
    | Normal =>
      if (exp x =? MIN_EXP S) && negb integer_bit then (significand, MIN_EXP S - 1)
      else (significand, exp x)
    | Zero => (0, MIN_EXP S - 1)
    | Infinity => (2 ^ (PRECISION S - 1), MAX_EXP S + 1)
    | NaN => (significand, MAX_EXP S + 1)
    end in
  let! e := chk32 (exponent - (MIN_EXP S - 1)) in
  let exponent := wrap128 e in
  let! a := shl128 (b2z (is_negative x)) (BITS S - 1) in
  let! b := shl128 exponent (PRECISION S) in
  Ret (Z.lor (Z.lor a b) significand).

(** src/ieee.rs:1566-1569, 1672-1675: dispatch to the semantics *)
Definition from_bits (S : Semantics) (bits : Z) : outcome Float :=
  if X87 S then from_bits_x87 S bits else from_bits_default S bits.
Definition to_bits (S : Semantics) (x : Float) : outcome Z :=
  if X87 S then to_bits_x87 S x else to_bits_default S x.

(** ** Comparison *)

(** [Ordering::reverse], [Ordering::then_with] and [bool::cmp] *)
Definition ord_reverse (c : comparison) : comparison := CompOpp c.
Definition then_with (c d : comparison) : comparison := match c with Eq => d | _ => c end.
Definition bool_cmp (a b : bool) : comparison :=
  match a, b with
  | false, true => Lt
  | true, false => Gt
  | _, _ => Eq
  end.
Definition ord_eqb (a b : comparison) : bool :=
  match a, b with Eq, Eq | Lt, Lt | Gt, Gt => true | _, _ => false end.

(** src/ieee.rs:1759-1765 [cmp_abs_normal] *)
Definition cmp_abs_normal (x y : Float) : outcome comparison :=
  assertb (is_finite_non_zero x) (
  assertb (is_finite_non_zero y) (
  match exp x ?= exp y with
  | Eq => Sig.cmp [sig x] [sig y]
  | c => Ret c
  end)).

(** src/ieee.rs:457-489 [PartialOrd::partial_cmp] *)
Definition partial_cmp (x y : Float) : outcome (option comparison) :=
  match category x, category y with
  | NaN, _ | _, NaN => Ret None
  | Infinity, Infinity => Ret (Some (bool_cmp (negb (is_negative x)) (negb (is_negative y))))
  | Zero, Zero => Ret (Some Eq)
  | Infinity, _ | Normal, Zero => Ret (Some (bool_cmp (negb (is_negative x)) (is_negative x)))
  | _, Infinity | Zero, Normal => Ret (Some (bool_cmp (is_negative y) (negb (is_negative y))))
  | Normal, Normal =>
    match bool_cmp (negb (is_negative x)) (negb (is_negative y)) with
    | Eq =>
      let! r := cmp_abs_normal x y in
      Ret (Some (if is_negative x then ord_reverse r else r))
    | c => Ret (Some c)
    end
  end.
(** [<], [>], [>=], [==] as derived from [partial_cmp]; src/ieee.rs:451-455 for [==] *)
Definition lt_f (x y : Float) : outcome bool :=
  let! c := partial_cmp x y in
  Ret (match c with Some Lt => true | _ => false end).
Definition gt_f (x y : Float) : outcome bool :=
  let! c := partial_cmp x y in
  Ret (match c with Some Gt => true | _ => false end).
Definition ge_f (x y : Float) : outcome bool :=
  let! c := partial_cmp x y in
  Ret (match c with Some Gt | Some Eq => true | _ => false end).
Definition eq_f (x y : Float) : outcome bool :=
  let! c := partial_cmp x y in
  Ret (match c with Some Eq => true | _ => false end).

(** src/lib.rs:417-427 [min] *)
Definition min (x y : Float) : outcome Float :=
  if is_nan x then Ret y
  else if is_nan y then Ret x
  else let! b := lt_f y x in Ret (if b then y else x).
(** src/lib.rs:431-441 [max] *)
Definition max (x y : Float) : outcome Float :=
  if is_nan x then Ret y
  else if is_nan y then Ret x
  else let! b := lt_f x y in Ret (if b then y else x).
(** src/lib.rs:445-461 [minimum] *)
Definition minimum (x y : Float) : outcome Float :=
  if is_nan x then Ret x
  else if is_nan y then Ret y
  else if is_zero x && is_zero y && xorb (is_negative x) (is_negative y) then
    Ret (if is_negative x then x else y)
  else let! b := lt_f y x in Ret (if b then y else x).
(** src/lib.rs:465-481 [maximum] *)
Definition maximum (x y : Float) : outcome Float :=
  if is_nan x then Ret x
  else if is_nan y then Ret y
  else if is_zero x && is_zero y && xorb (is_negative x) (is_negative y) then
    Ret (if is_negative x then y else x)
  else let! b := lt_f x y in Ret (if b then y else x).

(** ** Default exception handling *)

(** src/ieee.rs:829-866 [result_from_nan] *)
Definition result_from_nan (S : Semantics) (r : Float) : outcome (Z * Float) :=
  assertb (is_nan r) (
  if is_signaling S r then
    let q := if QNAN_SIGNIFICAND S =? X87_QNAN_SIGNIFICAND
             then Z.land (QNAN_SIGNIFICAND S) (NAN_PAYLOAD_MASK S)
             else QNAN_SIGNIFICAND S in
    Ret (INVALID_OP, mkFloat (Z.lor (sig r) q) (exp r) (category r) (sign r))
  else Ret (OK, r)).

(** src/ieee.rs:868-879 [binop_result_from_either_nan] *)
Definition binop_result_from_either_nan (S : Semantics) (a b : Float) : outcome (Z * Float) :=
  let! r := (match category a, category b with
             | NaN, _ => Ret a
             | _, NaN => Ret b
             | _, _ => Panic
             end) in
  let! '(status, r) := result_from_nan S r in
  let status := if is_signaling S b then Z.lor status INVALID_OP else status in
  Ret (status, r).

(** ** Rounding *)

(** src/ieee.rs:2003-2012 [overflow_result] *)
Definition overflow_result (S : Semantics) (round : Round) : Z * Float :=
  match round with
  | NearestTiesToEven | NearestTiesToAway | TowardPositive =>
    (Z.lor OVERFLOW INEXACT, INFINITY S)
  | TowardNegative | TowardZero => (INEXACT, largest S)
  end.

(** src/ieee.rs:2019-2044 [round_away_from_zero] *)
Definition round_away_from_zero (x : Float) (round : Round) (loss : Loss) (bit : Z) : outcome bool :=
  assertb (is_finite_non_zero x || is_zero x) (
  assertb (negb (loss_eqb loss ExactlyZero)) (
  match round with
  | NearestTiesToAway => Ret (loss_eqb loss ExactlyHalf || loss_eqb loss MoreThanHalf)
  | NearestTiesToEven =>
    if loss_eqb loss MoreThanHalf then Ret true
    else if loss_eqb loss ExactlyHalf && negb (category_eqb (category x) Zero) then
      get_bit [sig x] bit
    else Ret false
  | TowardZero => Ret false
  | TowardPositive => Ret (negb (is_negative x))
  | TowardNegative => Ret (is_negative x)
  end)).

(** functional update of [self.sig], [self.exp] *)
Definition set_sig_exp (x : Float) (s e : Z) : Float := mkFloat s e (category x) (sign x).

(** src/ieee.rs:2093-2101 and 2141-2149: the NaN pattern of a NaN-only format *)
Definition hits_nan_pattern (S : Semantics) (x : Float) : bool :=
  nonfinite_eqb (NONFINITE_BEHAVIOR S) NanOnly
  && (exp x =? exp (NAN S))
  && (Z.land (sig x) (NAN_SIGNIFICAND_BASE S) =? sig (NAN S)).

(** [Self::overflow_result(round).map(|r| r.copy_sign(self))] *)
Definition overflow_result_signed (S : Semantics) (round : Round) (x : Float) : Z * Float :=
  let '(status, r) := overflow_result S round in (status, copy_sign r x).

(** src/ieee.rs:2046-2168 [normalize] *)
Definition normalize_tail (S : Semantics) (x : Float) (omsb : Z) (round : Round) (loss : Loss)
  : outcome (Z * Float) :=
  if hits_nan_pattern S x then Ret (overflow_result_signed S round x)
  else if loss_eqb loss ExactlyZero then
    Ret (OK, if omsb =? 0 then copy_sign (ZERO S) x else x)
  else
    let finish x omsb : outcome (Z * Float) :=
      if omsb =? PRECISION S then Ret (INEXACT, x)
      else assertb (omsb <? PRECISION S)
             (Ret (Z.lor UNDERFLOW INEXACT, if omsb =? 0 then copy_sign (ZERO S) x else x)) in
    let! away := round_away_from_zero x round loss 0 in
    if away then
      let x := if omsb =? 0 then set_sig_exp x (sig x) (MIN_EXP S) else x in
      let '(l, c) := increment [sig x] in
      assertb (c =? 0) (
      let! s0 := get l 0 in
      let x := set_sig_exp x s0 (exp x) in
      let omsb := Sig.omsb [sig x] in
      if omsb =? PRECISION S + 1 then
        if exp x =? MAX_EXP S then
          Ret (Z.lor OVERFLOW INEXACT, copy_sign (INFINITY S) x)
        else
          let! '(l, e, _) := shift_right [sig x] (exp x) 1 in
          let! s0 := get l 0 in
          Ret (INEXACT, set_sig_exp x s0 e)
      else if hits_nan_pattern S x then Ret (overflow_result_signed S round x)
      else finish x omsb)
    else finish x omsb.

Definition normalize (S : Semantics) (x : Float) (round : Round) (loss : Loss) : outcome (Z * Float) :=
  if negb (is_finite_non_zero x) then Ret (OK, x)
  else
    let omsb := Sig.omsb [sig x] in
    if 0 <? omsb then
      let final_exp := sat32 (exp x + (as_i32 omsb - PRECISION S)) in
      if MAX_EXP S <? final_exp then
        Ret (overflow_result_signed S (round_negate_if round (is_negative x)) x)
      else
        let final_exp := if final_exp <? MIN_EXP S then MIN_EXP S else final_exp in
        if final_exp <? exp x then
          assertb (loss_eqb loss ExactlyZero) (
          let! exp_change := chk32 (exp x - final_exp) in
          let! '(l, e) := shift_left [sig x] (exp x) exp_change in
          let! s0 := get l 0 in
          Ret (OK, set_sig_exp x s0 e))
        else if exp x <? final_exp then
          let! exp_change := chk32 (final_exp - exp x) in
          let! '(l, e, loss') := shift_right [sig x] (exp x) exp_change in
          let! s0 := get l 0 in
          normalize_tail S (set_sig_exp x s0 e) (saturating_usub omsb exp_change) round
            (combine loss' loss)
        else normalize_tail S x omsb round loss
    else normalize_tail S x omsb round loss.

(** ** Arithmetic *)

(** src/ieee.rs:1009-1066 [add_r] *)
Definition add_r (S : Semantics) (x y : Float) (round : Round) : outcome (Z * Float) :=
  let finish (status : Z) (x : Float) : outcome (Z * Float) :=
    if is_zero x && (negb (is_zero y) || xorb (is_negative x) (is_negative y)) then
      Ret (status, with_sign x (round_eqb round TowardNegative))
    else Ret (status, x) in
  match category x, category y with
  | NaN, _ | _, NaN => binop_result_from_either_nan S x y
  | Infinity, Infinity =>
    if xorb (is_negative x) (is_negative y) then finish INVALID_OP (NAN S) else finish OK x
  | _, Zero | Infinity, Normal => finish OK x
  | Zero, _ | _, Infinity => finish OK y
  | Normal, Normal =>
    let! '(l, e, s, loss) :=
      add_or_sub [sig x] (exp x) (is_negative x) [sig y] (exp y) (is_negative y) in
    let! s0 := get l 0 in
    let x := with_sign (set_sig_exp x s0 e) s in
    let! '(status, x) := normalize S x round loss in
    assertb (negb (is_zero x) || loss_eqb loss ExactlyZero) (finish status x)
  end.

(** src/ieee.rs:1070-1078 [sub_r] *)
Definition sub_r (S : Semantics) (x y : Float) (round : Round) : outcome (Z * Float) :=
  match category x, category y with
  | NaN, _ | _, NaN => binop_result_from_either_nan S x y
  | _, _ => add_r S x (neg y) round
  end.

(** src/ieee.rs:1080-1111 [mul_r] *)
Definition mul_r (S : Semantics) (x y : Float) (round : Round) : outcome (Z * Float) :=
  let x := negate_if x (is_negative y) in
  match category x, category y with
  | NaN, _ | _, NaN => binop_result_from_either_nan S (negate_if x (is_negative y)) y
  | Zero, Infinity | Infinity, Zero => Ret (INVALID_OP, NAN S)
  | Infinity, _ | _, Infinity => Ret (OK, copy_sign (INFINITY S) x)
  | Zero, _ | _, Zero => Ret (OK, copy_sign (ZERO S) x)
  | Normal, Normal =>
    let! e := chk32 (exp x + exp y) in
    let! '(wide, e, loss) := Sig.mul [0; 0] e [sig x] [sig y] (PRECISION S) in
    let! s0 := get wide 0 in
    let! '(status, r) := normalize S (set_sig_exp x s0 e) round loss in
    Ret (if negb (loss_eqb loss ExactlyZero) then Z.lor status INEXACT else status, r)
  end.

(** src/ieee.rs:1113-1232 [mul_add_r] *)
Definition mul_add_r (S : Semantics) (x multiplicand addend : Float) (round : Round)
  : outcome (Z * Float) :=
  if negb (is_finite_non_zero x) || negb (is_finite_non_zero multiplicand) || negb (is_finite addend)
  then
    let! '(status, x) :=
      (if is_finite_non_zero x && is_finite_non_zero multiplicand then
         assertb (negb (is_finite addend)) (Ret (OK, x))
       else mul_r S x multiplicand round) in
    if status =? OK then add_r S x addend round else Ret (status, x)
  else
    let x := negate_if x (is_negative multiplicand) in
    assertb (limbs_for_bits (PRECISION S * 2 + 1) <=? 2) (
    let! '(lo, hi) := widening_mul (sig x) (sig multiplicand) in
    let wide := [lo; hi] in
    let omsb := Sig.omsb wide in
    let! e := chk32 (exp x + exp multiplicand) in
    let! e := chk32 (e + 2) in
    let! '(wide, e, s, loss, omsb) :=
      (if is_non_zero addend then
         let ext_precision := 2 * PRECISION S + 1 in
         let! '(wide, e) :=
           (if negb (omsb =? ext_precision - 1) then
              assertb (omsb <? ext_precision) (
              let! n := usub (ext_precision - 1) omsb in
              shift_left wide e n)
            else Ret (wide, e)) in
         let! '(ext_addend, _) := shift_left [sig addend; 0] 0 (ext_precision - 1 - PRECISION S) in
         let! ae := chk32 (exp addend + 1) in
         let! '(wide, e, s, loss) :=
           add_or_sub wide e (is_negative x) ext_addend ae (is_negative addend) in
         Ret (wide, e, s, loss, Sig.omsb wide)
       else Ret (wide, e, is_negative x, ExactlyZero, omsb)) in
    let x := with_sign x s in
    let! e := chk32 (e - (PRECISION S + 1)) in
    let! '(wide, e, loss) :=
      (if PRECISION S <? omsb then
         let! '(wide, e, l) := shift_right wide e (omsb - PRECISION S) in
         Ret (wide, e, combine l loss)
       else Ret (wide, e, loss)) in
    let! s0 := get wide 0 in
    let! '(status, x) := normalize S (set_sig_exp x s0 e) round loss in
    let status := if negb (loss_eqb loss ExactlyZero) then Z.lor status INEXACT else status in
    if is_zero x && (Z.land status UNDERFLOW =? 0) && xorb (is_negative x) (is_negative addend) then
      Ret (status, with_sign x (round_eqb round TowardNegative))
    else Ret (status, x)).

(** src/ieee.rs:1234-1266 [div_r] *)
Definition div_r (S : Semantics) (x y : Float) (round : Round) : outcome (Z * Float) :=
  let x := negate_if x (is_negative y) in
  match category x, category y with
  | NaN, _ | _, NaN => binop_result_from_either_nan S (negate_if x (is_negative y)) y
  | Infinity, Infinity | Zero, Zero => Ret (INVALID_OP, NAN S)
  | Infinity, _ | Zero, _ => Ret (OK, x)
  | _, Infinity => Ret (OK, copy_sign (ZERO S) x)
  | _, Zero => Ret (DIV_BY_ZERO, copy_sign (INFINITY S) x)
  | Normal, Normal =>
    let! e := chk32 (exp x - exp y) in
    let! '(q, e, loss) := Sig.div [sig x] e [sig x] [sig y] (PRECISION S) in
    let! s0 := get q 0 in
    let! '(status, r) := normalize S (set_sig_exp x s0 e) round loss in
    Ret (if negb (loss_eqb loss ExactlyZero) then Z.lor status INEXACT else status, r)
  end.

(** ** Scaling and decomposition *)

(** src/lib.rs:155-158 *)
Definition IEK_INF : Z := I32_MAX.
Definition IEK_NAN : Z := I32_MIN.
Definition IEK_ZERO : Z := I32_MIN + 1.

(** src/ieee.rs:1833-1851 [ilogb] *)
Definition ilogb (S : Semantics) (x : Float) : outcome Z :=
  if is_nan x then Ret IEK_NAN
  else if is_zero x then Ret IEK_ZERO
  else if is_infinite x then Ret IEK_INF
  else
    let! d := is_denormal S x in
    if negb d then Ret (exp x)
    else
      let sig_bits := PRECISION S - 1 in
      let! e := chk32 (exp x + sig_bits) in
      let! '(_, r) := normalize S (set_sig_exp x (sig x) e) NearestTiesToEven ExactlyZero in
      chk32 (exp r - sig_bits).

(** src/ieee.rs:1853-1871 [scalbn_r] *)
Definition scalbn_r (S : Semantics) (x : Float) (n : Z) (round : Round) : outcome Float :=
  let sig_bits := PRECISION S - 1 in
  let max_change := MAX_EXP S - (MIN_EXP S - sig_bits) + 1 in
  let exp_change := Z.min (Z.max n (- max_change - 1)) max_change in
  let x := set_sig_exp x (sig x) (sat32 (exp x + exp_change)) in
  let! '(_, x) := normalize S x round ExactlyZero in
  if is_nan x then let! '(_, x) := result_from_nan S x in Ret x
  else Ret x.
(** src/lib.rs:592-594 [scalbn] *)
Definition scalbn (S : Semantics) (x : Float) (n : Z) : outcome Float :=
  scalbn_r S x n NearestTiesToEven.

(** src/ieee.rs:1873-1893 [frexp_r]; returns the fraction and [*exp]. *)
Definition frexp_r (S : Semantics) (x : Float) (round : Round) : outcome (Float * Z) :=
  let! e := ilogb S x in
  if e =? IEK_NAN then
    let! '(_, x) := result_from_nan S x in Ret (x, e)
  else if e =? IEK_INF then Ret (x, e)
  else
    let! e := (if e =? IEK_ZERO then Ret 0 else chk32 (e + 1)) in
    let! n := chk32 (- e) in
    let! r := scalbn_r S x n round in
    Ret (r, e).

(** ** Remainders *)

(** src/ieee.rs:1382-1398, the loop of [c_fmod].  Each iteration lowers
    [self.ilogb()], so [c_fmod] starts it with as much fuel as the format has
    exponents (including subnormal ones). *)
Fixpoint c_fmod_loop (fuel : nat) (S : Semantics) (x y : Float) : outcome Float :=
  match fuel with
  | O => Diverge
  | Datatypes.S fuel =>
    let! go :=
      (if is_finite_non_zero x && is_finite_non_zero y then
         let! c := cmp_abs_normal x y in
         Ret (negb (ord_eqb c Lt))
       else Ret false) in
    if go then
      let! ex := ilogb S x in
      let! ey := ilogb S y in
      let! e := chk32 (ex - ey) in
      let! v := scalbn S y e in
      let! lower :=
        (if is_nan v then Ret true
         else let! c := cmp_abs_normal x v in Ret (ord_eqb c Lt)) in
      let! v :=
        (if lower then let! e1 := chk32 (e - 1) in scalbn S y e1 else Ret v) in
      let v := copy_sign v x in
      let! '(status, x) := sub_r S x v NearestTiesToEven in
      assertb (status =? OK) (c_fmod_loop fuel S x y)
    else Ret x
  end.
Definition c_fmod_fuel (S : Semantics) : nat :=
  Z.to_nat (MAX_EXP S - MIN_EXP S + PRECISION S + 2).
(** src/ieee.rs:1371-1407 [c_fmod] *)
Definition c_fmod (S : Semantics) (x y : Float) : outcome (Z * Float) :=
  match category x, category y with
  | NaN, _ | _, NaN => binop_result_from_either_nan S x y
  | Infinity, _ | _, Zero => Ret (INVALID_OP, NAN S)
  | Zero, _ | _, Infinity => Ret (OK, x)
  | Normal, Normal =>
    let! r := c_fmod_loop (c_fmod_fuel S) S x y in
    Ret (OK, if is_zero r then copy_sign r x else r)
  end.

(** src/ieee.rs:1338-1350, the closure [lossless_2x] *)
Definition lossless_2x (S : Semantics) (x : Float) : outcome Float :=
  let! e := chk32 (exp x + 1) in
  let x := set_sig_exp x (sig x) e in
  if MAX_EXP S <=? exp x then Ret x
  else
    let! '(status, x) := normalize S x NearestTiesToEven ExactlyZero in
    assertb (status =? OK) (Ret x).
(** src/ieee.rs:1268-1369 [ieee_rem] *)
Definition ieee_rem (S : Semantics) (x y : Float) : outcome (Z * Float) :=
  match category x, category y with
  | NaN, _ | _, NaN => binop_result_from_either_nan S x y
  | Infinity, _ | _, Zero => Ret (INVALID_OP, NAN S)
  | Zero, _ | _, Infinity => Ret (OK, x)
  | Normal, Normal =>
    let orig := x in
    let p := y in
    let! '(status, p2) := add_r S p p NearestTiesToEven in
    let! x :=
      (if status =? OK then
         let! '(status, x) := c_fmod S x p2 in
         assertb (status =? OK) (Ret x)
       else Ret x) in
    let p := abs p in
    let x := abs x in
    let! x2 := lossless_2x S x in
    let! b := gt_f x2 p in
    let! x :=
      (if b then
         let! '(status, x) := sub_r S x p NearestTiesToEven in
         assertb (status =? OK) (
         let! x2 := lossless_2x S x in
         let! b := ge_f x2 p in
         if b then
           let! '(status, x) := sub_r S x p NearestTiesToEven in
           assertb (status =? OK) (Ret x)
         else Ret x)
       else Ret x) in
    if is_zero x then Ret (OK, copy_sign x orig)
    else Ret (OK, negate_if x (is_negative orig))
  end.

(** ** Integers *)

(** src/ieee.rs:1571-1580 [from_u128_r] *)
Definition from_u128_r (S : Semantics) (input : Z) (round : Round) : outcome (Z * Float) :=
  normalize S (mkFloat input (PRECISION S - 1) Normal false) round ExactlyZero.
(** src/lib.rs:356-358 [from_u128] *)
Definition from_u128 (S : Semantics) (input : Z) : outcome (Z * Float) :=
  from_u128_r S input NearestTiesToEven.
(** src/lib.rs:345-351 [from_i128_r]; [input.wrapping_neg() as u128] *)
Definition from_i128_r (S : Semantics) (input : Z) (round : Round) : outcome (Z * Float) :=
  if input <? 0 then
    let! '(status, r) := from_u128_r S (wrap128 (- input)) (round_neg round) in
    Ret (status, neg r)
  else from_u128_r S input round.

(** src/ieee.rs:1677-1757 [to_u128_r]; returns the status, the integer and
    [*is_exact]. *)
Definition to_u128_r (S : Semantics) (x : Float) (width : Z) (round : Round)
  : outcome (Z * Z * bool) :=
  let! overflow :=
    (if is_negative x then Ret 0
     else
       let! n := usub 128 width in
       shr128 (not128 0) n) in
  match category x with
  | NaN => Ret (INVALID_OP, 0, false)
  | Infinity => Ret (INVALID_OP, overflow, false)
  | Zero => Ret (OK, 0, negb (is_negative x))
  | Normal =>
    (* Step 1 *)
    let step2 (r truncated_bits : Z) : outcome (Z * Z * bool) :=
      let! '(r, loss, overflowed) :=
        (if 0 <? truncated_bits then
           let! loss := through_truncation [sig x] truncated_bits in
           let! away :=
             (if negb (loss_eqb loss ExactlyZero) then
                round_away_from_zero x round loss truncated_bits
              else Ret false) in
           if away then
             let r := wrap128 (r + 1) in
             Ret (r, loss, r =? 0)
           else Ret (r, loss, false)
         else Ret (r, ExactlyZero, false)) in
      if overflowed then Ret (INVALID_OP, overflow, false)
      (* Step 3 *)
      else if overflow <? r then Ret (INVALID_OP, overflow, false)
      else if loss_eqb loss ExactlyZero then Ret (OK, r, true)
      else Ret (INEXACT, r, false) in
    if exp x <? 0 then
      let! ne := chk32 (- exp x) in
      step2 0 (PRECISION S - 1 + ne)
    else
      let bits := exp x + 1 in
      if width <? bits then Ret (INVALID_OP, overflow, false)
      else if bits <? PRECISION S then
        let! r := shr128 (sig x) (PRECISION S - bits) in
        step2 r (PRECISION S - bits)
      else
        let! r := shl128 (sig x) (bits - PRECISION S) in
        step2 r 0
  end.

(** [x as i128] for a u128 [x] *)
Definition as_i128 (x : Z) : Z := if x <? 2 ^ 127 then x else x - 2 ^ 128.

(** src/lib.rs:377-401 [to_i128_r]; the assignment of lines 380-383 is
    overwritten by [to_u128_r], which always assigns [*is_exact]. *)
Definition to_i128_r (S : Semantics) (x : Float) (width : Z) (round : Round)
  : outcome (Z * Z * bool) :=
  if is_negative x then
    let! '(status, r, is_exact) := to_u128_r S (neg x) width (round_neg round) in
    let! w1 := usub width 1 in
    let! lim := shl128 1 w1 in
    if lim <? r then Ret (INVALID_OP, - 2 ^ w1, false)
    else Ret (status, as_i128 (wrap128 (- r)), is_exact)
  else
    let! w1 := usub width 1 in
    let! '(status, r, is_exact) := to_u128_r S x w1 round in
    Ret (status, as_i128 r, is_exact).

(** src/ieee.rs:1409-1460 [round_to_integral] *)
Definition round_to_integral (S : Semantics) (x : Float) (round : Round) : outcome (Z * Float) :=
  match category x with
  | NaN => result_from_nan S x
  | Infinity => Ret (OK, x)
  | Zero => Ret (OK, x)
  | Normal =>
    let! e1 := chk32 (exp x + 1) in
    if PRECISION S <=? e1 then Ret (OK, x)
    else
      assertb (PRECISION S <=? 128) (
      let! '(status, magic_const) := from_u128 S (2 ^ (PRECISION S - 1)) in
      assertb (status =? OK) (
      let magic_const := copy_sign magic_const x in
      let! '(status, r) := add_r S x magic_const round in
      let! '(_, r) := sub_r S r magic_const round in
      Ret (status, copy_sign r x)))
  end.
(** src/lib.rs:568-574 [is_integer] *)
Definition is_integer (S : Semantics) (x : Float) : outcome bool :=
  if negb (is_finite x) then Ret false
  else
    let! '(_, r) := round_to_integral S x TowardZero in
    Ret (bitwise_eq r x).

(** ** Neighbours *)

(** src/ieee.rs:1462-1564 [next_up] *)
Definition next_up (S : Semantics) (x : Float) : outcome (Z * Float) :=
  match category x with
  | Infinity => if is_negative x then Ret (OK, neg (largest S)) else Ret (OK, x)
  | NaN =>
    if is_signaling S x then Ret (INVALID_OP, copy_sign (NAN S) x) else Ret (OK, x)
  | Zero => Ret (OK, SMALLEST S)
  | Normal =>
    if is_smallest S x && is_negative x then Ret (OK, neg (ZERO S))
    else if is_largest S x && negb (is_negative x) then Ret (OK, INFINITY S)
    else
      let sig_mask := 2 ^ (PRECISION S - 1) - 1 in
      if is_negative x then
        let crossing := negb (exp x =? MIN_EXP S) && (Z.land (sig x) sig_mask =? 0) in
        let '(l, _) := decrement [sig x] in
        if crossing then
          let! l := set_bit l (PRECISION S - 1) in
          let! s0 := get l 0 in
          let! e := chk32 (exp x - 1) in
          Ret (OK, set_sig_exp x s0 e)
        else
          let! s0 := get l 0 in
          Ret (OK, set_sig_exp x s0 (exp x))
      else
        let! d := is_denormal S x in
        let crossing := negb d && (Z.land (sig x) sig_mask =? sig_mask) in
        if crossing then
          let! l := set_bit [0] (PRECISION S - 1) in
          let! s0 := get l 0 in
          assertb (negb (exp x =? MAX_EXP S)) (
          let! e := chk32 (exp x + 1) in
          Ret (OK, set_sig_exp x s0 e))
        else
          let '(l, _) := increment [sig x] in
          let! s0 := get l 0 in
          Ret (OK, set_sig_exp x s0 (exp x))
  end.
(** src/lib.rs:324-326 [next_down] *)
Definition next_down (S : Semantics) (x : Float) : outcome (Z * Float) :=
  let! '(status, r) := next_up S (neg x) in
  Ret (status, neg r).

(** src/ieee.rs:1801-1831 [get_exact_inverse] *)
Definition get_exact_inverse (S : Semantics) (x : Float) : outcome (option Float) :=
  if negb (is_finite_non_zero x) then Ret None
  else if negb (sig x =? 2 ^ (PRECISION S - 1)) then Ret None
  else
    let! '(_, one) := from_u128 S 1 in
    let! '(status, reciprocal) := div_r S one x NearestTiesToEven in
    if negb (status =? OK) then Ret None
    else
      let! d := is_denormal S reciprocal in
      if d then Ret None
      else
        assertb (is_finite_non_zero reciprocal) (
        assertb (sig reciprocal =? 2 ^ (PRECISION S - 1)) (Ret (Some reciprocal))).

(** ** Format conversion *)

(** src/ieee.rs:1904-1906 *)
Definition is_x87_double_extended (S : Semantics) : bool :=
  QNAN_SIGNIFICAND S =? X87_QNAN_SIGNIFICAND.

(** src/ieee.rs:1931-1948, the choice of the shift and of the exponent for a
    truncation of a finite non-zero number *)
Definition convert_adjust (S T : Semantics) (x : Float) : outcome (Z * Z) :=
  let shift := PRECISION T - PRECISION S in
  if (shift <? 0) && is_finite_non_zero x then
    let omsb := as_i32 (Sig.omsb [sig x]) in
    let exp_change := omsb - PRECISION S in
    let! e1 := chk32 (exp x + exp_change) in
    let! exp_change :=
      (if e1 <? MIN_EXP T then chk32 (MIN_EXP T - exp x) else Ret exp_change) in
    let exp_change := if exp_change <? shift then shift else exp_change in
    if exp_change <? 0 then
      let! e := chk32 (exp x + exp_change) in
      Ret (shift - exp_change, e)
    else if omsb <=? - shift then
      let exp_change := omsb + shift - 1 in
      let! e := chk32 (exp x + exp_change) in
      Ret (shift - exp_change, e)
    else Ret (shift, exp x)
  else Ret (shift, exp x).

(** src/ieee.rs:1897-1997 [convert_r]; returns status, value and [*loses_info]. *)
Definition convert_r (S T : Semantics) (x : Float) (round : Round) : outcome (Z * Float * bool) :=
  let loses_x87_pseudo_nan :=
    is_x87_double_extended S && negb (is_x87_double_extended T)
    && category_eqb (category x) NaN
    && negb (Z.land (sig x) (QNAN_SIGNIFICAND S) =? QNAN_SIGNIFICAND S) in
  let! '(status, x) := (if is_nan x then result_from_nan S x else Ret (OK, x)) in
  let! '(shift, e) := convert_adjust S T x in
  let! '(l, loss) :=
    (if (shift <? 0)
        && (is_finite_non_zero x
            || category_eqb (category x) NaN && negb (NAN_PAYLOAD_MASK S =? 0)) then
       let! ns := chk32 (- shift) in
       let! '(l, _, loss) := shift_right [sig x] 0 ns in
       Ret (l, loss)
     else Ret ([sig x], ExactlyZero)) in
  let! l :=
    (if (0 <? shift) && (is_finite_non_zero x || category_eqb (category x) NaN) then
       let! '(l, _) := shift_left l 0 shift in Ret l
     else Ret l) in
  let! s0 := get l 0 in
  let! '(status, r, loses_info) :=
    (match category x with
     | Normal =>
       let! '(st, r) := normalize T (mkFloat s0 e (category x) (is_negative x)) round loss in
       Ret (Z.lor status st, r, false)
     | NaN =>
       Ret (status,
            with_sign (qnan T (Some s0)) (is_negative x),
            negb (loss_eqb loss ExactlyZero) || loses_x87_pseudo_nan
            || negb (NAN_PAYLOAD_MASK S =? 0) && (NAN_PAYLOAD_MASK T =? 0))
     | Infinity => Ret (status, with_sign (INFINITY T) (is_negative x), false)
     | Zero => Ret (status, with_sign (ZERO T) (is_negative x), false)
     end) in
  let status :=
    if (category_eqb (category x) Infinity || category_eqb (category x) Zero)
       && (negb (category_eqb (category r) (category x)) || xorb (is_negative r) (is_negative x))
    then Z.lor status INEXACT else status in
  let loses_info := loses_info || negb (Z.ldiff status INVALID_OP =? OK) in
  Ret (status, r, loses_info).
