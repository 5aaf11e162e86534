(** * SpecPair.v -- what pairs of floats (src/ppc.rs) are supposed to denote.

    A pair stands for the sum of its halves.  From the model only the data
    types are used. *)
From Coq Require Import ZArith Reals Bool.
From Flocq Require Import Core.
From Verif Require Import Machine Ieee Ppc Spec.
Local Open Scope Z_scope.

(** formats whose pairs the theorems speak about: the double-width format fits
    in a limb and contains the integers of its precision *)
Record pair_ok (F : Semantics) : Prop := {
  pok_half : sem_ok F;
  pok_ieee : NONFINITE_BEHAVIOR F = IEEE754;
  pok_x87 : X87 F = false;
  pok_prec : PRECISION F <= 63;
  pok_min : MIN_EXP F + PRECISION F <= -2;
  pok_max : 2 * PRECISION F <= MAX_EXP F
}.

Definition pair_wf (F : Semantics) (x : DFloat) : Prop := wf F (d0 x) /\ wf F (d1 x).
Definition pair_finite (x : DFloat) : Prop := finite (d0 x) /\ finite (d1 x).
Definition pair_value (F : Semantics) (x : DFloat) : R := (value F (d0 x) + value F (d1 x))%R.

(** the pairs the format is meant to hold: the high half is the sum, rounded *)
Definition canonical_pair (F : Semantics) (x : DFloat) : Prop :=
  pair_wf F x /\ pair_finite x /\ value F (d0 x) = rounded F NearestTiesToEven (pair_value F x).

(** [r] holds the number [v]: exactly, and in canonical form *)
Definition splits (F : Semantics) (v : R) (r : DFloat) : Prop :=
  canonical_pair F r /\ pair_value F r = v.

(** the double-width number [f], as a pair; a NaN keeps its sign and the
    leading bits of its payload *)
Definition split_of (F : Semantics) (f : Float) (r : DFloat) : Prop :=
  sign (d0 r) = sign f /\
  match category f with
  | Infinity => is_special F Infinity (sign f) (d0 r) /\ is_special F Zero false (d1 r)
  | NaN => default_nan F (d0 r) /\ is_special F Zero false (d1 r) /\
           sig (d0 r) mod 2 ^ (PRECISION F - 1) = Z.shiftr (sig f) (PRECISION F) mod 2 ^ (PRECISION F - 1)
  | _ => splits F (value (FallbackS F) f) r
  end.
(** numbers whose high half would overflow, and signaling NaNs, cannot be split *)
Definition splittable (F : Semantics) (f : Float) : Prop :=
  match category f with
  | Infinity => True
  | NaN => signaling (FallbackS F) f = false
  | _ => (Rabs (rounded F NearestTiesToEven (value (FallbackS F) f)) <= max_finite F)%R
  end.

(** [o] is the double-width result described by [spec], split into a pair; it
    is a panic if that cannot be split *)
Definition via_wide (F : Semantics) (spec : Z -> Float -> Prop) (o : outcome (Z * DFloat)) : Prop :=
  exists st f, wf (FallbackS F) f /\ spec st f /\
    (splittable F f -> exists r, o = Ret (st, r) /\ split_of F f r) /\
    (~ splittable F f -> o = Panic).

(** the operand, rounded to the double width *)
Definition operand (F : Semantics) (x : DFloat) : R := rounded (FallbackS F) NearestTiesToEven (pair_value F x).

(** the pairs that have a double-width counterpart: quiet NaNs, infinities,
    canonical numbers; and that counterpart *)
Definition readable (F : Semantics) (x : DFloat) : Prop :=
  match category (d0 x) with
  | Infinity => True
  | NaN => wf F (d0 x) /\ signaling F (d0 x) = false
  | _ => canonical_pair F x
  end.
Definition widened (F : Semantics) (x : DFloat) (w : Float) : Prop :=
  wf (FallbackS F) w /\ sign w = sign (d0 x) /\
  match category (d0 x) with
  | Infinity => category w = Infinity
  | NaN => category w = NaN /\ signaling (FallbackS F) w = false /\ sig w = Z.shiftl (sig (d0 x)) (PRECISION F)
  | _ => finite w /\ value (FallbackS F) w = operand F x
  end.

(** special pairs; the low half does not count *)
Definition pair_special (F : Semantics) (c : Category) (negative : bool) (r : DFloat) : Prop :=
  is_special F c negative (d0 r) /\ category (d1 r) = Zero.
Definition pair_nan (F : Semantics) (r : DFloat) : Prop := default_nan F (d0 r) /\ category (d1 r) = Zero.
(** the same NaN *)
Definition pair_same_nan (x r : DFloat) : Prop :=
  category (d0 r) = NaN /\ sign (d0 r) = sign (d0 x) /\ sig (d0 r) = sig (d0 x) /\ category (d1 r) = Zero.
Definition first_nan_pair (x y : DFloat) : DFloat := match category (d0 x) with NaN => x | _ => y end.

(** [fma_safe], in terms of the double-width operands *)
Definition pair_fma_safe (F : Semantics) (x y z : DFloat) : Prop :=
  let S := FallbackS F in
  xorb (sign (d0 x)) (sign (d0 y)) = sign (d0 z) \/ category (d0 z) = Zero \/
  (min_normal S <= Rabs (operand F z))%R \/
  (min_normal S <= Rabs (operand F x * operand F y))%R \/
  (Rabs (operand F x * operand F y) + min_positive S <= Rabs (operand F z))%R \/
  (exists k, (operand F x * operand F y = IZR k * bpow r2 (MIN_EXP S - 2 * PRECISION S))%R).

(** numbers and infinities, as [ext_of] *)
Definition pair_ext (F : Semantics) (x : DFloat) : option extended :=
  match category (d0 x) with
  | NaN => None
  | Infinity => Some (if sign (d0 x) then NegInf else PosInf)
  | _ => Some (Fin (operand F x))
  end.

(** the number a pair stands for, exactly; NaNs have none *)
Definition pair_number (F : Semantics) (x : DFloat) : option extended :=
  match category (d0 x) with
  | NaN => None
  | Infinity => Some (if sign (d0 x) then NegInf else PosInf)
  | _ => Some (Fin (pair_value F x))
  end.
(** canonical pairs, and special values with an empty low half *)
Definition proper_pair (F : Semantics) (x : DFloat) : Prop :=
  pair_wf F x /\
  match category (d0 x) with
  | NaN | Infinity => category (d1 x) = Zero
  | _ => canonical_pair F x
  end.

(** the category of a product with a special factor (the diagram in
    src/ppc.rs:277-291) *)
Definition product_category (a b : Category) : Category :=
  match a, b with
  | NaN, _ | _, NaN | Zero, Infinity | Infinity, Zero => NaN
  | Zero, _ | _, Zero => Zero
  | Infinity, _ | _, Infinity => Infinity
  | Normal, Normal => Normal
  end.

(** [n] with status [st] is the conversion of [x] to the integers from [lo] to [hi] *)
Definition pair_to_int (F : Semantics) (x : DFloat) (m : Round) (lo hi st n : Z) : Prop :=
  match category (d0 x) with
  | NaN => st = INVALID_OP /\ n = 0
  | Infinity => st = INVALID_OP /\ n = (if sign (d0 x) then lo else hi)
  | _ =>
    let k := rnd_of m (operand F x) in
    (k < lo -> st = INVALID_OP /\ n = lo) /\
    (hi < k -> st = INVALID_OP /\ n = hi) /\
    (lo <= k <= hi -> n = k /\ (IZR k = operand F x -> st = OK) /\ (IZR k <> operand F x -> st = INEXACT))
  end.
