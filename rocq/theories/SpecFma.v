(** * SpecFma.v -- what the crate's fused multiply-add rounds

    IEEE 754 asks for the rounding of [x * y + z].  The crate rounds another
    number if a subnormal addend and a product below the normal range, of
    different signs, meet: the addend is not normalized first, so the product is
    cut off at a fixed place although it may be the larger of the two.  Nothing
    here mentions the code. *)
From Coq Require Import ZArith Reals.
From Flocq Require Import Core.
From Verif Require Import Machine Ieee Spec.
Local Open Scope Z_scope.

(** the place where the product is cut off *)
Definition fma_unit (S : Semantics) : R := bpow r2 (MIN_EXP S - 2 * PRECISION S).
Definition cut_down (S : Semantics) (p : R) : R := IZR (Zfloor (p / fma_unit S)) * fma_unit S.
(** the operands for which digits of the product are lost *)
Definition product_cut (S : Semantics) (x y z : Float) : Prop :=
  xorb (sign x) (sign y) <> sign z /\ value S z <> 0%R /\
  (Rabs (value S z) < min_normal S)%R /\ (Rabs (value S x * value S y) < min_normal S)%R /\
  cut_down S (Rabs (value S x * value S y)) <> Rabs (value S x * value S y).
(** The difference of the product [p] and the addend [a] (absolute values).  If the
    product is the larger one its lost digits are subtracted instead of added. *)
Definition fma_difference (S : Semantics) (p a : R) : R :=
  if Rlt_bool p a then (a - p)%R else (cut_down S p - (p - cut_down S p) - a)%R.
(** What is rounded for such operands: the difference; but if that has no digit
    before the cut, it is taken for a fraction of the smallest positive number. *)
Definition fma_seen (S : Semantics) (x y z : Float) : R :=
  let p := Rabs (value S x * value S y) in
  let a := Rabs (value S z) in
  let w := fma_difference S p a in
  let w := if Rlt_bool w (fma_unit S) then (w / fma_unit S * min_positive S)%R else w in
  if (if Rlt_bool p a then sign z else xorb (sign x) (sign y)) then (- w)%R else w.
