(** * PropsOpsPair.v -- C47, C48, C53, C54 for the rest of DoubleFloat's interface *)
From Coq Require Import ZArith Reals List Bool String.
From Flocq Require Import Core.
From Verif Require Import Machine Ieee Parse Ppc Fmt Ops OpsPair Spec SpecFma SpecStr SpecPair OpsSpec OpsPairSpec Samples PairSamples.
Import ListNotations.
Local Open Scope string_scope.
Local Open Scope list_scope.
Local Open Scope Z_scope.

(** C47: the operators [<=], [>], [>=]; all false on NaNs *)
Theorem C47_le : forall F, pair_ok F -> forall x y, proper_pair F x -> proper_pair F y ->
  exists b, dd_le x y = Ret b /\
    (b = true <-> exists a c, pair_number F x = Some a /\ pair_number F y = Some c /\ ext_le a c).
Proof. exact dd_le_spec. Qed.
Print Assumptions C47_le.

Theorem C47_gt : forall F, pair_ok F -> forall x y, proper_pair F x -> proper_pair F y ->
  exists b, dd_gt x y = Ret b /\
    (b = true <-> exists a c, pair_number F x = Some a /\ pair_number F y = Some c /\ ext_lt c a).
Proof. exact dd_gt_spec. Qed.
Print Assumptions C47_gt.

Theorem C47_ge : forall F, pair_ok F -> forall x y, proper_pair F x -> proper_pair F y ->
  exists b, dd_ge x y = Ret b /\
    (b = true <-> exists a c, pair_number F x = Some a /\ pair_number F y = Some c /\ ext_le c a).
Proof. exact dd_ge_spec. Qed.
Print Assumptions C47_ge.
Example C47_operators_example : proper_pair DoubleS p_below /\ proper_pair DoubleS p_above /\ proper_pair DoubleS p_qnan /\
  dd_le p_below p_above = Ret true /\ dd_gt p_below p_above = Ret false /\ dd_ge p_below p_below = Ret true /\ dd_le p_above p_below = Ret false /\
  dd_le p_qnan p_qnan = Ret false /\ dd_ge p_inf p_above = Ret true.
Proof.
  split; [apply canonical_proper, p_below_canonical|]. split; [apply canonical_proper, p_above_canonical|]. split; [exact p_qnan_proper|].
  vm_compute. repeat split.
Qed.

(** C48: classification *)
Theorem C48_predicates : forall F, pair_ok F -> forall x, proper_pair F x ->
  (dd_is_nan x = true <-> pair_number F x = None) /\
  (dd_is_infinite x = true <-> pair_number F x = Some PosInf \/ pair_number F x = Some NegInf) /\
  (dd_is_pos_infinity x = true <-> pair_number F x = Some PosInf) /\
  (dd_is_neg_infinity x = true <-> pair_number F x = Some NegInf) /\
  (dd_is_finite x = true <-> exists r, pair_number F x = Some (Fin r)) /\
  (dd_is_zero x = true <-> pair_number F x = Some (Fin 0)) /\
  (dd_is_non_zero x = true <-> pair_number F x <> Some (Fin 0)) /\
  (dd_is_finite_non_zero x = true <-> exists r, pair_number F x = Some (Fin r) /\ r <> 0%R) /\
  (dd_is_pos_zero x = true <-> pair_number F x = Some (Fin 0) /\ sign (d0 x) = false) /\
  (dd_is_neg_zero x = true <-> pair_number F x = Some (Fin 0) /\ sign (d0 x) = true).
Proof. exact dd_predicates. Qed.
Print Assumptions C48_predicates.

(** a canonical pair is normal if its high half is *)
Theorem C48_is_normal : forall F, pair_ok F -> forall x, pair_wf F x -> pair_finite x ->
  exists b, dd_is_normal F x = Ret b /\
    (b = true <-> category (d0 x) = Normal /\ (min_normal F <= Rabs (value F (d0 x)))%R /\ canonical_pair F x).
Proof. exact dd_is_normal_spec. Qed.
Print Assumptions C48_is_normal.

Theorem C48_is_normal_special : forall F x, ~ finite (d0 x) -> dd_is_normal F x = Ret false.
Proof. exact dd_is_normal_special. Qed.
Print Assumptions C48_is_normal_special.
Example C48_predicates_example : proper_pair DoubleS p_inf /\ dd_is_infinite p_inf = true /\ dd_is_finite p_inf = false /\ dd_is_neg_infinity p_inf = false /\
  proper_pair DoubleS p_above /\ dd_is_finite_non_zero p_above = true /\ dd_is_normal DoubleS p_above = Ret true /\ dd_is_normal DoubleS p_zero = Ret false /\
  dd_is_normal DoubleS (mkDF (d0 p_one) (d0 p_one)) = Ret false /\ dd_is_normal DoubleS (dd_SMALLEST DoubleS) = Ret false /\ dd_is_pos_zero p_zero = true.
Proof.
  split; [exact p_inf_proper|]. do 3 (split; [reflexivity|]). split; [apply canonical_proper, p_above_canonical|]. vm_compute. repeat split.
Qed.

(** C53: the methods that fix the rounding mode.  Missing: [mul_add] where the product is cut (C46_mul_add_any says what happens) *)
Theorem C53_pair_mul_add_partial : forall F, pair_ok F -> forall x y z, canonical_pair F x -> canonical_pair F y -> canonical_pair F z ->
  exists u v w, widened F x u /\ widened F y v /\ widened F z w /\
    (~ product_cut (FallbackS F) u v w ->
       via_wide F (fun st f => correctly_rounded (FallbackS F) nearest (operand F x * operand F y + operand F z)
           (fma_zero_sign (xorb (sign (d0 x)) (sign (d0 y))) (d0 z) nearest) (st, f)) (dd_mul_add F x y z)).
Proof. exact dd_mul_add_spec. Qed.
Print Assumptions C53_pair_mul_add_partial.

Theorem C53_pair_from_i128 : forall F, pair_ok F -> forall n, - 2 ^ 127 <= n < 2 ^ 127 ->
  via_wide F (fun st f => correctly_rounded (FallbackS F) nearest (IZR n) false (st, f)) (dd_from_i128 F n).
Proof. exact dd_from_i128_spec. Qed.
Print Assumptions C53_pair_from_i128.

Theorem C53_pair_from_u128 : forall F, pair_ok F -> forall n, 0 <= n < 2 ^ 128 ->
  via_wide F (fun st f => correctly_rounded (FallbackS F) nearest (IZR n) false (st, f)) (dd_from_u128 F n).
Proof. exact dd_from_u128_spec. Qed.
Print Assumptions C53_pair_from_u128.

Theorem C53_pair_to_u128 : forall F, pair_ok F -> forall x w, readable F x -> 1 <= w <= 128 ->
  exists st n, dd_to_u128 F x w = Ret (st, n) /\ pair_to_int F x TowardZero 0 (2 ^ w - 1) st n.
Proof. exact dd_to_u128_spec. Qed.
Print Assumptions C53_pair_to_u128.

(** missing: width 0 and, for positive operands, 1 *)
Theorem C53_pair_to_i128_partial : forall F, pair_ok F -> forall x w, readable F x -> (if sign (d0 x) then 1 else 2) <= w <= 128 ->
  exists st n, dd_to_i128 F x w = Ret (st, n) /\ pair_to_int F x TowardZero (- 2 ^ (w - 1)) (2 ^ (w - 1) - 1) st n.
Proof. exact dd_to_i128_spec. Qed.
Print Assumptions C53_pair_to_i128_partial.

Theorem C53_pair_scalbn : forall F, pair_ok F -> forall x n, pair_wf F x -> pair_finite x ->
  exists r st0 st1, dd_scalbn F x n = Ret r /\
    correctly_rounded F nearest (value F (d0 x) * bpow r2 n) (sign (d0 x)) (st0, d0 r) /\
    correctly_rounded F nearest (value F (d1 x) * bpow r2 n) (sign (d1 x)) (st1, d1 r).
Proof. exact dd_scalbn_spec. Qed.
Print Assumptions C53_pair_scalbn.

Theorem C53_pair_frexp : forall F, pair_ok F -> forall x, pair_wf F x -> category (d0 x) = Normal -> finite (d1 x) ->
  exists r e st, dd_frexp F x = Ret (r, e) /\ wf F (d0 r) /\ finite (d0 r) /\
    value F (d0 x) = (value F (d0 r) * bpow r2 e)%R /\ (/ 2 <= Rabs (value F (d0 r)) < 1)%R /\
    correctly_rounded F nearest (value F (d1 x) * bpow r2 (- e)) (sign (d1 x)) (st, d1 r).
Proof. exact dd_frexp_spec. Qed.
Print Assumptions C53_pair_frexp.
(** 3 * 3 - 1; 2^127 + 1; 2^128 - 1 is rounded up; 1 + 2^-60; -1 *)
Example C53_pair_example : dd_mul_add DoubleS p_three p_three p_neg = Ret (OK, mkDF (mkFloat (2 ^ 52) 3 Normal false) (mkFloat 0 (-1023) Zero false)) /\
  dd_from_u128 DoubleS (2 ^ 127 + 1) = Ret (INEXACT, mkDF (mkFloat (2 ^ 52) 127 Normal false) (mkFloat 0 (-1023) Zero false)) /\
  dd_from_i128 DoubleS (2 ^ 100 - 1) = Ret (OK, mkDF (mkFloat (2 ^ 52) 100 Normal false) (mkFloat (2 ^ 52) 0 Normal true)) /\
  dd_from_i128 DoubleS (- 2 ^ 127) = Ret (OK, mkDF (mkFloat (2 ^ 52) 127 Normal true) (mkFloat 0 (-1023) Zero false)) /\
  dd_to_u128 DoubleS p_above 8 = Ret (INEXACT, 1) /\ dd_to_i128 DoubleS p_neg 8 = Ret (OK, -1) /\
  dd_scalbn DoubleS p_one 3 = Ret (mkDF (mkFloat (2 ^ 52) 3 Normal false) (mkFloat 0 (-1020) Zero false)) /\
  dd_frexp DoubleS p_three = Ret (mkDF (mkFloat (3 * 2 ^ 51) (-1) Normal false) (mkFloat 0 (-1025) Zero false), 2).
Proof. vm_compute. repeat split. Qed.

(** C53: compound assignment; sums, and products over the whole range: PropsOpsPairTop.v *)
Theorem C53_pair_mul_assign_relative : forall F, pair_ok F -> 4 <= PRECISION F -> forall x y, canonical_pair F x -> canonical_pair F y ->
  (bpow r2 (MIN_EXP F + 2 * PRECISION F + 1) <= Rabs (value F (d0 x) * value F (d0 y)) <= bpow r2 (MAX_EXP F - 4))%R ->
  exists r, dd_mul_assign F x y = Ret r /\ canonical_pair F r /\
    (Rabs (pair_value F r - pair_value F x * pair_value F y) <= bpow r2 (4 - 2 * PRECISION F) * Rabs (pair_value F x * pair_value F y))%R.
Proof. exact dd_mul_assign_spec. Qed.
Print Assumptions C53_pair_mul_assign_relative.

Theorem C53_pair_div_assign : forall F, pair_ok F -> forall x y, canonical_pair F x -> canonical_pair F y -> operand F y <> 0%R ->
  exists st f, wf (FallbackS F) f /\ correctly_rounded (FallbackS F) nearest (operand F x / operand F y) (xorb (sign (d0 x)) (sign (d0 y))) (st, f) /\
    (splittable F f -> exists r, dd_div_assign F x y = Ret r /\ split_of F f r) /\
    (~ splittable F f -> dd_div_assign F x y = Panic).
Proof. exact dd_div_assign_spec. Qed.
Print Assumptions C53_pair_div_assign.

Theorem C53_pair_rem_assign : forall F, pair_ok F -> forall x y, canonical_pair F x -> canonical_pair F y -> operand F y <> 0%R ->
  exists f, wf (FallbackS F) f /\ (finite f /\ sign f = sign (d0 x) /\
      value (FallbackS F) f = (operand F x - IZR (Ztrunc (operand F x / operand F y)) * operand F y)%R /\
      (Rabs (value (FallbackS F) f) < Rabs (operand F y))%R) /\
    (splittable F f -> exists r, dd_rem_assign F x y = Ret r /\ split_of F f r) /\
    (~ splittable F f -> dd_rem_assign F x y = Panic).
Proof. exact dd_rem_assign_spec. Qed.
Print Assumptions C53_pair_rem_assign.
Example C53_pair_assign_example : canonical_pair DoubleS p_three /\ canonical_pair DoubleS p_one /\
  dd_add_assign DoubleS p_three p_one = Ret (mkDF (mkFloat (2 ^ 52) 2 Normal false) (mkFloat 0 (-1023) Zero false)) /\
  dd_sub_assign DoubleS p_three p_one = Ret (mkDF (mkFloat (2 ^ 52) 1 Normal false) (mkFloat 0 (-1023) Zero false)) /\
  dd_rem_assign DoubleS p_three p_one = Ret p_zero /\ dd_div_assign DoubleS p_one p_three = Ret p_third.
Proof. split; [exact p_three_canonical|]. split; [exact p_one_canonical|]. vm_compute. repeat split. Qed.

(** C54: both halves, each as the value it is; no two pairs have the same text *)
Theorem C54_pair_debug : forall F x, sem_ok F -> pair_wf F x ->
  exists a b, debug F (d0 x) = Ret a /\ debug F (d1 x) = Ret b /\ dd_debug F x = Ret (bytes "DoubleFloat(" ++ a ++ bytes ", " ++ b ++ bytes ")") /\
    forall y, pair_wf F y -> dd_debug F y = dd_debug F x -> x = y.
Proof. exact dd_debug_spec. Qed.
Print Assumptions C54_pair_debug.
Example C54_pair_example : pair_wf DoubleS p_neg /\
  dd_debug DoubleS p_neg = Ret (bytes "DoubleFloat(-1(Normal | -[4503599627370496] * 2^0), 0(Zero | +[0] * 2^-1023))").
Proof. split; [split; sample_wf|]. vm_compute. reflexivity. Qed.
