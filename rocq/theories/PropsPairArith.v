(** * PropsPairArith.v -- sums and products of pairs: C51 and C52 *)
From Coq Require Import ZArith Reals List Bool.
From Flocq Require Import Core.
From Verif Require Import Machine Ieee Ppc Spec Samples SpecPair PairBase PairSamples PairAdd PairMul PairMulRefute.
Local Open Scope Z_scope.

(** ** C51

    [pair_value F x] is the sum of the halves [d0 x] and [d1 x]; the pair is
    canonical if its high half is that sum, rounded. *)
Theorem C51_sum : forall F, pair_ok F -> 4 <= PRECISION F -> forall m, m = NearestTiesToEven \/ m = NearestTiesToAway ->
  forall x y, canonical_pair F x -> canonical_pair F y ->
  (Rabs (value F (d0 x)) + Rabs (value F (d0 y)) <= bpow r2 (MAX_EXP F - 4))%R ->
  exists st r, dd_add_r F x y m = Ret (st, r) /\ pair_wf F r /\ pair_finite r /\
    (m = NearestTiesToEven -> canonical_pair F r) /\
    (Rabs (value F (d1 r)) <= bpow r2 (- PRECISION F) * Rabs (value F (d0 r)))%R /\
    (Rabs (pair_value F r - (pair_value F x + pair_value F y)) <=
       bpow r2 (2 - 2 * PRECISION F) * (Rabs (value F (d0 x)) + Rabs (value F (d0 y))))%R.
Proof. exact dd_add_accurate. Qed.
Print Assumptions C51_sum.
Theorem C51_difference : forall F, pair_ok F -> 4 <= PRECISION F -> forall m, m = NearestTiesToEven \/ m = NearestTiesToAway ->
  forall x y, canonical_pair F x -> canonical_pair F y ->
  (Rabs (value F (d0 x)) + Rabs (value F (d0 y)) <= bpow r2 (MAX_EXP F - 4))%R ->
  exists st r, dd_sub_r F x y m = Ret (st, r) /\ pair_wf F r /\ pair_finite r /\
    (m = NearestTiesToEven -> canonical_pair F r) /\
    (Rabs (value F (d1 r)) <= bpow r2 (- PRECISION F) * Rabs (value F (d0 r)))%R /\
    (Rabs (pair_value F r - (pair_value F x - pair_value F y)) <=
       bpow r2 (2 - 2 * PRECISION F) * (Rabs (value F (d0 x)) + Rabs (value F (d0 y))))%R.
Proof. exact dd_sub_accurate. Qed.
Print Assumptions C51_difference.
(** no cancellation: a bound relative to the exact sum *)
Theorem C51_same_sign : forall F, pair_ok F -> 4 <= PRECISION F -> forall m, m = NearestTiesToEven \/ m = NearestTiesToAway ->
  forall x y, canonical_pair F x -> canonical_pair F y ->
  (Rabs (value F (d0 x)) + Rabs (value F (d0 y)) <= bpow r2 (MAX_EXP F - 4))%R -> (0 <= value F (d0 x) * value F (d0 y))%R ->
  exists st r, dd_add_r F x y m = Ret (st, r) /\
    (Rabs (pair_value F r - (pair_value F x + pair_value F y)) <= bpow r2 (3 - 2 * PRECISION F) * Rabs (pair_value F x + pair_value F y))%R.
Proof. exact dd_add_relative. Qed.
Print Assumptions C51_same_sign.
(** sums of two numbers of the half format are exact *)
Theorem C51_exact : forall F, pair_ok F -> 4 <= PRECISION F -> forall m, m = NearestTiesToEven \/ m = NearestTiesToAway ->
  forall x y, canonical_pair F x -> canonical_pair F y -> category (d1 x) = Zero -> category (d1 y) = Zero ->
  (Rabs (value F (d0 x)) + Rabs (value F (d0 y)) <= bpow r2 (MAX_EXP F - 4))%R ->
  exists st r, dd_add_r F x y m = Ret (st, r) /\ pair_wf F r /\ pair_finite r /\
    (m = NearestTiesToEven -> canonical_pair F r) /\ pair_value F r = (pair_value F x + pair_value F y)%R.
Proof. exact dd_add_exact. Qed.
Print Assumptions C51_exact.
(** a number minus itself is +0, in the whole range *)
Theorem C51_self : forall F, pair_ok F -> forall m, m = NearestTiesToEven \/ m = NearestTiesToAway ->
  forall x, canonical_pair F x -> category (d0 x) = Normal ->
  exists r, dd_sub_r F x x m = Ret (OK, r) /\ is_special F Zero false (d0 r) /\ is_special F Zero false (d1 r).
Proof. exact dd_sub_self. Qed.
Print Assumptions C51_self.
(** the error is not small relative to the sum: all of it can be lost *)
Theorem C51_cancellation_refuted : exists x y r, canonical_pair DoubleS x /\ canonical_pair DoubleS y /\
  dd_add_r DoubleS x y NearestTiesToEven = Ret (INEXACT, r) /\ pair_value DoubleS r = 0%R /\ (0 < pair_value DoubleS x + pair_value DoubleS y)%R.
Proof. exact pair_add_cancellation_refuted. Qed.
Print Assumptions C51_cancellation_refuted.
Theorem C51_commutes_refuted : exists x y st r st' r', canonical_pair DoubleS x /\ canonical_pair DoubleS y /\
  dd_add_r DoubleS x y NearestTiesToEven = Ret (st, r) /\ dd_add_r DoubleS y x NearestTiesToEven = Ret (st', r') /\
  pair_value DoubleS r <> pair_value DoubleS r'.
Proof. exact pair_add_commutes_refuted. Qed.
Print Assumptions C51_commutes_refuted.
(** near the largest number a sum of finite pairs can be NaN *)
Theorem C51_top_refuted : exists x y r, canonical_pair DoubleS x /\ canonical_pair DoubleS y /\
  dd_add_r DoubleS x y NearestTiesToEven = Ret (Z.lor INVALID_OP (Z.lor OVERFLOW INEXACT), r) /\ category (d0 r) = NaN /\
  (0 < pair_value DoubleS x + pair_value DoubleS y < value DoubleS (largest DoubleS))%R.
Proof. exact pair_add_top_refuted. Qed.
Print Assumptions C51_top_refuted.
(** 1/3 + (5/4 + 5/4 * 2^-54) *)
Example C51_sample : pair_ok DoubleS /\ canonical_pair DoubleS p_third /\ canonical_pair DoubleS p_five /\
  (Rabs (value DoubleS (d0 p_third)) + Rabs (value DoubleS (d0 p_five)) <= bpow r2 (MAX_EXP DoubleS - 4))%R /\
  dd_add_r DoubleS p_third p_five NearestTiesToEven =
    Ret (INEXACT, mkDF (mkFloat 7130699410003286 0 Normal false) (mkFloat 6380099472108202 (-54) Normal true)).
Proof. exact p_sum_sample. Qed.

(** ** C52 *)
Theorem C52_product : forall F, pair_ok F -> 4 <= PRECISION F -> forall m, m = NearestTiesToEven \/ m = NearestTiesToAway ->
  forall x y, canonical_pair F x -> canonical_pair F y ->
  (bpow r2 (MIN_EXP F + 2 * PRECISION F + 1) <= Rabs (value F (d0 x) * value F (d0 y)) <= bpow r2 (MAX_EXP F - 4))%R ->
  exists st r, dd_mul_r F x y m = Ret (st, r) /\ pair_wf F r /\ pair_finite r /\
    (m = NearestTiesToEven -> canonical_pair F r) /\
    (Rabs (value F (d1 r)) <= bpow r2 (- PRECISION F) * Rabs (value F (d0 r)))%R /\
    (Rabs (pair_value F r - pair_value F x * pair_value F y) <= bpow r2 (3 - 2 * PRECISION F) * Rabs (value F (d0 x) * value F (d0 y)))%R.
Proof. exact dd_mul_accurate. Qed.
Print Assumptions C52_product.
Theorem C52_relative : forall F, pair_ok F -> 4 <= PRECISION F -> forall m, m = NearestTiesToEven \/ m = NearestTiesToAway ->
  forall x y, canonical_pair F x -> canonical_pair F y ->
  (bpow r2 (MIN_EXP F + 2 * PRECISION F + 1) <= Rabs (value F (d0 x) * value F (d0 y)) <= bpow r2 (MAX_EXP F - 4))%R ->
  exists st r, dd_mul_r F x y m = Ret (st, r) /\
    (Rabs (pair_value F r - pair_value F x * pair_value F y) <= bpow r2 (4 - 2 * PRECISION F) * Rabs (pair_value F x * pair_value F y))%R.
Proof. exact dd_mul_relative. Qed.
Print Assumptions C52_relative.
(** products of two numbers of the half format are exact *)
Theorem C52_exact : forall F, pair_ok F -> 4 <= PRECISION F -> forall m, m = NearestTiesToEven \/ m = NearestTiesToAway ->
  forall x y, canonical_pair F x -> canonical_pair F y -> category (d1 x) = Zero -> category (d1 y) = Zero ->
  (bpow r2 (MIN_EXP F + 2 * PRECISION F + 1) <= Rabs (value F (d0 x) * value F (d0 y)) <= bpow r2 (MAX_EXP F - 4))%R ->
  exists st r, dd_mul_r F x y m = Ret (st, r) /\ pair_wf F r /\ pair_finite r /\
    (m = NearestTiesToEven -> canonical_pair F r) /\ pair_value F r = (pair_value F x * pair_value F y)%R.
Proof. exact dd_mul_exact. Qed.
Print Assumptions C52_exact.
(** below that range the low half is lost *)
Theorem C52_underflow_refuted : exists x y st r, canonical_pair DoubleS x /\ canonical_pair DoubleS y /\
  dd_mul_r DoubleS x y NearestTiesToEven = Ret (st, r) /\
  (bpow r2 (-53) * Rabs (pair_value DoubleS x * pair_value DoubleS y) < Rabs (pair_value DoubleS r - pair_value DoubleS x * pair_value DoubleS y))%R.
Proof. exact pair_mul_underflow_refuted. Qed.
Print Assumptions C52_underflow_refuted.
(** 1/3 * (5/4 + 5/4 * 2^-54) *)
Example C52_sample : pair_ok DoubleS /\ canonical_pair DoubleS p_third /\ canonical_pair DoubleS p_five /\
  (bpow r2 (MIN_EXP DoubleS + 2 * PRECISION DoubleS + 1) <= Rabs (value DoubleS (d0 p_third) * value DoubleS (d0 p_five)) <= bpow r2 (MAX_EXP DoubleS - 4))%R /\
  dd_mul_r DoubleS p_third p_five NearestTiesToEven =
    Ret (INEXACT, mkDF (mkFloat 7505999378950827 (-2) Normal false) (mkFloat 6004799503160672 (-58) Normal false)).
Proof. exact p_product_sample. Qed.
