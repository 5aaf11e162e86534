(** * PropsPairDirected.v -- sums and products of pairs in every rounding mode:
    C63 *)
From Coq Require Import ZArith Reals List Bool.
From Flocq Require Import Core.
From Verif Require Import Machine Ieee Ppc Spec Samples SpecPair PairSamples SpecDirected PairDirected PairDirectedRefute.
Local Open Scope Z_scope.

(** A pair is narrow if its second half is at most one unit in the last place
    of the first (SpecDirected.v).  The operations keep pairs narrow in every
    mode, so the bounds apply to chains of operations. *)
Theorem C63_sum : forall F, pair_ok F -> 5 <= PRECISION F -> forall m x y, narrow_pair F x -> narrow_pair F y ->
  (Rabs (value F (d0 x)) + Rabs (value F (d0 y)) <= bpow r2 (MAX_EXP F - 4))%R ->
  exists st r, dd_add_r F x y m = Ret (st, r) /\ narrow_pair F r /\
    (Rabs (pair_value F r - (pair_value F x + pair_value F y)) <=
       42 * bpow r2 (- (2 * PRECISION F)) * (Rabs (value F (d0 x)) + Rabs (value F (d0 y))))%R.
Proof. exact dd_add_any. Qed.
Print Assumptions C63_sum.
Theorem C63_difference : forall F, pair_ok F -> 5 <= PRECISION F -> forall m x y, narrow_pair F x -> narrow_pair F y ->
  (Rabs (value F (d0 x)) + Rabs (value F (d0 y)) <= bpow r2 (MAX_EXP F - 4))%R ->
  exists st r, dd_sub_r F x y m = Ret (st, r) /\ narrow_pair F r /\
    (Rabs (pair_value F r - (pair_value F x - pair_value F y)) <=
       42 * bpow r2 (- (2 * PRECISION F)) * (Rabs (value F (d0 x)) + Rabs (value F (d0 y))))%R.
Proof. exact dd_sub_any. Qed.
Print Assumptions C63_difference.
Theorem C63_product : forall F, pair_ok F -> 5 <= PRECISION F -> forall m x y, narrow_pair F x -> narrow_pair F y ->
  (bpow r2 (MIN_EXP F + 2 * PRECISION F + 1) <= Rabs (value F (d0 x) * value F (d0 y)) <= bpow r2 (MAX_EXP F - 4))%R ->
  exists st r, dd_mul_r F x y m = Ret (st, r) /\ narrow_pair F r /\
    (Rabs (pair_value F r - pair_value F x * pair_value F y) <=
       40 * bpow r2 (- (2 * PRECISION F)) * Rabs (value F (d0 x) * value F (d0 y)))%R.
Proof. exact dd_mul_any. Qed.
Print Assumptions C63_product.
(** canonical pairs are narrow, but directed sums of them need not be canonical *)
Theorem C63_canonical : forall F, pair_ok F -> 5 <= PRECISION F -> forall x, canonical_pair F x -> narrow_pair F x.
Proof. exact canonical_narrow. Qed.
Print Assumptions C63_canonical.
Theorem C63_canonical_refuted : exists x y st r, canonical_pair DoubleS x /\ canonical_pair DoubleS y /\
  dd_add_r DoubleS x y TowardPositive = Ret (st, r) /\ pair_wf DoubleS r /\ pair_finite r /\ ~ canonical_pair DoubleS r.
Proof. exact pair_add_narrow_refuted. Qed.
Print Assumptions C63_canonical_refuted.

(** the mode does not say on which side of the exact number the pair lies *)
Theorem C63_sum_upward_refuted : exists x y st r, canonical_pair DoubleS x /\ canonical_pair DoubleS y /\
  dd_add_r DoubleS x y TowardPositive = Ret (st, r) /\ (pair_value DoubleS r < pair_value DoubleS x + pair_value DoubleS y)%R.
Proof. exact pair_add_upward_refuted. Qed.
Print Assumptions C63_sum_upward_refuted.
Theorem C63_sum_truncated_refuted : exists x y st r, canonical_pair DoubleS x /\ canonical_pair DoubleS y /\
  dd_add_r DoubleS x y TowardZero = Ret (st, r) /\ (Rabs (pair_value DoubleS x + pair_value DoubleS y) < Rabs (pair_value DoubleS r))%R.
Proof. exact pair_add_truncated_refuted. Qed.
Print Assumptions C63_sum_truncated_refuted.
Theorem C63_product_upward_refuted : exists x y st r, canonical_pair DoubleS x /\ canonical_pair DoubleS y /\
  dd_mul_r DoubleS x y TowardPositive = Ret (st, r) /\ (pair_value DoubleS r < pair_value DoubleS x * pair_value DoubleS y)%R.
Proof. exact pair_mul_upward_refuted. Qed.
Print Assumptions C63_product_upward_refuted.
Theorem C63_product_truncated_refuted : exists x y st r, canonical_pair DoubleS x /\ canonical_pair DoubleS y /\
  dd_mul_r DoubleS x y TowardZero = Ret (st, r) /\ (0 < pair_value DoubleS x * pair_value DoubleS y < pair_value DoubleS r)%R.
Proof. exact pair_mul_truncated_refuted. Qed.
Print Assumptions C63_product_truncated_refuted.

(** 1/3 - (5/4 + 5/4 * 2^-54) and 1/3 * (5/4 + 5/4 * 2^-54) *)
Example C63_sum_sample : pair_ok DoubleS /\ 5 <= PRECISION DoubleS /\ narrow_pair DoubleS p_third /\ narrow_pair DoubleS p_five /\
  (Rabs (value DoubleS (d0 p_third)) + Rabs (value DoubleS (d0 p_five)) <= bpow r2 (MAX_EXP DoubleS - 4))%R /\
  dd_sub_r DoubleS p_third p_five TowardNegative =
    Ret (INEXACT, mkDF (mkFloat 8256599316845910 (-1) Normal true) (mkFloat 6004799503160656 (-58) Normal false)).
Proof. exact directed_sum_sample. Qed.
Example C63_product_sample : pair_ok DoubleS /\ 5 <= PRECISION DoubleS /\ narrow_pair DoubleS p_third /\ narrow_pair DoubleS p_five /\
  (bpow r2 (MIN_EXP DoubleS + 2 * PRECISION DoubleS + 1) <= Rabs (value DoubleS (d0 p_third) * value DoubleS (d0 p_five)) <= bpow r2 (MAX_EXP DoubleS - 4))%R /\
  dd_mul_r DoubleS p_third p_five TowardPositive =
    Ret (INEXACT, mkDF (mkFloat 7505999378950828 (-2) Normal false) (mkFloat 8256599316845908 (-55) Normal true)).
Proof. exact directed_product_sample. Qed.
