(** * PropsPairSmall.v -- products of pairs at and below the smallest normal number: C65 *)
From Coq Require Import ZArith Reals.
From Flocq Require Import Core.
From Verif Require Import Machine Ieee Ppc Spec SpecPair SpecDirected PairSamples PairSmall.
Local Open Scope Z_scope.

(** ** C65

    [narrow_pair]: the second half is at most a unit in the last place of the
    first (SpecDirected.v); canonical pairs are narrow ([C63_canonical]).
    [min_positive F] is the smallest positive number of the format of the halves.
    Compared with [C63_product] the product may go down to the smallest normal number. *)
Theorem C65_product : forall F, pair_ok F -> 5 <= PRECISION F -> forall m x y, narrow_pair F x -> narrow_pair F y ->
  (min_normal F <= Rabs (value F (d0 x) * value F (d0 y)) <= bpow r2 (MAX_EXP F - 4))%R ->
  exists st r, dd_mul_r F x y m = Ret (st, r) /\ narrow_pair F r /\ (m = NearestTiesToEven -> canonical_pair F r) /\
    (Rabs (pair_value F r - pair_value F x * pair_value F y) <=
     40 * bpow r2 (- (2 * PRECISION F)) * Rabs (value F (d0 x) * value F (d0 y)) + 4 * min_positive F)%R.
Proof. exact dd_mul_small. Qed.
Print Assumptions C65_product.
(** below: a panic (exactly when, is [C61_product_panics]) or a single number *)
Theorem C65_tiny : forall F, pair_ok F -> 5 <= PRECISION F -> forall m x y, narrow_pair F x -> narrow_pair F y ->
  (Rabs (value F (d0 x) * value F (d0 y)) < min_normal F)%R ->
  dd_mul_r F x y m = Panic \/
  exists st r, dd_mul_r F x y m = Ret (st, r) /\ canonical_pair F r /\ value F (d1 r) = 0%R /\
    (Rabs (pair_value F r - pair_value F x * pair_value F y) <= 5 * min_positive F)%R.
Proof. exact dd_mul_tiny. Qed.
Print Assumptions C65_tiny.
Example C65_product_sample : pair_ok DoubleS /\ 5 <= PRECISION DoubleS /\ narrow_pair DoubleS (p_faint (-600)) /\ narrow_pair DoubleS (p_faint (-420)) /\
  (min_normal DoubleS <= Rabs (value DoubleS (d0 (p_faint (-600))) * value DoubleS (d0 (p_faint (-420)))) <= bpow r2 (MAX_EXP DoubleS - 4))%R /\
  dd_mul_r DoubleS (p_faint (-600)) (p_faint (-420)) TowardPositive =
    Ret (Z.lor UNDERFLOW INEXACT, mkDF (mkFloat 4503599627370498 (-1020) Normal false) (mkFloat 1 (-1022) Normal true)).
Proof. exact small_sample. Qed.
Example C65_tiny_sample : narrow_pair DoubleS (p_faint (-600)) /\ narrow_pair DoubleS (p_faint (-430)) /\
  (Rabs (value DoubleS (d0 (p_faint (-600))) * value DoubleS (d0 (p_faint (-430)))) < min_normal DoubleS)%R /\
  dd_mul_r DoubleS (p_faint (-600)) (p_faint (-430)) TowardPositive =
    Ret (Z.lor UNDERFLOW INEXACT, mkDF (mkFloat 17592186044417 (-1022) Normal false) (mkFloat 0 (-1023) Zero false)).
Proof. exact tiny_sample. Qed.
