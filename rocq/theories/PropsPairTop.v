(** * PropsPairTop.v -- sums and products of pairs up to overflow: C66 *)
From Coq Require Import ZArith Reals String.
From Flocq Require Import Core.
From Verif Require Import Machine Ieee Parse Ppc OpsPair Spec SpecPair SpecTop SpecDirected PairSamples PairMulRefute PairTop PairTopMul PairTopSamples.
Local Open Scope Z_scope.

(** ** C66

    [max_finite F] is the largest number of the format of the halves;
    [lost_tie] (SpecTop.v) describes the sums that come out as NaN. *)
Theorem C66_sum : forall F, pair_ok F -> 5 <= PRECISION F -> forall m, m = NearestTiesToEven \/ m = NearestTiesToAway ->
  forall x y, canonical_pair F x -> canonical_pair F y ->
  ~ lost_tie F m x y ->
  exists st r, dd_add_r F x y m = Ret (st, r) /\
    ((pair_wf F r /\ pair_finite r /\ (m = NearestTiesToEven -> canonical_pair F r) /\
      (Rabs (value F (d1 r)) <= bpow r2 (- PRECISION F) * Rabs (value F (d0 r)))%R /\
      (Rabs (pair_value F r - (pair_value F x + pair_value F y)) <=
       bpow r2 (2 - 2 * PRECISION F) * (Rabs (value F (d0 x)) + Rabs (value F (d0 y))))%R) \/
     ((max_finite F <= Rabs (pair_value F x + pair_value F y))%R /\
      is_special F Infinity (Rlt_bool (pair_value F x + pair_value F y) 0) (d0 r) /\ is_special F Zero false (d1 r))).
Proof. exact dd_add_top. Qed.
Print Assumptions C66_sum.
Theorem C66_difference : forall F, pair_ok F -> 5 <= PRECISION F -> forall m, m = NearestTiesToEven \/ m = NearestTiesToAway ->
  forall x y, canonical_pair F x -> canonical_pair F y ->
  ~ lost_tie F m x (dd_neg y) ->
  exists st r, dd_sub_r F x y m = Ret (st, r) /\
    ((pair_wf F r /\ pair_finite r /\ (m = NearestTiesToEven -> canonical_pair F r) /\
      (Rabs (value F (d1 r)) <= bpow r2 (- PRECISION F) * Rabs (value F (d0 r)))%R /\
      (Rabs (pair_value F r - (pair_value F x - pair_value F y)) <=
       bpow r2 (2 - 2 * PRECISION F) * (Rabs (value F (d0 x)) + Rabs (value F (d0 y))))%R) \/
     ((max_finite F <= Rabs (pair_value F x - pair_value F y))%R /\
      is_special F Infinity (Rlt_bool (pair_value F x - pair_value F y) 0) (d0 r) /\ is_special F Zero false (d1 r))).
Proof. exact dd_sub_top. Qed.
Print Assumptions C66_difference.
Theorem C66_sum_nan : forall F, pair_ok F -> 5 <= PRECISION F -> forall m, m = NearestTiesToEven \/ m = NearestTiesToAway ->
  forall x y, canonical_pair F x -> canonical_pair F y -> lost_tie F m x y ->
  exists st r, dd_add_r F x y m = Ret (st, r) /\ Z.testbit st 0 = true /\ category (d0 r) = NaN /\ is_special F Zero false (d1 r).
Proof. exact dd_add_lost. Qed.
Print Assumptions C66_sum_nan.
Theorem C66_difference_nan : forall F, pair_ok F -> 5 <= PRECISION F -> forall m, m = NearestTiesToEven \/ m = NearestTiesToAway ->
  forall x y, canonical_pair F x -> canonical_pair F y -> lost_tie F m x (dd_neg y) ->
  exists st r, dd_sub_r F x y m = Ret (st, r) /\ Z.testbit st 0 = true /\ category (d0 r) = NaN /\ is_special F Zero false (d1 r).
Proof. exact dd_sub_lost. Qed.
Print Assumptions C66_difference_nan.
Theorem C66_product : forall F, pair_ok F -> 5 <= PRECISION F -> forall m, m = NearestTiesToEven \/ m = NearestTiesToAway ->
  forall x y, canonical_pair F x -> canonical_pair F y ->
  (bpow r2 (MIN_EXP F + 2 * PRECISION F + 1) <= Rabs (value F (d0 x) * value F (d0 y)))%R ->
  exists st r, dd_mul_r F x y m = Ret (st, r) /\
    ((pair_wf F r /\ pair_finite r /\ (m = NearestTiesToEven -> canonical_pair F r) /\
      (Rabs (value F (d1 r)) <= bpow r2 (- PRECISION F) * Rabs (value F (d0 r)))%R /\
      (Rabs (pair_value F r - pair_value F x * pair_value F y) <=
       bpow r2 (3 - 2 * PRECISION F) * Rabs (value F (d0 x) * value F (d0 y)))%R) \/
     (((1 - bpow r2 (1 - PRECISION F)) * max_finite F <= Rabs (pair_value F x * pair_value F y))%R /\
      is_special F Infinity (Rlt_bool (pair_value F x * pair_value F y) 0) (d0 r) /\ is_special F Zero false (d1 r))).
Proof. exact dd_mul_top. Qed.
Print Assumptions C66_product.
(** neither bound on infinite results can be raised to the largest pair *)
Theorem C66_sum_early_refuted : exists x y z st, canonical_pair DoubleS x /\ canonical_pair DoubleS y /\ canonical_pair DoubleS z /\
  pair_value DoubleS z = (pair_value DoubleS x + pair_value DoubleS y)%R /\
  dd_add_r DoubleS x y NearestTiesToEven = Ret (st, mkDF (INFINITY DoubleS) (ZERO DoubleS)).
Proof. exact pair_add_early_refuted. Qed.
Print Assumptions C66_sum_early_refuted.
Theorem C66_product_early_refuted : exists x y st, canonical_pair DoubleS x /\ canonical_pair DoubleS y /\
  (0 < pair_value DoubleS x * pair_value DoubleS y < max_finite DoubleS)%R /\
  dd_mul_r DoubleS x y NearestTiesToEven = Ret (st, mkDF (INFINITY DoubleS) (ZERO DoubleS)).
Proof. exact pair_mul_early_refuted. Qed.
Print Assumptions C66_product_early_refuted.
(** In a directed mode an overflow leaves the largest number in both halves,
    without the OVERFLOW flag: the pair says it is finite and prints as +Inf. *)
Theorem C66_directed_refuted : exists x y r,
  canonical_pair DoubleS x /\ canonical_pair DoubleS y /\
  dd_add_r DoubleS x x TowardZero = Ret (INEXACT, r) /\ dd_mul_r DoubleS x y TowardZero = Ret (INEXACT, r) /\ dd_mul_r DoubleS x x TowardZero = Ret (INEXACT, r) /\
  ~ narrow_pair DoubleS r /\ dd_is_finite r = true /\ dd_fmt DoubleS r None None false = Ret (bytes "+Inf").
Proof. exact pair_directed_refuted. Qed.
Print Assumptions C66_directed_refuted.
Example C66_sum_sample : pair_ok DoubleS /\ 5 <= PRECISION DoubleS /\ canonical_pair DoubleS p_large /\ canonical_pair DoubleS p_larger /\
  ~ lost_tie DoubleS NearestTiesToEven p_large p_larger /\
  dd_add_r DoubleS p_large p_larger NearestTiesToEven =
    Ret (INEXACT, mkDF (mkFloat 9007199254740991 1023 Normal false) (mkFloat 6755399441055744 968 Normal false)).
Proof. exact top_sample. Qed.
Example C66_difference_sample : canonical_pair DoubleS p_larger /\ ~ lost_tie DoubleS NearestTiesToEven (dd_neg p_larger) (dd_neg p_larger) /\
  dd_sub_r DoubleS (dd_neg p_larger) p_larger NearestTiesToEven = Ret (Z.lor OVERFLOW INEXACT, mkDF (mkFloat 0 1024 Infinity true) (mkFloat 0 (-1023) Zero false)).
Proof. exact top_infinite. Qed.
Example C66_nan_sample : canonical_pair DoubleS p_down /\ canonical_pair DoubleS p_top /\ lost_tie DoubleS NearestTiesToEven p_down p_top.
Proof. exact top_lost. Qed.
Example C66_product_sample : canonical_pair DoubleS p_root /\ (bpow r2 (MIN_EXP DoubleS + 2 * PRECISION DoubleS + 1) <= Rabs (value DoubleS (d0 p_root) * value DoubleS (d0 p_half)))%R /\
  dd_mul_r DoubleS p_root p_half NearestTiesToEven = Ret (Z.lor OVERFLOW INEXACT, mkDF (mkFloat 0 1024 Infinity false) (mkFloat 0 (-1023) Zero false)) /\
  (bpow r2 (MIN_EXP DoubleS + 2 * PRECISION DoubleS + 1) <= Rabs (value DoubleS (d0 p_large) * value DoubleS (d0 p_three)))%R /\
  dd_mul_r DoubleS p_large p_three NearestTiesToEven =
    Ret (INEXACT, mkDF (mkFloat 6755399441055742 1023 Normal false) (mkFloat 5629499534213120 969 Normal false)).
Proof. exact top_product_sample. Qed.
