(** * PropsPairMore.v -- C46, C48, C49: the remaining operands of the operations
    on pairs; C62: the status of their sums and products *)
From Coq Require Import ZArith Reals List Bool String.
From Flocq Require Import Core.
From Verif Require Import Machine Ieee Parse Ppc Fmt Spec SpecFma SpecStr SpecPair StrSyntax Nans Pair PairOps PairBase PairMore PairRest PairFlags Samples PairSamples.
Import ListNotations.
Local Open Scope string_scope.
Local Open Scope Z_scope.

(** C46: conversion to integers of every pair that can be read, special values included, and the reported exactness *)
Theorem C46_to_u128_all : forall F, pair_ok F -> forall x w m, readable F x -> 1 <= w <= 128 ->
  exists st n ex, dd_to_u128_r F x w m = Ret (st, n, ex) /\ pair_to_int F x m 0 (2 ^ w - 1) st n /\
    (ex = true <-> st <> INVALID_OP /\ IZR n = operand F x /\ ~ (category (d0 x) = Zero /\ sign (d0 x) = true)).
Proof. exact dd_to_u128_r_all. Qed.
Print Assumptions C46_to_u128_all.

Theorem C46_to_i128_all : forall F, pair_ok F -> forall x w m, readable F x -> (if sign (d0 x) then 1 else 2) <= w <= 128 ->
  exists st n ex, dd_to_i128_r F x w m = Ret (st, n, ex) /\ pair_to_int F x m (- 2 ^ (w - 1)) (2 ^ (w - 1) - 1) st n /\
    (ex = true <-> st <> INVALID_OP /\ IZR n = operand F x).
Proof. exact dd_to_i128_r_all. Qed.
Print Assumptions C46_to_i128_all.
(** 3; 1 + 2^-60; -1; infinity; a NaN *)
Example C46_to_int_all_example : readable DoubleS p_three /\ readable DoubleS p_above /\ readable DoubleS p_neg /\
  readable DoubleS p_inf /\ readable DoubleS p_qnan /\
  dd_to_u128_r DoubleS p_three 8 TowardZero = Ret (OK, 3, true) /\
  dd_to_u128_r DoubleS p_above 8 TowardPositive = Ret (INEXACT, 2, false) /\
  dd_to_u128_r DoubleS p_neg 8 TowardZero = Ret (INVALID_OP, 0, false) /\
  dd_to_i128_r DoubleS p_neg 8 TowardZero = Ret (OK, -1, true) /\
  dd_to_i128_r DoubleS p_inf 8 TowardZero = Ret (INVALID_OP, 127, false) /\
  dd_to_i128_r DoubleS p_qnan 8 TowardZero = Ret (INVALID_OP, 0, false).
Proof.
  split; [exact (canonical_readable _ _ p_three_canonical)|]. split; [exact (canonical_readable _ _ p_above_canonical)|].
  split; [exact (canonical_readable _ _ p_neg_canonical)|]. split; [exact p_inf_readable|]. split; [exact p_qnan_readable|].
  vm_compute. repeat split.
Qed.

(** C46: the fused multiply-add of any canonical pairs.  Where the double-width product is
    cut before the addition ([product_cut]) the cut product is what counts, or the code panics *)
Theorem C46_mul_add_any : forall F, pair_ok F -> forall x y z m, canonical_pair F x -> canonical_pair F y -> canonical_pair F z ->
  exists u v w, widened F x u /\ widened F y v /\ widened F z w /\
    (~ product_cut (FallbackS F) u v w ->
       via_wide F (fun st f => correctly_rounded (FallbackS F) m (operand F x * operand F y + operand F z)
           (fma_zero_sign (xorb (sign (d0 x)) (sign (d0 y))) (d0 z) m) (st, f)) (dd_mul_add_r F x y z m)) /\
    (product_cut (FallbackS F) u v w -> cut_down (FallbackS F) (Rabs (operand F x * operand F y)) = Rabs (operand F z) -> dd_mul_add_r F x y z m = Panic) /\
    (product_cut (FallbackS F) u v w -> cut_down (FallbackS F) (Rabs (operand F x * operand F y)) <> Rabs (operand F z) ->
       via_wide F (fun st f => correctly_rounded (FallbackS F) m (fma_seen (FallbackS F) u v w) false (st, f)) (dd_mul_add_r F x y z m)).
Proof. exact dd_mul_add_r_any. Qed.
Print Assumptions C46_mul_add_any.

(** C46: infinite operands *)
Theorem C46_mul_add_infinite : forall F, pair_ok F -> forall x y z m, readable F x -> readable F y -> readable F z ->
  category (d0 x) <> NaN -> category (d0 y) <> NaN -> category (d0 z) <> NaN ->
  category (d0 x) = Infinity \/ category (d0 y) = Infinity \/ category (d0 z) = Infinity ->
  exists st r, dd_mul_add_r F x y z m = Ret (st, r) /\
    let g := xorb (sign (d0 x)) (sign (d0 y)) in
    match category (d0 x), category (d0 y), category (d0 z) with
    | Infinity, Zero, _ | Zero, Infinity, _ => st = INVALID_OP /\ pair_nan F r
    | Infinity, _, Infinity | _, Infinity, Infinity =>
      if Bool.eqb g (sign (d0 z)) then st = OK /\ pair_special F Infinity g r else st = INVALID_OP /\ pair_nan F r
    | Infinity, _, _ | _, Infinity, _ => st = OK /\ pair_special F Infinity g r
    | _, _, _ => st = OK /\ pair_special F Infinity (sign (d0 z)) r
    end.
Proof. exact dd_mul_add_r_infinite. Qed.
Print Assumptions C46_mul_add_infinite.

(** C46: NaN operands *)
Theorem C46_mul_add_nan : forall F, pair_ok F -> forall x y z m, readable F x -> readable F y -> readable F z ->
  category (d0 x) = NaN \/ category (d0 y) = NaN \/ category (d0 z) = NaN ->
  exists st r, dd_mul_add_r F x y z m = Ret (st, r) /\
    match category (d0 x), category (d0 y) with
    | NaN, _ | _, NaN => st = OK /\ pair_same_nan (first_nan_pair x y) r
    | Infinity, Zero | Zero, Infinity => st = INVALID_OP /\ pair_nan F r
    | _, _ => st = OK /\ pair_same_nan z r
    end.
Proof. exact dd_mul_add_r_nan. Qed.
Print Assumptions C46_mul_add_nan.
(** 1/3 * 3 + -1; inf * 3 + 1; inf * 0 + 1; inf * 1 - inf; 1 * 3 + NaN *)
Example C46_mul_add_example : canonical_pair DoubleS p_third /\ canonical_pair DoubleS p_three /\ readable DoubleS p_inf /\ readable DoubleS p_qnan /\
  dd_mul_add_r DoubleS p_three p_three p_neg NearestTiesToEven = Ret (OK, mkDF (mkFloat (2 ^ 52) 3 Normal false) (mkFloat 0 (-1023) Zero false)) /\
  dd_mul_add_r DoubleS p_inf p_three p_one NearestTiesToEven = Ret (OK, p_inf) /\
  (exists r, dd_mul_add_r DoubleS p_inf p_zero p_one NearestTiesToEven = Ret (INVALID_OP, r)) /\
  (exists r, dd_mul_add_r DoubleS p_inf p_one (dd_neg p_inf) NearestTiesToEven = Ret (INVALID_OP, r)) /\
  (exists r, dd_mul_add_r DoubleS p_one p_three p_qnan NearestTiesToEven = Ret (OK, r) /\ category (d0 r) = NaN).
Proof.
  split; [exact p_third_canonical|]. split; [exact p_three_canonical|]. split; [exact p_inf_readable|]. split; [exact p_qnan_readable|].
  split; [vm_compute; reflexivity|]. split; [vm_compute; reflexivity|]. split; [eexists; vm_compute; reflexivity|].
  split; [eexists; vm_compute; reflexivity|]. eexists. split; vm_compute; reflexivity.
Qed.

(** C46: a signaling NaN in any position stops every operation that goes through the
    double-width format *)
Theorem C46_signaling_second : forall F, pair_ok F -> forall x y z m, readable F x -> readable F z -> wf F (d0 y) -> category (d0 y) = NaN -> signaling F (d0 y) = true ->
  dd_div_r F x y m = Panic /\ dd_c_fmod F x y = Panic /\ dd_ieee_rem F x y = Panic /\
  dd_mul_add_r F x y z m = Panic /\ dd_mul_add_r F x z y m = Panic /\ dd_mul_add_r F y x z m = Panic.
Proof. exact dd_signaling_second. Qed.
Print Assumptions C46_signaling_second.

Theorem C46_signaling_rest : forall F, pair_ok F -> forall x w m, wf F (d0 x) -> category (d0 x) = NaN -> signaling F (d0 x) = true ->
  dd_next_down F x = Panic /\ (1 <= w -> dd_to_i128_r F x w m = Panic).
Proof. exact dd_signaling_rest. Qed.
Print Assumptions C46_signaling_rest.
Example C46_signaling_more_example : wf DoubleS (d0 p_snan) /\ category (d0 p_snan) = NaN /\ signaling DoubleS (d0 p_snan) = true /\
  dd_div_r DoubleS p_one p_snan TowardZero = Panic /\ dd_mul_add_r DoubleS p_one p_one p_snan TowardZero = Panic /\
  dd_next_down DoubleS p_snan = Panic /\ dd_to_i128_r DoubleS p_snan 8 TowardZero = Panic.
Proof. split; [sample_wf|]. vm_compute. repeat split. Qed.

(** C46: zeros, infinities and NaNs have no exact inverse *)
Theorem C46_inverse_special : forall F, pair_ok F -> forall x, readable F x -> category (d0 x) <> Normal -> dd_get_exact_inverse F x = Ret None.
Proof. exact dd_get_exact_inverse_special. Qed.
Print Assumptions C46_inverse_special.
Example C46_inverse_special_example : readable DoubleS p_inf /\ category (d0 p_inf) <> Normal /\
  dd_get_exact_inverse DoubleS p_inf = Ret None /\ dd_get_exact_inverse DoubleS p_zero = Ret None /\ dd_get_exact_inverse DoubleS p_qnan = Ret None.
Proof. split; [exact p_inf_readable|]. split; [discriminate|]. vm_compute. repeat split. Qed.

(** C48: scaling and splitting off the exponent of zeros, infinities and NaNs *)
Theorem C48_scalbn_special : forall F, pair_ok F -> forall x n m, pair_wf F x -> category (d0 x) <> Normal -> category (d1 x) = Zero ->
  exists r, dd_scalbn_r F x n m = Ret r /\ pair_wf F r /\ category (d0 r) = category (d0 x) /\ sign (d0 r) = sign (d0 x) /\
    (category (d0 x) = NaN -> sig (d0 r) = sig (quieted F (d0 x))) /\ category (d1 r) = Zero /\ sign (d1 r) = sign (d1 x).
Proof. exact dd_scalbn_r_special. Qed.
Print Assumptions C48_scalbn_special.

Theorem C48_frexp_special : forall F, pair_ok F -> forall x m, pair_wf F x -> category (d0 x) <> Normal ->
  exists r e, dd_frexp_r F x m = Ret (r, e) /\ pair_wf F r /\ category (d0 r) = category (d0 x) /\ sign (d0 r) = sign (d0 x) /\ d1 r = d1 x /\
    match category (d0 x) with
    | NaN => e = - 2 ^ 31 /\ sig (d0 r) = sig (quieted F (d0 x))
    | Infinity => e = 2 ^ 31 - 1
    | _ => e = 0
    end.
Proof. exact dd_frexp_r_special. Qed.
Print Assumptions C48_frexp_special.
Example C48_special_example : pair_wf DoubleS p_snan /\ category (d0 p_snan) <> Normal /\ category (d1 p_snan) = Zero /\
  dd_scalbn_r DoubleS p_inf 7 TowardZero = Ret (mkDF (mkFloat 0 1031 Infinity false) (mkFloat 0 (-1016) Zero false)) /\
  dd_scalbn_r DoubleS p_snan 7 TowardZero = Ret (mkDF (mkFloat (2 ^ 51 + 5) 1031 NaN true) (mkFloat 0 (-1016) Zero false)) /\
  dd_frexp_r DoubleS p_inf TowardZero = Ret (p_inf, 2 ^ 31 - 1) /\ dd_frexp_r DoubleS p_zero TowardZero = Ret (p_zero, 0).
Proof. split; [split; sample_wf|]. split; [discriminate|]. vm_compute. repeat split. Qed.

(** C49: NaN literals.  Signaling ones panic; of a payload only the upper half arrives *)
Theorem C49_nan : forall F, pair_ok F -> forall s g q pl m, nan_text s g q pl ->
  if q then dd_from_str_r F s m = Panic
  else exists r, dd_from_str_r F s m = Ret (Ok (OK, r)) /\ pair_nan F r /\ sign (d0 r) = g /\
    low_payload F (d0 r) = (payload_bits pl mod 2 ^ (2 * PRECISION F - 2)) / 2 ^ PRECISION F.
Proof. exact dd_from_str_nan. Qed.
Print Assumptions C49_nan.
Example C49_nan_example : nan_text (bytes "-snan") true true None /\
  dd_from_str_r DoubleS (bytes "snan") NearestTiesToEven = Panic /\
  (exists r, dd_from_str_r DoubleS (bytes "-nan(0x123)") NearestTiesToEven = Ret (Ok (OK, r)) /\ category (d0 r) = NaN /\ low_payload DoubleS (d0 r) = 0) /\
  (exists r, dd_from_str_r DoubleS (bytes "nan(0x12300000000000000)") NearestTiesToEven = Ret (Ok (OK, r)) /\ low_payload DoubleS (d0 r) = 2328).
Proof.
  split; [apply (nan_intro [45] true [115] true [110; 97; 110] [] None); auto|]. split; [vm_compute; reflexivity|].
  split; eexists; (split; [vm_compute; reflexivity|]); [split|]; vm_compute; reflexivity.
Qed.

(** C62: a sum without a flag is exact, or is that of the high halves alone *)
Theorem C62_sum_ok_partial : forall F, pair_ok F -> forall x y m r, canonical_pair F x -> canonical_pair F y -> dd_add_r F x y m = Ret (OK, r) ->
  (pair_finite r /\ pair_value F r = (pair_value F x + pair_value F y)%R) \/
  (is_special F Zero false (d1 r) /\ exists st, add_r F (d0 x) (d0 y) m = Ret (st, d0 r)).
Proof. exact dd_add_r_flags. Qed.
Print Assumptions C62_sum_ok_partial.

Theorem C62_difference_ok_partial : forall F, pair_ok F -> forall x y m r, canonical_pair F x -> canonical_pair F y -> dd_sub_r F x y m = Ret (OK, r) ->
  (pair_finite r /\ pair_value F r = (pair_value F x - pair_value F y)%R) \/
  (is_special F Zero false (d1 r) /\ exists st, sub_r F (d0 x) (d0 y) m = Ret (st, d0 r)).
Proof. exact dd_sub_r_flags. Qed.
Print Assumptions C62_difference_ok_partial.

(** C62: a product without a flag is exact up to the product of the low halves *)
Theorem C62_product_ok_partial : forall F, pair_ok F -> forall x y m r, canonical_pair F x -> canonical_pair F y -> dd_mul_r F x y m = Ret (OK, r) ->
  pair_finite r /\ pair_value F r = (pair_value F x * pair_value F y - value F (d1 x) * value F (d1 y))%R.
Proof. exact dd_mul_r_flags. Qed.
Print Assumptions C62_product_ok_partial.
(** 1 + -1; 3 - 1; 3 * -1 *)
Example C62_example : canonical_pair DoubleS p_three /\ canonical_pair DoubleS p_neg /\
  dd_add_r DoubleS p_three p_neg NearestTiesToEven = Ret (OK, mkDF (mkFloat (2 ^ 52) 1 Normal false) (mkFloat 0 (-1023) Zero false)) /\
  dd_sub_r DoubleS p_three p_neg NearestTiesToEven = Ret (OK, mkDF (mkFloat (2 ^ 52) 2 Normal false) (mkFloat 0 (-1023) Zero false)) /\
  dd_mul_r DoubleS p_three p_neg NearestTiesToEven = Ret (OK, mkDF (mkFloat 6755399441055744 1 Normal true) (mkFloat 0 (-1023) Zero false)).
Proof. split; [exact p_three_canonical|]. split; [exact p_neg_canonical|]. vm_compute. repeat split. Qed.

(** C62: no flag although the result is not exact *)
Theorem C62_sum_ok_refuted : exists x y r, canonical_pair DoubleS x /\ canonical_pair DoubleS y /\
  dd_add_r DoubleS x y NearestTiesToEven = Ret (OK, r) /\ pair_value DoubleS r <> (pair_value DoubleS x + pair_value DoubleS y)%R.
Proof. exact pair_add_ok_refuted. Qed.
Print Assumptions C62_sum_ok_refuted.

Theorem C62_product_ok_refuted : exists x y r, canonical_pair DoubleS x /\ canonical_pair DoubleS y /\
  dd_mul_r DoubleS x y NearestTiesToEven = Ret (OK, r) /\ pair_value DoubleS r <> (pair_value DoubleS x * pair_value DoubleS y)%R.
Proof. exact pair_mul_ok_refuted. Qed.
Print Assumptions C62_product_ok_refuted.

(** C62: a flag although the result is exact *)
Theorem C62_sum_inexact_refuted : exists x y r, canonical_pair DoubleS x /\ canonical_pair DoubleS y /\
  dd_add_r DoubleS x y NearestTiesToEven = Ret (INEXACT, r) /\ pair_value DoubleS r = (pair_value DoubleS x + pair_value DoubleS y)%R.
Proof. exact pair_add_inexact_refuted. Qed.
Print Assumptions C62_sum_inexact_refuted.

Theorem C62_product_inexact_refuted : exists x r, canonical_pair DoubleS x /\
  dd_mul_r DoubleS x x NearestTiesToEven = Ret (INEXACT, r) /\ pair_value DoubleS r = (pair_value DoubleS x * pair_value DoubleS x)%R.
Proof. exact pair_mul_inexact_refuted. Qed.
Print Assumptions C62_product_inexact_refuted.
