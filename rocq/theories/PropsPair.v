(** * PropsPair.v -- pairs of floats: C37, C38, C46 to C49 *)
From Coq Require Import ZArith Reals List Bool String.
From Flocq Require Import Core.
From Verif Require Import Machine Ieee Parse Ppc Fmt Spec SpecStr StrTop Formats Bits Algebra SpecPair Pair PairOps PairBase PairMore Nans Total PairConst Samples PairSamples PairRefute.
Import ListNotations.
Local Open Scope Z_scope.

(** ** C37 *)
Theorem C37_bits : forall b, 0 <= b < 2 ^ 128 ->
  exists x, dd_from_bits DoubleS b = Ret x /\ pair_wf DoubleS x /\ dd_to_bits DoubleS x = Ret b.
Proof. exact dd_bits_round_trip. Qed.
Print Assumptions C37_bits.
(** from the other side *)
Theorem C37_values : forall x, pair_wf DoubleS x ->
  exists b y, dd_to_bits DoubleS x = Ret b /\ 0 <= b < 2 ^ 128 /\ dd_from_bits DoubleS b = Ret y /\ dd_bitwise_eq x y = true.
Proof. exact dd_value_round_trip. Qed.
Print Assumptions C37_values.
(** the low 64 bits are the high half of the number *)
Theorem C37_denotes : forall b, 0 <= b < 2 ^ 128 ->
  exists x, dd_from_bits DoubleS b = Ret x /\
    sign (d0 x) = field_sign 64 (b mod 2 ^ 64) /\ denotes DoubleS (d0 x) (decoded IEEE754 64 11 (b mod 2 ^ 64)) /\
    sign (d1 x) = field_sign 64 (b / 2 ^ 64) /\ denotes DoubleS (d1 x) (decoded IEEE754 64 11 (b / 2 ^ 64)).
Proof. exact dd_from_bits_denotes. Qed.
Print Assumptions C37_denotes.
Theorem C37_neg : forall F x,
  dd_category (dd_neg x) = dd_category x /\ dd_is_negative (dd_neg x) = negb (dd_is_negative x) /\
  dd_neg (dd_neg x) = x /\ (finite (d1 x) -> pair_value F (dd_neg x) = - pair_value F x)%R /\
  (pair_wf F x -> pair_wf F (dd_neg x)).
Proof. exact dd_neg_spec. Qed.
Print Assumptions C37_neg.
Theorem C37_neg_canonical : forall F x, canonical_pair F x -> canonical_pair F (dd_neg x).
Proof. exact dd_neg_canonical. Qed.
Print Assumptions C37_neg_canonical.
Theorem C37_abs : forall F, pair_ok F -> forall x, canonical_pair F x ->
  canonical_pair F (dd_abs x) /\ sign (d0 (dd_abs x)) = false /\ pair_value F (dd_abs x) = Rabs (pair_value F x).
Proof. exact dd_abs_spec. Qed.
Print Assumptions C37_abs.
Theorem C37_copy_sign : forall F x y, canonical_pair F x ->
  let r := dd_copy_sign x y in
  canonical_pair F r /\ sign (d0 r) = sign (d0 y) /\ Rabs (pair_value F r) = Rabs (pair_value F x).
Proof. exact dd_copy_sign_spec. Qed.
Print Assumptions C37_copy_sign.
(** what it means to be bitwise equal *)
Theorem C37_bitwise_eq : forall x y, pair_wf DoubleS x -> pair_wf DoubleS y ->
  dd_bitwise_eq x y = true <-> dd_to_bits DoubleS x = dd_to_bits DoubleS y.
Proof. exact dd_bitwise_eq_bits. Qed.
Print Assumptions C37_bitwise_eq.
Theorem C37_zero : forall F, pair_ok F ->
  proper_pair F (dd_ZERO F) /\ category (d0 (dd_ZERO F)) = Zero /\ sign (d0 (dd_ZERO F)) = false /\ pair_value F (dd_ZERO F) = 0%R.
Proof. exact dd_zero_spec. Qed.
Print Assumptions C37_zero.
Theorem C37_infinity : forall F, pair_ok F -> proper_pair F (dd_INFINITY F) /\ pair_number F (dd_INFINITY F) = Some PosInf.
Proof. exact dd_infinity_spec. Qed.
Print Assumptions C37_infinity.
Theorem C37_nan : forall F, pair_ok F -> forall pl, payload_ok pl ->
  (proper_pair F (dd_NAN F) /\ pair_nan F (dd_NAN F)) /\
  (proper_pair F (dd_qnan F pl) /\ pair_nan F (dd_qnan F pl) /\ sign (d0 (dd_qnan F pl)) = false /\
   forall n, 0 <= n < PRECISION F - 2 -> Z.testbit (sig (d0 (dd_qnan F pl))) n = Z.testbit (payload_bits pl) n) /\
  (proper_pair F (dd_snan F pl) /\ dd_is_signaling F (dd_snan F pl) = true /\ sign (d0 (dd_snan F pl)) = false /\
   (payload_bits pl mod 2 ^ (PRECISION F - 2) <> 0 ->
      sig (d0 (dd_snan F pl)) mod 2 ^ (PRECISION F - 2) = payload_bits pl mod 2 ^ (PRECISION F - 2))).
Proof. exact dd_nan_spec. Qed.
Print Assumptions C37_nan.
Theorem C37_is_signaling : forall F x, sem_ok F -> dd_is_signaling F x = signaling F (d0 x).
Proof. exact dd_is_signaling_spec. Qed.
Print Assumptions C37_is_signaling.
Example C37_constants_sample : dd_to_bits DoubleS (dd_INFINITY DoubleS) = Ret 0x7ff0000000000000 /\
  dd_to_bits DoubleS (dd_snan DoubleS (Some 5)) = Ret 0x7ff0000000000005 /\
  dd_bitwise_eq p_one p_neg = false /\ dd_is_signaling DoubleS p_snan = true /\ dd_is_signaling DoubleS p_qnan = false.
Proof. vm_compute. repeat split. Qed.
Example C37_sample : dd_to_bits DoubleS p_third = Ret 0x3C755555555555563FD5555555555555 /\ canonical_pair DoubleS p_third /\ dd_neg p_third <> p_third.
Proof. split; [vm_compute; reflexivity|]. split; [exact p_third_canonical|]. discriminate. Qed.

(** ** C38

    Missing: the signs of products (of the special factor, not the exclusive
    or), the flags of 0 * infinity and of signaling NaNs, -0 + +0; see the
    refutations. *)
Theorem C38_add_partial : forall F x y m, category (d0 x) <> Normal \/ category (d0 y) <> Normal ->
  exists st r, dd_add_r F x y m = Ret (st, r) /\
    match category (d0 x), category (d0 y) with
    | NaN, _ => st = OK /\ r = x
    | _, NaN => st = OK /\ r = y
    | Infinity, Infinity =>
      if Bool.eqb (sign (d0 x)) (sign (d0 y)) then st = OK /\ r = x
      else st = INVALID_OP /\ category (d0 r) = NaN /\ sign (d0 r) = sign (d0 x) /\ category (d1 r) = Zero
    | Infinity, _ => st = OK /\ r = x
    | _, Infinity => st = OK /\ r = y
    | _, Zero => st = OK /\ r = x
    | _, _ => st = OK /\ r = y
    end.
Proof. exact dd_add_special. Qed.
Print Assumptions C38_add_partial.
Theorem C38_mul_partial : forall F x y m, category (d0 x) <> Normal \/ category (d0 y) <> Normal ->
  exists r, dd_mul_r F x y m = Ret (OK, r) /\
    category (d0 r) = product_category (category (d0 x)) (category (d0 y)) /\
    match category (d0 x), category (d0 y) with
    | NaN, _ => r = x
    | _, NaN => r = y
    | Zero, Infinity | Infinity, Zero => r = dd_NAN F
    | Normal, _ => r = y
    | _, _ => r = x
    end.
Proof. exact dd_mul_special. Qed.
Print Assumptions C38_mul_partial.
Theorem C38_mul_sign_refuted : exists x y r, canonical_pair DoubleS x /\ proper_pair DoubleS y /\
  dd_mul_r DoubleS x y NearestTiesToEven = Ret (OK, r) /\ category (d0 r) = Infinity /\
  sign (d0 r) <> xorb (sign (d0 x)) (sign (d0 y)).
Proof. exact pair_mul_sign_refuted. Qed.
Print Assumptions C38_mul_sign_refuted.
Theorem C38_mul_zero_sign_refuted : exists x y r, canonical_pair DoubleS x /\ canonical_pair DoubleS y /\
  dd_mul_r DoubleS x y NearestTiesToEven = Ret (OK, r) /\ category (d0 r) = Zero /\
  sign (d0 r) <> xorb (sign (d0 x)) (sign (d0 y)).
Proof. exact pair_mul_zero_sign_refuted. Qed.
Print Assumptions C38_mul_zero_sign_refuted.
Theorem C38_mul_invalid_refuted : exists x y r, category (d0 x) = Zero /\ category (d0 y) = Infinity /\
  dd_mul_r DoubleS x y NearestTiesToEven = Ret (OK, r) /\ category (d0 r) = NaN.
Proof. exact pair_mul_invalid_refuted. Qed.
Print Assumptions C38_mul_invalid_refuted.
Theorem C38_add_signaling_refuted : exists x y r, category (d0 x) = NaN /\ signaling DoubleS (d0 x) = true /\ canonical_pair DoubleS y /\
  dd_add_r DoubleS x y NearestTiesToEven = Ret (OK, r) /\ signaling DoubleS (d0 r) = true.
Proof. exact pair_add_signaling_refuted. Qed.
Print Assumptions C38_add_signaling_refuted.
Theorem C38_add_zero_sign_refuted : exists x y r, canonical_pair DoubleS x /\ canonical_pair DoubleS y /\
  dd_add_r DoubleS x y NearestTiesToEven = Ret (OK, r) /\
  sign (d0 r) <> sum_zero_sign (d0 x) (d0 y) (sign (d0 y)) NearestTiesToEven.
Proof. exact pair_add_zero_sign_refuted. Qed.
Print Assumptions C38_add_zero_sign_refuted.
Example C38_sample : dd_add_r DoubleS p_inf (dd_neg p_inf) NearestTiesToEven = Ret (INVALID_OP, dd_NAN DoubleS) /\
  dd_mul_r DoubleS p_inf p_third NearestTiesToEven = Ret (OK, p_inf).
Proof. split; vm_compute; reflexivity. Qed.

(** ** C46

    [via_wide F spec o]: some double-width number satisfies [spec]; [o] is that
    number, split exactly into a canonical pair, or a panic if it cannot be
    split.  Operands are rounded to the double width first ([operand]). *)
(** splitting is exact *)
Theorem C46_split : forall F, pair_ok F -> forall f, wf (FallbackS F) f ->
  (splittable F f -> exists r, from_fallback F f = Ret r /\ split_of F f r) /\
  (~ splittable F f -> from_fallback F f = Panic).
Proof. exact from_fallback_spec. Qed.
Print Assumptions C46_split.
Theorem C46_read : forall F, pair_ok F -> forall x, readable F x -> exists w, to_fallback F x = Ret w /\ widened F x w.
Proof. exact to_fallback_reads. Qed.
Print Assumptions C46_read.
Theorem C46_div : forall F, pair_ok F -> forall x y m, canonical_pair F x -> canonical_pair F y -> operand F y <> 0%R ->
  via_wide F (fun st f => correctly_rounded (FallbackS F) m (operand F x / operand F y) (xorb (sign (d0 x)) (sign (d0 y))) (st, f))
    (dd_div_r F x y m).
Proof. exact dd_div_r_finite. Qed.
Print Assumptions C46_div.
Theorem C46_div_special : forall F, pair_ok F -> forall x y m, readable F x -> readable F y ->
  category (d0 x) <> NaN -> category (d0 y) <> NaN ->
  category (d0 x) = Infinity \/ category (d0 y) = Infinity \/ category (d0 y) = Zero ->
  exists st r, dd_div_r F x y m = Ret (st, r) /\
    let g := xorb (sign (d0 x)) (sign (d0 y)) in
    match category (d0 x), category (d0 y) with
    | Infinity, Infinity | Zero, Zero => st = INVALID_OP /\ pair_nan F r
    | Infinity, _ => st = OK /\ pair_special F Infinity g r
    | _, Infinity => st = OK /\ pair_special F Zero g r
    | _, _ => st = DIV_BY_ZERO /\ pair_special F Infinity g r
    end.
Proof. exact dd_div_r_special. Qed.
Print Assumptions C46_div_special.
Theorem C46_div_nan : forall F, pair_ok F -> forall x y m, readable F x -> readable F y -> category (d0 x) = NaN \/ category (d0 y) = NaN ->
  exists r, dd_div_r F x y m = Ret (OK, r) /\ pair_same_nan (first_nan_pair x y) r.
Proof. exact dd_div_r_nan. Qed.
Print Assumptions C46_div_nan.
Theorem C46_fmod : forall F, pair_ok F -> forall x y, canonical_pair F x -> canonical_pair F y -> operand F y <> 0%R ->
  via_wide F (fun st f => st = OK /\ finite f /\ sign f = sign (d0 x) /\
      value (FallbackS F) f = (operand F x - IZR (Ztrunc (operand F x / operand F y)) * operand F y)%R /\
      (Rabs (value (FallbackS F) f) < Rabs (operand F y))%R)
    (dd_c_fmod F x y).
Proof. exact dd_c_fmod_finite. Qed.
Print Assumptions C46_fmod.
Theorem C46_fmod_special : forall F, pair_ok F -> forall x y, readable F x -> readable F y ->
  category (d0 x) <> NaN -> category (d0 y) <> NaN -> category (d0 x) = Infinity \/ category (d0 y) = Zero ->
  exists r, dd_c_fmod F x y = Ret (INVALID_OP, r) /\ pair_nan F r.
Proof. exact dd_c_fmod_special. Qed.
Print Assumptions C46_fmod_special.
Theorem C46_fmod_infinity : forall F, pair_ok F -> forall x y, canonical_pair F x -> readable F y -> category (d0 y) = Infinity ->
  via_wide F (fun st f => st = OK /\ finite f /\ value (FallbackS F) f = operand F x /\ sign f = sign (d0 x)) (dd_c_fmod F x y).
Proof. exact dd_c_fmod_infinity. Qed.
Print Assumptions C46_fmod_infinity.
Theorem C46_fmod_nan : forall F, pair_ok F -> forall x y, readable F x -> readable F y -> category (d0 x) = NaN \/ category (d0 y) = NaN ->
  exists r, dd_c_fmod F x y = Ret (OK, r) /\ pair_same_nan (first_nan_pair x y) r.
Proof. exact dd_c_fmod_nan. Qed.
Print Assumptions C46_fmod_nan.
Theorem C46_rem : forall F, pair_ok F -> forall x y, canonical_pair F x -> canonical_pair F y -> operand F y <> 0%R ->
  via_wide F (fun st f => exists n, st = OK /\ finite f /\
      value (FallbackS F) f = (operand F x - IZR n * operand F y)%R /\
      (2 * Rabs (value (FallbackS F) f) <= Rabs (operand F y))%R /\
      (2 * Rabs (value (FallbackS F) f) = Rabs (operand F y) -> Z.even n = true)%R /\
      (value (FallbackS F) f = 0%R -> sign f = sign (d0 x)))
    (dd_ieee_rem F x y).
Proof. exact dd_ieee_rem_finite. Qed.
Print Assumptions C46_rem.
Theorem C46_rem_special : forall F, pair_ok F -> forall x y, readable F x -> readable F y ->
  category (d0 x) <> NaN -> category (d0 y) <> NaN -> category (d0 x) = Infinity \/ category (d0 y) = Zero ->
  exists r, dd_ieee_rem F x y = Ret (INVALID_OP, r) /\ pair_nan F r.
Proof. exact dd_ieee_rem_special. Qed.
Print Assumptions C46_rem_special.
Theorem C46_rem_infinity : forall F, pair_ok F -> forall x y, canonical_pair F x -> readable F y -> category (d0 y) = Infinity ->
  via_wide F (fun st f => st = OK /\ finite f /\ value (FallbackS F) f = operand F x /\ sign f = sign (d0 x)) (dd_ieee_rem F x y).
Proof. exact dd_ieee_rem_infinity. Qed.
Print Assumptions C46_rem_infinity.
Theorem C46_rem_nan : forall F, pair_ok F -> forall x y, readable F x -> readable F y -> category (d0 x) = NaN \/ category (d0 y) = NaN ->
  exists r, dd_ieee_rem F x y = Ret (OK, r) /\ pair_same_nan (first_nan_pair x y) r.
Proof. exact dd_ieee_rem_nan. Qed.
Print Assumptions C46_rem_nan.
(** Missing: operands outside [pair_fma_safe] (C08) *)
Theorem C46_mul_add_partial : forall F, pair_ok F -> forall x y z m, canonical_pair F x -> canonical_pair F y -> canonical_pair F z ->
  pair_fma_safe F x y z ->
  via_wide F (fun st f => correctly_rounded (FallbackS F) m (operand F x * operand F y + operand F z)
      (fma_zero_sign (xorb (sign (d0 x)) (sign (d0 y))) (d0 z) m) (st, f))
    (dd_mul_add_r F x y z m).
Proof. exact dd_mul_add_r_finite. Qed.
Print Assumptions C46_mul_add_partial.
Theorem C46_round_to_integral : forall F, pair_ok F -> forall x m, canonical_pair F x ->
  via_wide F (fun st f => finite f /\ value (FallbackS F) f = IZR (rnd_of m (operand F x)) /\ sign f = sign (d0 x) /\
      (value (FallbackS F) f = operand F x -> st = OK) /\ (value (FallbackS F) f <> operand F x -> st = INEXACT))
    (dd_round_to_integral F x m).
Proof. exact dd_round_to_integral_finite. Qed.
Print Assumptions C46_round_to_integral.
Theorem C46_round_to_integral_special : forall F, pair_ok F -> forall x m, readable F x -> ~ finite (d0 x) ->
  exists r, dd_round_to_integral F x m = Ret (OK, r) /\
    match category (d0 x) with
    | NaN => pair_same_nan x r
    | _ => pair_special F Infinity (sign (d0 x)) r
    end.
Proof. exact dd_round_to_integral_special. Qed.
Print Assumptions C46_round_to_integral_special.
Theorem C46_next_up : forall F, pair_ok F -> forall x a, readable F x -> pair_ext F x = Some a ->
  via_wide F (fun st f => st = OK /\ least_above (FallbackS F) a f /\ (finite f -> value (FallbackS F) f = 0%R -> sign f = true)) (dd_next_up F x).
Proof. exact dd_next_up_spec. Qed.
Print Assumptions C46_next_up.
Theorem C46_next_up_nan : forall F, pair_ok F -> forall x, readable F x -> category (d0 x) = NaN ->
  exists r, dd_next_up F x = Ret (OK, r) /\ pair_same_nan x r.
Proof. exact dd_next_up_nan. Qed.
Print Assumptions C46_next_up_nan.
Theorem C46_to_u128 : forall F, pair_ok F -> forall x w m, canonical_pair F x -> 1 <= w <= 128 ->
  exists st n ex, dd_to_u128_r F x w m = Ret (st, n, ex) /\
    let k := rnd_of m (operand F x) in
    (k < 0 -> st = INVALID_OP /\ n = 0) /\
    (2 ^ w - 1 < k -> st = INVALID_OP /\ n = 2 ^ w - 1) /\
    (0 <= k <= 2 ^ w - 1 -> n = k /\ (IZR k = operand F x -> st = OK) /\ (IZR k <> operand F x -> st = INEXACT)).
Proof. exact dd_to_u128_r_spec. Qed.
Print Assumptions C46_to_u128.
Theorem C46_from_u128 : forall F, pair_ok F -> forall n m, 0 <= n < 2 ^ 128 ->
  via_wide F (fun st f => correctly_rounded (FallbackS F) m (IZR n) false (st, f)) (dd_from_u128_r F n m).
Proof. exact dd_from_u128_r_spec. Qed.
Print Assumptions C46_from_u128.
Theorem C46_inverse : forall F, pair_ok F -> forall x, canonical_pair F x ->
  exists o, (o = Panic \/ exists q, o = Ret q) /\ dd_get_exact_inverse F x = o /\
    match o with
    | Ret (Some r) => (min_normal (FallbackS F) <= Rabs (operand F x))%R /\ canonical_pair F r /\
        (min_normal (FallbackS F) <= Rabs (pair_value F r))%R /\ (operand F x * pair_value F r = 1)%R
    | Ret None => ~ ((min_normal (FallbackS F) <= Rabs (operand F x))%R /\
        exists y, representable (FallbackS F) y /\ (min_normal (FallbackS F) <= Rabs y)%R /\ (operand F x * y = 1)%R)
    | _ => exists y, representable (FallbackS F) y /\ (operand F x * y = 1)%R /\ (max_finite F < Rabs (rounded F NearestTiesToEven y))%R
    end.
Proof. exact dd_get_exact_inverse_spec. Qed.
Print Assumptions C46_inverse.
Theorem C46_next_down : forall F, pair_ok F -> forall x a, readable F x -> pair_ext F x = Some a ->
  via_wide F (fun st f => st = OK /\ greatest_below (FallbackS F) a f /\ (finite f -> value (FallbackS F) f = 0%R -> sign f = false)) (dd_next_down F x).
Proof. exact dd_next_down_spec. Qed.
Print Assumptions C46_next_down.
Theorem C46_next_down_nan : forall F, pair_ok F -> forall x, readable F x -> category (d0 x) = NaN ->
  exists r, dd_next_down F x = Ret (OK, r) /\ pair_same_nan x r.
Proof. exact dd_next_down_nan. Qed.
Print Assumptions C46_next_down_nan.
Theorem C46_from_i128 : forall F, pair_ok F -> forall n m, - 2 ^ 127 <= n < 2 ^ 127 ->
  via_wide F (fun st f => correctly_rounded (FallbackS F) m (IZR n) false (st, f)) (dd_from_i128_r F n m).
Proof. exact dd_from_i128_r_spec. Qed.
Print Assumptions C46_from_i128.
Theorem C46_to_i128 : forall F, pair_ok F -> forall x w m, canonical_pair F x -> (if sign (d0 x) then 1 else 2) <= w <= 128 ->
  exists st n ex, dd_to_i128_r F x w m = Ret (st, n, ex) /\
    let k := rnd_of m (operand F x) in
    (k < - 2 ^ (w - 1) -> st = INVALID_OP /\ n = - 2 ^ (w - 1)) /\
    (2 ^ (w - 1) - 1 < k -> st = INVALID_OP /\ n = 2 ^ (w - 1) - 1) /\
    (- 2 ^ (w - 1) <= k <= 2 ^ (w - 1) - 1 -> n = k /\ (IZR k = operand F x -> st = OK) /\ (IZR k <> operand F x -> st = INEXACT)).
Proof. exact dd_to_i128_r_spec. Qed.
Print Assumptions C46_to_i128.
(** signaling NaNs make all of them panic *)
Theorem C46_signaling : forall F, pair_ok F -> forall x y m w, wf F (d0 x) -> category (d0 x) = NaN -> signaling F (d0 x) = true ->
  dd_div_r F x y m = Panic /\ dd_c_fmod F x y = Panic /\ dd_ieee_rem F x y = Panic /\
  dd_mul_add_r F x y y m = Panic /\ dd_round_to_integral F x m = Panic /\ dd_next_up F x = Panic /\
  dd_to_u128_r F x w m = Panic /\ dd_get_exact_inverse F x = Panic /\
  (forall wd pr alt, dd_fmt F x wd pr alt = Panic).
Proof. exact dd_signaling_panics. Qed.
Print Assumptions C46_signaling.
Theorem C46_signaling_refuted : exists x y, pair_wf DoubleS x /\ category (d0 x) = NaN /\ canonical_pair DoubleS y /\
  dd_div_r DoubleS x y NearestTiesToEven = Panic /\ dd_round_to_integral DoubleS x NearestTiesToEven = Panic /\
  dd_fmt DoubleS x None None false = Panic /\ dd_from_str_r DoubleS (bytes "snan") NearestTiesToEven = Panic.
Proof. exact pair_signaling_refuted. Qed.
Print Assumptions C46_signaling_refuted.
Theorem C46_next_up_refuted : exists x, dd_largest DoubleS = Ret x /\ dd_next_up DoubleS x = Panic.
Proof. exact pair_next_up_refuted. Qed.
Print Assumptions C46_next_up_refuted.
Theorem C46_div_one_refuted : exists x, canonical_pair DoubleS x /\
  dd_div_r DoubleS x p_one NearestTiesToEven = Panic /\ dd_round_to_integral DoubleS x NearestTiesToEven = Panic /\
  dd_to_u128_r DoubleS x 128 NearestTiesToEven <> Panic.
Proof. exact pair_div_one_refuted. Qed.
Print Assumptions C46_div_one_refuted.
Theorem C46_largest_refuted : exists l x, dd_largest DoubleS = Ret l /\ canonical_pair DoubleS x /\
  (pair_value DoubleS l < pair_value DoubleS x)%R /\
  (exists a b st, dd_mul_r DoubleS a b NearestTiesToEven = Ret (st, x)).
Proof. exact pair_largest_refuted. Qed.
Print Assumptions C46_largest_refuted.
Theorem C46_div_one_inexact_refuted : exists x r st, canonical_pair DoubleS x /\
  dd_div_r DoubleS x p_one NearestTiesToEven = Ret (st, r) /\ st = OK /\ pair_value DoubleS r <> pair_value DoubleS x.
Proof. exact pair_div_one_inexact_refuted. Qed.
Print Assumptions C46_div_one_inexact_refuted.
(** 5/4 + 5/4 * 2^-54 divided by 3, and its remainder; operands with two non-zero halves *)
Example C46_sample : pair_ok DoubleS /\ canonical_pair DoubleS p_five /\ canonical_pair DoubleS p_three /\ operand DoubleS p_three <> 0%R /\
  (exists st r, dd_div_r DoubleS p_five p_three NearestTiesToEven = Ret (st, r) /\ category (d1 r) = Normal) /\
  (exists r, dd_c_fmod DoubleS p_six p_five = Ret (OK, r)) /\ readable DoubleS p_qnan /\ readable DoubleS p_inf.
Proof.
  split; [exact double_pair|]. split; [exact p_five_canonical|]. split; [exact p_three_canonical|]. split; [exact p_three_operand|].
  split; [eexists; eexists; split; [vm_compute; reflexivity|reflexivity]|]. split; [eexists; vm_compute; reflexivity|].
  split; [exact p_qnan_readable|exact p_inf_readable].
Qed.
(** the other operations, on the same operands and on an infinity and a NaN *)
Example C46_runs : pair_fma_safe DoubleS p_five p_three p_six /\ canonical_pair DoubleS p_six /\
  dd_div_r DoubleS p_inf p_inf NearestTiesToEven = Ret (INVALID_OP, dd_NAN DoubleS) /\
  dd_div_r DoubleS p_three p_zero NearestTiesToEven = Ret (DIV_BY_ZERO, p_inf) /\
  dd_div_r DoubleS p_three p_qnan NearestTiesToEven = Ret (OK, p_qnan) /\
  dd_c_fmod DoubleS p_three p_inf = Ret (OK, p_three) /\ dd_ieee_rem DoubleS p_three p_zero = Ret (INVALID_OP, dd_NAN DoubleS) /\
  dd_round_to_integral DoubleS p_six TowardPositive = Ret (INEXACT, mkDF (mkFloat (2 ^ 52) 2 Normal false) (d1 p_zero)) /\
  dd_next_up DoubleS p_three = Ret (OK, mkDF (d0 p_three) (mkFloat (2 ^ 52) (-104) Normal false)) /\
  dd_to_u128_r DoubleS p_six 128 TowardPositive = Ret (INEXACT, 4, false) /\
  dd_to_i128_r DoubleS (dd_neg p_six) 2 TowardNegative = Ret (INVALID_OP, -2, false) /\
  dd_from_u128_r DoubleS 3 NearestTiesToEven = Ret (OK, p_three) /\ dd_from_i128_r DoubleS (-1) NearestTiesToEven = Ret (OK, p_neg) /\
  dd_get_exact_inverse DoubleS p_one = Ret (Some p_one) /\ dd_get_exact_inverse DoubleS p_three = Ret None.
Proof. split; [left; reflexivity|]. split; [exact p_six_canonical|]. vm_compute. repeat split. Qed.

(** ** C47 *)
Theorem C47_partial_cmp : forall F, pair_ok F -> forall x y, proper_pair F x -> proper_pair F y ->
  exists r, dd_partial_cmp x y = Ret r /\
    match pair_number F x, pair_number F y, r with
    | Some a, Some b, Some c => ext_compare a b c
    | Some _, Some _, None => False
    | _, _, Some _ => False
    | _, _, None => True
    end.
Proof. exact dd_partial_cmp_spec. Qed.
Print Assumptions C47_partial_cmp.
Theorem C47_lt : forall F, pair_ok F -> forall x y, proper_pair F x -> proper_pair F y ->
  exists b, dd_lt x y = Ret b /\
    (b = true <-> exists a c, pair_number F x = Some a /\ pair_number F y = Some c /\ ext_lt a c).
Proof. exact dd_lt_spec. Qed.
Print Assumptions C47_lt.
Theorem C47_eq : forall F, pair_ok F -> forall x y, proper_pair F x -> proper_pair F y ->
  exists b, dd_eq x y = Ret b /\
    (b = true <-> exists a, pair_number F x = Some a /\ pair_number F y = Some a).
Proof. exact dd_eq_spec. Qed.
Print Assumptions C47_eq.
Theorem C47_min : forall F x y, pair_ok F -> proper_pair F x -> proper_pair F y ->
  exists r, dd_min x y = Ret r /\ (r = x \/ r = y) /\
  match pair_number F x, pair_number F y with
  | None, _ => r = y
  | _, None => r = x
  | Some a, Some b => exists c, pair_number F r = Some c /\ ext_le c a /\ ext_le c b
  end.
Proof. exact dd_min_spec. Qed.
Print Assumptions C47_min.
Theorem C47_max : forall F x y, pair_ok F -> proper_pair F x -> proper_pair F y ->
  exists r, dd_max x y = Ret r /\ (r = x \/ r = y) /\
  match pair_number F x, pair_number F y with
  | None, _ => r = y
  | _, None => r = x
  | Some a, Some b => exists c, pair_number F r = Some c /\ ext_le a c /\ ext_le b c
  end.
Proof. exact dd_max_spec. Qed.
Print Assumptions C47_max.
Theorem C47_minimum : forall F x y, pair_ok F -> proper_pair F x -> proper_pair F y ->
  exists r, dd_minimum x y = Ret r /\ (r = x \/ r = y) /\
  match pair_number F x, pair_number F y with
  | None, _ => r = x
  | _, None => r = y
  | Some a, Some b =>
    (exists c, pair_number F r = Some c /\ ext_le c a /\ ext_le c b) /\
    (category (d0 x) = Zero -> category (d0 y) = Zero -> sign (d0 r) = sign (d0 x) || sign (d0 y))
  end.
Proof. exact dd_minimum_spec. Qed.
Print Assumptions C47_minimum.
Theorem C47_maximum : forall F x y, pair_ok F -> proper_pair F x -> proper_pair F y ->
  exists r, dd_maximum x y = Ret r /\ (r = x \/ r = y) /\
  match pair_number F x, pair_number F y with
  | None, _ => r = x
  | _, None => r = y
  | Some a, Some b =>
    (exists c, pair_number F r = Some c /\ ext_le a c /\ ext_le b c) /\
    (category (d0 x) = Zero -> category (d0 y) = Zero -> sign (d0 r) = sign (d0 x) && sign (d0 y))
  end.
Proof. exact dd_maximum_spec. Qed.
Print Assumptions C47_maximum.
(** magnitudes; missing: equal high halves with a zero low half (the code
    panics) or with low halves that differ in their sign only (it says equal) *)
Theorem C47_cmp_abs_partial : forall F, pair_ok F -> forall x y, canonical_pair F x -> canonical_pair F y ->
  category (d0 x) = Normal -> category (d0 y) = Normal ->
  (Rabs (value F (d0 x)) = Rabs (value F (d0 y)) ->
     category (d1 x) = Normal /\ category (d1 y) = Normal /\
     (Rabs (value F (d1 x)) = Rabs (value F (d1 y)) -> xorb (sign (d0 x)) (sign (d1 x)) = xorb (sign (d0 y)) (sign (d1 y)))) ->
  dd_cmp_abs_normal x y = Ret (Rcompare (Rabs (pair_value F x)) (Rabs (pair_value F y))).
Proof. exact dd_cmp_abs_spec. Qed.
Print Assumptions C47_cmp_abs_partial.
Example C47_cmp_abs_sample : canonical_pair DoubleS p_above /\ canonical_pair DoubleS p_third /\ canonical_pair DoubleS p_five /\
  dd_cmp_abs_normal p_above p_third = Ret Gt /\ dd_cmp_abs_normal (dd_neg p_above) p_above = Ret Eq.
Proof.
  split; [exact p_above_canonical|]. split; [exact p_third_canonical|]. split; [exact p_five_canonical|]. vm_compute. split; reflexivity.
Qed.
Theorem C47_cmp_abs_refuted : exists x y, canonical_pair DoubleS x /\ canonical_pair DoubleS y /\
  dd_cmp_abs_normal x y = Ret Eq /\ (Rabs (pair_value DoubleS y) < Rabs (pair_value DoubleS x))%R /\
  exists z, canonical_pair DoubleS z /\ category (d0 z) = Normal /\ dd_cmp_abs_normal z z = Panic.
Proof. exact pair_cmp_abs_refuted. Qed.
Print Assumptions C47_cmp_abs_refuted.
Theorem C47_noncanonical_refuted : exists x y, pair_wf DoubleS x /\ pair_wf DoubleS y /\ pair_finite x /\ pair_finite y /\
  dd_partial_cmp x y = Ret (Some Lt) /\ (pair_value DoubleS y < pair_value DoubleS x)%R.
Proof. exact pair_order_noncanonical_refuted. Qed.
Print Assumptions C47_noncanonical_refuted.
(** 1 - 2^-60 < 1 + 2^-60: the high halves are the same *)
Example C47_sample : proper_pair DoubleS p_below /\ proper_pair DoubleS p_above /\ d0 p_below = d0 p_above /\
  dd_partial_cmp p_below p_above = Ret (Some Lt) /\ proper_pair DoubleS p_inf /\ proper_pair DoubleS p_qnan /\
  dd_partial_cmp p_below p_qnan = Ret None.
Proof.
  split; [apply canonical_proper, p_below_canonical|]. split; [apply canonical_proper, p_above_canonical|]. split; [reflexivity|].
  split; [vm_compute; reflexivity|]. split; [exact p_inf_proper|]. split; [exact p_qnan_proper|vm_compute; reflexivity].
Qed.

(** ** C48 *)
Theorem C48_is_integer : forall F, pair_ok F -> forall x, canonical_pair F x ->
  exists b, dd_is_integer F x = Ret b /\ (b = true <-> exists n, pair_value F x = IZR n).
Proof. exact dd_is_integer_spec. Qed.
Print Assumptions C48_is_integer.
Theorem C48_is_integer_special : forall F, pair_ok F -> forall x, pair_wf F x -> ~ finite (d0 x) -> dd_is_integer F x = Ret false.
Proof. exact dd_is_integer_special. Qed.
Print Assumptions C48_is_integer_special.
Theorem C48_is_denormal : forall F, pair_ok F -> forall x, pair_wf F x -> pair_finite x ->
  exists b, dd_is_denormal F x = Ret b /\
    (b = true <-> category (d0 x) = Normal /\ ((Rabs (value F (d0 x)) < min_normal F)%R \/ ~ canonical_pair F x)).
Proof. exact dd_is_denormal_spec. Qed.
Print Assumptions C48_is_denormal.
Theorem C48_scalbn : forall F, pair_ok F -> forall x n m, pair_wf F x -> pair_finite x ->
  exists r st0 st1, dd_scalbn_r F x n m = Ret r /\
    correctly_rounded F m (value F (d0 x) * bpow r2 n) (sign (d0 x)) (st0, d0 r) /\
    correctly_rounded F m (value F (d1 x) * bpow r2 n) (sign (d1 x)) (st1, d1 r).
Proof. exact dd_scalbn_r_spec. Qed.
Print Assumptions C48_scalbn.
Theorem C48_scalbn_exact : forall F, pair_ok F -> forall x n m, pair_wf F x -> pair_finite x ->
  representable F (value F (d0 x) * bpow r2 n) -> representable F (value F (d1 x) * bpow r2 n) ->
  exists r, dd_scalbn_r F x n m = Ret r /\ pair_wf F r /\ pair_finite r /\
    value F (d0 r) = (value F (d0 x) * bpow r2 n)%R /\ pair_value F r = (pair_value F x * bpow r2 n)%R.
Proof. exact dd_scalbn_r_exact. Qed.
Print Assumptions C48_scalbn_exact.
Theorem C48_ilogb : forall F, pair_ok F -> forall x, pair_wf F x -> category (d0 x) = Normal ->
  exists e, dd_ilogb F x = Ret e /\ (bpow r2 e <= Rabs (value F (d0 x)) < bpow r2 (e + 1))%R.
Proof. exact dd_ilogb_normal. Qed.
Print Assumptions C48_ilogb.
Theorem C48_ilogb_special : forall F x,
  (category (d0 x) = NaN -> dd_ilogb F x = Ret (- 2 ^ 31)) /\
  (category (d0 x) = Zero -> dd_ilogb F x = Ret (- 2 ^ 31 + 1)) /\
  (category (d0 x) = Infinity -> dd_ilogb F x = Ret (2 ^ 31 - 1)).
Proof. exact dd_ilogb_special. Qed.
Print Assumptions C48_ilogb_special.
Theorem C48_frexp : forall F, pair_ok F -> forall x m, pair_wf F x -> category (d0 x) = Normal -> finite (d1 x) ->
  exists r e st, dd_frexp_r F x m = Ret (r, e) /\ wf F (d0 r) /\ finite (d0 r) /\
    value F (d0 x) = (value F (d0 r) * bpow r2 e)%R /\ (/ 2 <= Rabs (value F (d0 r)) < 1)%R /\
    correctly_rounded F m (value F (d1 x) * bpow r2 (- e)) (sign (d1 x)) (st, d1 r).
Proof. exact dd_frexp_r_normal. Qed.
Print Assumptions C48_frexp.
(** the constants; [dd_largest] is not the largest pair ([C46_largest_refuted]) *)
Theorem C48_smallest : forall F, pair_ok F ->
  canonical_pair F (dd_SMALLEST F) /\ sign (d0 (dd_SMALLEST F)) = false /\ pair_value F (dd_SMALLEST F) = min_positive F.
Proof. exact dd_smallest_spec. Qed.
Print Assumptions C48_smallest.
Theorem C48_smallest_normalized : forall F, pair_ok F ->
  exists x, dd_smallest_normalized F = Ret x /\ canonical_pair F x /\ sign (d0 x) = false /\
    pair_value F x = bpow r2 (MIN_EXP F + PRECISION F) /\ is_special F Zero false (d1 x).
Proof. exact dd_smallest_normalized_spec. Qed.
Print Assumptions C48_smallest_normalized.
Theorem C48_largest : forall F, pair_ok F ->
  exists x, dd_largest F = Ret x /\ canonical_pair F x /\
    sign (d0 x) = false /\ value F (d0 x) = max_finite F /\ category (d1 x) = Normal /\ sign (d1 x) = false /\
    value F (d1 x) = (IZR (2 ^ PRECISION F - 2) * bpow r2 (MAX_EXP F - 2 * PRECISION F))%R.
Proof. exact dd_largest_spec. Qed.
Print Assumptions C48_largest.
Theorem C48_is_smallest : forall F, pair_ok F -> forall x, pair_wf F x ->
  dd_is_smallest F x = true <->
  category (d0 x) = Normal /\ Rabs (value F (d0 x)) = min_positive F /\ category (d1 x) = Zero /\ sign (d1 x) = false.
Proof. exact dd_is_smallest_spec. Qed.
Print Assumptions C48_is_smallest.
Theorem C48_is_smallest_normalized : forall F, pair_ok F -> forall x, pair_wf F x ->
  exists b, dd_is_smallest_normalized F x = Ret b /\
    (b = true <-> category (d0 x) = Normal /\ Rabs (value F (d0 x)) = bpow r2 (MIN_EXP F + PRECISION F) /\
                  category (d1 x) = Zero /\ sign (d1 x) = false).
Proof. exact dd_is_smallest_normalized_spec. Qed.
Print Assumptions C48_is_smallest_normalized.
Theorem C48_is_largest : forall F, pair_ok F -> forall x, pair_wf F x ->
  exists b, dd_is_largest F x = Ret b /\
    (b = true <-> category (d0 x) = Normal /\ Rabs (value F (d0 x)) = max_finite F /\ category (d1 x) = Normal /\
       value F (d1 x) = (IZR (if sign (d0 x) then - (2 ^ PRECISION F - 2) else 2 ^ PRECISION F - 2) * bpow r2 (MAX_EXP F - 2 * PRECISION F))%R).
Proof. exact dd_is_largest_spec. Qed.
Print Assumptions C48_is_largest.
Example C48_constants_sample :
  (let! x := dd_largest DoubleS in dd_to_bits DoubleS x) = Ret 0x7c8ffffffffffffe7fefffffffffffff /\
  (let! x := dd_smallest_normalized DoubleS in dd_to_bits DoubleS x) = Ret 0x0360000000000000 /\
  dd_is_largest DoubleS p_max = Ret false /\ dd_is_smallest DoubleS p_one = false /\
  (let! x := dd_largest DoubleS in dd_is_largest DoubleS (dd_neg x)) = Ret true.
Proof. vm_compute. repeat split. Qed.
(** 3 + 3 * 2^-54 is not an integer though its high half is; times 2^3 *)
Example C48_sample : canonical_pair DoubleS p_six /\ dd_is_integer DoubleS p_six = Ret false /\ is_integer DoubleS (d0 p_six) = Ret true /\
  dd_is_integer DoubleS p_three = Ret true /\ dd_ilogb DoubleS p_six = Ret 1 /\
  (exists r, dd_scalbn_r DoubleS p_six 3 NearestTiesToEven = Ret r /\ exp (d0 r) = 4 /\ exp (d1 r) = -50).
Proof.
  split; [exact p_six_canonical|]. split; [vm_compute; reflexivity|]. split; [vm_compute; reflexivity|]. split; [vm_compute; reflexivity|].
  split; [vm_compute; reflexivity|]. eexists. split; [vm_compute; reflexivity|]. split; reflexivity.
Qed.

(** ** C49 *)
Theorem C49_hex : forall F, pair_ok F -> forall s g x m, hex_text s g x -> len s + 2 ^ 20 <= 2 ^ 29 -> 2 * PRECISION F <= 125 ->
  exists o, dd_from_str_r F s m = (let! res := o in Ret (Ok res)) /\
    via_wide F (fun st f => correctly_rounded (FallbackS F) m x g (st, f)) o.
Proof. exact dd_from_str_hex. Qed.
Print Assumptions C49_hex.
Theorem C49_dec : forall F, pair_ok F -> forall s g x m, dec_ok (FallbackS F) -> dec_text s g x -> len s < 2 ^ 25 ->
  exists o, dd_from_str_r F s m = (let! res := o in Ret (Ok res)) /\
    via_wide F (fun st f =>
      (exists y, (Rabs (x - y) <= Rabs y * bpow r2 (-124))%R /\ correctly_rounded (FallbackS F) m y g (st, f)) /\
      (m = NearestTiesToEven \/ m = NearestTiesToAway ->
         exists st', correctly_rounded (FallbackS F) m x g (st', f) /\ (st = st' \/ st = OK \/ st' = OK))) o.
Proof. exact dd_from_str_dec. Qed.
Print Assumptions C49_dec.
Theorem C49_inf : forall F, pair_ok F -> forall s g m, inf_text s g ->
  exists r, dd_from_str_r F s m = Ret (Ok (OK, r)) /\ pair_special F Infinity g r.
Proof. exact dd_from_str_inf. Qed.
Print Assumptions C49_inf.
Theorem C49_rejects : forall F s m, ~ accepted s -> exists e, dd_from_str_r F s m = Ret (Err e).
Proof. exact dd_from_str_rejects. Qed.
Print Assumptions C49_rejects.
Theorem C49_accepts : forall F, pair_ok F -> forall s m, dec_ok (FallbackS F) -> accepted s -> len s < 2 ^ 25 ->
  exists o, dd_from_str_r F s m = (let! res := o in Ret (Ok res)) /\ via_wide F (fun _ _ => True) o.
Proof. exact dd_from_str_accepts. Qed.
Print Assumptions C49_accepts.
Theorem C49_parse_refuted : exists s st f, from_str_r (FallbackS DoubleS) s NearestTiesToEven = Ret (Ok (st, f)) /\
  category f = Normal /\ dd_from_str_r DoubleS s NearestTiesToEven = Panic /\
  dd_from_str_r DoubleS (bytes "1e400") TowardZero = Panic.
Proof. exact pair_parse_refuted. Qed.
Print Assumptions C49_parse_refuted.
Example C49_sample : dec_ok (FallbackS DoubleS) /\ 2 * PRECISION DoubleS <= 125 /\
  (exists st, dd_from_str_r DoubleS (bytes "0.33333333333333333333333333333333333333333333333333") NearestTiesToEven = Ret (Ok (st, p_third))).
Proof.
  split; [apply crate_dec_ok; do 8 right; left; reflexivity|]. split; [discriminate|]. eexists. vm_compute. reflexivity.
Qed.
