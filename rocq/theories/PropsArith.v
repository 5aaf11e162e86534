(** * PropsArith.v -- rounding and exception flags of the arithmetic
    (C04, C05, C06, C07, C08, C09, C12)

    For the formats with infinities ([NONFINITE_BEHAVIOR S = IEEE754]: all
    formats of the crate but Float8E4M3FN) every operation but the fused
    multiply-add is proved correctly rounded without conditions.  For
    Float8E4M3FN the statements carry [overflow_side_ok], whose complement is
    the set of inputs for which the code is wrong ([..._refuted]); the
    [..._crate] theorems say what it delivers there. *)
From Coq Require Import ZArith Reals List Bool Lra.
From Flocq Require Import Core.
From Verif Require Import Machine Ieee Spec Arith Fma Convert Int Scale Formats Algebra Laws SpecFma FmaFull FmaExact Samples Refute.
Import ListNotations.
Local Open Scope Z_scope.

(** ** C04: addition *)
Theorem C04_add : forall S x y m, sem_ok S -> NONFINITE_BEHAVIOR S = IEEE754 ->
  wf S x -> wf S y -> finite x -> finite y ->
  exists res, add_r S x y m = Ret res /\ correctly_rounded S m (value S x + value S y) (sum_zero_sign x y (sign y) m) res.
Proof. exact add_r_ieee. Qed.
Print Assumptions C04_add.
(** all formats, up to the overflows described above *)
Theorem C04_add_partial : forall S x y m, sem_ok S ->
  wf S x -> wf S y -> finite x -> finite y -> overflow_side_ok S m (value S x + value S y) ->
  exists res, add_r S x y m = Ret res /\ correctly_rounded S m (value S x + value S y) (sum_zero_sign x y (sign y) m) res.
Proof. exact add_r_correct. Qed.
Print Assumptions C04_add_partial.
(** all formats, all inputs: what is delivered *)
Theorem C04_add_crate : forall S x y m, sem_ok S ->
  wf S x -> wf S y -> finite x -> finite y ->
  exists res, add_r S x y m = Ret res /\ crate_rounded S m (value S x + value S y) (sum_zero_sign x y (sign y) m) res.
Proof. exact add_r_spec. Qed.
Print Assumptions C04_add_crate.
Theorem C04_add_refuted : exists S x y m res, sem_ok S /\ wf S x /\ wf S y /\ finite x /\ finite y /\
  add_r S x y m = Ret res /\ forall zs, ~ correctly_rounded S m (value S x + value S y) zs res.
Proof. exact add_r_refuted. Qed.
Print Assumptions C04_add_refuted.
(** 1 + 1.5 ulp is a tie *)
Example C04_add_example : sem_ok HalfS /\ NONFINITE_BEHAVIOR HalfS = IEEE754 /\ wf HalfS h_one /\ wf HalfS h_small /\
  finite h_one /\ finite h_small /\ add_r HalfS h_one h_small NearestTiesToEven = Ret (INEXACT, mkFloat 1026 0 Normal false).
Proof.
  split; [exact half_ok|]. split; [reflexivity|]. split; [exact h_one_wf|]. split; [exact h_small_wf|].
  split; [left; reflexivity|]. split; [left; reflexivity|]. vm_compute. reflexivity.
Qed.

(** ** C05: subtraction *)
Theorem C05_sub : forall S x y m, sem_ok S -> NONFINITE_BEHAVIOR S = IEEE754 ->
  wf S x -> wf S y -> finite x -> finite y ->
  exists res, sub_r S x y m = Ret res /\ correctly_rounded S m (value S x - value S y) (sum_zero_sign x y (negb (sign y)) m) res.
Proof. exact sub_r_ieee. Qed.
Print Assumptions C05_sub.
(** all formats, up to the overflows described above *)
Theorem C05_sub_partial : forall S x y m, sem_ok S ->
  wf S x -> wf S y -> finite x -> finite y -> overflow_side_ok S m (value S x - value S y) ->
  exists res, sub_r S x y m = Ret res /\ correctly_rounded S m (value S x - value S y) (sum_zero_sign x y (negb (sign y)) m) res.
Proof. exact sub_r_correct. Qed.
Print Assumptions C05_sub_partial.
(** all formats, all inputs: what is delivered *)
Theorem C05_sub_crate : forall S x y m, sem_ok S ->
  wf S x -> wf S y -> finite x -> finite y ->
  exists res, sub_r S x y m = Ret res /\ crate_rounded S m (value S x - value S y) (sum_zero_sign x y (negb (sign y)) m) res.
Proof. exact sub_r_spec. Qed.
Print Assumptions C05_sub_crate.
Theorem C05_sub_refuted : exists S x y m res, sem_ok S /\ wf S x /\ wf S y /\ finite x /\ finite y /\
  sub_r S x y m = Ret res /\ forall zs, ~ correctly_rounded S m (value S x - value S y) zs res.
Proof. exact sub_r_refuted. Qed.
Print Assumptions C05_sub_refuted.
(** 1 - 2^-24 rounds to the predecessor of 1 *)
Example C05_sub_example : sem_ok HalfS /\ NONFINITE_BEHAVIOR HalfS = IEEE754 /\ wf HalfS h_one /\ wf HalfS h_min /\
  finite h_one /\ finite h_min /\ sub_r HalfS h_one h_min TowardZero = Ret (INEXACT, mkFloat 2047 (-1) Normal false).
Proof.
  split; [exact half_ok|]. split; [reflexivity|]. split; [exact h_one_wf|]. split; [exact h_min_wf|].
  split; [left; reflexivity|]. split; [left; reflexivity|]. vm_compute. reflexivity.
Qed.
(** subtraction is addition of the negated operand *)
Theorem C05_sub_is_add_neg : forall S x y m, sem_ok S -> wf S x -> wf S y -> category x <> NaN -> category y <> NaN ->
  exists st f f', sub_r S x y m = Ret (st, f) /\ add_r S x (neg y) m = Ret (st, f') /\ bitwise_eq f f' = true.
Proof. exact sub_r_add_neg. Qed.
Print Assumptions C05_sub_is_add_neg.
Example C05_sub_is_add_neg_example : wf HalfS h_inf /\ wf HalfS h_one /\ category h_inf <> NaN /\
  sub_r HalfS h_one h_inf NearestTiesToEven = Ret (OK, h_ninf).
Proof. split; [exact h_inf_wf|]. split; [exact h_one_wf|]. split; [discriminate|]. vm_compute. reflexivity. Qed.

(** ** C06: multiplication *)
Theorem C06_mul : forall S x y m, sem_ok S -> NONFINITE_BEHAVIOR S = IEEE754 ->
  wf S x -> wf S y -> finite x -> finite y ->
  exists res, mul_r S x y m = Ret res /\ correctly_rounded S m (value S x * value S y) (xorb (sign x) (sign y)) res.
Proof. exact mul_r_ieee. Qed.
Print Assumptions C06_mul.
(** all formats, up to the overflows described above *)
Theorem C06_mul_partial : forall S x y m, sem_ok S ->
  wf S x -> wf S y -> finite x -> finite y -> overflow_side_ok S m (value S x * value S y) ->
  exists res, mul_r S x y m = Ret res /\ correctly_rounded S m (value S x * value S y) (xorb (sign x) (sign y)) res.
Proof. exact mul_r_finite. Qed.
Print Assumptions C06_mul_partial.
(** all formats, all inputs: what is delivered *)
Theorem C06_mul_crate : forall S x y m, sem_ok S ->
  wf S x -> wf S y -> finite x -> finite y ->
  exists res, mul_r S x y m = Ret res /\ crate_rounded S m (value S x * value S y) (xorb (sign x) (sign y)) res.
Proof. exact mul_r_crate. Qed.
Print Assumptions C06_mul_crate.
Theorem C06_mul_refuted : exists S x y m res, sem_ok S /\ wf S x /\ wf S y /\ finite x /\ finite y /\
  mul_r S x y m = Ret res /\ forall zs, ~ correctly_rounded S m (value S x * value S y) zs res.
Proof. exact mul_r_refuted. Qed.
Print Assumptions C06_mul_refuted.
(** -1.5 times the smallest number, rounded down *)
Example C06_mul_example : sem_ok HalfS /\ NONFINITE_BEHAVIOR HalfS = IEEE754 /\ wf HalfS h_neg /\ wf HalfS h_min /\
  finite h_neg /\ finite h_min /\ mul_r HalfS h_neg h_min TowardNegative = Ret (Z.lor UNDERFLOW INEXACT, mkFloat 2 (-14) Normal true).
Proof.
  split; [exact half_ok|]. split; [reflexivity|]. split; [exact h_neg_wf|]. split; [exact h_min_wf|].
  split; [left; reflexivity|]. split; [left; reflexivity|]. vm_compute. reflexivity.
Qed.

(** ** C07: division *)
Theorem C07_div : forall S x y m, sem_ok S -> NONFINITE_BEHAVIOR S = IEEE754 ->
  wf S x -> wf S y -> finite x -> category y = Normal ->
  exists res, div_r S x y m = Ret res /\ correctly_rounded S m (value S x / value S y) (xorb (sign x) (sign y)) res.
Proof. exact div_r_ieee. Qed.
Print Assumptions C07_div.
(** all formats, up to the overflows described above *)
Theorem C07_div_partial : forall S x y m, sem_ok S ->
  wf S x -> wf S y -> finite x -> category y = Normal -> overflow_side_ok S m (value S x / value S y) ->
  exists res, div_r S x y m = Ret res /\ correctly_rounded S m (value S x / value S y) (xorb (sign x) (sign y)) res.
Proof. exact div_r_finite. Qed.
Print Assumptions C07_div_partial.
(** all formats, all inputs: what is delivered *)
Theorem C07_div_crate : forall S x y m, sem_ok S ->
  wf S x -> wf S y -> finite x -> category y = Normal ->
  exists res, div_r S x y m = Ret res /\ crate_rounded S m (value S x / value S y) (xorb (sign x) (sign y)) res.
Proof. exact div_r_crate. Qed.
Print Assumptions C07_div_crate.
Theorem C07_div_refuted : exists S x y m res, sem_ok S /\ wf S x /\ wf S y /\ finite x /\ category y = Normal /\
  div_r S x y m = Ret res /\ forall zs, ~ correctly_rounded S m (value S x / value S y) zs res.
Proof. exact div_r_refuted. Qed.
Print Assumptions C07_div_refuted.
(** 1 / 3 *)
Example C07_div_example : sem_ok HalfS /\ NONFINITE_BEHAVIOR HalfS = IEEE754 /\ wf HalfS h_one /\ wf HalfS h_three /\
  finite h_one /\ category h_three = Normal /\ div_r HalfS h_one h_three NearestTiesToAway = Ret (INEXACT, mkFloat 1365 (-2) Normal false).
Proof.
  split; [exact half_ok|]. split; [reflexivity|]. split; [exact h_one_wf|]. split; [exact h_three_wf|].
  split; [left; reflexivity|]. split; [reflexivity|]. vm_compute. reflexivity.
Qed.

(** ** C08: the fused multiply-add

    Missing from the full claim: operands that are not [fma_safe] (a subnormal
    addend of the other sign and a product below the normal range), where the
    code returns wrong results or panics; exactly which and when is said by
    [C08_mul_add_uncut], [C08_mul_add_cut] and [C08_mul_add_panics]. *)
Theorem C08_mul_add_partial : forall S x y z m, sem_ok S -> NONFINITE_BEHAVIOR S = IEEE754 ->
  wf S x -> wf S y -> wf S z -> finite x -> finite y -> finite z -> fma_safe S x y z ->
  exists res, mul_add_r S x y z m = Ret res /\
    correctly_rounded S m (value S x * value S y + value S z) (fma_zero_sign (xorb (sign x) (sign y)) z m) res.
Proof. exact mul_add_r_ieee. Qed.
Print Assumptions C08_mul_add_partial.
Theorem C08_mul_add_crate_partial : forall S x y z m, sem_ok S ->
  wf S x -> wf S y -> wf S z -> finite x -> finite y -> finite z -> fma_safe S x y z ->
  exists res, mul_add_r S x y z m = Ret res /\
    crate_rounded S m (value S x * value S y + value S z) (fma_zero_sign (xorb (sign x) (sign y)) z m) res.
Proof. exact mul_add_r_crate. Qed.
Print Assumptions C08_mul_add_crate_partial.
(** (1 + 2^-10) * (1 + 2^-10) - (1 + 2^-10), whose last bit would be lost by
    rounding the product *)
Example C08_mul_add_example : wf HalfS h_one_ulp /\ fma_safe HalfS h_one_ulp h_one_ulp (neg h_one_ulp) /\
  mul_add_r HalfS h_one_ulp h_one_ulp (neg h_one_ulp) NearestTiesToEven = Ret (OK, mkFloat 1025 (-10) Normal false).
Proof.
  split; [exact h_one_ulp_wf|]. split; [|vm_compute; reflexivity].
  right. right. right. left. exact h_one_ulp_square.
Qed.
(** all formats, all finite operands, [fma_safe] or not, with [v] the exact
    result and [u = 2^(MIN_EXP - 2 * PRECISION)], far below the least positive
    number 2^(MIN_EXP - PRECISION + 1): the code delivers the correct rounding
    of a number less than [2 u] away from [v]; or it reports an underflow with a
    result of the sign of [v] and at most the least positive number, and [v] is
    nonzero and less than [2 u]; or it panics, and [v] is nonzero and less than
    [u] *)
Theorem C08_mul_add_any : forall S x y z m, sem_ok S ->
  wf S x -> wf S y -> wf S z -> finite x -> finite y -> finite z ->
  fma_result S m (value S x * value S y + value S z) (fma_zero_sign (xorb (sign x) (sign y)) z m) (mul_add_r S x y z m).
Proof. exact mul_add_r_any. Qed.
Print Assumptions C08_mul_add_any.
(** the operands of the two theorems below *)
Example C08_mul_add_any_example :
  wf HalfS h_0c11 /\ wf HalfS h_0bdf /\ wf HalfS h_8001 /\
  mul_add_r HalfS h_0c11 h_0bdf h_8001 NearestTiesToEven = Panic /\
  wf Float8E5M2S e5_x /\ wf Float8E5M2S e5_y /\ wf Float8E5M2S e5_z /\
  mul_add_r Float8E5M2S e5_x e5_y e5_z NearestTiesToEven = Ret (24, e5_r).
Proof.
  split; [sample_wf|]. split; [sample_wf|]. split; [sample_wf|]. split; [vm_compute; reflexivity|].
  split; [sample_wf|]. split; [sample_wf|]. split; [sample_wf|]. vm_compute; reflexivity.
Qed.
(** Exactly what the code does, all formats, all finite operands (SpecFma.v).
    Unless a subnormal addend meets a product of the other sign, below the normal
    range, that is no multiple of [u], the result is right: *)
Theorem C08_mul_add_uncut : forall S, sem_ok S -> forall x y z m, wf S x -> wf S y -> wf S z -> finite x -> finite y -> finite z -> ~ product_cut S x y z ->
  exists res, mul_add_r S x y z m = Ret res /\
    crate_rounded S m (value S x * value S y + value S z) (fma_zero_sign (xorb (sign x) (sign y)) z m) res.
Proof. exact mul_add_r_uncut. Qed.
Print Assumptions C08_mul_add_uncut.
(** in that case the code panics if the addend is the product without its lost
    digits, and otherwise delivers the rounding of [fma_seen] *)
Theorem C08_mul_add_cut : forall S, sem_ok S -> forall x y z m, wf S x -> wf S y -> wf S z -> finite x -> finite y -> finite z -> product_cut S x y z ->
  (cut_down S (Rabs (value S x * value S y)) = Rabs (value S z) -> mul_add_r S x y z m = Panic) /\
  (cut_down S (Rabs (value S x * value S y)) <> Rabs (value S z) -> forall zs,
   fma_seen S x y z <> 0%R /\ exists res, mul_add_r S x y z m = Ret res /\ crate_rounded S m (fma_seen S x y z) zs res).
Proof. exact mul_add_r_cut. Qed.
Print Assumptions C08_mul_add_cut.
(** which is right if the addend is larger than the product, by [u] or more *)
Theorem C08_mul_add_above : forall S, sem_ok S -> forall x y z m, wf S x -> wf S y -> wf S z -> finite x -> finite y -> finite z -> product_cut S x y z ->
  (Rabs (value S x * value S y) + fma_unit S <= Rabs (value S z))%R ->
  exists res, mul_add_r S x y z m = Ret res /\ correctly_rounded S m (value S x * value S y + value S z) false res.
Proof. exact mul_add_r_above. Qed.
Print Assumptions C08_mul_add_above.
Theorem C08_mul_add_panics : forall S, sem_ok S -> forall x y z m, wf S x -> wf S y -> wf S z ->
  (mul_add_r S x y z m = Panic <->
   finite x /\ finite y /\ finite z /\ product_cut S x y z /\ cut_down S (Rabs (value S x * value S y)) = Rabs (value S z)).
Proof. exact mul_add_r_panics. Qed.
Print Assumptions C08_mul_add_panics.
(** -49 * 2^-21 + 2^-16: the product is cut to 24 * 2^-20, and -7.5 * 2^-20 is
    rounded (to -0) instead of -8.5 * 2^-20 (to -2^-16) *)
Example C08_mul_add_cut_example : product_cut Float8E5M2S e5_x e5_y e5_z /\ fma_seen Float8E5M2S e5_x e5_y e5_z = (-15 * bpow r2 (-21))%R /\
  (value Float8E5M2S e5_x * value Float8E5M2S e5_y + value Float8E5M2S e5_z = -17 * bpow r2 (-21))%R /\
  product_cut HalfS h_0c11 h_0bdf h_8001.
Proof.
  assert (V : (value Float8E5M2S e5_x * value Float8E5M2S e5_y = - (49 * bpow r2 (-21)))%R) by (unfold value; cbn; lra).
  assert (Z : (value Float8E5M2S e5_z = 32 * bpow r2 (-21))%R) by (unfold value; cbn; lra).
  assert (B : (0 < bpow r2 (-21))%R) by apply bpow_gt_0.
  assert (P : Rabs (value Float8E5M2S e5_x * value Float8E5M2S e5_y) = (49 * bpow r2 (-21))%R) by (rewrite V, Rabs_Ropp; apply Rabs_pos_eq; lra).
  assert (A : Rabs (value Float8E5M2S e5_z) = (32 * bpow r2 (-21))%R) by (rewrite Z; apply Rabs_pos_eq; lra).
  assert (U : fma_unit Float8E5M2S = (2 * bpow r2 (-21))%R) by (unfold fma_unit; cbn; lra).
  assert (M : min_normal Float8E5M2S = (128 * bpow r2 (-21))%R) by (unfold min_normal; cbn; lra).
  assert (C : cut_down Float8E5M2S (49 * bpow r2 (-21)) = (48 * bpow r2 (-21))%R).
  { rewrite (cut_down_eq Float8E5M2S 49 2 (bpow r2 (-21))) by (reflexivity || (rewrite U; reflexivity)). rewrite U. change (49 / 2)%Z with 24%Z. lra. }
  split; [|split; [|split; [rewrite V, Z; lra|]]].
  - unfold product_cut. rewrite P, A, C, Z, M. split; [discriminate|]. split; [lra|]. split; [lra|]. split; lra.
  - unfold fma_seen, fma_difference. rewrite P, A, C. rewrite Rlt_bool_false by lra. rewrite Rlt_bool_false by (rewrite U; lra). cbn [e5_x e5_y sign xorb]. lra.
  - apply (proj1 (C08_mul_add_panics HalfS half_ok h_0c11 h_0bdf h_8001 NearestTiesToEven ltac:(sample_wf) ltac:(sample_wf) ltac:(sample_wf))). vm_compute. reflexivity.
Qed.
(** it does not always round correctly, in a format with infinities ... *)
Theorem C08_mul_add_refuted : exists S x y z m res, sem_ok S /\ NONFINITE_BEHAVIOR S = IEEE754 /\
  wf S x /\ wf S y /\ wf S z /\ finite x /\ finite y /\ finite z /\
  mul_add_r S x y z m = Ret res /\
  forall zs, ~ correctly_rounded S m (value S x * value S y + value S z) zs res.
Proof. exact mul_add_r_refuted. Qed.
Print Assumptions C08_mul_add_refuted.
(** ... and does not always return *)
Theorem C08_mul_add_panic_refuted : exists S x y z m, sem_ok S /\ wf S x /\ wf S y /\ wf S z /\
  finite x /\ finite y /\ finite z /\ mul_add_r S x y z m = Panic.
Proof. exact mul_add_r_panic_refuted. Qed.
Print Assumptions C08_mul_add_panic_refuted.

(** ** C09: exception flags, in all formats *)
Theorem C09_add_r_flags : forall S x y m, sem_ok S -> wf S x -> wf S y -> finite x -> finite y ->
  exists st f, add_r S x y m = Ret (st, f) /\ flags_exact S m (value S x + value S y) st f.
Proof. exact add_r_flags. Qed.
Print Assumptions C09_add_r_flags.
Theorem C09_sub_r_flags : forall S x y m, sem_ok S -> wf S x -> wf S y -> finite x -> finite y ->
  exists st f, sub_r S x y m = Ret (st, f) /\ flags_exact S m (value S x - value S y) st f.
Proof. exact sub_r_flags. Qed.
Print Assumptions C09_sub_r_flags.
Theorem C09_mul_r_flags : forall S x y m, sem_ok S -> wf S x -> wf S y -> finite x -> finite y ->
  exists st f, mul_r S x y m = Ret (st, f) /\ flags_exact S m (value S x * value S y) st f.
Proof. exact mul_r_flags. Qed.
Print Assumptions C09_mul_r_flags.
Theorem C09_div_r_flags : forall S x y m, sem_ok S -> wf S x -> wf S y -> finite x -> category y = Normal ->
  exists st f, div_r S x y m = Ret (st, f) /\ flags_exact S m (value S x / value S y) st f.
Proof. exact div_r_flags. Qed.
Print Assumptions C09_div_r_flags.
Theorem C09_from_u128_r_flags : forall S n m, sem_ok S -> 0 <= n < 2 ^ 128 ->
  exists st f, from_u128_r S n m = Ret (st, f) /\ flags_exact S m (IZR n) st f.
Proof. exact from_u128_r_flags. Qed.
Print Assumptions C09_from_u128_r_flags.
Theorem C09_from_i128_r_flags : forall S n m, sem_ok S -> - 2 ^ 127 <= n < 2 ^ 127 ->
  exists st f, from_i128_r S n m = Ret (st, f) /\ flags_exact S m (IZR n) st f.
Proof. exact from_i128_r_flags. Qed.
Print Assumptions C09_from_i128_r_flags.
Theorem C09_convert_r_flags : forall S T x m, sem_ok S -> sem_ok T -> wf S x -> finite x ->
  exists st r lost, convert_r S T x m = Ret (st, r, lost) /\ flags_exact T m (value S x) st r.
Proof. exact convert_r_flags. Qed.
Print Assumptions C09_convert_r_flags.
(** the fused multiply-add for the operands of C08 *)
Theorem C09_mul_add_r_flags_partial : forall S x y z m, sem_ok S -> wf S x -> wf S y -> wf S z ->
  finite x -> finite y -> finite z -> fma_safe S x y z ->
  exists st f, mul_add_r S x y z m = Ret (st, f) /\ flags_exact S m (value S x * value S y + value S z) st f.
Proof. exact mul_add_r_flags. Qed.
Print Assumptions C09_mul_add_r_flags_partial.
(** overflow, underflow, inexact and exact results *)
Example C09_example :
  wf HalfS h_max /\ add_r HalfS h_max h_max NearestTiesToEven = Ret (Z.lor OVERFLOW INEXACT, h_inf) /\
  add_r HalfS h_max h_max TowardZero = Ret (INEXACT, h_max) /\
  mul_r HalfS h_min h_small NearestTiesToEven = Ret (Z.lor UNDERFLOW INEXACT, h_zero) /\
  div_r HalfS h_neg h_three NearestTiesToEven = Ret (OK, mkFloat 1024 (-1) Normal true) /\
  from_u128_r HalfS 4097 NearestTiesToEven = Ret (INEXACT, mkFloat 1024 12 Normal false) /\
  convert_r HalfS Float8E5M2S h_min NearestTiesToEven = Ret (Z.lor UNDERFLOW INEXACT, mkFloat 0 (-15) Zero false, true).
Proof. split; [exact h_max_wf|]. vm_compute. repeat split. Qed.

(** ** C12: exactly zero sums *)
Theorem C12_add_zero_sign : forall S x y m, sem_ok S -> wf S x -> wf S y -> finite x -> finite y ->
  (value S x + value S y = 0)%R ->
  exists f, add_r S x y m = Ret (OK, f) /\ category f = Zero /\
    sign f = (if category_eqb (category x) Zero && Bool.eqb (sign x) (sign y) then sign x
              else match m with TowardNegative => true | _ => false end).
Proof. exact add_r_zero_sign. Qed.
Print Assumptions C12_add_zero_sign.
Theorem C12_sub_zero_sign : forall S x y m, sem_ok S -> wf S x -> wf S y -> finite x -> finite y ->
  (value S x - value S y = 0)%R ->
  exists f, sub_r S x y m = Ret (OK, f) /\ category f = Zero /\
    sign f = (if category_eqb (category x) Zero && xorb (sign x) (sign y) then sign x
              else match m with TowardNegative => true | _ => false end).
Proof. exact sub_r_zero_sign. Qed.
Print Assumptions C12_sub_zero_sign.
Example C12_example : (value HalfS h_neg - value HalfS h_neg = 0)%R /\
  sub_r HalfS h_neg h_neg TowardNegative = Ret (OK, h_nzero) /\
  sub_r HalfS h_neg h_neg NearestTiesToEven = Ret (OK, h_zero) /\
  add_r HalfS h_nzero h_nzero NearestTiesToEven = Ret (OK, h_nzero).
Proof. split; [apply Rminus_diag_eq; reflexivity|]. vm_compute. repeat split. Qed.
