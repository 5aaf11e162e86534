(** * PropsEft.v -- error-free transformations and enclosures (C57, C58) *)
From Coq Require Import ZArith Reals List Bool Lra.
From Flocq Require Import Core.
From Verif Require Import Machine Ieee Spec Samples Eft.
Local Open Scope Z_scope.

(** Dekker: if the larger operand comes first, the computed pair is the exact sum *)
Theorem C57_fast_two_sum : forall S x y m, sem_ok S -> nearest m -> wf S x -> wf S y -> finite x -> finite y ->
  (Rabs (value S y) <= Rabs (value S x))%R -> (Rabs (rounded S m (value S x + value S y)) <= max_finite S)%R ->
  exists s t, fast_two_sum S x y m = Ret (s, t) /\ wf S s /\ wf S t /\ finite s /\ finite t /\
    value S s = rounded S m (value S x + value S y) /\ (value S s + value S t = value S x + value S y)%R.
Proof. exact fast_two_sum_exact. Qed.
Print Assumptions C57_fast_two_sum.
(** Knuth: in any order *)
Theorem C57_two_sum : forall S x y m, sem_ok S -> nearest m -> wf S x -> wf S y -> finite x -> finite y ->
  (Rabs (value S x) + Rabs (value S y) <= bpow r2 (MAX_EXP S - 4))%R ->
  exists s t, two_sum S x y m = Ret (s, t) /\ wf S s /\ wf S t /\ finite s /\ finite t /\
    value S s = rounded S m (value S x + value S y) /\ (value S s + value S t = value S x + value S y)%R.
Proof. exact two_sum_exact. Qed.
Print Assumptions C57_two_sum.
(** the error of a product is the fused multiply-add of the operands and the negated product, without a flag *)
Theorem C57_two_product : forall S x y m m', sem_ok S -> wf S x -> wf S y -> finite x -> finite y ->
  (bpow r2 (MIN_EXP S + PRECISION S) <= Rabs (value S x * value S y))%R ->
  (Rabs (rounded S m (value S x * value S y)) <= max_finite S)%R ->
  exists st p e, mul_r S x y m = Ret (st, p) /\ finite p /\ value S p = rounded S m (value S x * value S y) /\
    mul_add_r S x y (neg p) m' = Ret (OK, e) /\ wf S e /\ finite e /\
    (value S p + value S e = value S x * value S y)%R.
Proof. exact two_product. Qed.
Print Assumptions C57_two_product.
(** the remainder of a rounded quotient *)
Theorem C57_quotient : forall S x y m m', sem_ok S -> wf S x -> wf S y -> finite x -> category y = Normal ->
  (bpow r2 (MIN_EXP S + PRECISION S) <= Rabs (value S x))%R -> (min_normal S <= Rabs (value S x / value S y))%R ->
  (Rabs (rounded S m (value S x / value S y)) <= max_finite S)%R ->
  exists st q r, div_r S x y m = Ret (st, q) /\ finite q /\ value S q = rounded S m (value S x / value S y) /\
    mul_add_r S (neg q) y x m' = Ret (OK, r) /\ wf S r /\ finite r /\
    (value S q * value S y + value S r = value S x)%R.
Proof. exact quotient_remainder. Qed.
Print Assumptions C57_quotient.
(** the order of the operands matters in the first, the size of the product in the third *)
Theorem C57_fast_two_sum_order_refuted : exists x y s t, wf HalfS x /\ wf HalfS y /\ finite x /\ finite y /\
  fast_two_sum HalfS x y NearestTiesToEven = Ret (s, t) /\ finite s /\ finite t /\
  (value HalfS s + value HalfS t <> value HalfS x + value HalfS y)%R.
Proof. exact fast_two_sum_refuted. Qed.
Print Assumptions C57_fast_two_sum_order_refuted.
Theorem C57_two_product_underflow_refuted : exists x y p e, wf HalfS x /\ wf HalfS y /\ finite x /\ finite y /\
  mul_r HalfS x y NearestTiesToEven = Ret (INEXACT, p) /\
  mul_add_r HalfS x y (neg p) NearestTiesToEven = Ret (Z.lor UNDERFLOW INEXACT, e) /\ finite p /\ finite e /\
  (value HalfS p + value HalfS e <> value HalfS x * value HalfS y)%R.
Proof. exact two_product_refuted. Qed.
Print Assumptions C57_two_product_underflow_refuted.
(** 65504 + 3 is 65504, error 3; 1299 * 1.0009765625 up is 1301, error -0.73...; 1299 / 10 down is 129.875, remainder 0.25 *)
Example C57_example : sem_ok HalfS /\ nearest NearestTiesToEven /\ wf HalfS h_1299 /\ wf HalfS h_one_ulp /\
  fast_two_sum HalfS h_max h_three NearestTiesToEven = Ret (h_max, h_three) /\
  two_sum HalfS h_small h_1299 NearestTiesToEven = Ret (h_1299, h_small) /\
  (Rabs (value HalfS h_small) + Rabs (value HalfS h_1299) <= bpow r2 (MAX_EXP HalfS - 4))%R /\
  (bpow r2 (MIN_EXP HalfS + PRECISION HalfS) <= Rabs (value HalfS h_1299 * value HalfS h_one_ulp))%R /\
  mul_r HalfS h_1299 h_one_ulp TowardPositive = Ret (INEXACT, mkFloat 1301 10 Normal false) /\
  mul_add_r HalfS h_1299 h_one_ulp (neg (mkFloat 1301 10 Normal false)) TowardZero = Ret (OK, mkFloat 1498 (-1) Normal true) /\
  (min_normal HalfS <= Rabs (value HalfS h_1299 / value HalfS h_ten))%R /\
  div_r HalfS h_1299 h_ten TowardNegative = Ret (INEXACT, mkFloat 1039 7 Normal false) /\
  mul_add_r HalfS (neg (mkFloat 1039 7 Normal false)) h_ten h_1299 TowardZero = Ret (OK, mkFloat 1024 (-2) Normal false).
Proof.
  split; [exact half_ok|]. split; [left; reflexivity|]. split; [exact h_1299_wf|]. split; [exact h_one_ulp_wf|].
  split; [vm_compute; reflexivity|]. split; [vm_compute; reflexivity|].
  split; [unfold value; cbn; rewrite !Rabs_pos_eq; lra|]. split; [unfold value; cbn; rewrite Rabs_pos_eq; lra|].
  split; [vm_compute; reflexivity|]. split; [vm_compute; reflexivity|].
  split; [unfold min_normal, value; cbn; rewrite Rabs_pos_eq; lra|]. split; vm_compute; reflexivity.
Qed.

(** ** Enclosures *)
Theorem C58_add : forall S x y, sem_ok S -> NONFINITE_BEHAVIOR S = IEEE754 -> wf S x -> wf S y -> finite x -> finite y ->
  encloses S (value S x + value S y) (add_r S x y TowardNegative) (add_r S x y TowardPositive).
Proof. exact add_encloses. Qed.
Print Assumptions C58_add.
Theorem C58_sub : forall S x y, sem_ok S -> NONFINITE_BEHAVIOR S = IEEE754 -> wf S x -> wf S y -> finite x -> finite y ->
  encloses S (value S x - value S y) (sub_r S x y TowardNegative) (sub_r S x y TowardPositive).
Proof. exact sub_encloses. Qed.
Print Assumptions C58_sub.
Theorem C58_mul : forall S x y, sem_ok S -> NONFINITE_BEHAVIOR S = IEEE754 -> wf S x -> wf S y -> finite x -> finite y ->
  encloses S (value S x * value S y) (mul_r S x y TowardNegative) (mul_r S x y TowardPositive).
Proof. exact mul_encloses. Qed.
Print Assumptions C58_mul.
Theorem C58_div : forall S x y, sem_ok S -> NONFINITE_BEHAVIOR S = IEEE754 -> wf S x -> wf S y -> finite x -> category y = Normal ->
  encloses S (value S x / value S y) (div_r S x y TowardNegative) (div_r S x y TowardPositive).
Proof. exact div_encloses. Qed.
Print Assumptions C58_div.
Theorem C58_mul_add : forall S x y z, sem_ok S -> NONFINITE_BEHAVIOR S = IEEE754 -> wf S x -> wf S y -> wf S z ->
  finite x -> finite y -> finite z -> fma_safe S x y z ->
  encloses S (value S x * value S y + value S z) (mul_add_r S x y z TowardNegative) (mul_add_r S x y z TowardPositive).
Proof. exact mul_add_encloses. Qed.
Print Assumptions C58_mul_add.
Theorem C58_from_i128 : forall S n, sem_ok S -> NONFINITE_BEHAVIOR S = IEEE754 -> - 2 ^ 127 <= n < 2 ^ 127 ->
  encloses S (IZR n) (from_i128_r S n TowardNegative) (from_i128_r S n TowardPositive).
Proof. exact from_i128_encloses. Qed.
Print Assumptions C58_from_i128.
Theorem C58_convert : forall S T x, sem_ok S -> sem_ok T -> NONFINITE_BEHAVIOR T = IEEE754 -> wf S x -> finite x ->
  encloses T (value S x) (drop_loss (convert_r S T x TowardNegative)) (drop_loss (convert_r S T x TowardPositive)).
Proof. exact convert_encloses. Qed.
Print Assumptions C58_convert.
(** between two neighbours; between the largest number and infinity; between zero and the least number *)
Example C58_example : sem_ok HalfS /\ NONFINITE_BEHAVIOR HalfS = IEEE754 /\ wf HalfS h_1299 /\ wf HalfS h_3092 /\
  add_r HalfS h_1299 h_3092 TowardNegative = Ret (INEXACT, mkFloat 1097 12 Normal false) /\
  add_r HalfS h_1299 h_3092 TowardPositive = Ret (INEXACT, mkFloat 1098 12 Normal false) /\
  add_r HalfS h_max h_1299 TowardNegative = Ret (INEXACT, h_max) /\
  add_r HalfS h_max h_1299 TowardPositive = Ret (Z.lor OVERFLOW INEXACT, h_inf) /\
  mul_r HalfS h_min h_min TowardNegative = Ret (Z.lor UNDERFLOW INEXACT, h_zero) /\
  mul_r HalfS h_min h_min TowardPositive = Ret (Z.lor UNDERFLOW INEXACT, h_min).
Proof.
  split; [exact half_ok|]. split; [reflexivity|]. split; [exact h_1299_wf|]. split; [exact h_3092_wf|].
  vm_compute. repeat split.
Qed.
