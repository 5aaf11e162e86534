(** * PropsLaws.v -- algebraic laws (C30 and others) *)
From Coq Require Import ZArith Reals List Bool.
From Flocq Require Import Core.
From Verif Require Import Machine Ieee Spec Laws Through Symmetry Samples Refute More FmaMono FmaSymmetry.
Import ListNotations.
Local Open Scope Z_scope.

(** ** C30 *)
Theorem C30_add_r_comm : forall S x y m, sem_ok S -> wf S x -> wf S y -> category x <> NaN -> category y <> NaN ->
  exists st f f', add_r S x y m = Ret (st, f) /\ add_r S y x m = Ret (st, f') /\ bitwise_eq f f' = true.
Proof. exact add_r_comm. Qed.
Print Assumptions C30_add_r_comm.
Theorem C30_mul_r_comm : forall S x y m, sem_ok S -> wf S x -> wf S y -> category x <> NaN -> category y <> NaN ->
  exists st f f', mul_r S x y m = Ret (st, f) /\ mul_r S y x m = Ret (st, f') /\ bitwise_eq f f' = true.
Proof. exact mul_r_comm. Qed.
Print Assumptions C30_mul_r_comm.
(** any addend, inside and outside [fma_safe]; of two NaN factors the first wins (C11) *)
Theorem C30_mul_add_r_comm : forall S x y z m, sem_ok S -> wf S x -> wf S y -> ~ (category x = NaN /\ category y = NaN) ->
  mul_add_r S x y z m = mul_add_r S y x z m.
Proof. exact mul_add_r_comm. Qed.
Print Assumptions C30_mul_add_r_comm.
(** [negated o o']: the second result is the negation of the first, with the same
    flags; [usual S m]: S has infinities or m is no directed mode. *)
(** Missing: the directed modes of NaN-only formats, where it fails *)
Theorem C30_mul_r_neg_partial : forall S x y m, sem_ok S -> usual S m -> wf S x -> wf S y -> finite x -> finite y ->
  negated (mul_r S x y m) (mul_r S (neg x) y (mirrored m)).
Proof. exact mul_symmetric. Qed.
Print Assumptions C30_mul_r_neg_partial.
(** Missing: the directed modes of NaN-only formats, where it fails *)
Theorem C30_div_r_neg_partial : forall S x y m, sem_ok S -> usual S m -> wf S x -> wf S y -> finite x -> category y = Normal ->
  negated (div_r S x y m) (div_r S (neg x) y (mirrored m)).
Proof. exact div_symmetric. Qed.
Print Assumptions C30_div_r_neg_partial.
(** [sum_changes_sign]: the sum is not zero, or the mode is directed, or both operands are zeros of one sign *)
(** Missing: the directed modes of NaN-only formats, where it fails *)
Theorem C30_add_r_neg_partial : forall S x y m, sem_ok S -> usual S m -> wf S x -> wf S y -> finite x -> finite y ->
  sum_changes_sign m x y (sign y) (value S x + value S y) ->
  negated (add_r S x y m) (add_r S (neg x) (neg y) (mirrored m)).
Proof. exact add_symmetric. Qed.
Print Assumptions C30_add_r_neg_partial.
(** Missing: the directed modes of NaN-only formats, where it fails *)
Theorem C30_sub_r_neg_partial : forall S x y m, sem_ok S -> usual S m -> wf S x -> wf S y -> finite x -> finite y ->
  sum_changes_sign m x y (negb (sign y)) (value S x - value S y) ->
  negated (sub_r S x y m) (sub_r S (neg x) (neg y) (mirrored m)).
Proof. exact sub_symmetric. Qed.
Print Assumptions C30_sub_r_neg_partial.
(** Missing: the directed modes of NaN-only formats *)
Theorem C30_mul_add_r_neg_partial : forall S, sem_ok S -> forall x y z m, usual S m -> wf S x -> wf S y -> wf S z -> finite x -> finite y -> finite z ->
  (value S x * value S y + value S z <> 0)%R \/ m = TowardPositive \/ m = TowardNegative \/ xorb (sign x) (sign y) = sign z ->
  mul_add_r S x y z m = Panic /\ mul_add_r S (neg x) y (neg z) (mirrored m) = Panic /\ ~ fma_safe S x y z \/
  negated (mul_add_r S x y z m) (mul_add_r S (neg x) y (neg z) (mirrored m)).
Proof. exact mul_add_symmetric_any. Qed.
Print Assumptions C30_mul_add_r_neg_partial.
Example C30_mul_add_r_neg_example :
  mul_add_r Float8E5M2S e5_x e5_y e5_z NearestTiesToEven = Ret (24, e5_r) /\
  mul_add_r Float8E5M2S (neg e5_x) e5_y (neg e5_z) NearestTiesToEven = Ret (24, neg e5_r) /\
  mul_add_r HalfS h_0c11 h_0bdf h_8001 NearestTiesToEven = Panic /\
  mul_add_r HalfS (neg h_0c11) h_0bdf (neg h_8001) NearestTiesToEven = Panic.
Proof. vm_compute. repeat split. Qed.
(** Missing: the directed modes of NaN-only formats, where it fails *)
Theorem C30_convert_r_neg_partial : forall S T x m, sem_ok S -> sem_ok T -> usual T m -> wf S x -> finite x ->
  exists st f f' lost, convert_r S T x m = Ret (st, f, lost) /\ convert_r S T (neg x) (mirrored m) = Ret (st, f', lost) /\
    bitwise_eq f' (neg f) = true.
Proof. exact convert_symmetric. Qed.
Print Assumptions C30_convert_r_neg_partial.
(** Missing: the directed modes of NaN-only formats, where it fails *)
Theorem C30_scalbn_r_neg_partial : forall S x n m, sem_ok S -> usual S m -> wf S x -> category x = Normal ->
  exists f f', scalbn_r S x n m = Ret f /\ scalbn_r S (neg x) n (mirrored m) = Ret f' /\ bitwise_eq f' (neg f) = true.
Proof. exact scalbn_symmetric. Qed.
Print Assumptions C30_scalbn_r_neg_partial.
Theorem C30_from_i128_r_neg : forall S n m, sem_ok S -> n <> 0 -> - 2 ^ 127 < n < 2 ^ 127 ->
  negated (from_i128_r S n m) (from_i128_r S (- n) (mirrored m)).
Proof. exact from_i128_symmetric. Qed.
Print Assumptions C30_from_i128_r_neg.
Theorem C30_round_to_integral_neg : forall S x m, sem_ok S -> wf S x -> finite x ->
  negated (round_to_integral S x m) (round_to_integral S (neg x) (mirrored m)).
Proof. exact round_to_integral_symmetric. Qed.
Print Assumptions C30_round_to_integral_neg.
(** remainders change sign with the dividend and do not depend on the sign of the divisor *)
Theorem C30_c_fmod_neg : forall S x y, sem_ok S -> wf S x -> wf S y -> finite x -> category y = Normal ->
  negated (c_fmod S x y) (c_fmod S (neg x) y) /\
  exists st f f', c_fmod S x y = Ret (st, f) /\ c_fmod S x (neg y) = Ret (st, f') /\ bitwise_eq f' f = true.
Proof. exact c_fmod_symmetric. Qed.
Print Assumptions C30_c_fmod_neg.
Theorem C30_ieee_rem_neg : forall S x y, sem_ok S -> wf S x -> wf S y -> finite x -> category y = Normal ->
  negated (ieee_rem S x y) (ieee_rem S (neg x) y) /\
  exists st f f', ieee_rem S x y = Ret (st, f) /\ ieee_rem S x (neg y) = Ret (st, f') /\ bitwise_eq f' f = true.
Proof. exact ieee_rem_symmetric. Qed.
Print Assumptions C30_ieee_rem_neg.
Theorem C30_mul_r_neg_refuted : exists S x y m st f st' f', sem_ok S /\ wf S x /\ wf S y /\ finite x /\ finite y /\
  mul_r S x y m = Ret (st, f) /\ mul_r S (neg x) y (mirrored m) = Ret (st', f') /\
  (st <> st' /\ bitwise_eq f' (neg f) = false).
Proof. exact mul_r_neg_refuted. Qed.
Print Assumptions C30_mul_r_neg_refuted.
(** [ordered S o o']: both results exist, and unless one of them is NaN the first is at most the second *)
Theorem C30_add_r_monotone : forall S x x' y m, sem_ok S -> wf S x -> wf S x' -> wf S y -> finite x -> finite x' -> finite y ->
  (value S x <= value S x')%R -> ordered S (add_r S x y m) (add_r S x' y m).
Proof. exact add_r_monotone. Qed.
Print Assumptions C30_add_r_monotone.
Theorem C30_sub_r_monotone : forall S x x' y m, sem_ok S -> wf S x -> wf S x' -> wf S y -> finite x -> finite x' -> finite y ->
  (value S x <= value S x')%R ->
  ordered S (sub_r S x y m) (sub_r S x' y m) /\ ordered S (sub_r S y x' m) (sub_r S y x m).
Proof. exact sub_r_monotone. Qed.
Print Assumptions C30_sub_r_monotone.
Theorem C30_mul_r_monotone : forall S x x' y m, sem_ok S -> wf S x -> wf S x' -> wf S y -> finite x -> finite x' -> finite y ->
  (value S x <= value S x')%R -> (0 <= value S y)%R -> ordered S (mul_r S x y m) (mul_r S x' y m).
Proof. exact mul_r_monotone. Qed.
Print Assumptions C30_mul_r_monotone.
Theorem C30_div_r_monotone : forall S x x' y m, sem_ok S -> wf S x -> wf S x' -> wf S y -> finite x -> finite x' -> category y = Normal ->
  (value S x <= value S x')%R -> (0 < value S y)%R -> ordered S (div_r S x y m) (div_r S x' y m).
Proof. exact div_r_monotone. Qed.
Print Assumptions C30_div_r_monotone.
(** in all three operands at once.  Missing: operands outside [fma_safe], where it fails *)
Theorem C30_mul_add_r_monotone_partial : forall S x y z x' y' z' m, sem_ok S -> wf S x -> wf S y -> wf S z -> wf S x' -> wf S y' -> wf S z' ->
  finite x -> finite y -> finite z -> finite x' -> finite y' -> finite z' -> fma_safe S x y z -> fma_safe S x' y' z' ->
  (value S x * value S y + value S z <= value S x' * value S y' + value S z')%R ->
  ordered S (mul_add_r S x y z m) (mul_add_r S x' y' z' m).
Proof. exact mul_add_r_monotone. Qed.
Print Assumptions C30_mul_add_r_monotone_partial.
(** a larger factor, a smaller result: binary16, rounding to nearest *)
Theorem C30_mul_add_r_monotone_refuted : exists S x x' y z m, sem_ok S /\ wf S x /\ wf S x' /\ wf S y /\ wf S z /\
  finite x /\ finite x' /\ finite y /\ finite z /\ (value S x <= value S x')%R /\ (0 < value S y)%R /\
  ~ ordered S (mul_add_r S x y z m) (mul_add_r S x' y z m).
Proof. exact mul_add_r_monotone_refuted. Qed.
Print Assumptions C30_mul_add_r_monotone_refuted.
Example C30_mul_add_example : fma_safe HalfS h_one h_three h_one /\ fma_safe HalfS h_one_ulp h_three h_one /\
  mul_add_r HalfS h_one h_three h_one TowardPositive = Ret (OK, mkFloat 1024 2 Normal false) /\
  mul_add_r HalfS h_one_ulp h_three h_one TowardPositive = Ret (INEXACT, mkFloat 1025 2 Normal false).
Proof. split; [left; reflexivity|]. split; [left; reflexivity|]. vm_compute. split; reflexivity. Qed.
Example C30_example : mirrored TowardPositive = TowardNegative /\
  mul_r HalfS h_one_ulp h_three TowardPositive = Ret (INEXACT, mkFloat 1538 1 Normal false) /\
  mul_r HalfS h_three h_one_ulp TowardPositive = Ret (INEXACT, mkFloat 1538 1 Normal false) /\
  mul_r HalfS (neg h_one_ulp) h_three TowardNegative = Ret (INEXACT, mkFloat 1538 1 Normal true) /\
  add_r HalfS h_one h_small TowardZero = Ret (INEXACT, mkFloat 1025 0 Normal false) /\
  add_r HalfS h_three h_small TowardZero = Ret (INEXACT, mkFloat 1536 1 Normal false) /\
  mul_add_r HalfS h_one_ulp h_three h_small NearestTiesToEven = Ret (INEXACT, mkFloat 1538 1 Normal false) /\
  mul_add_r HalfS h_three h_one_ulp h_small NearestTiesToEven = Ret (INEXACT, mkFloat 1538 1 Normal false).
Proof. vm_compute. repeat split. Qed.
Example C30_neg_example : usual HalfS TowardPositive /\ usual Float8E4M3FNS NearestTiesToEven /\
  sub_r HalfS h_one h_one TowardNegative = Ret (OK, h_nzero) /\
  sub_r HalfS (neg h_one) (neg h_one) (mirrored TowardNegative) = Ret (OK, h_zero) /\
  ieee_rem HalfS h_three (mkFloat 1024 1 Normal false) = Ret (OK, mkFloat 1024 0 Normal true) /\
  ieee_rem HalfS (neg h_three) (mkFloat 1024 1 Normal false) = Ret (OK, mkFloat 1024 0 Normal false) /\
  ieee_rem HalfS h_three (mkFloat 1024 1 Normal true) = Ret (OK, mkFloat 1024 0 Normal true) /\
  from_i128_r HalfS 4097 TowardPositive = Ret (INEXACT, mkFloat 1025 12 Normal false) /\
  from_i128_r HalfS (-4097) TowardNegative = Ret (INEXACT, mkFloat 1025 12 Normal true) /\
  convert_r SingleS HalfS (mkFloat 8388609 0 Normal true) TowardPositive = Ret (INEXACT, neg h_one, true).
Proof. split; [left; reflexivity|]. split; [right; split; discriminate|]. vm_compute. repeat split. Qed.

(** ** C41: subtraction of nearby values is exact *)
Theorem C41_sterbenz : forall S x y m, sem_ok S -> wf S x -> wf S y -> finite x -> finite y ->
  (value S y / 2 <= value S x <= 2 * value S y)%R ->
  exists f, sub_r S x y m = Ret (OK, f) /\ finite f /\ value S f = (value S x - value S y)%R.
Proof. exact sub_r_sterbenz. Qed.
Print Assumptions C41_sterbenz.
Example C41_example : wf HalfS h_one /\ wf HalfS h_one_ulp /\
  sub_r HalfS h_one_ulp h_one TowardNegative = Ret (OK, mkFloat 1024 (-10) Normal false).
Proof. split; [exact h_one_wf|]. split; [exact h_one_ulp_wf|]. vm_compute. repeat split. Qed.

(** ** C42: identities *)
Theorem C42_sub_r_self : forall S x m, sem_ok S -> wf S x -> finite x ->
  exists f, sub_r S x x m = Ret (OK, f) /\ category f = Zero /\
    sign f = (match m with TowardNegative => true | _ => false end).
Proof. exact sub_r_self. Qed.
Print Assumptions C42_sub_r_self.
Theorem C42_mul_r_one : forall S x one m, sem_ok S -> wf S x -> finite x -> wf S one -> finite one -> value S one = 1%R -> sign one = false ->
  exists f, mul_r S x one m = Ret (OK, f) /\ bitwise_eq f x = true.
Proof. exact mul_r_one. Qed.
Print Assumptions C42_mul_r_one.
Theorem C42_div_r_one : forall S x one m, sem_ok S -> wf S x -> finite x -> wf S one -> category one = Normal -> value S one = 1%R -> sign one = false ->
  exists f, div_r S x one m = Ret (OK, f) /\ bitwise_eq f x = true.
Proof. exact div_r_one. Qed.
Print Assumptions C42_div_r_one.
Theorem C42_div_r_self : forall S x m, sem_ok S -> wf S x -> category x = Normal ->
  exists f, div_r S x x m = Ret (OK, f) /\ finite f /\ value S f = 1%R.
Proof. exact div_r_self. Qed.
Print Assumptions C42_div_r_self.
Theorem C42_add_r_zero : forall S x z m, sem_ok S -> wf S x -> category x = Normal -> wf S z -> category z = Zero ->
  exists f, add_r S x z m = Ret (OK, f) /\ bitwise_eq f x = true.
Proof. exact add_r_zero. Qed.
Print Assumptions C42_add_r_zero.
Theorem C42_mul_add_r_zero : forall S x y z m, sem_ok S -> wf S x -> wf S y -> wf S z ->
  category x = Normal -> category y = Normal -> category z = Zero ->
  exists st f f', mul_add_r S x y z m = Ret (st, f) /\ mul_r S x y m = Ret (st, f') /\ bitwise_eq f f' = true.
Proof. exact mul_add_r_zero. Qed.
Print Assumptions C42_mul_add_r_zero.
Example C42_example : wf HalfS h_one /\ finite h_one /\ value HalfS h_one = 1%R /\ sign h_one = false /\
  sub_r HalfS h_neg h_neg TowardNegative = Ret (OK, h_nzero) /\ mul_r HalfS h_min h_one TowardPositive = Ret (OK, h_min) /\
  div_r HalfS h_three h_three TowardPositive = Ret (OK, h_one) /\ add_r HalfS h_max h_nzero TowardPositive = Ret (OK, h_max).
Proof.
  split; [exact h_one_wf|]. split; [left; reflexivity|]. split; [exact h_one_value|]. vm_compute. repeat split.
Qed.

(** C30, operands one of which is infinite, or a zero divisor.  [negated_special]: the
    results are negations of each other, or both operations are invalid and give a
    default NaN; the same flags either way *)
Theorem C30_mul_r_neg_special : forall S x y m, sem_ok S -> wf S x -> wf S y -> category x <> NaN -> category y <> NaN ->
  category x = Infinity \/ category y = Infinity ->
  negated_special S (mul_r S x y m) (mul_r S (neg x) y (mirrored m)).
Proof. exact mul_special_symmetric. Qed.
Print Assumptions C30_mul_r_neg_special.

Theorem C30_div_r_neg_special : forall S x y m, sem_ok S -> wf S x -> wf S y -> category x <> NaN -> category y <> NaN ->
  category x = Infinity \/ category y = Infinity \/ category y = Zero ->
  negated_special S (div_r S x y m) (div_r S (neg x) y (mirrored m)).
Proof. exact div_special_symmetric. Qed.
Print Assumptions C30_div_r_neg_special.

Theorem C30_add_r_neg_special : forall S x y m, sem_ok S -> wf S x -> wf S y -> category x <> NaN -> category y <> NaN ->
  category x = Infinity \/ category y = Infinity ->
  negated_special S (add_r S x y m) (add_r S (neg x) (neg y) (mirrored m)).
Proof. exact add_special_symmetric. Qed.
Print Assumptions C30_add_r_neg_special.

Theorem C30_sub_r_neg_special : forall S x y m, sem_ok S -> wf S x -> wf S y -> category x <> NaN -> category y <> NaN ->
  category x = Infinity \/ category y = Infinity ->
  negated_special S (sub_r S x y m) (sub_r S (neg x) (neg y) (mirrored m)).
Proof. exact sub_special_symmetric. Qed.
Print Assumptions C30_sub_r_neg_special.
Example C30_neg_special_example : wf HalfS h_inf /\ category h_inf = Infinity /\
  mul_r HalfS h_inf h_one TowardPositive = Ret (OK, h_inf) /\ mul_r HalfS (neg h_inf) h_one TowardNegative = Ret (OK, neg h_inf) /\
  div_r HalfS h_one h_zero TowardPositive = Ret (DIV_BY_ZERO, h_inf) /\ div_r HalfS (neg h_one) h_zero TowardNegative = Ret (DIV_BY_ZERO, neg h_inf).
Proof. split; [sample_wf|]. vm_compute. repeat split. Qed.
