(** * PropsTotal.v -- totality (C28), closure (C29) and NaN constructors (C45) *)
From Coq Require Import ZArith Reals List Bool.
From Flocq Require Import Core.
From Verif Require Import Machine Ieee Spec Formats Total Nans Reach SpecFma FmaFull FmaExact Samples Refute.
Import ListNotations.
Local Open Scope Z_scope.

(** ** C29

    [reachable S x]: some finite sequence of operations of the interface, in
    any formats and modes, ends with the value [x] of format [S]. *)
Theorem C29_reachable_canonical : forall S x, reachable S x -> sem_ok S /\ wf S x.
Proof. exact reachable_ok. Qed.
Print Assumptions C29_reachable_canonical.

(** single steps, for any format that satisfies [sem_ok] *)
Theorem C29_arithmetic : forall S x y m, sem_ok S -> wf S x -> wf S y ->
  returns S (add_r S x y m) /\ returns S (sub_r S x y m) /\ returns S (mul_r S x y m) /\ returns S (div_r S x y m) /\
  returns S (c_fmod S x y) /\ returns S (ieee_rem S x y).
Proof. exact arithmetic_returns. Qed.
Print Assumptions C29_arithmetic.
Theorem C29_mul_add : forall S x y z m st r, sem_ok S -> wf S x -> wf S y -> wf S z ->
  mul_add_r S x y z m = Ret (st, r) -> wf S r.
Proof. exact mul_add_r_wf. Qed.
Print Assumptions C29_mul_add.
Theorem C29_convert : forall S T x m, sem_ok S -> sem_ok T -> wf S x ->
  exists st r lost, convert_r S T x m = Ret (st, r, lost) /\ wf T r.
Proof. exact convert_r_total. Qed.
Print Assumptions C29_convert.

(** a sequence of four operations in three formats: (1.0f16 as f32 / 3 as e4m3).next_up() *)
Example C29_sequence : exists x, reachable Float8E4M3FNS x /\ x = mkFloat 12 (-2) Normal false.
Proof. exact reachable_sample. Qed.

(** ** C28 *)
Theorem C28_arithmetic : forall S x y, reachable S x -> reachable S y -> forall m,
  defined (add_r S x y m) /\ defined (sub_r S x y m) /\ defined (mul_r S x y m) /\ defined (div_r S x y m) /\
  defined (c_fmod S x y) /\ defined (ieee_rem S x y) /\ defined (next_up S x) /\ defined (next_down S x) /\
  defined (round_to_integral S x m) /\ (forall n, defined (scalbn_r S x n m)) /\ defined (frexp_r S x m) /\
  defined (ilogb S x) /\ defined (get_exact_inverse S x) /\
  (forall T, In T crate_formats -> defined (convert_r S T x m)).
Proof. exact arithmetic_defined. Qed.
Print Assumptions C28_arithmetic.
Theorem C28_order : forall S x y, reachable S x -> reachable S y ->
  defined (partial_cmp x y) /\ defined (lt_f x y) /\ defined (gt_f x y) /\ defined (ge_f x y) /\ defined (eq_f x y) /\
  defined (min x y) /\ defined (max x y) /\ defined (minimum x y) /\ defined (maximum x y) /\
  defined (is_denormal S x) /\ defined (is_normal S x) /\ defined (is_integer S x).
Proof. exact order_defined. Qed.
Print Assumptions C28_order.
(** Missing: operands outside [fma_safe], for which the code can panic ([C28_mul_add_refuted]) *)
Theorem C28_mul_add_partial : forall S x y, reachable S x -> reachable S y -> forall z m, reachable S z ->
  (finite x -> finite y -> finite z -> fma_safe S x y z) -> defined (mul_add_r S x y z m).
Proof. exact mul_add_defined. Qed.
Print Assumptions C28_mul_add_partial.
(** any operands: it returns a number, or panics, for finite operands whose
    exact result is nonzero and below 2^(MIN_EXP - 2 * PRECISION) *)
Theorem C28_mul_add_outcome : forall S x y z m, sem_ok S -> wf S x -> wf S y -> wf S z ->
  (exists st f, mul_add_r S x y z m = Ret (st, f) /\ wf S f) \/
  (mul_add_r S x y z m = Panic /\ finite x /\ finite y /\ finite z /\
   (0 < Rabs (value S x * value S y + value S z) < bpow radix2 (MIN_EXP S - 2 * PRECISION S))%R).
Proof. exact mul_add_r_outcome. Qed.
Print Assumptions C28_mul_add_outcome.
(** and exactly when it panics: digits of the product are lost ([product_cut],
    SpecFma.v) and what remains of it is the addend *)
Theorem C28_mul_add_panics : forall S, sem_ok S -> forall x y z m, wf S x -> wf S y -> wf S z ->
  (mul_add_r S x y z m = Panic <->
   finite x /\ finite y /\ finite z /\ product_cut S x y z /\
   cut_down S (Rabs (value S x * value S y)) = Rabs (value S z)).
Proof. exact mul_add_r_panics. Qed.
Print Assumptions C28_mul_add_panics.
Theorem C28_mul_add_refuted : exists S x y z m, reachable S x /\ reachable S y /\ reachable S z /\ mul_add_r S x y z m = Panic.
Proof. exact mul_add_panics_reachable. Qed.
Print Assumptions C28_mul_add_refuted.
(** Missing: width 1 of non-negative operands, for which [to_i128_r] panics ([C28_to_i128_refuted]) *)
Theorem C28_to_int_partial : forall S x, reachable S x -> forall w m,
  (1 <= w <= 128 -> defined (to_u128_r S x w m)) /\ ((if sign x then 1 else 2) <= w <= 128 -> defined (to_i128_r S x w m)).
Proof. exact to_int_defined. Qed.
Print Assumptions C28_to_int_partial.
Theorem C28_to_i128_refuted : exists S x m, reachable S x /\ to_i128_r S x 1 m = Panic.
Proof. exact to_i128_panics_reachable. Qed.
Print Assumptions C28_to_i128_refuted.
Theorem C28_to_bits : forall S x, reachable S x -> In S public_formats -> defined (to_bits S x).
Proof. exact to_bits_defined. Qed.
Print Assumptions C28_to_bits.
Theorem C28_from_bits : forall S b, In S public_formats -> 0 <= b < 2 ^ 128 -> defined (from_bits S b).
Proof. exact from_bits_defined. Qed.
Print Assumptions C28_from_bits.
Theorem C28_from_int : forall S m, In S crate_formats ->
  (forall n, 0 <= n < 2 ^ 128 -> defined (from_u128_r S n m)) /\
  (forall n, - 2 ^ 127 <= n < 2 ^ 127 -> defined (from_i128_r S n m)).
Proof. exact from_int_defined. Qed.
Print Assumptions C28_from_int.
(** 10 and 3, read from their bits; all the operations; a product and an addend of the same sign *)
Example C28_example : reachable HalfS h_ten /\ reachable HalfS h_three /\ fma_safe HalfS h_ten h_three h_ten /\
  add_r HalfS h_ten h_three TowardZero = Ret (OK, mkFloat 1664 3 Normal false) /\
  div_r HalfS h_ten h_three TowardPositive = Ret (INEXACT, mkFloat 1707 1 Normal false) /\
  mul_add_r HalfS h_ten h_three h_ten TowardZero = Ret (OK, mkFloat 1280 5 Normal false) /\
  partial_cmp h_ten h_three = Ret (Some Gt) /\ is_integer HalfS h_ten = Ret true /\
  to_u128_r HalfS h_ten 3 TowardZero = Ret (INVALID_OP, 7, false) /\ to_i128_r HalfS h_ten 5 TowardZero = Ret (OK, 10, true) /\
  to_bits HalfS h_ten = Ret 0x4900 /\ from_i128_r HalfS (-3) TowardZero = Ret (OK, neg h_three).
Proof.
  split; [apply (r_from_bits HalfS 0x4900); [vm_compute; tauto|split; [discriminate|reflexivity]|vm_compute; reflexivity]|].
  split; [apply (r_from_bits HalfS 0x4200); [vm_compute; tauto|split; [discriminate|reflexivity]|vm_compute; reflexivity]|].
  split; [left; reflexivity|]. vm_compute. repeat split.
Qed.
(** the operands of [C28_mul_add_panics], and a neighbour for which it returns *)
Example C28_mul_add_example : wf HalfS h_0c11 /\ wf HalfS h_0bdf /\ wf HalfS h_8001 /\
  mul_add_r HalfS h_0c11 h_0bdf h_8001 NearestTiesToEven = Panic /\
  mul_add_r HalfS h_0c11 h_one h_8001 NearestTiesToEven = Ret (INEXACT, h_0c11).
Proof. split; [sample_wf|]. split; [sample_wf|]. split; [sample_wf|]. split; vm_compute; reflexivity. Qed.

(** ** C45 *)
Theorem C45_qnan : forall S pl, sem_ok S -> payload_ok pl ->
  default_nan S (qnan S pl) /\ sign (qnan S pl) = false /\
  (NONFINITE_BEHAVIOR S = IEEE754 -> forall n, 0 <= n < PRECISION S - 2 ->
     Z.testbit (sig (qnan S pl)) n = Z.testbit (payload_bits pl) n).
Proof. exact qnan_spec. Qed.
Print Assumptions C45_qnan.
Theorem C45_snan : forall S pl, sem_ok S -> payload_ok pl ->
  wf S (snan S pl) /\ category (snan S pl) = NaN /\ sign (snan S pl) = false /\
  (NONFINITE_BEHAVIOR S = IEEE754 ->
     signaling S (snan S pl) = true /\
     (payload_bits pl mod 2 ^ (PRECISION S - 2) <> 0 ->
        sig (snan S pl) mod 2 ^ (PRECISION S - 2) = payload_bits pl mod 2 ^ (PRECISION S - 2)) /\
     (payload_bits pl mod 2 ^ (PRECISION S - 2) = 0 ->
        sig (snan S pl) mod 2 ^ (PRECISION S - 2) = 2 ^ (PRECISION S - 3))).
Proof. exact snan_spec. Qed.
Print Assumptions C45_snan.
Example C45_sample :
  qnan SingleS (Some 0x1234567) = mkFloat 0x634567 128 NaN false /\
  snan SingleS (Some 0x1234567) = mkFloat 0x234567 128 NaN false /\
  snan SingleS (Some 0x1400000) = mkFloat 0x200000 128 NaN false.
Proof. vm_compute. repeat split. Qed.
