(** * PropsRewrites.v -- operations compilers replace by cheaper ones: C67 *)
From Coq Require Import ZArith Reals Lia Lra.
From Flocq Require Import Core.
From Verif Require Import Machine Ieee Spec SpecRewrites Samples Rewrites.
Local Open Scope Z_scope.

(** ** C67

    [same_result] (SpecRewrites.v): same status, same bits. *)
(** every dividend, zeros, infinities and NaNs included *)
Theorem C67_division_by_multiplication : forall S, sem_ok S -> forall x y i m, wf S x -> wf S y ->
  get_exact_inverse S y = Ret (Some i) -> same_result (div_r S x y m) (mul_r S x i m).
Proof. exact div_inverse. Qed.
Print Assumptions C67_division_by_multiplication.
Theorem C67_doubling : forall S, sem_ok S -> forall x two m, wf S x -> wf S two -> finite two -> value S two = 2%R ->
  same_result (mul_r S x two m) (add_r S x x m).
Proof. exact twice. Qed.
Print Assumptions C67_doubling.
(** [scalbn_r] returns no status *)
Theorem C67_scalbn : forall S, sem_ok S -> forall x y n m, wf S x -> wf S y -> finite y -> value S y = bpow r2 n ->
  exists st f f', mul_r S x y m = Ret (st, f) /\ scalbn_r S x n m = Ret f' /\ bitwise_eq f f' = true.
Proof. exact scalbn_mul. Qed.
Print Assumptions C67_scalbn.
Theorem C67_minus_one : forall S, sem_ok S -> forall x one m, wf S x -> category x <> NaN -> wf S one -> finite one -> value S one = (-1)%R ->
  same_result (mul_r S x one m) (Ret (OK, neg x)) /\ same_result (div_r S x one m) (Ret (OK, neg x)).
Proof. exact mul_minus_one. Qed.
Print Assumptions C67_minus_one.
(** every x and z; no hypothesis like [fma_safe] is needed *)
Theorem C67_mul_add_one : forall S, sem_ok S -> forall x one z m, wf S x -> wf S one -> wf S z -> finite one -> value S one = 1%R ->
  same_result (mul_add_r S x one z m) (add_r S x z m).
Proof. exact mul_add_one. Qed.
Print Assumptions C67_mul_add_one.
Theorem C67_compare_by_difference : forall S, sem_ok S -> forall x y m, wf S x -> wf S y -> finite x -> finite y ->
  exists st f, sub_r S x y m = Ret (st, f) /\ (category f = Zero <-> value S x = value S y) /\
    (category f <> Zero -> (sign f = true <-> value S x < value S y)%R).
Proof. exact sub_sign. Qed.
Print Assumptions C67_compare_by_difference.

(** halving and doubling three times the smallest number; a sum of numbers that
    differ by the smallest number; an infinite and a NaN operand *)
Example C67_example :
  get_exact_inverse HalfS (mkFloat 1024 1 Normal true) = Ret (Some (mkFloat 1024 (-1) Normal true)) /\
  div_r HalfS (mkFloat 3 (-14) Normal false) (mkFloat 1024 1 Normal true) TowardNegative = Ret (24, mkFloat 2 (-14) Normal true) /\
  mul_r HalfS (mkFloat 3 (-14) Normal false) (mkFloat 1024 (-1) Normal true) TowardNegative = Ret (24, mkFloat 2 (-14) Normal true) /\
  get_exact_inverse HalfS (mkFloat 1536 1 Normal false) = Ret None /\
  mul_r HalfS (mkFloat 2047 15 Normal false) (mkFloat 1024 1 Normal false) TowardZero = Ret (16, mkFloat 2047 15 Normal false) /\
  add_r HalfS (mkFloat 2047 15 Normal false) (mkFloat 2047 15 Normal false) TowardZero = Ret (16, mkFloat 2047 15 Normal false) /\
  scalbn_r HalfS (mkFloat 3 (-14) Normal false) (-1) NearestTiesToEven = Ret (mkFloat 2 (-14) Normal false) /\
  mul_add_r HalfS (mkFloat 1025 (-14) Normal false) h_one (mkFloat 1024 (-14) Normal true) TowardZero = Ret (0, mkFloat 1 (-14) Normal false) /\
  sub_r HalfS (mkFloat 1025 (-14) Normal false) (mkFloat 1024 (-14) Normal false) TowardZero = Ret (0, mkFloat 1 (-14) Normal false).
Proof. vm_compute. repeat split; reflexivity. Qed.
(** the status of multiplying and of dividing by minus one *)
Example C67_example_value : wf HalfS (mkFloat 1024 1 Normal false) /\ value HalfS (mkFloat 1024 1 Normal false) = 2%R /\
  wf HalfS (mkFloat 1024 0 Normal true) /\ value HalfS (mkFloat 1024 0 Normal true) = (-1)%R /\
  mul_r HalfS (mkFloat 0 (-15) Zero false) (mkFloat 1024 0 Normal true) TowardPositive = Ret (OK, mkFloat 0 (-15) Zero true).
Proof.
  split; [sample_wf|]. split; [unfold value; cbn; lra|].
  split; [sample_wf|]. split; [unfold value; cbn; lra|]. vm_compute. reflexivity.
Qed.
