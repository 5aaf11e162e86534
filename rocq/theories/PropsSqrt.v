(** * PropsSqrt.v -- square roots from the crate's operations (C89) *)
From Coq Require Import ZArith Reals List Bool Lra Lia.
From Flocq Require Import Core.
From Verif Require Import Machine Ieee Spec Samples Sqrt.
Import ListNotations.
Local Open Scope Z_scope.

(** ** C89: a square root by bisection and fused multiply-add is correctly rounded *)
Theorem C89_sqrt : forall S, sem_ok S -> forall x, wf S x -> finite x -> (min_normal S <= value S x)%R ->
  forall half, wf S half -> finite half -> value S half = (/ 2)%R ->
  forall m fuel a b, wf S a -> wf S b -> finite a -> finite b -> (0 <= value S a)%R ->
  (value S a * value S a <= value S x < value S b * value S b)%R -> (0 < value S b)%R -> (value S b * value S b <= max_finite S)%R -> (value S b <= bpow r2 (MAX_EXP S - 1))%R ->
  3 * (MAX_EXP S - MIN_EXP S + PRECISION S - 1) < Z.of_nat fuel ->
  exists r, c_sqrt S half fuel x a b m = Ret r /\ wf S r /\ finite r /\ value S r = rounded S m (sqrt (value S x)).
Proof. exact sqrt_rounded. Qed.
Print Assumptions C89_sqrt.
(** the tests it is made of: the fused multiply-add decides how a product compares with a number *)
Theorem C89_product_above : forall S, sem_ok S -> forall x, wf S x -> finite x -> (min_normal S <= value S x)%R ->
  forall r s, wf S r -> wf S s -> finite r -> finite s -> (0 <= value S r * value S s <= max_finite S)%R ->
  c_product_above S x r s = Ret (Rlt_bool (value S x) (value S r * value S s)).
Proof. exact above_spec. Qed.
Print Assumptions C89_product_above.
Theorem C89_product_below : forall S, sem_ok S -> forall x, wf S x -> finite x -> (min_normal S <= value S x)%R ->
  forall r s, wf S r -> wf S s -> finite r -> finite s -> (0 <= value S r * value S s <= max_finite S)%R ->
  c_product_below S x r s = Ret (Rlt_bool (value S r * value S s) (value S x)).
Proof. exact below_spec. Qed.
Print Assumptions C89_product_below.
(** subnormal numbers have to be scaled first *)
Theorem C89_subnormal_refuted : exists x r, wf SingleS x /\ wf SingleS r /\ finite x /\ finite r /\
  (0 < value SingleS x < min_normal SingleS)%R /\ (value SingleS x < value SingleS r * value SingleS r < 1)%R /\ c_product_above SingleS x r r = Panic.
Proof. exact subnormal_refuted. Qed.
Print Assumptions C89_subnormal_refuted.

(** the square root of two: 1.4140625 below, 1.4150390625 above, the former is nearer; and that of 9/4 *)
Definition h_two : Float := mkFloat 1024 1 Normal false.
Definition h_half' : Float := mkFloat 1024 (-1) Normal false.
Example C89_example : wf HalfS h_two /\ finite h_two /\ (min_normal HalfS <= value HalfS h_two)%R /\ wf HalfS h_half' /\ value HalfS h_half' = (/ 2)%R /\
  (value HalfS h_one * value HalfS h_one <= value HalfS h_two < value HalfS h_two * value HalfS h_two)%R /\ (value HalfS h_two * value HalfS h_two <= max_finite HalfS)%R /\
  3 * (MAX_EXP HalfS - MIN_EXP HalfS + PRECISION HalfS - 1) < Z.of_nat 118 /\
  c_sqrt HalfS h_half' 118 h_two h_one h_two NearestTiesToEven = Ret (mkFloat 1448 0 Normal false) /\
  c_sqrt HalfS h_half' 118 h_two h_one h_two TowardPositive = Ret (mkFloat 1449 0 Normal false) /\
  c_sqrt HalfS h_half' 118 (mkFloat 1152 1 Normal false) h_one h_two TowardPositive = Ret (mkFloat 1536 0 Normal false).
Proof.
  assert (V1 : value HalfS h_one = 1%R) by exact h_one_value. assert (V2 : value HalfS h_two = 2%R) by (unfold value; cbn; lra).
  split; [unfold h_two; sample_wf|]. split; [left; reflexivity|]. rewrite V1, V2. split; [unfold min_normal; cbn; lra|].
  split; [unfold h_half'; sample_wf|]. split; [unfold value; cbn; lra|]. split; [lra|]. split; [unfold max_finite; cbn; lra|]. split; [cbn; lia|].
  vm_compute. repeat split.
Qed.
