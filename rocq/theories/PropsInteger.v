(** * PropsInteger.v -- C84: programs that compute with integers *)
From Coq Require Import ZArith Reals List Bool Lia Lra.
From Flocq Require Import Core.
From Verif Require Import Machine Ieee Ppc Spec Formats Samples SpecPair PairSamples SpecInteger.
From Verif Require IntExpr PairInt.
Local Open Scope Z_scope.

(** ** C84

    An expression of sums, differences, products, negations, quotients rounded
    toward zero, down or up, and remainders, computed with the crate in any
    rounding mode [m]: if no intermediate result exceeds 2^PRECISION and no divisor
    is zero, the float is the integer and converts back to it.  The status is [OK]
    if the quotients are exact. *)
Theorem C84_integers : forall S m e, sem_ok S -> fits (2 ^ PRECISION S) e ->
  exists st r, IntExpr.run S m e = Ret (st, r) /\ wf S r /\ finite r /\ value S r = IZR (denotes e) /\ (divisible e -> st = OK) /\
    forall m', to_i128_r S r 128 m' = Ret (OK, denotes e, true).
Proof. exact IntExpr.run_integer_all. Qed.
Print Assumptions C84_integers.
(** the bound is sharp in every format: the next integer is not a float *)
Theorem C84_sharp : forall S r, sem_ok S -> wf S r -> finite r -> value S r <> IZR (2 ^ PRECISION S + 1).
Proof. exact IntExpr.run_sharp. Qed.
Print Assumptions C84_sharp.
(** -7 / 2 rounded down, times 500, minus 2047 rem 100: -4 * 500 - 47 *)
Definition half_expr : iexpr :=
  IOp ISub (IOp IMul (IOp IFloor (INum (-7)) (INum 2)) (INum 500)) (IOp IRem (INum 2047) (INum 100)).
Example C84_example : sem_ok HalfS /\ fits (2 ^ PRECISION HalfS) half_expr /\ denotes half_expr = -2047 /\
  ~ divisible half_expr /\ IntExpr.run HalfS TowardPositive half_expr = Ret (INEXACT, mkFloat 2047 10 Normal true) /\
  divisible (IOp ICeil (INum 6) (INeg (INum 3))) /\ fits (2 ^ PRECISION HalfS) (IOp ICeil (INum 6) (INeg (INum 3))).
Proof.
  split; [exact half_ok|]. split; [cbn; repeat split; try lia; discriminate|]. split; [reflexivity|]. split; [cbn; intros [[[_ [_ A]] _] _]; discriminate A|].
  split; [vm_compute; reflexivity|]. split; [cbn; tauto|cbn; repeat split; try lia; discriminate].
Qed.

(** Pairs as fixed-point numbers.  [PairInt.multiple e v]: [v] is an integer times
    2^e.  The sum of two such numbers below 2^(2p-2+e) has no error at all, nor has
    their difference, nor a product below 2^(2p-3+e+f). *)
Theorem C84_pair_sum : forall F m e x y, pair_ok F -> 4 <= PRECISION F -> m = NearestTiesToEven \/ m = NearestTiesToAway ->
  canonical_pair F x -> canonical_pair F y -> PairInt.multiple e (pair_value F x) -> PairInt.multiple e (pair_value F y) ->
  (Rabs (value F (d0 x)) + Rabs (value F (d0 y)) <= bpow r2 (MAX_EXP F - 4))%R ->
  (Rabs (value F (d0 x)) + Rabs (value F (d0 y)) < bpow r2 (2 * PRECISION F - 2 + e))%R ->
  exists st r, dd_add_r F x y m = Ret (st, r) /\ pair_wf F r /\ pair_finite r /\ (m = NearestTiesToEven -> canonical_pair F r) /\
    pair_value F r = (pair_value F x + pair_value F y)%R.
Proof. intros F m e x y HF P4 Hm. exact (PairInt.dd_add_fixed F HF P4 m Hm e x y). Qed.
Print Assumptions C84_pair_sum.
Theorem C84_pair_difference : forall F m e x y, pair_ok F -> 4 <= PRECISION F -> m = NearestTiesToEven \/ m = NearestTiesToAway ->
  canonical_pair F x -> canonical_pair F y -> PairInt.multiple e (pair_value F x) -> PairInt.multiple e (pair_value F y) ->
  (Rabs (value F (d0 x)) + Rabs (value F (d0 y)) <= bpow r2 (MAX_EXP F - 4))%R ->
  (Rabs (value F (d0 x)) + Rabs (value F (d0 y)) < bpow r2 (2 * PRECISION F - 2 + e))%R ->
  exists st r, dd_sub_r F x y m = Ret (st, r) /\ pair_wf F r /\ pair_finite r /\ (m = NearestTiesToEven -> canonical_pair F r) /\
    pair_value F r = (pair_value F x - pair_value F y)%R.
Proof. intros F m e x y HF P4 Hm. exact (PairInt.dd_sub_fixed F HF P4 m Hm e x y). Qed.
Print Assumptions C84_pair_difference.
Theorem C84_pair_product : forall F m e f x y, pair_ok F -> 4 <= PRECISION F -> m = NearestTiesToEven \/ m = NearestTiesToAway ->
  canonical_pair F x -> canonical_pair F y -> PairInt.multiple e (pair_value F x) -> PairInt.multiple f (pair_value F y) ->
  MIN_EXP F + 2 * PRECISION F + 1 <= e + f ->
  (Rabs (value F (d0 x) * value F (d0 y)) <= bpow r2 (MAX_EXP F - 4))%R ->
  (Rabs (value F (d0 x) * value F (d0 y)) < bpow r2 (2 * PRECISION F - 3 + e + f))%R ->
  exists st r, dd_mul_r F x y m = Ret (st, r) /\ pair_wf F r /\ pair_finite r /\ (m = NearestTiesToEven -> canonical_pair F r) /\
    pair_value F r = (pair_value F x * pair_value F y)%R.
Proof. intros F m e f x y HF P4 Hm. exact (PairInt.dd_mul_fixed F HF P4 m Hm e f x y). Qed.
Print Assumptions C84_pair_product.
(** 1 + 2^-60 and 1 - 2^-60, whose sum and difference are exact, and 3 *)
Example C84_pair_fixed_example : canonical_pair DoubleS p_above /\ canonical_pair DoubleS p_below /\ canonical_pair DoubleS p_three /\
  PairInt.multiple (-60) (pair_value DoubleS p_above) /\ PairInt.multiple (-60) (pair_value DoubleS p_below) /\ PairInt.multiple 0 (pair_value DoubleS p_three) /\
  (Rabs (value DoubleS (d0 p_above)) + Rabs (value DoubleS (d0 p_below)) < bpow r2 (2 * PRECISION DoubleS - 2 + -60))%R /\
  (Rabs (value DoubleS (d0 p_above) * value DoubleS (d0 p_three)) < bpow r2 (2 * PRECISION DoubleS - 3 + -60 + 0))%R /\
  (bpow r2 (2 * PRECISION DoubleS) <= bpow r2 (MAX_EXP DoubleS - 4))%R /\ MIN_EXP DoubleS + 2 * PRECISION DoubleS + 1 <= -60 + 0.
Proof. exact PairInt.fixed_sample. Qed.
(** Integer programs with pairs, rounded to nearest, ties to even, as long as no
    intermediate result exceeds 2^(2p-4), which is 2^102 for DoubleDouble. *)
Theorem C84_pair_integers : forall F e, pair_ok F -> 4 <= PRECISION F -> PairInt.integers_fit F -> fits (2 ^ (2 * PRECISION F - 4)) e ->
  exists r, PairInt.dd_run F e = Ret r /\ canonical_pair F r /\ pair_value F r = IZR (denotes e) /\
    forall m, dd_to_i128_r F r 128 m = Ret (OK, denotes e, true).
Proof. intros F e HF P4 HI. exact (PairInt.dd_run_integer F HF P4 HI e). Qed.
Print Assumptions C84_pair_integers.
(** (10^15 + 7) * -(10^15 - 9) - (3 * 10^29) rem (10^15 / 7 rounded up), an integer
    of 100 bits *)
Definition pair_expr : iexpr :=
  IOp ISub (IOp IMul (INum (10 ^ 15 + 7)) (INeg (INum (10 ^ 15 - 9)))) (IOp IRem (INum (3 * 10 ^ 29)) (IOp ICeil (INum (10 ^ 15)) (INum 7))).
Example C84_pair_example : pair_ok DoubleS /\ PairInt.integers_fit DoubleS /\ fits (2 ^ (2 * PRECISION DoubleS - 4)) pair_expr /\
  2 ^ 99 < Z.abs (denotes pair_expr) /\
  match PairInt.dd_run DoubleS pair_expr with Ret r => dd_to_i128_r DoubleS r 128 TowardZero = Ret (OK, denotes pair_expr, true) /\ category (d1 r) = Normal | _ => False end.
Proof.
  split; [exact double_pair|]. split; [unfold PairInt.integers_fit; cbn; lia|]. split; [|split; [vm_compute; reflexivity|vm_compute; split; reflexivity]].
  vm_compute. repeat split; intros; discriminate.
Qed.
(** far beyond the bound: (2^60 + 1)(2^60 + 3) needs more than two halves *)
Theorem C84_pair_refuted : exists e r n, fits (2 ^ 127 - 1) e /\ PairInt.dd_run DoubleS e = Ret r /\ dd_to_i128_r DoubleS r 128 TowardZero = Ret (OK, n, true) /\ n <> denotes e.
Proof.
  exists (IOp IMul (INum (2 ^ 60 + 1)) (INum (2 ^ 60 + 3))). do 2 eexists. split; [vm_compute; repeat split; intros; discriminate|].
  split; [vm_compute; reflexivity|]. split; [vm_compute; reflexivity|]. vm_compute. discriminate.
Qed.
Print Assumptions C84_pair_refuted.
