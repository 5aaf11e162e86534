(** * PairRefute.v -- statements about pairs that the code does not satisfy *)
From Coq Require Import ZArith Reals List Bool Lia Lra String.
From Flocq Require Import Core.
From Verif Require Import Machine Sig SpecSig Ieee Parse Fmt Ppc Spec SpecStr Norm Samples Algebra SpecPair Pair PairOps PairBase PairSamples.
Import ListNotations.
Local Open Scope Z_scope.
Ltac Zify.zify_post_hook ::= idtac.

(** a signaling NaN makes the operations panic *)
Theorem pair_signaling_refuted : exists x y, pair_wf DoubleS x /\ category (d0 x) = NaN /\ canonical_pair DoubleS y /\
  dd_div_r DoubleS x y NearestTiesToEven = Panic /\ dd_round_to_integral DoubleS x NearestTiesToEven = Panic /\
  dd_fmt DoubleS x None None false = Panic /\ dd_from_str_r DoubleS (bytes "snan") NearestTiesToEven = Panic.
Proof.
  exists p_snan, p_one. split; [split; sample_wf|]. split; [reflexivity|]. split; [exact p_one_canonical|].
  split; [vm_compute; reflexivity|]. split; [vm_compute; reflexivity|]. split; vm_compute; reflexivity.
Qed.
(** so do numbers between the largest pair and the overflow threshold of the
    double-width format: a literal, and a rounding that does not overflow *)
Theorem pair_parse_refuted : exists s st f, from_str_r (FallbackS DoubleS) s NearestTiesToEven = Ret (Ok (st, f)) /\
  category f = Normal /\ dd_from_str_r DoubleS s NearestTiesToEven = Panic /\
  dd_from_str_r DoubleS (bytes "1e400") TowardZero = Panic.
Proof.
  exists (bytes "1.7976931348623159e308"). eexists. eexists. split; [vm_compute; reflexivity|]. split; [reflexivity|]. split; vm_compute; reflexivity.
Qed.
Theorem pair_next_up_refuted : exists x, dd_largest DoubleS = Ret x /\ dd_next_up DoubleS x = Panic.
Proof. eexists. split; [vm_compute; reflexivity|]. vm_compute. reflexivity. Qed.
(** and canonical pairs of more than the double-width precision near the limit,
    though the result is known *)
Theorem pair_div_one_refuted : exists x, canonical_pair DoubleS x /\
  dd_div_r DoubleS x p_one NearestTiesToEven = Panic /\ dd_round_to_integral DoubleS x NearestTiesToEven = Panic /\
  dd_to_u128_r DoubleS x 128 NearestTiesToEven <> Panic.
Proof.
  exists p_max. split; [exact p_max_canonical|]. split; [vm_compute; reflexivity|]. split; [vm_compute; reflexivity|].
  vm_compute. discriminate.
Qed.
(** that pair is reached by a multiplication, and is larger than [largest] *)
Theorem pair_largest_refuted : exists l x, dd_largest DoubleS = Ret l /\ canonical_pair DoubleS x /\
  (pair_value DoubleS l < pair_value DoubleS x)%R /\
  (exists a b st, dd_mul_r DoubleS a b NearestTiesToEven = Ret (st, x)).
Proof.
  eexists. exists p_max. split; [vm_compute; reflexivity|]. split; [exact p_max_canonical|]. split.
  - unfold pair_value, value, p_max. cbn [d0 d1 category sign sig exp signed]. apply Rplus_lt_compat_l.
    apply Rmult_lt_compat_r; [apply bpow_gt_0|]. apply IZR_lt. reflexivity.
  - exists (mkDF (mkFloat 9007199254740991 1023 Normal false) (mkFloat 9007199254740990 969 Normal false)).
    exists (mkDF (mkFloat 4503599627370496 0 Normal false) (mkFloat 4503599627370496 (-107) Normal false)).
    eexists. vm_compute. reflexivity.
Qed.
(** dividing by one loses the bits beyond the double-width precision *)
Theorem pair_div_one_inexact_refuted : exists x r st, canonical_pair DoubleS x /\
  dd_div_r DoubleS x p_one NearestTiesToEven = Ret (st, r) /\ st = OK /\ pair_value DoubleS r <> pair_value DoubleS x.
Proof.
  exists (mkDF (mkFloat 4503599627370496 0 Normal false) (mkFloat 4503599627370496 (-200) Normal false)).
  eexists. eexists. split; [sample_canonical|]. split; [vm_compute; reflexivity|]. split; [reflexivity|].
  unfold pair_value, value. cbn [d0 d1 category sign sig exp signed]. intro E.
  apply Rplus_eq_reg_l in E. symmetry in E. apply Rmult_integral in E. destruct E as [E|E].
  - apply eq_IZR in E. discriminate.
  - pose proof (bpow_gt_0 r2 (-200 - (PRECISION DoubleS - 1))). lra.
Qed.

(** products with special operands have the sign of that operand, and zero
    times infinity raises no flag *)
Theorem pair_mul_sign_refuted : exists x y r, canonical_pair DoubleS x /\ proper_pair DoubleS y /\
  dd_mul_r DoubleS x y NearestTiesToEven = Ret (OK, r) /\ category (d0 r) = Infinity /\
  sign (d0 r) <> xorb (sign (d0 x)) (sign (d0 y)).
Proof.
  exists p_neg, p_inf, p_inf. split; [exact p_neg_canonical|]. split; [exact p_inf_proper|]. split; [vm_compute; reflexivity|].
  split; [reflexivity|]. vm_compute. discriminate.
Qed.
Theorem pair_mul_zero_sign_refuted : exists x y r, canonical_pair DoubleS x /\ canonical_pair DoubleS y /\
  dd_mul_r DoubleS x y NearestTiesToEven = Ret (OK, r) /\ category (d0 r) = Zero /\
  sign (d0 r) <> xorb (sign (d0 x)) (sign (d0 y)).
Proof.
  exists p_neg, p_zero, p_zero. split; [exact p_neg_canonical|]. split; [exact p_zero_canonical|]. split; [vm_compute; reflexivity|].
  split; [reflexivity|]. vm_compute. discriminate.
Qed.
Theorem pair_mul_invalid_refuted : exists x y r, category (d0 x) = Zero /\ category (d0 y) = Infinity /\
  dd_mul_r DoubleS x y NearestTiesToEven = Ret (OK, r) /\ category (d0 r) = NaN.
Proof. exists p_zero, p_inf. eexists. repeat split; vm_compute; reflexivity. Qed.
(** signaling NaNs pass through addition unchanged, without a flag *)
Theorem pair_add_signaling_refuted : exists x y r, category (d0 x) = NaN /\ signaling DoubleS (d0 x) = true /\ canonical_pair DoubleS y /\
  dd_add_r DoubleS x y NearestTiesToEven = Ret (OK, r) /\ signaling DoubleS (d0 r) = true.
Proof.
  exists p_snan, p_one, p_snan. split; [reflexivity|]. split; [reflexivity|]. split; [exact p_one_canonical|]. split; vm_compute; reflexivity.
Qed.
(** -0 + +0 is -0 *)
Theorem pair_add_zero_sign_refuted : exists x y r, canonical_pair DoubleS x /\ canonical_pair DoubleS y /\
  dd_add_r DoubleS x y NearestTiesToEven = Ret (OK, r) /\
  sign (d0 r) <> sum_zero_sign (d0 x) (d0 y) (sign (d0 y)) NearestTiesToEven.
Proof.
  exists (dd_neg p_zero), p_zero, (dd_neg p_zero). split; [apply dd_neg_canonical, p_zero_canonical|]. split; [exact p_zero_canonical|].
  split; [vm_compute; reflexivity|]. vm_compute. discriminate.
Qed.

(** addition raises INEXACT for exact sums, and does not for inexact ones *)
Theorem pair_add_spurious_inexact_refuted : exists x y r, canonical_pair DoubleS x /\ canonical_pair DoubleS y /\
  dd_add_r DoubleS x y NearestTiesToEven = Ret (INEXACT, r) /\
  pair_value DoubleS r = (pair_value DoubleS x + pair_value DoubleS y)%R.
Proof.
  exists p_one, (mkDF (mkFloat 4503599627370496 (-60) Normal false) (mkFloat 0 (-1023) Zero false)). eexists.
  split; [exact p_one_canonical|]. split; [sample_canonical|]. split; [vm_compute; reflexivity|].
  unfold pair_value, value. cbn [d0 d1 p_one category sign sig exp signed]. ring.
Qed.
Theorem pair_add_missing_inexact_refuted : exists x y r, canonical_pair DoubleS x /\ canonical_pair DoubleS y /\
  dd_add_r DoubleS x y NearestTiesToEven = Ret (OK, r) /\
  pair_value DoubleS r <> (pair_value DoubleS x + pair_value DoubleS y)%R.
Proof.
  exists (mkDF (mkFloat 4503599627370497 0 Normal false) (mkFloat 9007199254740991 (-54) Normal true)),
    (mkDF (mkFloat 6755399441055744 0 Normal false) (mkFloat 4503599627370496 (-53) Normal true)). eexists.
  split; [sample_canonical|]. split; [sample_canonical|]. split; [vm_compute; reflexivity|].
  unfold pair_value, value. cbn [d0 d1 category sign sig exp signed].
  change (PRECISION DoubleS) with 53.
  assert (forall k, 0 <= k -> bpow r2 (k + -106) = (IZR (2 ^ k) * bpow r2 (-106))%R) as P.
  { intros k Hk. rewrite (IZR_pow2_bpow k (-106) Hk). reflexivity. }
  change (1 - (53 - 1)) with (55 + -106). change (0 - (53 - 1)) with (54 + -106).
  change (-54 - (53 - 1)) with (0 + -106). change (-53 - (53 - 1)) with (1 + -106).
  rewrite !P by discriminate. set (u := bpow r2 (-106)). assert (u <> 0%R) as Nu by apply Rgt_not_eq, bpow_gt_0.
  rewrite <- !Rmult_assoc, <- !mult_IZR, Rplus_0_r, <- !Rmult_plus_distr_r, <- !plus_IZR.
  intro E. apply Rmult_eq_reg_r in E; [|exact Nu]. apply eq_IZR in E. vm_compute in E. discriminate.
Qed.

(** the order by magnitude: it panics if a low half is zero, and ignores the
    sign of low halves of the same magnitude *)
Theorem pair_cmp_abs_refuted : exists x y, canonical_pair DoubleS x /\ canonical_pair DoubleS y /\
  dd_cmp_abs_normal x y = Ret Eq /\ (Rabs (pair_value DoubleS y) < Rabs (pair_value DoubleS x))%R /\
  exists z, canonical_pair DoubleS z /\ category (d0 z) = Normal /\ dd_cmp_abs_normal z z = Panic.
Proof.
  exists p_above, p_below. split; [exact p_above_canonical|]. split; [exact p_below_canonical|]. split; [vm_compute; reflexivity|]. split.
  - unfold pair_value, value. cbn [d0 d1 p_above p_below category sign sig exp signed]. change (PRECISION DoubleS) with 53.
    assert (0 < bpow r2 (-60 - (53 - 1)) < bpow r2 (0 - (53 - 1)))%R as [A B].
    { split; [apply bpow_gt_0|apply bpow_lt; reflexivity]. }
    revert A B. generalize (bpow r2 (-60 - (53 - 1))) (bpow r2 (0 - (53 - 1))). intros b a A B. rewrite opp_IZR. rewrite !Rabs_pos_eq by lra. lra.
  - exists p_one. split; [exact p_one_canonical|]. split; [reflexivity|]. vm_compute. reflexivity.
Qed.
(** the derived order compares the halves; it is wrong for pairs that are not
    canonical *)
Theorem pair_order_noncanonical_refuted : exists x y, pair_wf DoubleS x /\ pair_wf DoubleS y /\ pair_finite x /\ pair_finite y /\
  dd_partial_cmp x y = Ret (Some Lt) /\ (pair_value DoubleS y < pair_value DoubleS x)%R.
Proof.
  exists (mkDF (mkFloat 4503599627370496 0 Normal false) (mkFloat 4503599627370496 5 Normal false)), p_three.
  split; [split; sample_wf|]. split; [exact (proj1 p_three_canonical)|]. split; [split; left; reflexivity|]. split; [split; [left|right]; reflexivity|].
  split; [vm_compute; reflexivity|].
  unfold pair_value, value. cbn [d0 d1 p_three category sign sig exp signed]. change (PRECISION DoubleS) with 53.
  assert (0 < bpow r2 (0 - (53 - 1)))%R by apply bpow_gt_0.
  replace (bpow r2 (5 - (53 - 1))) with (32 * bpow r2 (0 - (53 - 1)))%R by (change (5 - (53 - 1)) with (5 + (0 - (53 - 1))); rewrite bpow_plus; reflexivity).
  replace (bpow r2 (1 - (53 - 1))) with (2 * bpow r2 (0 - (53 - 1)))%R by (change (1 - (53 - 1)) with (1 + (0 - (53 - 1))); rewrite bpow_plus; reflexivity).
  nra.
Qed.
