(** * PairMulRefute.v -- limits of the accuracy of sums and products of pairs *)
From Coq Require Import ZArith Reals List Bool Lia Lra.
From Flocq Require Import Core.
From Verif Require Import Machine Sig SpecSig Ieee Ppc Spec Norm Arith Order Int Samples SpecPair Pair PairOps PairBase PairSamples PairAdd PairMul.
Local Open Scope Z_scope.
Ltac Zify.zify_post_hook ::= idtac.

(** values as integers times a common power of two *)
Lemma scaled_value : forall g s e k, 0 <= e - 52 - k ->
  value DoubleS (mkFloat s e Normal g) = (IZR (signed g s * 2 ^ (e - 52 - k)) * bpow r2 k)%R.
Proof.
  intros g s e k H. unfold value. cbn [category sign sig exp]. change (PRECISION DoubleS - 1) with 52.
  rewrite mult_IZR, IZR_pow2 by exact H. rewrite Rmult_assoc, <- bpow_plus. do 2 f_equal. ring.
Qed.

(** 1 + 2^-52 - (2^-53 - 2^-106), and -(1 + 2^-53): their sum is 2^-106 *)
Definition p_cancel : DFloat := mkDF (mkFloat 4503599627370497 0 Normal false) (mkFloat 9007199254740991 (-54) Normal true).
Definition p_cancel' : DFloat := mkDF (mkFloat 4503599627370496 0 Normal true) (mkFloat 4503599627370496 (-53) Normal true).
Lemma p_cancel_canonical : canonical_pair DoubleS p_cancel. Proof. sample_canonical. Qed.
Lemma p_cancel_canonical' : canonical_pair DoubleS p_cancel'. Proof. sample_canonical. Qed.

(** cancellation: the sum of different numbers can be lost completely *)
Theorem pair_add_cancellation_refuted : exists x y r, canonical_pair DoubleS x /\ canonical_pair DoubleS y /\
  dd_add_r DoubleS x y NearestTiesToEven = Ret (INEXACT, r) /\ pair_value DoubleS r = 0%R /\ (0 < pair_value DoubleS x + pair_value DoubleS y)%R.
Proof.
  exists p_cancel, p_cancel'. eexists. split; [exact p_cancel_canonical|]. split; [exact p_cancel_canonical'|]. split; [vm_compute; reflexivity|]. split.
  - unfold pair_value, value. cbn [d0 d1 category]. ring.
  - unfold pair_value. cbn [p_cancel p_cancel' d0 d1]. rewrite !(scaled_value _ _ _ (-106)) by (vm_compute; discriminate).
    rewrite <- !Rmult_plus_distr_r, <- !plus_IZR. apply Rmult_lt_0_compat; [apply IZR_lt; vm_compute; reflexivity|apply bpow_gt_0].
Qed.

(** addition is not commutative *)
Definition p_left : DFloat := mkDF (mkFloat 4503599627370497 3 Normal false) (mkFloat 4503599627370497 (-53) Normal true).
Definition p_right : DFloat := mkDF (mkFloat 4503599627370497 1 Normal false) (mkFloat 6755399441055744 (-53) Normal true).
Theorem pair_add_commutes_refuted : exists x y st r st' r', canonical_pair DoubleS x /\ canonical_pair DoubleS y /\
  dd_add_r DoubleS x y NearestTiesToEven = Ret (st, r) /\ dd_add_r DoubleS y x NearestTiesToEven = Ret (st', r') /\
  pair_value DoubleS r <> pair_value DoubleS r'.
Proof.
  exists p_left, p_right. eexists. eexists. eexists. eexists. split; [sample_canonical|]. split; [sample_canonical|].
  split; [vm_compute; reflexivity|]. split; [vm_compute; reflexivity|].
  unfold pair_value. cbn [d0 d1]. rewrite !(scaled_value _ _ _ (-110)) by (vm_compute; discriminate).
  rewrite <- !Rmult_plus_distr_r, <- !plus_IZR. intro E. apply Rmult_eq_reg_r in E; [|apply Rgt_not_eq, bpow_gt_0].
  apply eq_IZR in E. vm_compute in E. discriminate.
Qed.

(** near the largest number the sum of finite pairs can be NaN: -3 * 2^970 and
    the largest double *)
Definition p_down : DFloat := mkDF (mkFloat 6755399441055744 971 Normal true) (mkFloat 0 (-1023) Zero false).
Definition p_top : DFloat := mkDF (mkFloat 9007199254740991 1023 Normal false) (mkFloat 0 (-1023) Zero false).
Theorem pair_add_top_refuted : exists x y r, canonical_pair DoubleS x /\ canonical_pair DoubleS y /\
  dd_add_r DoubleS x y NearestTiesToEven = Ret (Z.lor INVALID_OP (Z.lor OVERFLOW INEXACT), r) /\ category (d0 r) = NaN /\
  (0 < pair_value DoubleS x + pair_value DoubleS y < value DoubleS (largest DoubleS))%R.
Proof.
  exists p_down, p_top. eexists. split; [sample_canonical|]. split; [sample_canonical|]. split; [vm_compute; reflexivity|]. split; [reflexivity|].
  unfold pair_value. cbn [p_down p_top d0 d1]. rewrite (value_zero DoubleS (mkFloat 0 (-1023) Zero false) eq_refl), !Rplus_0_r.
  change (largest DoubleS) with (mkFloat 9007199254740991 1023 Normal false). rewrite !(scaled_value _ _ _ 919) by (vm_compute; discriminate).
  rewrite <- !Rmult_plus_distr_r, <- !plus_IZR. split.
  - apply Rmult_lt_0_compat; [apply IZR_lt; vm_compute; reflexivity|apply bpow_gt_0].
  - apply Rmult_lt_compat_r; [apply bpow_gt_0|apply IZR_lt; vm_compute; reflexivity].
Qed.

(** underflow: products lose their low half *)
Definition p_small : DFloat := mkDF (mkFloat 4503599627370497 (-540) Normal false) (mkFloat 0 (-1023) Zero false).
Definition p_small' : DFloat := mkDF (mkFloat 4503599627370496 (-500) Normal false) (mkFloat 0 (-1023) Zero false).
Theorem pair_mul_underflow_refuted : exists x y st r, canonical_pair DoubleS x /\ canonical_pair DoubleS y /\
  dd_mul_r DoubleS x y NearestTiesToEven = Ret (st, r) /\
  (bpow r2 (-53) * Rabs (pair_value DoubleS x * pair_value DoubleS y) < Rabs (pair_value DoubleS r - pair_value DoubleS x * pair_value DoubleS y))%R.
Proof.
  exists p_small, p_small'. eexists. eexists. split; [sample_canonical|]. split; [sample_canonical|]. split; [vm_compute; reflexivity|].
  unfold pair_value. cbn [p_small p_small' d0 d1]. rewrite !(value_zero DoubleS (mkFloat _ _ Zero _) eq_refl), !Rplus_0_r.
  rewrite (scaled_value false 4503599627370497 (-540) (-592)), (scaled_value false 4503599627370496 (-500) (-552)), (scaled_value false 17179869184 (-1022) (-1144)) by (vm_compute; discriminate).
  change (signed false 4503599627370497 * 2 ^ (-540 - 52 - -592)) with 4503599627370497.
  change (signed false 4503599627370496 * 2 ^ (-500 - 52 - -552)) with 4503599627370496.
  change (signed false 17179869184 * 2 ^ (-1022 - 52 - -1144)) with (4503599627370496 * 4503599627370496).
  change (-1144) with (-592 + -552). rewrite bpow_plus. change (-53) with (- (53)). rewrite bpow_opp. change (bpow r2 53) with 9007199254740992%R.
  pose proof (bpow_gt_0 r2 (-592)) as A. pose proof (bpow_gt_0 r2 (-552)) as B. revert A B. generalize (bpow r2 (-592)) (bpow r2 (-552)). intros a b A B.
  assert (0 < a * b)%R as C by (apply Rmult_lt_0_compat; assumption).
  replace (IZR 4503599627370497 * a * (IZR 4503599627370496 * b))%R with (20282409603651674927546878656512 * (a * b))%R; [|rewrite (Rmult_comm (IZR 4503599627370496) b); ring].
  replace (IZR (4503599627370496 * 4503599627370496) * (a * b))%R with (20282409603651670423947251286016 * (a * b))%R by (f_equal; apply f_equal; reflexivity).
  rewrite (Rabs_pos_eq (20282409603651674927546878656512 * (a * b))) by lra. rewrite Rabs_minus_sym, Rabs_pos_eq by lra. lra.
Qed.

(** ** Operands within the range of the theorems *)
Lemma double_small : forall g s e, 0 < s < 2 ^ 53 -> e <= 10 -> (Rabs (value DoubleS (mkFloat s e Normal g)) <= bpow r2 (e + 1))%R.
Proof.
  intros g s e Hs He. unfold value. cbn [category sign sig exp]. change (PRECISION DoubleS - 1) with 52. rewrite Rabs_mult, (Rabs_pos_eq (bpow _ _)) by apply bpow_ge_0.
  replace (e + 1) with (53 + (e - 52)) by ring. rewrite bpow_plus. apply Rmult_le_compat_r; [apply bpow_ge_0|].
  rewrite <- abs_IZR, <- IZR_pow2 by discriminate. apply IZR_le. unfold signed. destruct g; lia.
Qed.
Lemma double_big : forall g s e, 2 ^ 52 <= s -> (bpow r2 e <= Rabs (value DoubleS (mkFloat s e Normal g)))%R.
Proof.
  intros g s e Hs. unfold value. cbn [category sign sig exp]. change (PRECISION DoubleS - 1) with 52. rewrite Rabs_mult, (Rabs_pos_eq (bpow _ _)) by apply bpow_ge_0.
  replace e with (52 + (e - 52)) at 1 by ring. rewrite bpow_plus. apply Rmult_le_compat_r; [apply bpow_ge_0|].
  rewrite <- abs_IZR, <- IZR_pow2 by discriminate. apply IZR_le. unfold signed. destruct g; lia.
Qed.
Lemma p_sum_sample : pair_ok DoubleS /\ canonical_pair DoubleS p_third /\ canonical_pair DoubleS p_five /\
  (Rabs (value DoubleS (d0 p_third)) + Rabs (value DoubleS (d0 p_five)) <= bpow r2 (MAX_EXP DoubleS - 4))%R /\
  dd_add_r DoubleS p_third p_five NearestTiesToEven =
    Ret (INEXACT, mkDF (mkFloat 7130699410003286 0 Normal false) (mkFloat 6380099472108202 (-54) Normal true)).
Proof.
  split; [exact double_pair|]. split; [exact p_third_canonical|]. split; [exact p_five_canonical|]. split; [|vm_compute; reflexivity].
  cbn [p_third p_five d0].
  pose proof (double_small false 6004799503160661 (-2) ltac:(lia) ltac:(lia)) as A. pose proof (double_small false 5629499534213120 0 ltac:(lia) ltac:(lia)) as B.
  change (-2 + 1) with (-1) in A. change (bpow r2 (-1)) with (/ 2)%R in A. change (bpow r2 (0 + 1)) with 2%R in B.
  apply Rle_trans with (bpow r2 2); [change (bpow r2 2) with 4%R; lra|]. apply bpow_le. vm_compute. discriminate.
Qed.
Lemma p_product_sample : pair_ok DoubleS /\ canonical_pair DoubleS p_third /\ canonical_pair DoubleS p_five /\
  (bpow r2 (MIN_EXP DoubleS + 2 * PRECISION DoubleS + 1) <= Rabs (value DoubleS (d0 p_third) * value DoubleS (d0 p_five)) <= bpow r2 (MAX_EXP DoubleS - 4))%R /\
  dd_mul_r DoubleS p_third p_five NearestTiesToEven =
    Ret (INEXACT, mkDF (mkFloat 7505999378950827 (-2) Normal false) (mkFloat 6004799503160672 (-58) Normal false)).
Proof.
  split; [exact double_pair|]. split; [exact p_third_canonical|]. split; [exact p_five_canonical|]. split; [|vm_compute; reflexivity].
  cbn [p_third p_five d0]. rewrite Rabs_mult.
  pose proof (double_small false 6004799503160661 (-2) ltac:(lia) ltac:(lia)) as A. pose proof (double_small false 5629499534213120 0 ltac:(lia) ltac:(lia)) as B.
  pose proof (double_big false 6004799503160661 (-2) ltac:(lia)) as A'. pose proof (double_big false 5629499534213120 0 ltac:(lia)) as B'.
  split.
  - apply Rle_trans with (bpow r2 (-2) * bpow r2 0)%R; [|apply Rmult_le_compat; try assumption; apply bpow_ge_0].
    rewrite <- bpow_plus. apply bpow_le. vm_compute. discriminate.
  - apply Rle_trans with (bpow r2 (-2 + 1) * bpow r2 (0 + 1))%R; [apply Rmult_le_compat; try assumption; apply Rabs_pos|].
    rewrite <- bpow_plus. apply bpow_le. vm_compute. discriminate.
Qed.
