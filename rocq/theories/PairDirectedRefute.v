(** * PairDirectedRefute.v -- a directed mode does not bound sums and products
    of pairs on its side *)
From Coq Require Import ZArith Reals List Bool Lia Lra.
From Flocq Require Import Core.
From Verif Require Import Machine Sig SpecSig Ieee Ppc Spec Norm Arith Order Int Samples SpecPair Pair PairOps PairBase PairSamples PairAdd PairMul PairMulRefute AnySum SpecDirected PairDirected.
Local Open Scope Z_scope.
Ltac Zify.zify_post_hook ::= idtac.

Definition none : Float := mkFloat 0 (-1023) Zero false.
(** 2^-106, 1, -2^-107, -1 *)
Definition q_tiny : DFloat := mkDF (mkFloat 4503599627370496 (-106) Normal false) none.
Definition q_one : DFloat := mkDF (mkFloat 4503599627370496 0 Normal false) none.
Definition q_tiny' : DFloat := mkDF (mkFloat 4503599627370496 (-107) Normal true) none.
Definition q_one' : DFloat := mkDF (mkFloat 4503599627370496 0 Normal true) none.
(** 1 - 2^-54 and 1 + 2^-54 *)
Definition q_below : DFloat := mkDF (mkFloat 4503599627370496 0 Normal false) (mkFloat 4503599627370496 (-54) Normal true).
Definition q_above : DFloat := mkDF (mkFloat 4503599627370496 0 Normal false) (mkFloat 4503599627370496 (-54) Normal false).

Ltac scaled k := unfold pair_value; cbn [q_tiny q_one q_tiny' q_one' q_below q_above none d0 d1];
  rewrite ?(value_zero DoubleS (mkFloat _ _ Zero _) eq_refl), ?Rplus_0_r;
  rewrite !(scaled_value _ _ _ k) by (vm_compute; discriminate); rewrite <- ?Rmult_plus_distr_r, <- ?plus_IZR.

Theorem pair_add_upward_refuted : exists x y st r, canonical_pair DoubleS x /\ canonical_pair DoubleS y /\
  dd_add_r DoubleS x y TowardPositive = Ret (st, r) /\ (pair_value DoubleS r < pair_value DoubleS x + pair_value DoubleS y)%R.
Proof.
  exists q_tiny, q_one. eexists. eexists. split; [sample_canonical|]. split; [sample_canonical|]. split; [vm_compute; reflexivity|].
  scaled (-160). apply Rmult_lt_compat_r; [apply bpow_gt_0|apply IZR_lt; vm_compute; reflexivity].
Qed.
Theorem pair_add_truncated_refuted : exists x y st r, canonical_pair DoubleS x /\ canonical_pair DoubleS y /\
  dd_add_r DoubleS x y TowardZero = Ret (st, r) /\ (Rabs (pair_value DoubleS x + pair_value DoubleS y) < Rabs (pair_value DoubleS r))%R.
Proof.
  exists q_tiny', q_one'. eexists. eexists. split; [sample_canonical|]. split; [sample_canonical|]. split; [vm_compute; reflexivity|].
  scaled (-160). rewrite !Rabs_mult, <- !abs_IZR. apply Rmult_lt_compat_r; [apply Rabs_pos_lt, Rgt_not_eq, bpow_gt_0|apply IZR_lt; vm_compute; reflexivity].
Qed.
Lemma unit_one : (IZR (2 ^ 106) * bpow r2 (-106) = 1)%R.
Proof. rewrite IZR_pow2 by (vm_compute; discriminate). rewrite <- bpow_plus. reflexivity. Qed.
Lemma product_scale : forall n a b, (IZR n * bpow r2 (-106) - (IZR a * bpow r2 (-106)) * (IZR b * bpow r2 (-106)) = IZR (n * 2 ^ 106 - a * b) * (bpow r2 (-106) * bpow r2 (-106)))%R.
Proof.
  intros n a b. rewrite minus_IZR, !mult_IZR.
  transitivity (IZR n * bpow r2 (-106) * (IZR (2 ^ 106) * bpow r2 (-106)) - IZR a * bpow r2 (-106) * (IZR b * bpow r2 (-106)))%R; [rewrite unit_one, Rmult_1_r; reflexivity|ring].
Qed.
Theorem pair_mul_upward_refuted : exists x y st r, canonical_pair DoubleS x /\ canonical_pair DoubleS y /\
  dd_mul_r DoubleS x y TowardPositive = Ret (st, r) /\ (pair_value DoubleS r < pair_value DoubleS x * pair_value DoubleS y)%R.
Proof.
  exists q_below, q_below. eexists. eexists. split; [sample_canonical|]. split; [sample_canonical|]. split; [vm_compute; reflexivity|].
  scaled (-106). apply Rminus_lt. rewrite product_scale. rewrite <- (Rmult_0_l (bpow r2 (-106) * bpow r2 (-106))).
  apply Rmult_lt_compat_r; [apply Rmult_lt_0_compat; apply bpow_gt_0|apply IZR_lt; vm_compute; reflexivity].
Qed.
Theorem pair_mul_truncated_refuted : exists x y st r, canonical_pair DoubleS x /\ canonical_pair DoubleS y /\
  dd_mul_r DoubleS x y TowardZero = Ret (st, r) /\ (0 < pair_value DoubleS x * pair_value DoubleS y < pair_value DoubleS r)%R.
Proof.
  exists q_above, q_below. eexists. eexists. split; [sample_canonical|]. split; [sample_canonical|]. split; [vm_compute; reflexivity|].
  scaled (-106). split.
  - apply Rmult_lt_0_compat; (apply Rmult_lt_0_compat; [apply IZR_lt; vm_compute; reflexivity|apply bpow_gt_0]).
  - apply Rminus_gt. rewrite product_scale. apply Rmult_gt_0_compat; [apply IZR_lt; vm_compute; reflexivity|apply Rmult_gt_0_compat; apply bpow_gt_0].
Qed.
(** a directed sum of canonical pairs need not be canonical *)
Theorem pair_add_narrow_refuted : exists x y st r, canonical_pair DoubleS x /\ canonical_pair DoubleS y /\
  dd_add_r DoubleS x y TowardPositive = Ret (st, r) /\ pair_wf DoubleS r /\ pair_finite r /\ ~ canonical_pair DoubleS r.
Proof.
  exists q_one, q_tiny. eexists. eexists. split; [sample_canonical|]. split; [sample_canonical|]. split; [vm_compute; reflexivity|].
  split; [split; sample_wf|]. split; [split; left; reflexivity|]. intros H.
  apply (canonical_low DoubleS double_pair ltac:(vm_compute; discriminate)) in H. cbn [d0 d1] in H.
  rewrite !(scaled_value _ _ _ (-160)) in H by (vm_compute; discriminate). rewrite !Rabs_mult, <- !abs_IZR in H.
  assert (Rabs (bpow r2 (-160)) > 0)%R as P by (apply Rabs_pos_lt, Rgt_not_eq, bpow_gt_0).
  rewrite <- Rmult_assoc in H. apply Rmult_le_reg_r in H; [|exact P].
  apply (Rmult_le_compat_l (bpow r2 (PRECISION DoubleS))) in H; [|apply bpow_ge_0].
  rewrite <- Rmult_assoc, <- bpow_plus, Z.add_opp_diag_r, Rmult_1_l in H. change (PRECISION DoubleS) with 53 in H.
  rewrite <- IZR_pow2, <- mult_IZR in H by (vm_compute; discriminate). apply le_IZR in H. vm_compute in H. apply H. reflexivity.
Qed.

(** 1/3 and 5/4 + 5/4 * 2^-54 *)
Lemma third_narrow : narrow_pair DoubleS p_third.
Proof. apply (canonical_narrow DoubleS double_pair ltac:(vm_compute; discriminate)). exact p_third_canonical. Qed.
Lemma five_narrow : narrow_pair DoubleS p_five.
Proof. apply (canonical_narrow DoubleS double_pair ltac:(vm_compute; discriminate)). exact p_five_canonical. Qed.
Lemma directed_sum_sample : pair_ok DoubleS /\ 5 <= PRECISION DoubleS /\ narrow_pair DoubleS p_third /\ narrow_pair DoubleS p_five /\
  (Rabs (value DoubleS (d0 p_third)) + Rabs (value DoubleS (d0 p_five)) <= bpow r2 (MAX_EXP DoubleS - 4))%R /\
  dd_sub_r DoubleS p_third p_five TowardNegative =
    Ret (INEXACT, mkDF (mkFloat 8256599316845910 (-1) Normal true) (mkFloat 6004799503160656 (-58) Normal false)).
Proof.
  destruct p_sum_sample as [A [_ [_ [R _]]]]. split; [exact A|]. split; [vm_compute; discriminate|]. split; [exact third_narrow|]. split; [exact five_narrow|].
  split; [exact R|vm_compute; reflexivity].
Qed.
Lemma directed_product_sample : pair_ok DoubleS /\ 5 <= PRECISION DoubleS /\ narrow_pair DoubleS p_third /\ narrow_pair DoubleS p_five /\
  (bpow r2 (MIN_EXP DoubleS + 2 * PRECISION DoubleS + 1) <= Rabs (value DoubleS (d0 p_third) * value DoubleS (d0 p_five)) <= bpow r2 (MAX_EXP DoubleS - 4))%R /\
  dd_mul_r DoubleS p_third p_five TowardPositive =
    Ret (INEXACT, mkDF (mkFloat 7505999378950828 (-2) Normal false) (mkFloat 8256599316845908 (-55) Normal true)).
Proof.
  destruct p_product_sample as [A [_ [_ [R _]]]]. split; [exact A|]. split; [vm_compute; discriminate|]. split; [exact third_narrow|]. split; [exact five_narrow|].
  split; [exact R|vm_compute; reflexivity].
Qed.
