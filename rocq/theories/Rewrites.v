(** * Rewrites.v -- operations compilers replace by cheaper ones *)
From Coq Require Import ZArith Reals List Bool Lia Lra Psatz.
From Flocq Require Import Core Plus_error.
From Verif Require Import Machine Sig SpecSig Ieee Spec Norm Arith Special Scale Order Next Algebra Laws Fma SpecRewrites.
Local Open Scope Z_scope.
Ltac Zify.zify_post_hook ::= idtac.

Section Rewrites.
Variable S : Semantics.
Hypothesis HS : sem_ok S.

Lemma cr_same : forall m v zs o o' res res', o = Ret res -> o' = Ret res' -> crate_rounded S m v zs res -> crate_rounded S m v zs res' -> same_result o o'.
Proof.
  intros m v zs o o' [st f] [st' f'] E E' D D'. destruct (delivers_unique _ _ _ _ _ _ _ _ _ HS D D') as [<- B].
  exists st, f, f'. exact (conj E (conj E' B)).
Qed.
Lemma bitwise_eq_refl : forall f, bitwise_eq f f = true.
Proof.
  intros [s e c g]. unfold bitwise_eq, is_negative, is_finite_non_zero, is_finite, is_nan, is_infinite, is_zero. cbn [category sign sig exp].
  destruct c, g; cbn; rewrite ?Z.eqb_refl; reflexivity.
Qed.
Lemma same_refl : forall st f, same_result (Ret (st, f)) (Ret (st, f)).
Proof. intros st f. exists st, f, f. split; [reflexivity|]. split; [reflexivity|]. apply bitwise_eq_refl. Qed.
Lemma infinite_same : forall g f f', is_special S Infinity g f -> is_special S Infinity g f' -> bitwise_eq f f' = true.
Proof.
  intros g f f' [_ [C G]] [_ [C' G']]. unfold bitwise_eq, is_negative. rewrite C, C', G, G'. destruct g; reflexivity.
Qed.
Lemma finite_not_nan : forall f, finite f -> category f <> NaN /\ category f <> Infinity.
Proof. intros f [C|C]; rewrite C; split; discriminate. Qed.

(** division by a power of two *)
Theorem div_inverse : forall x y i m, wf S x -> wf S y -> get_exact_inverse S y = Ret (Some i) -> same_result (div_r S x y m) (mul_r S x i m).
Proof.
  intros x y i m Wx Wy G. destruct (get_exact_inverse_spec S y HS Wy) as [o [E H]]. rewrite G in E. assert (o = Some i) as -> by congruence. clear G E.
  destruct H as [Fy [Wi [Ci [_ [_ [V G]]]]]].
  assert (value S y <> 0)%R as NY by (intro H; rewrite H, Rmult_0_l in V; lra).
  assert (category y = Normal) as Cy by (destruct Fy as [C|C]; [exact C|]; exfalso; apply NY; unfold value; rewrite C; reflexivity).
  destruct (category x) eqn:Cx.
  - destruct (div_r_special S x y m HS Wx Wy) as [st [f [E D]]]; try congruence; [left; exact Cx|].
    destruct (mul_r_infinite S x i m HS Wx Wi) as [st' [f' [E' D']]]; try congruence; [left; exact Cx|].
    rewrite Cx, Cy in D. rewrite Cx, Ci, G in D'. cbv zeta in D. destruct D as [-> D], D' as [-> D'].
    exists OK, f, f'. split; [exact E|]. split; [exact E'|]. exact (infinite_same _ f f' D D').
  - rewrite (div_r_nan S x y m HS (or_introl Cx)), (mul_r_nan S x i m HS (or_introl Cx)). unfold first_nan, signaling. rewrite Cx, Cy, Ci. apply same_refl.
  - destruct (div_r_crate S x y m HS Wx Wy (or_introl Cx) Cy) as [res [E D]]. destruct (mul_r_crate S x i m HS Wx Wi (or_introl Cx) (or_introl Ci)) as [res' [E' D']].
    assert (value S i = / value S y)%R as Vi. { apply Rmult_eq_reg_l with (value S y); [|exact NY]. rewrite V, Rinv_r by exact NY. reflexivity. }
    rewrite Vi, G in D'. exact (cr_same m _ _ _ _ _ _ E E' D D').
  - destruct (div_r_crate S x y m HS Wx Wy (or_intror Cx) Cy) as [res [E D]]. destruct (mul_r_crate S x i m HS Wx Wi (or_intror Cx) (or_introl Ci)) as [res' [E' D']].
    assert (value S i = / value S y)%R as Vi. { apply Rmult_eq_reg_l with (value S y); [|exact NY]. rewrite V, Rinv_r by exact NY. reflexivity. }
    rewrite Vi, G in D'. exact (cr_same m _ _ _ _ _ _ E E' D D').
Qed.

(** doubling *)
Theorem twice : forall x two m, wf S x -> wf S two -> finite two -> value S two = 2%R -> same_result (mul_r S x two m) (add_r S x x m).
Proof.
  intros x two m Wx W2 F2 V2.
  assert (category two = Normal) as C2. { destruct F2 as [C|C]; [exact C|]. unfold value in V2. rewrite C in V2. lra. }
  assert (sign two = false) as S2. { apply (proj2 (normal_sign S two W2 C2)). rewrite V2. lra. }
  destruct (category x) eqn:Cx.
  - destruct (mul_r_infinite S x two m HS Wx W2) as [st [f [E D]]]; try congruence; [left; exact Cx|].
    destruct (add_r_infinite S x x m HS Wx Wx) as [st' [f' [E' D']]]; try congruence; [left; exact Cx|].
    rewrite Cx, C2, S2, xorb_false_r in D. rewrite Cx, eqb_reflx in D'. destruct D as [-> D], D' as [-> D'].
    exists OK, f, f'. split; [exact E|]. split; [exact E'|]. exact (infinite_same _ f f' D D').
  - rewrite (mul_r_nan S x two m HS (or_introl Cx)), (add_r_nan S x x m HS (or_introl Cx)). unfold first_nan. rewrite Cx.
    replace (signaling S two) with false by (unfold signaling; rewrite C2; reflexivity). rewrite orb_false_r, orb_diag. apply same_refl.
  - destruct (mul_r_crate S x two m HS Wx W2 (or_introl Cx) F2) as [res [E D]]. destruct (add_r_crate S x x m HS Wx Wx (or_introl Cx) (or_introl Cx)) as [res' [E' D']].
    rewrite V2, S2, xorb_false_r in D. replace (value S x + value S x)%R with (value S x * 2)%R in D' by ring.
    apply cr_change_zs with (zs' := sign x) in D'; [|pose proof (normal_nonzero S x Wx Cx); lra].
    exact (cr_same m _ _ _ _ _ _ E E' D D').
  - destruct (mul_r_crate S x two m HS Wx W2 (or_intror Cx) F2) as [res [E D]]. destruct (add_r_crate S x x m HS Wx Wx (or_intror Cx) (or_intror Cx)) as [res' [E' D']].
    rewrite V2, S2, xorb_false_r in D. replace (value S x + value S x)%R with (value S x * 2)%R in D' by ring.
    replace (zero_sum_sign x x m) with (sign x) in D' by (unfold zero_sum_sign; rewrite Cx, eqb_reflx; reflexivity).
    exact (cr_same m _ _ _ _ _ _ E E' D D').
Qed.

(** scalbn is multiplication by a power of two *)
Theorem scalbn_mul : forall x y n m, wf S x -> wf S y -> finite y -> value S y = bpow r2 n ->
  exists st f f', mul_r S x y m = Ret (st, f) /\ scalbn_r S x n m = Ret f' /\ bitwise_eq f f' = true.
Proof.
  intros x y n m Wx Wy Fy Vy.
  assert (0 < value S y)%R as PY by (rewrite Vy; apply bpow_gt_0).
  assert (category y = Normal) as Cy. { destruct Fy as [C|C]; [exact C|]. unfold value in PY. rewrite C in PY. lra. }
  assert (sign y = false) as Sy by (apply (proj2 (normal_sign S y Wy Cy)), PY).
  destruct (category x) eqn:Cx; [|destruct (scalbn_r_special S x n m HS Wx) as [f' [E' [W' [C' [S' G']]]]]; [congruence|]| |].
  2:{ rewrite (mul_r_nan S x y m HS (or_introl Cx)). do 2 eexists. exists f'. split; [reflexivity|]. split; [exact E'|].
      unfold first_nan. rewrite Cx in *. specialize (G' eq_refl). unfold bitwise_eq, is_negative.
      rewrite C', S', G'. unfold quieted. cbn [category sign sig exp]. rewrite Cx. cbn [category_eqb negb]. rewrite eqb_reflx, Z.eqb_refl. reflexivity. }
  - destruct (mul_r_infinite S x y m HS Wx Wy) as [st [f [E D]]]; try congruence; [left; exact Cx|].
    destruct (scalbn_r_special S x n m HS Wx) as [f' [E' [W' [C' [S' _]]]]]; [congruence|].
    rewrite Cx, Cy, Sy, xorb_false_r in D. exists st, f, f'. split; [exact E|]. split; [exact E'|]. apply (infinite_same (sign x)); [exact (proj2 D)|]. rewrite Cx in C'. exact (conj W' (conj C' S')).
  - destruct (mul_r_crate S x y m HS Wx Wy (or_introl Cx) Fy) as [[st f] [E D]]. destruct (scalbn_r_crate S x n m HS Wx Cx) as [st' [f' [E' D']]].
    rewrite Vy, Sy, xorb_false_r in D. destruct (delivers_unique _ _ _ _ _ _ _ _ _ HS D D') as [_ B]. exists st, f, f'. exact (conj E (conj E' B)).
  - destruct (mul_r_crate S x y m HS Wx Wy (or_intror Cx) Fy) as [[st f] [E D]].
    destruct (scalbn_r_special S x n m HS Wx) as [f' [E' [W' [C' [S' _]]]]]; [congruence|]. rewrite Cx in C'.
    exists st, f, f'. split; [exact E|]. split; [exact E'|]. rewrite Sy, xorb_false_r in D.
    assert (value S x = 0)%R as V0 by (unfold value; rewrite Cx; reflexivity). rewrite V0, Rmult_0_l in D. destruct D as [Wf [[_ [_ G]] [Fi _]]].
    specialize (G eq_refl). rewrite rounded_0, Rabs_R0 in Fi by exact HS. pose proof (max_finite_pos S HS) as MP. destruct (Fi ltac:(lra)) as [Ff [Vf _]].
    assert (category f = Zero) as Cf. { destruct Ff as [C|C]; [|exact C]. exfalso. exact (normal_nonzero S f Wf C Vf). }
    unfold bitwise_eq, is_negative. rewrite Cf, C', G, S'. destruct (sign x); reflexivity.
Qed.

(** negation *)
Theorem mul_minus_one : forall x one m, wf S x -> category x <> NaN -> wf S one -> finite one -> value S one = (-1)%R ->
  same_result (mul_r S x one m) (Ret (OK, neg x)) /\ same_result (div_r S x one m) (Ret (OK, neg x)).
Proof.
  intros x one m Wx Nx W1 F1 V1.
  assert (category one = Normal) as C1. { destruct F1 as [C|C]; [exact C|]. unfold value in V1. rewrite C in V1. lra. }
  assert (sign one = true) as S1. { apply (proj1 (normal_sign S one W1 C1)). rewrite V1. lra. }
  destruct (category x) eqn:Cx; [|congruence| |].
  - assert (is_special S Infinity (negb (sign x)) (neg x)) as N by (split; [apply wf_neg, Wx|]; split; [exact Cx|reflexivity]).
    destruct (mul_r_infinite S x one m HS Wx W1) as [st [f [E D]]]; try congruence; [left; exact Cx|].
    destruct (div_r_special S x one m HS Wx W1) as [st' [f' [E' D']]]; try congruence; [left; exact Cx|].
    rewrite Cx, C1, S1, xorb_true_r in D. rewrite Cx, C1, S1, xorb_true_r in D'. destruct D as [-> D], D' as [-> D']. split.
    + exists OK, f, (neg x). split; [exact E|]. split; [reflexivity|]. exact (infinite_same _ _ _ D N).
    + exists OK, f', (neg x). split; [exact E'|]. split; [reflexivity|]. exact (infinite_same _ _ _ D' N).
  - assert (crate_rounded S m (value S (neg x)) (negb (sign x)) (OK, neg x)) as N. { apply cr_exact; [exact HS|apply wf_neg, Wx|left; exact Cx|reflexivity]. }
    rewrite value_neg in N.
    destruct (mul_r_crate S x one m HS Wx W1 (or_introl Cx) F1) as [res [E D]]. destruct (div_r_crate S x one m HS Wx W1 (or_introl Cx) C1) as [res' [E' D']].
    rewrite V1, S1, xorb_true_r in D, D'. replace (value S x * -1)%R with (- value S x)%R in D by ring. replace (value S x / -1)%R with (- value S x)%R in D' by field.
    split; [exact (cr_same m _ _ _ _ _ _ E eq_refl D N)|exact (cr_same m _ _ _ _ _ _ E' eq_refl D' N)].
  - assert (crate_rounded S m (value S (neg x)) (negb (sign x)) (OK, neg x)) as N. { apply cr_exact; [exact HS|apply wf_neg, Wx|right; exact Cx|reflexivity]. }
    rewrite value_neg in N.
    destruct (mul_r_crate S x one m HS Wx W1 (or_intror Cx) F1) as [res [E D]]. destruct (div_r_crate S x one m HS Wx W1 (or_intror Cx) C1) as [res' [E' D']].
    rewrite V1, S1, xorb_true_r in D, D'. replace (value S x * -1)%R with (- value S x)%R in D by ring. replace (value S x / -1)%R with (- value S x)%R in D' by field.
    split; [exact (cr_same m _ _ _ _ _ _ E eq_refl D N)|exact (cr_same m _ _ _ _ _ _ E' eq_refl D' N)].
Qed.

(** a fused multiply-add by one *)
Lemma one_shape : forall one, wf S one -> finite one -> value S one = 1%R -> category one = Normal /\ sign one = false.
Proof.
  intros one W F V.
  assert (category one = Normal) as C. { destruct F as [C|C]; [exact C|]. unfold value in V. rewrite C in V. lra. }
  split; [exact C|]. apply (proj2 (normal_sign S one W C)). rewrite V. lra.
Qed.
Lemma multiple_of_smallest : forall x, wf S x -> finite x -> exists k, value S x = (IZR k * bpow r2 (MIN_EXP S - 2 * PRECISION S))%R.
Proof.
  intros x Wx [C|C]; [|exists 0; rewrite (value_zero S x C); ring].
  destruct (wf_normal_canonical S x Wx C) as [K1 [K2 [K3 _]]].
  pose proof HS as [Hp _ _ _].
  set (n := exp x - (PRECISION S - 1) - (MIN_EXP S - 2 * PRECISION S)).
  exists (signed (sign x) (sig x) * 2 ^ n).
  assert (0 <= n) as Hn by (unfold n; lia).
  unfold value. rewrite C, mult_IZR. change (2 ^ n) with (Zpower r2 n). rewrite (IZR_Zpower r2 n Hn), Rmult_assoc, <- bpow_plus.
  f_equal. f_equal. unfold n. lia.
Qed.
Lemma opposite_infinities : forall x z m, category x = Infinity -> category z = Infinity -> sign x <> sign z -> add_r S x z m = Ret (INVALID_OP, NAN S).
Proof.
  intros x z m Cx Cz N. unfold add_r, is_negative, is_zero. rewrite Cx, Cz.
  destruct (sign x), (sign z); try (exfalso; apply N; reflexivity); reflexivity.
Qed.
Lemma finite_cases : forall x, wf S x -> finite x \/ category x = Infinity \/ category x = NaN.
Proof. intros x _. unfold finite. destruct (category x); tauto. Qed.

Lemma fma_like_add : forall x one z m, wf S x -> wf S one -> wf S z -> category one = Normal -> sign one = false ->
  category x = NaN \/ category z = NaN -> same_result (mul_add_r S x one z m) (add_r S x z m).
Proof.
  intros x one z m Wx W1 Wz C1 S1 N.
  assert (signaling S one = false) as Q1 by (unfold signaling; rewrite C1; reflexivity).
  assert (category x = NaN \/ category one = NaN \/ category z = NaN) as N' by tauto.
  destruct (mul_add_r_nan S x one z m HS Wx W1 N') as [st [f [E H]]].
  rewrite (add_r_nan S x z m HS N), E. rewrite C1, Q1, orb_false_r in H. unfold first_nan in *.
  destruct (category x) eqn:Cx.
  2:{ destruct H as [-> ->]. apply same_refl. }
  all: assert (signaling S x = false) as Qx by (unfold signaling; rewrite Cx; reflexivity); rewrite Qx; cbn [orb];
    destruct H as [-> ->]; apply same_refl.
Qed.

Theorem mul_add_one : forall x one z m, wf S x -> wf S one -> wf S z -> finite one -> value S one = 1%R ->
  same_result (mul_add_r S x one z m) (add_r S x z m).
Proof.
  intros x one z m Wx W1 Wz F1 V1. destruct (one_shape one W1 F1 V1) as [C1 S1].
  destruct (finite_cases x Wx) as [Fx|[Ix|Nx]]; [| |apply fma_like_add; tauto].
  all: destruct (finite_cases z Wz) as [Fz|[Iz|Nz]]; [| |apply fma_like_add; tauto].
  - assert (fma_safe S x one z) as Safe. { do 5 right. rewrite V1, Rmult_1_r. apply multiple_of_smallest; assumption. }
    destruct (mul_add_r_crate S x one z m HS Wx W1 Wz Fx F1 Fz Safe) as [res [E D]]. destruct (add_r_crate S x z m HS Wx Wz Fx Fz) as [res' [E' D']].
    rewrite V1, Rmult_1_r, S1, xorb_false_r in D. refine (cr_same m _ _ _ _ _ _ E E' _ D').
    destruct (Req_dec (value S x + value S z) 0) as [V|V]; [|apply cr_change_zs with (2 := D), V].
    replace (zero_sum_sign x z m) with (fma_zero_sign (sign x) z m); [exact D|]. unfold fma_zero_sign, zero_sum_sign.
    destruct Fx as [Cx|Cx], Fz as [Cz|Cz]; rewrite Cx, ?Cz.
    + destruct (normal_sign S x Wx Cx) as [P1 P2], (normal_sign S z Wz Cz) as [P3 P4].
      pose proof (normal_nonzero S x Wx Cx) as NX.
      destruct (Rdichotomy _ _ NX) as [L|L].
      * rewrite (proj1 P1 L), (proj1 P4 ltac:(lra)). destruct m; reflexivity.
      * rewrite (proj1 P2 ltac:(lra)), (proj1 P3 ltac:(lra)). destruct m; reflexivity.
    + exfalso. pose proof (normal_nonzero S x Wx Cx). rewrite (value_zero S z Cz) in V. lra.
    + exfalso. pose proof (normal_nonzero S z Wz Cz). rewrite (value_zero S x Cx) in V. lra.
    + destruct (Bool.eqb (sign x) (sign z)), m; reflexivity.
  - assert (category x <> NaN) by (destruct Fx as [C|C]; rewrite C; discriminate).
    destruct (mul_add_r_infinite S x one z m HS Wx W1 Wz) as [st [f [E D]]]; try congruence; [tauto|].
    destruct (add_r_infinite S x z m HS Wx Wz) as [st' [f' [E' D']]]; try congruence; [tauto|].
    cbv zeta in D. rewrite C1, Iz in D. rewrite Iz in D'.
    destruct Fx as [Cx|Cx]; rewrite Cx in D, D'; destruct D as [-> D], D' as [-> D']; exists OK, f, f'; exact (conj E (conj E' (infinite_same _ f f' D D'))).
  - assert (category z <> NaN) by (destruct Fz as [C|C]; rewrite C; discriminate).
    destruct (mul_add_r_infinite S x one z m HS Wx W1 Wz) as [st [f [E D]]]; try congruence; [tauto|].
    destruct (add_r_infinite S x z m HS Wx Wz) as [st' [f' [E' D']]]; try congruence; [tauto|].
    cbv zeta in D. rewrite C1, Ix, S1, xorb_false_r in D. rewrite Ix in D'.
    destruct Fz as [Cz|Cz]; rewrite Cz in D, D'; destruct D as [-> D], D' as [-> D']; exists OK, f, f'; exact (conj E (conj E' (infinite_same _ f f' D D'))).
  - destruct (bool_dec (sign x) (sign z)) as [G|G].
    + destruct (mul_add_r_infinite S x one z m HS Wx W1 Wz) as [st [f [E D]]]; try congruence; [tauto|].
      destruct (add_r_infinite S x z m HS Wx Wz) as [st' [f' [E' D']]]; try congruence; [tauto|].
      cbv zeta in D. rewrite C1, Ix, Iz, S1, xorb_false_r, G, eqb_reflx in D. rewrite Ix, Iz, G, eqb_reflx in D'.
      destruct D as [-> D], D' as [-> D']; exists OK, f, f'; exact (conj E (conj E' (infinite_same _ f f' D D'))).
    + rewrite (opposite_infinities x z m Ix Iz G).
      destruct (mul_r_infinite S x one m HS Wx W1) as [st [f [E D]]]; try congruence; [tauto|].
      rewrite Ix, C1, S1, xorb_false_r in D. destruct D as [-> [Wf [Cf Sf]]].
      rewrite mul_add_product by (rewrite !is_finite_non_zero_spec, Ix; reflexivity).
      rewrite E. cbn [bind Z.eqb OK]. rewrite (opposite_infinities f z m Cf Iz) by congruence. apply same_refl.
Qed.

(** the difference decides the comparison, subnormal differences included *)
Theorem sub_sign : forall x y m, wf S x -> wf S y -> finite x -> finite y ->
  exists st f, sub_r S x y m = Ret (st, f) /\ (category f = Zero <-> value S x = value S y) /\ (category f <> Zero -> (sign f = true <-> value S x < value S y)%R).
Proof.
  intros x y m Wx Wy Fx Fy. destruct (sub_r_crate S x y m HS Wx Wy Fx Fy) as [[st f] [E D]].
  exists st, f. split; [exact E|]. destruct D as [Wf [[G1 [G2 _]] [Fi Ov]]].
  assert (rounded S m (value S x - value S y) = 0 <-> value S x = value S y)%R as Z0. {
    split; intro H.
    - pose proof (fexp_valid S HS) as VE. pose proof (valid_rnd_of m) as VR. assert (Monotone_exp (fexp S)) as VM by apply FLT_exp_monotone.
      unfold rounded, Rminus in H. assert (value S x + - value S y = 0)%R; [|lra].
      apply (round_plus_eq_0 r2 (fexp S) (rnd_of m)); [apply value_format; assumption|apply generic_format_opp, value_format; assumption|exact H].
    - rewrite H. replace (value S y - value S y)%R with 0%R by ring. apply rounded_0. }
  assert (category f = Zero <-> value S x = value S y) as CZ.
  { destruct (Rle_or_lt (Rabs (rounded S m (value S x - value S y))) (max_finite S)) as [L|L].
    - destruct (Fi L) as [Ff [Vf _]]. rewrite <- Z0, <- Vf. split; [apply value_zero|].
      intro V. destruct Ff as [C|C]; [|exact C]. exfalso. exact (normal_nonzero S f Wf C V).
    - specialize (Ov L). split; intro H.
      + exfalso. destruct (crate_to_infinity S m _ _); destruct Ov as [_ Ov]; [destruct (NONFINITE_BEHAVIOR S)|destruct Ov as [Ov _]]; congruence.
      + exfalso. apply Z0 in H. rewrite H, Rabs_R0 in L. pose proof (max_finite_pos S HS). lra. }
  split; [exact CZ|]. intro N. assert (value S x <> value S y) as NE by tauto. split; intro H.
  - destruct (Rdichotomy _ _ NE) as [L|L]; [exact L|]. rewrite G2 in H by lra. discriminate.
  - apply G1. lra.
Qed.
End Rewrites.
