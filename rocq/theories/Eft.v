(** * Eft.v -- the rounding errors of sums, products and quotients, computed exactly *)
From Coq Require Import ZArith Reals List Bool Lia Lra Psatz.
From Flocq Require Import Core Plus_error Mult_error Div_sqrt_error Pff2Flocq.
From Verif Require Import Machine Sig SpecSig Ieee Spec Norm Order Int Next Convert Fma Algebra Laws Through Arith Samples.
Local Open Scope Z_scope.
Ltac Zify.zify_post_hook ::= idtac.

(** ** What is claimed *)
Definition nearest (m : Round) : Prop := m = NearestTiesToEven \/ m = NearestTiesToAway.

(** Dekker: s = x + y, z = x - s, t = y + z *)
Definition fast_two_sum (S : Semantics) (x y : Float) (m : Round) : outcome (Float * Float) :=
  let! '(_, s) := add_r S x y m in
  let! '(_, z) := sub_r S x s m in
  let! '(_, t) := add_r S y z m in
  Ret (s, t).
(** Knuth: s = x + y, b = s - x, t = (x - (s - b)) + (y - b) *)
Definition two_sum (S : Semantics) (x y : Float) (m : Round) : outcome (Float * Float) :=
  let! '(_, s) := add_r S x y m in
  let! '(_, b) := sub_r S s x m in
  let! '(_, c) := sub_r S s b m in
  let! '(_, d) := sub_r S x c m in
  let! '(_, e) := sub_r S y b m in
  let! '(_, t) := add_r S d e m in
  Ret (s, t).

(** ** Steps *)
Lemma nearest_choice : forall m, nearest m -> exists c, rnd_of m = Znearest c /\ forall x, c x = negb (c (- (x + 1))).
Proof.
  intros m [-> | ->]; cbn [rnd_of].
  - exists (fun x => negb (Z.even x)). split; [reflexivity|]. intro x. rewrite Z.even_opp, Z.even_add. destruct (Z.even x); reflexivity.
  - exists (Z.leb 0). split; [reflexivity|]. intro x. destruct (Z.leb_spec 0 x), (Z.leb_spec 0 (- (x + 1))); try reflexivity; lia.
Qed.
Lemma prec_pos_sem : forall S, sem_ok S -> Prec_gt_0 (PRECISION S).
Proof. intros S HS. pose proof (ok_prec S HS). unfold Prec_gt_0. lia. Qed.
Lemma emin_neg : forall S, sem_ok S -> MIN_EXP S - (PRECISION S - 1) <= 0.
Proof. intros S HS. pose proof (ok_prec S HS). pose proof (ok_min S HS). lia. Qed.

Lemma exactly : forall S m v zs o, sem_ok S -> representable S v -> (exists res, o = Ret res /\ crate_rounded S m v zs res) ->
  exists f, o = Ret (OK, f) /\ wf S f /\ finite f /\ value S f = v.
Proof.
  intros S m v zs o HS R [[st f] [E D]]. assert (wf S f) as W by apply D.
  destruct (cr_representable S m v zs st f HS R D) as [-> [F V]]. exists f. auto.
Qed.
Lemma in_range : forall S m v zs o, (exists res, o = Ret res /\ crate_rounded S m v zs res) -> (Rabs (rounded S m v) <= max_finite S)%R ->
  exists st f, o = Ret (st, f) /\ wf S f /\ finite f /\ value S f = rounded S m v.
Proof.
  intros S m v zs o [[st f] [E [W [_ [D _]]]]] R. destruct (D R) as [F [V _]]. exists st, f. auto.
Qed.

(** ** Sums *)
Theorem fast_two_sum_exact : forall S x y m, sem_ok S -> nearest m -> wf S x -> wf S y -> finite x -> finite y ->
  (Rabs (value S y) <= Rabs (value S x))%R -> (Rabs (rounded S m (value S x + value S y)) <= max_finite S)%R ->
  exists s t, fast_two_sum S x y m = Ret (s, t) /\ wf S s /\ wf S t /\ finite s /\ finite t /\
    value S s = rounded S m (value S x + value S y) /\ (value S s + value S t = value S x + value S y)%R.
Proof.
  intros S x y m HS Hm Wx Wy Fx Fy L B. unfold fast_two_sum.
  destruct (in_range S m _ _ _ (add_r_crate S x y m HS Wx Wy Fx Fy) B) as [st1 [s [E1 [Ws [Fs Vs]]]]]. rewrite E1. cbn [bind]. clear E1.
  set (a := value S x) in *. set (b := value S y) in *.
  pose proof (value_format S x HS Wx) as Gx. pose proof (value_format S y HS Wy) as Gy. fold a in Gx. fold b in Gy.
  assert (Ba : (Rabs a <= max_finite S)%R) by apply (representable_value S x HS Wx).
  assert (Bb : (Rabs b <= max_finite S)%R) by apply (representable_value S y HS Wy).
  assert (M0 : rounded S m 0 = 0%R) by (unfold rounded; apply round_0; apply valid_rnd_of).
  assert (Ma : rounded S m a = a) by (unfold rounded; apply round_generic; [apply valid_rnd_of|exact Gx]).
  assert (R1 : (Rabs (a - rounded S m (a + b)) <= max_finite S)%R).
  { destruct (Rle_or_lt 0 a) as [Pa|Pa].
    - rewrite (Rabs_pos_eq a) in * by exact Pa. pose proof (Rabs_le_inv _ _ L) as [L1 L2].
      pose proof (rounded_mono S m 0 (a + b) HS ltac:(lra)) as Q0. rewrite M0 in Q0.
      destruct (Rle_or_lt 0 b) as [Pb|Pb].
      + pose proof (rounded_mono S m a (a + b) HS ltac:(lra)) as Q1. rewrite Ma in Q1.
        rewrite (Rabs_pos_eq (rounded S m (a + b))) in B by lra. apply Rabs_le. lra.
      + pose proof (rounded_mono S m (a + b) a HS ltac:(lra)) as Q1. rewrite Ma in Q1. apply Rabs_le. lra.
    - rewrite (Rabs_left a) in * by exact Pa. pose proof (Rabs_le_inv _ _ L) as [L1 L2].
      pose proof (rounded_mono S m (a + b) 0 HS ltac:(lra)) as Q0. rewrite M0 in Q0.
      destruct (Rle_or_lt 0 b) as [Pb|Pb].
      + pose proof (rounded_mono S m a (a + b) HS ltac:(lra)) as Q1. rewrite Ma in Q1. apply Rabs_le. lra.
      + pose proof (rounded_mono S m (a + b) a HS ltac:(lra)) as Q1. rewrite Ma in Q1.
        rewrite (Rabs_left1 (rounded S m (a + b))) in B by lra. apply Rabs_le. lra. }
  destruct (in_range S m (a - value S s) (zero_sum_sign x (neg s) m) (sub_r S x s m)) as [st2 [z [E2 [Wz [Fz Vz]]]]].
  { exact (sub_r_crate S x s m HS Wx Ws Fx Fs). }
  { rewrite Vs. apply rounded_le_max; assumption. }
  rewrite E2. cbn [bind]. clear E2.
  destruct (nearest_choice m Hm) as [c [Hc Hs]].
  pose proof (Fast2Sum_correct (MIN_EXP S - (PRECISION S - 1)) (PRECISION S) c ltac:(pose proof (ok_prec S HS); lia) (emin_neg S HS) Hs a b Gx Gy L) as T.
  rewrite <- Hc in T. change radix2 with r2 in T.
  change (rounded S m (a + b) + rounded S m (b + rounded S m (a - rounded S m (a + b))) = a + b)%R in T.
  rewrite <- Vs, <- Vz in T.
  assert (R2 : (Rabs (rounded S m (b + value S z)) <= max_finite S)%R).
  { replace (rounded S m (b + value S z)) with (- (value S s - (a + b)))%R by lra. rewrite Rabs_Ropp, Vs. unfold rounded. rewrite Hc.
    eapply Rle_trans; [apply plus_error_le_l; try assumption; apply fexp_valid; exact HS|]. exact Ba. }
  destruct (in_range S m _ _ _ (add_r_crate S y z m HS Wy Wz Fy Fz) R2) as [st3 [t [E3 [Wt [Ft Vt]]]]].
  rewrite E3. cbn [bind]. exists s, t. split; [reflexivity|]. repeat (split; [assumption|]). fold b in Vt. rewrite Vt. exact T.
Qed.

Lemma bpow_max : forall S k, sem_ok S -> 0 <= k -> (bpow r2 (MAX_EXP S - k) <= max_finite S)%R.
Proof.
  intros S k HS Hk. apply Rle_trans with (bpow r2 (MAX_EXP S)); [apply bpow_le; lia|].
  unfold max_finite. replace (MAX_EXP S) with (PRECISION S - 1 + (MAX_EXP S - (PRECISION S - 1))) at 1 by lia. rewrite bpow_plus.
  apply Rmult_le_compat_r; [apply bpow_ge_0|]. pose proof (ok_prec S HS).
  change (bpow r2 (PRECISION S - 1)) with (bpow radix2 (PRECISION S - 1)). rewrite <- IZR_Zpower by lia. apply IZR_le. unfold max_sig. change (Zpower radix2 (PRECISION S - 1)) with (2 ^ (PRECISION S - 1)).
  assert (2 ^ PRECISION S = 2 * 2 ^ (PRECISION S - 1)) by (rewrite <- Z.pow_succ_r by lia; f_equal; lia).
  assert (2 ^ 2 <= 2 ^ (PRECISION S - 1)) by (apply Z.pow_le_mono_r; lia). change (2 ^ 2) with 4 in *.
  destruct (NONFINITE_BEHAVIOR S); lia.
Qed.
Lemma rounded_bpow : forall S m v k, sem_ok S -> 0 <= k <= 4 -> (Rabs v <= bpow r2 (MAX_EXP S - k))%R -> (Rabs (rounded S m v) <= bpow r2 (MAX_EXP S - k))%R.
Proof.
  intros S m v k HS Hk H. unfold rounded. apply abs_round_le_generic; [apply fexp_valid; exact HS|apply valid_rnd_of| |exact H].
  apply generic_format_bpow. unfold fexp, FLT_exp. pose proof (ok_prec S HS). pose proof (ok_min S HS). pose proof (ok_max S HS). lia.
Qed.
Lemma bpow_half : forall S k, (bpow r2 (MAX_EXP S - k) = 2 * bpow r2 (MAX_EXP S - (k + 1)))%R.
Proof. intros S k. replace (MAX_EXP S - k) with (MAX_EXP S - (k + 1) + 1) by ring. rewrite bpow_plus_1. reflexivity. Qed.

Theorem two_sum_exact : forall S x y m, sem_ok S -> nearest m -> wf S x -> wf S y -> finite x -> finite y ->
  (Rabs (value S x) + Rabs (value S y) <= bpow r2 (MAX_EXP S - 4))%R ->
  exists s t, two_sum S x y m = Ret (s, t) /\ wf S s /\ wf S t /\ finite s /\ finite t /\
    value S s = rounded S m (value S x + value S y) /\ (value S s + value S t = value S x + value S y)%R.
Proof.
  intros S x y m HS Hm Wx Wy Fx Fy B. unfold two_sum.
  pose proof (value_format S x HS Wx) as Gx. pose proof (value_format S y HS Wy) as Gy.
  pose proof (bpow_gt_0 r2 (MAX_EXP S - 4)) as B4. pose proof (bpow_half S 3) as B3. pose proof (bpow_half S 2) as B2.
  pose proof (bpow_half S 1) as B1. pose proof (bpow_half S 0) as B0.
  change (3 + 1) with 4 in B3. change (2 + 1) with 3 in B2. change (1 + 1) with 2 in B1. change (0 + 1) with 1 in B0.
  pose proof (bpow_max S 0 HS ltac:(lia)) as MX.
  pose proof (Rabs_triang (value S x) (value S y)) as T1. pose proof (Rabs_pos (value S x)) as Px. pose proof (Rabs_pos (value S y)) as Py.
  assert (sub_tri : forall u v : R, (Rabs (u - v) <= Rabs u + Rabs v)%R).
  { intros u v. unfold Rminus. pose proof (Rabs_triang u (- v)). rewrite Rabs_Ropp in *. lra. }
  pose proof (rounded_bpow S m (value S x + value S y) 4 HS ltac:(lia) ltac:(lra)) as Rs.
  destruct (in_range S m _ _ _ (add_r_crate S x y m HS Wx Wy Fx Fy)) as [st1 [s [E1 [Ws [Fs Vs]]]]]; [lra|]. rewrite E1. cbn [bind]. clear E1.
  rewrite <- Vs in Rs.
  pose proof (sub_tri (value S s) (value S x)) as T2.
  pose proof (rounded_bpow S m (value S s - value S x) 3 HS ltac:(lia) ltac:(lra)) as Rb.
  destruct (in_range S m _ _ _ (sub_r_crate S s x m HS Ws Wx Fs Fx)) as [st2 [b [E2 [Wb [Fb Vb]]]]]; [lra|]. rewrite E2. cbn [bind]. clear E2.
  rewrite <- Vb in Rb.
  pose proof (sub_tri (value S s) (value S b)) as T3.
  pose proof (rounded_bpow S m (value S s - value S b) 2 HS ltac:(lia) ltac:(lra)) as Rc.
  destruct (in_range S m _ _ _ (sub_r_crate S s b m HS Ws Wb Fs Fb)) as [st3 [c [E3 [Wc [Fc Vc]]]]]; [lra|]. rewrite E3. cbn [bind]. clear E3.
  rewrite <- Vc in Rc.
  pose proof (sub_tri (value S x) (value S c)) as T4.
  pose proof (rounded_bpow S m (value S x - value S c) 1 HS ltac:(lia) ltac:(lra)) as Rd.
  destruct (in_range S m _ _ _ (sub_r_crate S x c m HS Wx Wc Fx Fc)) as [st4 [d [E4 [Wd [Fd Vd]]]]]; [lra|]. rewrite E4. cbn [bind]. clear E4.
  rewrite <- Vd in Rd.
  pose proof (sub_tri (value S y) (value S b)) as T5.
  pose proof (rounded_bpow S m (value S y - value S b) 2 HS ltac:(lia) ltac:(lra)) as Re.
  destruct (in_range S m _ _ _ (sub_r_crate S y b m HS Wy Wb Fy Fb)) as [st5 [e [E5 [We [Fe Ve]]]]]; [lra|]. rewrite E5. cbn [bind]. clear E5.
  rewrite <- Ve in Re.
  pose proof (Rabs_triang (value S d) (value S e)) as T6.
  pose proof (rounded_bpow S m (value S d + value S e) 0 HS ltac:(lia) ltac:(lra)) as Rt.
  destruct (in_range S m _ _ _ (add_r_crate S d e m HS Wd We Fd Fe)) as [st6 [t [E6 [Wt [Ft Vt]]]]]; [lra|]. rewrite E6. cbn [bind]. clear E6.
  exists s, t. split; [reflexivity|]. repeat (split; [assumption|]).
  destruct (nearest_choice m Hm) as [ch [Hc Hs]].
  pose proof (TwoSum_correct (MIN_EXP S - (PRECISION S - 1)) (PRECISION S) ch ltac:(pose proof (ok_prec S HS); lia) (emin_neg S HS) Hs _ _ Gx Gy) as T.
  rewrite <- Hc in T. change radix2 with r2 in T.
  pose (R := rounded S m). pose (x0 := value S x). pose (y0 := value S y).
  change (R (x0 + y0) + R (R (x0 - R (R (x0 + y0) - R (R (x0 + y0) - x0))) + R (y0 - R (R (x0 + y0) - x0))) = x0 + y0)%R in T.
  unfold R, x0, y0 in T.
  rewrite <- Vs, <- Vb, <- Vc, <- Vd, <- Ve, <- Vt in T. exact T.
Qed.

(** ** Products *)
Lemma error_max : forall S m v, sem_ok S -> (Rabs (rounded S m v) <= max_finite S)%R -> (Rabs (v - rounded S m v) <= max_finite S)%R.
Proof.
  intros S m v HS B. pose proof (fexp_valid S HS) as VE. pose proof (valid_rnd_of m) as VR. pose proof (max_finite_pos S HS) as MP.
  destruct (Req_dec v 0) as [->|Nv]. { unfold rounded. rewrite round_0, Rminus_0_r, Rabs_R0 by exact VR. lra. }
  rewrite Rabs_minus_sym. apply Rle_trans with (ulp r2 (fexp S) v).
  { left. unfold rounded. apply error_lt_ulp; assumption. }
  rewrite ulp_neq_0 by exact Nv. pose proof (ok_prec S HS) as HP. pose proof (ok_min S HS) as HN. pose proof (ok_max S HS) as HX.
  apply Rle_trans with (bpow r2 (MAX_EXP S - 0)); [|apply bpow_max; [exact HS|lia]]. apply bpow_le.
  unfold cexp, fexp, FLT_exp. destruct (Z.max_spec (Raux.mag r2 v - PRECISION S) (MIN_EXP S - (PRECISION S - 1))) as [[_ ->]|[Q ->]]; [lia|].
  assert (bpow r2 (Raux.mag r2 v - 1) <= max_finite S)%R as L.
  { apply Rle_trans with (2 := B). unfold rounded. apply abs_round_ge_generic; [exact VE|exact VR| |].
    - apply generic_format_bpow. unfold fexp, FLT_exp. lia.
    - apply bpow_mag_le. exact Nv. }
  assert (Raux.mag r2 v - 1 < MAX_EXP S + 1); [|lia]. apply (lt_bpow r2). apply Rle_lt_trans with (1 := L). apply max_below_top. exact HS.
Qed.

Theorem two_product : forall S x y m m', sem_ok S -> wf S x -> wf S y -> finite x -> finite y ->
  (bpow r2 (MIN_EXP S + PRECISION S) <= Rabs (value S x * value S y))%R ->
  (Rabs (rounded S m (value S x * value S y)) <= max_finite S)%R ->
  exists st p e, mul_r S x y m = Ret (st, p) /\ finite p /\ value S p = rounded S m (value S x * value S y) /\
    mul_add_r S x y (neg p) m' = Ret (OK, e) /\ wf S e /\ finite e /\
    (value S p + value S e = value S x * value S y)%R.
Proof.
  intros S x y m m' HS Wx Wy Fx Fy Lo Hi.
  destruct (in_range S m _ _ _ (mul_r_crate S x y m HS Wx Wy Fx Fy) Hi) as [st [p [E [Wp [Fp Vp]]]]].
  pose proof (value_format S x HS Wx) as Gx. pose proof (value_format S y HS Wy) as Gy.
  pose proof (ok_prec S HS) as HP.
  assert (fma_safe S x y (neg p)) as Sf.
  { do 3 right. left. apply Rle_trans with (2 := Lo). unfold min_normal. apply bpow_le. lia. }
  exists st, p.
  destruct (exactly S m' (value S x * value S y + value S (neg p)) (fma_zero_sign (xorb (sign x) (sign y)) (neg p) m') (mul_add_r S x y (neg p) m') HS)
    as [e [Ee [We [Fe Ve]]]].
  - rewrite value_neg, Vp.
    assert (generic_format r2 (fexp S) (value S x * value S y - rounded S m (value S x * value S y))) as G.
    { replace (value S x * value S y - rounded S m (value S x * value S y))%R with (- (rounded S m (value S x * value S y) - value S x * value S y))%R by ring.
      apply generic_format_opp. unfold rounded. apply mult_error_FLT; [exact (prec_pos_sem S HS)|apply valid_rnd_of|exact Gx|exact Gy|].
      intros _. replace (MIN_EXP S - (PRECISION S - 1) + 2 * PRECISION S - 1) with (MIN_EXP S + PRECISION S) by lia. exact Lo. }
    split; [exact G|]. apply error_max; assumption.
  - exact (mul_add_r_crate S x y (neg p) m' HS Wx Wy (wf_neg S p Wp) Fx Fy (finite_neg p Fp) Sf).
  - exists e. repeat (split; [assumption|]). rewrite Ve, value_neg. ring.
Qed.

(** ** Quotients *)
Lemma quotient_facts : forall S m a b, sem_ok S -> generic_format r2 (fexp S) a -> generic_format r2 (fexp S) b -> b <> 0%R ->
  (bpow r2 (MIN_EXP S + PRECISION S) <= Rabs a)%R -> (bpow r2 (MIN_EXP S) <= Rabs (a / b))%R ->
  generic_format r2 (fexp S) (a - rounded S m (a / b) * b) /\ (Rabs (a - rounded S m (a / b) * b) <= Rabs a)%R /\
  (bpow r2 (MIN_EXP S) <= Rabs (rounded S m (a / b) * b))%R.
Proof.
  intros S m a b HS Ga Gb Nb La Lq. pose proof (valid_rnd_of m) as VR. pose proof (fexp_valid S HS) as VE.
  pose proof (prec_pos_sem S HS) as PP. set (p := PRECISION S) in *. set (emin := MIN_EXP S - (p - 1)) in *.
  pose proof (ok_prec S HS) as HP. fold p in HP.
  assert (Na : a <> 0%R). { intros ->. rewrite Rabs_R0 in La. pose proof (bpow_gt_0 r2 (MIN_EXP S + p)). lra. }
  assert (Nq : (a / b <> 0)%R). { intro Z. rewrite Z, Rabs_R0 in Lq. pose proof (bpow_gt_0 r2 (MIN_EXP S)). lra. }
  assert (Eq : rounded S m (a / b) = round r2 (FLX_exp p) (rnd_of m) (a / b)).
  { unfold rounded. apply round_FLT_FLX. fold p. replace (MIN_EXP S - (p - 1) + p - 1) with (MIN_EXP S) by lia. exact Lq. }
  assert (Fx : generic_format r2 (FLX_exp p) (a - rounded S m (a / b) * b)).
  { rewrite Eq. apply div_error_FLX; [exact PP|exact VR| |]; apply generic_format_FLX_FLT with emin; assumption. }
  assert (Err : (Rabs (a - rounded S m (a / b) * b) <= Rabs a)%R).
  { replace (a - rounded S m (a / b) * b)%R with (- ((rounded S m (a / b) - a / b) * b))%R by (field; exact Nb).
    rewrite Rabs_Ropp, Rabs_mult. apply Rle_trans with (Rabs (a / b) * Rabs b)%R.
    - apply Rmult_le_compat_r; [apply Rabs_pos|]. left. apply Rlt_le_trans with (ulp r2 (fexp S) (a / b)).
      { unfold rounded. apply error_lt_ulp; assumption. }
      apply Rle_trans with (Rabs (a / b) * bpow r2 (1 - p))%R.
      { apply ulp_FLT_le. fold p. replace (MIN_EXP S - (p - 1) + p - 1) with (MIN_EXP S) by lia. exact Lq. }
      rewrite <- (Rmult_1_r (Rabs (a / b))) at 2. apply Rmult_le_compat_l; [apply Rabs_pos|].
      change 1%R with (bpow r2 0). apply bpow_le. lia.
    - rewrite <- Rabs_mult. replace (a / b * b)%R with a by (field; exact Nb). lra. }
  assert (Ma : MIN_EXP S + p < Raux.mag r2 a).
  { apply (mag_gt_bpow r2) in La. exact La. }
  assert (Mq : MIN_EXP S <= Raux.mag r2 a - Raux.mag r2 b).
  { assert (MIN_EXP S < Raux.mag r2 a + (1 - Raux.mag r2 b)); [|lia]. apply (lt_bpow r2). apply Rle_lt_trans with (1 := Lq).
    unfold Rdiv. rewrite Rabs_mult, Rabs_inv, bpow_plus. apply Rlt_le_trans with (bpow r2 (Raux.mag r2 a) * / Rabs b)%R.
    - apply Rmult_lt_compat_r; [apply Rinv_0_lt_compat, Rabs_pos_lt; exact Nb|apply bpow_mag_gt].
    - apply Rmult_le_compat_l; [apply bpow_ge_0|]. replace (1 - Raux.mag r2 b) with (- (Raux.mag r2 b - 1)) by ring. rewrite bpow_opp.
      apply Rinv_le; [apply bpow_gt_0|]. apply bpow_mag_le. exact Nb. }
  assert (Lqm : (bpow r2 (Raux.mag r2 a - 1 - Raux.mag r2 b) <= Rabs (rounded S m (a / b)))%R).
  { unfold rounded. apply abs_round_ge_generic; [exact VE|exact VR| |].
    - apply generic_format_bpow. unfold fexp, FLT_exp. fold p. lia.
    - unfold Rdiv. rewrite Rabs_mult, Rabs_inv. replace (Raux.mag r2 a - 1 - Raux.mag r2 b) with (Raux.mag r2 a - 1 + - Raux.mag r2 b) by ring. rewrite bpow_plus.
      apply Rmult_le_compat; [apply bpow_ge_0|apply bpow_ge_0|apply bpow_mag_le; exact Na|].
      rewrite bpow_opp. apply Rinv_le; [apply Rabs_pos_lt; exact Nb|]. left. apply bpow_mag_gt. }
  assert (Gq : generic_format r2 (fexp S) (rounded S m (a / b))) by (apply generic_format_round; assumption).
  split; [|split; [exact Err|]].
  2: { rewrite Rabs_mult. apply Rle_trans with (bpow r2 (Raux.mag r2 a - 1 - Raux.mag r2 b) * bpow r2 (Raux.mag r2 b - 1))%R.
    - rewrite <- bpow_plus. apply bpow_le. lia.
    - apply Rmult_le_compat; [apply bpow_ge_0|apply bpow_ge_0|exact Lqm|apply bpow_mag_le; exact Nb]. }
  set (q := rounded S m (a / b)) in *. set (r := (a - q * b)%R) in *.
  assert (exists k, r = (IZR k * bpow r2 emin)%R) as [k Hk].
  { assert (mult : forall v e, generic_format r2 (fexp S) v -> e <= cexp r2 (fexp S) v -> exists k, v = (IZR k * bpow r2 e)%R).
    { intros v e G L. exists (Ztrunc (scaled_mantissa r2 (fexp S) v) * 2 ^ (cexp r2 (fexp S) v - e)).
      rewrite mult_IZR. change 2 with (radix_val r2). rewrite IZR_Zpower by lia. rewrite Rmult_assoc, <- bpow_plus.
      replace (cexp r2 (fexp S) v - e + e) with (cexp r2 (fexp S) v) by ring. exact G. }
    assert (Lc : forall v, Raux.mag r2 v - p <= cexp r2 (fexp S) v /\ emin <= cexp r2 (fexp S) v).
    { intro v. unfold cexp, fexp, FLT_exp. fold p emin. lia. }
    apply (mag_gt_bpow r2) in Lqm.
    destruct (mult a emin Ga (proj2 (Lc a))) as [ka Ka].
    destruct (mult b (Raux.mag r2 b - p) Gb (proj1 (Lc b))) as [kb Kb].
    destruct (mult q (emin - (Raux.mag r2 b - p)) Gq) as [kq Kq].
    { pose proof (proj1 (Lc q)). unfold emin. lia. }
    exists (ka - kq * kb). unfold r. rewrite minus_IZR, mult_IZR.
    pose proof (f_equal2 Rmult Kq Kb) as Kqb. cbv beta in Kqb.
    replace (IZR kq * bpow r2 (emin - (Raux.mag r2 b - p)) * (IZR kb * bpow r2 (Raux.mag r2 b - p)))%R
      with (IZR kq * IZR kb * (bpow r2 (emin - (Raux.mag r2 b - p)) * bpow r2 (Raux.mag r2 b - p)))%R in Kqb by ring.
    rewrite <- bpow_plus in Kqb. replace (emin - (Raux.mag r2 b - p) + (Raux.mag r2 b - p)) with emin in Kqb by ring.
    rewrite Kqb, Ka at 1. ring. }
  destruct (Z.le_gt_cases emin (Raux.mag r2 r - p)) as [L|L].
  - apply (generic_inclusion_mag r2 (FLX_exp p)); [|exact Fx]. intros _. unfold fexp, FLT_exp, FLX_exp. fold p emin. lia.
  - assert (Ef : r = F2R (Defs.Float r2 k emin)) by exact Hk.
    rewrite Ef. apply generic_format_F2R. intros _. rewrite <- Ef. unfold cexp, fexp, FLT_exp. fold p emin. lia.
Qed.

Theorem quotient_remainder : forall S x y m m', sem_ok S -> wf S x -> wf S y -> finite x -> category y = Normal ->
  (bpow r2 (MIN_EXP S + PRECISION S) <= Rabs (value S x))%R -> (min_normal S <= Rabs (value S x / value S y))%R ->
  (Rabs (rounded S m (value S x / value S y)) <= max_finite S)%R ->
  exists st q r, div_r S x y m = Ret (st, q) /\ finite q /\ value S q = rounded S m (value S x / value S y) /\
    mul_add_r S (neg q) y x m' = Ret (OK, r) /\ wf S r /\ finite r /\
    (value S q * value S y + value S r = value S x)%R.
Proof.
  intros S x y m m' HS Wx Wy Fx Cy Lx Lq Hi.
  destruct (in_range S m _ _ _ (div_r_crate S x y m HS Wx Wy Fx Cy) Hi) as [st [q [E [Wq [Fq Vq]]]]].
  assert (Fy : finite y) by (left; exact Cy).
  destruct (quotient_facts S m (value S x) (value S y) HS (value_format S x HS Wx) (value_format S y HS Wy) (normal_nonzero S y Wy Cy) Lx Lq) as [G [B L]].
  rewrite <- Vq in G, B, L.
  assert (fma_safe S (neg q) y x) as Sf.
  { do 3 right. left. rewrite value_neg, Ropp_mult_distr_l_reverse, Rabs_Ropp. exact L. }
  exists st, q.
  destruct (exactly S m' (value S (neg q) * value S y + value S x) (fma_zero_sign (xorb (sign (neg q)) (sign y)) x m') (mul_add_r S (neg q) y x m') HS)
    as [r [Er [Wr [Fr Vr]]]].
  - rewrite value_neg. replace (- value S q * value S y + value S x)%R with (value S x - value S q * value S y)%R by ring.
    split; [exact G|]. apply Rle_trans with (1 := B). apply (representable_value S x HS Wx).
  - exact (mul_add_r_crate S (neg q) y x m' HS (wf_neg S q Wq) Wy Wx (finite_neg q Fq) Fy Fx Sf).
  - exists r. repeat (split; [assumption|]). rewrite Vr, value_neg. ring.
Qed.

(** ** Enclosures *)

(** The result rounded down and the result rounded up enclose the exact one; both
    are exact if it is a number of the format and neighbours otherwise. *)
Definition encloses (S : Semantics) (v : R) (down up : outcome (Z * Float)) : Prop :=
  exists st lo st' hi a b, down = Ret (st, lo) /\ up = Ret (st', hi) /\ ext_of S lo = Some a /\ ext_of S hi = Some b /\
    ext_le a (Fin v) /\ ext_le (Fin v) b /\
    (representable S v -> st = OK /\ st' = OK /\ a = Fin v /\ b = Fin v) /\
    (~ representable S v -> st <> OK /\ st' <> OK /\ least_above S a hi /\ greatest_below S b lo).

Definition opposite (a : extended) : extended := match a with Fin v => Fin (- v) | PosInf => NegInf | NegInf => PosInf end.
Definition is_down (S : Semantics) (v : R) (a : extended) : Prop :=
  ext_le a (Fin v) /\ forall y, representable S y -> (y <= v)%R -> ext_le (Fin y) a.
Definition is_up (S : Semantics) (v : R) (b : extended) : Prop :=
  ext_le (Fin v) b /\ forall y, representable S y -> (v <= y)%R -> ext_le b (Fin y).

Lemma le_Fin : forall a b, (a <= b)%R -> ext_le (Fin a) (Fin b).
Proof. intros a b [H| ->]; [left; exact H|right; reflexivity]. Qed.
Lemma le_Fin_inv : forall a b, ext_le (Fin a) (Fin b) -> (a <= b)%R.
Proof. intros a b [H|H]; [left; exact H|right; congruence]. Qed.
Lemma opposite_le : forall a b, ext_le a b -> ext_le (opposite b) (opposite a).
Proof.
  intros a b [H| ->]; [left|right; reflexivity]. destruct a, b; cbn in *; try tauto. lra.
Qed.
Lemma opposite_opposite : forall a, opposite (opposite a) = a.
Proof. intros []; cbn; try reflexivity. rewrite Ropp_involutive. reflexivity. Qed.
Lemma representable_opp : forall S y, representable S y -> representable S (- y).
Proof. intros S y [G B]. split; [apply generic_format_opp; exact G|rewrite Rabs_Ropp; exact B]. Qed.
Lemma down_up : forall S v a, is_down S v a -> is_up S (- v) (opposite a).
Proof.
  intros S v a [H1 H2]. split; [exact (opposite_le _ _ H1)|]. intros y R L.
  pose proof (opposite_le _ _ (H2 (- y)%R (representable_opp S y R) ltac:(lra))) as Q. cbn [opposite] in Q. rewrite Ropp_involutive in Q. exact Q.
Qed.
Lemma up_down : forall S v a, is_up S v a -> is_down S (- v) (opposite a).
Proof.
  intros S v a [H1 H2]. split; [exact (opposite_le _ _ H1)|]. intros y R L.
  pose proof (opposite_le _ _ (H2 (- y)%R (representable_opp S y R) ltac:(lra))) as Q. cbn [opposite] in Q. rewrite Ropp_involutive in Q. exact Q.
Qed.

Lemma directed_down : forall S v zs st f, sem_ok S -> NONFINITE_BEHAVIOR S = IEEE754 ->
  delivers (to_infinity TowardNegative) S TowardNegative v zs (st, f) ->
  exists a, ext_of S f = Some a /\ is_down S v a /\ (st = OK <-> representable S v).
Proof.
  intros S v zs st f HS NB D.
  assert (NN : category f <> NaN).
  { pose proof D as [_ [_ [D1 D2]]]. destruct (Rle_or_lt (Rabs (rounded S TowardNegative v)) (max_finite S)) as [H|H].
    - destruct (D1 H) as [[C|C] _]; rewrite C; discriminate.
    - specialize (D2 H). destruct (to_infinity TowardNegative (sign f)).
      + destruct D2 as [_ C]. rewrite C, NB. discriminate.
      + destruct D2 as [_ [C _]]. rewrite C. discriminate. }
  destruct (delivers_ext _ _ _ _ _ _ _ HS D NN) as [a [A Q]]. exists a. split; [exact A|]. split.
  - pose proof (fexp_valid S HS) as VE. pose proof (max_finite_pos S HS) as MP.
    assert (Le : (rounded S TowardNegative v <= v)%R) by (unfold rounded; cbn [rnd_of]; apply (round_DN_pt r2 (fexp S) v)).
    assert (Up : forall y, representable S y -> (y <= v)%R -> (y <= rounded S TowardNegative v)%R).
    { intros y [G _] L. unfold rounded; cbn [rnd_of]. apply (round_DN_pt r2 (fexp S) v); assumption. }
    destruct Q as [[B ->]|[[B [[P _]|[_ ->]]]|[B [[_ [_ ->]]|[P _]]]]].
    + split; [apply le_Fin; exact Le|]. intros y R L. apply le_Fin. apply Up; assumption.
    + discriminate P.
    + split; [apply le_Fin; lra|]. intros y [_ R] L. apply le_Fin. apply Rabs_le_inv in R. lra.
    + split; [left; exact I|]. intros y R L. exfalso. specialize (Up y R L). destruct R as [_ R]. apply Rabs_le_inv in R. lra.
    + discriminate P.
  - split.
    + intro E. destruct (delivers_flags _ _ _ _ _ _ _ HS D) as [[FE _] _]. destruct (FE E) as [_ V]. rewrite <- V.
      apply representable_value; [exact HS|apply D].
    + intro R. apply (cr_representable S TowardNegative v zs st f HS R D).
Qed.
Lemma directed_up : forall S v zs st f, sem_ok S -> NONFINITE_BEHAVIOR S = IEEE754 ->
  delivers (to_infinity TowardPositive) S TowardPositive v zs (st, f) ->
  exists a, ext_of S f = Some a /\ is_up S v a /\ (st = OK <-> representable S v).
Proof.
  intros S v zs st f HS NB D.
  apply (delivers_mirrored _ (to_infinity TowardNegative)) in D; [|intro g; apply (to_infinity_mirrored TowardPositive)].
  destruct (directed_down S (- v) (negb zs) st (neg f) HS NB D) as [a [A [Q E]]].
  apply ext_of_neg in A. rewrite neg_involutive in A. exists (opposite a). split; [exact A|]. split.
  - apply down_up in Q. rewrite Ropp_involutive in Q. exact Q.
  - rewrite E. split; intro R; apply representable_opp in R; rewrite ?Ropp_involutive in R; exact R.
Qed.

Lemma next_of : forall S v lo hi a b, sem_ok S -> wf S lo -> wf S hi -> ext_of S lo = Some a -> ext_of S hi = Some b ->
  is_down S v a -> is_up S v b -> ~ representable S v -> least_above S a hi.
Proof.
  intros S v lo hi a b HS Wl Wh A B [D1 D2] [U1 U2] N.
  assert (strict : forall w, b = Fin w -> ext_lt a (Fin w)).
  { intros w ->. assert (representable S w) as Rw.
    { unfold ext_of in B. destruct (category hi) eqn:C; try discriminate B; try (destruct (sign hi); discriminate B);
        assert (w = value S hi) as -> by congruence; apply representable_value; assumption. }
    apply le_Fin_inv in U1. destruct U1 as [U1| ->]; [|destruct (N Rw)].
    destruct D1 as [D1| ->]; [|exact U1]. destruct a; cbn in *; try tauto. lra. }
  assert (above : forall y, representable S y -> ext_lt a (Fin y) -> ext_le b (Fin y)).
  { intros y R L. apply U2; [exact R|]. destruct (Rle_or_lt v y) as [H|H]; [exact H|]. exfalso.
    destruct (D2 y R ltac:(lra)) as [Q|Q].
    - destruct a; cbn in *; try tauto. lra.
    - subst a. cbn in L. lra. }
  split; [exact Wh|]. split.
  - intros [y [R L]]. pose proof (above y R L) as Q.
    assert (exists w, b = Fin w) as [w ->].
    { destruct b as [|w|]; [|exists w; reflexivity|].
      - destruct U1 as [U1|U1]; [destruct U1|discriminate U1].
      - destruct Q as [Q|Q]; [destruct Q|discriminate Q]. }
    assert (finite hi /\ w = value S hi) as [F ->].
    { unfold ext_of, finite in *. destruct (category hi) eqn:C; try discriminate B; try (destruct (sign hi); discriminate B); split; auto; congruence. }
    split; [exact F|]. split; [apply strict; reflexivity|]. intros z Rz Lz. apply le_Fin_inv. apply above; assumption.
  - intro NE. destruct b as [|w|].
    + destruct U1 as [U1|U1]; [destruct U1|discriminate U1].
    + exfalso. apply NE. exists w. split; [|apply strict; reflexivity].
      unfold ext_of in B. destruct (category hi) eqn:C; try discriminate B; try (destruct (sign hi); discriminate B);
        assert (w = value S hi) as -> by congruence; apply representable_value; assumption.
    + unfold ext_of in B. destruct (category hi) eqn:C; try discriminate B. destruct (sign hi) eqn:G; [discriminate B|].
      split; [|reflexivity]. unfold infinity_of. destruct Wh as [_ [_ Wh]]. rewrite C in Wh. rewrite Wh. reflexivity.
Qed.

Lemma enclosed_ieee : forall S v zs zs' o o', sem_ok S -> NONFINITE_BEHAVIOR S = IEEE754 ->
  (exists res, o = Ret res /\ correctly_rounded S TowardNegative v zs res) ->
  (exists res, o' = Ret res /\ correctly_rounded S TowardPositive v zs' res) -> encloses S v o o'.
Proof.
  intros S v zs zs' o o' HS NB [[st lo] [E D]] [[st' hi] [E' D']].
  assert (Wl : wf S lo) by apply D. assert (Wh : wf S hi) by apply D'.
  destruct (directed_down S v zs st lo HS NB D) as [a [A [Q1 O1]]].
  destruct (directed_up S v zs' st' hi HS NB D') as [b [B [Q2 O2]]].
  exists st, lo, st', hi, a, b. split; [exact E|]. split; [exact E'|]. split; [exact A|]. split; [exact B|].
  split; [apply Q1|]. split; [apply Q2|]. split.
  - intro R. split; [apply O1; exact R|]. split; [apply O2; exact R|].
    destruct Q1 as [D1 D2]. destruct Q2 as [U1 U2]. specialize (D2 v R ltac:(lra)). specialize (U2 v R ltac:(lra)).
    split.
    + destruct D1 as [D1|D1]; [|exact D1]. destruct D2 as [D2|D2]; [|congruence]. destruct (ext_lt_irrefl _ (ext_lt_trans _ _ _ D1 D2)).
    + destruct U1 as [U1|U1]; [|congruence]. destruct U2 as [U2|U2]; [|exact U2]. destruct (ext_lt_irrefl _ (ext_lt_trans _ _ _ U1 U2)).
  - intro N. split; [rewrite O1; exact N|]. split; [rewrite O2; exact N|]. split.
    + exact (next_of S v lo hi a b HS Wl Wh A B Q1 Q2 N).
    + rewrite <- (neg_involutive lo). apply (least_above_neg S b (neg lo) HS).
      apply (next_of S (- v) (neg hi) (neg lo) (opposite b) (opposite a) HS (wf_neg S hi Wh) (wf_neg S lo Wl)
               (ext_of_neg S hi b B) (ext_of_neg S lo a A) (up_down S v b Q2) (down_up S v a Q1)).
      intro R. apply N. apply representable_opp in R. rewrite Ropp_involutive in R. exact R.
Qed.

Lemma enclosed : forall S v zs zs' o o', sem_ok S -> NONFINITE_BEHAVIOR S = IEEE754 ->
  (exists res, o = Ret res /\ crate_rounded S TowardNegative v zs res) ->
  (exists res, o' = Ret res /\ crate_rounded S TowardPositive v zs' res) -> encloses S v o o'.
Proof.
  intros S v zs zs' o o' HS NB [res [E D]] [res' [E' D']]. apply (enclosed_ieee S v zs zs' o o' HS NB).
  - exists res. split; [exact E|]. apply crate_rounded_ieee; assumption.
  - exists res'. split; [exact E'|]. apply crate_rounded_ieee; assumption.
Qed.

Theorem add_encloses : forall S x y, sem_ok S -> NONFINITE_BEHAVIOR S = IEEE754 -> wf S x -> wf S y -> finite x -> finite y ->
  encloses S (value S x + value S y) (add_r S x y TowardNegative) (add_r S x y TowardPositive).
Proof. intros S x y HS NB Wx Wy Fx Fy. eapply enclosed; [exact HS|exact NB| |]; apply add_r_crate; assumption. Qed.
Theorem sub_encloses : forall S x y, sem_ok S -> NONFINITE_BEHAVIOR S = IEEE754 -> wf S x -> wf S y -> finite x -> finite y ->
  encloses S (value S x - value S y) (sub_r S x y TowardNegative) (sub_r S x y TowardPositive).
Proof. intros S x y HS NB Wx Wy Fx Fy. eapply enclosed; [exact HS|exact NB| |]; apply sub_r_crate; assumption. Qed.
Theorem mul_encloses : forall S x y, sem_ok S -> NONFINITE_BEHAVIOR S = IEEE754 -> wf S x -> wf S y -> finite x -> finite y ->
  encloses S (value S x * value S y) (mul_r S x y TowardNegative) (mul_r S x y TowardPositive).
Proof. intros S x y HS NB Wx Wy Fx Fy. eapply enclosed; [exact HS|exact NB| |]; apply mul_r_crate; assumption. Qed.
Theorem div_encloses : forall S x y, sem_ok S -> NONFINITE_BEHAVIOR S = IEEE754 -> wf S x -> wf S y -> finite x -> category y = Normal ->
  encloses S (value S x / value S y) (div_r S x y TowardNegative) (div_r S x y TowardPositive).
Proof. intros S x y HS NB Wx Wy Fx Cy. eapply enclosed; [exact HS|exact NB| |]; apply div_r_crate; assumption. Qed.
Theorem mul_add_encloses : forall S x y z, sem_ok S -> NONFINITE_BEHAVIOR S = IEEE754 -> wf S x -> wf S y -> wf S z ->
  finite x -> finite y -> finite z -> fma_safe S x y z ->
  encloses S (value S x * value S y + value S z) (mul_add_r S x y z TowardNegative) (mul_add_r S x y z TowardPositive).
Proof. intros. eapply enclosed; [assumption|assumption| |]; apply mul_add_r_crate; assumption. Qed.
Theorem from_i128_encloses : forall S n, sem_ok S -> NONFINITE_BEHAVIOR S = IEEE754 -> - 2 ^ 127 <= n < 2 ^ 127 ->
  encloses S (IZR n) (from_i128_r S n TowardNegative) (from_i128_r S n TowardPositive).
Proof.
  intros S n HS NB Hn.
  exact (enclosed_ieee S (IZR n) false false _ _ HS NB (from_i128_r_spec S n TowardNegative HS Hn) (from_i128_r_spec S n TowardPositive HS Hn)).
Qed.
Definition drop_loss (o : outcome (Z * Float * bool)) : outcome (Z * Float) := let! '(st, f, _) := o in Ret (st, f).
Theorem convert_encloses : forall S T x, sem_ok S -> sem_ok T -> NONFINITE_BEHAVIOR T = IEEE754 -> wf S x -> finite x ->
  encloses T (value S x) (drop_loss (convert_r S T x TowardNegative)) (drop_loss (convert_r S T x TowardPositive)).
Proof.
  intros S T x HS HT NB Wx Fx.
  assert (C : forall m, exists res, drop_loss (convert_r S T x m) = Ret res /\ crate_rounded T m (value S x) (sign x) res).
  { intro m. destruct (convert_r_crate S T x m HS HT Wx Fx) as [st [f [l [E [D _]]]]]. exists (st, f). rewrite E. split; [reflexivity|exact D]. }
  exact (enclosed T (value S x) (sign x) (sign x) _ _ HT NB (C TowardNegative) (C TowardPositive)).
Qed.

(** ** Cases outside the conditions *)
Definition h_1299 : Float := mkFloat 1299 10 Normal false.
Definition h_3092 : Float := mkFloat 1546 11 Normal false.
Definition h_4392 : Float := mkFloat 1098 12 Normal false.
Lemma h_1299_wf : wf HalfS h_1299. Proof. sample_wf. Qed.
Lemma h_3092_wf : wf HalfS h_3092. Proof. sample_wf. Qed.
Theorem fast_two_sum_refuted : exists x y s t, wf HalfS x /\ wf HalfS y /\ finite x /\ finite y /\
  fast_two_sum HalfS x y NearestTiesToEven = Ret (s, t) /\ finite s /\ finite t /\
  (value HalfS s + value HalfS t <> value HalfS x + value HalfS y)%R.
Proof.
  exists h_1299, h_3092, h_4392, h_zero. split; [exact h_1299_wf|]. split; [exact h_3092_wf|].
  split; [left; reflexivity|]. split; [left; reflexivity|]. split; [vm_compute; reflexivity|].
  split; [left; reflexivity|]. split; [right; reflexivity|]. unfold value. cbn. lra.
Qed.
Definition h_tiny : Float := mkFloat 1025 (-7) Normal false.
Lemma h_tiny_wf : wf HalfS h_tiny. Proof. sample_wf. Qed.
Theorem two_product_refuted : exists x y p e, wf HalfS x /\ wf HalfS y /\ finite x /\ finite y /\
  mul_r HalfS x y NearestTiesToEven = Ret (INEXACT, p) /\
  mul_add_r HalfS x y (neg p) NearestTiesToEven = Ret (Z.lor UNDERFLOW INEXACT, e) /\ finite p /\ finite e /\
  (value HalfS p + value HalfS e <> value HalfS x * value HalfS y)%R.
Proof.
  exists h_tiny, h_tiny, (mkFloat 1026 (-14) Normal false), h_zero.
  split; [exact h_tiny_wf|]. split; [exact h_tiny_wf|]. split; [left; reflexivity|]. split; [left; reflexivity|].
  split; [vm_compute; reflexivity|]. split; [vm_compute; reflexivity|]. split; [left; reflexivity|]. split; [right; reflexivity|].
  unfold value. cbn. lra.
Qed.
