(** * PairSmall.v -- products of pairs (src/ppc.rs:276-340) down to and below the
    smallest normal number, in every rounding mode *)
From Coq Require Import ZArith Reals List Bool Lia Lra Psatz.
From Flocq Require Import Core.
From Verif Require Import Machine Sig SpecSig Ieee Ppc Spec Norm Arith Order Fma SpecFma FmaFull FmaExact Algebra SpecPair Pair PairOps PairBase TwoSum AnySum AnyProd PairAdd PairMul
  SpecDirected PairDirected Samples PairSamples PairMulRefute.
Local Open Scope Z_scope.
Ltac Zify.zify_post_hook ::= idtac.

Section Small.
Variable F : Semantics.
Hypothesis HF : pair_ok F.
Hypothesis P5 : 5 <= PRECISION F.
Variable m : Round.
Local Notation p := (PRECISION F).
Local Notation emin := (MIN_EXP F - (p - 1)).
Local Notation RD := (rounded F m).
Local Notation Fm := (generic_format r2 (fexp F)).
Local Notation B k := (bpow r2 (MAX_EXP F - k)).
Local Notation u := (bpow r2 (- p)).
Local Notation h := (min_positive F).
Let FO := F_ok F HF.
Let VR := valid_rnd_of m.
Let P4 : 4 <= p := P4 F P5.

Lemma normal_eq : min_normal F = bpow r2 (emin + p - 1).
Proof. unfold min_normal. f_equal. lia. Qed.
Lemma h_small : (16 * h <= B 4 /\ min_normal F <= B 4)%R.
Proof.
  pose proof (pok_max F HF) as A. pose proof (pok_min F HF) as C. pose proof (ok_max F FO). pose proof (ok_min F FO). unfold min_positive, min_normal. split.
  - change 16%R with (bpow r2 4). rewrite <- bpow_plus. apply bpow_le. lia.
  - apply bpow_le. lia.
Qed.

(** the steps after the product of the high halves and its error *)
Lemma mul_core : forall x y st1 ft st2 f0, pair_wf F x -> pair_wf F y -> pair_finite x -> pair_finite y ->
  mul_r F (d0 x) (d0 y) m = Ret (st1, ft) -> wf F ft -> finite ft -> is_finite_non_zero ft = true ->
  mul_add_r F (d0 x) (d0 y) (neg ft) m = Ret (st2, f0) -> wf F f0 -> finite f0 ->
  let a := value F (d0 x) in let b := value F (d1 x) in let c := value F (d0 y) in let d := value F (d1 y) in
  let t := value F ft in let t0 := value F f0 in
  let tau := RD (t0 + RD (RD (a * d) + RD (b * c))) in let r0 := RD (t + tau) in
  (Rabs t <= B 4 -> Rabs t0 <= B 3 -> Rabs (a * d) <= B 4 -> Rabs (b * c) <= B 4 -> Rabs tau <= B 4)%R ->
  (Rabs t <= B 4 -> Rabs t0 <= B 3 -> Rabs (a * d) <= B 4 -> Rabs (b * c) <= B 4 ->
  exists st r, dd_mul_normal F x y m = Ret (st, r) /\ pair_wf F r /\ pair_finite r /\ value F (d0 r) = r0 /\ value F (d1 r) = RD (RD (t - r0) + tau))%R.
Proof.
  intros x y st1 ft st2 f0 [Wa Wb] [Wc Wd] [Fa Fb] [Fc Fd] E1 Wt Ft Nt E2 W0 F0 a b c d t t0 tau r0 Small Rt Rt0 Rad Rbc.
  specialize (Small Rt Rt0 Rad Rbc). set (s := RD (RD (a * d) + RD (b * c))) in *.
  pose proof (B_0 F) as B4. pose proof (B_step F 3) as B3. pose proof (B_step F 2) as B2. pose proof (B_step F 1) as B1. pose proof (B_step F 0) as B0.
  change (3 + 1) with 4 in B3. change (2 + 1) with 3 in B2. change (1 + 1) with 2 in B1. change (0 + 1) with 1 in B0.
  pose proof (B_max F HF P4 0 ltac:(lia)) as MX.
  unfold dd_mul_normal. rewrite E1. cbn [bind]. rewrite Nt. cbn [negb]. rewrite E2. cbn [bind]. clear E1 E2.
  destruct (mul_step F HF m (d0 x) (d1 y) Wa Wd Fa Fd) as [st3 [fv [E [Wv [Fv Vv]]]]]; [fold a d; lra|]. rewrite E. cbn [bind]. clear E. fold a d in Vv.
  destruct (mul_step F HF m (d1 x) (d0 y) Wb Wc Fb Fc) as [st4 [fw [E [Ww [Fw Vw]]]]]; [fold b c; lra|]. rewrite E. cbn [bind]. clear E. fold b c in Vw.
  pose proof (RD_B F HF P5 m _ 4 ltac:(lia) Rad) as Rad'. pose proof (RD_B F HF P5 m _ 4 ltac:(lia) Rbc) as Rbc'.
  assert (Rabs (RD (a * d) + RD (b * c)) <= B 3)%R as Rs by (pose proof (Rabs_triang (RD (a * d)) (RD (b * c))); lra).
  pose proof (RD_B F HF P5 m _ 3 ltac:(lia) Rs) as Rs'. fold s in Rs'.
  destruct (add_step F HF m fv fw Wv Ww Fv Fw) as [st5 [fs [E [Ws [Fs [Vs _]]]]]]; [rewrite Vv, Vw; lra|]. rewrite E. cbn [bind]. clear E. rewrite Vv, Vw in Vs.
  fold s in Vs.
  assert (Rabs (t0 + s) <= B 2)%R as Ru by (pose proof (Rabs_triang t0 s); lra).
  destruct (add_step F HF m f0 fs W0 Ws F0 Fs) as [st6 [fu [E [Wu [Fu [Vu _]]]]]]; [rewrite Vs; fold t0; lra|]. rewrite E. cbn [bind]. clear E. rewrite Vs in Vu.
  fold t0 in Vu. fold tau in Vu.
  assert (Rabs (t + tau) <= B 3)%R as Rr by (pose proof (Rabs_triang t tau); lra).
  pose proof (RD_B F HF P5 m _ 3 ltac:(lia) Rr) as Rr'. fold r0 in Rr'.
  destruct (add_step F HF m ft fu Wt Wu Ft Fu) as [st7 [fr0 [E [Wr0 [Fr0 [Vr0 _]]]]]]; [rewrite Vu; fold t; lra|]. rewrite E. cbn [bind]. clear E. rewrite Vu in Vr0.
  fold t in Vr0. fold r0 in Vr0. rewrite (finite_is_finite fr0 Fr0). cbn [negb].
  assert (Rabs (t - r0) <= B 2)%R as Rd. { pose proof (Rabs_triang t (- r0)) as T0. rewrite Rabs_Ropp in T0. unfold Rminus. lra. }
  pose proof (RD_B F HF P5 m _ 2 ltac:(lia) Rd) as Rd'.
  destruct (sub_step F HF m ft fr0 Wt Wr0 Ft Fr0) as [st8 [fd [E [Wfd [Ffd [Vfd _]]]]]]; [rewrite Vr0; fold t; lra|]. rewrite E. cbn [bind]. clear E. rewrite Vr0 in Vfd. fold t in Vfd.
  destruct (add_step F HF m fd fu Wfd Wu Ffd Fu) as [st9 [fr1 [E [Wr1 [Fr1 [Vr1 _]]]]]].
  { rewrite Vfd, Vu. pose proof (Rabs_triang (RD (t - r0)) tau). lra. }
  rewrite E. cbn [bind]. clear E. rewrite Vfd, Vu in Vr1.
  eexists. exists (mkDF fr0 fr1). split; [reflexivity|]. cbn [d0 d1]. exact (conj (conj Wr0 Wr1) (conj (conj Fr0 Fr1) (conj Vr0 Vr1))).
Qed.

(** with a nearest mode the sum of the halves is that of [t] and [tau] *)
Lemma nearest_normal : forall t tau, m = NearestTiesToEven \/ m = NearestTiesToAway -> Fm t -> Fm tau -> (Rabs tau <= Rabs t)%R ->
  RD (RD (t - RD (t + tau)) + tau) = (t + tau - RD (t + tau))%R.
Proof.
  intros t tau Hm Gt Gtau L.
  rewrite !(RN_eq F m Hm). apply (fast_two_sum emin p (ties m) P4 (emin_neg F HF P4) (ties_sym m) t tau Gt Gtau). left. exact L.
Qed.

(** the error term of a product below the normal range *)
Lemma seen_small : forall x y z, wf F z -> finite z -> product_cut F x y z ->
  cut_down F (Rabs (value F x * value F y)) <> Rabs (value F z) ->
  (Rabs (Rabs (value F z) - Rabs (value F x * value F y)) <= h)%R -> (Rabs (fma_seen F x y z) <= h)%R.
Proof.
  intros x y z Wz Fz _ Nc L. unfold fma_seen, fma_difference. set (P := Rabs (value F x * value F y)) in *. set (A := Rabs (value F z)) in *.
  pose proof (unit_pos F) as U. set (un := fma_unit F) in *. assert (0 < h)%R as H0 by apply bpow_gt_0.
  assert (un <= h)%R as UH. { apply bpow_le. lia. }
  assert (forall w : R, (0 < w <= h)%R -> (Rabs (if Rlt_bool w un then w / un * h else w) <= h)%R) as K.
  { intros w [W0 W1]. destruct (Rlt_bool_spec w un) as [Q|Q].
    - assert (0 < w / un < 1)%R as [G1 G2]. { split; [apply Rdiv_lt_0_compat; lra|]. apply Rmult_lt_reg_r with un; [exact U|]. unfold Rdiv. rewrite Rmult_assoc, Rinv_l, Rmult_1_r, Rmult_1_l by lra. exact Q. }
      rewrite Rabs_pos_eq; [|apply Rmult_le_pos; lra]. apply Rle_trans with (1 * h)%R; [apply Rmult_le_compat_r; lra|lra].
    - rewrite Rabs_pos_eq; lra. }
  assert (0 < (if Rlt_bool P A then A - P else cut_down F P - (P - cut_down F P) - A) <= h)%R as W.
  { destruct (Rlt_bool_spec P A) as [Q|Q].
    - rewrite Rabs_pos_eq in L by lra. lra.
    - assert (exists k, A = IZR k * un)%R as [k Ek].
      { pose proof (generic_format_abs _ _ _ (value_format F z FO Wz Fz)) as G. fold A in G.
        destruct (unit_multiple emin p A G) as [k Ek]. exists (k * 2 ^ (p + 1)). rewrite Ek, mult_IZR, Rmult_assoc. f_equal.
        rewrite (IZR_Zpower r2) by lia. unfold un, fma_unit. rewrite <- bpow_plus. f_equal. lia. }
      unfold cut_down in *. fold un in Nc |- *. set (n := Zfloor (P / un)) in *.
      assert (IZR k <= P / un)%R as Lk. { apply Rmult_le_reg_r with un; [exact U|]. rewrite <- Ek. unfold Rdiv. rewrite Rmult_assoc, Rinv_l, Rmult_1_r by lra. exact Q. }
      pose proof (Zfloor_lub _ _ Lk) as Lk'. fold n in Lk'.
      assert (k <> n) as Nk by (intro E; apply Nc; rewrite Ek, E; reflexivity).
      assert (IZR k + 1 <= IZR n)%R as Lk2 by (rewrite <- plus_IZR; apply IZR_le; lia).
      pose proof (Zfloor_lb (P / un)) as F1. pose proof (Zfloor_ub (P / un)) as F2. fold n in F1, F2.
      assert (P / un * un = P)%R as EP by (field; lra).
      assert (IZR n * un <= P)%R as G1 by (rewrite <- EP; apply Rmult_le_compat_r; lra).
      assert (P < (IZR n + 1) * un)%R as G2 by (rewrite <- EP at 1; apply Rmult_lt_compat_r; lra).
      assert ((IZR k + 1) * un <= IZR n * un)%R as G3 by (apply Rmult_le_compat_r; lra).
      rewrite Rabs_minus_sym, Rabs_pos_eq in L by lra. lra. }
  specialize (K _ W). match goal with |- (Rabs (if ?g then _ else _) <= _)%R => destruct g end; [rewrite Rabs_Ropp|]; exact K.
Qed.
Lemma fma_tiny : forall x y z, wf F x -> wf F y -> wf F z -> finite x -> finite y -> finite z ->
  (Rabs (value F x * value F y + value F z) <= h)%R -> (Rabs (Rabs (value F z) - Rabs (value F x * value F y)) <= h)%R ->
  mul_add_r F x y z m = Panic \/
  exists st f, mul_add_r F x y z m = Ret (st, f) /\ wf F f /\ finite f /\ (Rabs (value F f) <= h)%R.
Proof.
  intros x y z Wx Wy Wz Fx Fy Fz L L'. pose proof h_small as [H1 _]. pose proof (B_max F HF P4 4 ltac:(lia)) as MX. assert (0 < h)%R as H0 by apply bpow_gt_0.
  assert (forall v zs res, (Rabs v <= h)%R -> crate_rounded F m v zs res -> exists st f, res = (st, f) /\ wf F f /\ finite f /\ (Rabs (value F f) <= h)%R) as K.
  { intros v zs [st f] Lv [A [_ [D _]]]. destruct (D (rounded_le_max F m v FO ltac:(lra))) as [D1 [D2 _]]. exists st, f. split; [reflexivity|]. split; [exact A|]. split; [exact D1|].
    rewrite D2, (RD_eq F m). apply any_le_bpow; [exact VR|exact P5|lia|exact Lv]. }
  destruct (Classical_Prop.classic (product_cut F x y z)) as [C|C].
  - destruct (mul_add_r_cut F FO x y z m Wx Wy Wz Fx Fy Fz C) as [C1 C2].
    destruct (Req_dec (cut_down F (Rabs (value F x * value F y))) (Rabs (value F z))) as [Q|Q]; [left; exact (C1 Q)|right].
    destruct (C2 Q false) as [_ [res [E G]]]. destruct (K _ _ _ (seen_small x y z Wz Fz C Q L') G) as [st [f [-> R]]]. exists st, f. split; [exact E|exact R].
  - right. destruct (mul_add_r_uncut F FO x y z m Wx Wy Wz Fx Fy Fz C) as [res [E G]]. destruct (K _ _ _ L G) as [st [f [-> R]]]. exists st, f. split; [exact E|exact R].
Qed.

Lemma high_normal : forall x y, pair_finite x -> pair_finite y -> (value F (d0 x) * value F (d0 y) <> 0)%R -> category (d0 x) = Normal /\ category (d0 y) = Normal.
Proof.
  intros x y [Fa _] [Fc _] N. split.
  - destruct Fa as [C|C]; [exact C|]. exfalso. apply N. rewrite (value_zero F _ C). ring.
  - destruct Fc as [C|C]; [exact C|]. exfalso. apply N. rewrite (value_zero F _ C). ring.
Qed.
Lemma low_products : forall a b c d, (Rabs b <= 2 * u * Rabs a)%R -> (Rabs d <= 2 * u * Rabs c)%R -> (Rabs (a * c) <= B 4)%R ->
  (Rabs (a * d) <= B 4 /\ Rabs (b * c) <= B 4)%R.
Proof.
  intros a b c d Lb Ld R. pose proof (u_32 F P5) as [U0 U1]. rewrite !Rabs_mult in *. pose proof (Rabs_pos a) as Pa. pose proof (Rabs_pos c) as Pc.
  assert (0 <= Rabs a * Rabs c)%R as Pac by (apply Rmult_le_pos; assumption).
  assert (2 * u * (Rabs a * Rabs c) <= 1 * (Rabs a * Rabs c))%R as K by (apply Rmult_le_compat_r; lra). split.
  - apply Rle_trans with (Rabs a * (2 * u * Rabs c))%R; [apply Rmult_le_compat_l; assumption|]. lra.
  - apply Rle_trans with (2 * u * Rabs a * Rabs c)%R; [apply Rmult_le_compat_r; assumption|]. lra.
Qed.

(** ** From the smallest normal number on *)
Theorem dd_mul_small : forall x y, narrow_pair F x -> narrow_pair F y -> (min_normal F <= Rabs (value F (d0 x) * value F (d0 y)) <= B 4)%R ->
  exists st r, dd_mul_r F x y m = Ret (st, r) /\ narrow_pair F r /\ (m = NearestTiesToEven -> canonical_pair F r) /\
    (Rabs (pair_value F r - pair_value F x * pair_value F y) <= 40 * bpow r2 (- (2 * p)) * Rabs (value F (d0 x) * value F (d0 y)) + 4 * h)%R.
Proof.
  intros x y [[Wa Wb] [[Fa Fb] Lx]] [[Wc Wd] [[Fc Fd] Ly]] [Lo Hi]. rewrite (eps_eq F) in Lx, Ly.
  replace (40 * bpow r2 (- (2 * p)))%R with (40 * (u * u))%R by (rewrite <- bpow_plus; do 2 f_equal; ring).
  pose proof h_small as [H1 H2]. assert (0 < min_normal F)%R as HN by apply bpow_gt_0.
  destruct (high_normal x y (conj Fa Fb) (conj Fc Fd)) as [Cx Cy]; [intro Z; rewrite Z, Rabs_R0 in Lo; lra|].
  unfold dd_mul_r, dd_category. rewrite Cx, Cy.
  assert (Fm (value F (d0 x)) /\ Fm (value F (d0 y))) as [Ga Gc] by (split; apply value_format; assumption).
  pose proof (any_prod_small emin p (rnd_of m) VR P5 (value F (d0 x)) (value F (d1 x)) (value F (d0 y)) (value F (d1 y)) Ga Gc Lx Ly ltac:(rewrite <- normal_eq; exact Lo)) as Q.
  cbv zeta in Q. change (round r2 (FLT_exp emin p) (rnd_of m)) with RD in Q. change (bpow r2 emin) with h in Q.
  destruct (low_products _ _ _ _ Lx Ly Hi) as [Rad Rbc].
  pose proof (B_0 F) as B4. pose proof (B_step F 3) as B3. pose proof (B_step F 2) as B2. pose proof (B_step F 1) as B1. pose proof (B_step F 0) as B0.
  change (3 + 1) with 4 in B3. change (2 + 1) with 3 in B2. change (1 + 1) with 2 in B1. change (0 + 1) with 1 in B0.
  pose proof (B_max F HF P4 0 ltac:(lia)) as MX.
  destruct (mul_step F HF m (d0 x) (d0 y) Wa Wc Fa Fc) as [st1 [ft [E1 [Wt [Ft Vt]]]]]; [lra|].
  set (t := RD (value F (d0 x) * value F (d0 y))) in *.
  assert (Rabs t <= B 4)%R as Rt by (apply (RD_B F HF P5); [lia|exact Hi]).
  assert (Rabs (value F (d0 x) * value F (d0 y) - t) <= B 3)%R as Rt0. { pose proof (Rabs_triang (value F (d0 x) * value F (d0 y)) (- t)) as T0. rewrite Rabs_Ropp in T0. unfold Rminus. lra. }
  assert (is_finite_non_zero ft = true) as Nt.
  { rewrite is_finite_non_zero_spec. destruct Ft as [C|C]; rewrite C; [reflexivity|]. exfalso. rewrite (value_zero F ft C) in Vt.
    assert (min_normal F <= Rabs t)%R as G; [|rewrite <- Vt, Rabs_R0 in G; lra].
    unfold t. rewrite (RD_eq F m). apply abs_round_ge_generic; [exact (F_valid F HF)|exact VR| |exact Lo].
    apply generic_format_bpow. unfold FLT_exp. lia. }
  destruct (fma_any F HF m (d0 x) (d0 y) (neg ft) Wa Wc (wf_neg F ft Wt) Fa Fc (finite_neg ft Ft)) as [st2 [f0 [E2 [W0 [F0 V0]]]]]; [exact Lo| |].
  { rewrite value_neg, Vt. change (value F (d0 x) * value F (d0 y) + - t)%R with (value F (d0 x) * value F (d0 y) - t)%R. lra. }
  rewrite value_neg, Vt in V0. change (value F (d0 x) * value F (d0 y) + - t)%R with (value F (d0 x) * value F (d0 y) - t)%R in V0.
  pose proof (RD_B F HF P5 m _ 3 ltac:(lia) Rt0) as Rt0'. rewrite <- V0 in Q, Rt0'. rewrite <- Vt in Q, Rt.
  destruct Q as [Q1 [Q2 [Q3 Q4]]].
  destruct (mul_core x y st1 ft st2 f0 (conj Wa Wb) (conj Wc Wd) (conj Fa Fb) (conj Fc Fd) E1 Wt Ft Nt E2 W0 F0) as [st [r [E [Wr [Fr [V1 V2]]]]]]; try assumption.
  { intros. apply Rle_trans with (1 := Q3). exact Hi. }
  exists st, r. split; [exact E|]. rewrite <- V1 in Q1, Q2, V2. rewrite <- V2 in Q1, Q2.
  split; [split; [exact Wr|]; split; [exact Fr|]; rewrite (eps_eq F); exact Q2|]. split; [|exact Q1].
  intro Em. split; [exact Wr|]. split; [exact Fr|]. unfold pair_value. rewrite V2, V1. rewrite <- Em.
  rewrite nearest_normal; [f_equal; ring|left; exact Em|apply value_format; assumption|apply (any_format emin p); assumption|exact Q4].
Qed.

(** ** Below it *)
Theorem dd_mul_tiny : forall x y, narrow_pair F x -> narrow_pair F y -> (Rabs (value F (d0 x) * value F (d0 y)) < min_normal F)%R ->
  dd_mul_r F x y m = Panic \/
  exists st r, dd_mul_r F x y m = Ret (st, r) /\ canonical_pair F r /\ value F (d1 r) = 0%R /\
    (Rabs (pair_value F r - pair_value F x * pair_value F y) <= 5 * h)%R.
Proof.
  intros x y Hx Hy Lo. pose proof h_small as [H1 H2]. assert (0 < min_normal F)%R as HN by apply bpow_gt_0. assert (0 < h)%R as H0 by apply bpow_gt_0.
  assert (forall r, pair_wf F r -> pair_finite r -> value F (d1 r) = 0%R -> canonical_pair F r) as Can.
  { intros r Wr Fr Z. split; [exact Wr|]. split; [exact Fr|]. unfold pair_value. rewrite Z, Rplus_0_r. symmetry. apply rounded_format. apply value_format; [exact FO|apply Wr|apply Fr]. }
  assert (forall x, narrow_pair F x -> category (d0 x) = Zero -> value F (d1 x) = 0%R /\ pair_value F x = 0%R) as NZ.
  { intros z Hz C. pose proof (narrow_zero F z Hz C) as Q. split; [|exact Q]. unfold pair_value in Q. rewrite (value_zero F _ C) in Q. lra. }
  pose proof Hx as [[Wa Wb] [[Fa Fb] Lx]]. pose proof Hy as [[Wc Wd] [[Fc Fd] Ly]]. rewrite (eps_eq F) in Lx, Ly.
  unfold dd_mul_r, dd_category.
  assert (category (d0 x) = Zero \/ category (d0 x) = Normal) as [Cx|Cx] by (destruct Fa as [C|C]; auto).
  { right. exists OK, x. destruct (NZ x Hx Cx) as [Z1 Z2]. split; [rewrite Cx; destruct Fc as [C|C]; rewrite C; reflexivity|].
    split; [apply Can; [exact (conj Wa Wb)|exact (conj Fa Fb)|exact Z1]|]. split; [exact Z1|]. rewrite Z2, Rmult_0_l, Rminus_0_r, Rabs_R0. lra. }
  assert (category (d0 y) = Zero \/ category (d0 y) = Normal) as [Cy|Cy] by (destruct Fc as [C|C]; auto).
  { right. exists OK, y. destruct (NZ y Hy Cy) as [Z1 Z2]. split; [rewrite Cx, Cy; reflexivity|].
    split; [apply Can; [exact (conj Wc Wd)|exact (conj Fc Fd)|exact Z1]|]. split; [exact Z1|]. rewrite Z2, Rmult_0_r, Rminus_0_r, Rabs_R0. lra. }
  rewrite Cx, Cy.
  assert (Rabs (value F (d0 x) * value F (d0 y)) <= B 4)%R as Hi by lra.
  destruct (low_products _ _ _ _ Lx Ly Hi) as [Rad Rbc].
  pose proof (B_0 F) as B4. pose proof (B_step F 3) as B3. pose proof (B_step F 2) as B2. pose proof (B_step F 1) as B1. pose proof (B_step F 0) as B0.
  change (3 + 1) with 4 in B3. change (2 + 1) with 3 in B2. change (1 + 1) with 2 in B1. change (0 + 1) with 1 in B0.
  pose proof (B_max F HF P4 0 ltac:(lia)) as MX.
  destruct (mul_step F HF m (d0 x) (d0 y) Wa Wc Fa Fc) as [st1 [ft [E1 [Wt [Ft Vt]]]]]; [lra|].
  pose proof Lo as Lo'. rewrite normal_eq in Lo'.
  assert (Rabs (value F ft - value F (d0 x) * value F (d0 y)) <= h)%R as Et.
  { rewrite Vt, (RD_eq F m). apply small_error; [exact VR|exact P5|]. apply Rlt_le_trans with (1 := Lo'). apply bpow_le. lia. }
  destruct (is_finite_non_zero ft) eqn:Nt.
  - destruct (fma_tiny (d0 x) (d0 y) (neg ft) Wa Wc (wf_neg F ft Wt) Fa Fc (finite_neg ft Ft)) as [E2|[st2 [f0 [E2 [W0 [F0 V0]]]]]].
    + rewrite value_neg. rewrite <- Rabs_Ropp. replace (- (value F (d0 x) * value F (d0 y) + - value F ft))%R with (value F ft - value F (d0 x) * value F (d0 y))%R by ring. exact Et.
    + rewrite value_neg, Rabs_Ropp. apply Rle_trans with (2 := Et). apply Rabs_triang_inv2.
    + left. unfold dd_mul_normal. rewrite E1. cbn [bind]. rewrite Nt. cbn [negb]. rewrite E2. reflexivity.
    + right. pose proof (any_prod_tiny emin p (rnd_of m) VR P5 (value F (d0 x)) (value F (d1 x)) (value F (d0 y)) (value F (d1 y)) (value F f0) Lx Ly Lo' (value_format F f0 FO W0 F0) V0) as Q.
      cbv zeta in Q. change (round r2 (FLT_exp emin p) (rnd_of m)) with RD in Q. change (bpow r2 emin) with h in Q. rewrite <- Vt in Q.
      destruct Q as [Q1 [Q2 [Q3 [_ [_ [_ [Q4 Q5]]]]]]]. rewrite <- normal_eq in Q3.
      destruct (mul_core x y st1 ft st2 f0 (conj Wa Wb) (conj Wc Wd) (conj Fa Fb) (conj Fc Fd) E1 Wt Ft Nt E2 W0 F0) as [st [r [E [Wr [Fr [V1 V2]]]]]]; try assumption; try lra.
      exists st, r. split; [exact E|]. rewrite Q2 in V2. split; [apply Can; assumption|]. split; [exact V2|]. unfold pair_value at 1. rewrite V2, V1, Rplus_0_r. exact Q5.
  - right. exists st1, (mkDF ft (ZERO F)). split; [unfold dd_mul_normal; rewrite E1; cbn [bind]; rewrite Nt; reflexivity|].
    assert (value F (ZERO F) = 0)%R as Z0 by (apply (value_zero F (ZERO F)); reflexivity).
    split; [apply Can; [split; [exact Wt|exact (wf_ZERO F HF)]|split; [exact Ft|right; reflexivity]|exact Z0]|]. split; [exact Z0|].
    unfold pair_value at 1. cbn [d0 d1]. rewrite Z0, Rplus_0_r. unfold pair_value.
    pose proof (any_prod_tiny emin p (rnd_of m) VR P5 (value F (d0 x)) (value F (d1 x)) (value F (d0 y)) (value F (d1 y)) 0 Lx Ly Lo' (generic_format_0 _ _)) as Q.
    rewrite Rabs_R0 in Q. specialize (Q (Rlt_le _ _ H0)). cbv zeta in Q.
    assert (value F ft = 0)%R as T0.
    { apply value_zero. rewrite is_finite_non_zero_spec in Nt. destruct Ft as [C|C]; [rewrite C in Nt; discriminate|exact C]. }
    rewrite T0 in *. rewrite Rminus_0_l, Rabs_Ropp in Et |- *.
    set (a := value F (d0 x)) in *. set (b := value F (d1 x)) in *. set (c := value F (d0 y)) in *. set (d := value F (d1 y)) in *. clear Q.
    assert (Rabs ((a + b) * (c + d)) <= (1 + 2 * u) * (1 + 2 * u) * Rabs (a * c))%R as Q.
    { pose proof (u_32 F P5) as [U0 U1]. rewrite !Rabs_mult. pose proof (Rabs_triang a b). pose proof (Rabs_triang c d). pose proof (Rabs_pos a). pose proof (Rabs_pos c).
      replace ((1 + 2 * u) * (1 + 2 * u) * (Rabs a * Rabs c))%R with (((1 + 2 * u) * Rabs a) * ((1 + 2 * u) * Rabs c))%R by ring. apply Rmult_le_compat; try apply Rabs_pos; lra. }
    pose proof (u_32 F P5) as [U0 U1]. assert ((1 + 2 * u) * (1 + 2 * u) <= 2)%R as U2 by nra. pose proof (Rabs_pos (a * c)). nra.
Qed.
End Small.

(** Samples: (1 + 2^-52) * 2^-600 times the same * 2^-420, whose error term is
    subnormal; and (1 + 2^-52) * 2^-600 times the same * 2^-430 *)
Definition p_faint (e : Z) : DFloat := mkDF (mkFloat 4503599627370497 e Normal false) (mkFloat 4503599627370497 (e - 54) Normal true).
Lemma p_faint_narrow : forall e, - 900 <= e <= 900 -> narrow_pair DoubleS (p_faint e).
Proof.
  intros e He. unfold p_faint. split; [split; split; cbn [d0 d1 category exp sig]; repeat split; try lia; try (intros; cbn in *; lia)|].
  split; [split; left; reflexivity|]. cbn [d0 d1]. rewrite !(scaled_value _ _ _ (e - 106)) by lia.
  replace (e - 54 - 52 - (e - 106)) with 0 by ring. replace (e - 52 - (e - 106)) with 54 by ring.
  rewrite !Rabs_mult, <- !abs_IZR, (Rabs_pos_eq (bpow r2 _)) by apply bpow_ge_0. rewrite <- Rmult_assoc. apply Rmult_le_compat_r; [apply bpow_ge_0|].
  change (1 - PRECISION DoubleS) with (-52). change (bpow r2 (-52)) with (/ IZR (2 ^ 52))%R. apply Rmult_le_reg_l with (IZR (2 ^ 52)); [apply IZR_lt; reflexivity|].
  rewrite <- Rmult_assoc, Rinv_r, Rmult_1_l by (apply Rgt_not_eq, IZR_lt; reflexivity). rewrite <- mult_IZR. apply IZR_le. vm_compute. discriminate.
Qed.
Lemma small_sample : pair_ok DoubleS /\ 5 <= PRECISION DoubleS /\ narrow_pair DoubleS (p_faint (-600)) /\ narrow_pair DoubleS (p_faint (-420)) /\
  (min_normal DoubleS <= Rabs (value DoubleS (d0 (p_faint (-600))) * value DoubleS (d0 (p_faint (-420)))) <= bpow r2 (MAX_EXP DoubleS - 4))%R /\
  dd_mul_r DoubleS (p_faint (-600)) (p_faint (-420)) TowardPositive =
    Ret (Z.lor UNDERFLOW INEXACT, mkDF (mkFloat 4503599627370498 (-1020) Normal false) (mkFloat 1 (-1022) Normal true)).
Proof.
  split; [exact double_pair|]. split; [vm_compute; discriminate|]. do 2 (split; [apply p_faint_narrow; lia|]). split; [|vm_compute; reflexivity].
  cbn [p_faint d0]. rewrite Rabs_mult.
  pose proof (double_small false 4503599627370497 (-600) ltac:(lia) ltac:(lia)) as A. pose proof (double_small false 4503599627370497 (-420) ltac:(lia) ltac:(lia)) as C.
  pose proof (double_big false 4503599627370497 (-600) ltac:(lia)) as A'. pose proof (double_big false 4503599627370497 (-420) ltac:(lia)) as C'.
  split.
  - apply Rle_trans with (bpow r2 (-600) * bpow r2 (-420))%R; [|apply Rmult_le_compat; try assumption; apply bpow_ge_0].
    rewrite <- bpow_plus. apply bpow_le. vm_compute. discriminate.
  - apply Rle_trans with (bpow r2 (-600 + 1) * bpow r2 (-420 + 1))%R; [apply Rmult_le_compat; try assumption; apply Rabs_pos|].
    rewrite <- bpow_plus. apply bpow_le. vm_compute. discriminate.
Qed.
Lemma tiny_sample : narrow_pair DoubleS (p_faint (-600)) /\ narrow_pair DoubleS (p_faint (-430)) /\
  (Rabs (value DoubleS (d0 (p_faint (-600))) * value DoubleS (d0 (p_faint (-430)))) < min_normal DoubleS)%R /\
  dd_mul_r DoubleS (p_faint (-600)) (p_faint (-430)) TowardPositive =
    Ret (Z.lor UNDERFLOW INEXACT, mkDF (mkFloat 17592186044417 (-1022) Normal false) (mkFloat 0 (-1023) Zero false)).
Proof.
  do 2 (split; [apply p_faint_narrow; lia|]). split; [|vm_compute; reflexivity].
  cbn [p_faint d0]. rewrite Rabs_mult.
  pose proof (double_small false 4503599627370497 (-600) ltac:(lia) ltac:(lia)) as A. pose proof (double_small false 4503599627370497 (-430) ltac:(lia) ltac:(lia)) as C.
  apply Rle_lt_trans with (bpow r2 (-600 + 1) * bpow r2 (-430 + 1))%R; [apply Rmult_le_compat; try assumption; apply Rabs_pos|].
  rewrite <- bpow_plus. apply bpow_lt. vm_compute. reflexivity.
Qed.
