(** * PairMul.v -- products of pairs (src/ppc.rs:276-340): the pair that is
    returned, and how far it is from the exact product *)
From Coq Require Import ZArith Reals List Bool Lia Lra Psatz.
From Flocq Require Import Core Pff2Flocq.
From Verif Require Import Machine Sig SpecSig Ieee Ppc Spec Norm Arith Order Fma Algebra SpecPair Pair PairOps PairBase TwoSum PairAdd.
Local Open Scope Z_scope.
Ltac Zify.zify_post_hook ::= idtac.

Section Mul.
Variable F : Semantics.
Hypothesis HF : pair_ok F.
Hypothesis P4 : 4 <= PRECISION F.
Variable m : Round.
Hypothesis Hm : m = NearestTiesToEven \/ m = NearestTiesToAway.
Local Notation p := (PRECISION F).
Local Notation emin := (MIN_EXP F - (p - 1)).
Local Notation RN := (rounded F m).
Local Notation Fm := (generic_format r2 (fexp F)).
Local Notation B k := (bpow r2 (MAX_EXP F - k)).
Let FO := F_ok F HF.

Lemma mul_step : forall x y, wf F x -> wf F y -> finite x -> finite y -> (Rabs (value F x * value F y) <= max_finite F)%R ->
  exists st f, mul_r F x y m = Ret (st, f) /\ wf F f /\ finite f /\ value F f = RN (value F x * value F y).
Proof.
  intros x y Hx Hy Fx Fy R. destruct (mul_r_finite F x y m FO Hx Hy Fx Fy (sides F _ _ (pok_ieee F HF))) as [[st f] [E [A [S [D _]]]]].
  exists st, f. destruct (D (rounded_le_max F m _ FO R)) as [D1 [D2 _]]. exact (conj E (conj A (conj D1 D2))).
Qed.
Lemma fma_step : forall x y z, wf F x -> wf F y -> wf F z -> finite x -> finite y -> finite z -> (min_normal F <= Rabs (value F x * value F y))%R ->
  (Rabs (value F x * value F y + value F z) <= max_finite F)%R ->
  exists st f, mul_add_r F x y z m = Ret (st, f) /\ wf F f /\ finite f /\ value F f = RN (value F x * value F y + value F z).
Proof.
  intros x y z Hx Hy Hz Fx Fy Fz N R. assert (fma_safe F x y z) as Sf by (unfold fma_safe; tauto).
  destruct (mul_add_r_finite F x y z m FO Hx Hy Hz Fx Fy Fz Sf (sides F _ _ (pok_ieee F HF))) as [[st f] [E [A [S [D _]]]]].
  exists st, f. destruct (D (rounded_le_max F m _ FO R)) as [D1 [D2 _]]. exact (conj E (conj A (conj D1 D2))).
Qed.

Theorem dd_mul_spec : forall x y, canonical_pair F x -> canonical_pair F y ->
  (bpow r2 (MIN_EXP F + 2 * p + 1) <= Rabs (value F (d0 x) * value F (d0 y)) <= B 4)%R ->
  let a := value F (d0 x) in let b := value F (d1 x) in let c := value F (d0 y) in let d := value F (d1 y) in
  let t := RN (a * c) in let tau := RN (a * c - t + RN (RN (a * d) + RN (b * c))) in
  exists st r, dd_mul_r F x y m = Ret (st, r) /\ pair_wf F r /\ pair_finite r /\
    value F (d0 r) = RN (pair_value F r) /\ pair_value F r = (t + tau)%R /\ RN (a * c - t) = (a * c - t)%R /\
    (Rabs (t + tau - (a + b) * (c + d)) <= 8 * (bpow r2 (- p) * bpow r2 (- p)) * Rabs (a * c))%R.
Proof.
  intros x y Hx Hy [Lo Hi] a b c d t tau. pose proof (canonical_low F HF P4 x Hx) as Lx. pose proof (canonical_low F HF P4 y Hy) as Ly.
  pose proof Hx as [[Wa Wb] [[Fa Fb] _]]. pose proof Hy as [[Wc Wd] [[Fc Fd] _]].
  assert (0 < Rabs (value F (d0 x) * value F (d0 y)))%R as Pos by (apply Rlt_le_trans with (2 := Lo), bpow_gt_0).
  assert (category (d0 x) = Normal) as Cx.
  { destruct Fa as [C|C]; [exact C|]. rewrite (value_zero F _ C), Rmult_0_l, Rabs_R0 in Pos. lra. }
  assert (category (d0 y) = Normal) as Cy.
  { destruct Fc as [C|C]; [exact C|]. rewrite (value_zero F _ C), Rmult_0_r, Rabs_R0 in Pos. lra. }
  unfold dd_mul_r, dd_category. rewrite Cx, Cy. unfold dd_mul_normal, pair_value. fold a in Lo, Hi, Pos. fold a b in Lx. fold c in Lo, Hi, Pos. fold c d in Ly.
  assert (Fm a /\ Fm c) as [Ga Gc] by (split; apply value_format; assumption).
  pose proof (prod_low_bounds emin p (ties m) P4 a b c d Ga Gc Lx Ly) as PL. cbv zeta in PL. rewrite <- ?(RN_eq F m Hm) in PL.
 fold t in PL. rewrite <- ?(RN_eq F m Hm) in PL.
  destruct PL as [X [Err Small]]. { apply Rle_trans with (2 := Lo). apply bpow_le. lia. }
  rewrite <- ?(RN_eq F m Hm) in Err, Small. rewrite X in Err, Small.
  pose proof (u_le_1 F P4) as [U0 U1]. pose proof (B_0 F) as B4. pose proof (B_step F 3) as B3. pose proof (B_step F 2) as B2. pose proof (B_step F 1) as B1. pose proof (B_step F 0) as B0.
  change (3 + 1) with 4 in B3. change (2 + 1) with 3 in B2. change (1 + 1) with 2 in B1. change (0 + 1) with 1 in B0.
  pose proof (B_max F HF P4 0 ltac:(lia)) as MX.
  assert (Rabs t <= B 4)%R as Rt by (apply (RN_B F HF P4 m Hm); [lia|exact Hi]).
  assert (Rabs (a * c - t) <= B 3)%R as Rt0. { pose proof (Rabs_triang (a * c) (- t)) as T0. rewrite Rabs_Ropp in T0. unfold Rminus. lra. }
  assert (Rabs (a * d) <= B 4)%R as Rad. { rewrite Rabs_mult in *. pose proof (Rabs_pos a). pose proof (Rabs_pos c). nra. }
  assert (Rabs (b * c) <= B 4)%R as Rbc. { rewrite Rabs_mult in *. pose proof (Rabs_pos a). pose proof (Rabs_pos c). nra. }
  (* t *)
  destruct (mul_step (d0 x) (d0 y) Wa Wc Fa Fc) as [st1 [ft [E [Wt [Ft Vt]]]]]; [fold a c; lra|]. rewrite E. cbn [bind]. clear E.
  fold a c in Vt. fold t in Vt.
  assert (is_finite_non_zero ft = true) as Nt.
  { rewrite is_finite_non_zero_spec. destruct Ft as [C|C]; rewrite C; [reflexivity|]. exfalso. rewrite (value_zero F ft C) in Vt. rewrite <- Vt in Small.
    assert (Rabs t = 0)%R as Z by (rewrite <- Vt; apply Rabs_R0).
    assert (Rabs (a * c) <= Rabs (t - a * c) + Rabs t)%R as T. { replace (a * c)%R with (- (t - a * c) + t)%R at 1 by ring. rewrite <- (Rabs_Ropp (t - a * c)). apply Rabs_triang. }
    assert (bpow r2 (MIN_EXP F) <= Rabs t)%R as G; [|pose proof (bpow_gt_0 r2 (MIN_EXP F)); lra].
    unfold t. rewrite (RN_eq F m Hm). apply abs_round_ge_generic; [exact (F_valid F HF)|apply valid_rnd_N| |].
    - apply generic_format_bpow. unfold FLT_exp. lia.
    - apply Rle_trans with (2 := Lo). apply bpow_le. lia. }
  rewrite Nt. cbn [negb].
  (* tau = a * c - t *)
  destruct (fma_step (d0 x) (d0 y) (neg ft) Wa Wc (wf_neg F ft Wt) Fa Fc (finite_neg ft Ft)) as [st2 [f0 [E [W0 [F0 V0]]]]].
  { unfold min_normal. apply Rle_trans with (2 := Lo). apply bpow_le. lia. }
  { rewrite value_neg, Vt. fold a c. change (a * c + - t)%R with (a * c - t)%R. lra. }
  rewrite E. cbn [bind]. clear E. rewrite value_neg, Vt in V0. fold a c in V0. change (a * c + - t)%R with (a * c - t)%R in V0. rewrite X in V0.
  (* a * d, b * c, their sum *)
  destruct (mul_step (d0 x) (d1 y) Wa Wd Fa Fd) as [st3 [fv [E [Wv [Fv Vv]]]]]; [fold a d; lra|]. rewrite E. cbn [bind]. clear E. fold a d in Vv.
  destruct (mul_step (d1 x) (d0 y) Wb Wc Fb Fc) as [st4 [fw [E [Ww [Fw Vw]]]]]; [fold b c; lra|]. rewrite E. cbn [bind]. clear E. fold b c in Vw.
  pose proof (RN_B F HF P4 m Hm _ 4 ltac:(lia) Rad) as Rad'. pose proof (RN_B F HF P4 m Hm _ 4 ltac:(lia) Rbc) as Rbc'.
  assert (Rabs (RN (a * d) + RN (b * c)) <= B 3)%R as Rs by (pose proof (Rabs_triang (RN (a * d)) (RN (b * c))); lra).
  pose proof (RN_B F HF P4 m Hm _ 3 ltac:(lia) Rs) as Rs'.
  destruct (add_step F HF m fv fw Wv Ww Fv Fw) as [st5 [fs [E [Ws [Fs [Vs _]]]]]]; [rewrite Vv, Vw; lra|]. rewrite E. cbn [bind]. clear E. rewrite Vv, Vw in Vs.
  set (s := RN (RN (a * d) + RN (b * c))) in *. fold tau in Err, Small.
  (* tau *)
  assert (Rabs (a * c - t + s) <= B 2)%R as Ru by (pose proof (Rabs_triang (a * c - t) s); lra).
  destruct (add_step F HF m f0 fs W0 Ws F0 Fs) as [st6 [fu [E [Wu [Fu [Vu _]]]]]]; [rewrite V0, Vs; lra|]. rewrite E. cbn [bind]. clear E. rewrite V0, Vs in Vu.
  fold tau in Vu.
  (* t + tau *)
  assert (Rabs (t + tau) <= B 3)%R as Rr by (pose proof (Rabs_triang t tau); lra).
  pose proof (RN_B F HF P4 m Hm _ 3 ltac:(lia) Rr) as Rr'.
  destruct (add_step F HF m ft fu Wt Wu Ft Fu) as [st7 [fr0 [E [Wr0 [Fr0 [Vr0 _]]]]]]; [rewrite Vt, Vu; lra|]. rewrite E. cbn [bind]. clear E. rewrite Vt, Vu in Vr0.
  rewrite (finite_is_finite fr0 Fr0). cbn [negb].
  assert (Rabs (t - RN (t + tau)) <= B 2)%R as Rd. { pose proof (Rabs_triang t (- RN (t + tau))) as T0. rewrite Rabs_Ropp in T0. unfold Rminus. lra. }
  pose proof (RN_B F HF P4 m Hm _ 2 ltac:(lia) Rd) as Rd'.
  destruct (sub_step F HF m ft fr0 Wt Wr0 Ft Fr0) as [st8 [fd [E [Wfd [Ffd [Vfd _]]]]]]; [rewrite Vt, Vr0; lra|]. rewrite E. cbn [bind]. clear E. rewrite Vt, Vr0 in Vfd.
  destruct (add_step F HF m fd fu Wfd Wu Ffd Fu) as [st9 [fr1 [E [Wr1 [Fr1 [Vr1 _]]]]]].
  { rewrite Vfd, Vu. pose proof (Rabs_triang (RN (t - RN (t + tau))) tau). lra. }
  rewrite E. cbn [bind]. clear E. rewrite Vfd, Vu in Vr1.
  assert (Fm t /\ Fm tau) as [Gt Gtau]. { rewrite <- Vt, <- Vu. split; apply value_format; assumption. }
  pose proof (fast_two_sum emin p (ties m) P4 (emin_neg F HF P4) (ties_sym m) t tau Gt Gtau (or_introl Small)) as Q. rewrite <- ?(RN_eq F m Hm) in Q. rewrite Q in Vr1. clear Q.
  eexists. exists (mkDF fr0 fr1). split; [reflexivity|]. cbn [d0 d1].
  assert (value F fr0 + value F fr1 = t + tau)%R as V by (rewrite Vr0, Vr1; ring).
  split; [split; assumption|]. split; [split; assumption|]. split; [rewrite V; exact Vr0|]. split; [exact V|]. split; [exact X|exact Err].
Qed.
Theorem dd_mul_accurate : forall x y, canonical_pair F x -> canonical_pair F y ->
  (bpow r2 (MIN_EXP F + 2 * p + 1) <= Rabs (value F (d0 x) * value F (d0 y)) <= B 4)%R ->
  exists st r, dd_mul_r F x y m = Ret (st, r) /\ pair_wf F r /\ pair_finite r /\
    (m = NearestTiesToEven -> canonical_pair F r) /\
    (Rabs (value F (d1 r)) <= bpow r2 (- p) * Rabs (value F (d0 r)))%R /\
    (Rabs (pair_value F r - pair_value F x * pair_value F y) <= bpow r2 (3 - 2 * p) * Rabs (value F (d0 x) * value F (d0 y)))%R.
Proof.
  intros x y Hx Hy R. destruct (dd_mul_spec x y Hx Hy R) as [st [r [E [Wr [Fr [V0 [V [_ Err]]]]]]]].
  exists st, r. split; [exact E|]. split; [exact Wr|]. split; [exact Fr|]. split; [|split].
  - intros EM. rewrite EM in V0. split; [exact Wr|split; [exact Fr|exact V0]].
  - destruct Wr, Fr. apply (low_half emin p (ties m) P4); [apply value_format; assumption|apply value_format; assumption|].
    rewrite <- (RN_eq F m Hm). symmetry. exact V0.
  - rewrite V. unfold pair_value. replace (bpow r2 (3 - 2 * p)) with (8 * (bpow r2 (- p) * bpow r2 (- p)))%R; [exact Err|].
    rewrite <- bpow_plus. change 8%R with (bpow r2 3). rewrite <- bpow_plus. f_equal. ring.
Qed.
(** relative to the exact product *)
Theorem dd_mul_relative : forall x y, canonical_pair F x -> canonical_pair F y ->
  (bpow r2 (MIN_EXP F + 2 * p + 1) <= Rabs (value F (d0 x) * value F (d0 y)) <= B 4)%R ->
  exists st r, dd_mul_r F x y m = Ret (st, r) /\
    (Rabs (pair_value F r - pair_value F x * pair_value F y) <= bpow r2 (4 - 2 * p) * Rabs (pair_value F x * pair_value F y))%R.
Proof.
  intros x y Hx Hy Rg. destruct (dd_mul_accurate x y Hx Hy Rg) as [st [r [E [_ [_ [_ [_ H]]]]]]]. exists st, r. split; [exact E|].
  apply Rle_trans with (1 := H). replace (4 - 2 * p) with (1 + (3 - 2 * p)) by ring. rewrite (bpow_plus r2 1). change (bpow r2 1) with 2%R.
  rewrite (Rmult_comm 2), Rmult_assoc. apply Rmult_le_compat_l; [apply bpow_ge_0|]. rewrite !Rabs_mult.
  pose proof (canonical_low F HF P4 x Hx) as Lx. pose proof (canonical_low F HF P4 y Hy) as Ly. pose proof (u_le_1 F P4) as [U0 U1].
  assert (forall a b : R, (Rabs b <= bpow r2 (- p) * Rabs a -> 15 / 16 * Rabs a <= Rabs (a + b))%R) as K.
  { intros a b L. pose proof (Rabs_triang (a + b) (- b)) as T. replace (a + b + - b)%R with a in T by ring. rewrite Rabs_Ropp in T. pose proof (Rabs_pos a). nra. }
  pose proof (K _ _ Lx) as Kx. pose proof (K _ _ Ly) as Ky. unfold pair_value. pose proof (Rabs_pos (value F (d0 x))) as Px. pose proof (Rabs_pos (value F (d0 y))) as Py.
  assert ((15 / 16 * Rabs (value F (d0 x))) * (15 / 16 * Rabs (value F (d0 y))) <= Rabs (value F (d0 x) + value F (d1 x)) * Rabs (value F (d0 y) + value F (d1 y)))%R as Q.
  { apply Rmult_le_compat; lra. }
  assert (0 <= Rabs (value F (d0 x)) * Rabs (value F (d0 y)))%R as PP by (apply Rmult_le_pos; assumption). lra.
Qed.
(** products of two halves are exact *)
Theorem dd_mul_exact : forall x y, canonical_pair F x -> canonical_pair F y -> category (d1 x) = Zero -> category (d1 y) = Zero ->
  (bpow r2 (MIN_EXP F + 2 * p + 1) <= Rabs (value F (d0 x) * value F (d0 y)) <= B 4)%R ->
  exists st r, dd_mul_r F x y m = Ret (st, r) /\ pair_wf F r /\ pair_finite r /\
    (m = NearestTiesToEven -> canonical_pair F r) /\ pair_value F r = (pair_value F x * pair_value F y)%R.
Proof.
  intros x y Hx Hy Zx Zy R. destruct (dd_mul_spec x y Hx Hy R) as [st [r [E [Wr [Fr [V0 [V [X _]]]]]]]].
  exists st, r. split; [exact E|]. split; [exact Wr|]. split; [exact Fr|].
  split; [intros EM; rewrite EM in V0; split; [exact Wr|split; [exact Fr|exact V0]]|].
  rewrite V. unfold pair_value. rewrite (value_zero F (d1 x) Zx), (value_zero F (d1 y) Zy), !Rmult_0_r, !Rmult_0_l, !Rplus_0_r.
  assert (RN 0 = 0%R) as Z0 by apply (RN_zero F m Hm).
  rewrite !Z0, Rplus_0_r, Z0, Rplus_0_r, X. ring.
Qed.
End Mul.
