(** * PairTopMul.v -- products of pairs up to overflow (src/ppc.rs:276-340) *)
From Coq Require Import ZArith Reals List Bool Lia Lra Psatz.
From Flocq Require Import Core.
From Verif Require Import Machine Sig SpecSig Ieee Ppc Spec Norm Arith Order Rem Algebra SpecPair Pair PairOps PairBase TwoSum TopSum PairAdd PairMul PairTop.
Local Open Scope Z_scope.
Ltac Zify.zify_post_hook ::= idtac.

Section Top.
Variable F : Semantics.
Hypothesis HF : pair_ok F.
Hypothesis P5 : 5 <= PRECISION F.
Variable m : Round.
Hypothesis Hm : m = NearestTiesToEven \/ m = NearestTiesToAway.
Local Notation p := (PRECISION F).
Local Notation emin := (MIN_EXP F - (p - 1)).
Local Notation E := (MAX_EXP F).
Local Notation RN := (rounded F m).
Local Notation Fm := (generic_format r2 (fexp F)).
Local Notation u := (bpow r2 (- p)).
Local Notation U := (bpow r2 (E + 1 - p)).
Local Notation MX := (bpow r2 (E + 1) - bpow r2 (E + 1 - p))%R.
Let FO := F_ok F HF.
Let P4 : 4 <= p. Proof. lia. Qed.

Lemma mul_any : forall x y, wf F x -> wf F y -> finite x -> finite y ->
  exists st f, mul_r F x y m = Ret (st, f) /\ wf F f /\ has_sign (value F x * value F y) (xorb (sign x) (sign y)) f /\
    ((Rabs (RN (value F x * value F y)) <= MX)%R -> finite f /\ value F f = RN (value F x * value F y)) /\
    ((MX < Rabs (RN (value F x * value F y)))%R -> category f = Infinity).
Proof.
  intros x y Hx Hy Fx Fy. destruct (mul_r_finite F x y m FO Hx Hy Fx Fy (sides F _ _ (pok_ieee F HF))) as [[st f] [Q [A [S [D O]]]]].
  exists st, f. rewrite (MX_eq F HF) in D, O. split; [exact Q|]. split; [exact A|]. split; [exact S|]. split.
  - intro H. destruct (D H) as [D1 [D2 _]]. exact (conj D1 D2).
  - intro H. specialize (O H). rewrite (pok_ieee F HF) in O. destruct (to_infinity m (sign f)) eqn:T; [exact (proj2 O)|].
    destruct Hm as [-> | ->]; discriminate T.
Qed.
Lemma prod_sign : forall a b c d, (Rabs b <= u * Rabs a)%R -> (Rabs d <= u * Rabs c)%R ->
  ((0 < a * c -> 0 < (a + b) * (c + d)) /\ (a * c < 0 -> (a + b) * (c + d) < 0) /\ (1 - 2 * u) * Rabs (a * c) <= Rabs ((a + b) * (c + d)))%R.
Proof.
  intros a b c d Lb Ld. pose proof (u_le_1 F P4) as [U0 U1].
  assert (forall x y : R, (Rabs y <= u * Rabs x -> exists k, x + y = k * x /\ 1 - u <= k)%R) as K.
  { intros x y L. destruct (Req_dec x 0) as [Z|Z].
    - exists 1%R. rewrite Z, Rabs_R0, Rmult_0_r in L. assert (y = 0)%R as ->; [|split; [rewrite Z; ring|lra]].
      destruct (Req_dec y 0) as [Q|Q]; [exact Q|]. apply Rabs_pos_lt in Q. lra.
    - exists (1 + y / x)%R. split; [field; exact Z|]. assert (Rabs (y / x) <= u)%R as L'.
      { unfold Rdiv. rewrite Rabs_mult, Rabs_inv. apply Rmult_le_reg_r with (Rabs x); [apply Rabs_pos_lt, Z|]. rewrite Rmult_assoc, Rinv_l, Rmult_1_r; [exact L|]. apply Rabs_no_R0, Z. }
      apply Rabs_le_inv in L'. lra. }
  destruct (K a b Lb) as [k [Ek Lk]]. destruct (K c d Ld) as [l [El Ll]]. rewrite Ek, El.
  replace (k * a * (l * c))%R with ((k * l) * (a * c))%R by ring.
  assert (1 - 2 * u <= k * l)%R as KL. { apply Rle_trans with ((1 - u) * (1 - u))%R; [nra|]. apply Rmult_le_compat; lra. }
  assert (0 < k * l)%R as KP by lra.
  split; [intro; apply Rmult_lt_0_compat; assumption|]. split; [intro H; rewrite <- (Rmult_0_r (k * l)); apply Rmult_lt_compat_l; assumption|].
  rewrite (Rabs_mult (k * l)), (Rabs_pos_eq (k * l)) by lra. apply Rmult_le_compat_r; [apply Rabs_pos|exact KL].
Qed.

Theorem dd_mul_top : forall x y, canonical_pair F x -> canonical_pair F y ->
  (bpow r2 (MIN_EXP F + 2 * p + 1) <= Rabs (value F (d0 x) * value F (d0 y)))%R ->
  exists st r, dd_mul_r F x y m = Ret (st, r) /\
    ((pair_wf F r /\ pair_finite r /\ (m = NearestTiesToEven -> canonical_pair F r) /\
      (Rabs (value F (d1 r)) <= bpow r2 (- p) * Rabs (value F (d0 r)))%R /\
      (Rabs (pair_value F r - pair_value F x * pair_value F y) <= bpow r2 (3 - 2 * p) * Rabs (value F (d0 x) * value F (d0 y)))%R) \/
     (((1 - bpow r2 (1 - p)) * max_finite F <= Rabs (pair_value F x * pair_value F y))%R /\
      is_special F Infinity (Rlt_bool (pair_value F x * pair_value F y) 0) (d0 r) /\ is_special F Zero false (d1 r))).
Proof.
  intros x y Hx Hy Lo. pose proof (canonical_low F HF P4 x Hx) as Lx. pose proof (canonical_low F HF P4 y Hy) as Ly.
  pose proof Hx as [[Wa Wb] [[Fa Fb] _]]. pose proof Hy as [[Wc Wd] [[Fc Fd] _]].
  assert (0 < Rabs (value F (d0 x) * value F (d0 y)))%R as Pos by (apply Rlt_le_trans with (2 := Lo), bpow_gt_0).
  assert (category (d0 x) = Normal) as Cx.
  { destruct Fa as [C|C]; [exact C|]. rewrite (value_zero F _ C), Rmult_0_l, Rabs_R0 in Pos. lra. }
  assert (category (d0 y) = Normal) as Cy.
  { destruct Fc as [C|C]; [exact C|]. rewrite (value_zero F _ C), Rmult_0_r, Rabs_R0 in Pos. lra. }
  unfold dd_mul_r, dd_category. rewrite Cx, Cy. unfold dd_mul_normal.
  set (a := value F (d0 x)) in *. set (b := value F (d1 x)) in *. set (c := value F (d0 y)) in *. set (d := value F (d1 y)) in *.
  change (pair_value F x) with (a + b)%R. change (pair_value F y) with (c + d)%R.
  assert (Fm a /\ Fm c) as [Ga Gc] by (split; apply value_format; assumption).
  pose proof (top_range F HF P5) as TR. pose proof (ok_prec F FO) as OP.
  pose proof (U_small p E P5) as SU. pose proof (U_pos p E) as PU. pose proof (bpow_two E) as TE. pose proof (U_scale p E) as US. pose proof (u_le_1 F P4) as [U0 U1].
  pose proof (ties_sym m) as TS. assert (forall n, 0 <= n -> Z.odd n = true -> ties m n = true) as TO by (intros n; apply ties_odd, Hm).
  assert (forall x, round r2 (FLT_exp emin p) (Znearest (ties m)) x = RN x) as RQ by (intro; symmetry; apply RN_eq, Hm).
  assert (forall x, (Rabs x < bpow r2 (E + 1))%R -> (Rabs (RN x - x) <= / 2 * U)%R) as ER. { intros v H. rewrite <- RQ. apply (err_U emin p E (ties m) P5 TR v H). }
  assert (bpow r2 (1 - p) = 2 * u)%R as U2. { replace (1 - p) with (- p + 1) by ring. apply bpow_two. }
  assert (bpow r2 (3 - 2 * p) = 8 * (u * u))%R as U8. { rewrite <- bpow_plus. change 8%R with (bpow r2 3). rewrite <- bpow_plus. f_equal. ring. }
  rewrite U2, U8, (MX_eq F HF).
  destruct (prod_sign a b c d Lx Ly) as [Sg1 [Sg2 Mag]].
  set (t := RN (a * c)) in *.
  destruct (mul_any (d0 x) (d0 y) Wa Wc Fa Fc) as [st1 [ft [E1 [Wt [St [Dt Ot]]]]]]. rewrite E1. cbn [bind]. clear E1. fold a c in St, Dt, Ot. fold t in Dt, Ot.
  destruct (Rle_or_lt (Rabs t) MX) as [L|L].
  2: { (* the product of the high halves overflows *)
    specialize (Ot L). assert (is_finite_non_zero ft = false) as IF by (rewrite is_finite_non_zero_spec, Ot; reflexivity). rewrite IF. cbn [negb].
    exists st1, (mkDF ft (ZERO F)). split; [reflexivity|]. right. cbn [d0 d1].
    assert (MX + / 2 * U <= Rabs (a * c))%R as L'. { apply Rnot_lt_le. intro Q. pose proof (not_over emin p E (ties m) P5 TR _ Q) as N. rewrite RQ in N. fold t in N. lra. }
    split; [apply Rle_trans with (2 := Mag); apply Rmult_le_compat_l; lra|].
    split; [|split; [exact (wf_ZERO F HF)|split; reflexivity]]. split; [exact Wt|]. split; [exact Ot|]. destruct St as [S1 [S2 _]].
    destruct (Rtotal_order (a * c) 0) as [Q|[Q|Q]].
    - rewrite (S1 Q), Rlt_bool_true; [reflexivity|exact (Sg2 Q)].
    - rewrite Q, Rabs_R0 in Pos. lra.
    - rewrite (S2 Q), Rlt_bool_false; [reflexivity|apply Rlt_le, Sg1, Q]. }
  destruct (Dt L) as [Ft Vt].
  pose proof (prod_low_bounds emin p (ties m) P4 a b c d Ga Gc Lx Ly) as PL. cbv zeta in PL. rewrite !RQ in PL. fold t in PL.
  destruct PL as [X [Err Small]]. { apply Rle_trans with (2 := Lo). apply bpow_le. lia. }
  rewrite X in Err, Small.
  assert (is_finite_non_zero ft = true) as Nt.
  { rewrite is_finite_non_zero_spec. destruct Ft as [C|C]; rewrite C; [reflexivity|]. exfalso. rewrite (value_zero F ft C) in Vt.
    assert (bpow r2 (MIN_EXP F) <= Rabs t)%R as G; [|rewrite <- Vt, Rabs_R0 in G; pose proof (bpow_gt_0 r2 (MIN_EXP F)); lra].
    unfold t. rewrite (RN_eq F m Hm). apply abs_round_ge_generic; [exact (F_valid F HF)|apply valid_rnd_N| |].
    - apply generic_format_bpow. unfold FLT_exp. lia.
    - apply Rle_trans with (2 := Lo). apply bpow_le. lia. }
  rewrite Nt. cbn [negb].
  assert (Rabs (a * c) < MX + / 2 * U)%R as Rac. { apply (in_range emin p E (ties m) P5 TR TO TS). rewrite RQ. exact L. }
  assert (Rabs (t - a * c) <= / 2 * U)%R as Et by (apply ER; lra). rewrite Rabs_minus_sym in Et.
  assert (forall v, (Rabs v <= U)%R -> (Rabs (RN v) <= U)%R) as RU. { intros v Hv. rewrite (RN_eq F m Hm). apply RN_le_bpow; [lia|lia|exact Hv]. }
  assert (forall v, (Rabs v <= 2 * U)%R -> (Rabs (RN v) <= 2 * U)%R) as RU2.
  { intros v Hv. rewrite (RN_eq F m Hm). rewrite <- bpow_two in Hv |- *. apply RN_le_bpow; [lia|lia|exact Hv]. }
  assert (Rabs (a * d) <= U)%R as Rad.
  { apply Rle_trans with (u * Rabs (a * c))%R; [rewrite !Rabs_mult; pose proof (Rabs_pos a); nra|]. rewrite US. apply Rmult_le_compat_l; lra. }
  assert (Rabs (b * c) <= U)%R as Rbc.
  { apply Rle_trans with (u * Rabs (a * c))%R; [rewrite !Rabs_mult; pose proof (Rabs_pos c); nra|]. rewrite US. apply Rmult_le_compat_l; lra. }
  destruct (fma_step F HF m Hm (d0 x) (d0 y) (neg ft) Wa Wc (wf_neg F ft Wt) Fa Fc (finite_neg ft Ft)) as [st2 [f0 [E1 [W0 [F0 V0]]]]].
  { unfold min_normal. apply Rle_trans with (2 := Lo). apply bpow_le. lia. }
  { rewrite value_neg, Vt, (MX_eq F HF). fold a c. change (a * c + - t)%R with (a * c - t)%R. lra. }
  rewrite E1. cbn [bind]. clear E1. rewrite value_neg, Vt in V0. fold a c in V0. change (a * c + - t)%R with (a * c - t)%R in V0. rewrite X in V0.
  destruct (mul_step F HF m (d0 x) (d1 y) Wa Wd Fa Fd) as [st3 [fv [E1 [Wv [Fv Vv]]]]]; [rewrite (MX_eq F HF); fold a d; lra|]. rewrite E1. cbn [bind]. clear E1. fold a d in Vv.
  destruct (mul_step F HF m (d1 x) (d0 y) Wb Wc Fb Fc) as [st4 [fw [E1 [Ww [Fw Vw]]]]]; [rewrite (MX_eq F HF); fold b c; lra|]. rewrite E1. cbn [bind]. clear E1. fold b c in Vw.
  pose proof (RU _ Rad) as Rad'. pose proof (RU _ Rbc) as Rbc'.
  assert (Rabs (RN (a * d) + RN (b * c)) <= 2 * U)%R as Rs by (pose proof (Rabs_triang (RN (a * d)) (RN (b * c))); lra).
  pose proof (RU2 _ Rs) as Rs'.
  destruct (add_step F HF m fv fw Wv Ww Fv Fw) as [st5 [fs [E1 [Ws [Fs [Vs _]]]]]]; [rewrite Vv, Vw, (MX_eq F HF); lra|]. rewrite E1. cbn [bind]. clear E1. rewrite Vv, Vw in Vs.
  set (s := RN (RN (a * d) + RN (b * c))) in *. set (tau := RN (a * c - t + s)) in *.
  assert (Rabs (a * c - t + s) <= 3 * U)%R as Ru by (pose proof (Rabs_triang (a * c - t) s); lra).
  destruct (add_step F HF m f0 fs W0 Ws F0 Fs) as [st6 [fu [E1 [Wu [Fu [Vu _]]]]]]; [rewrite V0, Vs, (MX_eq F HF); lra|]. rewrite E1. cbn [bind]. clear E1. rewrite V0, Vs in Vu.
  fold tau in Vu.
  assert (Rabs tau <= 4 * U)%R as Rtau.
  { pose proof (ER (a * c - t + s)%R ltac:(lra)) as Q. fold tau in Q. replace tau with ((tau - (a * c - t + s)) + (a * c - t + s))%R by ring. apply Rle_trans with (1 := Rabs_triang _ _). lra. }
  destruct (add_any F HF m Hm ft fu Wt Wu Ft Fu) as [st7 [fr0 [E1 [Wr0 [Sr0 [Dr0 Or0]]]]]]. rewrite E1. cbn [bind]. clear E1. rewrite Vt, Vu in Sr0, Dr0, Or0.
  destruct (Rle_or_lt (Rabs (RN (t + tau))) MX) as [L2|L2].
  - destruct (Dr0 L2) as [Fr0 Vr0]. rewrite (finite_is_finite fr0 Fr0). cbn [negb].
    assert (Rabs (t + tau) < MX + / 2 * U)%R as Lz. { apply (in_range emin p E (ties m) P5 TR TO TS). rewrite RQ. exact L2. }
    pose proof (ER (t + tau)%R ltac:(lra)) as Er.
    assert (Rabs (t - RN (t + tau)) <= 5 * U)%R as Rd.
    { replace (t - RN (t + tau))%R with (- (RN (t + tau) - (t + tau)) + - tau)%R by ring. pose proof (Rabs_triang (- (RN (t + tau) - (t + tau))) (- tau)) as T. rewrite !Rabs_Ropp in T. lra. }
    pose proof (ER (t - RN (t + tau))%R ltac:(lra)) as Ed.
    destruct (sub_step F HF m ft fr0 Wt Wr0 Ft Fr0) as [st8 [fd [E1 [Wfd [Ffd [Vfd _]]]]]]; [rewrite Vt, Vr0, (MX_eq F HF); lra|]. rewrite E1. cbn [bind]. clear E1. rewrite Vt, Vr0 in Vfd.
    destruct (add_step F HF m fd fu Wfd Wu Ffd Fu) as [st9 [fr1 [E1 [Wr1 [Fr1 [Vr1 _]]]]]].
    { rewrite Vfd, Vu, (MX_eq F HF). replace (RN (t - RN (t + tau)) + tau)%R with ((RN (t - RN (t + tau)) - (t - RN (t + tau))) + - (RN (t + tau) - (t + tau)))%R by ring.
      pose proof (Rabs_triang (RN (t - RN (t + tau)) - (t - RN (t + tau))) (- (RN (t + tau) - (t + tau)))) as T. rewrite Rabs_Ropp in T. lra. }
    rewrite E1. cbn [bind]. clear E1. rewrite Vfd, Vu in Vr1.
    assert (Fm t /\ Fm tau) as [Gt Gtau]. { rewrite <- Vt, <- Vu. split; apply value_format; assumption. }
    pose proof (fast_two_sum emin p (ties m) P4 (emin_neg F HF P4) TS t tau Gt Gtau (or_introl Small)) as Q. rewrite !RQ in Q. rewrite Q in Vr1. clear Q.
    eexists. exists (mkDF fr0 fr1). split; [reflexivity|]. left. unfold pair_value. cbn [d0 d1].
    assert (value F fr0 + value F fr1 = t + tau)%R as V by (rewrite Vr0, Vr1; ring).
    split; [split; assumption|]. split; [split; assumption|]. split; [intros EM|split].
    + unfold canonical_pair, pair_value. cbn [d0 d1]. rewrite V. split; [split; assumption|]. split; [split; assumption|]. rewrite EM in Vr0. exact Vr0.
    + apply (low_half emin p (ties m) P4); [apply value_format; assumption|apply value_format; assumption|]. rewrite V, RQ. symmetry. exact Vr0.
    + rewrite V. exact Err.
  - specialize (Or0 L2). assert (is_finite fr0 = false) as IF by (unfold is_finite, is_nan, is_infinite; rewrite Or0; reflexivity). rewrite IF. cbn [negb].
    eexists. exists (mkDF fr0 (ZERO F)). split; [reflexivity|]. right. cbn [d0 d1].
    assert (MX + / 2 * U <= Rabs (t + tau))%R as L'. { apply Rnot_lt_le. intro Q. pose proof (not_over emin p E (ties m) P5 TR _ Q) as N. rewrite RQ in N. lra. }
    set (S := ((a + b) * (c + d))%R) in *.
    assert (8 * (u * u) * Rabs (a * c) <= / 4 * U)%R as EB.
    { assert (Rabs (a * c) <= bpow r2 (E + 1))%R as AC by lra.
      assert (u <= / 32)%R as U5. { change (/ 32)%R with (bpow r2 (-5)). apply bpow_le. lia. }
      apply Rle_trans with (8 * (u * u) * bpow r2 (E + 1))%R; [apply Rmult_le_compat_l; [nra|exact AC]|].
      replace (8 * (u * u) * bpow r2 (E + 1))%R with (u * (8 * (u * bpow r2 (E + 1))))%R by ring. rewrite <- US.
      apply Rle_trans with (/ 32 * (8 * U))%R; [apply Rmult_le_compat_r; lra|lra]. }
    assert (Rabs (t + tau - S) <= / 4 * U)%R as ES by lra. clear Err EB.
    split.
    + apply Rle_trans with (1 * MX)%R; [apply Rmult_le_compat_r; lra|]. pose proof (Rabs_triang (t + tau - S) S) as T. replace (t + tau - S + S)%R with (t + tau)%R in T by ring. lra.
    + split; [|split; [exact (wf_ZERO F HF)|split; reflexivity]]. split; [exact Wr0|]. split; [exact Or0|]. destruct Sr0 as [S1 [S2 _]]. apply Rabs_le_inv in ES.
      unfold Rlt_bool. destruct (Rcompare_spec S 0) as [Q|Q|Q].
      * apply S1. unfold Rabs in L'. destruct (Rcase_abs (t + tau)); lra.
      * exfalso. unfold Rabs in L'. destruct (Rcase_abs (t + tau)); lra.
      * apply S2. unfold Rabs in L'. destruct (Rcase_abs (t + tau)); lra.
Qed.
End Top.
