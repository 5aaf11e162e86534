(** * FmaExact.v -- exactly what the fused multiply-add returns, for all finite operands *)
From Coq Require Import ZArith Reals List Bool Lia Lra ZifyBool.
From Flocq Require Import Core Bracket.
From Verif Require Import Machine Sig SpecSig Limbs SigProofs SigProofs2 SigProofs3 SigProofs4 SigProofs5 Ieee Spec Norm Arith Special Order Bits Int Scale Next Convert Rem SpecFma Fma Algebra Integral Total FmaFull.
Import ListNotations.
Local Open Scope Z_scope.
Ltac Zify.zify_post_hook ::= idtac.

(** nothing but lost digits *)
Lemma fma_tail_lost : forall S x addend wide e s k d m, sem_ok S -> category x = Normal -> limbs wide -> length wide = 2%nat ->
  - 2 ^ 28 <= e <= 2 ^ 28 -> lval wide = 0 -> 0 < k < d ->
  exists res, fma_tail S x addend wide e s (loss_of k d) (Sig.omsb wide) m = Ret res /\
    crate_rounded S m (sgnr s (IZR k / IZR d * min_positive S)) (fma_zero_sign s addend m) res.
Proof.
  intros S x addend wide e s k d m HS Cx Lw Nw He Vw Hk. pose proof HS as [Hp Hmin Hmax _]. unfold fma_tail.
  rewrite chk32_ret by lia. cbn [bind]. rewrite (omsb_spec _ Lw), Vw. change (bitlen 0) with 0.
  destruct (Z.ltb_spec (PRECISION S) 0) as [X|_]; [lia|]. cbn [bind].
  destruct (limbs2 wide Nw) as [a [b ->]].
  assert (a = 0) as -> by (cbn [lval] in Vw; inversion Lw as [|? ? L0 Lw2]; subst; inversion Lw2 as [|? ? L1 _]; subst; unfold limb in *; lia).
  assert (Hl : loss_of k d <> ExactlyZero).
  { intro X. pose proof (loss_of_nonzero k d ltac:(lia)) as Y. rewrite X in Y. discriminate. }
  change (get [0; b] 0) with (Ret 0). cbn [bind]. rewrite with_sign_eq. unfold set_sig_exp. cbn [category sign]. rewrite Cx. rewrite normalize_zero by assumption.
  set (v := (IZR k / IZR d * min_positive S)%R).
  assert (Bp : (0 < min_positive S)%R) by apply bpow_gt_0.
  assert (Hd : (0 < IZR d)%R) by (apply IZR_lt; lia). assert (Hk0 : (0 < IZR k)%R) by (apply IZR_lt; lia).
  assert (Hv : (0 < v)%R) by (unfold v; apply Rmult_lt_0_compat; [apply Rdiv_lt_0_compat; assumption|exact Bp]).
  destruct (normalize_spec S (mkFloat 0 (MIN_EXP S) Normal s) m (loss_of k d) v HS eq_refl) as [[st f] [N1 N2]]; cbn [sig exp sign].
  { unfold limb. lia. }
  { lia. }
  { lra. }
  { replace 0 with (k / d) at 1 by (apply Z.div_small; lia). replace k with (k mod d) at 2 by (apply Z.mod_small; lia). apply between_frac; [lia|].
    unfold v, min_positive. field. lra. }
  { right. left. lia. }
  { reflexivity. }
  cbn [sign] in N2. rewrite N1. cbn [bind].
  assert ((if negb (loss_eqb (loss_of k d) ExactlyZero) then Z.lor st INEXACT else st) = st) as ->.
  { destruct (loss_eqb (loss_of k d) ExactlyZero) eqn:El; [reflexivity|]. cbn [negb]. eapply normalize_lossy; [exact N1|reflexivity|exact Hl]. }
  assert (Nz : sgnr s v <> 0%R) by (destruct s; cbn [sgnr]; lra).
  exists (st, f). split; [|eapply cr_change_zs; [exact Nz|exact N2]].
  destruct (is_zero f && (Z.land st UNDERFLOW =? 0)) eqn:E; [exfalso|reflexivity]. apply andb_true_iff in E. destruct E as [E1 E2].
  apply Z.eqb_eq in E2. revert E2. apply (cr_zero_status S m (sgnr s v) s st f HS N2); [|exact Nz].
  unfold is_zero in E1. destruct (category f); try discriminate. reflexivity.
Qed.

Section Exact.
Variable S : Semantics.
Hypothesis HS : sem_ok S.
Local Notation u := (fma_unit S).

Lemma unit_pos : (0 < u)%R. Proof. apply bpow_gt_0. Qed.
Lemma cut_down_eq : forall W d b, 0 < d -> (IZR d * b = u)%R -> cut_down S (IZR W * b) = (IZR (W / d) * u)%R.
Proof.
  intros W d b Hd E. unfold cut_down. do 2 f_equal. rewrite <- E. pose proof unit_pos as U. rewrite <- E in U.
  assert (D : (0 < IZR d)%R) by (apply IZR_lt; exact Hd).
  replace (IZR W * b / (IZR d * b))%R with (IZR W / IZR d)%R.
  - apply Zfloor_div. lia.
  - assert (b <> 0)%R by (intros ->; lra). field. lra.
Qed.
Lemma cut_down_multiple : forall k, cut_down S (IZR k * u) = (IZR k * u)%R.
Proof. intro k. rewrite (cut_down_eq k 1 u) by (lia || lra). rewrite Z.div_1_r. reflexivity. Qed.

(** if nothing is cut off the result is right *)
Lemma not_cut_safe : forall x y z, wf S x -> wf S y -> wf S z -> finite x -> finite y -> finite z -> ~ product_cut S x y z -> fma_safe S x y z.
Proof.
  intros x y z Wx Wy Wz Fx Fy Fz N. unfold fma_safe.
  destruct (Bool.bool_dec (xorb (sign x) (sign y)) (sign z)) as [E|E]; [left; exact E|right].
  destruct Fz as [Cz|Cz]; [right|left; exact Cz].
  destruct (Rle_lt_dec (min_normal S) (Rabs (value S z))) as [L1|L1]; [left; exact L1|right].
  destruct (Rle_lt_dec (min_normal S) (Rabs (value S x * value S y))) as [L2|L2]; [left; exact L2|right]. right.
  set (p := (value S x * value S y)%R) in *.
  destruct (Req_dec (cut_down S (Rabs p)) (Rabs p)) as [Q|Q].
  - unfold cut_down in Q. set (k := Zfloor (Rabs p / u)) in Q. fold (fma_unit S). unfold Rabs in Q. destruct (Rcase_abs p) as [C|C].
    + exists (- k). rewrite opp_IZR. fold p. lra.
    + exists k. fold p. lra.
  - exfalso. apply N. split; [exact E|]. split; [apply (normal_nonzero S); assumption|]. split; [exact L1|]. split; [exact L2|exact Q].
Qed.

Theorem mul_add_r_uncut : forall x y z m, wf S x -> wf S y -> wf S z -> finite x -> finite y -> finite z -> ~ product_cut S x y z ->
  exists res, mul_add_r S x y z m = Ret res /\
    crate_rounded S m (value S x * value S y + value S z) (fma_zero_sign (xorb (sign x) (sign y)) z m) res.
Proof. intros x y z m Wx Wy Wz Fx Fy Fz N. apply mul_add_r_crate; try assumption. apply not_cut_safe; assumption. Qed.

Theorem mul_add_r_cut : forall x y z m, wf S x -> wf S y -> wf S z -> finite x -> finite y -> finite z -> product_cut S x y z ->
  (cut_down S (Rabs (value S x * value S y)) = Rabs (value S z) -> mul_add_r S x y z m = Panic) /\
  (cut_down S (Rabs (value S x * value S y)) <> Rabs (value S z) -> forall zs,
   fma_seen S x y z <> 0%R /\ exists res, mul_add_r S x y z m = Ret res /\ crate_rounded S m (fma_seen S x y z) zs res).
Proof.
  intros x y z m Wx Wy Wz Fx Fy Fz [Es [Nz [Lz [Lp Nc]]]].
  assert (Cz : category z = Normal) by (destruct Fz as [C|C]; [exact C|exfalso; apply Nz, value_zero, C]).
  assert (Np : (value S x * value S y)%R <> 0%R).
  { intro Q. apply Nc. rewrite Q, Rabs_R0. replace 0%R with (IZR 0 * u)%R at 1 by ring. rewrite cut_down_multiple. ring. }
  assert (Cx : category x = Normal) by (destruct Fx as [C|C]; [exact C|exfalso; apply Np; rewrite (value_zero S x C); ring]).
  assert (Cy : category y = Normal) by (destruct Fy as [C|C]; [exact C|exfalso; apply Np; rewrite (value_zero S y C); ring]).
  destruct (p_pow S HS) as [P1 [P2 P3]]. pose proof HS as [Hp Hmin Hmax _].
  destruct (mul_add_wide S x y z m HS Wx Wy Wz Cx Cy Cz) as [wide [e [za [-> [Lwide [Nwide [La [Na [HW [Va [He [Vxy Vz]]]]]]]]]]]].
  unfold fma_seen. set (s := xorb (sign x) (sign y)) in *. set (B := sig z * 2 ^ PRECISION S) in *.
  assert (Vwide : exists W, lval wide = W) by (eexists; reflexivity). destruct Vwide as [W Vwide]. rewrite Vwide in HW, Vxy. rewrite Va in Vz.
  pose proof (wf_normal_canonical S z Wz Cz) as Kz. pose proof (canonical_i32 _ _ _ HS Kz) as Iz. pose proof Kz as [Z1 [Z2 [Z3 Z4]]].
  assert (PP : 2 ^ (2 * PRECISION S) = 2 ^ PRECISION S * 2 ^ PRECISION S) by (rewrite <- Z.pow_add_r by lia; f_equal; lia).
  assert (HB : 2 ^ PRECISION S <= B < 2 ^ (2 * PRECISION S)) by (rewrite PP; unfold B; clear - Z1 P1 P2; nia).
  assert (P2p : 2 ^ (2 * PRECISION S) = 2 * 2 ^ (2 * PRECISION S - 1)) by (rewrite <- Z.pow_succ_r by lia; f_equal; lia).
  assert (HP0 : 0 < 2 ^ (2 * PRECISION S - 1)) by (apply pow2_gt0; lia).
  assert (Hpos : (0 <= IZR W * bpow r2 (e - 2 * PRECISION S))%R) by (apply Rmult_le_pos; [apply IZR_le; lia|apply bpow_ge_0]).
  assert (Hsub : sig z < 2 ^ (PRECISION S - 1)).
  { destruct (Z_lt_le_dec (sig z) (2 ^ (PRECISION S - 1))) as [L|L]; [exact L|exfalso]. apply (Rlt_not_le _ _ Lz).
    rewrite (value_normal S z Cz), sgnr_abs by (apply Rmult_le_pos; [apply IZR_le; lia|apply bpow_ge_0]).
    apply (canonical_full S (sig z) (exp z) HS Kz). exact L. }
  assert (Ez : exp z = MIN_EXP S) by lia. rewrite Ez in *.
  assert (Hlt : e < MIN_EXP S + 1).
  { destruct (Z_lt_le_dec e (MIN_EXP S + 1)) as [L|L]; [exact L|exfalso]. apply (Rlt_not_le _ _ Lp).
    rewrite Vxy, sgnr_abs by exact Hpos. unfold min_normal.
    apply Rle_trans with (bpow r2 (2 * PRECISION S - 1) * bpow r2 (e - 2 * PRECISION S))%R.
    - rewrite <- bpow_plus. apply bpow_le. lia.
    - apply Rmult_le_compat_r; [apply bpow_ge_0|]. rewrite <- IZR_pow2 by lia. apply IZR_le. lia. }
  set (d := 2 ^ (MIN_EXP S + 1 - e - 1)). assert (Hd : 0 < d) by (apply pow2_gt0; lia).
  assert (HbP : (0 < bpow r2 (e - 2 * PRECISION S))%R) by apply bpow_gt_0. assert (Hu : (0 < u)%R) by apply bpow_gt_0.
  assert (Bd : (IZR d * bpow r2 (e - 2 * PRECISION S) = u)%R).
  { unfold d, fma_unit. rewrite IZR_pow2_bpow by lia. f_equal. lia. }
  assert (HdR : (0 < IZR d)%R) by (apply IZR_lt; exact Hd).
  assert (Hfrac : forall n, (IZR n * bpow r2 (e - 2 * PRECISION S) = IZR n / IZR d * u)%R).
  { intro n. rewrite <- Bd. field. lra. }
  (* the two numbers, in units *)
  assert (AP : Rabs (value S x * value S y) = (IZR W * bpow r2 (e - 2 * PRECISION S))%R) by (rewrite Vxy; apply sgnr_abs; exact Hpos).
  assert (AZ : Rabs (value S z) = (IZR (2 * B) * u)%R).
  { rewrite Vz, sgnr_abs by (apply Rmult_le_pos; [apply IZR_le; lia|apply bpow_ge_0]). unfold fma_unit.
    replace (MIN_EXP S + 1 - 2 * PRECISION S) with (1 + (MIN_EXP S - 2 * PRECISION S)) by lia. rewrite bpow_plus. change (bpow r2 1) with 2%R. rewrite mult_IZR. ring. }
  rewrite AP, AZ, (cut_down_eq W d) in * by assumption.
  pose proof (Z.mod_pos_bound W d Hd) as Hm. pose proof (Z.div_mod W d ltac:(lia)) as Wd.
  assert (E0 : W mod d <> 0).
  { intro Q. apply Nc. rewrite Wd at 2. rewrite Q, Z.add_0_r, mult_IZR. rewrite <- Bd. ring. }
  assert (Hbits : 2 * lval wide < 2 ^ nbits wide /\ 2 * lval za < 2 ^ nbits wide).
  { unfold nbits, nlimbs. rewrite Nwide, Vwide, Va. change (128 * Z.of_nat 2) with 256.
    assert (2 ^ (2 * PRECISION S) <= 2 ^ 252) by (apply Z.pow_le_mono_r; lia). lia. }
  assert (Hsz : sign z = negb s) by (destruct s, (sign z); cbn in *; congruence).
  assert (Hgt0 : forall n, 0 < n -> (0 < IZR n * bpow r2 (e - 2 * PRECISION S))%R).
  { intros n H. apply Rmult_lt_0_compat; [apply IZR_lt; exact H|exact HbP]. }
  assert (Comp : forall n k, ((IZR n * bpow r2 (e - 2 * PRECISION S) < IZR k * u)%R <-> n < k * d)).
  { intros n k. rewrite <- Bd, <- Rmult_assoc, <- mult_IZR. split; intro H.
    - apply Rmult_lt_reg_r in H; [|exact HbP]. apply lt_IZR. exact H.
    - apply Rmult_lt_compat_r; [exact HbP|apply IZR_lt; exact H]. }
  assert (Lost : (IZR W * bpow r2 (e - 2 * PRECISION S) - IZR (W / d) * u = IZR (W mod d) * bpow r2 (e - 2 * PRECISION S))%R).
  { rewrite Wd at 1. rewrite plus_IZR, mult_IZR. rewrite <- Bd. ring. }
  unfold fma_difference. rewrite (cut_down_eq W d) by assumption.
  destruct (Z_lt_le_dec (W / d) (2 * B)) as [Hc|Hc].
  - (* the addend is the larger one *)
    split; [intro Q; exfalso; apply Rmult_eq_reg_r in Q; [apply eq_IZR in Q; lia|lra]|intros _ zs].
    rewrite (Rlt_bool_true (IZR W * _) (IZR (2 * B) * u)) by (apply Comp; clear - Hc Hm Wd Hd; nia).
    replace (IZR (2 * B) * u - IZR W * bpow r2 (e - 2 * PRECISION S))%R with (IZR (2 * B * d - W) * bpow r2 (e - 2 * PRECISION S))%R
      by (rewrite minus_IZR, (mult_IZR (2 * B) d), <- Bd; ring).
    destruct (add_or_sub_spec wide e s za (MIN_EXP S + 1) (sign z) Lwide La) as [r [Er [Lr [Nr Vr]]]]; try lia.
    { rewrite Vwide. intros _ _. right. rewrite Va. exact Hc. }
    rewrite Vwide, Va in Er, Vr. rewrite Z.min_l, Z.max_r in Er, Vr by lia.
    assert (xorb s (sign z) && negb (e =? MIN_EXP S + 1) = true) as Hx.
    { rewrite Hsz. destruct (Z.eqb_spec e (MIN_EXP S + 1)); [lia|]. destruct s; reflexivity. }
    rewrite Hx in Er, Vr. replace (2 ^ (MIN_EXP S + 1 - 1 - e)) with d in Er, Vr by (unfold d; f_equal; lia).
    replace (MIN_EXP S + 1 - 1) with (MIN_EXP S) in Er by lia.
    replace (2 ^ (MIN_EXP S + 1 - e)) with (2 * d) in Er, Vr by (unfold d; rewrite <- Z.pow_succ_r by lia; f_equal; lia).
    rewrite Z.sub_diag, Z.mul_1_r in Er, Vr.
    set (t := sgn s * W + sgn (sign z) * B * (2 * d)) in *.
    assert (Ht : t = sgn s * (W - 2 * B * d)) by (unfold t; rewrite Hsz; destruct s; cbn [sgn negb]; ring).
    assert (Hneg : W - 2 * B * d < 0) by (clear - Hc Hm Wd Hd; nia).
    assert (Ha : Z.abs t = 2 * B * d - W) by (rewrite Ht; clear - Hneg; destruct s; cbn [sgn]; lia).
    assert (Hs' : (if t =? 0 then s else t <? 0) = negb s).
    { rewrite Ht. clear - Hneg. destruct s; cbn [sgn negb]; match goal with |- (if ?a =? 0 then _ else _) = _ => destruct (Z.eqb_spec a 0); [lia|] end; lia. }
    rewrite Er. cbn [bind]. rewrite Hs', Ha in *. clear Hs' Er.
    set (q := 2 * B - W / d - 1).
    assert (Dq : 2 * B * d - W = q * d + (d - W mod d)) by (unfold q; clear - Wd; nia).
    assert (Hq : (2 * B * d - W) / d = q /\ (2 * B * d - W) mod d = d - W mod d).
    { assert (X : 0 <= d - W mod d < d) by (clear - Hm E0; lia). split; [symmetry; apply (Z.div_unique _ _ q (d - W mod d))|symmetry; apply (Z.mod_unique _ _ q)]; try (left; exact X); lia. }
    destruct Hq as [Hq1 Hq2]. rewrite Hq1 in Vr. rewrite Hq2.
    assert (Hq0 : 0 <= q) by (unfold q; clear - Hc; lia).
    rewrite Nwide in Nr. rewrite Hsz.
    destruct (Z.eq_dec q 0) as [Q0|Q0].
    + rewrite Rlt_bool_true by (rewrite <- (Rmult_1_l u); apply Comp; rewrite Q0 in Dq; lia).
      destruct (fma_tail_lost S (mkFloat (sig x) (exp x) (category x) s) z r (MIN_EXP S) (negb s) (d - W mod d) d m HS Cx Lr Nr) as [res [E C]]; try lia.
      replace (IZR (2 * B * d - W) * bpow r2 (e - 2 * PRECISION S) / u)%R with (IZR (d - W mod d) / IZR d)%R
        by (rewrite Dq, Q0, Z.mul_0_l, Z.add_0_l; rewrite <- Bd; field; split; lra).
      set (w := (IZR (d - W mod d) / IZR d * min_positive S)%R) in *.
      assert (Hw : (0 < w)%R).
      { unfold w. apply Rmult_lt_0_compat; [apply Rdiv_lt_0_compat; [apply IZR_lt; lia|exact HdR]|apply bpow_gt_0]. }
      assert (Nw : sgnr (negb s) w <> 0%R) by (clear - Hw; destruct s; cbn [sgnr negb]; lra).
      replace (if negb s then (- w)%R else w) with (sgnr (negb s) w) by (destruct s; reflexivity). split; [exact Nw|].
      exists res. split; [exact E|]. eapply cr_change_zs; [exact Nw|exact C].
    + rewrite Rlt_bool_false by (apply Rnot_lt_le; rewrite <- (Rmult_1_l u); rewrite Comp; clear - Dq Q0 Hq0 Hm; nia).
      destruct (fma_tail_spec S (mkFloat (sig x) (exp x) (category x) s) z r (MIN_EXP S) (negb s) (loss_of (d - W mod d) d) m
        (IZR (2 * B * d - W) * bpow r2 (e - 2 * PRECISION S)) HS Cx Lr Nr) as [res [R1 R2]].
      { lia. }
      { apply Rlt_le, Hgt0. lia. }
      { rewrite Vr. rewrite <- Hq1, <- Hq2. apply between_frac; [exact Hd|]. fold (fma_unit S). rewrite <- Bd. ring. }
      { intros _. right. split; [lia|]. rewrite Vr. lia. }
      pose proof (Hgt0 (2 * B * d - W) ltac:(lia)) as G. set (w := (IZR (2 * B * d - W) * bpow r2 (e - 2 * PRECISION S))%R) in *.
      assert (Nw : sgnr (negb s) w <> 0%R) by (clear - G; destruct s; cbn [sgnr negb]; lra).
      replace (if negb s then (- w)%R else w) with (sgnr (negb s) w) by (destruct s; reflexivity). split; [exact Nw|].
      exists res. split; [exact R1|]. eapply cr_change_zs; [exact Nw|exact R2].
  - (* the product is the larger one, and it was cut *)
    rewrite (Rlt_bool_false (IZR W * _) (IZR (2 * B) * u)) by (apply Rnot_lt_le; rewrite Comp; clear - Hc Hm Wd Hd; nia).
    rewrite Hsz. destruct (add_or_sub_over wide e s za (MIN_EXP S + 1) Lwide La) as [[E1 E2]|[r [Er [Lr [Nr Vr]]]]]; try lia.
    { rewrite Vwide. exact E0. }
    { rewrite Vwide, Va. exact Hc. }
    + rewrite Vwide, Va in E1. fold d in E1. rewrite E2. split; [intros _; reflexivity|]. intro Q. exfalso. apply Q. rewrite E1. reflexivity.
    + rewrite Er. cbn [bind]. clear Er. rewrite Vwide, Va in Vr. rewrite Vwide. fold d in Vr |- *. rewrite Nwide in Nr.
      replace (MIN_EXP S + 1 - 1) with (MIN_EXP S) by lia.
      set (q := W / d - 2 * B - 1) in *. pose proof (lval_nonneg r Lr) as Hq0. rewrite Vr in Hq0.
      split; [intro Q; exfalso; apply Rmult_eq_reg_r in Q; [apply eq_IZR in Q; lia|lra]|intros _ zs].
      replace (IZR (W / d) * u - (IZR W * bpow r2 (e - 2 * PRECISION S) - IZR (W / d) * u) - IZR (2 * B) * u)%R
        with (IZR (q * d + (d - W mod d)) * bpow r2 (e - 2 * PRECISION S))%R.
      2: { rewrite Lost. replace (q * d + (d - W mod d)) with ((W / d - 2 * B) * d - W mod d) by (unfold q; ring). rewrite minus_IZR, mult_IZR, minus_IZR, <- Bd. ring. }
      assert (Hw : 0 < q * d + (d - W mod d)) by (clear - Hq0 Hm Hd; nia).
      destruct (Z.eq_dec q 0) as [Q0|Q0].
      * rewrite Rlt_bool_true by (rewrite <- (Rmult_1_l u); apply Comp; rewrite Q0; lia).
        destruct (fma_tail_lost S (mkFloat (sig x) (exp x) (category x) s) z r (MIN_EXP S) s (d - W mod d) d m HS Cx Lr Nr) as [res [E C]]; try lia.
        replace (IZR (q * d + (d - W mod d)) * bpow r2 (e - 2 * PRECISION S) / u)%R with (IZR (d - W mod d) / IZR d)%R
          by (rewrite Q0, Z.mul_0_l, Z.add_0_l; rewrite <- Bd; field; split; lra).
        set (w := (IZR (d - W mod d) / IZR d * min_positive S)%R) in *.
        assert (Hw' : (0 < w)%R).
        { unfold w. apply Rmult_lt_0_compat; [apply Rdiv_lt_0_compat; [apply IZR_lt; lia|exact HdR]|apply bpow_gt_0]. }
        assert (Nw : sgnr s w <> 0%R) by (clear - Hw'; destruct s; cbn [sgnr]; lra).
        replace (if s then (- w)%R else w) with (sgnr s w) by (destruct s; reflexivity). split; [exact Nw|].
        exists res. split; [exact E|]. eapply cr_change_zs; [exact Nw|exact C].
      * rewrite Rlt_bool_false by (apply Rnot_lt_le; rewrite <- (Rmult_1_l u); rewrite Comp; clear - Q0 Hq0 Hm; nia).
        destruct (fma_tail_spec S (mkFloat (sig x) (exp x) (category x) s) z r (MIN_EXP S) s (loss_of (d - W mod d) d) m
          (IZR (q * d + (d - W mod d)) * bpow r2 (e - 2 * PRECISION S)) HS Cx Lr Nr) as [res [R1 R2]].
        { lia. }
        { apply Rlt_le, Hgt0. exact Hw. }
        { rewrite Vr. assert (HN : exists N, N = q * d + (d - W mod d)) by (eexists; reflexivity). destruct HN as [N HN]. rewrite <- HN.
          assert (HN1 : N / d = q) by (symmetry; apply (Z.div_unique _ _ q (d - W mod d)); [left; clear - Hm E0; lia|lia]).
          assert (HN2 : N mod d = d - W mod d) by (symmetry; apply (Z.mod_unique _ _ q); [left; clear - Hm E0; lia|lia]).
          rewrite <- HN1, <- HN2.
          apply between_frac; [exact Hd|]. fold (fma_unit S). rewrite <- Bd. ring. }
        { intros _. right. split; [lia|]. rewrite Vr. lia. }
        pose proof (Hgt0 _ Hw) as G. set (w := (IZR (q * d + (d - W mod d)) * bpow r2 (e - 2 * PRECISION S))%R) in *.
        assert (Nw : sgnr s w <> 0%R) by (clear - G; destruct s; cbn [sgnr]; lra).
        replace (if s then (- w)%R else w) with (sgnr s w) by (destruct s; reflexivity). split; [exact Nw|].
        exists res. split; [exact R1|]. eapply cr_change_zs; [exact Nw|exact R2].
Qed.

(** when it panics *)
Theorem mul_add_r_panics : forall x y z m, wf S x -> wf S y -> wf S z ->
  (mul_add_r S x y z m = Panic <->
   finite x /\ finite y /\ finite z /\ product_cut S x y z /\ cut_down S (Rabs (value S x * value S y)) = Rabs (value S z)).
Proof.
  intros x y z m Wx Wy Wz. split.
  - intro E. destruct (mul_add_r_outcome S x y z m HS Wx Wy Wz) as [[st [f [E' _]]]|[_ [Fx [Fy [Fz _]]]]]; [congruence|].
    split; [exact Fx|]. split; [exact Fy|]. split; [exact Fz|].
    assert (D : product_cut S x y z \/ ~ product_cut S x y z) by apply Classical_Prop.classic.
    destruct D as [D|D].
    + split; [exact D|]. destruct (Req_dec (cut_down S (Rabs (value S x * value S y))) (Rabs (value S z))) as [Q|Q]; [exact Q|exfalso].
      destruct (proj2 (mul_add_r_cut x y z m Wx Wy Wz Fx Fy Fz D) Q false) as [_ [res [E' _]]]. congruence.
    + exfalso. destruct (mul_add_r_uncut x y z m Wx Wy Wz Fx Fy Fz D) as [res [E' _]]. congruence.
  - intros [Fx [Fy [Fz [D Q]]]]. exact (proj1 (mul_add_r_cut x y z m Wx Wy Wz Fx Fy Fz D) Q).
Qed.
(** What it rounds is the exact result if the addend exceeds the product by at
    least the unit. *)
Lemma fma_seen_exact : forall x y z, wf S x -> wf S y -> wf S z -> finite x -> finite y -> finite z -> product_cut S x y z ->
  (Rabs (value S x * value S y) + u <= Rabs (value S z))%R ->
  fma_seen S x y z = (value S x * value S y + value S z)%R.
Proof.
  intros x y z Wx Wy Wz Fx Fy Fz [Es _] L. pose proof unit_pos as U. unfold fma_seen, fma_difference.
  rewrite Rlt_bool_true by lra. rewrite Rlt_bool_false by lra.
  pose proof (value_sign_nonneg S x Wx Fx) as Hx. pose proof (value_sign_nonneg S y Wy Fy) as Hy. pose proof (value_sign_nonneg S z Wz Fz) as Hz.
  destruct (sign z).
  - assert (0 <= value S x * value S y)%R by (destruct (sign x), (sign y); cbn in Es; try congruence; nra).
    rewrite (Rabs_left1 (value S z)), Rabs_pos_eq by assumption. ring.
  - assert (value S x * value S y <= 0)%R by (destruct (sign x), (sign y); cbn in Es; try congruence; nra).
    rewrite (Rabs_pos_eq (value S z)), Rabs_left1 by assumption. ring.
Qed.
Theorem mul_add_r_above : forall x y z m, wf S x -> wf S y -> wf S z -> finite x -> finite y -> finite z -> product_cut S x y z ->
  (Rabs (value S x * value S y) + u <= Rabs (value S z))%R ->
  exists res, mul_add_r S x y z m = Ret res /\ correctly_rounded S m (value S x * value S y + value S z) false res.
Proof.
  intros x y z m Wx Wy Wz Fx Fy Fz H L. pose proof unit_pos as U.
  assert (Q : cut_down S (Rabs (value S x * value S y)) <> Rabs (value S z)).
  { set (p := Rabs (value S x * value S y)) in *. pose proof (Zfloor_lb (p / u)) as F.
    assert (cut_down S p <= p)%R.
    { unfold cut_down. apply Rle_trans with (p / u * u)%R; [apply Rmult_le_compat_r; lra|]. apply Req_le. field. lra. }
    lra. }
  destruct (proj2 (mul_add_r_cut x y z m Wx Wy Wz Fx Fy Fz H) Q false) as [_ [res [E C]]]. rewrite (fma_seen_exact x y z) in C by assumption.
  exists res. split; [exact E|]. apply crate_rounded_correct; [|exact C]. apply side_small; [exact HS|].
  destruct H as [_ [_ [Lz [Lp _]]]]. pose proof (min_normal_le_max S HS) as M.
  pose proof (Rabs_triang (value S x * value S y) (value S z)) as T.
  assert (D : (Rabs (value S x * value S y + value S z) < bpow r2 (MIN_EXP S + 1))%R).
  { rewrite bpow_plus. change (bpow r2 1) with 2%R. fold (min_normal S). lra. }
  pose proof (p_pow S HS) as [P1 [P2 P3]]. pose proof HS as [Hp Hmin Hmax _]. apply Rle_trans with (bpow r2 (MIN_EXP S + 1)); [lra|].
  eapply Rle_trans; [|apply (finite_le_max S (2 ^ (PRECISION S - 1)) (MIN_EXP S + 1) HS)].
  - rewrite IZR_pow2_bpow by lia. apply bpow_le. lia.
  - repeat split; lia.
Qed.
End Exact.
