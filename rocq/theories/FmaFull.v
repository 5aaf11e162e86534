(** * FmaFull.v -- the fused multiply-add on all finite operands

    Where the addend is subnormal and cancels a product that does not fit
    ([fma_safe] fails) the code returns the rounding of a neighbouring number or
    panics. *)
From Coq Require Import ZArith Reals List Bool Lia Lra ZifyBool.
From Flocq Require Import Core Bracket.
From Verif Require Import Machine Sig SpecSig Limbs SigProofs SigProofs2 SigProofs3 SigProofs4 SigProofs5 Ieee Spec Norm Arith Special Order Bits Int Scale Next Convert Rem SpecFma Fma Algebra Integral Total.
Import ListNotations.
Local Open Scope Z_scope.
Ltac Zify.zify_post_hook ::= idtac.

(** ** The difference, when the truncated number is the larger one *)
Lemma sub_core_eq : forall a b s loss, limbs a -> limbs b -> length a = length b -> lval a = lval b -> loss <> ExactlyZero ->
  sub_core a b s loss = Panic.
Proof.
  intros a b s loss Ha Hb Hl E L. unfold sub_core. rewrite cmp_spec by assumption. cbn [bind]. rewrite E, Z.compare_refl.
  assert (b2z (negb (loss_eqb loss ExactlyZero)) = 1) as -> by (destruct loss; try contradiction; reflexivity).
  destruct (sub_spec a b 1 Ha Hb Hl ltac:(lia)) as [r [c [Er [Lr [Nr [Hc V]]]]]]. rewrite Er. cbn [bind].
  pose proof (lval_nonneg r Lr). destruct (Z.eqb_spec c 0) as [E0|E0]; [|reflexivity].
  exfalso. rewrite E0 in V. lia.
Qed.
Lemma add_or_sub_over : forall a ea sa b eb, limbs a -> limbs b -> length a = length b ->
  2 * lval b < 2 ^ nbits a -> - 2 ^ 30 <= ea <= 2 ^ 30 - 1 -> - 2 ^ 30 <= eb <= 2 ^ 30 - 1 -> ea < eb ->
  let d := 2 ^ (eb - ea - 1) in lval a mod d <> 0 -> 2 * lval b <= lval a / d ->
  (lval a / d = 2 * lval b /\ add_or_sub a ea sa b eb (negb sa) = Panic) \/
  exists r, add_or_sub a ea sa b eb (negb sa) = Ret (r, eb - 1, sa, loss_of (d - lval a mod d) d) /\
    limbs r /\ length r = length a /\ lval r = lval a / d - 2 * lval b - 1.
Proof.
  intros a ea sa b eb Ha Hb Hl Hfb Hea Heb Hlt d Hm Hge. unfold add_or_sub.
  assert (nbits b = nbits a) as Hnb by (unfold nbits, nlimbs; rewrite Hl; reflexivity).
  rewrite chk32_ret by lia. cbn [bind]. assert (xorb sa (negb sa) = true) as -> by (destruct sa; reflexivity).
  destruct (Z.eqb_spec (ea - eb) 0) as [X|_]; [lia|]. destruct (Z.ltb_spec 0 (ea - eb)) as [X|_]; [lia|].
  rewrite chk32_ret by lia. cbn [bind].
  destruct (shift_right_spec a ea (- (ea - eb) - 1) Ha ltac:(lia) ltac:(lia)) as [a' [Ea [Ha' [Hla Hva]]]].
  rewrite Ea. cbn [bind].
  destruct (shift_left_exact b 0 1 Hb ltac:(lia) ltac:(lia) ltac:(rewrite Hnb; change (2 ^ 1) with 2; lia)) as [b' [Eb [Hb' [Hlb Hvb]]]].
  rewrite Eb. cbn [bind]. change (2 ^ 1) with 2 in Hvb.
  replace (- (ea - eb) - 1) with (eb - ea - 1) in * by lia. fold d in Hva |- *.
  assert (0 < d) as Hd0 by (apply pow2_gt0; lia). pose proof (Z.mod_pos_bound (lval a) d Hd0) as Hmb.
  set (loss := loss_of (lval a mod d) d) in *.
  assert (Hloss : loss <> ExactlyZero).
  { intro X. pose proof (loss_of_nonzero (lval a mod d) d Hm) as Y. fold loss in Y. rewrite X in Y. discriminate. }
  match goal with |- _ \/ exists r, ?X = _ /\ _ => replace X with
    (let! '(a_sig, a_sign) := sub_core a' b' sa loss in Ret (a_sig, ea + (eb - ea - 1), a_sign, flip_loss loss))
      by (unfold sub_core; rewrite cmp_spec by (assumption || lia); reflexivity) end.
  replace (ea + (eb - ea - 1)) with (eb - 1) by lia.
  destruct (Z.eq_dec (lval a / d) (2 * lval b)) as [E|E].
  - left. split; [exact E|]. rewrite sub_core_eq; [reflexivity|assumption|assumption|lia|lia|assumption].
  - right. destruct (sub_core_gt a' b' sa loss Ha' Hb' ltac:(lia) ltac:(lia)) as [r [Er [Lr [Nr Vr]]]].
    rewrite Er. cbn [bind]. exists r. split; [unfold loss; rewrite flip_loss_of by lia; reflexivity|].
    split; [exact Lr|]. split; [lia|]. rewrite Vr, Hva, Hvb.
    assert (b2z (negb (loss_eqb loss ExactlyZero)) = 1) as -> by (destruct loss; try contradiction; reflexivity). lia.
Qed.

(** ** A sum that vanishes but for the bits that were cut off

    The code rounds it as if these were the bits below the smallest number. *)
Definition loss_point (l : Loss) : R := match l with ExactlyZero => 0 | LessThanHalf => / 4 | ExactlyHalf => / 2 | MoreThanHalf => 3 * / 4 end.
Lemma between_zero : forall e l, between 0 e (loss_point l * bpow r2 e) l.
Proof.
  intros e l. unfold between, inbetween_float. cbn [Z.add]. pose proof (bpow_gt_0 r2 e) as B.
  assert (F2R (Defs.Float r2 0 e) = 0%R) as -> by apply F2R_0.
  assert (F2R (Defs.Float r2 1 e) = bpow r2 e) as -> by (unfold F2R; cbn [Fnum Fexp]; apply Rmult_1_l).
  destruct l; cbn [loc_of loss_point]; constructor; try (apply Rcompare_Lt; lra); try (apply Rcompare_Eq; lra); try (apply Rcompare_Gt; lra); try lra.
Qed.

Lemma no_nan_pattern : forall S e s, sem_ok S -> hits_nan_pattern S (mkFloat 0 e Normal s) = false.
Proof.
  intros S e s HS. destruct (p_pow S HS) as [P1 [P2 P3]]. destruct HS as [Hp Hmin Hmax Hnf].
  unfold hits_nan_pattern. cbn [sig exp]. destruct (NONFINITE_BEHAVIOR S); cbn [nonfinite_eqb andb]; [reflexivity|].
  rewrite Z.land_0_l. unfold NAN, qnan. cbn [sig exp]. destruct Hnf as [-> [_ [-> _]]]. rewrite ?Z.lor_0_r.
  destruct (e =? _); cbn [andb]; [|reflexivity]. apply Z.eqb_neq. lia.
Qed.
Lemma normalize_zero : forall S e s m l, sem_ok S -> l <> ExactlyZero ->
  normalize S (mkFloat 0 e Normal s) m l = normalize S (mkFloat 0 (MIN_EXP S) Normal s) m l.
Proof.
  intros S e s m l HS Hl. unfold normalize. change (negb (is_finite_non_zero (mkFloat 0 e Normal s))) with false.
  change (negb (is_finite_non_zero (mkFloat 0 (MIN_EXP S) Normal s))) with false. cbv iota. cbn [sig].
  change (0 <? Sig.omsb [0]) with false. cbv iota. unfold normalize_tail. rewrite !no_nan_pattern by exact HS.
  pose proof (ok_prec S HS) as Hp. change (Sig.omsb [0]) with 0. rewrite (proj2 (Z.eqb_neq 0 (PRECISION S))) by lia.
  destruct l; [contradiction| | |]; reflexivity.
Qed.
Lemma fma_tail_zero : forall S x addend wide e s loss m, sem_ok S -> category x = Normal -> limbs wide -> length wide = 2%nat ->
  - 2 ^ 28 <= e <= 2 ^ 28 -> lval wide = 0 -> loss <> ExactlyZero ->
  exists f, fma_tail S x addend wide e s loss (Sig.omsb wide) m = Ret (Z.lor UNDERFLOW INEXACT, f) /\
    wf S f /\ finite f /\ sign f = s /\ (Rabs (value S f) <= min_positive S)%R.
Proof.
  intros S x addend wide e s loss m HS Cx Lw Nw He Vw Hl. pose proof HS as [Hp Hmin Hmax _]. unfold fma_tail.
  rewrite chk32_ret by lia. cbn [bind]. rewrite (omsb_spec _ Lw), Vw. change (bitlen 0) with 0.
  destruct (Z.ltb_spec (PRECISION S) 0) as [X|_]; [lia|]. cbn [bind].
  destruct (limbs2 wide Nw) as [a [b ->]].
  assert (a = 0) as -> by (cbn [lval] in Vw; inversion Lw as [|? ? L0 Lw2]; subst; inversion Lw2 as [|? ? L1 _]; subst; unfold limb in *; lia).
  change (get [0; b] 0) with (Ret 0). cbn [bind]. rewrite with_sign_eq. unfold set_sig_exp. cbn [category sign]. rewrite Cx. rewrite normalize_zero by assumption.
  set (v := (loss_point loss * bpow r2 (MIN_EXP S - (PRECISION S - 1)))%R).
  pose proof (bpow_gt_0 r2 (MIN_EXP S - (PRECISION S - 1))) as Bp.
  assert (Hv : (0 < v < min_positive S)%R).
  { unfold v, min_positive. set (b0 := bpow _ _) in *. clearbody b0. clear - Hl Bp. destruct loss; cbn [loss_point]; try contradiction; lra. }
  destruct (normalize_spec S (mkFloat 0 (MIN_EXP S) Normal s) m loss v HS eq_refl) as [[st f] [N1 N2]]; cbn [sig exp sign].
  { unfold limb. lia. }
  { lia. }
  { lra. }
  { apply between_zero. }
  { right. left. lia. }
  { reflexivity. }
  cbn [sign] in N2. rewrite N1. cbn [bind].
  assert ((if negb (loss_eqb loss ExactlyZero) then Z.lor st INEXACT else st) = st) as ->.
  { destruct (loss_eqb loss ExactlyZero) eqn:El; [reflexivity|]. cbn [negb]. eapply normalize_lossy; [exact N1|reflexivity|exact Hl]. }
  destruct N2 as [Wf [[G1 [G2 _]] [A _]]].
  assert (Fp : rounded S m (min_positive S) = min_positive S /\ rounded S m (- min_positive S) = (- min_positive S)%R).
  { assert (X : generic_format r2 (fexp S) (min_positive S)).
    { unfold min_positive, fexp. apply generic_format_bpow. unfold FLT_exp. lia. }
    split; apply rounded_format; [exact X|apply generic_format_opp; exact X]. }
  assert (Hr : (Rabs (rounded S m (sgnr s v)) <= min_positive S)%R).
  { apply Rabs_le. rewrite <- (proj1 Fp) at 2. rewrite <- (proj2 Fp). split; apply rounded_mono; try exact HS; destruct s; cbn [sgnr]; lra. }
  destruct A as [Fi [Va [_ [_ U]]]].
  { apply Rle_trans with (1 := Hr). apply Rle_trans with (2 := min_normal_le_max S HS). unfold min_positive, min_normal. apply bpow_le. lia. }
  assert (st = Z.lor UNDERFLOW INEXACT) as ->.
  { apply U.
    - rewrite <- Va. intro X. pose proof (value_format S f HS Wf) as Gf. rewrite X in Gf.
      assert (Gv : generic_format r2 (fexp S) v) by (destruct s; cbn [sgnr] in Gf; [rewrite <- (Ropp_involutive v); apply generic_format_opp; exact Gf|exact Gf]).
      pose proof (gap_above_zero S v HS Gv (proj1 Hv)). lra.
    - apply Rle_lt_trans with (1 := Hr). unfold min_positive, min_normal. apply bpow_lt. lia. }
  exists f. change (Z.land (Z.lor UNDERFLOW INEXACT) UNDERFLOW =? 0) with false. rewrite andb_false_r. split; [reflexivity|].
  split; [exact Wf|]. split; [exact Fi|]. rewrite Va. split; [|exact Hr]. destruct s; cbn [sgnr] in G1, G2; [apply G1|apply G2]; lra.
Qed.

(** ** All finite operands *)
(** the result of [mul_add_r] for the exact result [v]: the correct one of a
    number [w] very close to [v]; or [v] is very close to zero, and the result is
    zero or the smallest number; or there is none *)
Definition fma_result (S : Semantics) (m : Round) (v : R) (zs : bool) (o : outcome (Z * Float)) : Prop :=
  (exists w res, o = Ret res /\ (Rabs (w - v) < 2 * fma_unit S)%R /\ crate_rounded S m w zs res) \/
  (exists f, o = Ret (Z.lor UNDERFLOW INEXACT, f) /\ (0 < Rabs v < 2 * fma_unit S)%R /\
     wf S f /\ finite f /\ (sign f = true <-> (v < 0)%R) /\ (Rabs (value S f) <= min_positive S)%R) \/
  (o = Panic /\ (0 < Rabs v < fma_unit S)%R).

Lemma fma_unsafe : forall S x y z m, sem_ok S -> wf S x -> wf S y -> wf S z ->
  category x = Normal -> category y = Normal -> category z = Normal ->
  fma_safe S x y z \/
  fma_result S m (value S x * value S y + value S z) (fma_zero_sign (xorb (sign x) (sign y)) z m) (mul_add_r S x y z m).
Proof.
  intros S x y z m HS Wx Wy Wz Cx Cy Cz.
  destruct (p_pow S HS) as [P1 [P2 P3]]. pose proof HS as [Hp Hmin Hmax _].
  destruct (mul_add_wide S x y z m HS Wx Wy Wz Cx Cy Cz) as [wide [e [za [-> [Lwide [Nwide [La [Na [HW [Va [He [Vxy Vz]]]]]]]]]]]].
  set (s := xorb (sign x) (sign y)) in *. set (B := sig z * 2 ^ PRECISION S) in *.
  assert (Vwide : exists W, lval wide = W) by (eexists; reflexivity). destruct Vwide as [W Vwide]. rewrite Vwide in HW, Vxy. rewrite Va in Vz.
  pose proof (wf_normal_canonical S z Wz Cz) as Kz. pose proof (canonical_i32 _ _ _ HS Kz) as Iz. pose proof Kz as [Z1 [Z2 [Z3 Z4]]].
  assert (PP : 2 ^ (2 * PRECISION S) = 2 ^ PRECISION S * 2 ^ PRECISION S) by (rewrite <- Z.pow_add_r by lia; f_equal; lia).
  assert (HB : 2 ^ PRECISION S <= B < 2 ^ (2 * PRECISION S)) by (rewrite PP; unfold B; clear - Z1 P1 P2; nia).
  assert (P2p : 2 ^ (2 * PRECISION S) = 2 * 2 ^ (2 * PRECISION S - 1)) by (rewrite <- Z.pow_succ_r by lia; f_equal; lia).
  assert (HP0 : 0 < 2 ^ (2 * PRECISION S - 1)) by (apply pow2_gt0; lia).
  assert (Hpos : (0 <= IZR W * bpow r2 (e - 2 * PRECISION S))%R) by (apply Rmult_le_pos; [apply IZR_le; lia|apply bpow_ge_0]).
  destruct (Bool.bool_dec s (sign z)) as [Es|Es]; [left; left; exact Es|].
  destruct (Z_le_gt_dec (2 ^ (PRECISION S - 1)) (sig z)) as [Hn|Hsub].
  { left. right. right. left. rewrite (value_normal S z Cz), sgnr_abs by (apply Rmult_le_pos; [apply IZR_le; lia|apply bpow_ge_0]).
    apply (canonical_full S (sig z) (exp z) HS Kz). exact Hn. }
  assert (Ez : exp z = MIN_EXP S) by lia. rewrite Ez in *.
  destruct (Z_le_gt_dec (MIN_EXP S + 1) e) as [Hge|Hlt].
  { left. right. right. right. left. rewrite Vxy, sgnr_abs by exact Hpos. unfold min_normal.
    apply Rle_trans with (bpow r2 (2 * PRECISION S - 1) * bpow r2 (e - 2 * PRECISION S))%R.
    - rewrite <- bpow_plus. apply bpow_le. lia.
    - apply Rmult_le_compat_r; [apply bpow_ge_0|]. rewrite <- IZR_pow2 by lia. apply IZR_le. lia. }
  set (d := 2 ^ (MIN_EXP S + 1 - e - 1)). assert (Hd : 0 < d) by (apply pow2_gt0; lia).
  assert (Bd : (IZR d * bpow r2 (e - 2 * PRECISION S) = fma_unit S)%R).
  { unfold d, fma_unit. rewrite IZR_pow2_bpow by lia. f_equal. lia. }
  destruct (Z.eq_dec (W mod d) 0) as [E0|E0].
  { left. right. right. right. right. right. rewrite Vxy. exists (if s then - (W / d) else W / d).
    pose proof (Z.div_mod W d ltac:(lia)) as X. rewrite E0, Z.add_0_r in X. fold (fma_unit S). rewrite <- Bd.
    rewrite X at 1. rewrite mult_IZR. destruct s; cbn [sgnr]; rewrite ?opp_IZR; ring. }
  right. pose proof (Z.mod_pos_bound W d Hd) as Hm. pose proof (Z.div_mod W d ltac:(lia)) as Wd.
  assert (Hbits : 2 * lval wide < 2 ^ nbits wide /\ 2 * lval za < 2 ^ nbits wide).
  { unfold nbits, nlimbs. rewrite Nwide, Vwide, Va. change (128 * Z.of_nat 2) with 256.
    assert (2 ^ (2 * PRECISION S) <= 2 ^ 252) by (apply Z.pow_le_mono_r; lia). lia. }
  assert (Hsz : sign z = negb s) by (destruct s, (sign z); cbn in *; congruence).
  (* the exact result *)
  set (v := (value S x * value S y + value S z)%R).
  assert (Hv : v = sgnr s (IZR (W - 2 * B * d) * bpow r2 (e - 2 * PRECISION S))).
  { unfold v. rewrite Vxy, Vz, Hsz. replace (MIN_EXP S + 1 - 2 * PRECISION S) with (1 + (MIN_EXP S + 1 - e - 1) + (e - 2 * PRECISION S)) by lia.
    rewrite (bpow_plus r2 (1 + _)), (bpow_plus r2 1), <- (IZR_pow2 (MIN_EXP S + 1 - e - 1)) by lia. fold d. change (bpow r2 1) with 2%R.
    rewrite minus_IZR, !mult_IZR. destruct s; cbn [sgnr negb]; ring. }
  unfold fma_result. set (u := fma_unit S) in *. assert (Hu : (0 < u)%R) by apply bpow_gt_0. assert (HbP : (0 < bpow r2 (e - 2 * PRECISION S))%R) by apply bpow_gt_0.
  assert (HdR : (0 < IZR d)%R) by (apply IZR_lt; exact Hd).
  assert (Hfrac : forall n, (IZR n * bpow r2 (e - 2 * PRECISION S) = IZR n / IZR d * u)%R).
  { intro n. rewrite <- Bd. field. lra. }
  assert (Hlt' : forall n k, n < k * d -> (IZR n * bpow r2 (e - 2 * PRECISION S) < IZR k * u)%R).
  { intros n k H. rewrite <- Bd, <- Rmult_assoc, <- mult_IZR. apply Rmult_lt_compat_r; [exact HbP|apply IZR_lt; exact H]. }
  assert (Hgt0 : forall n, 0 < n -> (0 < IZR n * bpow r2 (e - 2 * PRECISION S))%R).
  { intros n H. apply Rmult_lt_0_compat; [apply IZR_lt; exact H|exact HbP]. }
  assert (Hloss : forall f, 0 < f -> loss_of f d <> ExactlyZero).
  { intros f Hf X. pose proof (loss_of_nonzero f d ltac:(lia)) as Y. rewrite X in Y. discriminate. }
  destruct (Z_lt_le_dec (W / d) (2 * B)) as [Hc|Hc].
  - (* the addend is the larger one *)
    destruct (add_or_sub_spec wide e s za (MIN_EXP S + 1) (sign z) Lwide La) as [r [Er [Lr [Nr Vr]]]]; try lia.
    { rewrite Vwide. intros _ _. right. rewrite Va. exact Hc. }
    rewrite Vwide, Va in Er, Vr. rewrite Z.min_l, Z.max_r in Er, Vr by lia.
    assert (xorb s (sign z) && negb (e =? MIN_EXP S + 1) = true) as Hx.
    { rewrite Hsz. destruct (Z.eqb_spec e (MIN_EXP S + 1)); [lia|]. destruct s; reflexivity. }
    rewrite Hx in Er, Vr. replace (2 ^ (MIN_EXP S + 1 - 1 - e)) with d in Er, Vr by (unfold d; f_equal; lia).
    replace (MIN_EXP S + 1 - 1) with (MIN_EXP S) in Er by lia.
    replace (2 ^ (MIN_EXP S + 1 - e)) with (2 * d) in Er, Vr by (unfold d; rewrite <- Z.pow_succ_r by lia; f_equal; lia).
    rewrite Z.sub_diag, Z.mul_1_r in Er, Vr.
    set (t := sgn s * W + sgn (sign z) * B * (2 * d)) in *.
    assert (Ht : t = sgn s * (W - 2 * B * d)) by (unfold t; rewrite Hsz; destruct s; cbn [sgn negb]; ring).
    assert (Hneg : W - 2 * B * d < 0) by (clear - Hc Hm Wd Hd; nia).
    assert (Ha : Z.abs t = 2 * B * d - W) by (rewrite Ht; clear - Hneg; destruct s; cbn [sgn]; lia).
    assert (Hs' : (if t =? 0 then s else t <? 0) = negb s).
    { rewrite Ht. clear - Hneg. destruct s; cbn [sgn negb]; match goal with |- (if ?a =? 0 then _ else _) = _ => destruct (Z.eqb_spec a 0); [lia|] end; lia. }
    rewrite Er. cbn [bind]. rewrite Hs', Ha in *. clear Hs' Er.
    set (q := 2 * B - W / d - 1).
    assert (Dq : 2 * B * d - W = q * d + (d - W mod d)) by (unfold q; clear - Wd; nia).
    assert (Hq : (2 * B * d - W) / d = q /\ (2 * B * d - W) mod d = d - W mod d).
    { assert (X : 0 <= d - W mod d < d) by (clear - Hm E0; lia). split; [symmetry; apply (Z.div_unique _ _ q (d - W mod d))|symmetry; apply (Z.mod_unique _ _ q)]; try (left; exact X); lia. }
    destruct Hq as [Hq1 Hq2]. rewrite Hq1 in Vr. rewrite Hq2. clear Hq1 Hq2.
    assert (Hq0 : 0 <= q) by (unfold q; clear - Hc; lia).
    assert (Vs : v = sgnr (negb s) (IZR (2 * B * d - W) * bpow r2 (e - 2 * PRECISION S))).
    { rewrite Hv. replace (W - 2 * B * d) with (- (2 * B * d - W)) by ring. rewrite opp_IZR. destruct s; cbn [sgnr negb]; ring. }
    rewrite Nwide in Nr.
    destruct (Z.eq_dec q 0) as [Q0|Q0].
    + right. left.
      destruct (fma_tail_zero S (mkFloat (sig x) (exp x) (category x) s) z r (MIN_EXP S) (negb s) (loss_of (d - W mod d) d) m HS Cx Lr Nr) as [f [E [Wf [Ff [Sf Vf]]]]]; try lia.
      { apply Hloss. lia. }
      exists f. split; [exact E|]. rewrite Q0 in Dq.
      pose proof (Hgt0 (2 * B * d - W) ltac:(lia)) as G. pose proof (Hlt' (2 * B * d - W) 1 ltac:(lia)) as L.
      split; [rewrite Vs, sgnr_abs by (apply Rlt_le; exact G); split; [exact G|apply Rlt_le_trans with (1 := Rlt_le_trans _ _ _ L (Req_le _ _ (Rmult_1_l u))); clear - Hu; lra]|]. split; [exact Wf|]. split; [exact Ff|]. split; [|exact Vf].
      rewrite Sf, Vs. clear - G. destruct s; cbn [negb sgnr]; split; intro; try discriminate; try reflexivity; lra.
    + left. exists v.
      destruct (fma_tail_spec S (mkFloat (sig x) (exp x) (category x) s) z r (MIN_EXP S) (negb s) (loss_of (d - W mod d) d) m
        (IZR (2 * B * d - W) * bpow r2 (e - 2 * PRECISION S)) HS Cx Lr Nr) as [res [R1 R2]].
      { lia. }
      { apply Rlt_le, Hgt0. lia. }
      { rewrite Vr. replace q with ((2 * B * d - W) / d) by (symmetry; apply (Z.div_unique _ _ q (d - W mod d)); [left; clear - Hm E0; lia|lia]).
        replace (d - W mod d) with ((2 * B * d - W) mod d) by (symmetry; apply (Z.mod_unique _ _ q); [left; clear - Hm E0; lia|lia]).
        apply between_frac; [exact Hd|]. fold (fma_unit S). fold u. rewrite <- Bd. ring. }
      { intros _. right. split; [lia|]. rewrite Vr. lia. }
      exists res. split; [exact R1|]. split; [unfold Rminus; rewrite Rplus_opp_r, Rabs_R0; lra|].
      rewrite <- Vs in R2. eapply cr_change_zs; [|exact R2]. rewrite Vs. pose proof (Hgt0 (2 * B * d - W) ltac:(lia)). destruct s; cbn [sgnr negb]; lra.
  - (* the product is the larger one, and it was cut *)
    rewrite Hsz. destruct (add_or_sub_over wide e s za (MIN_EXP S + 1) Lwide La) as [[E1 E2]|[r [Er [Lr [Nr Vr]]]]]; try lia.
    { rewrite Vwide. exact E0. }
    { rewrite Vwide, Va. exact Hc. }
    + right. right. rewrite E2. split; [reflexivity|]. rewrite Vwide, Va in E1. fold d in E1.
      assert (D : W - 2 * B * d = W mod d) by (rewrite <- E1; clear - Wd; lia).
      rewrite Hv, D, sgnr_abs by (apply Rlt_le, Hgt0; lia). pose proof (Hlt' (W mod d) 1 ltac:(lia)) as L. rewrite Rmult_1_l in L. split; [apply Hgt0; lia|exact L].
    + rewrite Er. cbn [bind]. clear Er. rewrite Vwide, Va in Vr. rewrite Vwide. fold d in Vr |- *. rewrite Nwide in Nr.
      replace (MIN_EXP S + 1 - 1) with (MIN_EXP S) by lia.
      set (q := W / d - 2 * B - 1) in *. pose proof (lval_nonneg r Lr) as Hq0. rewrite Vr in Hq0.
      assert (Dq : W - 2 * B * d = (q + 1) * d + W mod d) by (unfold q; clear - Wd; nia).
      assert (Hpv : (0 < IZR (W - 2 * B * d) * bpow r2 (e - 2 * PRECISION S))%R) by (apply Hgt0; clear - Dq Hq0 Hm Hd; nia).
      destruct (Z.eq_dec q 0) as [Q0|Q0].
      * right. left.
        destruct (fma_tail_zero S (mkFloat (sig x) (exp x) (category x) s) z r (MIN_EXP S) s (loss_of (d - W mod d) d) m HS Cx Lr Nr) as [f [E [Wf [Ff [Sf Vf]]]]]; try lia.
        { apply Hloss. lia. }
        exists f. split; [exact E|]. rewrite Q0 in Dq.
        pose proof (Hlt' (W - 2 * B * d) 2 ltac:(lia)) as L.
        split; [rewrite Hv, sgnr_abs by (apply Rlt_le; exact Hpv); split; [exact Hpv|exact L]|]. split; [exact Wf|]. split; [exact Ff|]. split; [|exact Vf].
        rewrite Sf, Hv. clear - Hpv. destruct s; cbn [sgnr]; split; intro; try discriminate; try reflexivity; lra.
      * left.
        assert (Hw : 0 < q * d + (d - W mod d)) by (clear - Hq0 Hm Hd Q0; nia).
        exists (sgnr s (IZR (q * d + (d - W mod d)) * bpow r2 (e - 2 * PRECISION S))).
        destruct (fma_tail_spec S (mkFloat (sig x) (exp x) (category x) s) z r (MIN_EXP S) s (loss_of (d - W mod d) d) m
          (IZR (q * d + (d - W mod d)) * bpow r2 (e - 2 * PRECISION S)) HS Cx Lr Nr) as [res [R1 R2]].
        { lia. }
        { apply Rlt_le, Hgt0. exact Hw. }
        { rewrite Vr. assert (HN : exists N, N = q * d + (d - W mod d)) by (eexists; reflexivity). destruct HN as [N HN]. rewrite <- HN.
          assert (HN1 : N / d = q) by (symmetry; apply (Z.div_unique _ _ q (d - W mod d)); [left; clear - Hm E0; lia|lia]).
          assert (HN2 : N mod d = d - W mod d) by (symmetry; apply (Z.mod_unique _ _ q); [left; clear - Hm E0; lia|lia]).
          rewrite <- HN1, <- HN2.
          apply between_frac; [exact Hd|]. fold (fma_unit S). fold u. rewrite <- Bd. ring. }
        { intros _. right. split; [lia|]. rewrite Vr. lia. }
        exists res. split; [exact R1|]. split.
        { rewrite Hv. replace (W - 2 * B * d) with (q * d + (d - W mod d) + 2 * (W mod d)) by (rewrite Dq; ring).
          rewrite (plus_IZR (q * d + (d - W mod d))), mult_IZR, Rmult_plus_distr_r. set (a := (IZR (q * d + (d - W mod d)) * _)%R).
          pose proof (Hgt0 (W mod d) ltac:(lia)) as G. pose proof (Hlt' (W mod d) 1 ltac:(lia)) as L.
          rewrite Rmult_assoc. set (b := (IZR (W mod d) * _)%R) in *. clearbody a b. clear - G L Hu.
          destruct s; cbn [sgnr]; apply Rabs_lt; lra. }
        eapply cr_change_zs; [|exact R2]. pose proof (Hgt0 _ Hw). destruct s; cbn [sgnr]; lra.
Qed.

Theorem mul_add_r_any : forall S x y z m, sem_ok S -> wf S x -> wf S y -> wf S z -> finite x -> finite y -> finite z ->
  fma_result S m (value S x * value S y + value S z) (fma_zero_sign (xorb (sign x) (sign y)) z m) (mul_add_r S x y z m).
Proof.
  intros S x y z m HS Wx Wy Wz Fx Fy Fz.
  assert (Safe : fma_safe S x y z -> fma_result S m (value S x * value S y + value S z) (fma_zero_sign (xorb (sign x) (sign y)) z m) (mul_add_r S x y z m)).
  { intro H. left. destruct (mul_add_r_crate S x y z m HS Wx Wy Wz Fx Fy Fz H) as [res [E C]].
    exists (value S x * value S y + value S z)%R, res. split; [exact E|]. split; [|exact C].
    unfold Rminus. rewrite Rplus_opp_r, Rabs_R0. apply Rmult_lt_0_compat; [lra|apply bpow_gt_0]. }
  assert (Zero0 : (value S x * value S y = 0)%R -> fma_safe S x y z).
  { intro H. right. right. right. right. right. exists 0. rewrite H. symmetry. apply Rmult_0_l. }
  destruct Fx as [Cx|Cx]; [|apply Safe, Zero0; rewrite (value_zero S x Cx); apply Rmult_0_l].
  destruct Fy as [Cy|Cy]; [|apply Safe, Zero0; rewrite (value_zero S y Cy); apply Rmult_0_r].
  destruct Fz as [Cz|Cz]; [|apply Safe; right; left; exact Cz].
  destruct (fma_unsafe S x y z m HS Wx Wy Wz Cx Cy Cz) as [H|H]; [exact (Safe H)|exact H].
Qed.
(** with any operands it returns a well-formed number, or these are finite and
    their exact result is very close to zero *)
Theorem mul_add_r_outcome : forall S x y z m, sem_ok S -> wf S x -> wf S y -> wf S z ->
  (exists st f, mul_add_r S x y z m = Ret (st, f) /\ wf S f) \/
  (mul_add_r S x y z m = Panic /\ finite x /\ finite y /\ finite z /\
   (0 < Rabs (value S x * value S y + value S z) < fma_unit S)%R).
Proof.
  intros S x y z m HS Wx Wy Wz.
  assert (D : (finite x /\ finite y /\ finite z) \/ ~ (finite x /\ finite y /\ finite z)).
  { unfold finite. destruct (category x), (category y), (category z); try (left; tauto); right; intuition discriminate. }
  destruct D as [[Fx [Fy Fz]]|D].
  - destruct (mul_add_r_any S x y z m HS Wx Wy Wz Fx Fy Fz) as [[w [[st f] [E [_ C]]]]|[[f [E [_ [Wf _]]]]|[E H]]].
    + left. exists st, f. split; [exact E|exact (proj1 C)].
    + left. eexists _, f. split; [exact E|exact Wf].
    + right. tauto.
  - left. destruct (mul_add_r_total S x y z m HS Wx Wy Wz) as [st [f [E W]]]; [tauto|]. eauto.
Qed.
