(** * Integral.v -- rounding to an integral value *)
From Coq Require Import ZArith Reals List Bool Lia Lra ZifyBool.
From Flocq Require Import Core.
From Verif Require Import Machine Sig SpecSig Limbs SigProofs SigProofs2 SigProofs3 SigProofs4 SigProofs5 Ieee Spec Norm Arith Special Order Bits Int Scale Next Convert.
Import ListNotations.
Local Open Scope Z_scope.

Ltac Zify.zify_post_hook ::= idtac.

Lemma Zfloor_shift : forall x M, Zfloor (x + IZR M) = Zfloor x + M.
Proof.
  intros x M. apply Zfloor_imp. rewrite <- Z.add_assoc, (Z.add_comm M 1), Z.add_assoc, (plus_IZR (Zfloor x)), (plus_IZR (Zfloor x + 1)), (plus_IZR (Zfloor x) 1).
  pose proof (Zfloor_lb x). pose proof (Zfloor_ub x). lra.
Qed.
Lemma Zceil_shift : forall x M, Zceil (x + IZR M) = Zceil x + M.
Proof.
  intros x M. unfold Zceil. replace (- (x + IZR M))%R with (- x + IZR (- M))%R by (rewrite opp_IZR; ring).
  rewrite Zfloor_shift. lia.
Qed.
Lemma Znearest_shift : forall c x M,
  ((x - IZR (Zfloor x) = / 2)%R -> c (Zfloor x + M) = c (Zfloor x)) ->
  Znearest c (x + IZR M) = Znearest c x + M.
Proof.
  intros c x M H. unfold Znearest. rewrite Zfloor_shift, Zceil_shift.
  replace (x + IZR M - IZR (Zfloor x + M))%R with (x - IZR (Zfloor x))%R by (rewrite plus_IZR; ring).
  destruct (Rcompare_spec (x - IZR (Zfloor x)) (/ 2)) as [L|E|L]; try reflexivity.
  rewrite H by assumption. destruct (c (Zfloor x)); reflexivity.
Qed.

(** shifting by an even integer of the same sign commutes with every rounding *)
Lemma rnd_of_shift : forall m x M, Z.even M = true ->
  ((0 <= x)%R /\ 0 <= M) \/ ((x <= 0)%R /\ M <= 0) ->
  rnd_of m (x + IZR M) = rnd_of m x + M.
Proof.
  intros m x M He Hs.
  assert (Hfl : (0 <= x)%R -> 0 <= Zfloor x) by (intro; apply Zfloor_lub; assumption).
  destruct m; cbn [rnd_of].
  - apply Znearest_shift. intros _. rewrite Z.even_add, He. destruct (Z.even (Zfloor x)); reflexivity.
  - apply Zceil_shift.
  - apply Zfloor_shift.
  - unfold Ztrunc. destruct Hs as [[H1 H2]|[H1 H2]].
    + assert (0 <= IZR M)%R by (apply IZR_le; assumption).
      rewrite !Rlt_bool_false by lra. apply Zfloor_shift.
    + assert (IZR M <= 0)%R by (apply IZR_le; assumption).
      destruct (Rlt_bool_spec x 0) as [L|L].
      * rewrite Rlt_bool_true by lra. apply Zceil_shift.
      * assert (x = 0)%R as -> by lra. rewrite Rplus_0_l, Zfloor_IZR. change 0%R with (IZR 0). rewrite Zfloor_IZR.
        rewrite Zceil_IZR. destruct (Rlt_bool (IZR M) 0); lia.
  - apply Znearest_shift. intro Ht. pose proof (Zfloor_lb x) as B1. pose proof (Zfloor_ub x) as B2.
    destruct Hs as [[H1 H2]|[H1 H2]].
    + specialize (Hfl H1). rewrite !Zle_bool_true by lia. reflexivity.
    + assert (IZR (Zfloor x) < 0)%R as H3 by lra. apply lt_IZR in H3.
      rewrite !Zle_bool_false by lia. reflexivity.
Qed.

Lemma rounded_unit : forall S m y, sem_ok S ->
  (bpow r2 (PRECISION S - 1) <= Rabs y < bpow r2 (PRECISION S))%R -> rounded S m y = IZR (rnd_of m y).
Proof.
  intros S m y HS Hy. destruct HS as [Hp Hmin Hmax _]. unfold rounded, round, F2R, scaled_mantissa, cexp. cbn [Fnum Fexp].
  rewrite (mag_unique r2 y (PRECISION S) Hy). unfold fexp, FLT_exp.
  replace (Z.max (PRECISION S - PRECISION S) (MIN_EXP S - (PRECISION S - 1))) with 0 by lia.
  change (- 0) with 0. cbn [bpow]. rewrite !Rmult_1_r. reflexivity.
Qed.

Lemma integer_representable : forall S n, sem_ok S -> Z.abs n <= 2 ^ PRECISION S -> representable S (IZR n).
Proof.
  intros S n HS Hn. pose proof HS as [Hp Hmin Hmax _]. destruct (p_pow S HS) as [P1 [P2 P3]]. split.
  - destruct (Z_lt_le_dec (Z.abs n) (2 ^ PRECISION S)) as [L|L].
    + apply generic_format_FLT. exists (Defs.Float r2 n 0); cbn [Fnum Fexp].
      * unfold F2R. cbn [Fnum Fexp bpow]. ring.
      * exact L.
      * lia.
    + assert (n = 2 ^ PRECISION S \/ n = - 2 ^ PRECISION S) as [-> | ->] by lia.
      * rewrite IZR_pow2 by lia. apply generic_format_bpow. unfold fexp, FLT_exp. lia.
      * rewrite opp_IZR, IZR_pow2 by lia. apply generic_format_opp, generic_format_bpow. unfold fexp, FLT_exp. lia.
  - rewrite <- abs_IZR. apply Rle_trans with (bpow r2 (PRECISION S)); [rewrite <- IZR_pow2 by lia; apply IZR_le; assumption|].
    apply Rle_trans with (bpow r2 (MAX_EXP S)); [apply bpow_le; lia|]. unfold max_finite.
    replace (bpow r2 (MAX_EXP S)) with (IZR (2 ^ (PRECISION S - 1)) * bpow r2 (MAX_EXP S - (PRECISION S - 1)))%R by (rewrite IZR_pow2_bpow by lia; f_equal; lia).
    apply bpow_pos_mult_le. apply (max_sig_bounds S HS).
Qed.

(** rounding keeps the sign *)
Lemma rnd_of_nonneg : forall m x, (0 <= x)%R -> 0 <= rnd_of m x.
Proof. intros m x H. pose proof (valid_rnd_of m) as VR. rewrite <- (@Zrnd_IZR _ VR 0). apply (@Zrnd_le _ VR). exact H. Qed.
Lemma rnd_of_nonpos : forall m x, (x <= 0)%R -> rnd_of m x <= 0.
Proof. intros m x H. pose proof (valid_rnd_of m) as VR. rewrite <- (@Zrnd_IZR _ VR 0). apply (@Zrnd_le _ VR). exact H. Qed.

Lemma value_sign_nonneg : forall S x, wf S x -> finite x -> if sign x then (value S x <= 0)%R else (0 <= value S x)%R.
Proof.
  intros S x Hx [Cx|Cx]; [|rewrite (value_zero S x Cx); destruct (sign x); lra].
  rewrite value_normal by assumption. pose proof (value_pos S x Hx Cx). destruct (sign x); cbn [sgnr]; lra.
Qed.

Theorem round_to_integral_finite : forall S x m, sem_ok S -> wf S x -> finite x ->
  exists st r, round_to_integral S x m = Ret (st, r) /\
    wf S r /\ finite r /\ value S r = IZR (rnd_of m (value S x)) /\ sign r = sign x /\
    (value S r = value S x -> st = OK) /\ (value S r <> value S x -> st = INEXACT).
Proof.
  intros S x m HS Hx Fx. unfold round_to_integral. pose proof HS as [Hp Hmin Hmax _]. destruct (p_pow S HS) as [P1 [P2 P3]].
  destruct Fx as [Cx|Cx]; rewrite Cx.
  2:{ do 2 eexists. split; [reflexivity|]. rewrite (value_zero S x Cx). change 0%R with (IZR 0) at 2.
      pose proof (valid_rnd_of m) as VR. rewrite (@Zrnd_IZR _ VR). split; [assumption|]. split; [right; assumption|]. split; [reflexivity|]. split; [reflexivity|].
      split; [reflexivity|intro H; exfalso; apply H; reflexivity]. }
  pose proof (wf_normal_canonical S x Hx Cx) as [K1 [K2 _]].
  rewrite chk32_ret by lia. cbn [bind].
  destruct (Z.leb_spec (PRECISION S) (exp x + 1)) as [Hbig|Hsmall].
  { assert (value S x = IZR (signed (sign x) (sig x) * 2 ^ (exp x - (PRECISION S - 1)))) as Vx.
    { unfold value. rewrite Cx, mult_IZR, IZR_pow2 by lia. reflexivity. }
    do 2 eexists. split; [reflexivity|]. split; [assumption|]. split; [left; assumption|].
    rewrite Vx. pose proof (valid_rnd_of m) as VR. rewrite (@Zrnd_IZR _ VR). split; [reflexivity|]. split; [reflexivity|]. split; [reflexivity|].
    intro H; exfalso; apply H; reflexivity. }
  destruct (Z.leb_spec (PRECISION S) 128) as [_|]; [|lia]. cbn [assertb].
  unfold from_u128. destruct (from_u128_r_spec S (2 ^ (PRECISION S - 1)) NearestTiesToEven HS) as [[st0 mc] [-> C0]].
  { split; [lia|]. apply Z.pow_lt_mono_r; lia. }
  cbn [bind]. destruct (cr_representable S _ _ _ _ _ HS (integer_representable S (2 ^ (PRECISION S - 1)) HS ltac:(lia)) C0) as [-> [F0 V0]]. destruct C0 as [W0 _].
  cbn [assertb Z.eqb]. rewrite Z.eqb_refl. cbn [assertb]. rewrite copy_sign_spec.
  set (mc' := mkFloat (sig mc) (exp mc) (category mc) (sign x)).
  set (M := signed (sign x) (2 ^ (PRECISION S - 1))).
  assert (category mc = Normal) as Cm.
  { destruct F0 as [|Cz]; [assumption|exfalso]. rewrite (value_zero S mc Cz) in V0. apply (IZR_neq (2 ^ (PRECISION S - 1)) 0); [lia|auto]. }
  assert (Wm : wf S mc') by exact W0.
  assert (Vm : value S mc' = IZR M).
  { assert (Rabs (value S mc') = IZR (2 ^ (PRECISION S - 1))) as A.
    { rewrite value_normal by exact Cm. rewrite sgnr_abs by (apply Rlt_le, (value_pos S mc' Wm Cm)). cbn [sig exp].
      rewrite <- V0. rewrite (value_normal S mc Cm). cbn [sig exp mc'].
      assert (0 < value S mc)%R as Hpos by (rewrite V0; apply IZR_lt; lia). rewrite value_normal in Hpos by assumption.
      destruct (sign mc); cbn [sgnr] in *; [|reflexivity]. pose proof (value_pos S mc W0 Cm). lra. }
    pose proof (value_sign_nonneg S mc' Wm (or_introl Cm)) as G. cbn [sign mc'] in G. unfold M, signed.
    destruct (sign x); [rewrite opp_IZR, <- A, Rabs_left1 by assumption; ring|rewrite <- A, Rabs_pos_eq by assumption; reflexivity]. }
  pose proof (value_sign_nonneg S x Hx (or_introl Cx)) as Gx.
  assert (Ax : (Rabs (value S x) < bpow r2 (PRECISION S - 1))%R).
  { rewrite value_normal, sgnr_abs by (try assumption; apply Rlt_le, value_pos; assumption).
    apply Rlt_le_trans with (IZR (2 ^ PRECISION S) * bpow r2 (exp x - (PRECISION S - 1)))%R; [apply bpow_pos_mult_lt; lia|].
    rewrite IZR_pow2_bpow by lia. apply bpow_le. lia. }
  assert (Hsum : (bpow r2 (PRECISION S - 1) <= Rabs (value S x + IZR M) < bpow r2 (PRECISION S))%R).
  { assert (bpow r2 (PRECISION S) = 2 * bpow r2 (PRECISION S - 1))%R as E2.
    { rewrite <- !IZR_pow2 by lia. rewrite P2, mult_IZR. reflexivity. }
    unfold M, signed. rewrite E2. rewrite <- IZR_pow2 in * by lia.
    assert (0 < IZR (2 ^ (PRECISION S - 1)))%R by (apply IZR_lt; lia).
    destruct (sign x); rewrite ?opp_IZR.
    - rewrite Rabs_left1 in Ax by assumption. rewrite Rabs_left1 by lra. lra.
    - rewrite Rabs_pos_eq in Ax by assumption. rewrite Rabs_pos_eq by lra. lra. }
  assert (Hside : overflow_side_ok S m (value S x + value S mc')).
  { apply side_small; [assumption|]. rewrite Vm. destruct (integer_representable S (2 ^ PRECISION S) HS ltac:(lia)) as [_ H].
    rewrite IZR_pow2, Rabs_pos_eq in H by first [lia|apply bpow_ge_0]. lra. }
  destruct (add_r_finite S x mc' m HS Hx Wm (or_introl Cx) (or_introl Cm) Hside) as [[st r1] [-> C1]]. cbn [bind].
  rewrite Vm in C1. destruct C1 as [W1 [S1 [C1 _]]].
  rewrite (rounded_unit S m _ HS Hsum) in C1.
  assert (HM : Z.even M = true).
  { assert (Z.even (2 ^ (PRECISION S - 1)) = true) as E by (rewrite Z.even_pow by lia; reflexivity).
    unfold M, signed. destruct (sign x); [rewrite Z.even_opp|]; assumption. }
  rewrite rnd_of_shift in C1.
  2: assumption.
  2:{ unfold M, signed. destruct (sign x); [right|left]; (split; [assumption|lia]). }
  set (k := rnd_of m (value S x)) in *.
  assert (Hk : Z.abs k <= 2 ^ (PRECISION S - 1) /\ (if sign x then k <= 0 else 0 <= k)).
  { pose proof (valid_rnd_of m) as VR. rewrite <- IZR_pow2 in Ax by lia. apply Rabs_lt_inv in Ax. destruct Ax as [A1 A2]. rewrite <- opp_IZR in A1.
    assert (- 2 ^ (PRECISION S - 1) <= k) by (rewrite <- (@Zrnd_IZR _ VR (- 2 ^ (PRECISION S - 1))); apply (@Zrnd_le _ VR); lra).
    assert (k <= 2 ^ (PRECISION S - 1)) by (rewrite <- (@Zrnd_IZR _ VR (2 ^ (PRECISION S - 1))); apply (@Zrnd_le _ VR); lra).
    split; [lia|]. destruct (sign x); [apply rnd_of_nonpos|apply rnd_of_nonneg]; assumption. }
  destruct Hk as [Hk1 Hk2].
  assert (HkM : Z.abs (k + M) = Z.abs k + 2 ^ (PRECISION S - 1)) by (unfold M, signed; destruct (sign x); lia).
  destruct (integer_representable S (k + M) HS ltac:(lia)) as [_ RkM].
  destruct (C1 RkM) as [F1 [V1 [St1 [St2 _]]]].
  assert (Hside2 : overflow_side_ok S m (value S r1 - value S mc')).
  { apply side_of_representable; [assumption|]. rewrite V1, Vm, plus_IZR. replace (IZR k + IZR M - IZR M)%R with (IZR k) by ring. apply integer_representable; [assumption|lia]. }
  destruct (sub_r_finite S r1 mc' m HS W1 Wm F1 (or_introl Cm) Hside2) as [[st2 r2'] [-> C2]]. cbn [bind].
  rewrite V1, Vm, plus_IZR in C2. replace (IZR k + IZR M - IZR M)%R with (IZR k) in C2 by ring.
  destruct (cr_representable S _ _ _ _ _ HS (integer_representable S k HS ltac:(lia)) C2) as [_ [F2 V2]]. destruct C2 as [W2 [S2 _]].
  rewrite copy_sign_spec. do 2 eexists. split; [reflexivity|].
  assert (Vr : value S (mkFloat (sig r2') (exp r2') (category r2') (sign x)) = IZR k).
  { destruct F2 as [C2|C2].
    - assert (sign r2' = sign x) as <-.
      { destruct S2 as [A1 [A2 _]]. assert (IZR k <> 0)%R as Hk0.
        { rewrite <- V2, value_normal by assumption. pose proof (value_pos S r2' W2 C2). destruct (sign r2'); cbn [sgnr]; lra. }
        destruct (sign x).
        - apply A1. apply IZR_le in Hk2. lra.
        - apply A2. apply IZR_le in Hk2. lra. }
      rewrite <- V2. destruct r2'; reflexivity.
    - rewrite value_zero by exact C2. rewrite <- V2, (value_zero S r2' C2). reflexivity. }
  rewrite Vr. split; [exact W2|]. split; [destruct F2; [left|right]; assumption|]. split; [reflexivity|]. split; [reflexivity|].
  rewrite plus_IZR in St1, St2. split; intro H.
  - apply St1. rewrite H. ring.
  - apply St2.
    + intro E. apply H. lra.
    + rewrite <- plus_IZR, <- abs_IZR. apply Rle_trans with (bpow r2 0); [apply bpow_le; lia|]. cbn [bpow]. apply IZR_le. lia.
Qed.

Theorem round_to_integral_special : forall S x m, sem_ok S -> ~ finite x ->
  round_to_integral S x m =
    match category x with
    | NaN => Ret (invalid_if (signaling S x), quieted S x)
    | _ => Ret (OK, x)
    end.
Proof.
  intros S x m HS Hx. unfold round_to_integral, finite in *. destruct (category x) eqn:Cx; try tauto; try reflexivity.
  apply result_from_nan_spec; assumption.
Qed.

Theorem is_integer_spec : forall S x, sem_ok S -> wf S x ->
  exists b, is_integer S x = Ret b /\ (b = true <-> finite x /\ exists n, value S x = IZR n).
Proof.
  intros S x HS Hx. unfold is_integer, is_finite, is_nan, is_infinite.
  destruct (category x) eqn:Cx; cbn [category_eqb negb orb andb].
  1,2: eexists; (split; [reflexivity|]); split; [discriminate|intros [[C|C] _]; congruence].
  all: assert (finite x) as Fx by (unfold finite; tauto);
    destruct (round_to_integral_finite S x TowardZero HS Hx Fx) as [st [r [E [W [F [V [G _]]]]]]];
    rewrite E; cbn [bind]; eexists; (split; [reflexivity|]).
  all: split; [intro H; apply (bitwise_eq_spec S) in H; try assumption; destruct H as [C [_ [_ H]]]; (split; [assumption|])|
    intros [_ [n Hn]]; apply (same_finite S); try assumption; rewrite V, Hn; cbn [rnd_of]; rewrite Ztrunc_IZR; reflexivity].
  - exists (rnd_of TowardZero (value S x)). rewrite <- V. symmetry. apply H. congruence.
  - exists 0. apply value_zero. assumption.
Qed.
