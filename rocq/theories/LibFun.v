(** * LibFun.v -- the library functions a client builds on the crate: the fractional part, the Euclidean
    remainder and quotient, the midpoint without overflow, the restriction to an interval *)
From Coq Require Import ZArith Reals List Bool Lia Lra.
From Flocq Require Import Core Plus_error.
From Verif Require Import Machine Ieee Spec Norm Arith Order Integral Rem Special Int Algebra Laws Total Reach Flocq754 SpecPrograms SpecExpr Expr Samples Loops IntExpr StrAtt FmtBack Eft Bisect.
Import ListNotations.
Local Open Scope Z_scope.
Ltac Zify.zify_post_hook ::= idtac.

(** [x - trunc(x)]; src/ieee.rs:1409 [round_to_integral], src/ieee.rs:1070 [sub_r] *)
Definition c_fract (S : Semantics) (x : Float) (m : Round) : outcome (Z * Float) :=
  let! '(_, t) := round_to_integral S x TowardZero in
  sub_r S x t m.
(** [let r = x % y; if r < 0 { r + y.abs() } else { r }]; src/ieee.rs:1371 [c_fmod], src/ieee.rs:458 [partial_cmp] *)
Definition c_rem_euclid (S : Semantics) (x y : Float) (m : Round) : outcome (Z * Float) :=
  let! '(_, r) := c_fmod S x y in
  let! negative := lt_f r (ZERO S) in
  if negative then add_r S r (abs y) m else Ret (OK, r).
(** [let q = (x / y).trunc(); if x % y < 0 { if y > 0 { q - 1 } else { q + 1 } } else { q }]; src/ieee.rs:1234 [div_r] *)
Definition c_div_euclid (S : Semantics) (one x y : Float) (m : Round) : outcome (Z * Float) :=
  let! '(_, d) := div_r S x y m in
  let! '(_, q) := round_to_integral S d TowardZero in
  let! '(_, r) := c_fmod S x y in
  let! negative := lt_f r (ZERO S) in
  if negative then
    let! positive := gt_f y (ZERO S) in
    if positive then sub_r S q one m else add_r S q one m
  else Ret (OK, q).
(** the midpoint: the sum is halved when it cannot overflow, otherwise an operand is, or both are;
    src/ieee.rs:962-983 [largest], src/ieee.rs:996-1007 [smallest_normalized], src/ieee.rs:1009 [add_r], src/ieee.rs:1234 [div_r] *)
Definition c_midpoint (S : Semantics) (two a b : Float) (m : Round) : outcome Float :=
  let! '(_, hi) := div_r S (largest S) two m in
  let! '(_, lo) := mul_r S (smallest_normalized S) two m in
  let! small_a := ge_f hi (abs a) in
  let! small_b := ge_f hi (abs b) in
  if small_a && small_b then
    let! '(_, s) := add_r S a b m in
    let! '(_, r) := div_r S s two m in Ret r
  else
    let! tiny_a := lt_f (abs a) lo in
    if tiny_a then
      let! '(_, h) := div_r S b two m in
      let! '(_, r) := add_r S a h m in Ret r
    else
      let! tiny_b := lt_f (abs b) lo in
      if tiny_b then
        let! '(_, h) := div_r S a two m in
        let! '(_, r) := add_r S h b m in Ret r
      else
        let! '(_, h) := div_r S a two m in
        let! '(_, k) := div_r S b two m in
        let! '(_, r) := add_r S h k m in Ret r.
(** [if x < lo { lo } else if x > hi { hi } else { x }] after [assert!(lo <= hi)]; src/ieee.rs:458 [partial_cmp] *)
Definition c_clamp (x lo hi : Float) : outcome Float :=
  let! ordered := ge_f hi lo in
  assertb ordered (
  let! below := lt_f x lo in
  if below then Ret lo else
  let! above := gt_f x hi in
  if above then Ret hi else Ret x).

Section LibFun.
Variable S : Semantics.
Hypothesis HS : sem_ok S.
Notation F := (generic_format r2 (fexp S)).
Local Instance valid_here : Valid_exp (fexp S) := fexp_valid S HS.
Local Instance prec_here : Prec_gt_0 (PRECISION S).
Proof. unfold Prec_gt_0. destruct (ok_prec S HS). lia. Qed.

Lemma ge_test : forall x y, wf S x -> wf S y -> finite x -> finite y -> ge_f x y = Ret (Rle_bool (value S y) (value S x)).
Proof.
  intros x y Wx Wy Fx Fy. unfold ge_f. rewrite (partial_cmp_finite S x y HS Wx Wy Fx Fy). cbn [bind]. unfold Rle_bool.
  rewrite (Rcompare_sym (value S y)). destruct (Rcompare (value S x) (value S y)); reflexivity.
Qed.
Lemma gt_test : forall x y, wf S x -> wf S y -> finite x -> finite y -> gt_f x y = Ret (Rlt_bool (value S y) (value S x)).
Proof.
  intros x y Wx Wy Fx Fy. unfold gt_f. rewrite (partial_cmp_finite S x y HS Wx Wy Fx Fy). cbn [bind]. unfold Rlt_bool.
  rewrite (Rcompare_sym (value S y)). destruct (Rcompare (value S x) (value S y)); reflexivity.
Qed.
Lemma zero_facts : wf S (ZERO S) /\ finite (ZERO S) /\ value S (ZERO S) = 0%R.
Proof. split; [apply (wf_zero S false HS)|]. split; [right; reflexivity|reflexivity]. Qed.

Lemma unit_facts : wf S (mkFloat (2 ^ (PRECISION S - 1)) 0 Normal false) /\ value S (mkFloat (2 ^ (PRECISION S - 1)) 0 Normal false) = 1%R.
Proof.
  destruct (wf_smallest_normalized S false HS) as [A [B C]]. cbn [sig exp category] in A, B, C.
  pose proof (ok_prec S HS). pose proof (ok_min S HS). pose proof (ok_max S HS). split.
  - unfold wf. cbn [sig exp category]. repeat split; try apply A; try apply C; try (unfold i32; lia); lia.
  - unfold value. cbn [sig exp category sign signed]. rewrite IZR_pow2 by lia. rewrite <- bpow_plus. replace (PRECISION S - 1 + (0 - (PRECISION S - 1))) with 0 by lia. reflexivity.
Qed.
Lemma unsigned_value : forall x, wf S x -> finite x -> sign x = false -> (0 <= value S x)%R.
Proof.
  intros x Wx [Cx|Cx] Sx; [|rewrite (value_zero S x Cx); lra]. pose proof (normal_sign S x Wx Cx) as [A B]; destruct (Rle_or_lt 0 (value S x)) as [P|P]; [|apply A in P]; try congruence; try lra.
Qed.
Lemma signed_value : forall x, wf S x -> category x = Normal -> sign x = true -> (value S x < 0)%R.
Proof.
  intros x Wx Cx Sx. apply (normal_sign S x Wx Cx). exact Sx.
Qed.
(** ** The fractional part *)
Lemma trunc_part : forall x m, wf S x -> finite x -> exists f, c_fract S x m = Ret (OK, f) /\ wf S f /\ finite f /\
  value S f = (value S x - IZR (Ztrunc (value S x)))%R /\ (Rabs (value S f) < 1)%R.
Proof.
  intros x m Wx Fx. unfold c_fract. destruct (round_to_integral_finite S x TowardZero HS Wx Fx) as [st [t [E [Wt [Ft [Vt _]]]]]].
  cbn [rnd_of] in Vt. rewrite E. cbn [bind].
  destruct unit_facts as [Wo Vo]. set (o := mkFloat (2 ^ (PRECISION S - 1)) 0 Normal false) in *.
  destruct (c_fmod_finite S x o HS Wx Wo Fx eq_refl) as [r [_ [Wr [Fr [Vr [_ Lr]]]]]].
  rewrite Vo in Vr. unfold Rdiv in Vr. rewrite Rinv_1, !Rmult_1_r in Vr. rewrite Vo, Rabs_R1 in Lr.
  destruct (exactly S m (value S x - value S t) _ _ HS ltac:(rewrite Vt, <- Vr; apply finite_representable; assumption) (sub_r_crate S x t m HS Wx Wt Fx Ft))
    as [f [Ef [Wf [Ff Vf]]]].
  exists f. split; [exact Ef|]. split; [exact Wf|]. split; [exact Ff|]. rewrite Vf, Vt. split; [reflexivity|]. rewrite <- Vr. exact Lr.
Qed.

(** ** The Euclidean remainder *)
Lemma rem_euclid_rounded : forall x y m, wf S x -> wf S y -> finite x -> category y = Normal ->
  exists k st r, c_rem_euclid S x y m = Ret (st, r) /\ wf S r /\ finite r /\
    (0 <= value S x - IZR k * value S y < Rabs (value S y))%R /\
    value S r = rounded S m (value S x - IZR k * value S y) /\ (0 <= value S r <= Rabs (value S y))%R /\
    ((0 <= value S x)%R -> st = OK /\ value S r = (value S x - IZR k * value S y)%R).
Proof.
  intros x y m Wx Wy Fx Cy. unfold c_rem_euclid. destruct (c_fmod_finite S x y HS Wx Wy Fx Cy) as [r [E [Wr [Fr [Vr [Sr Lr]]]]]].
  rewrite E. cbn [bind]. destruct zero_facts as [Wz [Fz Vz]]. rewrite (less_test S HS r (ZERO S) Wr Wz Fr Fz). cbn [bind]. rewrite Vz.
  set (X := value S x) in *. set (Y := value S y) in *. set (n := Ztrunc (X / Y)) in *.
  destruct (Rlt_bool_spec (value S r) 0) as [N|N].
  - assert (Wa : wf S (abs y)) by (rewrite abs_spec; exact Wy).
    assert (Fa : finite (abs y)) by (rewrite abs_spec; left; exact Cy).
    assert (Va : value S (abs y) = Rabs Y) by (apply abs_value; exact Wy).
    assert (Fy : F (Rabs Y)) by (rewrite <- Va; apply (finite_representable S); assumption).
    assert (My : (Rabs Y <= max_finite S)%R) by (apply value_le_max; assumption).
    apply Rabs_def2 in Lr.
    assert (B : (0 <= value S r + Rabs Y <= Rabs Y)%R) by lra.
    assert (C : (0 <= rounded S m (value S r + Rabs Y) <= Rabs Y)%R).
    { split; [rewrite <- (rounded_format S m 0 (generic_format_0 _ _))|rewrite <- (rounded_format S m (Rabs Y) Fy) at 2]; apply rounded_mono; lra || assumption. }
    destruct (in_range S m (value S r + value S (abs y)) _ _ (add_r_crate S r (abs y) m HS Wr Wa Fr Fa)) as [st [f [Ef [Wf [Ff Vf]]]]].
    { rewrite Va, Rabs_pos_eq by lra. lra. }
    rewrite Va in Vf.
    assert (exists k, (value S r + Rabs Y = X - IZR k * Y)%R) as [k K].
    { destruct (Rle_or_lt 0 Y) as [P|P].
      - exists (n - 1). rewrite (Rabs_pos_eq Y) by exact P. rewrite minus_IZR, Vr. ring.
      - exists (n + 1). rewrite (Rabs_left Y) by exact P. rewrite plus_IZR, Vr. ring. }
    exists k, st, f. split; [exact Ef|]. split; [exact Wf|]. split; [exact Ff|]. rewrite <- K, Vf. split; [lra|]. split; [reflexivity|]. split; [exact C|].
    intros PX. exfalso. destruct Fx as [Cx|Cx].
    + assert (Sx : sign x = false) by (destruct (sign x) eqn:SX; [|reflexivity]; pose proof (signed_value x Wx Cx SX); unfold X in PX; lra).
      rewrite Sx in Sr. pose proof (unsigned_value r Wr Fr Sr). lra.
    + assert (X = 0%R) as X0 by (apply value_zero; exact Cx). assert (n = 0) as N0 by (unfold n; rewrite X0; unfold Rdiv; rewrite Rmult_0_l; apply Ztrunc_IZR).
      rewrite N0, X0 in Vr. rewrite Vr in N. lra.
  - exists n, OK, r. split; [reflexivity|]. split; [exact Wr|]. split; [exact Fr|]. rewrite <- Vr. rewrite (Rabs_pos_eq (value S r)) in Lr by exact N.
    split; [lra|]. split; [symmetry; apply rounded_format; apply (finite_representable S); assumption|]. split; [lra|]. intros _. split; reflexivity.
Qed.

(** ** The Euclidean quotient of integers *)
Lemma trunc_rounded_pos : forall m v n y, 0 <= n -> 0 < y -> (n + 1) * y <= 2 ^ (PRECISION S - 1) -> (IZR n <= v)%R -> (v * IZR y <= IZR ((n + 1) * y) - 1)%R ->
  Ztrunc (rounded S m v) = n.
Proof.
  intros m v n y Hn Hy B L U. pose proof (ok_prec S HS). pose proof (ok_min S HS).
  assert (PP : 2 ^ (PRECISION S - 1) <= 2 ^ PRECISION S) by (apply Z.pow_le_mono_r; lia).
  assert (F1 : F (IZR n)) by (apply (int_format S _ HS); nia). assert (F3 : F (IZR (n + 1))) by (apply (int_format S _ HS); nia).
  assert (Y1 : (1 <= IZR y)%R) by (apply IZR_le; lia). assert (N1 : (1 <= IZR (n + 1))%R) by (apply IZR_le; lia).
  assert (G : (IZR (n + 1) - pred r2 (fexp S) (IZR (n + 1)) <= IZR (n + 1) * bpow r2 (1 - PRECISION S))%R).
  { apply Rle_trans with (ulp r2 (fexp S) (IZR (n + 1))).
    - assert (P0 : (0 <= pred r2 (fexp S) (IZR (n + 1)))%R) by (apply pred_ge_gt; [exact valid_here|apply generic_format_0|exact F3|lra]).
      pose proof (pred_plus_ulp r2 (fexp S) (IZR (n + 1)) ltac:(lra) F3) as E.
      assert (ulp r2 (fexp S) (pred r2 (fexp S) (IZR (n + 1))) <= ulp r2 (fexp S) (IZR (n + 1)))%R; [|lra].
      apply ulp_le; [exact valid_here|apply FLT_exp_monotone|]. rewrite !Rabs_pos_eq by lra. pose proof (pred_less S HS (IZR (n + 1))). lra.
    - replace (IZR (n + 1)) with (Rabs (IZR (n + 1))) at 2 by (apply Rabs_pos_eq; lra). apply ulp_FLT_le.
      rewrite Rabs_pos_eq by lra. apply Rle_trans with (bpow r2 0); [apply bpow_le; lia|exact N1]. }
  assert (BY : (IZR (n + 1) * bpow r2 (1 - PRECISION S) * IZR y <= 1)%R).
  { replace 1%R with (bpow r2 (PRECISION S - 1) * bpow r2 (1 - PRECISION S))%R by (rewrite <- bpow_plus; replace (PRECISION S - 1 + (1 - PRECISION S)) with 0 by lia; reflexivity).
    replace (IZR (n + 1) * bpow r2 (1 - PRECISION S) * IZR y)%R with (IZR ((n + 1) * y) * bpow r2 (1 - PRECISION S))%R by (rewrite mult_IZR; ring).
    apply Rmult_le_compat_r; [apply bpow_ge_0|]. rewrite <- IZR_pow2 by lia. apply IZR_le. exact B. }
  assert (VP : (v <= pred r2 (fexp S) (IZR (n + 1)))%R).
  { apply Rmult_le_reg_r with (IZR y); [lra|]. rewrite mult_IZR in U. set (g := (IZR (n + 1) * bpow r2 (1 - PRECISION S))%R) in *.
    assert ((IZR (n + 1) - pred r2 (fexp S) (IZR (n + 1))) * IZR y <= g * IZR y)%R by (apply Rmult_le_compat_r; lra). lra. }
  assert (D1 : (IZR n <= rounded S m v)%R) by (rewrite <- (rounded_format S m (IZR n) F1); apply rounded_mono; assumption).
  assert (D2 : (rounded S m v <= pred r2 (fexp S) (IZR (n + 1)))%R).
  { rewrite <- (rounded_format S m (pred r2 (fexp S) (IZR (n + 1)))) by (apply generic_format_pred; [exact valid_here|exact F3]). apply rounded_mono; assumption. }
  pose proof (pred_less S HS (IZR (n + 1))) as D3. assert (0 <= IZR n)%R by (apply IZR_le; lia).
  rewrite Ztrunc_floor by lra. apply Zfloor_imp. lra.
Qed.
Lemma trunc_rounded : forall m X Y, Y <> 0 -> Z.abs X + Z.abs Y <= 2 ^ (PRECISION S - 1) -> Ztrunc (rounded S m (IZR X / IZR Y)) = Z.quot X Y.
Proof.
  intros m X Y NY B. rewrite Z.quot_div by exact NY. set (n := Z.abs X / Z.abs Y).
  assert (PY : 0 < Z.abs Y) by lia. pose proof (Z.div_mod (Z.abs X) (Z.abs Y) ltac:(lia)) as DM. pose proof (Z.mod_pos_bound (Z.abs X) (Z.abs Y) PY) as MB. fold n in DM.
  assert (N0 : 0 <= n) by (apply Z.div_pos; lia). set (v := (IZR (Z.abs X) / IZR (Z.abs Y))%R).
  assert (RY : (0 < IZR (Z.abs Y))%R) by (apply IZR_lt; lia).
  assert (VY : (v * IZR (Z.abs Y) = IZR (Z.abs X))%R) by (unfold v; field; lra).
  assert (T : forall m', Ztrunc (rounded S m' v) = n).
  { intros m'. apply (trunc_rounded_pos m' v n (Z.abs Y)); [exact N0|exact PY|nia| |].
    - apply Rmult_le_reg_r with (IZR (Z.abs Y)); [exact RY|]. rewrite VY, <- mult_IZR. apply IZR_le. lia.
    - rewrite VY, <- minus_IZR. apply IZR_le. nia. }
  assert (Q : (IZR X / IZR Y = IZR (Z.sgn X * Z.sgn Y) * v)%R).
  { assert (AY : IZR (Z.abs Y) = (IZR (Z.sgn Y) * IZR Y)%R) by (rewrite <- mult_IZR; f_equal; lia).
    assert (AX : IZR X = (IZR (Z.sgn X) * IZR (Z.abs X))%R) by (rewrite <- mult_IZR; f_equal; lia).
    assert (NR : IZR Y <> 0%R) by (apply IZR_neq; exact NY). unfold v. rewrite AY, mult_IZR. rewrite AX at 1.
    assert (SY : (IZR (Z.sgn Y) * IZR (Z.sgn Y) = 1)%R) by (rewrite <- mult_IZR; f_equal; lia).
    assert (SN : IZR (Z.sgn Y) <> 0%R) by (intros E; rewrite E in SY; lra).
    apply Rmult_eq_reg_r with (IZR Y * IZR (Z.sgn Y))%R; [|apply Rmult_integral_contrapositive; split; assumption].
    field_simplify; [|split; assumption|exact NR]. ring. }
  rewrite Q. assert (Z.sgn X * Z.sgn Y = 0 \/ Z.sgn X * Z.sgn Y = 1 \/ Z.sgn X * Z.sgn Y = -1) as [E|[E|E]] by lia; rewrite E.
  - rewrite Rmult_0_l, (rounded_format S m 0 (generic_format_0 _ _)). apply Ztrunc_IZR.
  - rewrite Rmult_1_l, T. lia.
  - replace (-1 * v)%R with (- v)%R by ring. rewrite rounded_opp, Ztrunc_opp, T. lia.
Qed.
Lemma div_euclid_integers : forall one x y m X Y, wf S one -> finite one -> value S one = 1%R -> wf S x -> wf S y -> finite x -> finite y ->
  value S x = IZR X -> value S y = IZR Y -> Y <> 0 -> Z.abs X + Z.abs Y <= 2 ^ (PRECISION S - 1) ->
  exists k n st q st' r, c_div_euclid S one x y m = Ret (st, q) /\ c_rem_euclid S x y m = Ret (st', r) /\ wf S q /\ wf S r /\ finite q /\ finite r /\
    value S q = IZR k /\ value S r = IZR n /\ X = k * Y + n /\ 0 <= n < Z.abs Y.
Proof.
  intros one x y m X Y W1 F1 V1 Wx Wy Fx Fy Vx Vy NY B.
  assert (Cy : category y = Normal).
  { destruct Fy as [C|C]; [exact C|]. exfalso. rewrite (value_zero S y C) in Vy. apply NY. apply eq_IZR. symmetry. exact Vy. }
  pose proof (ok_prec S HS) as Kp. pose proof (ok_min S HS) as Kn. pose proof (ok_max S HS) as Kx.
  assert (PP : 2 ^ PRECISION S = 2 * 2 ^ (PRECISION S - 1)) by (rewrite <- Z.pow_succ_r by lia; f_equal; lia).
  assert (P2 : 0 < 2 ^ (PRECISION S - 1)) by (apply Z.pow_pos_nonneg; lia).
  assert (R : forall n, Z.abs n <= 2 ^ PRECISION S -> representable S (IZR n)) by (intros n Hn; apply int_representable; assumption).
  assert (DM := Z.quot_rem X Y NY). assert (RB : Z.abs (Z.rem X Y) < Z.abs Y) by (apply Z.rem_bound_abs; exact NY).
  assert (QB : Z.abs (Z.quot X Y) <= Z.abs X).
  { rewrite Z.quot_div by exact NY. assert (0 <= Z.abs X / Z.abs Y <= Z.abs X) by (split; [apply Z.div_pos; lia|apply Z.div_le_upper_bound; nia]). nia. }
  destruct (rem_euclid_rounded x y m Wx Wy Fx Cy) as [k [st' [r [Er [Wr [Fr [Hr [Vr _]]]]]]]].
  rewrite Vx, Vy, <- mult_IZR, <- minus_IZR in Vr. rewrite Vx, Vy, <- mult_IZR, <- minus_IZR, <- abs_IZR in Hr.
  destruct Hr as [H1 H2]. apply le_IZR in H1. apply lt_IZR in H2.
  rewrite (rounded_format S m (IZR (X - k * Y)) ltac:(apply (int_format S _ HS); lia)) in Vr.
  unfold c_div_euclid.
  assert (DV : (Rabs (value S x / value S y) <= max_finite S)%R).
  { apply Rle_trans with (Rabs (value S x)); [|apply value_le_max; assumption]. unfold Rdiv. rewrite Rabs_mult, <- (Rmult_1_r (Rabs (value S x))) at 1.
    rewrite Rmult_1_r. rewrite <- (Rmult_1_r (Rabs (value S x))) at 2. apply Rmult_le_compat_l; [apply Rabs_pos|]. rewrite Rabs_inv, Vy, <- abs_IZR.
    rewrite <- Rinv_1. apply Rinv_le; [lra|]. apply IZR_le. lia. }
  destruct (in_range S m _ _ _ (div_r_crate S x y m HS Wx Wy Fx Cy) (rounded_le_max S m _ HS DV)) as [sd [d [-> [Wd [Fd Vd]]]]]. cbn [bind].
  destruct (round_to_integral_finite S d TowardZero HS Wd Fd) as [sq [q [-> [Wq [Fq [Vq _]]]]]]. cbn [bind rnd_of] in *.
  rewrite Vd, Vx, Vy, (trunc_rounded m X Y NY B) in Vq.
  destruct (c_fmod_finite S x y HS Wx Wy Fx Cy) as [f [-> [Wf [Ff [Vf _]]]]]. cbn [bind].
  assert (TQ : Ztrunc (IZR X / IZR Y) = Z.quot X Y) by (apply Ztrunc_div; exact NY).
  rewrite Vx, Vy, TQ, <- mult_IZR, <- minus_IZR in Vf.
  destruct zero_facts as [Wz [Fz Vz]]. rewrite (less_test S HS f (ZERO S) Wf Wz Ff Fz). cbn [bind]. rewrite Vz.
  assert (U : forall q', q' * Y <= X -> X - q' * Y < Z.abs Y -> q' = k) by (intros q' A C; nia).
  destruct (Rlt_bool_spec (value S f) 0) as [N|N].
  - rewrite Vf in N. apply lt_IZR in N. rewrite gt_test by assumption. cbn [bind]. rewrite Vz, Vy.
    destruct (Rlt_bool_spec 0 (IZR Y)) as [P|P].
    + apply lt_IZR in P. assert (RR : representable S (value S q - value S one)) by (rewrite Vq, V1, <- minus_IZR; apply R; lia).
      destruct (exactly S m _ _ _ HS RR (sub_r_crate S q one m HS Wq W1 Fq F1)) as [g [-> [Wg [Fg Vg]]]].
      exists k, (X - k * Y), OK, g, st', r. rewrite Vg, Vq, V1, <- minus_IZR. split; [reflexivity|]. split; [exact Er|]. split; [exact Wg|]. split; [exact Wr|]. split; [exact Fg|]. split; [exact Fr|].
      split; [f_equal; apply U; lia|]. split; [exact Vr|]. lia.
    + apply le_IZR in P. assert (RR : representable S (value S q + value S one)) by (rewrite Vq, V1, <- plus_IZR; apply R; lia).
      destruct (exactly S m _ _ _ HS RR (add_r_crate S q one m HS Wq W1 Fq F1)) as [g [-> [Wg [Fg Vg]]]].
      exists k, (X - k * Y), OK, g, st', r. rewrite Vg, Vq, V1, <- plus_IZR. split; [reflexivity|]. split; [exact Er|]. split; [exact Wg|]. split; [exact Wr|]. split; [exact Fg|]. split; [exact Fr|].
      split; [f_equal; apply U; lia|]. split; [exact Vr|]. lia.
  - rewrite Vf in N. apply le_IZR in N. exists k, (X - k * Y), OK, q, st', r. rewrite Vq. split; [reflexivity|]. split; [exact Er|]. split; [exact Wq|]. split; [exact Wr|]. split; [exact Fq|]. split; [exact Fr|].
      split; [f_equal; apply U; lia|]. split; [exact Vr|]. lia.
Qed.
(** ** The midpoint *)
Lemma half_rounded : forall m v, (bpow r2 (MIN_EXP S + 1) <= Rabs v)%R -> (rounded S m v * / 2 = rounded S m (v * / 2))%R.
Proof.
  intros m v L. assert (V0 : v <> 0%R) by (intros E; rewrite E, Rabs_R0 in L; pose proof (bpow_gt_0 r2 (MIN_EXP S + 1)); lra).
  assert (H2 : bpow r2 (-1) = (/ 2)%R) by reflexivity.
  assert (MG : Raux.mag r2 (v * / 2) = (Raux.mag r2 v - 1)%Z :> Z) by (rewrite <- H2, mag_mult_bpow by exact V0; lia).
  assert (MV : MIN_EXP S + 2 <= Raux.mag r2 v) by (apply mag_ge_bpow; replace (MIN_EXP S + 2 - 1) with (MIN_EXP S + 1) by lia; exact L).
  assert (CE : cexp r2 (fexp S) v = cexp r2 (fexp S) (v * / 2) + 1) by (unfold cexp; rewrite MG; unfold fexp, FLT_exp; lia).
  unfold rounded, round, scaled_mantissa. rewrite CE. unfold F2R. cbn [Fnum Fexp]. set (c := cexp r2 (fexp S) (v * / 2)).
  replace (v * / 2 * bpow r2 (- c))%R with (v * bpow r2 (- (c + 1)))%R.
  2:{ rewrite Rmult_assoc, <- H2, <- bpow_plus. f_equal. f_equal. lia. }
  rewrite Rmult_assoc, <- H2, <- bpow_plus. f_equal. f_equal. lia.
Qed.
Lemma half_format : forall v, F v -> (bpow r2 (MIN_EXP S + 1) <= Rabs v)%R -> F (v * / 2).
Proof.
  intros v Fv L. rewrite <- (rounded_format S NearestTiesToEven v Fv), half_rounded by exact L.
  unfold rounded. apply generic_format_round; [exact valid_here|apply valid_rnd_of].
Qed.
(** numbers beyond a power of two lie on its grid *)
Lemma far_apart : forall e u v, MIN_EXP S <= e -> F u -> F v -> (bpow r2 e <= Rabs u)%R -> (bpow r2 e <= Rabs v)%R -> (u < v)%R ->
  (bpow r2 (e + 1 - PRECISION S) <= v - u)%R.
Proof.
  intros e u v He Fu Fv Lu Lv L.
  assert (G : forall w, F w -> (bpow r2 e <= Rabs w)%R -> exists k, (w = IZR k * bpow r2 (e + 1 - PRECISION S))%R).
  { intros w Fw Lw. apply (ex_shift r2 (fexp S)); [exact Fw|]. unfold cexp.
    assert (e + 1 <= Raux.mag r2 w) by (apply mag_ge_bpow; replace (e + 1 - 1) with e by lia; exact Lw). unfold fexp, FLT_exp. lia. }
  destruct (G u Fu Lu) as [k K]. destruct (G v Fv Lv) as [j J]. rewrite K, J in L |- *. rewrite <- Rmult_minus_distr_r, <- minus_IZR.
  pose proof (bpow_gt_0 r2 (e + 1 - PRECISION S)) as P. apply Rmult_lt_reg_r in L; [|exact P]. apply lt_IZR in L.
  assert (1 <= IZR (j - k))%R by (apply IZR_le; lia). nra.
Qed.
Definition away (m : Round) : Prop := m = TowardPositive \/ m = TowardNegative \/ m = TowardZero.
(** between neighbours a directed mode does not see where *)
Lemma same_gap : forall m d x y, F d -> away m -> (d < x < succ r2 (fexp S) d)%R -> (d < y < succ r2 (fexp S) d)%R -> rounded S m x = rounded S m y.
Proof.
  intros m d x y Fd A Hx Hy.
  assert (DN : forall z, (d < z < succ r2 (fexp S) d)%R -> round r2 (fexp S) Zfloor z = d) by (intros z Hz; apply round_DN_eq; [exact valid_here|exact Fd|lra]).
  assert (UP : forall z, (d < z < succ r2 (fexp S) d)%R -> round r2 (fexp S) Zceil z = succ r2 (fexp S) d).
  { intros z Hz. apply round_UP_eq; [exact valid_here|apply generic_format_succ; [exact valid_here|exact Fd]|]. rewrite pred_succ by (exact valid_here || exact Fd). lra. }
  unfold rounded. destruct A as [->|[->| ->]]; cbn [rnd_of].
  - rewrite !UP by assumption. reflexivity.
  - rewrite !DN by assumption. reflexivity.
  - destruct (Rle_or_lt 0 d) as [P|P].
    + rewrite !round_ZR_DN by lra. rewrite !DN by assumption. reflexivity.
    + assert (succ r2 (fexp S) d <= 0)%R by (apply succ_le_lt; [exact valid_here|exact Fd|apply generic_format_0|exact P]).
      rewrite !round_ZR_UP by lra. rewrite !UP by assumption. reflexivity.
Qed.
(** a tiny term may be halved *)
Lemma tiny_half : forall m h t e, MIN_EXP S <= e -> F h -> (bpow r2 e < Rabs h)%R -> (Rabs t < bpow r2 (e - PRECISION S - 2))%R ->
  rounded S m (h + t) = rounded S m (h + t * / 2).
Proof.
  intros m h t e He Fh Lh Lt. destruct (Req_dec t 0) as [T0|T0]; [rewrite T0, Rmult_0_l; reflexivity|].
  destruct (ok_prec S HS) as [Kp _].
  assert (B1 : (bpow r2 (e - PRECISION S - 2) <= bpow r2 (e + 1 - PRECISION S))%R) by (apply bpow_le; lia).
  assert (FE : F (bpow r2 e)) by (apply generic_format_FLT_bpow; [exact prec_here|lia]).
  pose proof (bpow_gt_0 r2 e) as PE.
  assert (D : away m -> rounded S m (h + t) = rounded S m (h + t * / 2)).
  { intros A. destruct (Rlt_or_le 0 t) as [T|T].
    - rewrite Rabs_pos_eq in Lt by lra.
      assert (bpow r2 (e + 1 - PRECISION S) <= succ r2 (fexp S) h - h)%R.
      { apply (far_apart e); [exact He|exact Fh|apply generic_format_succ; [exact valid_here|exact Fh]|lra| |apply (succ_more S HS)].
        destruct (Rlt_or_le 0 h) as [P|P].
        - rewrite Rabs_pos_eq in Lh by lra. pose proof (succ_more S HS h). rewrite Rabs_pos_eq by lra. lra.
        - rewrite Rabs_left1 in Lh by lra. assert (succ r2 (fexp S) h <= - bpow r2 e)%R by (apply succ_le_lt; [exact valid_here|exact Fh|apply generic_format_opp; exact FE|lra]).
          rewrite Rabs_left1 by lra. lra. }
      apply (same_gap m h); [exact Fh|exact A|lra|lra].
    - rewrite Rabs_left1 in Lt by lra.
      assert (bpow r2 (e + 1 - PRECISION S) <= h - pred r2 (fexp S) h)%R.
      { apply (far_apart e); [exact He|apply generic_format_pred; [exact valid_here|exact Fh]|exact Fh| |lra|apply (pred_less S HS)].
        destruct (Rlt_or_le h 0) as [P|P].
        - rewrite Rabs_left1 in Lh by lra. pose proof (pred_less S HS h). rewrite Rabs_left1 by lra. lra.
        - rewrite Rabs_pos_eq in Lh by lra. assert (bpow r2 e <= pred r2 (fexp S) h)%R by (apply pred_ge_gt; [exact valid_here|exact FE|exact Fh|lra]).
          rewrite Rabs_pos_eq by lra. lra. }
      assert (SP : succ r2 (fexp S) (pred r2 (fexp S) h) = h) by (apply succ_pred; [exact valid_here|exact Fh]).
      apply (same_gap m (pred r2 (fexp S) h)); [apply generic_format_pred; [exact valid_here|exact Fh]|exact A|rewrite SP; lra|rewrite SP; lra]. }
  assert (B2 : forall s, (Rabs s < bpow r2 (e - PRECISION S - 2))%R -> (Rabs s * (2 * IZR (2 ^ PRECISION S + 1)) <= Rabs h)%R).
  { intros s Ls. assert (E : (bpow r2 e = bpow r2 (e - PRECISION S - 2) * bpow r2 (PRECISION S) * 4)%R).
    { change 4%R with (bpow r2 2). rewrite <- !bpow_plus. f_equal. lia. }
    assert (IZR (2 ^ PRECISION S) = bpow r2 (PRECISION S))%R as Q by (rewrite <- IZR_Zpower by lia; reflexivity).
    assert (1 <= bpow r2 (PRECISION S))%R by (change 1%R with (bpow r2 0); apply bpow_le; lia). rewrite plus_IZR, Q. pose proof (Rabs_pos s).
    assert (Rabs s * (2 * (bpow r2 (PRECISION S) + 1)) <= bpow r2 (e - PRECISION S - 2) * (4 * bpow r2 (PRECISION S)))%R by (apply Rmult_le_compat; lra). lra. }
  assert (N : StrAtt.nearest m = true -> rounded S m (h + t) = rounded S m (h + t * / 2)).
  { intros NM.
    assert (P : forall m' s, StrAtt.nearest m' = true -> (Rabs s < bpow r2 (e - PRECISION S - 2))%R -> rounded S m' (h + s) = h).
    { intros m' s NM' Ls. destruct (Rle_or_lt 0 h) as [P|P].
      - rewrite Rabs_pos_eq in Lh by exact P. apply (rounded_near S m' h); [exact HS|exact NM'|lra|exact Fh|].
        replace (h + s - h)%R with s by ring. rewrite <- (Rabs_pos_eq h P) at 1. apply B2. exact Ls.
      - rewrite <- (Ropp_involutive (h + s)), rounded_opp. rewrite (rounded_near S (round_neg m') (- h)); [ring|exact HS|destruct m'; exact NM'|lra|apply generic_format_opp; exact Fh|].
        replace (- (h + s) - - h)%R with (- s)%R by ring. rewrite Rabs_Ropp, <- (Rabs_left h P). apply B2. exact Ls. }
    rewrite !P; [reflexivity|exact NM| |exact NM|exact Lt]. rewrite Rabs_mult, (Rabs_pos_eq (/ 2)) by lra. pose proof (Rabs_pos t). lra. }
  destruct m; try (apply N; reflexivity); apply D; unfold away; auto.
Qed.

Variable two : Float.
Hypothesis W2 : wf S two.
Hypothesis F2 : finite two.
Hypothesis V2 : value S two = 2%R.
Hypothesis wide : PRECISION S + 5 <= MAX_EXP S - MIN_EXP S.
Lemma two_normal : category two = Normal.
Proof. destruct F2 as [C|C]; [exact C|]. exfalso. rewrite (value_zero S two C) in V2. lra. Qed.
Lemma halve : forall x m, wf S x -> finite x -> exists st h, div_r S x two m = Ret (st, h) /\ wf S h /\ finite h /\ value S h = rounded S m (value S x * / 2).
Proof.
  intros x m Wx Fx. destruct (in_range S m (value S x / value S two) _ _ (div_r_crate S x two m HS Wx W2 Fx two_normal)) as [st [h [E [W [Fh V]]]]].
  { apply rounded_le_max; [exact HS|]. rewrite V2. unfold Rdiv. rewrite Rabs_mult, (Rabs_pos_eq (/ 2)) by lra.
    pose proof (value_le_max S x HS Wx). pose proof (Rabs_pos (value S x)). lra. }
  rewrite V2 in V. exists st, h. auto.
Qed.
Lemma halve_exact : forall x m, wf S x -> finite x -> (bpow r2 (MIN_EXP S + 1) <= Rabs (value S x))%R ->
  exists st h, div_r S x two m = Ret (st, h) /\ wf S h /\ finite h /\ value S h = (value S x * / 2)%R.
Proof.
  intros x m Wx Fx L. destruct (halve x m Wx Fx) as [st [h [E [W [Fh V]]]]]. exists st, h. split; [exact E|]. split; [exact W|]. split; [exact Fh|].
  rewrite V. apply rounded_format. apply half_format; [|exact L]. apply (finite_representable S); assumption.
Qed.
Lemma sum : forall x y m, wf S x -> finite x -> wf S y -> finite y -> (Rabs (value S x + value S y) <= max_finite S)%R ->
  exists st s, add_r S x y m = Ret (st, s) /\ wf S s /\ finite s /\ value S s = rounded S m (value S x + value S y).
Proof.
  intros x y m Wx Fx Wy Fy L. apply (in_range S m _ _ _ (add_r_crate S x y m HS Wx Wy Fx Fy)). apply rounded_le_max; assumption.
Qed.
Lemma largest_value : wf S (largest S) /\ value S (largest S) = max_finite S.
Proof. rewrite (largest_eq S HS). split; [apply wf_largest; exact HS|reflexivity]. Qed.
Lemma smallest_value : value S (smallest_normalized S) = bpow r2 (MIN_EXP S).
Proof.
  pose proof (ok_prec S HS). unfold value, smallest_normalized. cbn [sig exp category sign signed]. rewrite IZR_pow2 by lia. rewrite <- bpow_plus. f_equal. lia.
Qed.
Lemma max_large : (bpow r2 (MAX_EXP S) <= max_finite S)%R.
Proof. replace (MAX_EXP S) with (MAX_EXP S - 0) by lia. apply bpow_max; [exact HS|lia]. Qed.
Theorem midpoint_rounded : forall a b m, wf S a -> wf S b -> finite a -> finite b ->
  exists r, c_midpoint S two a b m = Ret r /\ wf S r /\ finite r /\ value S r = rounded S m ((value S a + value S b) / 2).
Proof.
  intros a b m Wa Wb Fa Fb. pose proof (ok_prec S HS) as Kp. pose proof max_large as ML.
  destruct largest_value as [WL VL]. assert (FL : finite (largest S)) by (left; reflexivity).
  assert (B1 : (bpow r2 (MIN_EXP S + 1) = 2 * bpow r2 (MIN_EXP S))%R) by apply bpow_plus_1.
  assert (B2 : (bpow r2 (MAX_EXP S) = 4 * bpow r2 (MAX_EXP S - 2))%R) by (change 4%R with (bpow r2 2); rewrite <- bpow_plus; f_equal; lia).
  assert (B3 : (bpow r2 (MIN_EXP S + 1) <= bpow r2 (MAX_EXP S - 2 - PRECISION S - 2))%R) by (apply bpow_le; lia).
  assert (B4 : (bpow r2 (MAX_EXP S - 2 - PRECISION S - 2) <= bpow r2 (MAX_EXP S - 2))%R) by (apply bpow_le; lia).
  pose proof (bpow_gt_0 r2 (MIN_EXP S)) as P0.
  unfold c_midpoint.
  destruct (halve_exact (largest S) m WL FL) as [st1 [hi [-> [Wh [Fh Vh]]]]]. { rewrite VL, Rabs_pos_eq by lra. lra. }
  cbn [bind]. rewrite VL in Vh.
  assert (WN : wf S (smallest_normalized S)) by (apply wf_smallest_normalized; exact HS). assert (FN : finite (smallest_normalized S)) by (left; reflexivity).
  assert (RL : representable S (value S (smallest_normalized S) * value S two)).
  { rewrite smallest_value, V2. replace (bpow r2 (MIN_EXP S) * 2)%R with (bpow r2 (MIN_EXP S + 1)) by lra. split.
    - apply generic_format_FLT_bpow; [exact prec_here|lia].
    - rewrite Rabs_pos_eq by lra. lra. }
  destruct (exactly S m _ _ _ HS RL (mul_r_crate S (smallest_normalized S) two m HS WN W2 FN F2)) as [lo [-> [Wl [Fl Vl]]]].
  cbn [bind]. rewrite smallest_value, V2 in Vl.
  assert (Wx : forall x, wf S x -> wf S (abs x)) by (intros x W; rewrite abs_spec; exact W).
  assert (Fx : forall x, finite x -> finite (abs x)) by (intros x W; rewrite abs_spec; exact W).
  rewrite !ge_test by auto. cbn [bind]. rewrite !abs_value by assumption.
  pose proof (value_le_max S a HS Wa) as Ma. pose proof (value_le_max S b HS Wb) as Mb.
  assert (Ga : F (value S a)) by (apply (finite_representable S); assumption). assert (Gb : F (value S b)) by (apply (finite_representable S); assumption).
  assert (T3 : (Rabs (value S a + value S b) <= Rabs (value S a) + Rabs (value S b))%R) by apply Rabs_triang.
  destruct (Rle_bool (Rabs (value S a)) (value S hi) && Rle_bool (Rabs (value S b)) (value S hi)) eqn:C1.
  - apply andb_prop in C1. destruct C1 as [Ca Cb]. destruct (Rle_bool_spec (Rabs (value S a)) (value S hi)); [|discriminate]. destruct (Rle_bool_spec (Rabs (value S b)) (value S hi)); [|discriminate].
    destruct (sum a b m Wa Fa Wb Fb) as [st [s [-> [Ws [Fs Vs]]]]]; [lra|]. cbn [bind].
    destruct (halve s m Ws Fs) as [st' [r [-> [Wr [Fr Vr]]]]]. cbn [bind]. exists r. split; [reflexivity|]. split; [exact Wr|]. split; [exact Fr|].
    rewrite Vr, Vs. apply (midpoint S HS); assumption.
  - rewrite (less_test S HS) by auto. cbn [bind]. rewrite abs_value by assumption. rewrite Vl.
    replace ((value S a + value S b) / 2)%R with (value S a * / 2 + value S b * / 2)%R by lra.
    destruct (Rlt_bool_spec (Rabs (value S a)) (bpow r2 (MIN_EXP S) * 2)) as [La|La].
    + assert (Hb : (max_finite S * / 2 < Rabs (value S b))%R).
      { destruct (Rle_bool_spec (Rabs (value S a)) (value S hi)) as [Q|Q]; [|lra]. destruct (Rle_bool_spec (Rabs (value S b)) (value S hi)) as [Q'|Q']; [discriminate|lra]. }
      destruct (halve_exact b m Wb Fb) as [st [h [-> [Wy [Fy Vy]]]]]; [lra|]. cbn [bind].
      assert (Ah : (Rabs (value S h) = Rabs (value S b) * / 2)%R) by (rewrite Vy, Rabs_mult, (Rabs_pos_eq (/ 2)) by lra; reflexivity).
      assert (T4 : (Rabs (value S a + value S h) <= Rabs (value S a) + Rabs (value S h))%R) by apply Rabs_triang.
      destruct (sum a h m Wa Fa Wy Fy) as [st' [r [-> [Wr [Fr Vr]]]]]; [lra|]. cbn [bind]. exists r. split; [reflexivity|]. split; [exact Wr|]. split; [exact Fr|].
      rewrite Vr, <- Vy. rewrite (Rplus_comm (value S a)), (Rplus_comm (value S a * / 2)). apply (tiny_half m _ _ (MAX_EXP S - 2)); [lia|apply (finite_representable S); assumption|lra|lra].
    + rewrite (less_test S HS) by auto. cbn [bind]. rewrite abs_value by assumption. rewrite Vl.
      destruct (halve_exact a m Wa Fa) as [st [h [Eh [Wy [Fy Vy]]]]]; [lra|].
      assert (Ah : (Rabs (value S h) = Rabs (value S a) * / 2)%R) by (rewrite Vy, Rabs_mult, (Rabs_pos_eq (/ 2)) by lra; reflexivity).
      destruct (Rlt_bool_spec (Rabs (value S b)) (bpow r2 (MIN_EXP S) * 2)) as [Lb|Lb]; rewrite Eh; cbn [bind].
      * assert (Hb : (max_finite S * / 2 < Rabs (value S a))%R).
        { destruct (Rle_bool_spec (Rabs (value S b)) (value S hi)) as [Q|Q]; [|lra]. destruct (Rle_bool_spec (Rabs (value S a)) (value S hi)) as [Q'|Q']; [discriminate|lra]. }
        assert (T4 : (Rabs (value S h + value S b) <= Rabs (value S h) + Rabs (value S b))%R) by apply Rabs_triang.
        destruct (sum h b m Wy Fy Wb Fb) as [st' [r [-> [Wr [Fr Vr]]]]]; [lra|]. cbn [bind]. exists r. split; [reflexivity|]. split; [exact Wr|]. split; [exact Fr|].
        rewrite Vr, <- Vy. apply (tiny_half m _ _ (MAX_EXP S - 2)); [lia|apply (finite_representable S); assumption|lra|lra].
      * destruct (halve_exact b m Wb Fb) as [st2 [k [-> [Wk [Fk Vk]]]]]; [lra|]. cbn [bind].
        assert (Ak : (Rabs (value S k) = Rabs (value S b) * / 2)%R) by (rewrite Vk, Rabs_mult, (Rabs_pos_eq (/ 2)) by lra; reflexivity).
        assert (T4 : (Rabs (value S h + value S k) <= Rabs (value S h) + Rabs (value S k))%R) by apply Rabs_triang.
        destruct (sum h k m Wy Fy Wk Fk) as [st' [r [-> [Wr [Fr Vr]]]]]; [lra|]. cbn [bind]. exists r. split; [reflexivity|]. split; [exact Wr|]. split; [exact Fr|].
        rewrite Vr, Vy, Vk. reflexivity.
Qed.
End LibFun.

(** ** The restriction to an interval *)
Lemma gt_is_lt : forall S x y, sem_ok S -> wf S x -> wf S y -> gt_f x y = lt_f y x.
Proof.
  intros S x y HS Wx Wy. destruct (partial_cmp_spec S x y HS Wx Wy) as [c [E H]]. destruct (partial_cmp_spec S y x HS Wy Wx) as [d [E' H']].
  unfold gt_f, lt_f. rewrite E, E'. cbn [bind]. f_equal.
  destruct (ext_of S x) as [a|]; destruct (ext_of S y) as [b|]; destruct c as [c|]; destruct d as [d|]; try contradiction; try reflexivity.
  destruct c, d; cbn [ext_compare] in H, H'; try reflexivity; subst; exfalso;
    first [exact (ext_lt_irrefl _ H)|exact (ext_lt_irrefl _ H')|exact (ext_lt_irrefl _ (ext_lt_trans _ _ _ H H'))].
Qed.
Theorem clamp_bounds : forall S x lo hi a b, sem_ok S -> wf S x -> wf S lo -> wf S hi ->
  ext_of S lo = Some a -> ext_of S hi = Some b -> ext_le a b ->
  exists r, c_clamp x lo hi = Ret r /\
    match ext_of S x with
    | None => r = x
    | Some c => exists d, ext_of S r = Some d /\ ext_le a d /\ ext_le d b /\
        (ext_le a c -> ext_le c b -> r = x) /\ (ext_lt c a -> r = lo) /\ (ext_lt b c -> r = hi)
    end.
Proof.
  intros S x lo hi a b HS Wx Wl Wh El Eh Hab. unfold c_clamp.
  assert (O : ge_f hi lo = Ret true).
  { destruct (partial_cmp_spec S hi lo HS Wh Wl) as [c [E H]]. unfold ge_f. rewrite E. cbn [bind]. rewrite El, Eh in H.
    destruct c as [c|]; [|contradiction]. destruct c; try reflexivity. exfalso. cbn [ext_compare] in H.
    destruct Hab as [L| ->]; [exact (ext_lt_irrefl _ (ext_lt_trans _ _ _ L H))|exact (ext_lt_irrefl _ H)]. }
  rewrite O. cbn [bind assertb]. rewrite (gt_is_lt S x hi HS Wx Wh).
  assert (contra : forall u v, ext_lt u v -> ext_le v u -> False).
  { intros u v L [L'| ->]; [exact (ext_lt_irrefl _ (ext_lt_trans _ _ _ L L'))|exact (ext_lt_irrefl _ L)]. }
  destruct (ext_of S x) as [c|] eqn:Ex.
  - destruct (lt_choice S HS x lo c a Wx Wl Ex El) as [g [-> [G1 G2]]]. cbn [bind]. destruct g.
    + exists lo. split; [reflexivity|]. exists a. specialize (G1 eq_refl). split; [exact El|]. split; [right; reflexivity|]. split; [exact Hab|].
      split; [intros Q; exfalso; exact (contra _ _ G1 Q)|]. split; [reflexivity|]. intros Q. exfalso. apply (contra _ _ (ext_lt_trans _ _ _ Q G1) Hab).
    + specialize (G2 eq_refl). destruct (lt_choice S HS hi x b c Wh Wx Eh Ex) as [g [-> [K1 K2]]]. cbn [bind]. destruct g.
      * specialize (K1 eq_refl). exists hi. split; [reflexivity|]. exists b. split; [exact Eh|]. split; [exact Hab|]. split; [right; reflexivity|].
        split; [intros _ Q; exfalso; exact (contra _ _ K1 Q)|]. split; [intros Q; exfalso; exact (contra _ _ Q G2)|reflexivity].
      * specialize (K2 eq_refl). exists x. split; [reflexivity|]. exists c. split; [exact Ex|]. split; [exact G2|]. split; [exact K2|].
        split; [reflexivity|]. split; intros Q; exfalso; [exact (contra _ _ Q G2)|exact (contra _ _ Q K2)].
  - assert (N : category x = NaN) by (unfold ext_of in Ex; destruct (category x); congruence).
    exists x. split; [|reflexivity].
    destruct (lt_f_spec S x lo HS Wx Wl) as [g [-> G]]. destruct (lt_f_spec S hi x HS Wh Wx) as [k [E K]]. rewrite Ex in G, K. cbn [bind].
    assert (g = false) as -> by (destruct g; [|reflexivity]; destruct (proj1 G eq_refl) as [? [? [? _]]]; discriminate). rewrite E. cbn [bind].
    assert (k = false) as -> by (destruct k; [|reflexivity]; destruct (proj1 K eq_refl) as [? [? [_ [? _]]]]; discriminate). reflexivity.
Qed.
Theorem clamp_panics : forall S x lo hi, sem_ok S -> wf S x -> wf S lo -> wf S hi ->
  c_clamp x lo hi = Panic <-> match ext_of S lo, ext_of S hi with Some a, Some b => ext_lt b a | _, _ => True end.
Proof.
  intros S x lo hi HS Wx Wl Wh. split.
  - intros E. destruct (ext_of S lo) as [a|] eqn:El; [|exact I]. destruct (ext_of S hi) as [b|] eqn:Eh; [|exact I].
    destruct (lt_choice S HS hi lo b a Wh Wl Eh El) as [g [_ [G1 G2]]]. destruct g; [exact (G1 eq_refl)|].
    destruct (clamp_bounds S x lo hi a b HS Wx Wl Wh El Eh (G2 eq_refl)) as [r [Er _]]. congruence.
  - intros H. unfold c_clamp. destruct (partial_cmp_spec S hi lo HS Wh Wl) as [c [E K]]. unfold ge_f. rewrite E. cbn [bind].
    destruct (ext_of S lo) as [a|]; destruct (ext_of S hi) as [b|]; destruct c as [c|]; try contradiction; try reflexivity.
    destruct c; try reflexivity; exfalso; cbn [ext_compare] in K; [subst; exact (ext_lt_irrefl _ H)|exact (ext_lt_irrefl _ (ext_lt_trans _ _ _ H K))].
Qed.
(** ** What does not hold *)
(** the remainder of a tiny negative number is the divisor itself *)
Lemma rem_euclid_strict_refuted : exists x y r, wf HalfS x /\ wf HalfS y /\ finite x /\ category y = Normal /\
  c_rem_euclid HalfS x y NearestTiesToEven = Ret (INEXACT, r) /\ value HalfS r = Rabs (value HalfS y).
Proof.
  exists (mkFloat 1 (-14) Normal true), h_one, h_one. split; [sample_wf|]. split; [exact h_one_wf|]. split; [left; reflexivity|]. split; [reflexivity|].
  split; [vm_compute; reflexivity|]. rewrite h_one_value, Rabs_R1. reflexivity.
Qed.
(** the quotient of 1537/512 by 1025/1024 is three, though the divisor goes into it only twice *)
Lemma div_euclid_refuted : exists x y q r, wf HalfS x /\ wf HalfS y /\ finite x /\ category y = Normal /\
  c_div_euclid HalfS h_one x y NearestTiesToEven = Ret (OK, q) /\ c_rem_euclid HalfS x y NearestTiesToEven = Ret (OK, r) /\
  value HalfS q = 3%R /\ value HalfS r = 1%R /\ (value HalfS x = 2 * value HalfS y + value HalfS r)%R.
Proof.
  exists (mkFloat 1537 1 Normal false), (mkFloat 1025 0 Normal false), (mkFloat 1536 1 Normal false), h_one.
  split; [sample_wf|]. split; [sample_wf|]. split; [left; reflexivity|]. split; [reflexivity|].
  split; [vm_compute; reflexivity|]. split; [vm_compute; reflexivity|]. unfold value. cbn. lra.
Qed.
