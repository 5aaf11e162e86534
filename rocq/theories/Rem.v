(** * Rem.v -- the truncated remainder and the IEEE remainder *)
From Coq Require Import ZArith Reals List Bool Lia Lra ZifyBool.
From Flocq Require Import Core.
From Flocq.Prop Require Import Sterbenz.
From Verif Require Import Machine Sig SpecSig Limbs SigProofs SigProofs2 SigProofs3 SigProofs4 SigProofs5 Ieee Spec Norm Arith Special Order Bits Int Scale Next Convert.
Import ListNotations.
Local Open Scope Z_scope.

Ltac Zify.zify_post_hook ::= idtac.

(** ** Auxiliary facts *)
Lemma side_nearest : forall S y, overflow_side_ok S NearestTiesToEven y.
Proof. intros S y _ _ [H|H]; discriminate. Qed.

(** a zero made by [normalize] is the constant zero of the format *)
Lemma tail_zero_exp : forall S x o m l st f, category x = Normal -> normalize_tail S x o m l = Ret (st, f) ->
  category f = Zero -> exp f = MIN_EXP S - 1.
Proof.
  intros S x o m l st f Cx H Cf. unfold normalize_tail in H.
  assert (Hov : forall x', Ret (overflow_result_signed S m x') = Ret (st, f) -> exp f = MIN_EXP S - 1).
  { intros x' E. exfalso. unfold overflow_result_signed, overflow_result, INFINITY, largest in E.
    destruct m; destruct (NONFINITE_BEHAVIOR S); rewrite copy_sign_eq in E; inversion E; subst; cbn in Cf; discriminate. }
  assert (Hfin : forall st' (x' : Float) o', category x' = Normal -> Ret (st', if o' =? 0 then copy_sign (ZERO S) x' else x') = Ret (st, f) -> exp f = MIN_EXP S - 1).
  { intros st' x' o' Cx' E. destruct (o' =? 0); inversion E; subst; [rewrite copy_sign_eq; reflexivity|congruence]. }
  destruct (hits_nan_pattern S x); [eauto|]. destruct (loss_eqb l ExactlyZero); [eauto|].
  destruct (round_away_from_zero x m l 0) as [away| |]; cbn [bind] in H; try discriminate.
  assert (Hf : forall x' o', category x' = Normal -> (if o' =? PRECISION S then Ret (INEXACT, x') else assertb (o' <? PRECISION S)
             (Ret (Z.lor UNDERFLOW INEXACT, if o' =? 0 then copy_sign (ZERO S) x' else x'))) = Ret (st, f) -> exp f = MIN_EXP S - 1).
  { intros x' o' Cx' E. destruct (o' =? PRECISION S); [inversion E; subst; congruence|].
    destruct (o' <? PRECISION S); cbn [assertb] in E; [|discriminate]. eauto. }
  destruct away; [|eauto].
  set (x1 := if o =? 0 then set_sig_exp x (sig x) (MIN_EXP S) else x) in *.
  assert (Cx1 : category x1 = Normal) by (unfold x1; destruct (o =? 0); assumption).
  clearbody x1. destruct (increment [sig x1]) as [l' c]. destruct (c =? 0); cbn [assertb] in H; [|discriminate].
  destruct (get l' 0) as [s0| |]; cbn [bind] in H; try discriminate.
  destruct (Sig.omsb _ =? PRECISION S + 1).
  - destruct (exp _ =? MAX_EXP S).
    + inversion H; subst. rewrite copy_sign_eq in Cf. unfold INFINITY in Cf. destruct (NONFINITE_BEHAVIOR S); cbn in Cf; discriminate.
    + destruct (shift_right _ _ _) as [[[l2 e2] l3]| |]; cbn [bind] in H; try discriminate.
      destruct (get l2 0); cbn [bind] in H; try discriminate. inversion H; subst. unfold set_sig_exp in Cf. cbn in Cf. congruence.
  - destruct (hits_nan_pattern S _); [eauto|]. eapply Hf; [|exact H]. exact Cx1.
Qed.

Lemma normalize_zero_exp : forall S x m l st f, category x = Normal -> normalize S x m l = Ret (st, f) ->
  category f = Zero -> exp f = MIN_EXP S - 1.
Proof.
  intros S x m l st f Cx H Cf. unfold normalize in H. rewrite is_finite_non_zero_spec, Cx in H. cbn [category_eqb negb] in H.
  destruct (0 <? _); [|eapply tail_zero_exp; eassumption].
  destruct (MAX_EXP S <? _).
  { exfalso. unfold overflow_result_signed, overflow_result, INFINITY, largest in H.
    destruct (round_negate_if m (is_negative x)); destruct (NONFINITE_BEHAVIOR S); rewrite copy_sign_eq in H; inversion H; subst; cbn in Cf; discriminate. }
  destruct (_ <? exp x).
  { destruct (loss_eqb l ExactlyZero); cbn [assertb] in H; [|discriminate].
    destruct (chk32 _); cbn [bind] in H; try discriminate. destruct (shift_left _ _ _) as [[l' e']| |]; cbn [bind] in H; try discriminate.
    destruct (get l' 0); cbn [bind] in H; try discriminate. inversion H; subst. unfold set_sig_exp in Cf. cbn in Cf. congruence. }
  destruct (exp x <? _); [|eapply tail_zero_exp; eassumption].
  destruct (chk32 _); cbn [bind] in H; try discriminate. destruct (shift_right _ _ _) as [[[l' e'] l3]| |]; cbn [bind] in H; try discriminate.
  destruct (get l' 0); cbn [bind] in H; try discriminate. eapply tail_zero_exp; [|exact H|exact Cf]. exact Cx.
Qed.

Lemma sub_r_zero_exp : forall S x y m st f, category x = Normal -> category y = Normal -> sub_r S x y m = Ret (st, f) ->
  category f = Zero -> exp f = MIN_EXP S - 1.
Proof.
  intros S x y m st f Cx Cy H Cf. unfold sub_r, add_r in H. change (category (neg y)) with (category y) in H. rewrite Cx, Cy in H.
  destruct (add_or_sub _ _ _ _ _ _) as [[[[l e] s] loss]| |]; cbn [bind] in H; try discriminate.
  destruct (get l 0); cbn [bind] in H; try discriminate.
  destruct (normalize _ _ _ _) as [[st' f']| |] eqn:E; cbn [bind] in H; try discriminate.
  destruct (_ || _); cbn [assertb] in H; [|discriminate].
  assert (exp f = exp f' /\ category f = category f') as [-> C].
  { destruct (_ && _); inversion H; subst; [rewrite with_sign_eq|]; split; reflexivity. }
  eapply normalize_zero_exp; [|exact E|congruence]. rewrite with_sign_eq. exact Cx.
Qed.

(** multiplying by a power of two at least one keeps a number in the format, if large enough *)
Lemma format_scale : forall S y k, sem_ok S -> 0 <= k -> generic_format r2 (fexp S) y -> generic_format r2 (fexp S) (y * bpow r2 k).
Proof.
  intros S y k HS Hk H. pose proof HS as [Hp _ _ _].
  assert (Prec_gt_0 (PRECISION S)) by (unfold Prec_gt_0; lia).
  apply FLT_format_generic in H; [|assumption]. destruct H as [[m e] H1 H2 H3]. cbn [Fnum Fexp] in *.
  apply generic_format_FLT. exists (Defs.Float r2 m (e + k)); cbn [Fnum Fexp].
  - rewrite H1. unfold F2R. cbn [Fnum Fexp]. rewrite bpow_plus. ring.
  - assumption.
  - lia.
Qed.

Lemma format_ieee_max : forall S y, sem_ok S -> NONFINITE_BEHAVIOR S = IEEE754 -> generic_format r2 (fexp S) y ->
  (y < bpow r2 (MAX_EXP S + 1))%R -> (y <= max_finite S)%R.
Proof.
  intros S y HS HN H Hy. apply Rnot_lt_le. intro Hlt.
  pose proof (gap_above S (max_sig S) (MAX_EXP S) y HS (canonical_max S HS) H Hlt) as G.
  destruct HS as [Hp _ _ _]. unfold max_sig in G. rewrite HN in G. replace (2 ^ PRECISION S - 1 + 1) with (2 ^ PRECISION S) in G by lia.
  rewrite IZR_pow2_bpow in G by lia. replace (PRECISION S + (MAX_EXP S - (PRECISION S - 1))) with (MAX_EXP S + 1) in G by lia. lra.
Qed.

Lemma sterbenz_diff : forall S a b, sem_ok S -> representable S a -> representable S b ->
  (0 < b)%R -> (b / 2 <= a <= 2 * b)%R -> representable S (a - b).
Proof.
  intros S a b HS [Fa Ma] [Fb Mb] Hb H. split.
  - pose proof HS as [Hp _ _ _]. assert (Prec_gt_0 (PRECISION S)) by (unfold Prec_gt_0; lia).
    apply sterbenz; try assumption; [apply fexp_valid; assumption|apply FLT_exp_monotone].
  - rewrite (Rabs_pos_eq b) in Mb by lra. rewrite (Rabs_pos_eq a) in Ma by lra. apply Rabs_le. lra.
Qed.

(** ** C18: [c_fmod] *)
Definition loop_result (S : Semantics) (x y r : Float) : Prop :=
  wf S r /\ finite r /\ (Rabs (value S r) < Rabs (value S y))%R /\
  (exists n, 0 <= n /\ Rabs (value S x) = (IZR n * Rabs (value S y) + Rabs (value S r))%R) /\
  (category r = Zero -> r = x \/ exp r = MIN_EXP S - 1) /\
  (category r = Normal -> sign r = sign x).

Lemma normal_abs_pos : forall S x, wf S x -> category x = Normal -> (0 < Rabs (value S x))%R.
Proof. intros S x H C. rewrite <- abs_value by assumption. rewrite abs_spec. rewrite value_normal by exact C. cbn [sgnr]. apply value_pos; assumption. Qed.

Lemma same_sign_sub : forall S x v, wf S x -> wf S v -> category x = Normal -> category v = Normal -> sign v = sign x ->
  (value S x - value S v = sgnr (sign x) (Rabs (value S x) - Rabs (value S v)))%R.
Proof.
  intros S x v Wx Wv Cx Cv Hs. pose proof (value_pos S x Wx Cx). pose proof (value_pos S v Wv Cv).
  rewrite !value_normal, Hs by assumption. rewrite !sgnr_abs by lra. destruct (sign x); cbn [sgnr]; ring.
Qed.

Lemma scalbn_exact : forall S y k, sem_ok S -> wf S y -> category y = Normal -> 0 <= k ->
  (Rabs (value S y) * bpow r2 k <= max_finite S)%R ->
  exists v, scalbn S y k = Ret v /\ wf S v /\ category v = Normal /\ sign v = sign y /\ value S v = (value S y * bpow r2 k)%R.
Proof.
  intros S y k HS Wy Cy Hk Hm. unfold scalbn.
  destruct (scalbn_r_normal S y k NearestTiesToEven HS Wy Cy (side_nearest _ _)) as [st [v [E C]]]. exists v. split; [exact E|].
  assert (representable S (value S y * bpow r2 k)) as HR.
  { split; [apply format_scale; [assumption|assumption|apply value_format; assumption]|].
    rewrite Rabs_mult, (Rabs_pos_eq (bpow _ _)) by apply bpow_ge_0. assumption. }
  destruct (cr_representable S _ _ _ _ _ HS HR C) as [_ [Fv Vv]].
  assert (Hnz : value S v <> 0%R).
  { rewrite Vv. pose proof (normal_abs_pos S y Wy Cy). pose proof (bpow_gt_0 r2 k).
    intro Z0. apply Rmult_integral in Z0. destruct Z0 as [Z0|Z0]; [rewrite Z0, Rabs_R0 in *; lra|lra]. }
  destruct C as [Wv [Sv _]]. split; [assumption|].
  assert (category v = Normal) as Cv by (destruct Fv as [F|F]; [exact F|]; exfalso; apply Hnz, value_zero; exact F).
  split; [assumption|]. split; [|assumption].
  rewrite (value_normal S y Cy) in Sv. pose proof (value_pos S y Wy Cy). pose proof (bpow_gt_0 r2 k). destruct Sv as [S1 [S2 _]].
  destruct (sign y); cbn [sgnr] in *; [apply S1|apply S2]; nra.
Qed.

Lemma scalbn_nan : forall S y k, sem_ok S -> wf S y -> category y = Normal -> 0 <= k -> NONFINITE_BEHAVIOR S = NanOnly ->
  (max_finite S < Rabs (value S y) * bpow r2 k)%R ->
  exists v, scalbn S y k = Ret v /\ category v = NaN.
Proof.
  intros S y k HS Wy Cy Hk HN Hm. unfold scalbn.
  destruct (scalbn_r_normal S y k NearestTiesToEven HS Wy Cy (side_nearest _ _)) as [st [v [E C]]]. exists v. split; [exact E|].
  destruct C as [_ [_ [_ C]]]. rewrite HN in C. apply C.
  unfold rounded. rewrite round_generic; [|apply valid_rnd_of|apply format_scale; [assumption|assumption|apply value_format; assumption]].
  rewrite Rabs_mult, (Rabs_pos_eq (bpow _ _)) by apply bpow_ge_0. assumption.
Qed.

Lemma cmp_abs_value : forall S x y, sem_ok S -> wf S x -> wf S y -> category x = Normal -> category y = Normal ->
  cmp_abs_normal x y = Ret (Rcompare (Rabs (value S x)) (Rabs (value S y))).
Proof.
  intros S x y HS Wx Wy Cx Cy. rewrite (cmp_abs_normal_spec S) by assumption. do 2 f_equal;
    rewrite value_mag by assumption; symmetry; apply sgnr_abs, Rlt_le, mag_pos; assumption.
Qed.

Lemma fmod_step : forall S x y, sem_ok S -> wf S x -> wf S y -> category x = Normal -> category y = Normal ->
  (Rabs (value S y) <= Rabs (value S x))%R ->
  exists ex e v, ilogb S x = Ret ex /\ (exists ey, ilogb S y = Ret ey /\ chk32 (ex - ey) = Ret e) /\
   (let! v := scalbn S y e in
      let! lower :=
        (if is_nan v then Ret true
         else let! c := cmp_abs_normal x v in Ret (ord_eqb c Lt)) in
      (if lower then let! e1 := chk32 (e - 1) in scalbn S y e1 else Ret v)) = Ret v /\
   wf S v /\ category v = Normal /\
   (bpow r2 ex <= Rabs (value S x))%R /\
   (exists k, 0 <= k /\ Rabs (value S v) = (Rabs (value S y) * bpow r2 k)%R) /\
   (Rabs (value S v) <= Rabs (value S x) < 2 * Rabs (value S v))%R /\
   (Rabs (value S x) - Rabs (value S v) < bpow r2 ex)%R.
Proof.
  intros S x y HS Wx Wy Cx Cy Hge. pose proof HS as [Hp Hmin Hmax _].
  destruct (ilogb_normal S x HS Wx Cx) as [ex [Ex [Bx Rx]]]. destruct (ilogb_normal S y HS Wy Cy) as [ey [Ey [By Ry]]].
  assert (ey < ex + 1) as Hey by (apply (lt_bpow r2); lra).
  set (A := Rabs (value S x)) in *. set (B := Rabs (value S y)) in *.
  assert (Hxm : (A <= max_finite S)%R) by (apply value_le_max; assumption).
  set (e := ex - ey). exists ex, e.
  assert (Ee : chk32 (ex - ey) = Ret e) by (apply chk32_ret; unfold e; lia).
  assert (Hbe : (bpow r2 ex <= B * bpow r2 e < bpow r2 (ex + 1))%R).
  { replace (bpow r2 ex) with (bpow r2 ey * bpow r2 e)%R by (rewrite <- bpow_plus; f_equal; unfold e; lia).
    replace (bpow r2 (ex + 1)) with (bpow r2 (ey + 1) * bpow r2 e)%R by (rewrite <- bpow_plus; f_equal; unfold e; lia).
    pose proof (bpow_gt_0 r2 e). split; [apply Rmult_le_compat_r; lra|apply Rmult_lt_compat_r; lra]. }
  assert (Hexp : bpow r2 (ex + 1) = (2 * bpow r2 ex)%R) by (rewrite bpow_plus_1; reflexivity).
  (* the lower candidate *)
  assert (Hlow : (A < B * bpow r2 e)%R -> exists v, (let! e1 := chk32 (e - 1) in scalbn S y e1) = Ret v /\
     wf S v /\ category v = Normal /\ (exists k, 0 <= k /\ Rabs (value S v) = (B * bpow r2 k)%R) /\
     (Rabs (value S v) <= A < 2 * Rabs (value S v))%R /\ (A - Rabs (value S v) < bpow r2 ex)%R).
  { intro Hlt. assert (1 <= e) as He1.
    { apply Z.nlt_ge. intro E0. assert (e = 0) as Z0 by (unfold e in *; lia). rewrite Z0 in Hlt. cbn [bpow] in Hlt. lra. }
    rewrite chk32_ret by (unfold e; lia). cbn [bind].
    assert (Hb1 : (B * bpow r2 e = 2 * (B * bpow r2 (e - 1)))%R).
    { replace e with ((e - 1) + 1) at 1 by lia. rewrite bpow_plus_1. change (IZR r2) with 2%R. ring. }
    destruct (scalbn_exact S y (e - 1) HS Wy Cy ltac:(lia)) as [v [E [Wv [Cv [_ Vv]]]]]; [fold B; lra|].
    exists v. split; [exact E|]. split; [assumption|]. split; [assumption|].
    assert (Rabs (value S v) = (B * bpow r2 (e - 1))%R) as Ev.
    { rewrite Vv, Rabs_mult, (Rabs_pos_eq (bpow _ _)) by apply bpow_ge_0. reflexivity. }
    rewrite Ev. split; [exists (e - 1); split; [lia|reflexivity]|]. lra. }
  destruct (Rle_or_lt (B * bpow r2 e) (max_finite S)) as [Hm|Hm].
  - destruct (scalbn_exact S y e HS Wy Cy ltac:(unfold e; lia) Hm) as [v [E [Wv [Cv [_ Vv]]]]].
    assert (Rabs (value S v) = (B * bpow r2 e)%R) as Ev.
    { rewrite Vv, Rabs_mult, (Rabs_pos_eq (bpow _ _)) by apply bpow_ge_0. reflexivity. }
    rewrite E. cbn [bind]. unfold is_nan. rewrite Cv. cbn [category_eqb].
    rewrite (cmp_abs_value S x v HS Wx Wv Cx Cv). cbn [bind]. fold A. rewrite Ev.
    destruct (Rcompare_spec A (B * bpow r2 e)) as [C|C|C]; cbn [ord_eqb].
    + destruct (Hlow C) as [w [W1 [W2 [W3 [W4 [W5 W6]]]]]]. exists w. split; [assumption|]. split; [exists ey; split; assumption|].
      split; [exact W1|]. split; [assumption|]. split; [assumption|]. split; [lra|]. split; [exact W4|]. split; assumption.
    + exists v. split; [assumption|]. split; [exists ey; split; assumption|]. split; [reflexivity|]. split; [assumption|]. split; [assumption|].
      rewrite Ev. split; [lra|]. split; [exists e; split; [unfold e; lia|reflexivity]|]. lra.
    + exists v. split; [assumption|]. split; [exists ey; split; assumption|]. split; [reflexivity|]. split; [assumption|]. split; [assumption|].
      rewrite Ev. split; [lra|]. split; [exists e; split; [unfold e; lia|reflexivity]|]. lra.
  - destruct (NONFINITE_BEHAVIOR S) eqn:HN.
    { exfalso. assert (B * bpow r2 e <= max_finite S)%R; [|lra]. apply format_ieee_max; try assumption.
      - apply format_scale; [assumption|unfold e; lia|]. apply generic_format_abs, value_format; assumption.
      - apply Rlt_le_trans with (bpow r2 (ex + 1)); [lra|]. apply bpow_le. lia. }
    destruct (scalbn_nan S y e HS Wy Cy ltac:(unfold e; lia) HN Hm) as [v [E Cv]].
    rewrite E. cbn [bind]. unfold is_nan. rewrite Cv. cbn [category_eqb bind].
    destruct (Hlow ltac:(lra)) as [w [W1 [W2 [W3 [W4 [W5 W6]]]]]]. exists w. split; [assumption|]. split; [exists ey; split; assumption|].
      split; [exact W1|]. split; [assumption|]. split; [assumption|]. split; [lra|]. split; [exact W4|]. split; assumption.
Qed.

Lemma c_fmod_loop_spec : forall S y, sem_ok S -> wf S y -> category y = Normal -> forall fuel x, wf S x -> finite x ->
  (Rabs (value S x) < bpow r2 (MIN_EXP S - (PRECISION S - 1) + Z.of_nat fuel))%R ->
  exists r, c_fmod_loop (Datatypes.S fuel) S x y = Ret r /\ loop_result S x y r.
Proof.
  intros S y HS Wy Cy. pose proof (normal_abs_pos S y Wy Cy) as HB. induction fuel as [|fuel IH]; intros x Wx Fx Hx.
  - assert (category x = Zero) as Zx.
    { apply (finite_value_zero S); try assumption. destruct (Req_dec (value S x) 0) as [E|E]; [assumption|exfalso].
      pose proof (gap_above_zero S (Rabs (value S x)) HS (generic_format_abs _ _ _ (value_format S x HS Wx)) (Rabs_pos_lt _ E)) as G.
      unfold min_positive in G. rewrite Z.add_0_r in Hx. lra. }
    exists x. split.
    + cbn [c_fmod_loop]. rewrite !is_finite_non_zero_spec, Zx. reflexivity.
    + rewrite (value_zero S x Zx), Rabs_R0 in *. unfold loop_result. rewrite (value_zero S x Zx), Rabs_R0.
      split; [assumption|]. split; [assumption|]. split; [assumption|]. split; [exists 0; split; [lia|lra]|]. split; [auto|congruence].
  - set (F := Datatypes.S fuel) in *. cbn [c_fmod_loop]. rewrite !is_finite_non_zero_spec, Cy.
    destruct Fx as [Cx|Cx]; rewrite Cx; cbn [category_eqb andb].
    2:{ cbn [bind]. exists x. split; [reflexivity|]. unfold loop_result. rewrite (value_zero S x Cx), Rabs_R0.
        split; [assumption|]. split; [right; assumption|]. split; [assumption|]. split; [exists 0; split; [lia|lra]|]. split; [auto|congruence]. }
    rewrite (cmp_abs_value S x y HS Wx Wy Cx Cy). cbn [bind].
    destruct (Rcompare_spec (Rabs (value S x)) (Rabs (value S y))) as [C|C|C]; cbn [ord_eqb negb].
    { exists x. split; [reflexivity|]. split; [assumption|]. split; [left; assumption|]. split; [assumption|].
      split; [exists 0; split; [lia|lra]|]. split; [congruence|auto]. }
    all: destruct (fmod_step S x y HS Wx Wy Cx Cy ltac:(lra)) as [ex [e [v [Ex [[ey [Ey Ee]] [Ev [Wv [Cv [Bx [[k [Hk Vk]] [Hv Hd]]]]]]]]]]].
    all: rewrite Ex; cbn [bind]; rewrite Ey; cbn [bind]; rewrite Ee; cbn [bind].
    all: destruct (scalbn S y e) as [v0| |]; cbn [bind] in Ev |- *; try discriminate.
    all: destruct (if is_nan v0 then _ else _) as [lower| |]; cbn [bind] in Ev |- *; try discriminate.
    all: rewrite Ev; cbn [bind].
    all: assert (Wc : wf S (copy_sign v x)) by (rewrite copy_sign_eq; exact Wv).
    all: assert (Cc : category (copy_sign v x) = Normal) by (rewrite copy_sign_eq; exact Cv).
    all: assert (Sc : sign (copy_sign v x) = sign x) by (rewrite copy_sign_eq; reflexivity).
    all: assert (Vc : Rabs (value S (copy_sign v x)) = Rabs (value S v)) by
      (rewrite (value_normal S _ Cc), (value_normal S _ Cv), copy_sign_eq; cbn [sig exp sign];
       pose proof (value_pos S v Wv Cv); rewrite !sgnr_abs by lra; reflexivity).
    all: set (w := copy_sign v x) in *; clearbody w.
    all: destruct (sub_r_finite S x w NearestTiesToEven HS Wx Wc (or_introl Cx) (or_introl Cc) (side_nearest _ _)) as [[st r] [E Hcr]].
    all: rewrite (same_sign_sub S x w Wx Wc Cx Cc Sc), Vc in Hcr.
    all: pose proof (normal_abs_pos S v Wv Cv) as HV.
    all: assert (Hrep : representable S (sgnr (sign x) (Rabs (value S x) - Rabs (value S v)))) by
      (assert (representable S (Rabs (value S x) - Rabs (value S v))) by
         (apply sterbenz_diff; try assumption; try lra; (split; [apply generic_format_abs, value_format; assumption|rewrite Rabs_Rabsolu; apply value_le_max; assumption]));
       destruct (sign x); cbn [sgnr]; [apply representable_opp|]; assumption).
    all: destruct (cr_representable S _ _ _ _ _ HS Hrep Hcr) as [-> [Fr Vr]].
    all: rewrite E; cbn [bind]; rewrite Z.eqb_refl; cbn [assertb].
    all: destruct Hcr as [Wr [Sr _]].
    all: assert (Ar : Rabs (value S r) = (Rabs (value S x) - Rabs (value S v))%R) by (rewrite Vr; apply sgnr_abs; lra).
    all: destruct (IH r Wr Fr) as [q [Eq [Wq [Fq [Lq [[n [Hn0 Hn]] [Zq Sq]]]]]]].
    1,3: rewrite Ar; apply Rlt_le_trans with (bpow r2 ex); [assumption|]; apply bpow_le;
      apply Z.lt_succ_r, (lt_bpow r2); eapply Rle_lt_trans; [exact Bx|]; eapply Rlt_le_trans; [exact Hx|]; apply bpow_le; unfold F; lia.
    all: exists q; split; [exact Eq|]; split; [assumption|]; split; [assumption|]; split; [assumption|]; split.
    1,3: exists (n + 2 ^ k); split; [pose proof (Z.pow_nonneg 2 k); lia|];
      rewrite plus_IZR, IZR_pow2 by assumption; rewrite Ar, Vk in Hn; lra.
    all: split.
    1,3: intro Cq; right; destruct (Zq Cq) as [->|]; [|assumption]; eapply sub_r_zero_exp; [exact Cx|exact Cc|exact E|assumption].
    all: intro Cq; rewrite (Sq Cq).
    all: assert (0 < Rabs (value S r))%R as Hr0 by
      (pose proof (normal_abs_pos S q Wq Cq); rewrite Hn; pose proof (IZR_le 0 n Hn0); nra).
    all: rewrite Ar in Hr0; destruct Sr as [S1 [S2 _]]; destruct (sign x); cbn [sgnr] in S1, S2; [apply S1|apply S2]; lra.
Qed.

Lemma fuel_enough : forall S, sem_ok S -> exists n, c_fmod_fuel S = Datatypes.S n /\
  (max_finite S < bpow r2 (MIN_EXP S - (PRECISION S - 1) + Z.of_nat n))%R.
Proof.
  intros S HS. pose proof HS as [Hp Hmin Hmax _]. exists (Z.to_nat (MAX_EXP S - MIN_EXP S + PRECISION S + 1)). split.
  - unfold c_fmod_fuel. rewrite <- Z2Nat.inj_succ by lia. f_equal. lia.
  - rewrite Z2Nat.id by lia. eapply Rlt_le_trans; [apply bpow_above_max; assumption|]. apply bpow_le. lia.
Qed.

Lemma Ztrunc_signs : forall a b n r, (0 < b)%R -> 0 <= n -> (0 <= r < b)%R -> a = (IZR n * b + r)%R ->
  forall g h, Ztrunc (sgnr g a / sgnr h b) = if xorb g h then - n else n.
Proof.
  intros a b n r Hb Hn Hr Ha g h.
  assert (T : Ztrunc (a / b) = n).
  { assert (a / b = IZR n + r / b)%R as -> by (rewrite Ha; field; lra).
    assert (0 <= r / b < 1)%R.
    { split; [apply Rmult_le_pos; [lra|apply Rlt_le, Rinv_0_lt_compat; lra]|]. apply Rmult_lt_reg_r with b; [assumption|]. unfold Rdiv. rewrite Rmult_assoc, Rinv_l by lra. lra. }
    pose proof (IZR_le _ _ Hn). rewrite Ztrunc_floor by lra. apply Zfloor_imp. rewrite plus_IZR. lra. }
  assert (sgnr g a / sgnr h b = sgnr (xorb g h) (a / b))%R as ->.
  { destruct g, h; cbn [sgnr xorb]; field; lra. }
  destruct (xorb g h); cbn [sgnr]; [rewrite Ztrunc_opp|]; rewrite T; reflexivity.
Qed.

Lemma c_fmod_normal : forall S x y, sem_ok S -> wf S x -> wf S y -> category x = Normal -> category y = Normal ->
  exists r, c_fmod S x y = Ret (OK, r) /\ wf S r /\ finite r /\ sign r = sign x /\
    (Rabs (value S r) < Rabs (value S y))%R /\
    (exists n, 0 <= n /\ Rabs (value S x) = (IZR n * Rabs (value S y) + Rabs (value S r))%R) /\
    (category r = Zero -> exp r = MIN_EXP S - 1).
Proof.
  intros S x y HS Wx Wy Cx Cy. unfold c_fmod. rewrite Cx, Cy. destruct (fuel_enough S HS) as [n [-> Hn]].
  destruct (c_fmod_loop_spec S y HS Wy Cy n x Wx (or_introl Cx)) as [r [E [Wr [Fr [Lr [Er [Zr Sr]]]]]]].
  { eapply Rle_lt_trans; [apply value_le_max; assumption|exact Hn]. }
  rewrite E. cbn [bind]. unfold is_zero. destruct Fr as [Cr|Cr]; rewrite Cr; cbn [category_eqb].
  - exists r. split; [reflexivity|]. split; [assumption|]. split; [left; assumption|]. split; [auto|]. split; [assumption|]. split; [assumption|congruence].
  - exists (copy_sign r x). split; [reflexivity|]. rewrite copy_sign_eq.
    split; [exact Wr|]. split; [right; exact Cr|]. split; [reflexivity|].
    assert (value S {| sig := sig r; exp := exp r; category := category r; sign := sign x |} = value S r) as ->.
    { rewrite (value_zero S r Cr). apply value_zero. exact Cr. }
    split; [assumption|]. split; [assumption|]. intros _. cbn [exp]. destruct (Zr Cr) as [->|]; [congruence|assumption].
Qed.

Theorem c_fmod_finite : forall S x y, sem_ok S -> wf S x -> wf S y -> finite x -> category y = Normal ->
  exists r, c_fmod S x y = Ret (OK, r) /\ wf S r /\ finite r /\
    value S r = (value S x - IZR (Ztrunc (value S x / value S y)) * value S y)%R /\
    sign r = sign x /\ (Rabs (value S r) < Rabs (value S y))%R.
Proof.
  intros S x y HS Wx Wy [Cx|Cx] Cy.
  - destruct (c_fmod_normal S x y HS Wx Wy Cx Cy) as [r [E [Wr [Fr [Sr [Lr [[n [Hn0 Hn]] Zr]]]]]]].
    exists r. split; [exact E|]. split; [assumption|]. split; [assumption|]. split; [|split; assumption].
    pose proof (value_pos S x Wx Cx) as Px. pose proof (value_pos S y Wy Cy) as Py.
    rewrite (value_normal S x Cx), (value_normal S y Cy) in *. rewrite (sgnr_abs (sign x)) in Hn by lra. rewrite (sgnr_abs (sign y)) in Hn, Lr by lra.
    assert (Vr : value S r = sgnr (sign x) (Rabs (value S r))).
    { destruct Fr as [Cr|Cr].
      - pose proof (value_pos S r Wr Cr). rewrite (value_normal S r Cr), Sr. rewrite sgnr_abs by lra. reflexivity.
      - rewrite (value_zero S r Cr), Rabs_R0, sgnr_0. reflexivity. }
    rewrite (Ztrunc_signs _ _ n (Rabs (value S r)) Py Hn0 (conj (Rabs_pos _) Lr) Hn). rewrite Vr at 1.
    rewrite Hn. destruct (sign x), (sign y); cbn [sgnr xorb]; rewrite ?opp_IZR; ring.
  - unfold c_fmod. rewrite Cx, Cy. exists x. split; [reflexivity|]. split; [assumption|]. split; [right; assumption|].
    rewrite (value_zero S x Cx), Rabs_R0. unfold Rdiv. rewrite Rmult_0_l. change 0%R with (IZR 0) at 3. rewrite Ztrunc_IZR.
    split; [ring|]. split; [reflexivity|]. apply normal_abs_pos; assumption.
Qed.

(** ** C19: [ieee_rem] *)
Lemma ext_compare_R : forall a b c, ext_compare (Fin a) (Fin b) c -> c = Rcompare a b.
Proof.
  intros a b c H. symmetry. destruct c; cbn in H.
  - apply Rcompare_Eq. congruence.
  - apply Rcompare_Lt. assumption.
  - apply Rcompare_Gt. assumption.
Qed.

Lemma partial_cmp_finite : forall S x y, sem_ok S -> wf S x -> wf S y -> finite x -> finite y ->
  partial_cmp x y = Ret (Some (Rcompare (value S x) (value S y))).
Proof.
  intros S x y HS Wx Wy Fx Fy. destruct (partial_cmp_spec S x y HS Wx Wy) as [r [E H]]. rewrite E.
  rewrite (ext_of_finite S x Fx), (ext_of_finite S y Fy) in H. destruct r as [c|]; [|contradiction].
  rewrite (ext_compare_R _ _ _ H). reflexivity.
Qed.

(** doubling without loss, as far as comparisons with a number of the format can tell *)
Lemma lossless_2x_cmp : forall S x p, sem_ok S -> wf S x -> finite x -> (category x = Zero -> exp x = MIN_EXP S - 1) ->
  wf S p -> category p = Normal -> sign p = false ->
  exists x2, lossless_2x S x = Ret x2 /\ partial_cmp x2 p = Ret (Some (Rcompare (2 * value S x) (value S p))).
Proof.
  intros S x p HS Wx Fx Zx Wp Cp Sp. pose proof HS as [Hp Hmin Hmax _].
  pose proof (value_pos S p Wp Cp) as Pp.
  assert (Vp : value S p = (IZR (sig p) * bpow r2 (exp p - (PRECISION S - 1)))%R) by (rewrite (value_normal S p Cp), Sp; reflexivity).
  unfold lossless_2x. destruct Fx as [Cx|Cx].
  - pose proof (wf_normal_canonical S x Wx Cx) as [K1 [K2 [K3 _]]]. pose proof (value_pos S x Wx Cx) as Px.
    rewrite chk32_ret by lia. cbn [bind]. unfold set_sig_exp. cbn [exp].
    assert (V2 : (2 * value S x = sgnr (sign x) (IZR (sig x) * bpow r2 (exp x + 1 - (PRECISION S - 1))))%R).
    { rewrite (value_normal S x Cx). replace (exp x + 1 - (PRECISION S - 1)) with (exp x - (PRECISION S - 1) + 1) by lia.
      rewrite bpow_plus_1. change (IZR r2) with 2%R. destruct (sign x); cbn [sgnr]; ring. }
    destruct (Z.leb_spec (MAX_EXP S) (exp x + 1)) as [Hbig|Hsmall].
    + eexists. split; [reflexivity|]. unfold partial_cmp. cbn [category sign]. rewrite Cx, Cp. unfold is_negative. cbn [sign]. rewrite Sp.
      destruct (sign x) eqn:Sx; cbn [negb bool_cmp].
      { do 2 f_equal. symmetry. apply Rcompare_Lt. rewrite (value_normal S x Cx), Sx, Vp. cbn [sgnr]. lra. }
      rewrite V2. cbn [sgnr]. unfold cmp_abs_normal. rewrite !is_finite_non_zero_spec. cbn [category exp sig]. rewrite Cp. cbn [category_eqb assertb].
      pose proof (wf_normal_canonical S p Wp Cp) as [L1 [L2 [L3 _]]].
      assert (Hfull : 2 ^ (PRECISION S - 1) <= sig x) by lia.
      destruct (Z.compare_spec (exp x + 1) (exp p)) as [E|E|E].
      * rewrite (cmp_spec [sig x] [sig p] (limb_1 _ (proj1 Wx)) (limb_1 _ (proj1 Wp)) eq_refl). cbn [bind].
        rewrite !lval_single, Vp, E. do 2 f_equal. rewrite Rcompare_mult_r by apply bpow_gt_0. symmetry. apply Rcompare_IZR.
      * lia.
      * cbn [bind]. do 2 f_equal. symmetry. apply Rcompare_Gt. rewrite Vp.
        pose proof (full_binade S (sig x) (exp x + 1) HS ltac:(lia)) as [B1 _].
        eapply Rlt_le_trans; [|exact B1].
        apply Rlt_le_trans with (IZR (2 ^ PRECISION S) * bpow r2 (exp p - (PRECISION S - 1)))%R; [apply bpow_pos_mult_lt; lia|].
        rewrite IZR_pow2_bpow by lia. apply bpow_le. lia.
    + destruct (normalize_correct S (mkFloat (sig x) (exp x + 1) Normal (sign x)) NearestTiesToEven ExactlyZero
        (IZR (sig x) * bpow r2 (exp x + 1 - (PRECISION S - 1)))%R HS eq_refl) as [[st f] [E C]]; cbn [sig exp sign].
      { exact (proj1 Wx). }
      { lia. }
      { apply Rmult_le_pos; [apply IZR_le; lia|apply bpow_ge_0]. }
      { apply between_exact. reflexivity. }
      { left. reflexivity. }
      { intros _ H. contradiction. }
      { apply side_nearest. }
      cbn [sign] in C. rewrite <- V2 in C. rewrite Cx, E. cbn [bind].
      assert (HR : representable S (2 * value S x)).
      { split.
        - rewrite Rmult_comm. change 2%R with (bpow r2 1). apply format_scale; [assumption|lia|apply value_format; assumption].
        - rewrite V2, sgnr_abs by (apply Rmult_le_pos; [apply IZR_le; lia|apply bpow_ge_0]).
          apply Rle_trans with (IZR (2 ^ PRECISION S) * bpow r2 (exp x + 1 - (PRECISION S - 1)))%R; [apply bpow_pos_mult_le; lia|].
          rewrite IZR_pow2_bpow by lia. pose proof (max_sig_bounds S HS) as M.
          apply Rle_trans with (IZR (2 ^ (PRECISION S - 1)) * bpow r2 (MAX_EXP S - (PRECISION S - 1)))%R; [|apply bpow_pos_mult_le; lia].
          rewrite IZR_pow2_bpow by lia. apply bpow_le. lia. }
      destruct (cr_representable S _ _ _ _ _ HS HR C) as [-> [Ff Vf]]. cbn [Z.eqb assertb OK].
      eexists. split; [reflexivity|]. destruct C as [Wf _].
      rewrite (partial_cmp_finite S f p HS Wf Wp Ff (or_introl Cp)), Vf. reflexivity.
  - rewrite (Zx Cx). rewrite chk32_ret by lia. cbn [bind]. unfold set_sig_exp. cbn [exp].
    destruct (Z.leb_spec (MAX_EXP S) (MIN_EXP S - 1 + 1)) as [H|_]; [lia|].
    unfold normalize. rewrite is_finite_non_zero_spec. cbn [category]. rewrite Cx. cbn [category_eqb negb bind Z.eqb OK assertb].
    eexists. split; [reflexivity|]. unfold partial_cmp. cbn [category]. rewrite Cp. unfold is_negative. rewrite Sp. cbn [negb bool_cmp].
    do 2 f_equal. symmetry. apply Rcompare_Lt. rewrite (value_zero S x Cx), Vp. lra.
Qed.

(** an exact subtraction of nearby numbers *)
Lemma sub_r_near : forall S x p, sem_ok S -> wf S x -> category x = Normal -> wf S p -> category p = Normal -> (0 < value S p)%R ->
  (value S p / 2 <= value S x <= 2 * value S p)%R ->
  exists r, sub_r S x p NearestTiesToEven = Ret (OK, r) /\ wf S r /\ finite r /\ value S r = (value S x - value S p)%R /\
    (category r = Zero -> exp r = MIN_EXP S - 1).
Proof.
  intros S x p HS Wx Cx Wp Cp Hp Hn.
  destruct (sub_r_finite S x p NearestTiesToEven HS Wx Wp (or_introl Cx) (or_introl Cp) (side_nearest _ _)) as [[st r] [E C]].
  assert (HR : representable S (value S x - value S p)) by (apply sterbenz_diff; try assumption; apply finite_representable; try assumption; left; assumption).
  destruct (cr_representable S _ _ _ _ _ HS HR C) as [-> [Fr Vr]]. exists r. split; [assumption|]. destruct C as [Wr _].
  split; [assumption|]. split; [assumption|]. split; [assumption|]. intro Zr. eapply sub_r_zero_exp; [exact Cx|exact Cp|exact E|exact Zr].
Qed.

Lemma abs_facts : forall S x, wf S x -> finite x -> wf S (abs x) /\ finite (abs x) /\ category (abs x) = category x /\ exp (abs x) = exp x /\ sign (abs x) = false /\
  value S (abs x) = Rabs (value S x).
Proof.
  intros S x Wx Fx. rewrite <- abs_value by assumption. rewrite abs_spec. split; [exact Wx|]. split; [exact Fx|]. repeat split.
Qed.

Theorem ieee_rem_normal : forall S x y, sem_ok S -> wf S x -> wf S y -> category x = Normal -> category y = Normal ->
  exists r n, ieee_rem S x y = Ret (OK, r) /\ wf S r /\ finite r /\
    value S r = (value S x - IZR n * value S y)%R /\
    (2 * Rabs (value S r) <= Rabs (value S y))%R /\
    (2 * Rabs (value S r) = Rabs (value S y) -> Z.even n = true)%R /\
    (value S r = 0%R -> sign r = sign x).
Proof.
  intros S x y HS Wx Wy Cx Cy. unfold ieee_rem. rewrite Cx, Cy.
  pose proof (normal_abs_pos S y Wy Cy) as HP.
  destruct (add_r_finite S y y NearestTiesToEven HS Wy Wy (or_introl Cy) (or_introl Cy) (side_nearest _ _)) as [[st p2] [E2 C2]].
  rewrite E2. cbn [bind]. replace (value S y + value S y)%R with (value S y * bpow r2 1)%R in C2 by (change (bpow r2 1) with 2%R; ring).
  assert (F2 : generic_format r2 (fexp S) (value S y * bpow r2 1)) by (apply format_scale; [assumption|lia|apply value_format; assumption]).
  assert (A2 : Rabs (value S y * bpow r2 1) = (2 * Rabs (value S y))%R).
  { rewrite Rabs_mult. change (bpow r2 1) with 2%R. rewrite (Rabs_pos_eq 2) by lra. ring. }
  (* the reduction modulo twice the divisor *)
  assert (Hred : exists x1 n, (if st =? OK then let! '(status, x) := c_fmod S x p2 in assertb (status =? OK) (Ret x) else Ret x) = Ret x1 /\
     wf S x1 /\ finite x1 /\ (category x1 = Zero -> exp x1 = MIN_EXP S - 1) /\
     Rabs (value S x) = (IZR (2 * n) * Rabs (value S y) + Rabs (value S x1))%R /\ (Rabs (value S x1) < 2 * Rabs (value S y))%R).
  { destruct (Rle_or_lt (2 * Rabs (value S y)) (max_finite S)) as [Hm|Hm].
    - assert (HR : representable S (value S y * bpow r2 1)) by (split; [assumption|lra]).
      destruct (cr_representable S _ _ _ _ _ HS HR C2) as [-> [Fp2 Vp2]]. cbn [Z.eqb OK]. destruct C2 as [Wp2 _].
      assert (Cp2 : category p2 = Normal).
      { destruct Fp2 as [F|F]; [assumption|]. exfalso. apply (value_zero S) in F. rewrite F in Vp2. rewrite <- Vp2, Rabs_R0 in A2. lra. }
      destruct (c_fmod_normal S x p2 HS Wx Wp2 Cx Cp2) as [r [E [Wr [Fr [_ [Lr [[n [_ Hn]] Zr]]]]]]].
      rewrite E. cbn [bind Z.eqb OK assertb]. exists r, n. split; [reflexivity|]. rewrite Vp2, A2 in Hn, Lr.
      split; [assumption|]. split; [assumption|]. split; [assumption|]. split; [|assumption]. rewrite Hn, mult_IZR. ring.
    - assert (st <> OK) as Hst.
      { destruct C2 as [_ [_ [_ C2]]]. unfold rounded in C2. rewrite round_generic in C2; [|apply valid_rnd_of|assumption].
        rewrite A2 in C2. destruct (C2 Hm) as [-> _]. discriminate. }
      rewrite (proj2 (Z.eqb_neq _ _) Hst). exists x, 0. split; [reflexivity|]. split; [assumption|]. split; [left; assumption|].
      split; [congruence|]. split; [cbn [Z.mul]; lra|]. pose proof (value_le_max S x HS Wx). lra. }
  destruct Hred as [x1 [n [-> [W1 [F1 [Z1 [Hn L1]]]]]]]. cbn [bind].
  destruct (abs_facts S x1 W1 F1) as [Wa [Fa [Ca [Xa [Sa Va]]]]]. destruct (abs_facts S y Wy (or_introl Cy)) as [Wp [_ [Cp [_ [Sp Vp]]]]].
  rewrite Cy in Cp. set (a := abs x1) in *. set (p := abs y) in *. clearbody a p.
  destruct (lossless_2x_cmp S a p HS Wa Fa ltac:(intro; rewrite Xa; apply Z1; congruence) Wp Cp Sp) as [x2 [El Ecmp]].
  rewrite El. cbn [bind]. unfold gt_f at 1. rewrite Ecmp. cbn [bind]. rewrite <- Va in Hn, L1. rewrite <- Vp in HP, L1, Hn.
  assert (Ha0 : (0 <= value S a)%R) by (rewrite Va; apply Rabs_pos).
  (* the reduced operand minus a small multiple of the divisor *)
  assert (Hfin : exists r k, (if match Rcompare (2 * value S a) (value S p) with Gt => true | _ => false end then
      let! '(status, x) := sub_r S a p NearestTiesToEven in assertb (status =? OK)
        (let! x2 := lossless_2x S x in let! b := ge_f x2 p in
         if b then let! '(status, x) := sub_r S x p NearestTiesToEven in assertb (status =? OK) (Ret x) else Ret x)
      else Ret a) = Ret r /\ wf S r /\ finite r /\ value S r = (value S a - IZR k * value S p)%R /\
      (2 * Rabs (value S r) <= value S p)%R /\ (2 * Rabs (value S r) = value S p -> Z.even k = true)%R).
  { destruct (Rcompare_spec (2 * value S a) (value S p)) as [C|C|C].
    1,2: exists a, 0; split; [reflexivity|]; split; [assumption|]; split; [assumption|]; split; [lra|]; rewrite Rabs_pos_eq by assumption;
      split; [lra|reflexivity].
    assert (Cna : category a = Normal) by (destruct Fa as [F|F]; [assumption|apply (value_zero S) in F; lra]).
    destruct (sub_r_near S a p HS Wa Cna Wp Cp HP ltac:(lra)) as [b [Eb [Wb [Fb [Vb Zb]]]]].
    rewrite Eb. cbn [bind Z.eqb OK assertb].
    destruct (lossless_2x_cmp S b p HS Wb Fb Zb Wp Cp Sp) as [b2 [El2 Ecmp2]]. rewrite El2. cbn [bind]. unfold ge_f. rewrite Ecmp2. cbn [bind].
    assert (Hlow : (2 * value S b < value S p)%R -> exists k, wf S b /\ finite b /\ value S b = (value S a - IZR k * value S p)%R /\
      (2 * Rabs (value S b) <= value S p)%R /\ (2 * Rabs (value S b) = value S p -> Z.even k = true)%R).
    { intro Hlt. exists 1. split; [assumption|]. split; [assumption|]. split; [lra|]. assert (2 * Rabs (value S b) < value S p)%R; [|split; lra].
      unfold Rabs. destruct (Rcase_abs (value S b)); lra. }
    assert (Hhigh : (value S p <= 2 * value S b)%R -> exists r k, (let! '(status, x) := sub_r S b p NearestTiesToEven in assertb (status =? OK) (Ret x)) = Ret r /\
       wf S r /\ finite r /\ value S r = (value S a - IZR k * value S p)%R /\
      (2 * Rabs (value S r) <= value S p)%R /\ (2 * Rabs (value S r) = value S p -> Z.even k = true)%R).
    { intro Hge. assert (Cnb : category b = Normal) by (destruct Fb as [F|F]; [assumption|apply (value_zero S) in F; lra]).
      destruct (sub_r_near S b p HS Wb Cnb Wp Cp HP ltac:(lra)) as [c [Ec [Wc [Fc [Vc Zc]]]]]. rewrite Ec. cbn [bind Z.eqb OK assertb].
      exists c, 2. split; [reflexivity|]. split; [assumption|]. split; [assumption|]. split; [lra|]. split; [|reflexivity].
      unfold Rabs. destruct (Rcase_abs (value S c)); lra. }
    destruct (Rcompare_spec (2 * value S b) (value S p)) as [D|D|D].
    - destruct (Hlow D) as [k HH]. exists b, k. split; [reflexivity|exact HH].
    - apply Hhigh. lra.
    - apply Hhigh. lra. }
  destruct Hfin as [r [k [-> [Wr [Fr [Vr [B1 B2]]]]]]]. cbn [bind].
  (* putting the signs back *)
  assert (Vx : value S x = sgnr (sign x) (Rabs (value S x))).
  { pose proof (value_pos S x Wx Cx). rewrite (value_normal S x Cx). rewrite sgnr_abs by lra. reflexivity. }
  assert (Vy : value S y = sgnr (sign y) (value S p)).
  { rewrite Vp. pose proof (value_pos S y Wy Cy). rewrite (value_normal S y Cy). rewrite sgnr_abs by lra. reflexivity. }
  set (q := if xorb (sign x) (sign y) then - (2 * n + k) else 2 * n + k).
  assert (Hq : sgnr (sign x) (value S r) = (value S x - IZR q * value S y)%R).
  { rewrite Vx, Vy, Hn, Vr. unfold q. destruct (sign x), (sign y); cbn [sgnr xorb]; rewrite ?opp_IZR, plus_IZR; ring. }
  assert (Hqe : Z.even k = true -> Z.even q = true).
  { intro Hk. unfold q. destruct (xorb _ _); rewrite ?Z.even_opp, Z.even_add, Z.even_mul, Hk; reflexivity. }
  rewrite <- Vp. unfold is_zero, is_negative. destruct Fr as [Cr|Cr]; rewrite Cr; cbn [category_eqb].
  - exists (negate_if r (sign x)), q. split; [reflexivity|]. rewrite value_negate_if, negate_if_eq.
    split; [exact Wr|]. split; [left; exact Cr|]. split; [exact Hq|].
    assert (Rabs (sgnr (sign x) (value S r)) = Rabs (value S r)) as -> by (destruct (sign x); cbn [sgnr]; [apply Rabs_Ropp|reflexivity]).
    split; [exact B1|]. split; [auto|]. intro Z0. exfalso. pose proof (normal_abs_pos S r Wr Cr) as N.
    assert (value S r = 0%R) as Z2 by (destruct (sign x); cbn [sgnr] in Z0; lra). rewrite Z2, Rabs_R0 in N. lra.
  - exists (copy_sign r x), q. split; [reflexivity|]. rewrite copy_sign_eq. rewrite (value_zero S) by exact Cr.
    rewrite (value_zero S r Cr), sgnr_0 in Hq. rewrite (value_zero S r Cr) in B1, B2.
    split; [exact Wr|]. split; [right; exact Cr|]. split; [exact Hq|]. split; [exact B1|]. split; [auto|]. intros _. reflexivity.
Qed.

Theorem ieee_rem_finite : forall S x y, sem_ok S -> wf S x -> wf S y -> finite x -> category y = Normal ->
  exists r n, ieee_rem S x y = Ret (OK, r) /\ wf S r /\ finite r /\
    value S r = (value S x - IZR n * value S y)%R /\
    (2 * Rabs (value S r) <= Rabs (value S y))%R /\
    (2 * Rabs (value S r) = Rabs (value S y) -> Z.even n = true)%R /\
    (value S r = 0%R -> sign r = sign x).
Proof.
  intros S x y HS Wx Wy [Cx|Cx] Cy; [apply ieee_rem_normal; assumption|].
  exists x, 0. unfold ieee_rem. rewrite Cx, Cy. split; [reflexivity|]. split; [assumption|]. split; [right; assumption|].
  rewrite (value_zero S x Cx), Rabs_R0. pose proof (normal_abs_pos S y Wy Cy).
  split; [ring|]. split; [lra|]. split; reflexivity.
Qed.

(** the quotient of the IEEE remainder is the nearest integer, ties to even *)
Lemma nearest_quotient : forall a b n r, b <> 0%R -> r = (a - IZR n * b)%R -> (2 * Rabs r <= Rabs b)%R ->
  ((2 * Rabs r = Rabs b)%R -> Z.even n = true) -> ZnearestE (a / b) = n.
Proof.
  intros a b n r Hb Hr H1 H2.
  assert (Q : (a / b - IZR n = r / b)%R) by (rewrite Hr; field; assumption).
  assert (Hab : (0 < Rabs b)%R) by (apply Rabs_pos_lt; assumption).
  assert (A : Rabs (a / b - IZR n) = (Rabs r / Rabs b)%R).
  { rewrite Q. unfold Rdiv. rewrite Rabs_mult. f_equal. apply Rabs_inv. }
  destruct (Rle_lt_or_eq_dec _ _ H1) as [L|E].
  - apply Znearest_imp. rewrite A. apply Rmult_lt_reg_r with (Rabs b); [assumption|]. unfold Rdiv. rewrite Rmult_assoc, Rinv_l by lra. lra.
  - specialize (H2 E). assert (A' : Rabs (a / b - IZR n) = (/ 2)%R) by (rewrite A, <- E; field; rewrite <- E in Hab; lra).
    set (t := (a / b)%R) in *. unfold Rabs in A'. destruct (Rcase_abs (t - IZR n)) as [Hneg|Hpos].
    + assert (Zfloor t = n - 1) as Ef by (apply Zfloor_imp; rewrite plus_IZR, minus_IZR; lra).
      assert (Zceil t = n) as Ec by (apply Zceil_imp; rewrite minus_IZR; lra).
      unfold Znearest. rewrite Ef, Ec. rewrite Rcompare_Eq by (rewrite minus_IZR; lra).
      rewrite Z.even_sub, H2. reflexivity.
    + assert (Zfloor t = n) as Ef by (apply Zfloor_imp; rewrite plus_IZR; lra).
      unfold Znearest. rewrite Ef. rewrite Rcompare_Eq by lra. rewrite H2. reflexivity.
Qed.
