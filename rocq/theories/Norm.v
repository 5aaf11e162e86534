(** * Norm.v -- [normalize] delivers the correctly rounded result *)
From Coq Require Import ZArith Reals List Bool Lia Lra ZifyBool.
From Flocq Require Import Core Bracket Round.
From Verif Require Import Machine Sig SpecSig Limbs SigProofs SigProofs2 SigProofs3 SigProofs4 SigProofs5 Ieee Spec.
Import ListNotations.
Local Open Scope Z_scope.

Ltac Zify.zify_post_hook ::= idtac.

(** ** Lost fractions as Flocq locations *)
Definition loc_of (l : Loss) : location :=
  match l with
  | ExactlyZero => loc_Exact
  | LessThanHalf => loc_Inexact Lt
  | ExactlyHalf => loc_Inexact Eq
  | MoreThanHalf => loc_Inexact Gt
  end.

Definition between (m e : Z) (v : R) (l : Loss) : Prop := inbetween_float r2 m e v (loc_of l).

Lemma between_shift : forall m e v l k, 0 < k -> between m e v l ->
  between (m / 2 ^ k) (e + k) v (combine (loss_of (m mod 2 ^ k) (2 ^ k)) l).
Proof.
  intros m e v l k Hk H. unfold between in *.
  pose proof (inbetween_float_new_location r2 v m e (loc_of l) k ltac:(lia) H) as X.
  change (Zpower r2 k) with (2 ^ k) in X.
  replace (loc_of (combine (loss_of (m mod 2 ^ k) (2 ^ k)) l)) with (new_location (2 ^ k) (m mod 2 ^ k) (loc_of l)); [exact X|].
  unfold new_location.
  assert (Z.even (2 ^ k) = true) as -> by (rewrite Z.even_pow by lia; reflexivity).
  unfold new_location_even, loss_of. set (r := m mod 2 ^ k).
  pose proof (Zeq_bool_if r 0) as Z0. destruct (Zeq_bool r 0).
  - subst r. rewrite Z0. rewrite Z.eqb_refl. destruct l; reflexivity.
  - destruct (Z.eqb_spec r 0); [contradiction|].
    destruct (2 * r ?= 2 ^ k); destruct l; reflexivity.
Qed.

Lemma between_exact : forall m e v, between m e v ExactlyZero <-> v = (IZR m * bpow r2 e)%R.
Proof.
  intros m e v. unfold between, inbetween_float, F2R. cbn [Fnum Fexp loc_of]. split.
  - intro H. inversion H. assumption.
  - intro H. constructor. exact H.
Qed.

Lemma between_shift_left : forall m e v k, 0 <= k -> between m e v ExactlyZero ->
  between (m * 2 ^ k) (e - k) v ExactlyZero.
Proof.
  intros m e v k Hk H. rewrite between_exact in *. rewrite H. rewrite mult_IZR.
  rewrite (IZR_Zpower r2) by lia. rewrite Rmult_assoc, <- bpow_plus. f_equal. f_equal. lia.
Qed.

Lemma between_bounds : forall m e v l, between m e v l ->
  (IZR m * bpow r2 e <= v < IZR (m + 1) * bpow r2 e)%R.
Proof.
  intros m e v l H. exact (inbetween_float_bounds r2 v m e (loc_of l) H).
Qed.

Lemma between_inexact : forall m e v l, between m e v l -> l <> ExactlyZero ->
  (IZR m * bpow r2 e < v < IZR (m + 1) * bpow r2 e)%R.
Proof.
  intros m e v l H Hl. unfold between, inbetween_float, F2R in H. cbn [Fnum Fexp] in H.
  inversion H as [H1 H2|c H1 H2 H3]; [destruct l; try discriminate; contradiction|exact H1].
Qed.

(** between from an integer fraction: [v = (n / d) * 2^e] *)
Lemma between_frac : forall n d e v, 0 < d ->
  (v * IZR d = IZR n * bpow r2 e)%R ->
  between (n / d) e v (loss_of (n mod d) d).
Proof.
  intros n d e v Hd Hv. pose proof (Z.mod_pos_bound n d Hd) as Hm. pose proof (Z.div_mod n d ltac:(lia)) as Hn.
  set (q := n / d) in *. set (r := n mod d) in *. clearbody q r.
  assert (0 < IZR d)%R as Hd' by (apply IZR_lt; lia).
  assert (v = (IZR q + IZR r / IZR d) * bpow r2 e)%R as Hv'.
  { apply (Rmult_eq_reg_r (IZR d)); [|lra]. rewrite Hv, Hn, plus_IZR, mult_IZR. field. lra. }
  assert (0 < bpow r2 e)%R as He by apply bpow_gt_0.
  unfold between, inbetween_float, F2R. cbn [Fnum Fexp].
  unfold loss_of. destruct (Z.eqb_spec r 0) as [->|Hr].
  { constructor. rewrite Hv'. unfold Rdiv. rewrite Rmult_0_l, Rplus_0_r. reflexivity. }
  assert (0 < IZR r)%R as Hr' by (apply IZR_lt; lia).
  assert (0 < IZR r / IZR d)%R as Hf0 by (apply Rdiv_lt_0_compat; assumption).
  assert (IZR r / IZR d < 1)%R as Hf1.
  { apply (Rmult_lt_reg_r (IZR d)); [assumption|]. unfold Rdiv. rewrite Rmult_assoc, Rinv_l, Rmult_1_r, Rmult_1_l by lra. apply IZR_lt. lia. }
  set (f := (IZR r / IZR d)%R) in *.
  assert (IZR r = f * IZR d)%R as Hrf by (unfold f; field; lra).
  assert (loc_of match 2 * r ?= d with Eq => ExactlyHalf | Lt => LessThanHalf | Gt => MoreThanHalf end = loc_Inexact (2 * r ?= d)) as ->
    by (destruct (2 * r ?= d); reflexivity).
  constructor.
  - rewrite Hv', plus_IZR. split; nra.
  - rewrite Hv', plus_IZR.
    assert (IZR (2 * r) = 2 * f * IZR d)%R as H2 by (rewrite mult_IZR, Hrf; ring).
    destruct (Z.compare_spec (2 * r) d) as [E|E|E].
    + apply Rcompare_Eq. rewrite E in H2. assert (f = / 2)%R as -> by nra. field.
    + apply Rcompare_Lt. apply IZR_lt in E. assert (f < / 2)%R by nra. nra.
    + apply Rcompare_Gt. apply IZR_lt in E. assert (/ 2 < f)%R by nra. nra.
Qed.

(** ** Rounding a bracketed value *)
Definition goes_away (m : Round) (s : bool) (l : Loss) (odd : bool) : bool :=
  match m with
  | NearestTiesToEven => match l with MoreThanHalf => true | ExactlyHalf => odd | _ => false end
  | NearestTiesToAway => match l with MoreThanHalf | ExactlyHalf => true | _ => false end
  | TowardPositive => match l with ExactlyZero => false | _ => negb s end
  | TowardNegative => match l with ExactlyZero => false | _ => s end
  | TowardZero => false
  end.

Definition sgnr (s : bool) (v : R) : R := if s then (- v)%R else v.

Lemma sgnr_abs : forall s v, (0 <= v)%R -> Rabs (sgnr s v) = v.
Proof. intros [|] v Hv; cbn [sgnr]; [rewrite Rabs_Ropp|]; apply Rabs_pos_eq; assumption. Qed.
Lemma sgnr_lt0 : forall s v, (0 < v)%R -> Rlt_bool (sgnr s v) 0 = s.
Proof. intros [|] v Hv; cbn [sgnr]; [apply Rlt_bool_true|apply Rlt_bool_false]; lra. Qed.
Lemma sgnr_mult : forall s a b, sgnr s (a * b)%R = (sgnr s a * b)%R.
Proof. intros [|] a b; cbn [sgnr]; ring. Qed.
Lemma signed_sgnr : forall s m, IZR (signed s m) = sgnr s (IZR m).
Proof. intros [|] m; cbn [signed sgnr]; [apply opp_IZR|reflexivity]. Qed.

Lemma rounded_between : forall S m s v mm e l, (0 < v)%R ->
  cexp r2 (fexp S) v = e -> between mm e v l ->
  rounded S m (sgnr s v) =
  sgnr s (IZR (cond_incr (goes_away m s l (negb (Z.even mm))) mm) * bpow r2 e)%R.
Proof.
  intros S m s v mm e l Hv He Hb. unfold rounded.
  assert (cexp r2 (fexp S) (sgnr s v) = e) as He' by (destruct s; cbn [sgnr]; [rewrite cexp_opp|]; assumption).
  assert (Hx : inbetween_float r2 mm (cexp r2 (fexp S) (sgnr s v)) (Rabs (sgnr s v)) (loc_of l)).
  { rewrite He', sgnr_abs by lra. exact Hb. }
  assert (E : forall choice, (forall x m' l', inbetween_int m' (Rabs x) l' ->
      rnd_of m x = cond_Zopp (Rlt_bool x 0) (choice (Rlt_bool x 0) m' l')) ->
      round r2 (fexp S) (rnd_of m) (sgnr s v) = sgnr s (IZR (choice s mm (loc_of l)) * bpow r2 e)%R).
  { intros choice Hc. rewrite (inbetween_float_round_sign r2 (fexp S) (rnd_of m) choice Hc _ _ _ Hx).
    rewrite He', sgnr_lt0 by assumption. unfold F2R. cbn [Fnum Fexp].
    destruct s; cbn [cond_Zopp sgnr]; [rewrite opp_IZR; ring|reflexivity]. }
  destruct m; cbn [rnd_of] in E |- *.
  - rewrite (E (fun s m l => cond_incr (round_N (negb (Z.even m)) l) m)).
    + destruct l; reflexivity.
    + intros x m' l' H. apply inbetween_int_NE_sign. exact H.
  - rewrite (E (fun s m l => cond_incr (round_sign_UP s l) m)).
    + destruct l; reflexivity.
    + intros x m' l' H. apply inbetween_int_UP_sign. exact H.
  - rewrite (E (fun s m l => cond_incr (round_sign_DN s l) m)).
    + destruct l; reflexivity.
    + intros x m' l' H. apply inbetween_int_DN_sign. exact H.
  - rewrite (E (fun s m l => m)).
    + destruct l; reflexivity.
    + intros x m' l' H. apply inbetween_int_ZR_sign with l'. exact H.
  - rewrite (E (fun s m l => cond_incr (round_N true l) m)).
    + destruct l; reflexivity.
    + intros x m' l' H. apply inbetween_int_NA_sign. exact H.
Qed.

(** the exponent of a bracketed value *)
Lemma cexp_between : forall S mm e v l, sem_ok S -> (0 < v)%R ->
  0 <= mm < 2 ^ PRECISION S -> MIN_EXP S <= e ->
  e = MIN_EXP S \/ 2 ^ (PRECISION S - 1) <= mm ->
  between mm (e - (PRECISION S - 1)) v l ->
  cexp r2 (fexp S) v = e - (PRECISION S - 1).
Proof.
  intros S mm e v l [Hp _ _ _] Hv Hm He Hor Hb. apply between_bounds in Hb.
  set (p := PRECISION S) in *. unfold cexp, fexp, FLT_exp. fold p.
  assert (v < bpow r2 (e + 1))%R as Hup.
  { apply Rlt_le_trans with (1 := proj2 Hb). replace (e + 1) with (p + (e - (p - 1))) by lia. rewrite bpow_plus.
    apply Rmult_le_compat_r; [apply bpow_ge_0|]. rewrite <- (IZR_Zpower r2) by lia. apply IZR_le. change (Zpower r2 p) with (2 ^ p). lia. }
  assert (mag r2 v <= e + 1) as Hmag by (apply mag_le_bpow; [lra|rewrite Rabs_pos_eq by lra; assumption]).
  destruct Hor as [Hmin|Hnorm].
  - lia.
  - assert (e + 1 <= mag r2 v) as Hlo.
    { replace (e + 1) with ((e - (p - 1)) + (p - 1) + 1) by lia. apply mag_ge_bpow.
      replace (e - (p - 1) + (p - 1) + 1 - 1) with ((p - 1) + (e - (p - 1))) by lia. rewrite bpow_plus, Rabs_pos_eq by lra.
      apply Rle_trans with (2 := proj1 Hb). apply Rmult_le_compat_r; [apply bpow_ge_0|].
      rewrite <- (IZR_Zpower r2) by lia. apply IZR_le. exact Hnorm. }
    lia.
Qed.

(** ** Constants of a format *)
Lemma p_pow : forall S, sem_ok S -> 4 <= 2 ^ (PRECISION S - 1) /\ 2 ^ PRECISION S = 2 * 2 ^ (PRECISION S - 1) /\
  2 ^ PRECISION S * 4 <= 2 ^ 128.
Proof.
  intros S [Hp _ _ _]. split; [|split].
  - change 4 with (2 ^ 2). apply Z.pow_le_mono_r; lia.
  - rewrite <- Z.pow_succ_r by lia. f_equal. lia.
  - change 4 with (2 ^ 2). rewrite <- Z.pow_add_r by lia. apply Z.pow_le_mono_r; lia.
Qed.

Lemma max_sig_bounds : forall S, sem_ok S -> 2 ^ (PRECISION S - 1) <= max_sig S <= 2 ^ PRECISION S - 1.
Proof. intros S HS. destruct (p_pow S HS) as [H1 [H2 _]]. unfold max_sig. destruct (NONFINITE_BEHAVIOR S); lia. Qed.

Lemma largest_sig : forall S, sem_ok S -> sig (largest S) = max_sig S.
Proof.
  intros S HS. destruct (p_pow S HS) as [H1 [H2 H3]]. destruct HS as [Hp _ _ _].
  unfold largest, max_sig. cbn [sig]. set (p := PRECISION S) in *.
  assert (forall x, 0 <= x -> Z.land (2 ^ p - 1) x = x mod 2 ^ p) as Hl.
  { intros x Hx. rewrite Z.land_comm. apply land_ones_mod. lia. }
  assert (2 ^ 128 = 2 ^ p * 2 ^ (128 - p)) as E by (rewrite <- Z.pow_add_r by lia; f_equal; lia).
  destruct (NONFINITE_BEHAVIOR S); rewrite Hl by (unfold not128, LIMB_MAX; lia); unfold not128, LIMB_MAX; rewrite E.
  - replace (2 ^ p * 2 ^ (128 - p) - 1 - 0) with (2 ^ p - 1 + (2 ^ (128 - p) - 1) * 2 ^ p) by ring.
    rewrite Z.mod_add by lia. apply Z.mod_small. lia.
  - replace (2 ^ p * 2 ^ (128 - p) - 1 - 1) with (2 ^ p - 2 + (2 ^ (128 - p) - 1) * 2 ^ p) by ring.
    rewrite Z.mod_add by lia. apply Z.mod_small. lia.
Qed.

Lemma largest_eq : forall S, sem_ok S -> largest S = mkFloat (max_sig S) (MAX_EXP S) Normal false.
Proof. intros S HS. rewrite <- (largest_sig S HS). reflexivity. Qed.

Lemma canonical_max : forall S, sem_ok S -> canonical_normal S (max_sig S) (MAX_EXP S).
Proof.
  intros S HS. destruct (p_pow S HS) as [H1 [H2 H3]]. pose proof (max_sig_bounds S HS) as Hm.
  destruct HS as [Hp Hmin Hmax _]. unfold canonical_normal. split; [lia|]. split; [lia|]. split; [lia|].
  intros Hn _. unfold max_sig. rewrite Hn. lia.
Qed.

Lemma wf_normal : forall S s e g, sem_ok S -> canonical_normal S s e -> wf S (mkFloat s e Normal g).
Proof.
  intros S s e g HS H. destruct (p_pow S HS) as [H1 [H2 H3]]. destruct HS as [Hp Hmin Hmax _].
  unfold wf. cbn [sig exp category]. destruct H as [Ha [Hb Hc]].
  split; [unfold limb; lia|]. split; [unfold i32; lia|]. split; [assumption|]. split; assumption.
Qed.

Lemma copy_sign_eq : forall x y, copy_sign x y = mkFloat (sig x) (exp x) (category x) (sign y).
Proof.
  intros [xs xe xc xg] y. unfold copy_sign, neg, is_negative. cbn [sig exp category sign].
  destruct xg, (sign y); reflexivity.
Qed.
Lemma with_sign_eq : forall x s, with_sign x s = mkFloat (sig x) (exp x) (category x) s.
Proof.
  intros [xs xe xc xg] s. unfold with_sign, negate_if, neg, is_negative. cbn [sig exp category sign].
  destruct xg, s; reflexivity.
Qed.
Lemma negate_if_eq : forall x s, negate_if x s = mkFloat (sig x) (exp x) (category x) (xorb (sign x) s).
Proof.
  intros [xs xe xc xg] s. unfold negate_if, neg, is_negative. cbn [sig exp category sign].
  destruct xg, s; reflexivity.
Qed.

Lemma wf_zero : forall S g, sem_ok S -> wf S (mkFloat 0 (MIN_EXP S - 1) Zero g).
Proof.
  intros S g [Hp Hmin Hmax _]. unfold wf. cbn [sig exp category]. split; [apply limb_0|]. split; [unfold i32; lia|exact I].
Qed.

Definition inf_category (S : Semantics) : Category :=
  match NONFINITE_BEHAVIOR S with IEEE754 => Infinity | NanOnly => NaN end.

Lemma nan_sig_NAN : forall S, sem_ok S -> nan_sig S (sig (NAN S)) /\ limb (sig (NAN S)) /\ i32 (exp (NAN S)).
Proof.
  intros S HS. destruct (p_pow S HS) as [H1 [H2 H3]]. destruct HS as [Hp Hmin Hmax Hnf].
  unfold NAN, qnan, nan_sig. cbn [sig exp]. rewrite Z.lor_0_r. unfold limb, i32.
  destruct (NONFINITE_BEHAVIOR S).
  - destruct Hnf as [-> [_ Hq]]. rewrite Z.lor_0_l. destruct (X87 S).
    + destruct Hq as [-> ->]. lia.
    + rewrite Hq. assert (0 < 2 ^ (PRECISION S - 2) < 2 ^ (PRECISION S - 1)).
      { split; [apply pow2_gt0; lia|apply Z.pow_lt_mono_r; lia]. } lia.
  - destruct Hnf as [-> [_ [-> _]]]. rewrite Z.lor_0_r. lia.
Qed.

Lemma INFINITY_facts : forall S g, sem_ok S ->
  wf S (mkFloat (sig (INFINITY S)) (exp (INFINITY S)) (category (INFINITY S)) g) /\
  category (INFINITY S) = inf_category S.
Proof.
  intros S g HS. pose proof (nan_sig_NAN S HS) as [Hn1 [Hn2 Hn3]]. destruct HS as [Hp Hmin Hmax Hnf].
  unfold INFINITY, inf_category, wf. destruct (NONFINITE_BEHAVIOR S) eqn:E; cbn [sig exp category].
  - split; [|reflexivity]. split; [apply limb_0|]. split; [unfold i32; lia|reflexivity].
  - split; [|reflexivity]. split; [assumption|]. split; assumption.
Qed.

(** ** Building [correctly_rounded] *)
Definition finite_status (S : Semantics) (l : Loss) (s2 : Z) : Z :=
  if loss_eqb l ExactlyZero then OK
  else if s2 <? 2 ^ (PRECISION S - 1) then Z.lor UNDERFLOW INEXACT else INEXACT.

Lemma has_sign_sgnr : forall v zs s e c g, (0 < v)%R -> has_sign (sgnr g v) zs (mkFloat s e c g).
Proof.
  intros v zs s e c g Hv. unfold has_sign. cbn [sign]. destruct g; cbn [sgnr]; repeat split; intros; try reflexivity; lra.
Qed.

Lemma bpow_pos_mult_le : forall a b e, a <= b -> (IZR a * bpow r2 e <= IZR b * bpow r2 e)%R.
Proof. intros a b e H. apply Rmult_le_compat_r; [apply bpow_ge_0|apply IZR_le; assumption]. Qed.
Lemma bpow_pos_mult_lt : forall a b e, a < b -> (IZR a * bpow r2 e < IZR b * bpow r2 e)%R.
Proof. intros a b e H. apply Rmult_lt_compat_r; [apply bpow_gt_0|apply IZR_lt; assumption]. Qed.
Lemma IZR_pow2_bpow : forall k e, 0 <= k -> (IZR (2 ^ k) * bpow r2 e = bpow r2 (k + e))%R.
Proof. intros k e H. change 2 with (radix_val r2). rewrite (IZR_Zpower r2) by lia. rewrite bpow_plus. reflexivity. Qed.

Lemma finite_le_max : forall S s e, sem_ok S -> canonical_normal S s e ->
  (IZR s * bpow r2 (e - (PRECISION S - 1)) <= max_finite S)%R.
Proof.
  intros S s e HS [H1 [H2 [H3 H4]]]. pose proof (max_sig_bounds S HS) as Hm. destruct (p_pow S HS) as [P1 [P2 P3]].
  unfold max_finite. destruct (Z.eq_dec e (MAX_EXP S)) as [->|Hne].
  - apply bpow_pos_mult_le. unfold max_sig. destruct (NONFINITE_BEHAVIOR S) eqn:E; [lia|]. specialize (H4 eq_refl eq_refl). lia.
  - destruct HS as [Hp Hmin Hmax _].
    apply Rle_trans with (IZR (2 ^ PRECISION S) * bpow r2 (e - (PRECISION S - 1)))%R; [apply bpow_pos_mult_le; lia|].
    apply Rle_trans with (IZR (2 ^ (PRECISION S - 1)) * bpow r2 (MAX_EXP S - (PRECISION S - 1)))%R; [|apply bpow_pos_mult_le; lia].
    rewrite !IZR_pow2_bpow by lia. apply bpow_le. lia.
Qed.

Lemma loss_eqb_exact : forall l, loss_eqb l ExactlyZero = true <-> l = ExactlyZero.
Proof. intros [| | |]; split; intro H; try reflexivity; discriminate. Qed.

(** exactness of the rounded bracket *)
Lemma rounded_exact_iff : forall S m s v mm e l, (0 < v)%R ->
  cexp r2 (fexp S) v = e -> between mm e v l ->
  (rounded S m (sgnr s v) = sgnr s v <-> l = ExactlyZero).
Proof.
  intros S m s v mm e l Hv He Hb. rewrite (rounded_between S m s v mm e l Hv He Hb).
  split; intro H.
  - destruct l; [reflexivity| | |].
    all: exfalso; pose proof (between_inexact _ _ _ _ Hb ltac:(discriminate)) as [B1 B2];
      assert (IZR (cond_incr (goes_away m s _ (negb (Z.even mm))) mm) * bpow r2 e = v)%R as X
        by (revert H; destruct s; cbn [sgnr]; [intro H; apply Ropp_eq_compat in H; rewrite !Ropp_involutive in H|intro H]; exact H);
      rewrite <- X in B1, B2; unfold cond_incr in B1, B2;
      match type of B1 with context [if ?b then _ else _] => destruct b end; lra.
  - rewrite H. assert (goes_away m s ExactlyZero (negb (Z.even mm)) = false) as -> by (destruct m; reflexivity).
    cbn [cond_incr]. rewrite H in Hb. apply between_exact in Hb. rewrite Hb. reflexivity.
Qed.

Lemma cr_finite : forall {pol} S m v zs s2 e2 g l mm e, sem_ok S -> (0 < v)%R ->
  cexp r2 (fexp S) v = e -> between mm e v l ->
  canonical_normal S s2 e2 ->
  (IZR (cond_incr (goes_away m g l (negb (Z.even mm))) mm) * bpow r2 e = IZR s2 * bpow r2 (e2 - (PRECISION S - 1)))%R ->
  delivers pol S m (sgnr g v) zs (finite_status S l s2, mkFloat s2 e2 Normal g).
Proof.
  intros pol S m v zs s2 e2 g l mm e HS Hv He Hb Hcan Hr.
  pose proof (rounded_between S m g v mm e l Hv He Hb) as R1. rewrite Hr in R1.
  pose proof (rounded_exact_iff S m g v mm e l Hv He Hb) as R2.
  unfold delivers. cbv zeta.
  split; [apply wf_normal; assumption|]. split; [apply has_sign_sgnr; assumption|].
  assert (Hpos : (0 <= IZR s2 * bpow r2 (e2 - (PRECISION S - 1)))%R).
  { apply Rmult_le_pos; [apply IZR_le; destruct Hcan; lia|apply bpow_ge_0]. }
  assert (Habs : Rabs (rounded S m (sgnr g v)) = (IZR s2 * bpow r2 (e2 - (PRECISION S - 1)))%R).
  { rewrite R1. apply sgnr_abs. assumption. }
  rewrite Habs. pose proof (finite_le_max S s2 e2 HS Hcan) as Hmax.
  split; [intros _|intro Hbad; exfalso; lra].
  split; [left; reflexivity|]. split.
  { unfold value. cbn [category sig exp sign]. rewrite signed_sgnr, R1, sgnr_mult. reflexivity. }
  assert (Hsub : s2 < 2 ^ (PRECISION S - 1) -> (IZR s2 * bpow r2 (e2 - (PRECISION S - 1)) < min_normal S)%R).
  { intro Hs. destruct Hcan as [_ [_ [Hor _]]]. assert (e2 = MIN_EXP S) as -> by lia.
    unfold min_normal. replace (MIN_EXP S) with ((PRECISION S - 1) + (MIN_EXP S - (PRECISION S - 1))) at 2 by lia.
    rewrite <- IZR_pow2_bpow by (destruct HS; lia). apply bpow_pos_mult_lt. assumption. }
  assert (Hnor : 2 ^ (PRECISION S - 1) <= s2 -> (min_normal S <= IZR s2 * bpow r2 (e2 - (PRECISION S - 1)))%R).
  { intro Hs. destruct Hcan as [_ [He2 _]]. unfold min_normal.
    apply Rle_trans with (bpow r2 e2); [apply bpow_le; lia|].
    replace e2 with ((PRECISION S - 1) + (e2 - (PRECISION S - 1))) at 1 by lia.
    rewrite <- IZR_pow2_bpow by (destruct HS; lia). apply bpow_pos_mult_le. assumption. }
  unfold finite_status. destruct (loss_eqb l ExactlyZero) eqn:El.
  - apply loss_eqb_exact in El. apply R2 in El. split; [reflexivity|]. split; intros Hne; contradiction.
  - split. { intro X. apply R2 in X. rewrite X in El. discriminate. }
    destruct (Z.ltb_spec s2 (2 ^ (PRECISION S - 1))) as [Hs|Hs].
    + split; [intros _ X; exfalso; specialize (Hsub Hs); lra|intros _ _; reflexivity].
    + split; [intros _ _; reflexivity|intros _ X; exfalso; specialize (Hnor Hs); lra].
Qed.

Lemma cr_zero : forall {pol} S m v zs g l mm e, sem_ok S -> (0 < v)%R ->
  cexp r2 (fexp S) v = e -> between mm e v l ->
  (IZR (cond_incr (goes_away m g l (negb (Z.even mm))) mm) = 0)%R -> l <> ExactlyZero ->
  delivers pol S m (sgnr g v) zs (Z.lor UNDERFLOW INEXACT, mkFloat 0 (MIN_EXP S - 1) Zero g).
Proof.
  intros pol S m v zs g l mm e HS Hv He Hb Hr Hl.
  pose proof (rounded_between S m g v mm e l Hv He Hb) as R1. rewrite Hr, Rmult_0_l in R1.
  assert (sgnr g 0 = 0)%R as Z0 by (destruct g; cbn [sgnr]; ring). rewrite Z0 in R1.
  pose proof (rounded_exact_iff S m g v mm e l Hv He Hb) as R2.
  unfold delivers. cbv zeta. rewrite R1, Rabs_R0.
  split; [apply wf_zero; assumption|]. split; [apply has_sign_sgnr; assumption|].
  assert (0 < min_normal S)%R as Hmn by (apply bpow_gt_0).
  assert (0 <= max_finite S)%R as Hmf.
  { unfold max_finite. apply Rmult_le_pos; [apply IZR_le|apply bpow_ge_0]. pose proof (max_sig_bounds S HS).
    destruct (p_pow S HS). lia. }
  split; [intros _|intro X; exfalso; lra].
  split; [right; reflexivity|]. split; [reflexivity|].
  split. { intro X. rewrite R1 in R2. exfalso. apply Hl. apply R2. exact X. }
  split; [intros _ X; exfalso; lra|intros _ _; reflexivity].
Qed.

(** zero from zero *)
Lemma cr_exact_zero : forall {pol} S m zs, sem_ok S ->
  delivers pol S m 0 zs (OK, mkFloat 0 (MIN_EXP S - 1) Zero zs).
Proof.
  intros pol S m zs HS. unfold delivers. cbv zeta.
  assert (rounded S m 0 = 0)%R as -> by (unfold rounded; apply round_0; destruct m; cbn [rnd_of]; auto with typeclass_instances).
  rewrite Rabs_R0.
  split; [apply wf_zero; assumption|].
  split; [unfold has_sign; cbn [sign]; repeat split; intros; try reflexivity; lra|].
  assert (0 <= max_finite S)%R as Hmf.
  { unfold max_finite. apply Rmult_le_pos; [apply IZR_le|apply bpow_ge_0]. pose proof (max_sig_bounds S HS).
    destruct (p_pow S HS). lia. }
  split; [intros _|intro X; exfalso; lra].
  split; [right; reflexivity|]. split; [reflexivity|]. split; [reflexivity|]. split; intro X; contradiction.
Qed.

Lemma overflow_signed_eq : forall S m f, sem_ok S ->
  overflow_result_signed S m f =
  match m with
  | NearestTiesToEven | NearestTiesToAway | TowardPositive =>
    (Z.lor OVERFLOW INEXACT, mkFloat (sig (INFINITY S)) (exp (INFINITY S)) (category (INFINITY S)) (sign f))
  | _ => (INEXACT, mkFloat (max_sig S) (MAX_EXP S) Normal (sign f))
  end.
Proof.
  intros S m f HS. unfold overflow_result_signed, overflow_result.
  destruct m; rewrite ?copy_sign_eq, ?(largest_eq S HS); reflexivity.
Qed.

Lemma cr_overflow : forall {pol} S m v zs m' f, sem_ok S -> (0 < v)%R ->
  (max_finite S < Rabs (rounded S m (sgnr (sign f) v)))%R ->
  (match m' with NearestTiesToEven | NearestTiesToAway | TowardPositive => true | _ => false end = pol (sign f)) ->
  delivers pol S m (sgnr (sign f) v) zs (overflow_result_signed S m' f).
Proof.
  intros pol S m v zs m' f HS Hv Hov Hm. rewrite overflow_signed_eq by assumption.
  destruct (INFINITY_facts S (sign f) HS) as [Hw Hc].
  assert (HI : pol (sign f) = true -> delivers pol S m (sgnr (sign f) v) zs
    (Z.lor OVERFLOW INEXACT, mkFloat (sig (INFINITY S)) (exp (INFINITY S)) (category (INFINITY S)) (sign f))).
  { intro Ht. unfold delivers. cbv zeta. split; [assumption|]. split; [apply has_sign_sgnr; assumption|].
    split; [intro X; exfalso; lra|intros _]. cbn [sign category]. rewrite Ht. split; [reflexivity|exact Hc]. }
  assert (HL : pol (sign f) = false -> delivers pol S m (sgnr (sign f) v) zs
    (INEXACT, mkFloat (max_sig S) (MAX_EXP S) Normal (sign f))).
  { intro Ht. unfold delivers. cbv zeta. split; [apply wf_normal; [assumption|apply canonical_max; assumption]|].
    split; [apply has_sign_sgnr; assumption|].
    split; [intro X; exfalso; lra|intros _]. cbn [sign category]. rewrite Ht. split; [reflexivity|]. split; [reflexivity|].
    unfold value. cbn [category sign sig exp]. rewrite signed_sgnr, <- sgnr_mult. apply sgnr_abs.
    apply Rmult_le_pos; [apply IZR_le|apply bpow_ge_0]. pose proof (max_sig_bounds S HS). destruct (p_pow S HS). lia. }
  destruct m'; first [apply HI; symmetry; exact Hm | apply HL; symmetry; exact Hm].
Qed.

Lemma valid_rnd_of : forall m, Valid_rnd (rnd_of m).
Proof. destruct m; cbn [rnd_of]; auto with typeclass_instances. Qed.

Lemma fexp_valid : forall S, sem_ok S -> Valid_exp (fexp S).
Proof. intros S [Hp _ _ _]. apply FLT_exp_valid. red. lia. Qed.

Lemma format_canonical : forall S s e g, sem_ok S -> canonical_normal S s e ->
  generic_format r2 (fexp S) (sgnr g (IZR s * bpow r2 (e - (PRECISION S - 1)))).
Proof.
  intros S s e g HS [H1 [H2 _]]. destruct HS as [Hp _ _ _]. apply generic_format_FLT.
  exists (Defs.Float r2 (signed g s) (e - (PRECISION S - 1))).
  - unfold F2R. cbn [Fnum Fexp]. rewrite signed_sgnr. apply sgnr_mult.
  - cbn [Fnum]. change (Zpower r2 (PRECISION S)) with (2 ^ PRECISION S). unfold signed. destruct g; lia.
  - cbn [Fexp]. lia.
Qed.

Lemma rounded_le_max : forall S m x, sem_ok S -> (Rabs x <= max_finite S)%R ->
  (Rabs (rounded S m x) <= max_finite S)%R.
Proof.
  intros S m x HS Hx. pose proof (fexp_valid S HS). pose proof (valid_rnd_of m).
  apply abs_round_le_generic; [assumption|assumption| |assumption].
  exact (format_canonical S _ _ false HS (canonical_max S HS)).
Qed.

(** ** The code of [normalize] *)
Lemma land_base : forall s n, 1 <= n -> 2 ^ n <= s < 2 ^ n * 2 ->
  (Z.land s (2 ^ n - 1) =? 2 ^ n - 1) = (s =? 2 ^ n * 2 - 1).
Proof.
  intros s n Hn Hs. rewrite land_ones_mod by lia. pose proof (pow2_gt0 n ltac:(lia)).
  replace s with (s - 2 ^ n + 1 * 2 ^ n) at 1 by ring. rewrite Z.mod_add, Z.mod_small by lia.
  destruct (Z.eqb_spec (s - 2 ^ n) (2 ^ n - 1)); destruct (Z.eqb_spec s (2 ^ n * 2 - 1)); lia.
Qed.

Lemma hits_nan_pattern_spec : forall S x, sem_ok S ->
  (exp x = MAX_EXP S -> 2 ^ (PRECISION S - 1) <= sig x < 2 ^ PRECISION S) ->
  hits_nan_pattern S x = true <->
  NONFINITE_BEHAVIOR S = NanOnly /\ exp x = MAX_EXP S /\ sig x = 2 ^ PRECISION S - 1.
Proof.
  intros S x HS Hs. destruct (p_pow S HS) as [P1 [P2 P3]]. destruct HS as [Hp Hmin Hmax Hnf].
  unfold hits_nan_pattern, NAN, qnan. cbn [sig exp].
  destruct (NONFINITE_BEHAVIOR S); cbn [nonfinite_eqb andb].
  - split; [discriminate|]. intros [H _]; discriminate.
  - destruct Hnf as [-> [_ [-> _]]]. rewrite !Z.lor_0_r.
    destruct (Z.eqb_spec (exp x) (MAX_EXP S)) as [E|E]; cbn [andb].
    + rewrite land_base by (try lia; specialize (Hs E); lia). rewrite Z.eqb_eq. rewrite P2. split; intro H; [split; [reflexivity|split; [assumption|lia]]|lia].
    + split; [discriminate|]. intros [_ [H _]]; contradiction.
Qed.

Lemma round_away_spec : forall x m l, category x = Normal -> limb (sig x) -> l <> ExactlyZero ->
  round_away_from_zero x m l 0 = Ret (goes_away m (sign x) l (negb (Z.even (sig x)))).
Proof.
  intros x m l Hc Hs Hl. unfold round_away_from_zero, is_finite_non_zero, is_finite, is_nan, is_infinite, is_zero.
  rewrite Hc. cbn [category_eqb negb andb orb assertb].
  assert (loss_eqb l ExactlyZero = false) as -> by (destruct l; [contradiction|reflexivity..]).
  cbn [negb assertb]. rewrite get_bit_spec by (try (apply limb_1; assumption); unfold nbits, nlimbs; cbn; lia).
  rewrite lval_single, Z.bit0_odd, <- Z.negb_even.
  destruct m; destruct l; try contradiction; reflexivity.
Qed.

Lemma omsb_of_bitlen : forall s p, 0 < p -> 0 <= s ->
  (bitlen s = p <-> 2 ^ (p - 1) <= s < 2 ^ p).
Proof.
  intros s p Hp Hs. split.
  - intro H. assert (0 < s) by (destruct (Z.eq_dec s 0) as [->|]; [cbn in H; lia|lia]).
    pose proof (bitlen_spec s ltac:(lia)) as X. rewrite H in X. exact X.
  - intro H. apply bitlen_unique; assumption.
Qed.

Theorem normalize_tail_spec : forall S f m l v zs, sem_ok S -> category f = Normal -> (0 < v)%R ->
  0 <= sig f < 2 ^ PRECISION S -> MIN_EXP S <= exp f <= MAX_EXP S ->
  exp f = MIN_EXP S \/ 2 ^ (PRECISION S - 1) <= sig f ->
  between (sig f) (exp f - (PRECISION S - 1)) v l ->
  exists res, normalize_tail S f (bitlen (sig f)) m l = Ret res /\
    crate_rounded S m (sgnr (sign f) v) zs res.
Proof.
  intros S f m l v zs HS Hcat Hv Hsig Hexp Hor Hb.
  destruct (p_pow S HS) as [P1 [P2 P3]]. pose proof HS as HS'. destruct HS' as [Hp Hmin Hmax Hnf].
  pose proof (cexp_between S (sig f) (exp f) v l HS Hv Hsig ltac:(lia) Hor Hb) as He.
  set (p := PRECISION S) in *.
  set (inc := goes_away m (sign f) l (negb (Z.even (sig f)))) in *.
  set (s2 := cond_incr inc (sig f)) in *.
  pose proof (rounded_between S m (sign f) v (sig f) (exp f - (p - 1)) l Hv He Hb) as R1. fold inc s2 in R1.
  assert (Habs : 0 <= s2 -> Rabs (rounded S m (sgnr (sign f) v)) = (IZR s2 * bpow r2 (exp f - (p - 1)))%R).
  { intro H. rewrite R1. apply sgnr_abs. apply Rmult_le_pos; [apply IZR_le; lia|apply bpow_ge_0]. }
  assert (sig f <= s2 <= sig f + 1) as Hs2 by (unfold s2, cond_incr; destruct inc; lia).
  (* a result with the all-ones significand at the top exponent overflows *)
  assert (Hnan : NONFINITE_BEHAVIOR S = NanOnly -> exp f = MAX_EXP S -> 2 ^ p - 1 <= s2 ->
     crate_rounded S m (sgnr (sign f) v) zs (overflow_result_signed S m f)).
  { intros Hn He1 Hs. assert (Hmx : (max_finite S < IZR s2 * bpow r2 (exp f - (p - 1)))%R).
    { unfold max_finite, max_sig. rewrite Hn, He1. fold p. apply bpow_pos_mult_lt. lia. }
    apply cr_overflow; [assumption|assumption|rewrite Habs by lia; assumption|].
    unfold crate_to_infinity, wrong_side. rewrite Hn.
    assert (Rlt_bool (Rabs (sgnr (sign f) v)) (bpow r2 (MAX_EXP S + 1)) = true) as ->.
    { apply Rlt_bool_true. rewrite sgnr_abs by lra. apply between_bounds in Hb. apply Rlt_le_trans with (1 := proj2 Hb).
      replace (MAX_EXP S + 1) with (p + (exp f - (p - 1))) by lia. rewrite <- IZR_pow2_bpow by lia. apply bpow_pos_mult_le. lia. }
    rewrite sgnr_lt0 by assumption. destruct m, (sign f); reflexivity. }
  unfold normalize_tail.
  assert (Htop : exp f = MAX_EXP S -> 2 ^ (p - 1) <= sig f < 2 ^ p) by (intro E; lia).
  destruct (hits_nan_pattern S f) eqn:Eh.
  { apply (hits_nan_pattern_spec S f HS Htop) in Eh. destruct Eh as [Hn [He1 Hs]].
    fold p in Hs. eexists. split; [reflexivity|]. apply Hnan; [assumption|assumption|lia]. }
  assert (Hnh : NONFINITE_BEHAVIOR S = NanOnly -> exp f = MAX_EXP S -> sig f <> 2 ^ p - 1).
  { intros Hn He1 Hs. assert (hits_nan_pattern S f = true) as X by (apply (hits_nan_pattern_spec S f HS Htop); repeat split; assumption).
    rewrite X in Eh. discriminate. }
  destruct (loss_eqb l ExactlyZero) eqn:El.
  { (* exact *)
    apply loss_eqb_exact in El. subst l.
    assert (inc = false) as Hinc by (unfold inc, goes_away; destruct m, (sign f); reflexivity).
    assert (s2 = sig f) as Hs2e by (unfold s2; rewrite Hinc; reflexivity).
    assert (0 < sig f) as Hpos.
    { destruct (Z.eq_dec (sig f) 0) as [Hz|]; [|lia]. rewrite Hz in Hb. apply between_exact in Hb. rewrite Rmult_0_l in Hb. lra. }
    assert ((bitlen (sig f) =? 0) = false) as ->.
    { apply Z.eqb_neq. rewrite bitlen_pos by lia. pose proof (Z.log2_nonneg (sig f)). lia. }
    exists (OK, f). split; [reflexivity|].
    change OK with (finite_status S ExactlyZero (sig f)).
    replace f with (mkFloat (sig f) (exp f) Normal (sign f)) at 4 by (destruct f; cbn in *; congruence).
    apply (cr_finite S m v zs (sig f) (exp f) (sign f) ExactlyZero (sig f) (exp f - (p - 1))); try assumption.
    - unfold canonical_normal; fold p. split; [lia|]. split; [lia|]. split; [assumption|]. exact Hnh.
    - fold inc s2. rewrite Hs2e. reflexivity. }
  assert (l <> ExactlyZero) as Hl by (intros ->; discriminate).
  rewrite round_away_spec by (try assumption; unfold limb; lia). cbn [bind]. fold inc.
  (* the common last step: significand [s2] below 2^p, not the NaN pattern *)
  assert (Hfin : forall f2, f2 = mkFloat s2 (exp f) Normal (sign f) -> s2 < 2 ^ p ->
    (NONFINITE_BEHAVIOR S = NanOnly -> exp f = MAX_EXP S -> s2 <> 2 ^ p - 1) ->
    exists res, (if bitlen s2 =? p then Ret (INEXACT, f2)
      else assertb (bitlen s2 <? p)
             (Ret (Z.lor UNDERFLOW INEXACT, if bitlen s2 =? 0 then copy_sign (ZERO S) f2 else f2))) = Ret res /\
    crate_rounded S m (sgnr (sign f) v) zs res).
  { intros f2 -> Hlt Hnn.
    destruct (Z.eqb_spec (bitlen s2) p) as [Eb|Eb].
    - apply (proj1 (omsb_of_bitlen s2 p ltac:(lia) ltac:(lia))) in Eb.
      eexists. split; [reflexivity|].
      replace INEXACT with (finite_status S l s2).
      2:{ unfold finite_status. rewrite El. fold p. destruct (Z.ltb_spec s2 (2 ^ (p - 1))); [lia|reflexivity]. }
      apply (cr_finite S m v zs s2 (exp f) (sign f) l (sig f) (exp f - (p - 1))); try assumption; [|reflexivity].
      unfold canonical_normal; fold p. split; [lia|]. split; [lia|]. split; [lia|exact Hnn].
    - assert (bitlen s2 <= p) as Hle by (apply bitlen_le; lia).
      assert ((bitlen s2 <? p) = true) as -> by lia. cbn [assertb].
      eexists. split; [reflexivity|].
      destruct (Z.eqb_spec (bitlen s2) 0) as [Ez|Ez].
      + apply (proj1 (bitlen_zero s2 ltac:(lia))) in Ez. rewrite copy_sign_eq. cbn [sig exp category ZERO sign].
        apply (cr_zero S m v zs (sign f) l (sig f) (exp f - (p - 1))); try assumption.
        exact (f_equal IZR Ez).
      + assert (0 < s2) as Hs0 by (destruct (Z.eq_dec s2 0) as [E|]; [rewrite E in Ez; cbn in Ez; lia|lia]).
        assert (s2 < 2 ^ (p - 1)) as Hsm by (apply bitlen_le; lia).
        replace (Z.lor UNDERFLOW INEXACT) with (finite_status S l s2).
        2:{ unfold finite_status. rewrite El. fold p. destruct (Z.ltb_spec s2 (2 ^ (p - 1))); [reflexivity|lia]. }
        apply (cr_finite S m v zs s2 (exp f) (sign f) l (sig f) (exp f - (p - 1))); try assumption; [|reflexivity].
        unfold canonical_normal; fold p. split; [lia|]. split; [lia|]. split; [lia|exact Hnn]. }
  destruct inc eqn:Einc.
  - (* away from zero *)
    assert (s2 = sig f + 1) as Hs2e by reflexivity.
    set (f1 := if bitlen (sig f) =? 0 then set_sig_exp f (sig f) (MIN_EXP S) else f).
    assert (sig f1 = sig f /\ exp f1 = exp f /\ category f1 = Normal /\ sign f1 = sign f) as [F1 [F2 [F3 F4]]].
    { unfold f1. destruct (Z.eqb_spec (bitlen (sig f)) 0) as [E|E]; [|repeat split; assumption].
      apply (proj1 (bitlen_zero (sig f) ltac:(lia))) in E. cbn [set_sig_exp sig exp category sign]. repeat split; try assumption. lia. }
    clearbody f1.
    pose proof (increment_spec [sig f1] ltac:(apply limb_1; rewrite F1; unfold limb; lia)) as Hi.
    destruct (increment [sig f1]) as [il ic]. destruct Hi as [I1 [I2 [I3 I4]]].
    destruct (limbs1 il I2) as [i0 ->]. rewrite !lval_single in I4. change (nbits [sig f1]) with 128 in I4.
    assert (ic = 0 /\ i0 = s2) as [-> ->] by (apply Forall_inv in I1; unfold limb in I1; lia).
    cbn [Z.eqb assertb]. change (get [s2] 0) with (Ret s2). cbn [bind].
    cbn [set_sig_exp sig exp category sign]. rewrite F2. unfold set_sig_exp. cbn [category sign]. rewrite F3, F4. fold p.
    rewrite omsb_single by (unfold limb; lia).
    destruct (Z.eqb_spec (bitlen s2) (p + 1)) as [Eb|Eb].
    + apply (proj1 (omsb_of_bitlen s2 (p + 1) ltac:(lia) ltac:(lia))) in Eb. replace (p + 1 - 1) with p in Eb by lia.
      assert (s2 = 2 ^ p) as Hs2p by lia.
      destruct (Z.eqb_spec (exp f) (MAX_EXP S)) as [Em|Em].
      * eexists. split; [reflexivity|].
        assert (Hov : (max_finite S < Rabs (rounded S m (sgnr (sign f) v)))%R).
        { rewrite Habs by lia. unfold max_finite. rewrite Em. apply bpow_pos_mult_lt. pose proof (max_sig_bounds S HS) as X. fold p in X. lia. }
        rewrite copy_sign_eq. cbn [sign].
        assert (Hti : to_infinity m (sign f) = true).
        { revert Einc. unfold inc, goes_away, to_infinity. clear - Hl. destruct m, l, (sign f); cbn; congruence. }
        assert (Hws : wrong_side S m (sgnr (sign f) v) = false).
        { unfold wrong_side. destruct (NONFINITE_BEHAVIOR S) eqn:En; [reflexivity|]. exfalso. specialize (Hnh eq_refl Em). lia. }
        pose proof (@cr_overflow (crate_to_infinity S m (sgnr (sign f) v)) S m v zs NearestTiesToEven f HS Hv Hov
          ltac:(unfold crate_to_infinity; rewrite Hws, Hti; reflexivity)) as X.
        rewrite overflow_signed_eq in X by assumption. exact X.
      * assert (E1 : exists l', shift_right [s2] (exp f) 1 = Ret ([2 ^ (p - 1)], exp f + 1, l')).
        { destruct (shift_right_spec [s2] (exp f) 1 ltac:(apply limb_1; unfold limb; lia) ltac:(lia) ltac:(lia)) as [d [D1 [D2 [D3 D4]]]].
          destruct (limbs1 d D3) as [d0 ->]. rewrite !lval_single in D4.
          eexists. rewrite D1. f_equal. f_equal. f_equal. f_equal. rewrite D4, Hs2p, P2.
          rewrite (Z.mul_comm 2 (2 ^ (p - 1))). apply Z.div_mul. lia. }
        destruct E1 as [l' E1]. rewrite E1. cbn [bind]. change (get [2 ^ (p - 1)] 0) with (Ret (2 ^ (p - 1))). cbn [bind].
        eexists. split; [reflexivity|].
        replace INEXACT with (finite_status S l (2 ^ (p - 1))).
        2:{ unfold finite_status. rewrite El. fold p. destruct (Z.ltb_spec (2 ^ (p - 1)) (2 ^ (p - 1))); [lia|reflexivity]. }
        cbn [category sign].
        apply (cr_finite S m v zs (2 ^ (p - 1)) (exp f + 1) (sign f) l (sig f) (exp f - (p - 1))); try assumption.
        -- unfold canonical_normal; fold p. split; [lia|]. split; [lia|]. split; [lia|]. intros _ _. lia.
        -- replace (cond_incr (goes_away m (sign f) l (negb (Z.even (sig f)))) (sig f)) with (2 ^ p)
             by (change (goes_away m (sign f) l (negb (Z.even (sig f)))) with inc; rewrite Einc; cbn [cond_incr]; lia).
           rewrite !IZR_pow2_bpow by lia. f_equal. fold p. lia.
    + assert (s2 < 2 ^ p) as Hlt.
      { destruct (Z_lt_le_dec s2 (2 ^ p)); [assumption|]. exfalso. apply Eb. apply omsb_of_bitlen; [lia|lia|].
        replace (p + 1 - 1) with p by lia. rewrite Z.pow_add_r by lia. lia. }
      destruct (hits_nan_pattern S (mkFloat s2 (exp f) Normal (sign f))) eqn:Eh2.
      * apply (hits_nan_pattern_spec S _ HS) in Eh2; cbn [sig exp] in *; [|intro E; specialize (Htop E); fold p; lia].
        destruct Eh2 as [Hn [He1 Hs]]. fold p in Hs.
        eexists. split; [reflexivity|].
        replace (overflow_result_signed S m _) with (overflow_result_signed S m f).
        2:{ rewrite !overflow_signed_eq by assumption. reflexivity. }
        apply Hnan; [assumption|assumption|lia].
      * apply Hfin; [reflexivity|assumption|].
        intros Hn He1 Hs. assert (hits_nan_pattern S (mkFloat s2 (exp f) Normal (sign f)) = true) as X.
        { apply (hits_nan_pattern_spec S _ HS); cbn [sig exp]; [intro E; specialize (Htop E); fold p; lia|repeat split; assumption]. }
        rewrite X in Eh2. discriminate.
  - assert (s2 = sig f) as Hs2e by reflexivity.
    assert (f = mkFloat s2 (exp f) Normal (sign f)) as Ef by (rewrite Hs2e; destruct f; cbn in *; congruence).
    pose proof (Hfin f Ef ltac:(lia) ltac:(rewrite Hs2e; exact Hnh)) as X. rewrite Hs2e in X. exact X.
Qed.

Lemma bitlen_shiftr : forall s k, 0 <= s -> 0 <= k -> bitlen (s / 2 ^ k) = Z.max 0 (bitlen s - k).
Proof.
  intros s k Hs Hk. pose proof (pow2_gt0 k Hk) as Hpk. pose proof (bitlen_nonneg s) as Hb.
  destruct (Z_le_gt_dec (bitlen s) k) as [H|H].
  - rewrite Z.div_small by (split; [assumption|apply (proj1 (bitlen_le s k Hs Hk)); lia]). change (bitlen 0) with 0. lia.
  - assert (0 < s) as Hs0 by (destruct (Z.eq_dec s 0) as [->|]; [cbn in H; lia|lia]).
    pose proof (bitlen_spec s Hs0) as [B1 B2]. apply bitlen_unique; [lia|].
    replace (Z.max 0 (bitlen s - k)) with (bitlen s - k) by lia.
    replace (bitlen s - 1) with (bitlen s - k - 1 + k) in B1 by lia.
    replace (bitlen s) with (bitlen s - k + k) in B2 at 1 by lia.
    rewrite Z.pow_add_r in B1, B2 by lia. split.
    + apply Z.div_le_lower_bound; lia.
    + apply Z.div_lt_upper_bound; lia.
Qed.

Lemma bpow_above_max : forall S, sem_ok S -> (max_finite S < bpow r2 (MAX_EXP S + 1))%R.
Proof.
  intros S HS. pose proof (max_sig_bounds S HS). destruct (p_pow S HS) as [P1 [P2 P3]]. destruct HS as [Hp _ _ _].
  unfold max_finite. replace (MAX_EXP S + 1) with (PRECISION S + (MAX_EXP S - (PRECISION S - 1))) by lia.
  rewrite <- IZR_pow2_bpow by lia. apply bpow_pos_mult_lt. lia.
Qed.

Lemma rounded_above_max : forall S m x, sem_ok S -> (bpow r2 (MAX_EXP S + 1) <= Rabs x)%R ->
  (max_finite S < Rabs (rounded S m x))%R.
Proof.
  intros S m x HS Hx. apply Rlt_le_trans with (1 := bpow_above_max S HS).
  pose proof (fexp_valid S HS). pose proof (valid_rnd_of m).
  apply abs_round_ge_generic; [assumption|assumption| |assumption].
  destruct HS as [Hp Hmin Hmax _]. apply generic_format_FLT_bpow; [red; lia|lia].
Qed.

Lemma sgnr_0 : forall g, sgnr g 0 = 0%R.
Proof. destruct g; cbn; [apply Ropp_0|reflexivity]. Qed.

Theorem normalize_spec_i32 : forall S f m l v, sem_ok S -> category f = Normal ->
  limb (sig f) -> - 2 ^ 31 <= exp f <= 2 ^ 31 - 1 -> (0 <= v)%R ->
  between (sig f) (exp f - (PRECISION S - 1)) v l ->
  l = ExactlyZero \/ exp f <= MIN_EXP S \/ 2 ^ (PRECISION S - 1) <= sig f ->
  (sig f = 0 -> l <> ExactlyZero -> exp f = MIN_EXP S) ->
  exists res, normalize S f m l = Ret res /\
    crate_rounded S m (sgnr (sign f) v) (sign f) res.
Proof.
  intros S f m l v HS Hcat Hlimb Hexp Hv Hb Hor Hz.
  destruct (p_pow S HS) as [P1 [P2 P3]]. pose proof HS as HS'. destruct HS' as [Hp Hmin Hmax Hnf].
  unfold normalize, is_finite_non_zero, is_finite, is_nan, is_infinite, is_zero.
  rewrite Hcat. cbn [category_eqb negb andb orb].
  rewrite omsb_single by assumption.
  assert (0 <= sig f < 2 ^ 128) as Hs by exact Hlimb.
  assert (bitlen (sig f) <= 128) as Hbl by (apply bitlen_le; lia).
  pose proof (bitlen_nonneg (sig f)) as Hbn.
  destruct (Z.eq_dec (sig f) 0) as [E0|E0].
  { rewrite E0 in *. change (bitlen 0) with 0. cbn [Z.ltb Z.compare].
    destruct (loss_eqb l ExactlyZero) eqn:El.
    - apply loss_eqb_exact in El. subst l. apply between_exact in Hb. rewrite Rmult_0_l in Hb. subst v.
      unfold normalize_tail.
      assert (hits_nan_pattern S f = false) as ->.
      { destruct (hits_nan_pattern S f) eqn:E; [|reflexivity]. exfalso. revert E.
        unfold hits_nan_pattern. rewrite E0. destruct (NONFINITE_BEHAVIOR S); cbn [nonfinite_eqb andb]; [discriminate|].
        rewrite Z.land_0_l. unfold NAN, qnan. cbn [sig]. destruct Hnf as [-> [_ [-> _]]]. rewrite Z.lor_0_r.
        destruct (exp f =? exp _); cbn [andb]; [|discriminate].
        intro H. apply Z.eqb_eq in H. rewrite ?Z.lor_0_r in H. lia. }
      cbn [loss_eqb Z.eqb]. eexists. split; [reflexivity|]. rewrite sgnr_0, copy_sign_eq.
      cbn [sig exp category ZERO sign]. apply cr_exact_zero. assumption.
    - assert (l <> ExactlyZero) as Hl by (intros ->; discriminate).
      specialize (Hz eq_refl Hl).
      pose proof (between_inexact _ _ _ _ Hb Hl) as [B1 B2]. rewrite Rmult_0_l in B1.
      pose proof (normalize_tail_spec S f m l v (sign f) HS Hcat B1) as X. rewrite E0 in X. apply X; try assumption; lia. }
  pose proof (bitlen_spec (sig f) ltac:(lia)) as [B1 B2].
  pose proof (between_bounds _ _ _ _ Hb) as [V1 V2].
  assert (0 < v)%R as Hv0.
  { apply Rlt_le_trans with (2 := V1). apply Rmult_lt_0_compat; [apply IZR_lt; lia|apply bpow_gt_0]. }
  assert (0 < bitlen (sig f)) as Hbp by (rewrite bitlen_pos by lia; pose proof (Z.log2_nonneg (sig f)); lia).
  assert ((0 <? bitlen (sig f)) = true) as -> by lia.
  set (w := bitlen (sig f)) in *. set (p := PRECISION S) in *.
  rewrite as_i32_id by lia. set (a := sat32 (exp f + (w - p))).
  assert (Ha : a = Z.max (- 2 ^ 31) (Z.min (2 ^ 31 - 1) (exp f + (w - p)))) by reflexivity. clearbody a.
  destruct (Z.ltb_spec (MAX_EXP S) a) as [Ho|Ho].
  { eexists. split; [reflexivity|]. apply cr_overflow; [assumption|assumption| |].
    - apply rounded_above_max; [assumption|]. rewrite sgnr_abs by lra. apply Rle_trans with (2 := V1).
      apply Rle_trans with (IZR (2 ^ (w - 1)) * bpow r2 (exp f - (p - 1)))%R; [|apply bpow_pos_mult_le; assumption].
      rewrite IZR_pow2_bpow by lia. apply bpow_le. lia.
    - unfold crate_to_infinity. assert (wrong_side S m (sgnr (sign f) v) = false) as ->.
      { assert (bpow r2 (MAX_EXP S + 1) <= Rabs (sgnr (sign f) v))%R as Hbig.
        { rewrite sgnr_abs by lra. apply Rle_trans with (2 := V1).
          apply Rle_trans with (IZR (2 ^ (w - 1)) * bpow r2 (exp f - (p - 1)))%R; [|apply bpow_pos_mult_le; assumption].
          rewrite IZR_pow2_bpow by lia. apply bpow_le. lia. }
        unfold wrong_side. rewrite (Rlt_bool_false _ _ Hbig), andb_false_r. destruct (NONFINITE_BEHAVIOR S), m; reflexivity. }
      unfold is_negative. destruct m, (sign f); reflexivity. }
  set (fe := if a <? MIN_EXP S then MIN_EXP S else a).
  assert (fe = Z.max (MIN_EXP S) (exp f + (w - p))) as Hfe by (unfold fe; destruct (Z.ltb_spec a (MIN_EXP S)); lia).
  assert (Ho' : exp f + (w - p) <= MAX_EXP S) by lia. clear Ha Ho. rename Ho' into Ho.
  clearbody fe.
  destruct (Z.ltb_spec fe (exp f)) as [Hl|Hl].
  { assert (l = ExactlyZero) as ->.
    { destruct Hor as [H|[H|H]]; [assumption|lia|]. exfalso.
      assert (p <= w); [|lia]. destruct (Z_le_gt_dec p w); [assumption|].
      assert (2 ^ w <= 2 ^ (p - 1)) by (apply Z.pow_le_mono_r; lia). lia. }
    cbn [loss_eqb assertb]. rewrite chk32_ret by lia. cbn [bind].
    set (k := exp f - fe).
    assert (sig f * 2 ^ k < 2 ^ p) as Hk.
    { replace p with (p - k + k) by lia. rewrite Z.pow_add_r by lia. apply Z.mul_lt_mono_pos_r; [apply pow2_gt0; lia|].
      apply Z.lt_le_trans with (1 := B2). apply Z.pow_le_mono_r; lia. }
    destruct (shift_left_exact [sig f] (exp f) k) as [d [D1 [D2 [D3 D4]]]];
      [apply limb_1; assumption|lia|lia|rewrite lval_single; change (nbits [sig f]) with 128; lia|].
    rewrite D1. cbn [bind]. destruct (limbs1 d D3) as [d0 ->]. rewrite !lval_single in D4. subst d0.
    change (get [sig f * 2 ^ k] 0) with (Ret (sig f * 2 ^ k)). cbn [bind]. unfold set_sig_exp. rewrite Hcat.
    eexists. split; [reflexivity|].
    change OK with (finite_status S ExactlyZero (sig f * 2 ^ k)).
    assert (Hc : canonical_normal S (sig f * 2 ^ k) (exp f - k)).
    { unfold canonical_normal. fold p. split; [pose proof (pow2_gt0 k ltac:(lia)); nia|]. split; [lia|]. split.
      - destruct (Z.eq_dec (exp f - k) (MIN_EXP S)) as [|Hne]; [left; assumption|right].
        replace (p - 1) with (w - 1 + k) by lia. rewrite Z.pow_add_r by lia. apply Z.mul_le_mono_nonneg_r; [|assumption]. pose proof (pow2_gt0 k ltac:(lia)); lia.
      - intros _ _ E. assert (2 ^ k = 2 * 2 ^ (k - 1)) as Ek by (rewrite <- Z.pow_succ_r by lia; f_equal; lia).
        rewrite Ek, P2 in E. lia. }
    pose proof (between_shift_left _ _ _ k ltac:(lia) Hb) as Hb'.
    replace (exp f - (p - 1) - k) with (exp f - k - (p - 1)) in Hb' by lia.
    apply (cr_finite S m v (sign f) (sig f * 2 ^ k) (exp f - k) (sign f) ExactlyZero (sig f * 2 ^ k) (exp f - k - (p - 1))); try assumption.
    - apply (cexp_between S (sig f * 2 ^ k) (exp f - k) v ExactlyZero); try assumption; destruct Hc as [C1 [C2 [C3 _]]]; try assumption; lia.
    - replace (goes_away m (sign f) ExactlyZero (negb (Z.even (sig f * 2 ^ k)))) with false by (destruct m, (sign f); reflexivity).
      reflexivity. }
  destruct (Z.ltb_spec (exp f) fe) as [Hr|Hr].
  { rewrite chk32_ret by lia. cbn [bind]. set (k := fe - exp f).
    destruct (shift_right_spec [sig f] (exp f) k) as [d [D1 [D2 [D3 D4]]]]; [apply limb_1; assumption|lia|lia|].
    rewrite D1. cbn [bind]. destruct (limbs1 d D3) as [d0 ->]. rewrite !lval_single in *. subst d0.
    change (get [sig f / 2 ^ k] 0) with (Ret (sig f / 2 ^ k)). cbn [bind].
    set (f' := set_sig_exp f (sig f / 2 ^ k) (exp f + k)).
    replace (saturating_usub w k) with (bitlen (sig f')).
    2:{ unfold f', saturating_usub, set_sig_exp. cbn [sig]. rewrite bitlen_shiftr by lia. fold w. lia. }
    change (sign f) with (sign f').
    pose proof (bitlen_shiftr (sig f) k ltac:(lia) ltac:(lia)) as Hbs. fold w in Hbs.
    assert (0 <= sig f / 2 ^ k) as Hq by (apply Z.div_pos; [lia|apply pow2_gt0; lia]).
    apply normalize_tail_spec; try assumption; unfold f', set_sig_exp; cbn [sig exp category sign]; fold p.
    - split; [assumption|]. apply (proj1 (bitlen_le _ p Hq ltac:(lia))). lia.
    - lia.
    - destruct (Z.eq_dec fe (MIN_EXP S)) as [|Hne]; [left; lia|right].
      assert (bitlen (sig f / 2 ^ k) = p) as Hbq by lia. apply (proj1 (omsb_of_bitlen _ p ltac:(lia) Hq)) in Hbq. lia.
    - replace (exp f + k - (p - 1)) with (exp f - (p - 1) + k) by lia. apply between_shift; [lia|assumption]. }
  assert (fe = exp f) as E by lia.
  apply normalize_tail_spec; try assumption.
  - split; [lia|]. fold p. apply (proj1 (bitlen_le (sig f) p ltac:(lia) ltac:(lia))). fold w. lia.
  - lia.
  - fold p. destruct (Z.eq_dec fe (MIN_EXP S)) as [|Hne]; [left; lia|right].
    assert (bitlen (sig f) = p) as Hbq by (fold w; lia). apply (proj1 (omsb_of_bitlen (sig f) p ltac:(lia) ltac:(lia))) in Hbq. lia.
Qed.

Theorem normalize_spec : forall S f m l v, sem_ok S -> category f = Normal ->
  limb (sig f) -> - 2 ^ 30 <= exp f <= 2 ^ 30 -> (0 <= v)%R ->
  between (sig f) (exp f - (PRECISION S - 1)) v l ->
  l = ExactlyZero \/ exp f <= MIN_EXP S \/ 2 ^ (PRECISION S - 1) <= sig f ->
  (sig f = 0 -> l <> ExactlyZero -> exp f = MIN_EXP S) ->
  exists res, normalize S f m l = Ret res /\
    crate_rounded S m (sgnr (sign f) v) (sign f) res.
Proof. intros S f m l v H1 H2 H3 H4. apply normalize_spec_i32; try assumption. lia. Qed.

(** where the crate is right *)
Lemma side_small : forall S m x, sem_ok S -> (Rabs x <= max_finite S)%R -> overflow_side_ok S m x.
Proof. intros S m x HS H _ _ _ _. apply rounded_le_max; assumption. Qed.
Lemma crate_rounded_correct : forall S m x zs res, overflow_side_ok S m x ->
  crate_rounded S m x zs res -> correctly_rounded S m x zs res.
Proof.
  intros S m x zs [st f] Hside [H1 [H2 [H3 H4]]]. split; [assumption|]. split; [assumption|]. split; [assumption|].
  intro Hov. specialize (H4 Hov).
  assert (wrong_side S m x = false) as E.
  { unfold wrong_side. destruct (NONFINITE_BEHAVIOR S) eqn:En; [reflexivity|].
    assert (forall b c, ((b = true -> c = true -> False) -> b && c = false)%bool) as Hbc.
    { intros [|] [|] H; try reflexivity. exfalso; auto. }
    destruct m; try reflexivity; apply Hbc; intros A B; revert A B;
      (destruct (Rlt_bool_spec x 0) as [A|A]; [intros _|intro; discriminate]);
      (destruct (Rlt_bool_spec (Rabs x) (bpow r2 (MAX_EXP S + 1))) as [B|B]; [intros _|intro; discriminate]).
    - specialize (Hside En A ltac:(left; reflexivity) B). lra.
    - specialize (Hside En A ltac:(right; reflexivity) B). lra. }
  unfold crate_to_infinity in H4. rewrite E, xorb_false_l in H4. exact H4.
Qed.
Lemma crate_rounded_ieee : forall S m x zs res, NONFINITE_BEHAVIOR S = IEEE754 ->
  crate_rounded S m x zs res -> correctly_rounded S m x zs res.
Proof. intros S m x zs res H. apply crate_rounded_correct. intro X. congruence. Qed.
Theorem normalize_correct : forall S f m l v, sem_ok S -> category f = Normal ->
  limb (sig f) -> - 2 ^ 30 <= exp f <= 2 ^ 30 -> (0 <= v)%R ->
  between (sig f) (exp f - (PRECISION S - 1)) v l ->
  l = ExactlyZero \/ exp f <= MIN_EXP S \/ 2 ^ (PRECISION S - 1) <= sig f ->
  (sig f = 0 -> l <> ExactlyZero -> exp f = MIN_EXP S) ->
  overflow_side_ok S m (sgnr (sign f) v) ->
  exists res, normalize S f m l = Ret res /\
    correctly_rounded S m (sgnr (sign f) v) (sign f) res.
Proof.
  intros S f m l v H1 H2 H3 H4 H5 H6 H7 H8 H9.
  destruct (normalize_spec S f m l v H1 H2 H3 H4 H5 H6 H7 H8) as [res [E C]].
  exists res. split; [exact E|]. apply crate_rounded_correct; assumption.
Qed.
