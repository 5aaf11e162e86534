(** * StrFar.v -- decimal literals that are not extremely close to a number of
    the format are rounded correctly in every mode *)
From Coq Require Import ZArith Reals List Bool String Lia Lra Psatz.
From Flocq Require Import Core.
From Verif Require Import Machine Sig SpecSig Ieee Parse Spec SpecStr Norm Arith Int Algebra Formats Samples StrTop StrSamples.
Import ListNotations.
Local Open Scope Z_scope.
Ltac Zify.zify_post_hook ::= idtac.

Section Far.
Variable S : Semantics.
Hypothesis HS : sem_ok S.
Notation Fm := (generic_format r2 (fexp S)).

(** nothing of the format lies within one part in 2^123 of [x] *)
Definition separated (x : R) : Prop := forall z, Fm z -> (Rabs x * bpow r2 (-123) < Rabs (x - z))%R.

Lemma near_bound : forall x y, (Rabs (x - y) <= Rabs y * bpow r2 (-124))%R -> (Rabs (x - y) <= Rabs x * bpow r2 (-123))%R.
Proof.
  intros x y H. pose proof (Rabs_triang_inv y x) as T. rewrite (Rabs_minus_sym y x) in T.
  change (-123) with (1 + -124). rewrite bpow_plus. change (bpow r2 1) with 2%R.
  assert (0 < bpow r2 (-124) <= / 4)%R as [B0 B1].
  { split; [apply bpow_gt_0|]. change (/ 4)%R with (bpow r2 (-2)). apply bpow_le. lia. }
  revert H B0 B1. generalize (bpow r2 (-124)). intros u H B0 B1. revert H T. pose proof (Rabs_pos x). pose proof (Rabs_pos y). generalize dependent (Rabs x). generalize dependent (Rabs y). generalize (Rabs (x - y)).
  intros d b Hb a Ha H T. assert (b <= 2 * a)%R as L by (assert (b * u <= b * / 4)%R by (apply Rmult_le_compat_l; assumption); lra).
  assert (b * u <= 2 * a * u)%R by (apply Rmult_le_compat_r; lra). lra.
Qed.
Lemma separated_between : forall x y z, separated x -> (Rabs (x - y) <= Rabs y * bpow r2 (-124))%R -> Fm z ->
  (x <= z <= y)%R \/ (y <= z <= x)%R -> False.
Proof.
  intros x y z Hx H Fz B. specialize (Hx z Fz). apply near_bound in H. apply (Rlt_irrefl (Rabs (x - z))).
  apply Rle_lt_trans with (2 := Hx). apply Rle_trans with (2 := H).
  unfold Rabs. destruct (Rcase_abs (x - z)); destruct (Rcase_abs (x - y)); lra.
Qed.
(** rounding does not change across an interval without numbers of the format *)
Lemma directed_same : forall m x y, m = TowardPositive \/ m = TowardNegative \/ m = TowardZero ->
  (forall z, Fm z -> ~ ((x <= z <= y)%R \/ (y <= z <= x)%R)) -> rounded S m x = rounded S m y.
Proof.
  intros m.
  assert (forall x y, (x <= y)%R -> m = TowardPositive \/ m = TowardNegative \/ m = TowardZero ->
    (forall z, Fm z -> ~ (x <= z <= y)%R) -> rounded S m x = rounded S m y) as K.
  { intros x y L Hm N. apply Rle_antisym; [apply rounded_mono; [exact HS|exact L]|]. apply Rnot_lt_le. intro Q.
    assert (forall v, Fm (rounded S m v)) as G by (intro v; apply generic_format_round; [apply fexp_valid, HS|apply valid_rnd_of]).
    assert (rounded S m y <= y -> False)%R as K1.
    { intro B. apply (N (rounded S m y) (G y)). split; [|exact B]. apply Rnot_lt_le. intro B'.
      apply (Rlt_not_le _ _ Q). rewrite <- (rounded_format S m (rounded S m y) (G y)). apply rounded_mono; [exact HS|lra]. }
    assert (x <= rounded S m x -> False)%R as K2.
    { intro B. apply (N (rounded S m x) (G x)). split; [exact B|]. apply Rnot_lt_le. intro B'.
      apply (Rlt_not_le _ _ Q). rewrite <- (rounded_format S m (rounded S m x) (G x)). apply rounded_mono; [exact HS|lra]. }
    pose proof (fexp_valid S HS) as VF.
    destruct Hm as [->|[->| ->]].
    - apply K2. apply (round_UP_pt r2 (fexp S) x).
    - apply K1. apply (round_DN_pt r2 (fexp S) y).
    - destruct (Rle_or_lt 0 y) as [P|P].
      + apply K1. unfold rounded. cbn [rnd_of]. rewrite round_ZR_DN by exact P. apply (round_DN_pt r2 (fexp S) y).
      + apply K2. unfold rounded. cbn [rnd_of]. rewrite round_ZR_UP by lra. apply (round_UP_pt r2 (fexp S) x). }
  intros x y Hm N. destruct (Rle_or_lt x y) as [L|L].
  - apply K; [exact L|exact Hm|]. intros z Fz B. exact (N z Fz (or_introl B)).
  - symmetry. apply K; [lra|exact Hm|]. intros z Fz B. exact (N z Fz (or_intror B)).
Qed.

Lemma has_sign_near : forall x y zs f, separated x -> (Rabs (x - y) <= Rabs y * bpow r2 (-124))%R -> has_sign y zs f -> has_sign x zs f.
Proof.
  intros x y zs f Hx H [A [B _]].
  assert (~ ((x <= 0 <= y)%R \/ (y <= 0 <= x)%R)) as N by (intro Q; exact (separated_between x y 0 Hx H (generic_format_0 r2 (fexp S)) Q)).
  split; [intro; apply A; lra|]. split; [intro; apply B; lra|]. intros ->. destruct (Rle_or_lt 0 y); lra.
Qed.
Lemma not_format : forall x, separated x -> ~ Fm x.
Proof.
  intros x H G. specialize (H x G). rewrite Rminus_diag_eq, Rabs_R0 in H by reflexivity.
  pose proof (Rmult_le_pos _ _ (Rabs_pos x) (bpow_ge_0 r2 (-123))). lra.
Qed.
Lemma near_not_format : forall x y, separated x -> (Rabs (x - y) <= Rabs y * bpow r2 (-124))%R -> ~ Fm y.
Proof. intros x y Hx H G. apply (separated_between x y y Hx H G). destruct (Rle_or_lt x y); [left|right]; lra. Qed.
Lemma rounded_inexact : forall m v, ~ Fm v -> rounded S m v <> v.
Proof. intros m v N E. apply N. rewrite <- E. apply generic_format_round; [apply fexp_valid, HS|apply valid_rnd_of]. Qed.

Lemma delivers_same : forall m x y zs res,
  ((Rabs (rounded S m x) <= max_finite S)%R -> rounded S m x = rounded S m y) ->
  ((max_finite S < Rabs (rounded S m x))%R -> (max_finite S < Rabs (rounded S m y))%R) ->
  ~ Fm x -> ~ Fm y -> has_sign x zs (snd res) ->
  correctly_rounded S m y zs res -> correctly_rounded S m x zs res.
Proof.
  intros m x y zs [st f] E E' Nx Ny Hs [W [_ [D1 D2]]]. cbn [snd] in Hs. split; [exact W|]. split; [exact Hs|].
  pose proof (rounded_inexact m y Ny) as Qy. pose proof (rounded_inexact m x Nx) as Qx. split; [|intro L; exact (D2 (E' L))].
  intro L. specialize (E L). rewrite E in *. tauto.
Qed.
End Far.

Theorem from_str_dec_far : forall S s g x m, sem_ok S -> dec_ok S -> dec_text s g x -> len s < 2 ^ 25 -> separated S x ->
  exists res, from_str_r S s m = Ret (Ok res) /\ correctly_rounded S m x g res.
Proof.
  intros S s g x m HS HD Ht HL Hx. destruct (from_str_dec_backward S s g x m HS HD Ht HL) as [[st f] [y [E [B D]]]].
  exists (st, f). split; [exact E|].
  assert (((Rabs (rounded S m x) <= max_finite S)%R -> rounded S m x = rounded S m y) /\
    ((max_finite S < Rabs (rounded S m x))%R -> (max_finite S < Rabs (rounded S m y))%R)) as [K1 K2].
  { assert (m = NearestTiesToEven \/ m = NearestTiesToAway \/ (m = TowardPositive \/ m = TowardNegative \/ m = TowardZero)) as C by (destruct m; tauto).
    assert (m = NearestTiesToEven \/ m = NearestTiesToAway -> forall r, to_infinity m r = true) as T by (intros [->| ->] r; reflexivity).
    assert (m = NearestTiesToEven \/ m = NearestTiesToAway -> ((Rabs (rounded S m x) <= max_finite S)%R -> rounded S m x = rounded S m y) /\
      ((max_finite S < Rabs (rounded S m x))%R -> (max_finite S < Rabs (rounded S m y))%R)) as K.
    { intro Hm. specialize (T Hm). destruct (from_str_dec_nearest S s g x m HS HD Ht HL Hm) as [st0 [f0 [E0 [st' [D' _]]]]].
      rewrite E in E0. assert (f0 = f) as -> by congruence.
      destruct D as [_ [_ [D1 D2]]]. destruct D' as [_ [_ [D1' D2']]]. rewrite T in D2, D2'.
      destruct (Rle_or_lt (Rabs (rounded S m y)) (max_finite S)) as [Ly|Ly].
      - destruct (D1 Ly) as [[Q|Q] [V _]]; (split; [intro L; destruct (D1' L) as [_ [V' _]]; congruence|
          intro L; exfalso; destruct (D2' L) as [_ Q']; rewrite Q in Q'; destruct (NONFINITE_BEHAVIOR S); discriminate Q']).
      - split; [|intros _; exact Ly]. intro L. exfalso. destruct (D2 Ly) as [_ Q']. destruct (D1' L) as [[Q|Q] _]; rewrite Q in Q'; destruct (NONFINITE_BEHAVIOR S); discriminate Q'. }
    destruct C as [C|[C|C]]; [apply K; tauto|apply K; tauto|].
    rewrite (directed_same S HS m x y C (fun z Fz Q => separated_between S x y z Hx B Fz Q)). tauto. }
  exact (delivers_same S HS m x y g (st, f) K1 K2 (not_format S x Hx) (near_not_format S x y Hx B) (has_sign_near S x y g f Hx B (proj1 (proj2 D))) D).
Qed.

(** a way to check [separated]: [x = n / d] between 2^(e-1) and 2^e, and the
    distance of [n / d] to a multiple of 2^q *)
Lemma separated_by : forall S n d e q, sem_ok S -> 0 < n -> 0 < d -> q = fexp S e -> q <= 0 ->
  (bpow r2 (e - 1) * (1 + bpow r2 (-122)) <= IZR n / IZR d)%R -> (IZR n / IZR d * (1 + bpow r2 (-122)) <= bpow r2 e)%R ->
  n * 2 ^ (- q) < Z.min ((n * 2 ^ (- q)) mod d) (d - (n * 2 ^ (- q)) mod d) * 2 ^ 123 ->
  separated S (IZR n / IZR d).
Proof.
  intros S n d e q HS Hn Hd Q Q0 L U K z Gz. apply Rnot_le_lt. intro B.
  assert (0 < IZR n)%R as Pn by (apply IZR_lt; assumption). assert (0 < IZR d)%R as Pd by (apply IZR_lt; assumption).
  assert (0 < IZR n / IZR d)%R as Px by (apply Rdiv_lt_0_compat; assumption).
  rewrite (Rabs_pos_eq (IZR n / IZR d)) in B by lra.
  set (x := (IZR n / IZR d)%R) in *.
  assert (0 < bpow r2 (-122))%R as P122 by apply bpow_gt_0. assert (0 < bpow r2 (-123))%R as P123 by apply bpow_gt_0.
  assert (bpow r2 (-122) = 2 * bpow r2 (-123))%R as E122 by (change (-122) with (1 + -123); rewrite bpow_plus; reflexivity).
  assert (bpow r2 (-123) <= / 4)%R as B4 by (change (/ 4)%R with (bpow r2 (-2)); apply bpow_le; lia).
  assert (bpow r2 (e - 1) <= z < bpow r2 e)%R as [M1 M2].
  { pose proof (bpow_gt_0 r2 (e - 1)). apply Rabs_le_inv in B. split.
    - assert (bpow r2 (e - 1) <= x - x * bpow r2 (-123))%R; [|lra].
      rewrite E122 in L. revert L P123 B4. generalize (bpow r2 (-123)) (bpow r2 (e - 1)) H. intros u b Hb L Pu B4.
      assert (0 <= b * (u * (1 - 2 * u)))%R by (repeat apply Rmult_le_pos; lra). assert (b * (1 + 2 * u) * (1 - u) <= x * (1 - u))%R by (apply Rmult_le_compat_r; lra). lra.
    - assert (x + x * bpow r2 (-123) < bpow r2 e)%R; [|lra]. rewrite E122 in U. assert (0 < x * bpow r2 (-123))%R by (apply Rmult_lt_0_compat; assumption). lra. }
  assert (0 < z)%R as Pz by (pose proof (bpow_gt_0 r2 (e - 1)); lra).
  assert (mag r2 z = e :> Z) as Mz by (apply mag_unique_pos; split; assumption).
  unfold generic_format, F2R, scaled_mantissa, cexp in Gz. rewrite Mz, <- Q in Gz. cbn [Fnum Fexp] in Gz.
  set (k := Ztrunc (z * bpow r2 (- q))) in *. clearbody k.
  set (a := n * 2 ^ (- q)) in *.
  assert (IZR a = IZR n * bpow r2 (- q))%R as Ea by (unfold a; rewrite mult_IZR; f_equal; change 2 with (radix_val r2) at 1; rewrite IZR_Zpower by lia; reflexivity).
  assert (x - z = IZR (a - k * d) * (bpow r2 q / IZR d))%R as Ed.
  { rewrite minus_IZR, mult_IZR, Ea, Gz. unfold x. rewrite bpow_opp. field. split; [apply Rgt_not_eq, Pd|apply Rgt_not_eq, bpow_gt_0]. }
  assert (IZR (Z.abs (a - k * d)) <= IZR a * bpow r2 (-123))%R as Hle.
  { rewrite Ed, Rabs_mult, <- abs_IZR, (Rabs_pos_eq (bpow r2 q / IZR d)) in B by (apply Rlt_le, Rdiv_lt_0_compat; [apply bpow_gt_0|exact Pd]).
    apply Rmult_le_reg_r with (bpow r2 q / IZR d)%R; [apply Rdiv_lt_0_compat; [apply bpow_gt_0|exact Pd]|].
    apply Rle_trans with (1 := B). apply Req_le. rewrite Ea. unfold x. rewrite bpow_opp. field. split; [apply Rgt_not_eq, Pd|apply Rgt_not_eq, bpow_gt_0]. }
  assert (Z.abs (a - k * d) * 2 ^ 123 <= a) as Hz.
  { apply le_IZR. rewrite mult_IZR. change 2 with (radix_val r2) at 1. rewrite IZR_Zpower by lia.
    replace (IZR a) with (IZR a * bpow r2 (-123) * bpow r2 123)%R by (rewrite Rmult_assoc, <- bpow_plus; change (bpow r2 (-123 + 123)) with 1%R; ring).
    apply Rmult_le_compat_r; [apply bpow_ge_0|exact Hle]. }
  pose proof (Z.mod_pos_bound a d Hd) as Mb. pose proof (Z.div_mod a d ltac:(lia)) as Dm.
  assert (Z.min (a mod d) (d - a mod d) <= Z.abs (a - k * d)) as Hmin.
  { destruct (Z.le_gt_cases k (a / d)) as [C|C].
    - assert (0 <= (a / d - k) * d) by (apply Z.mul_nonneg_nonneg; lia). lia.
    - assert (1 * d <= (k - a / d) * d) by (apply Z.mul_le_mono_nonneg_r; lia). lia. }
  assert (Z.min (a mod d) (d - a mod d) * 2 ^ 123 <= Z.abs (a - k * d) * 2 ^ 123) by (apply Z.mul_le_mono_nonneg_r; [lia|exact Hmin]). lia.
Qed.

(** 10^-60 in double precision *)
Example dec_far_text : dec_text (bytes "1e-60") false (1 * bpow r10 (-60)).
Proof.
  change (bytes "1e-60") with ([] ++ [49] ++ 101 :: 45 :: [54; 48]).
  apply (dec_text_intro [] false); [constructor|]. change (-60) with (-60 - 0) at 1. apply dec_exp.
  - apply mantissa_int; [digits_of 10 [49] 1|discriminate].
  - left; reflexivity.
  - apply (exponent_minus [54; 48] 60). digits_of 10 [54; 48] 60.
Qed.
Lemma margin_low : forall n d e, 0 < d -> e <= 1 -> d * (2 ^ 122 + 1) <= n * 2 ^ (1 - e) * 2 ^ 122 ->
  (bpow r2 (e - 1) * (1 + bpow r2 (-122)) <= IZR n / IZR d)%R.
Proof.
  intros n d e Hd He H. assert (0 < IZR d)%R as Pd by (apply IZR_lt; assumption). apply IZR_le in H. rewrite !mult_IZR, plus_IZR in H.
  rewrite !IZR_pow2 in H by lia. apply Rmult_le_reg_r with (IZR d * (bpow r2 (1 - e) * bpow r2 122))%R.
  { apply Rmult_lt_0_compat; [exact Pd|]. apply Rmult_lt_0_compat; apply bpow_gt_0. }
  replace (bpow r2 (e - 1) * (1 + bpow r2 (-122)) * (IZR d * (bpow r2 (1 - e) * bpow r2 122)))%R
    with (IZR d * (bpow r2 122 + bpow r2 (-122) * bpow r2 122) * (bpow r2 (e - 1) * bpow r2 (1 - e)))%R by ring.
  replace (IZR n / IZR d * (IZR d * (bpow r2 (1 - e) * bpow r2 122)))%R with (IZR n * bpow r2 (1 - e) * bpow r2 122)%R by (field; lra).
  rewrite <- !bpow_plus. replace (e - 1 + (1 - e)) with 0 by ring. change (-122 + 122) with 0. cbn [bpow]. rewrite Rmult_1_r. exact H.
Qed.
Lemma margin_high : forall n d e, 0 < d -> e <= 0 -> n * (2 ^ 122 + 1) * 2 ^ (- e) <= d * 2 ^ 122 ->
  (IZR n / IZR d * (1 + bpow r2 (-122)) <= bpow r2 e)%R.
Proof.
  intros n d e Hd He H. assert (0 < IZR d)%R as Pd by (apply IZR_lt; assumption). apply IZR_le in H. rewrite !mult_IZR, plus_IZR in H.
  rewrite !IZR_pow2 in H by lia. apply Rmult_le_reg_r with (IZR d * (bpow r2 (- e) * bpow r2 122))%R.
  { apply Rmult_lt_0_compat; [exact Pd|]. apply Rmult_lt_0_compat; apply bpow_gt_0. }
  replace (IZR n / IZR d * (1 + bpow r2 (-122)) * (IZR d * (bpow r2 (- e) * bpow r2 122)))%R
    with (IZR n * (bpow r2 122 + bpow r2 (-122) * bpow r2 122) * bpow r2 (- e))%R by (field; lra).
  replace (bpow r2 e * (IZR d * (bpow r2 (- e) * bpow r2 122)))%R with (IZR d * bpow r2 122 * (bpow r2 e * bpow r2 (- e)))%R by ring.
  rewrite <- !bpow_plus. replace (e + - e) with 0 by ring. change (-122 + 122) with 0. cbn [bpow]. rewrite Rmult_1_r. exact H.
Qed.
Lemma dec_far_separated : separated DoubleS (1 * bpow r10 (-60)).
Proof.
  replace (1 * bpow r10 (-60))%R with (IZR 1 / IZR (10 ^ 60))%R by (unfold Rdiv; f_equal).
  apply (separated_by DoubleS 1 (10 ^ 60) (-199) (-252)); [exact double_ok|lia|reflexivity|reflexivity|lia| | |vm_compute; reflexivity].
  - apply margin_low; [reflexivity|lia|vm_compute; discriminate].
  - apply margin_high; [reflexivity|lia|vm_compute; discriminate].
Qed.
