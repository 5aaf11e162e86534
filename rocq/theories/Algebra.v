(** * Algebra.v -- consequences of correct rounding: uniqueness of the result,
    exception flags, symmetries, monotonicity *)
From Coq Require Import ZArith Reals List Bool Lia Lra ZifyBool.
From Flocq Require Import Core.
From Verif Require Import Machine Sig SpecSig Limbs SigProofs SigProofs2 SigProofs3 SigProofs4 SigProofs5 Ieee Spec Norm Arith Special Order.
Import ListNotations.
Local Open Scope Z_scope.
Ltac Zify.zify_post_hook ::= idtac.

(** ** Values of results *)
Lemma min_normal_le_max : forall S, sem_ok S -> (min_normal S <= max_finite S)%R.
Proof.
  intros S HS. pose proof (ok_prec S HS) as Hp. pose proof (ok_min S HS) as Hm. pose proof (ok_max S HS) as HM.
  pose proof (canonical_max S HS) as C. unfold min_normal.
  assert (H := finite_le_max S (2 ^ (PRECISION S - 1)) (MIN_EXP S) HS).
  pose proof (p_pow S HS) as [P1 [P2 P3]].
  eapply Rle_trans; [|apply H].
  - rewrite IZR_pow2_bpow by lia. apply bpow_le. lia.
  - repeat split; try lia.
Qed.

Lemma normal_nonzero : forall S x, wf S x -> category x = Normal -> value S x <> 0%R.
Proof.
  intros S x W C. rewrite (value_mag S x C). pose proof (mag_pos S x W C) as P.
  unfold sgnr. destruct (sign x); lra.
Qed.

Lemma normal_sign : forall S x, wf S x -> category x = Normal ->
  ((value S x < 0)%R <-> sign x = true) /\ ((0 < value S x)%R <-> sign x = false).
Proof.
  intros S x W C. rewrite (value_mag S x C). pose proof (mag_pos S x W C) as P.
  unfold sgnr. destruct (sign x); split; split; intro H; try lra; try reflexivity; try discriminate.
Qed.

(** ** The specification determines the result *)
Lemma finite_category : forall S f g, wf S f -> wf S g -> finite f -> finite g -> value S f = value S g ->
  category f = category g.
Proof.
  intros S f g Wf Wg [Cf|Cf] [Cg|Cg] E; try congruence.
  - exfalso. apply (normal_nonzero S f Wf Cf). rewrite E. unfold value. rewrite Cg. reflexivity.
  - exfalso. apply (normal_nonzero S g Wg Cg). rewrite <- E. unfold value. rewrite Cf. reflexivity.
Qed.

Lemma has_sign_unique : forall x zs f g, has_sign x zs f -> has_sign x zs g -> sign f = sign g.
Proof.
  intros x zs f g [A1 [A2 A3]] [B1 [B2 B3]].
  destruct (Rtotal_order x 0) as [H|[H|H]].
  - rewrite A1, B1; auto.
  - rewrite A3, B3; auto.
  - rewrite A2, B2; auto.
Qed.

Theorem delivers_unique : forall pol S m x zs st f st' f', sem_ok S ->
  delivers pol S m x zs (st, f) -> delivers pol S m x zs (st', f') ->
  st = st' /\ bitwise_eq f f' = true.
Proof.
  intros pol S m x zs st f st' f' HS [W [G [Fi Ov]]] [W' [G' [Fi' Ov']]].
  pose proof (has_sign_unique _ _ _ _ G G') as Sg.
  rewrite (bitwise_eq_spec S f f' HS W W').
  destruct (Rle_or_lt (Rabs (rounded S m x)) (max_finite S)) as [H|H].
  - destruct (Fi H) as [F1 [V1 [O1 [I1 U1]]]], (Fi' H) as [F2 [V2 [O2 [I2 U2]]]].
    split.
    + destruct (Req_dec (rounded S m x) x) as [E|E].
      * rewrite O1, O2; auto.
      * destruct (Rle_or_lt (min_normal S) (Rabs (rounded S m x))) as [L|L].
        -- rewrite I1, I2; auto.
        -- rewrite U1, U2; auto.
    + assert (category f = category f') by (apply (finite_category S); try assumption; congruence).
      split; [assumption|]. split; [assumption|]. split; [|intros _; congruence].
      intro N. destruct F1; congruence.
  - specialize (Ov H). specialize (Ov' H). rewrite <- Sg in Ov'.
    destruct (pol (sign f)).
    + destruct Ov as [-> C1], Ov' as [-> C2]. split; [reflexivity|].
      split; [congruence|]. split; [assumption|].
      destruct (NONFINITE_BEHAVIOR S) eqn:NB.
      * split; intro N; congruence.
      * split; [intros _|intro N; congruence].
        destruct W as [_ [_ W]], W' as [_ [_ W']]. rewrite C1 in W. rewrite C2 in W'.
        unfold nan_sig in W, W'. rewrite NB in W, W'. congruence.
    + destruct Ov as [-> [C1 M1]], Ov' as [-> [C2 M2]]. split; [reflexivity|].
      split; [congruence|]. split; [assumption|]. split; [intro N; congruence|intros _].
      rewrite (value_mag S f C1), (value_mag S f' C2), <- Sg in *.
      rewrite sgnr_abs in M1, M2 by (apply Rlt_le; apply mag_pos; assumption). congruence.
Qed.

(** ** Exception flags *)
Theorem delivers_flags : forall pol S m x zs st f, sem_ok S ->
  delivers pol S m x zs (st, f) -> flags_exact S m x st f.
Proof.
  intros pol S m x zs st f HS [W [G [Fi Ov]]].
  pose proof (min_normal_le_max S HS) as MM.
  assert (R0 : forall a b, Z.land a b = 0 -> ~ raised b a) by (unfold raised; tauto).
  destruct (Rle_or_lt (Rabs (rounded S m x)) (max_finite S)) as [H|H].
  - destruct (Fi H) as [F1 [V1 [O1 [I1 U1]]]]. unfold flags_exact.
    destruct (Req_dec (rounded S m x) x) as [E|E].
    + rewrite (O1 E). assert (V : value S f = x) by congruence.
      pose proof (R0 OK UNDERFLOW eq_refl). pose proof (R0 OK OVERFLOW eq_refl).
      pose proof (R0 OK INVALID_OP eq_refl). pose proof (R0 OK DIV_BY_ZERO eq_refl). tauto.
    + assert (V : value S f <> x) by congruence.
      destruct (Rle_or_lt (min_normal S) (Rabs (rounded S m x))) as [L|L].
      * rewrite (I1 E L). assert (V' : ~ (Rabs (value S f) < min_normal S)%R) by (rewrite V1; apply Rle_not_lt; exact L).
        pose proof (R0 INEXACT UNDERFLOW eq_refl). pose proof (R0 INEXACT OVERFLOW eq_refl).
        pose proof (R0 INEXACT INVALID_OP eq_refl). pose proof (R0 INEXACT DIV_BY_ZERO eq_refl).
        assert (raised INEXACT INEXACT) by discriminate. assert (INEXACT <> OK) by discriminate. tauto.
      * rewrite (U1 E L). assert (V' : (Rabs (value S f) < min_normal S)%R) by (rewrite V1; exact L).
        set (st0 := Z.lor UNDERFLOW INEXACT).
        assert (raised UNDERFLOW st0) by discriminate. pose proof (R0 st0 OVERFLOW eq_refl).
        pose proof (R0 st0 INVALID_OP eq_refl). pose proof (R0 st0 DIV_BY_ZERO eq_refl).
        assert (raised INEXACT st0) by discriminate. assert (st0 <> OK) by discriminate. tauto.
  - specialize (Ov H). unfold flags_exact. destruct (pol (sign f)).
    + destruct Ov as [-> C1].
      assert (NF : ~ finite f) by (intros [Q|Q]; rewrite Q in C1; destruct (NONFINITE_BEHAVIOR S); discriminate).
      set (st0 := Z.lor OVERFLOW INEXACT).
      pose proof (R0 st0 UNDERFLOW eq_refl). assert (raised OVERFLOW st0) by discriminate.
      pose proof (R0 st0 INVALID_OP eq_refl). pose proof (R0 st0 DIV_BY_ZERO eq_refl).
      assert (raised INEXACT st0) by discriminate. assert (st0 <> OK) by discriminate. tauto.
    + destruct Ov as [-> [C1 M1]].
      assert (F : finite f) by (left; exact C1).
      assert (NE : value S f <> x).
      { intro Q. apply (Rlt_not_le _ _ H). apply rounded_le_max; [exact HS|]. rewrite <- Q, M1. apply Rle_refl. }
      assert (V' : ~ (Rabs (value S f) < min_normal S)%R) by (rewrite M1; apply Rle_not_lt; exact MM).
      pose proof (R0 INEXACT UNDERFLOW eq_refl). pose proof (R0 INEXACT OVERFLOW eq_refl).
      pose proof (R0 INEXACT INVALID_OP eq_refl). pose proof (R0 INEXACT DIV_BY_ZERO eq_refl).
      assert (raised INEXACT INEXACT) by discriminate. assert (INEXACT <> OK) by discriminate. tauto.
Qed.

(** ** Mirror symmetry *)
Lemma rounded_mirrored : forall S m x, rounded S (mirrored m) (- x) = (- rounded S m x)%R.
Proof.
  intros S m x. unfold rounded. destruct m; cbn [mirrored rnd_of].
  - apply round_NE_opp.
  - apply round_DN_opp.
  - apply round_UP_opp.
  - apply round_ZR_opp.
  - apply round_NA_opp.
Qed.

Lemma delivers_mirrored : forall pol pol' S m x zs st f,
  (forall g, pol' g = pol (negb g)) ->
  delivers pol S m x zs (st, f) -> delivers pol' S (mirrored m) (- x) (negb zs) (st, neg f).
Proof.
  intros pol pol' S m x zs st f HP [W [[G1 [G2 G3]] [Fi Ov]]].
  unfold delivers. rewrite rounded_mirrored, Rabs_Ropp.
  split; [apply wf_neg; exact W|]. split.
  { unfold has_sign, neg, is_negative. cbn [sign]. repeat split; intro H.
    - rewrite G2 by lra. reflexivity.
    - rewrite G1 by lra. reflexivity.
    - rewrite G3 by lra. reflexivity. }
  split.
  - intro H. destruct (Fi H) as [F [V [O [I U]]]].
    split; [apply finite_neg; exact F|]. rewrite value_neg, V.
    split; [reflexivity|]. split; [intro E; apply O; lra|].
    split; intros E L; [apply I|apply U]; try exact L; intro Q; apply E; lra.
  - intro H. specialize (Ov H). unfold neg at 1, is_negative. cbn [sign]. rewrite HP, negb_involutive.
    destruct (pol (sign f)).
    + exact Ov.
    + rewrite value_neg, Rabs_Ropp. exact Ov.
Qed.

Lemma to_infinity_mirrored : forall m g, to_infinity (mirrored m) g = to_infinity m (negb g).
Proof. intros [] []; reflexivity. Qed.

Lemma bitwise_eq_neg : forall x y, bitwise_eq (neg x) (neg y) = bitwise_eq x y.
Proof.
  intros [s e c g] [s' e' c' g']. unfold bitwise_eq, neg, is_negative, is_finite_non_zero, is_finite, is_nan, is_infinite, is_zero.
  cbn [category sign sig exp]. destruct c, c', g, g'; reflexivity.
Qed.

(** ** Monotonicity *)
Lemma rounded_mono : forall S m x y, sem_ok S -> (x <= y)%R -> (rounded S m x <= rounded S m y)%R.
Proof.
  intros S m x y HS H. unfold rounded. pose proof (valid_rnd_of m) as V. pose proof (fexp_valid S HS) as E.
  apply round_le; assumption.
Qed.
(** what a result that is not a NaN can be *)
Lemma delivers_ext : forall pol S m x zs st f, sem_ok S -> delivers pol S m x zs (st, f) -> category f <> NaN ->
  exists a, ext_of S f = Some a /\
   (((Rabs (rounded S m x) <= max_finite S)%R /\ a = Fin (rounded S m x)) \/
    ((max_finite S < rounded S m x)%R /\
       (pol false = true /\ NONFINITE_BEHAVIOR S = IEEE754 /\ a = PosInf \/ pol false = false /\ a = Fin (max_finite S))) \/
    ((rounded S m x < - max_finite S)%R /\
       (pol true = true /\ NONFINITE_BEHAVIOR S = IEEE754 /\ a = NegInf \/ pol true = false /\ a = Fin (- max_finite S)))).
Proof.
  intros pol S m x zs st f HS [W [[G1 [G2 G3]] [Fi Ov]]] NN.
  pose proof (rounded_0 S m) as R0.
  destruct (Rle_or_lt (Rabs (rounded S m x)) (max_finite S)) as [H|H].
  - destruct (Fi H) as [F [V _]]. exists (Fin (rounded S m x)). split.
    + unfold ext_of. rewrite V. destruct F as [-> | ->]; reflexivity.
    + left. split; [exact H|reflexivity].
  - specialize (Ov H). pose proof (Rabs_pos x) as _.
    assert (MP : (0 < max_finite S)%R).
    { eapply Rlt_le_trans; [|apply min_normal_le_max; exact HS]. apply bpow_gt_0. }
    destruct (Rtotal_order x 0) as [L|[L|L]].
    + assert (RN : (rounded S m x <= 0)%R) by (rewrite <- R0; apply rounded_mono; [exact HS|lra]).
      rewrite Rabs_left1 in H by exact RN.
      specialize (G1 L). rewrite G1 in Ov.
      destruct (pol true) eqn:P.
      * destruct Ov as [_ C]. destruct (NONFINITE_BEHAVIOR S) eqn:NB; [|congruence].
        exists NegInf. unfold ext_of. rewrite C, G1. split; [reflexivity|]. right. right. split; [lra|]. left. repeat split.
      * destruct Ov as [_ [C M]]. exists (Fin (- max_finite S)). split.
        -- unfold ext_of. rewrite C. f_equal. f_equal.
           assert (value S f < 0)%R by (apply (proj1 (normal_sign S f W C)); exact G1).
           rewrite Rabs_left in M by assumption. lra.
        -- right. right. split; [lra|]. right. split; reflexivity.
    + subst x. rewrite R0, Rabs_R0 in H. lra.
    + assert (RN : (0 <= rounded S m x)%R) by (rewrite <- R0; apply rounded_mono; [exact HS|lra]).
      rewrite Rabs_right in H by lra.
      specialize (G2 L). rewrite G2 in Ov.
      destruct (pol false) eqn:P.
      * destruct Ov as [_ C]. destruct (NONFINITE_BEHAVIOR S) eqn:NB; [|congruence].
        exists PosInf. unfold ext_of. rewrite C, G2. split; [reflexivity|]. right. left. split; [lra|]. left. repeat split.
      * destruct Ov as [_ [C M]]. exists (Fin (max_finite S)). split.
        -- unfold ext_of. rewrite C. f_equal. f_equal.
           assert (0 < value S f)%R by (apply (proj2 (normal_sign S f W C)); exact G2).
           rewrite Rabs_right in M by lra. lra.
        -- right. left. split; [lra|]. right. split; reflexivity.
Qed.

Theorem delivers_monotone : forall pol pol' S m x x' zs zs' st st' f f', sem_ok S ->
  (NONFINITE_BEHAVIOR S = IEEE754 -> forall g, pol g = pol' g) ->
  delivers pol S m x zs (st, f) -> delivers pol' S m x' zs' (st', f') ->
  category f <> NaN -> category f' <> NaN -> (x <= x')%R ->
  exists a b, ext_of S f = Some a /\ ext_of S f' = Some b /\ ext_le a b.
Proof.
  intros pol pol' S m x x' zs zs' st st' f f' HS HP D D' N N' L.
  destruct (delivers_ext pol S m x zs st f HS D N) as [a [E A]].
  destruct (delivers_ext pol' S m x' zs' st' f' HS D' N') as [b [E' B]].
  exists a, b. split; [exact E|]. split; [exact E'|].
  pose proof (rounded_mono S m x x' HS L) as RL.
  assert (MP : (0 < max_finite S)%R).
  { eapply Rlt_le_trans; [|apply min_normal_le_max; exact HS]. apply bpow_gt_0. }
  assert (FL : forall u v, (u <= v)%R -> ext_le (Fin u) (Fin v)).
  { intros u v [Q|Q]; [left; exact Q|right; rewrite Q; reflexivity]. }
  unfold ext_le in *.
  destruct A as [[A1 ->]|[[A1 [[A2 [A3 ->]]|[A2 ->]]]|[A1 [[A2 [A3 ->]]|[A2 ->]]]]];
  destruct B as [[B1 ->]|[[B1 [[B2 [B3 ->]]|[B2 ->]]]|[B1 [[B2 [B3 ->]]|[B2 ->]]]]];
  try apply Rabs_le_inv in A1; try apply Rabs_le_inv in B1;
  try (apply FL; lra); try (left; exact I); try (right; reflexivity); try lra;
  try (exfalso; lra); try (rewrite (HP A3) in A2; congruence); try (rewrite <- (HP B3) in B2; congruence).
Qed.
