(** * Pair.v -- pairs of floats: conversion from and to the double-width format *)
From Coq Require Import ZArith Reals List Bool Lia Lra ZifyBool.
From Flocq Require Import Core.
From Verif Require Import Machine Ieee Spec Norm Arith Special Order Int Convert Algebra Ppc SpecPair.
Import ListNotations.
Local Open Scope Z_scope.
Ltac Zify.zify_post_hook ::= idtac.

Section Pair.
Variable F : Semantics.
Hypothesis HF : pair_ok F.
Notation W := (FallbackS F).
Notation X := (FallbackExtendedS F).
Notation p := (PRECISION F).
Notation emin := (MIN_EXP F - (PRECISION F - 1)).

Lemma F_ok : sem_ok F.
Proof. exact (pok_half F HF). Qed.
Lemma W_ok : sem_ok W.
Proof.
  destruct HF as [[Hp Hmin Hmax Hn] I X87F P M Q].
  split; unfold FallbackS, fallback_semantics;
    cbn [PRECISION MIN_EXP MAX_EXP NONFINITE_BEHAVIOR NAN_SIGNIFICAND_BASE NAN_PAYLOAD_MASK X87 QNAN_SIGNIFICAND]; try lia.
Qed.
Lemma X_ok : sem_ok X.
Proof.
  destruct HF as [[Hp Hmin Hmax Hn] I X87F P M Q].
  split; unfold FallbackExtendedS, fallback_semantics;
    cbn [PRECISION MIN_EXP MAX_EXP NONFINITE_BEHAVIOR NAN_SIGNIFICAND_BASE NAN_PAYLOAD_MASK X87 QNAN_SIGNIFICAND]; try lia.
Qed.
Lemma W_prec : PRECISION W = 2 * p. Proof. unfold FallbackS, fallback_semantics. cbn [PRECISION]. lia. Qed.
Lemma X_prec : PRECISION X = 2 * p. Proof. unfold FallbackExtendedS, fallback_semantics. cbn [PRECISION]. lia. Qed.
Lemma W_fexp : fexp W = FLT_exp emin (2 * p).
Proof.
  unfold fexp. rewrite W_prec. unfold FallbackS, fallback_semantics. cbn [MIN_EXP]. f_equal. lia.
Qed.

Lemma max_finite_ieee : forall S, sem_ok S -> NONFINITE_BEHAVIOR S = IEEE754 ->
  max_finite S = (bpow r2 (MAX_EXP S + 1) - bpow r2 (MAX_EXP S + 1 - PRECISION S))%R.
Proof.
  intros S HS I. pose proof HS as [Hp _ _ _]. unfold max_finite, max_sig. rewrite I, minus_IZR.
  change 2 with (radix_val r2) at 1. rewrite IZR_Zpower by lia. rewrite Rmult_minus_distr_r, <- bpow_plus, Rmult_1_l.
  replace (PRECISION S + (MAX_EXP S - (PRECISION S - 1))) with (MAX_EXP S + 1) by lia.
  replace (MAX_EXP S - (PRECISION S - 1)) with (MAX_EXP S + 1 - PRECISION S) by lia. reflexivity.
Qed.
Lemma max_F_W : (max_finite F < max_finite W)%R.
Proof.
  destruct HF as [HS I _ P M Q]. rewrite (max_finite_ieee F HS I), (max_finite_ieee W W_ok eq_refl), W_prec.
  change (MAX_EXP W) with (MAX_EXP F). pose proof (ok_prec F HS).
  assert (bpow r2 (MAX_EXP F + 1 - 2 * p) < bpow r2 (MAX_EXP F + 1 - p))%R by (apply bpow_lt; lia). lra.
Qed.
Lemma max_W_X : max_finite W = max_finite X.
Proof. reflexivity. Qed.
Lemma X_contains_W : contains X W.
Proof.
  split; [rewrite X_prec, W_prec; lia|]. split; [|rewrite max_W_X; lra].
  unfold min_positive. rewrite X_prec, W_prec. apply bpow_le. unfold FallbackExtendedS, FallbackS, fallback_semantics. cbn [MIN_EXP].
  destruct HF as [[Hp _ _ _] _ _ _ _ _]. lia.
Qed.
Lemma W_contains_F : contains W F.
Proof.
  destruct HF as [[Hp _ _ _] _ _ _ _ _].
  split; [rewrite W_prec; lia|]. split; [|apply Rlt_le, max_F_W].
  unfold min_positive. rewrite W_prec. apply bpow_le. unfold FallbackS, fallback_semantics. cbn [MIN_EXP]. lia.
Qed.
Lemma X_contains_F : contains X F.
Proof.
  destruct HF as [[Hp _ _ _] _ _ _ _ _].
  split; [rewrite X_prec; lia|]. split; [|rewrite <- max_W_X; apply Rlt_le, max_F_W].
  unfold min_positive. rewrite X_prec. apply bpow_le. unfold FallbackExtendedS, fallback_semantics. cbn [MIN_EXP]. lia.
Qed.

Lemma sides : forall S m x, NONFINITE_BEHAVIOR S = IEEE754 -> overflow_side_ok S m x.
Proof. intros S m x I N. rewrite I in N. discriminate. Qed.

(** the rounding error of a double-width number is a number of the format *)
Lemma split_error : forall x, generic_format r2 (fexp W) x ->
  generic_format r2 (fexp F) (x - rounded F NearestTiesToEven x).
Proof.
  intros x G. rewrite W_fexp in G. destruct HF as [[Hp _ _ _] _ _ _ _ _].
  assert (Prec_gt_0 p) as P1 by (unfold Prec_gt_0; lia). assert (Prec_gt_0 (2 * p)) as P2 by (unfold Prec_gt_0; lia).
  set (a := rounded F NearestTiesToEven x). set (e := cexp r2 (FLT_exp emin (2 * p)) x).
  assert (Le : e <= cexp r2 (fexp F) x). { unfold e, cexp, fexp, FLT_exp. lia. }
  assert (exists n, (x - a = IZR n * bpow r2 e)%R) as [n En].
  { exists (Ztrunc (scaled_mantissa r2 (FLT_exp emin (2 * p)) x) - ZnearestE (scaled_mantissa r2 (fexp F) x) * 2 ^ (cexp r2 (fexp F) x - e)).
    rewrite minus_IZR, mult_IZR, (IZR_pow2 (cexp r2 (fexp F) x - e)) by lia.
    rewrite Rmult_minus_distr_r, Rmult_assoc, <- bpow_plus.
    replace (cexp r2 (fexp F) x - e + e) with (cexp r2 (fexp F) x) by lia.
    f_equal. exact G. }
  assert (B : (Rabs (x - a) <= / 2 * bpow r2 (cexp r2 (fexp F) x))%R).
  { destruct (Req_dec x 0) as [->|Nx].
    - unfold a, rounded. rewrite round_0 by apply valid_rnd_N. rewrite Rminus_0_r, Rabs_R0. pose proof (bpow_gt_0 r2 (cexp r2 (fexp F) 0)). lra.
    - rewrite <- ulp_neq_0 by exact Nx. unfold a, rounded. cbn [rnd_of]. rewrite Rabs_minus_sym.
      exact (error_le_half_ulp r2 (fexp F) _ x). }
  apply generic_format_FLT. exists (Defs.Float r2 n e).
  - exact En.
  - cbn [Fnum]. rewrite En, Rabs_mult, (Rabs_pos_eq (bpow r2 e)) in B by apply bpow_ge_0.
    apply lt_IZR. rewrite abs_IZR.
    assert (B' : (Rabs (IZR n) <= / 2 * bpow r2 (cexp r2 (fexp F) x - e))%R).
    { apply Rmult_le_reg_r with (bpow r2 e); [apply bpow_gt_0|]. rewrite Rmult_assoc, <- bpow_plus.
      replace (cexp r2 (fexp F) x - e + e) with (cexp r2 (fexp F) x) by lia. exact B. }
    apply Rle_lt_trans with (1 := B'). change (Zpower r2 p) with (2 ^ p). rewrite IZR_pow2 by lia.
    change (/ 2)%R with (bpow r2 (-1)). rewrite <- bpow_plus. apply bpow_lt.
    unfold e, cexp, fexp, FLT_exp. lia.
  - cbn [Fexp]. unfold e, cexp, FLT_exp. lia.
Qed.

Lemma below_normal : forall x, generic_format r2 (fexp W) x -> (Rabs x < min_normal F)%R -> generic_format r2 (fexp F) x.
Proof.
  intros x G B. rewrite W_fexp in G. destruct HF as [[Hp _ _ _] _ _ _ _ _].
  destruct (Req_dec x 0) as [->|Nx]; [apply generic_format_0|].
  assert (M : Raux.mag r2 x <= MIN_EXP F) by (apply mag_le_bpow; [exact Nx|exact B]).
  unfold generic_format, scaled_mantissa, cexp, FLT_exp in *. unfold fexp, FLT_exp.
  replace (Z.max (Raux.mag r2 x - p) emin) with emin by lia.
  replace (Z.max (Raux.mag r2 x - 2 * p) emin) with emin in G by lia. exact G.
Qed.
Lemma min_normal_format : forall S, sem_ok S -> generic_format r2 (fexp S) (min_normal S).
Proof.
  intros S HS. pose proof HS as [Hp _ _ _]. unfold min_normal. apply generic_format_bpow. unfold fexp, FLT_exp. lia.
Qed.
Lemma rounded_normal : forall x, generic_format r2 (fexp W) x -> rounded F NearestTiesToEven x <> x ->
  (min_normal F <= Rabs (rounded F NearestTiesToEven x))%R.
Proof.
  intros x G N. destruct (Rle_or_lt (min_normal F) (Rabs x)) as [L|L].
  - unfold rounded. pose proof F_ok as [Hp _ _ _]. assert (Prec_gt_0 p) by (unfold Prec_gt_0; lia).
    apply abs_round_ge_generic; [apply FLT_exp_valid; assumption|apply valid_rnd_N|apply min_normal_format, F_ok|exact L].
  - elim N. apply rounded_format. apply below_normal; assumption.
Qed.
Lemma sign_same : forall S x f, wf S x -> finite x -> has_sign (value S x) (sign x) f -> sign f = sign x.
Proof. intros S x f Hx Fx H. apply (has_sign_unique _ _ _ _ H). apply value_sign; auto. Qed.
Lemma convert_exact : forall S T x m, sem_ok S -> sem_ok T -> NONFINITE_BEHAVIOR T = IEEE754 -> wf S x -> finite x ->
  representable T (value S x) ->
  exists r, convert_r S T x m = Ret (OK, r, false) /\ wf T r /\ finite r /\ value T r = value S x /\ sign r = sign x.
Proof.
  intros S T x m HS HT I Hx Fx R. destruct (convert_r_finite S T x m HS HT Hx Fx (sides _ _ _ I)) as [st [r [lost [E [D L]]]]].
  destruct (cr_representable T m _ _ _ _ HT R D) as [-> [Fr Vr]]. exists r.
  assert (lost = false) as -> by (apply L; auto). destruct D as [Hr [Sr _]].
  split; [exact E|]. split; [exact Hr|]. split; [exact Fr|]. split; [exact Vr|]. apply (sign_same S); auto.
Qed.
Lemma wf_ZERO : wf F (ZERO F).
Proof. exact (proj1 (ZERO_special F false F_ok)). Qed.

Lemma ldiff_overflow : Z.ldiff (Z.lor OVERFLOW INEXACT) INEXACT =? OK = false.
Proof. reflexivity. Qed.

Lemma from_fallback_finite : forall f, wf W f -> finite f ->
  (Rabs (rounded F NearestTiesToEven (value W f)) <= max_finite F)%R ->
  exists r, from_fallback F f = Ret r /\ sign (d0 r) = sign f /\ splits F (value W f) r.
Proof.
  intros f Hf Ff B. unfold from_fallback.
  pose proof (finite_representable W f W_ok Hf Ff) as RW.
  destruct (convert_exact W X f NearestTiesToEven W_ok X_ok eq_refl Hf Ff (contains_representable W X _ W_ok X_ok X_contains_W RW))
    as [ext [-> [He [Fe [Ve Se]]]]]. cbn [bind]. change (OK =? OK) with true. cbn [negb andb assertb].
  destruct (convert_r_finite X F ext NearestTiesToEven X_ok F_ok He Fe (sides _ _ _ (pok_ieee F HF))) as [st [a [lost [-> [D L]]]]].
  cbn [bind]. rewrite Ve in D, L. set (v := value W f) in *.
  destruct D as [Ha [Sa [D _]]]. destruct (D B) as [Fa [Va [D1 [D2 _]]]]. clear D.
  assert (NU : rounded F NearestTiesToEven v <> v -> st = INEXACT).
  { intro N. apply D2; [exact N|]. apply rounded_normal; [exact (proj1 RW)|exact N]. }
  assert (Z.ldiff st INEXACT =? OK = true) as ->.
  { destruct (Req_dec (rounded F NearestTiesToEven v) v) as [E|N]; [rewrite (D1 E)|rewrite (NU N)]; reflexivity. }
  assert (Sa' : sign a = sign f) by (rewrite <- Se; apply (sign_same X ext); [exact He|exact Fe|rewrite Ve; exact Sa]).
  cbn [assertb]. destruct lost.
  - assert (N : rounded F NearestTiesToEven v <> v).
    { intro E. assert (true = false) by (apply L; split; [exact Fa|congruence]). discriminate. }
    assert (Na : category a = Normal).
    { destruct Fa as [|Z]; [assumption|]. exfalso. pose proof (rounded_normal v (proj1 RW) N) as Q. rewrite <- Va in Q.
      unfold value in Q. rewrite Z, Rabs_R0 in Q. unfold min_normal in Q. pose proof (bpow_gt_0 r2 (MIN_EXP F)). lra. }
    rewrite is_finite_non_zero_spec, Na. cbn [category_eqb andb].
    pose proof (finite_representable F a F_ok Ha Fa) as RA.
    destruct (convert_exact F X a NearestTiesToEven F_ok X_ok eq_refl Ha Fa (contains_representable F X _ F_ok X_ok X_contains_F RA))
      as [u [-> [Hu [Fu [Vu Su]]]]]. cbn [bind]. change (OK =? OK) with true. cbn [negb andb assertb].
    assert (RD : representable F (v - rounded F NearestTiesToEven v)).
    { split; [apply split_error; exact (proj1 RW)|].
      pose proof F_ok as [Hp _ Hmax _].
      assert (Valid_exp (fexp F)) by (apply FLT_exp_valid; unfold Prec_gt_0; lia).
      assert (Nv : v <> 0%R). { intro Z0. apply N. rewrite Z0. apply rounded_format, generic_format_0. }
      apply Rle_trans with (ulp r2 (fexp F) v).
      - unfold rounded. cbn [rnd_of]. rewrite Rabs_minus_sym. pose proof (error_le_half_ulp r2 (fexp F) (fun x => negb (Z.even x)) v) as Q.
        pose proof (ulp_ge_0 r2 (fexp F) v) as Q0. apply Rle_trans with (1 := Q). lra.
      - assert (Rabs v < bpow r2 (MAX_EXP F + 1))%R as BV.
        { destruct (Rlt_or_le (Rabs v) (bpow r2 (MAX_EXP F + 1))) as [|Q]; [assumption|].
          pose proof (rounded_above_max F NearestTiesToEven v F_ok Q). lra. }
        assert (Raux.mag r2 v <= MAX_EXP F + 1) by (apply mag_le_bpow; assumption).
        rewrite ulp_neq_0 by exact Nv. apply Rle_trans with (bpow r2 (MAX_EXP F)).
        + apply bpow_le. unfold cexp, fexp, FLT_exp. pose proof (ok_min F F_ok). lia.
        + rewrite (max_finite_ieee F F_ok (pok_ieee F HF)).
          assert (bpow r2 (MAX_EXP F + 1 - p) <= bpow r2 (MAX_EXP F))%R by (apply bpow_le; lia).
          rewrite (bpow_plus r2 (MAX_EXP F) 1). change (bpow r2 1) with 2%R. lra. }
    destruct (sub_r_finite X ext u NearestTiesToEven X_ok He Hu Fe Fu (sides X _ _ eq_refl)) as [[st2 w] [-> DW]]. cbn [bind].
    rewrite Ve, Vu, Va in DW.
    destruct (cr_representable X _ _ _ _ _ X_ok (contains_representable F X _ F_ok X_ok X_contains_F RD) DW) as [-> [Fw Vw]].
    change (OK =? OK) with true. cbn [assertb]. destruct DW as [Hw _].
    assert (RD' : representable F (value X w)) by (rewrite Vw; exact RD).
    destruct (convert_exact X F w NearestTiesToEven X_ok F_ok (pok_ieee F HF) Hw Fw RD') as [b [-> [Hb [Fb [Vb _]]]]].
    cbn [bind]. change (OK =? OK) with true. cbn [negb andb assertb].
    eexists. split; [reflexivity|]. cbn [d0]. split; [exact Sa'|].
    assert (PV : pair_value F (mkDF a b) = v) by (unfold pair_value; cbn [d0 d1]; rewrite Va, Vb, Vw; ring).
    split; [|exact PV]. split; [split; assumption|]. split; [split; assumption|]. rewrite PV. exact Va.
  - rewrite andb_false_r. eexists. split; [reflexivity|]. cbn [d0]. split; [exact Sa'|].
    assert (V0 : value F a = v) by (apply L; reflexivity).
    assert (PV : pair_value F (mkDF a (ZERO F)) = v).
    { unfold pair_value. cbn [d0 d1]. unfold value at 2. cbn [ZERO category]. rewrite V0. ring. }
    split; [|exact PV]. split; [split; [assumption|apply wf_ZERO]|]. split; [split; [assumption|right; reflexivity]|]. rewrite PV. exact Va.
Qed.

Lemma from_fallback_overflow : forall f, wf W f -> finite f ->
  (max_finite F < Rabs (rounded F NearestTiesToEven (value W f)))%R -> from_fallback F f = Panic.
Proof.
  intros f Hf Ff B. unfold from_fallback.
  pose proof (finite_representable W f W_ok Hf Ff) as RW.
  destruct (convert_exact W X f NearestTiesToEven W_ok X_ok eq_refl Hf Ff (contains_representable W X _ W_ok X_ok X_contains_W RW))
    as [ext [-> [He [Fe [Ve Se]]]]]. cbn [bind]. change (OK =? OK) with true. cbn [negb andb assertb].
  destruct (convert_r_finite X F ext NearestTiesToEven X_ok F_ok He Fe (sides _ _ _ (pok_ieee F HF))) as [st [a [lost [-> [D L]]]]].
  cbn [bind]. rewrite Ve in D. destruct D as [_ [_ [_ D]]]. specialize (D B). cbn [to_infinity] in D. destruct D as [-> _].
  rewrite ldiff_overflow. reflexivity.
Qed.

Lemma from_fallback_infinite : forall f, category f = Infinity ->
  exists r, from_fallback F f = Ret r /\ split_of F f r.
Proof.
  intros f Cf. unfold from_fallback.
  destruct (convert_r_infinite W X f NearestTiesToEven X_ok Cf) as [e [-> [He [Ce Se]]]]. cbn [bind NONFINITE_BEHAVIOR X FallbackExtendedS fallback_semantics].
  change (OK =? OK) with true. cbn [negb andb assertb].
  destruct (convert_r_infinite X F e NearestTiesToEven F_ok Ce) as [a [-> [Ha [Ca Sa]]]]. cbn [bind]. rewrite (pok_ieee F HF). 
  change (Z.ldiff OK INEXACT =? OK) with true. cbn [assertb]. rewrite andb_false_r.
  eexists. split; [reflexivity|]. unfold infinity_of in Ca. rewrite (pok_ieee F HF) in Ca.
  split; [cbn [d0]; congruence|]. rewrite Cf. cbn [d0 d1]. split; [|exact (ZERO_special F false F_ok)]. split; [exact Ha|]. split; congruence.
Qed.

Lemma from_fallback_nan : forall f, wf W f -> category f = NaN ->
  if signaling W f then from_fallback F f = Panic
  else exists r, from_fallback F f = Ret r /\ split_of F f r.
Proof.
  intros f Hf Cf. unfold from_fallback. destruct HF as [HS I X87F P M Q]. pose proof HS as [Hp _ _ _].
  destruct (convert_r_nan W X f NearestTiesToEven W_ok X_ok Hf Cf) as [e [lost [-> [[He [Ce Qe]] [Se [Pe Le]]]]]]. cbn [bind].
  destruct (signaling W f) eqn:Sg; cbn [invalid_if].
  - reflexivity.
  - change (OK =? OK) with true. specialize (Pe eq_refl eq_refl). specialize (Le eq_refl).
    rewrite X_prec, W_prec, Z.sub_diag, !Z.shiftl_0_r in Pe, Le.
    assert (lost = false) as -> by (apply Le; repeat split; auto). cbn [negb andb assertb].
    rewrite (quieted_of_quiet W f W_ok Cf Sg) in Pe.
    destruct (convert_r_nan X F e NearestTiesToEven X_ok F_ok He Ce) as [a [lost' [-> [[Ha [Ca Qa]] [Sa [Pa _]]]]]]. cbn [bind].
    rewrite Qe. cbn [invalid_if]. change (Z.ldiff OK INEXACT =? OK) with true. cbn [assertb].
    rewrite is_finite_non_zero_spec, Ca. cbn [category_eqb andb].
    eexists. split; [reflexivity|]. split; [cbn [d0]; congruence|]. rewrite Cf. cbn [d0 d1].
    split; [split; [exact Ha|split; assumption]|]. split; [exact (ZERO_special F false F_ok)|].
    rewrite (Pa eq_refl I), (quieted_of_quiet X e X_ok Ce Qe).
    assert (Ee : sig e = sig f).
    { pose proof (proj2 (proj2 Hf)) as Nf. pose proof (proj2 (proj2 He)) as Ne. rewrite Cf in Nf. rewrite Ce in Ne. cbv [nan_sig] in Nf, Ne.
      cbn [NONFINITE_BEHAVIOR X87 W X FallbackS FallbackExtendedS fallback_semantics PRECISION] in Nf, Ne.
      replace (p * 2) with (2 * p) in * by lia.
      rewrite !Z.mod_small in Pe by lia. exact Pe. }
    rewrite Ee, X_prec. replace (p - 2 * p) with (- p) by lia. rewrite Z.shiftl_opp_r. reflexivity.
Qed.

Theorem from_fallback_spec : forall f, wf W f ->
  (splittable F f -> exists r, from_fallback F f = Ret r /\ split_of F f r) /\
  (~ splittable F f -> from_fallback F f = Panic).
Proof.
  intros f Hf. unfold splittable, split_of.
  assert (FIN : finite f ->
    ((Rabs (rounded F NearestTiesToEven (value W f)) <= max_finite F)%R ->
       exists r, from_fallback F f = Ret r /\ sign (d0 r) = sign f /\ splits F (value W f) r) /\
    (~ (Rabs (rounded F NearestTiesToEven (value W f)) <= max_finite F)%R -> from_fallback F f = Panic)).
  { intro Ff. split; intro B; [apply from_fallback_finite; assumption|apply from_fallback_overflow; auto; lra]. }
  destruct (category f) eqn:Cf.
  - split; [intros _|tauto]. destruct (from_fallback_infinite f Cf) as [r [E R]]. exists r. unfold split_of in R. rewrite Cf in R. auto.
  - pose proof (from_fallback_nan f Hf Cf) as Q. unfold split_of in Q. rewrite Cf in Q. destruct (signaling W f).
    + split; [discriminate|auto].
    + split; [auto|tauto].
  - apply FIN. left. exact Cf.
  - apply FIN. right. exact Cf.
Qed.

Lemma W_valid : Valid_exp (fexp W).
Proof. apply FLT_exp_valid. unfold Prec_gt_0. pose proof (ok_prec W W_ok). lia. Qed.
Lemma F_valid : Valid_exp (fexp F).
Proof. apply FLT_exp_valid. unfold Prec_gt_0. pose proof (ok_prec F F_ok). lia. Qed.
Lemma NE_valid : Valid_rnd (rnd_of NearestTiesToEven).
Proof. apply valid_rnd_N. Qed.
Lemma value_zero : forall S x, category x = Zero -> value S x = 0%R.
Proof. intros S x C. unfold value. rewrite C. reflexivity. Qed.
Lemma value_format : forall S x, sem_ok S -> wf S x -> finite x -> generic_format r2 (fexp S) (value S x).
Proof. intros S x HS Hx Fx. exact (proj1 (finite_representable S x HS Hx Fx)). Qed.

Lemma nearest_range : forall v, (Rabs (rounded F NearestTiesToEven v) <= max_finite F)%R -> (Rabs v <= max_finite W)%R.
Proof.
  intros v B. pose proof F_valid. pose proof F_ok as [Hp Hmin Hmax _]. pose proof (pok_max F HF). pose proof (pok_prec F HF).
  destruct (Req_dec v 0) as [->|Nv].
  { rewrite Rabs_R0. apply Rle_trans with (max_finite F); [|apply Rlt_le, max_F_W]. pose proof (Rabs_pos (rounded F NearestTiesToEven 0)). lra. }
  assert (Rabs v < bpow r2 (MAX_EXP F + 1))%R as BV.
  { destruct (Rlt_or_le (Rabs v) (bpow r2 (MAX_EXP F + 1))) as [|Q]; [assumption|].
    pose proof (rounded_above_max F NearestTiesToEven v F_ok Q). lra. }
  assert (M : Raux.mag r2 v <= MAX_EXP F + 1) by (apply mag_le_bpow; assumption).
  pose proof (error_le_half_ulp r2 (fexp F) (fun x => negb (Z.even x)) v) as Q.
  rewrite ulp_neq_0 in Q by exact Nv.
  assert (bpow r2 (cexp r2 (fexp F) v) <= bpow r2 (MAX_EXP F + 1 - p))%R as U.
  { apply bpow_le. unfold cexp, fexp, FLT_exp. lia. }
  assert (Rabs v <= max_finite F + / 2 * bpow r2 (MAX_EXP F + 1 - p))%R as B2.
  { replace v with (rounded F NearestTiesToEven v - (rounded F NearestTiesToEven v - v))%R by ring.
    apply Rle_trans with (1 := Rabs_triang _ _). rewrite Rabs_Ropp.
    apply Rplus_le_compat; [exact B|]. apply Rle_trans with (1 := Q). lra. }
  apply Rle_trans with (1 := B2). rewrite (max_finite_ieee F F_ok (pok_ieee F HF)), (max_finite_ieee W W_ok eq_refl), W_prec.
  change (MAX_EXP W) with (MAX_EXP F).
  assert (bpow r2 (MAX_EXP F + 1 - 2 * p) <= bpow r2 (MAX_EXP F + 1 - p + -1))%R as Q1 by (apply bpow_le; lia).
  rewrite (bpow_plus r2 (MAX_EXP F + 1 - p) (-1)) in Q1. change (bpow r2 (-1)) with (/ 2)%R in Q1. lra.
Qed.

Lemma to_fallback_canonical : forall x, canonical_pair F x ->
  exists w, to_fallback F x = Ret w /\ wf W w /\ finite w /\ value W w = operand F x /\ sign w = sign (d0 x).
Proof.
  intros x [[H0 H1] [[F0 F1] V]]. unfold to_fallback, operand. pose proof F_valid. pose proof W_valid. pose proof NE_valid.
  pose proof (finite_representable F _ F_ok H0 F0) as R0. pose proof (finite_representable F _ F_ok H1 F1) as R1.
  destruct (convert_exact F W (d0 x) NearestTiesToEven F_ok W_ok eq_refl H0 F0 (contains_representable F W _ F_ok W_ok W_contains_F R0))
    as [a [-> [Ha [Fa [Va Sa]]]]]. cbn [bind]. change (OK =? OK) with true. cbn [negb andb assertb].
  rewrite is_finite_non_zero_spec. destruct Fa as [Ca|Ca]; rewrite Ca; cbn [category_eqb].
  - destruct (convert_exact F W (d1 x) NearestTiesToEven F_ok W_ok eq_refl H1 F1 (contains_representable F W _ F_ok W_ok W_contains_F R1))
      as [b [-> [Hb [Fb [Vb Sb]]]]]. cbn [bind]. change (OK =? OK) with true. cbn [negb andb assertb].
    destruct (add_r_finite W a b NearestTiesToEven W_ok Ha Hb (or_introl Ca) Fb (sides W _ _ eq_refl)) as [[st w] [-> D]].
    cbn [bind]. rewrite Va, Vb in D. fold (pair_value F x) in D. exists w. split; [reflexivity|].
    destruct D as [Hw [Sw [D _]]].
    assert (B : (Rabs (rounded W NearestTiesToEven (pair_value F x)) <= max_finite W)%R).
    { apply rounded_le_max; [exact W_ok|]. apply nearest_range. rewrite <- V. exact (proj2 R0). }
    destruct (D B) as [Fw [Vw _]]. split; [exact Hw|]. split; [exact Fw|]. split; [exact Vw|].
    pose proof (normal_nonzero W a Ha Ca) as Nz. rewrite Va in Nz.
    assert (C0 : category (d0 x) = Normal) by (destruct F0 as [|Z]; [assumption|rewrite (value_zero F _ Z) in Nz; contradiction]).
    pose proof (value_sign F (d0 x) (sign (d0 x)) H0 F0 (fun _ => eq_refl)) as [S1 [S2 _]].
    destruct Sw as [W1 [W2 _]].
    destruct (Rtotal_order (pair_value F x) 0) as [L|[E|G]].
    + rewrite (W1 L). symmetry. apply S1. assert (value F (d0 x) <= 0)%R; [|lra]. rewrite V. unfold rounded.
      rewrite <- (round_0 r2 (fexp F) (rnd_of NearestTiesToEven)). apply round_le; [assumption|assumption|lra].
    + rewrite E in V. unfold rounded in V. rewrite round_0 in V by assumption. contradiction.
    + rewrite (W2 G). symmetry. apply S2. assert (0 <= value F (d0 x))%R; [|lra]. rewrite V. unfold rounded.
      rewrite <- (round_0 r2 (fexp F) (rnd_of NearestTiesToEven)). apply round_le; [assumption|assumption|lra].
  - exists a. split; [reflexivity|]. split; [exact Ha|]. split; [right; exact Ca|]. split; [|exact Sa].
    rewrite (value_zero W a Ca) in *. unfold pair_value in *. rewrite <- Va in *. rewrite Rplus_0_l in *.
    rewrite (rounded_format F) in V by (apply value_format; [exact F_ok|assumption|assumption]).
    rewrite <- V. unfold rounded. rewrite round_0 by assumption. reflexivity.
Qed.

Lemma to_fallback_infinite : forall x, category (d0 x) = Infinity ->
  exists w, to_fallback F x = Ret w /\ is_special W Infinity (sign (d0 x)) w.
Proof.
  intros x C. unfold to_fallback. destruct (convert_r_infinite F W (d0 x) NearestTiesToEven W_ok C) as [a [-> Ha]]. cbn [bind].
  change (NONFINITE_BEHAVIOR W) with IEEE754. change (OK =? OK) with true. cbn [negb andb assertb].
  rewrite is_finite_non_zero_spec. pose proof Ha as [_ [Ca _]]. unfold infinity_of in Ca. change (NONFINITE_BEHAVIOR W) with IEEE754 in Ca. rewrite Ca. cbn [category_eqb].
  exists a. split; [reflexivity|exact Ha].
Qed.
Lemma to_fallback_nan : forall x, wf F (d0 x) -> category (d0 x) = NaN ->
  if signaling F (d0 x) then to_fallback F x = Panic
  else exists w, to_fallback F x = Ret w /\ default_nan W w /\ sign w = sign (d0 x) /\ sig w = Z.shiftl (sig (d0 x)) p.
Proof.
  intros x H C. unfold to_fallback. destruct HF as [HS I X87F P M Q]. pose proof HS as [Hp _ _ _].
  destruct (convert_r_nan F W (d0 x) NearestTiesToEven F_ok W_ok H C) as [a [lost [-> [Ha [Sa [Pa La]]]]]]. cbn [bind].
  destruct (signaling F (d0 x)) eqn:Sg; cbn [invalid_if]; [reflexivity|].
  specialize (Pa I eq_refl). specialize (La I). rewrite W_prec in Pa, La.
  replace (2 * p - p) with p in Pa, La by lia. replace (p - 2 * p) with (- p) in La by lia.
  rewrite (quieted_of_quiet F _ F_ok C Sg) in Pa, La.
  assert (lost = false) as ->.
  { apply La. split; [reflexivity|]. split; [|congruence]. rewrite Z.shiftl_opp_r, Z.shiftr_shiftl_l by lia. rewrite Z.sub_diag, Z.shiftl_0_r. reflexivity. }
  change (OK =? OK) with true. cbn [negb andb assertb].
  rewrite is_finite_non_zero_spec. destruct Ha as [Ha [Ca Qa]]. rewrite Ca. cbn [category_eqb].
  exists a. split; [reflexivity|]. split; [split; [exact Ha|split; assumption]|]. split; [exact Sa|].
  pose proof (proj2 (proj2 H)) as Nf. pose proof (proj2 (proj2 Ha)) as Na. rewrite C in Nf. rewrite Ca in Na. cbv [nan_sig] in Nf, Na.
  rewrite I, X87F in Nf. change (NONFINITE_BEHAVIOR W) with IEEE754 in Na. change (X87 W) with false in Na. cbv iota in Na. rewrite W_prec in Na.
  rewrite !Z.mod_small in Pa; [exact Pa| |lia].
  rewrite Z.shiftl_mul_pow2 by lia. split; [nia|]. replace (2 * p - 1) with (p - 1 + p) by lia. rewrite Z.pow_add_r by lia.
  apply Z.mul_lt_mono_pos_r; [apply Z.pow_pos_nonneg; lia|]. lia.
Qed.

Lemma via_wide_intro : forall (spec : Z -> Float -> Prop) st f, wf W f -> spec st f ->
  via_wide F spec (map_from_fallback F (Ret (st, f))).
Proof.
  intros spec st f Hf Sp. exists st, f. split; [exact Hf|]. split; [exact Sp|]. unfold map_from_fallback. cbn [bind].
  destruct (from_fallback_spec f Hf) as [A B]. split.
  - intro Q. destruct (A Q) as [r [-> R]]. exists r. split; [reflexivity|exact R].
  - intro Q. rewrite (B Q). reflexivity.
Qed.
End Pair.
