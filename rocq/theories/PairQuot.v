(** * PairQuot.v -- quotients of pairs, canonical or not, and integers as pairs: how accurate they are *)
From Coq Require Import ZArith Reals List Bool Lia Lra Psatz.
From Flocq Require Import Core.
From Verif Require Import Machine Ieee Ppc Spec Norm Arith Special Order Int Algebra Convert Total SpecPair Pair PairOps PairMore PairAdd PairDirected SpecDirected SpecPrograms SpecExpr Expr Sum ExprError SpecPairExpr.
Local Open Scope Z_scope.
Ltac Zify.zify_post_hook ::= idtac.

Section Quot.
Variable F : Semantics.
Hypothesis HF : pair_ok F.
Hypothesis P5 : 5 <= PRECISION F.
Notation W := (FallbackS F).
Notation p := (PRECISION F).
Let WO := W_ok F HF.
Let FO := F_ok F HF.
Let u := bpow r2 (- (2 * p)).
Notation top k := (bpow r2 (MAX_EXP F - k)).

Lemma u_small : (0 < u <= / 1024)%R.
Proof. unfold u. split; [apply bpow_gt_0|]. change (/ 1024)%R with (bpow r2 (-10)). apply bpow_le. lia. Qed.
Lemma roundoff_wide : forall m, (0 < roundoff W m <= 2 * u)%R.
Proof.
  intro m. split; [apply roundoff_pos|]. pose proof u_small as [U _].
  assert (E : roundoff W m = u \/ roundoff W m = (2 * u)%R).
  { unfold roundoff. rewrite (W_prec F). replace (1 - 2 * p) with (1 + - (2 * p)) by ring. rewrite bpow_plus. change (bpow r2 1) with 2%R. destruct m; auto. }
  destruct E as [-> | ->]; lra.
Qed.
Lemma slack_wide : forall m, (0 < slack W m <= min_positive F)%R.
Proof.
  intro m. split; [apply slack_pos|]. assert (E : min_positive W = min_positive F).
  { unfold min_positive, FallbackS, fallback_semantics. cbn [PRECISION MIN_EXP]. f_equal. ring. }
  unfold slack. rewrite E. assert (0 < min_positive F)%R by apply bpow_gt_0. destruct m; lra.
Qed.
Lemma top_max : (top 0 <= max_finite F)%R.
Proof.
  rewrite Z.sub_0_r. rewrite (max_finite_ieee F FO (pok_ieee F HF)). rewrite bpow_plus_1. change (IZR (Zaux.radix_val r2)) with 2%R.
  assert (bpow r2 (MAX_EXP F + 1 - p) <= bpow r2 (MAX_EXP F))%R by (apply bpow_le; lia). lra.
Qed.
Lemma top_wide : (top 0 <= max_finite W)%R.
Proof.
  rewrite Z.sub_0_r. rewrite (max_finite_ieee W WO eq_refl). change (MAX_EXP W) with (MAX_EXP F). rewrite (W_prec F), bpow_plus_1. change (IZR (Zaux.radix_val r2)) with 2%R.
  assert (bpow r2 (MAX_EXP F + 1 - 2 * p) <= bpow r2 (MAX_EXP F))%R by (apply bpow_le; lia). lra.
Qed.
Lemma top_step : forall k, (top k = 2 * top (k + 1))%R.
Proof. intro k. replace (MAX_EXP F - k) with (1 + (MAX_EXP F - (k + 1))) by ring. rewrite bpow_plus. reflexivity. Qed.
Lemma tiny_top : (min_positive F <= top 5)%R.
Proof.
  unfold min_positive. apply bpow_le. pose proof (pok_max F HF). pose proof (pok_min F HF). lia.
Qed.

(** the double-width number a pair is read as *)
Lemma to_fallback_narrow : forall x, narrow_pair F x -> (Rabs (pair_value F x) <= top 1)%R ->
  exists w, to_fallback F x = Ret w /\ wf W w /\ finite w /\ (Rabs (value W w - pair_value F x) <= u * Rabs (pair_value F x))%R.
Proof.
  intros x N L. assert (N' := N). destruct N' as [[H0 H1] [[F0 F1] _]]. unfold to_fallback. pose proof u_small as [U0 U1].
  pose proof (Int.finite_representable F _ FO H0 F0) as R0. pose proof (finite_representable F _ FO H1 F1) as R1.
  destruct (convert_exact F W (d0 x) NearestTiesToEven FO WO eq_refl H0 F0 (contains_representable F W _ FO WO (W_contains_F F HF) R0))
    as [a [-> [Ha [Fa [Va _]]]]]. cbn [bind]. change (OK =? OK) with true. cbn [negb andb assertb].
  rewrite is_finite_non_zero_spec. destruct Fa as [Ca|Ca]; rewrite Ca; cbn [category_eqb].
  - destruct (convert_exact F W (d1 x) NearestTiesToEven FO WO eq_refl H1 F1 (contains_representable F W _ FO WO (W_contains_F F HF) R1))
      as [b [-> [Hb [Fb [Vb _]]]]]. cbn [bind]. change (OK =? OK) with true. cbn [negb andb assertb].
    destruct (add_r_finite W a b NearestTiesToEven WO Ha Hb (or_introl Ca) Fb (sides W _ _ eq_refl)) as [[st w] [-> D]].
    cbn [bind]. exists w. split; [reflexivity|].
    pose proof (sum_error W WO NearestTiesToEven (value W a) (value W b) (value_format W a WO Ha (or_introl Ca)) (value_format W b WO Hb Fb)) as SE.
    rewrite Va, Vb in D, SE. fold (pair_value F x) in D, SE.
    assert (RE : roundoff W NearestTiesToEven = u) by (unfold roundoff, u; rewrite (W_prec F); reflexivity). rewrite RE in SE.
    pose proof (Rabs_pos (pair_value F x)) as PX.
    destruct D as [Hw [_ [D _]]]. cbv zeta in D. destruct D as [Fw [Vw _]].
    { pose proof top_wide. pose proof (top_step 0) as T0. change (0 + 1) with 1 in T0.
      pose proof (Rabs_triang (rounded W NearestTiesToEven (pair_value F x) - pair_value F x) (pair_value F x)) as T.
      replace (rounded W NearestTiesToEven (pair_value F x) - pair_value F x + pair_value F x)%R with (rounded W NearestTiesToEven (pair_value F x)) in T by ring.
      assert (u * Rabs (pair_value F x) <= / 1024 * Rabs (pair_value F x))%R by (apply Rmult_le_compat_r; lra). lra. }
    split; [exact Hw|]. split; [exact Fw|]. rewrite Vw. exact SE.
  - exists a. split; [reflexivity|]. split; [exact Ha|]. split; [right; exact Ca|]. rewrite (value_zero W a Ca) in *.
    assert (C0 : category (d0 x) = Zero) by (destruct F0 as [C|C]; [exfalso; apply (normal_nonzero F (d0 x) H0 C); symmetry; exact Va|exact C]).
    rewrite (narrow_zero F x N C0), Rminus_eq_0, Rabs_R0. lra.
Qed.

(** a double-width result as a pair *)
Lemma back_narrow : forall st f, wf W f -> finite f -> (Rabs (value W f) <= top 0)%R ->
  exists r, map_from_fallback F (Ret (st, f)) = Ret (st, r) /\ narrow_pair F r /\ pair_value F r = value W f.
Proof.
  intros st f Wf Ff L. destruct (map_ok F HF st f Wf) as [r [E [_ R]]].
  - apply (splittable_small F HF f Ff). pose proof top_max. lra.
  - assert (S : splits F (value W f) r) by (destruct Ff as [C|C]; rewrite C in R; exact R). destruct S as [C V].
    exists r. split; [exact E|]. split; [exact (canonical_narrow F HF P5 r C)|exact V].
Qed.
Lemma quotient_near : forall a b a' b', b <> 0%R -> (Rabs (a' - a) <= u * Rabs a)%R -> (Rabs (b' - b) <= u * Rabs b)%R ->
  b' <> 0%R /\ (Rabs (a' / b' - a / b) <= 3 * u * Rabs (a / b))%R.
Proof.
  intros a b a' b' B HA HB. pose proof u_small as [U0 U1]. pose proof (Rabs_pos_lt b B) as PB.
  pose proof (Rabs_triang b' (- (b' - b))) as T. rewrite Rabs_Ropp in T. replace (b' + - (b' - b))%R with b in T by ring.
  assert (UB : (u * Rabs b <= / 1024 * Rabs b)%R) by (apply Rmult_le_compat_r; lra).
  assert (B' : (1023 / 1024 * Rabs b <= Rabs b')%R) by lra.
  assert (N : b' <> 0%R) by (intro Q; rewrite Q, Rabs_R0 in B'; lra). split; [exact N|].
  replace (a' / b' - a / b)%R with (((a' - a) - a / b * (b' - b)) / b')%R by (field; split; assumption).
  unfold Rdiv at 1. rewrite Rabs_mult, Rabs_inv. set (q := Rabs (a / b)).
  assert (QA : (Rabs a = q * Rabs b)%R) by (unfold q; rewrite <- Rabs_mult; f_equal; field; exact B). assert (Q0 : (0 <= q)%R) by apply Rabs_pos.
  apply Rmult_le_reg_r with (Rabs b'); [lra|]. rewrite Rmult_assoc, Rinv_l, Rmult_1_r by lra.
  eapply Rle_trans; [apply Rabs_triang|]. rewrite Rabs_Ropp, Rabs_mult. fold q.
  assert (K1 : (q * Rabs (b' - b) <= q * (u * Rabs b))%R) by (apply Rmult_le_compat_l; assumption). rewrite QA in HA.
  assert (K2 : (3 * u * q * (1023 / 1024 * Rabs b) <= 3 * u * q * Rabs b')%R) by (apply Rmult_le_compat_l; [apply Rmult_le_pos; lra|exact B']).
  assert (K3 : (0 <= u * q * Rabs b)%R) by (apply Rmult_le_pos; [apply Rmult_le_pos; lra|lra]). lra.
Qed.
Lemma quotient_any : forall m x y, narrow_pair F x -> narrow_pair F y -> pair_value F y <> 0%R ->
  (Rabs (pair_value F x) <= top 1)%R -> (Rabs (pair_value F y) <= top 1)%R -> (Rabs (pair_value F x / pair_value F y) <= top 5)%R ->
  exists st r, dd_div_r F x y m = Ret (st, r) /\ narrow_pair F r /\
    (Rabs (pair_value F r - pair_value F x / pair_value F y) <= 6 * u * Rabs (pair_value F x / pair_value F y) + min_positive F)%R.
Proof.
  intros m x y Nx Ny Y0 Lx Ly Lq. destruct (to_fallback_narrow x Nx Lx) as [a [Ea [Wa [Fa Va]]]]. destruct (to_fallback_narrow y Ny Ly) as [b [Eb [Wb [Fb Vb]]]].
  destruct (quotient_near _ _ _ _ Y0 Va Vb) as [B0 Q]. pose proof u_small as [U0 U1].
  assert (Cb : category b = Normal) by (destruct Fb as [C|C]; [exact C|destruct B0; apply value_zero; exact C]).
  set (q := (pair_value F x / pair_value F y)%R) in *. set (v := (value W a / value W b)%R) in *.
  pose proof (round_error W WO m v) as RE. destruct (roundoff_wide m) as [R0 R1]. destruct (slack_wide m) as [S0 S1]. pose proof tiny_top as TT.
  pose proof (Rabs_pos q) as Q0. pose proof (Rabs_pos v) as V0.
  assert (VQ : (Rabs v <= (1 + 3 * u) * Rabs q)%R).
  { pose proof (Rabs_triang (v - q) q) as T. replace (v - q + q)%R with v in T by ring. lra. }
  assert (UQ : (0 <= u * Rabs q)%R) by (apply Rmult_le_pos; lra). assert (UUQ : (u * (u * Rabs q) <= / 1024 * (u * Rabs q))%R) by (apply Rmult_le_compat_r; lra).
  assert (UQ' : (u * Rabs q <= / 1024 * Rabs q)%R) by (apply Rmult_le_compat_r; lra).
  assert (K : (roundoff W m * Rabs v <= 2 * u * ((1 + 3 * u) * Rabs q))%R) by (apply Rmult_le_compat; lra).
  assert (E1 : (Rabs (rounded W m v - v) <= 3 * u * Rabs q + min_positive F)%R) by lra.
  assert (E2 : (Rabs (rounded W m v) <= top 0)%R).
  { pose proof (Rabs_triang (rounded W m v - v) v) as T. replace (rounded W m v - v + v)%R with (rounded W m v) in T by ring.
    pose proof (top_step 0) as T0. pose proof (top_step 1) as T1. pose proof (top_step 2) as T2. pose proof (top_step 3) as T3. pose proof (top_step 4) as T4.
    change (0 + 1) with 1 in *. change (1 + 1) with 2 in *. change (2 + 1) with 3 in *. change (3 + 1) with 4 in *. change (4 + 1) with 5 in *. lra. }
  destruct (op_delivers W WO Div m a b Wa Wb Fa Fb (fun _ => Cb)) as [st [f [E [Wf [Ff [_ Vf]]]]]].
  { change (real_op Div (value W a) (value W b)) with v. pose proof top_wide. lra. }
  change (real_op Div (value W a) (value W b)) with v in Vf. change (op_r Div W m a b) with (div_r W a b m) in E.
  destruct (back_narrow st f Wf Ff) as [r [Er [Nr Vr]]]; [rewrite Vf; exact E2|].
  exists st, r. split; [unfold dd_div_r; rewrite Ea, Eb; cbn [bind]; rewrite E; exact Er|]. split; [exact Nr|]. rewrite Vr, Vf.
  replace (rounded W m v - q)%R with ((rounded W m v - v) + (v - q))%R by ring. eapply Rle_trans; [apply Rabs_triang|]. lra.
Qed.
Lemma numeral_any : forall m n, - 2 ^ 127 <= n < 2 ^ 127 -> (Rabs (IZR n) <= top 1)%R ->
  exists st r, dd_from_i128_r F n m = Ret (st, r) /\ narrow_pair F r /\ (Rabs (pair_value F r - IZR n) <= 2 * u * Rabs (IZR n))%R.
Proof.
  intros m n Hn L. destruct (dd_from_i128_r_spec F HF n m Hn) as [st [f [Wf [D [A _]]]]]. pose proof (integer_error W WO m n) as IE.
  destruct (roundoff_wide m) as [R0 R1]. pose proof u_small as [U0 U1]. pose proof (Rabs_pos (IZR n)) as N0.
  assert (K : (roundoff W m * Rabs (IZR n) <= 2 * u * Rabs (IZR n))%R) by (apply Rmult_le_compat_r; lra).
  assert (UN : (u * Rabs (IZR n) <= / 1024 * Rabs (IZR n))%R) by (apply Rmult_le_compat_r; lra).
  pose proof (top_step 0) as T0. change (0 + 1) with 1 in T0.
  pose proof (Rabs_triang (rounded W m (IZR n) - IZR n) (IZR n)) as T. replace (rounded W m (IZR n) - IZR n + IZR n)%R with (rounded W m (IZR n)) in T by ring.
  destruct D as [_ [_ [D _]]]. cbv zeta in D. pose proof top_wide as TW. destruct (D ltac:(lra)) as [Ff [Vf _]].
  destruct A as [r [E [_ R]]].
  - apply (splittable_small F HF f Ff). pose proof top_max. cbn [snd] in *. rewrite Vf. lra.
  - assert (S : splits F (value W f) r) by (destruct Ff as [C|C]; cbn [snd] in C; rewrite C in R; exact R). destruct S as [C V].
    exists st, r. split; [exact E|]. split; [exact (canonical_narrow F HF P5 r C)|]. cbn [snd] in Vf. rewrite V, Vf. lra.
Qed.
End Quot.
