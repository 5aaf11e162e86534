(** * AnySum.v -- the additions and products of src/ppc.rs on the real numbers,
    in an arbitrary rounding mode (compare TwoSum.v) *)
From Coq Require Import ZArith Reals Bool Lia Lra Psatz.
From Flocq Require Import Core Plus_error Mult_error Relative Sterbenz.
From Verif Require Import Spec.
Local Open Scope R_scope.
Ltac Zify.zify_post_hook ::= idtac.

Section Any.
Variables emin prec : Z.
Variable rnd : R -> Z.
Hypothesis Hrnd : Valid_rnd rnd.
Hypothesis Hprec : (5 <= prec)%Z.
Local Notation fexp := (FLT_exp emin prec).
Local Notation Fm := (generic_format r2 fexp).
Local Notation RD := (round r2 fexp rnd).
Local Notation u := (bpow r2 (- prec)).
Local Existing Instance Hrnd.

Instance prec_positive : Prec_gt_0 prec.
Proof. unfold Prec_gt_0. lia. Qed.
Instance flt_valid : Valid_exp fexp.
Proof. apply FLT_exp_valid. exact prec_positive. Qed.

Lemma u_range : 0 < u <= / 32.
Proof. split; [apply bpow_gt_0|]. change (/ 32) with (bpow r2 (-5)). apply bpow_le. lia. Qed.
Lemma any_format : forall x, Fm (RD x).
Proof. intros. apply generic_format_round; exact _. Qed.
Lemma any_exact : forall x, Fm x -> RD x = x.
Proof. intros. apply round_generic; [exact _|assumption]. Qed.
Lemma any_le_bpow : forall x k, (emin <= k)%Z -> Rabs x <= bpow r2 k -> Rabs (RD x) <= bpow r2 k.
Proof.
  intros x k Hk B. apply abs_round_le_generic; [exact _|exact _| |exact B]. apply generic_format_bpow. unfold FLT_exp. lia.
Qed.

(** relative error of a sum: small sums are exact *)
Lemma any_sum : forall x y, Fm x -> Fm y -> Rabs (RD (x + y) - (x + y)) <= 2 * u * Rabs (x + y).
Proof.
  intros x y Hx Hy. destruct (Rle_or_lt (bpow r2 (emin + prec - 1)) (Rabs (x + y))) as [L|L].
  - replace (2 * u) with (bpow r2 (- prec + 1)); [apply Rlt_le, relative_error_FLT; [exact prec_positive|exact _|exact L]|].
    rewrite bpow_plus. change (bpow r2 1) with 2. ring.
  - rewrite any_exact.
    + rewrite Rminus_diag_eq, Rabs_R0 by reflexivity. pose proof u_range. pose proof (Rabs_pos (x + y)). nra.
    + apply FLT_format_plus_small; [exact _|assumption|assumption|]. apply Rlt_le, Rlt_le_trans with (1 := L), bpow_le. lia.
Qed.
Lemma any_prod : forall x, Rabs (RD x - x) <= 2 * u * Rabs x + bpow r2 emin.
Proof.
  intros x. pose proof (bpow_gt_0 r2 emin) as E. pose proof (Rabs_pos x) as P. pose proof u_range as [U _].
  destruct (Rle_or_lt (bpow r2 (emin + prec - 1)) (Rabs x)) as [L|L].
  - apply Rle_trans with (2 * u * Rabs x); [|lra]. replace (2 * u) with (bpow r2 (- prec + 1)); [apply Rlt_le, relative_error_FLT; [exact prec_positive|exact _|exact L]|].
    rewrite bpow_plus. change (bpow r2 1) with 2. ring.
  - apply Rle_trans with (bpow r2 emin); [|nra]. apply Rle_trans with (1 := error_le_ulp r2 fexp rnd x). rewrite ulp_FLT_small; [lra|exact _|].
    apply Rlt_le_trans with (1 := L), bpow_le. lia.
Qed.

(** multiples of a power of two *)
Lemma multiple_format : forall v k e, v = IZR k * bpow r2 e -> (emin <= e)%Z -> (Z.abs k <= 2 ^ prec)%Z -> Fm v.
Proof.
  intros v k e -> He Hk. destruct (Z.eq_dec (Z.abs k) (2 ^ prec)) as [E|E].
  - assert (Fm (bpow r2 (prec + e))) as G by (apply generic_format_bpow; unfold FLT_exp; lia).
    assert (IZR (2 ^ prec) * bpow r2 e = bpow r2 (prec + e)) as Q.
    { rewrite bpow_plus. f_equal. change 2%Z with (Zaux.radix_val r2). apply IZR_Zpower. lia. }
    destruct (Zabs_spec k) as [[A B]|[A B]].
    + replace k with (2 ^ prec)%Z by lia. rewrite Q. exact G.
    + replace k with (- 2 ^ prec)%Z by lia. rewrite opp_IZR, Ropp_mult_distr_l_reverse, Q. apply generic_format_opp. exact G.
  - apply generic_format_FLT. exists (Float r2 k e); [reflexivity| |exact He]. cbn [Fnum]. change (Zaux.radix_val r2) with 2%Z. lia.
Qed.
Lemma multiple_bound : forall v k e, v = IZR k * bpow r2 e -> Rabs v < (IZR (2 ^ prec) + 1) * bpow r2 e -> (Z.abs k <= 2 ^ prec)%Z.
Proof.
  intros v k e -> B. rewrite Rabs_mult, (Rabs_pos_eq (bpow r2 e)) in B by apply bpow_ge_0. apply Rmult_lt_reg_r in B; [|apply bpow_gt_0].
  rewrite <- abs_IZR, <- (plus_IZR _ 1) in B. apply lt_IZR in B. lia.
Qed.
Lemma format_multiple : forall x e, Fm x -> (e <= cexp r2 fexp x)%Z -> exists k, x = IZR k * bpow r2 e.
Proof. intros x e Hx He. apply (ex_shift r2 fexp); assumption. Qed.
(** the largest significand *)
Lemma format_bound : forall x, Fm x -> Rabs x <= (IZR (2 ^ prec) - 1) * bpow r2 (cexp r2 fexp x).
Proof.
  intros x Hx. destruct (format_multiple x _ Hx (Z.le_refl _)) as [k E].
  assert (Rabs x < bpow r2 (prec + cexp r2 fexp x)) as B.
  { apply Rlt_le_trans with (1 := bpow_mag_gt r2 x). apply bpow_le. unfold cexp, FLT_exp. lia. }
  rewrite bpow_plus in B. rewrite E in B at 1. rewrite E at 1. rewrite Rabs_mult, (Rabs_pos_eq (bpow r2 _)) in * by apply bpow_ge_0.
  apply Rmult_lt_reg_r in B; [|apply bpow_gt_0]. apply Rmult_le_compat_r; [apply bpow_ge_0|].
  rewrite <- IZR_Zpower in B by lia. change (Zaux.radix_val r2) with 2%Z in B. rewrite <- abs_IZR in *. apply lt_IZR in B.
  change 1 with (IZR 1). rewrite <- minus_IZR. apply IZR_le. lia.
Qed.

(** the rounded sum minus the first operand *)
Lemma cexp_double : forall x w, w <> 0 -> Rabs w <= 2 * Rabs x -> (cexp r2 fexp w <= cexp r2 fexp x + 1)%Z.
Proof.
  intros x w Nw B. assert (mag r2 w <= mag r2 (x * bpow r2 1))%Z as M.
  { apply mag_le_abs; [exact Nw|]. rewrite Rabs_mult, (Rabs_pos_eq (bpow r2 1)) by apply bpow_ge_0. change (bpow r2 1) with 2. lra. }
  rewrite mag_mult_bpow in M. 2:{ intros ->. rewrite Rabs_R0 in B. pose proof (Rabs_pos_lt w Nw). lra. }
  unfold cexp, FLT_exp. lia.
Qed.
Lemma cexp_half : forall x w, x <> 0 -> Rabs x <= 2 * Rabs w -> (cexp r2 fexp x - 1 <= cexp r2 fexp w)%Z.
Proof. intros x w Nx B. pose proof (cexp_double w x Nx B). lia. Qed.

Theorem head_exact : forall x y, Fm x -> Fm y ->
  Rabs y <= Rabs x \/ (exists k, x = IZR k * bpow r2 (cexp r2 fexp y)) -> Fm (RD (x + y) - x).
Proof.
  intros x y Hx Hy Hc. set (w := x + y). set (s := RD w).
  destruct (Req_dec w 0) as [W0|W0].
  { unfold s. rewrite W0, round_0 by exact _. unfold Rminus. rewrite Rplus_0_l. apply generic_format_opp. exact Hx. }
  assert (Rabs (s - w) < bpow r2 (cexp r2 fexp w)) as Es.
  { unfold s. rewrite <- ulp_neq_0 by exact W0. apply error_lt_ulp; [exact _|exact _|exact W0]. }
  assert (emin <= cexp r2 fexp w)%Z as Ew by (unfold cexp, FLT_exp; lia).
  assert (exists ks, s = IZR ks * bpow r2 (cexp r2 fexp w)) as [ks Ks].
  { exists (rnd (scaled_mantissa r2 fexp w)). reflexivity. }
  assert (forall e, (e <= cexp r2 fexp w)%Z -> exists k, s = IZR k * bpow r2 e) as Ms.
  { intros e He. exists (ks * 2 ^ (cexp r2 fexp w - e))%Z. rewrite Ks, mult_IZR. change 2%Z with (Zaux.radix_val r2).
    rewrite IZR_Zpower by lia. rewrite Rmult_assoc, <- bpow_plus. do 2 f_equal. ring. }
  assert (Rabs (s - x) <= Rabs y + Rabs (s - w)) as Tri.
  { replace (s - x) with (y + (s - w)) by (unfold w; ring). apply Rabs_triang. }
  assert (forall e, (e <= cexp r2 fexp w)%Z -> (emin <= e)%Z -> (exists kx, x = IZR kx * bpow r2 e) -> Rabs (s - x) < (IZR (2 ^ prec) + 1) * bpow r2 e -> Fm (s - x)) as Fin.
  { intros e He1 He2 [kx Kx] B. destruct (Ms e He1) as [k K].
    assert (s - x = IZR (k - kx) * bpow r2 e) as Q by (rewrite minus_IZR, K, Kx; ring).
    apply (multiple_format _ _ _ Q He2). apply (multiple_bound _ _ _ Q B). }
  assert (forall e, bpow r2 (e + 1) = 2 * bpow r2 e) as B1.
  { intros e. rewrite bpow_plus. change (bpow r2 1) with 2. ring. }
  assert (forall e, 0 < bpow r2 e) as B0 by (intros; apply bpow_gt_0).
  destruct (Rle_or_lt (Rabs y) (Rabs x)) as [Hyx|Hyx].
  - assert (x <> 0) as Nx.
    { intros Z. rewrite Z, Rabs_R0 in Hyx. pose proof (Rabs_pos y). apply W0. unfold w. rewrite Z.
      destruct (Req_dec y 0) as [->|N]; [ring|]. pose proof (Rabs_pos_lt y N). lra. }
    assert (cexp r2 fexp w <= cexp r2 fexp x + 1)%Z as U.
    { apply cexp_double; [exact W0|]. unfold w. pose proof (Rabs_triang x y). lra. }
    pose proof (format_bound x Hx) as Bx.
    destruct (Z_le_gt_dec (cexp r2 fexp x) (cexp r2 fexp w)) as [L|L].
    + apply (Fin (cexp r2 fexp x)); [exact L|unfold cexp, FLT_exp; lia|apply (format_multiple x _ Hx); lia|].
      pose proof (bpow_le r2 _ _ U) as V. rewrite B1 in V. lra.
    + destruct (Rle_or_lt (Rabs x) (2 * Rabs y)) as [T|T].
      * assert (Fm w) as Fw.
        { unfold w. replace (x + y) with (x - - y) by ring.
          assert (Rabs w < Rabs x) as Lw.
          { apply Rnot_le_lt. intros C. pose proof (mag_le_abs r2 x w Nx C). unfold cexp, FLT_exp in L. lia. }
          unfold w in Lw. destruct (Rle_or_lt 0 x) as [Sx|Sx].
          - apply sterbenz; [exact _|exact _|exact Hx|apply generic_format_opp; exact Hy|].
            rewrite (Rabs_pos_eq x) in * by exact Sx. revert T Hyx Lw. unfold Rabs. destruct (Rcase_abs y), (Rcase_abs (x + y)); lra.
          - replace (x - - y) with (- (- x - y)) by ring. apply generic_format_opp.
            apply sterbenz; [exact _|exact _|apply generic_format_opp; exact Hx|exact Hy|].
            rewrite (Rabs_left x) in * by exact Sx. revert T Hyx Lw. unfold Rabs. destruct (Rcase_abs y), (Rcase_abs (x + y)); lra. }
        unfold s. rewrite (any_exact w Fw). replace (w - x) with y by (unfold w; ring). exact Hy.
      * assert (cexp r2 fexp x - 1 <= cexp r2 fexp w)%Z as V.
        { apply cexp_half; [exact Nx|]. unfold w. pose proof (Rabs_triang (x + y) (- y)) as Q. replace (x + y + - y) with x in Q by ring. rewrite Rabs_Ropp in Q. lra. }
        assert (cexp r2 fexp x = cexp r2 fexp w + 1)%Z as E by lia.
        apply (Fin (cexp r2 fexp w)); [lia|exact Ew|apply (format_multiple x _ Hx); lia|].
        rewrite E, B1 in Bx. specialize (B0 (cexp r2 fexp w)). lra.
  - destruct Hc as [Hc|[kx Kx]]; [lra|].
    assert (cexp r2 fexp w <= cexp r2 fexp y + 1)%Z as U.
    { apply cexp_double; [exact W0|]. unfold w. pose proof (Rabs_triang x y). lra. }
    pose proof (format_bound y Hy) as By.
    destruct (format_multiple y _ Hy (Z.le_refl _)) as [ky Ky].
    assert (exists k, s = IZR k * bpow r2 (cexp r2 fexp y)) as [k K].
    { unfold s. assert (w = F2R (Float r2 (kx + ky) (cexp r2 fexp y))) as Q by (unfold F2R; cbn [Fnum Fexp]; rewrite plus_IZR, Rmult_plus_distr_r, <- Kx, <- Ky; reflexivity).
      destruct (Z_le_gt_dec (cexp r2 fexp y) (cexp r2 fexp w)) as [L|L]; [apply Ms; exact L|].
      exists (kx + ky)%Z. rewrite any_exact; [rewrite Q; reflexivity|]. rewrite Q. apply generic_format_F2R. intros _. rewrite <- Q. lia. }
    assert (s - x = IZR (k - kx) * bpow r2 (cexp r2 fexp y)) as Q by (rewrite minus_IZR, Rmult_minus_distr_r, <- K, <- Kx; reflexivity).
    apply (multiple_format _ _ _ Q); [unfold cexp, FLT_exp; lia|]. apply (multiple_bound _ _ _ Q).
    pose proof (bpow_le r2 _ _ U) as V. rewrite B1 in V. lra.
Qed.

Lemma head_exact_opp : forall x y, Fm x -> Fm y ->
  Rabs y <= Rabs x \/ (exists k, x = IZR k * bpow r2 (cexp r2 fexp y)) -> Fm (x - RD (x + y)).
Proof. intros x y Hx Hy H. replace (x - RD (x + y)) with (- (RD (x + y) - x)) by ring. apply generic_format_opp, head_exact; assumption. Qed.
Lemma any_opp : forall x, Fm x -> Fm (- x).
Proof. intros. apply generic_format_opp. assumption. Qed.

(** opposite signs and comparable magnitudes: the sum is exact *)
Lemma close_sum : forall a c, Fm a -> Fm c -> Rabs (RD (a + c)) < Rabs a -> Rabs a < Rabs c -> Fm (a + c).
Proof.
  intros a c Ha Hc L M.
  assert (Rabs (a + c) <= Rabs a) as S.
  { apply Rnot_lt_le. intros C. apply (Rlt_not_le _ _ L). apply abs_round_ge_generic; [exact _|exact _|apply generic_format_abs; exact Ha|lra]. }
  destruct (Rle_or_lt 0 a) as [Sa|Sa].
  - rewrite (Rabs_pos_eq a) in * by exact Sa. replace (a + c) with (- (- c - a)) by ring. apply generic_format_opp.
    apply sterbenz; [exact _|exact _|apply any_opp; exact Hc|exact Ha|]. revert S M. unfold Rabs. destruct (Rcase_abs c), (Rcase_abs (a + c)); lra.
  - rewrite (Rabs_left a) in * by exact Sa. replace (a + c) with (c - - a) by ring.
    apply sterbenz; [exact _|exact _|exact Hc|apply any_opp; exact Ha|]. revert S M. unfold Rabs. destruct (Rcase_abs c), (Rcase_abs (a + c)); lra.
Qed.

(** the six operations of Knuth's TwoSum, in the order of the code *)
Lemma two_sum_bound : forall E e d f h zz M, 0 < E <= / 16 -> 0 <= M ->
  Rabs e <= E * M -> Rabs d <= E * (M + E * M) -> Rabs (f - (e + d)) <= E * Rabs (e + d) -> Rabs (h - d) <= E * Rabs d ->
  Rabs (zz - (f - h)) <= E * Rabs (f - h) -> Rabs (zz - e) <= 9 / 2 * (E * E) * M.
Proof.
  intros E e d f h zz M HE HM Be Bd Bf Bh Bz.
  assert (Rabs (zz - e) <= Rabs (zz - (f - h)) + (Rabs (f - (e + d)) + Rabs (h - d))) as T1.
  { replace (zz - e) with ((zz - (f - h)) + ((f - (e + d)) + - (h - d))) by ring. rewrite <- (Rabs_Ropp (h - d)).
    apply Rle_trans with (1 := Rabs_triang _ _). apply Rplus_le_compat_l. apply Rabs_triang. }
  assert (Rabs (f - h) <= Rabs e + (Rabs (f - (e + d)) + Rabs (h - d))) as T2.
  { replace (f - h) with (e + ((f - (e + d)) + - (h - d))) by ring. rewrite <- (Rabs_Ropp (h - d)).
    apply Rle_trans with (1 := Rabs_triang _ _). apply Rplus_le_compat_l. apply Rabs_triang. }
  pose proof (Rabs_triang e d) as T3. revert Be Bd Bf Bh Bz T1 T2 T3.
  generalize (Rabs (zz - e)) (Rabs (zz - (f - h))) (Rabs (f - (e + d))) (Rabs (h - d)) (Rabs (f - h)) (Rabs (e + d)) (Rabs e) (Rabs d).
  intros x1 x2 x3 x4 x5 x6 x7 x8 Be Bd Bf Bh Bz T1 T2 T3.
  set (N := E * M) in *. assert (0 <= N) as PN by (apply Rmult_le_pos; lra).
  assert (E * N <= / 16 * N) as EN by (apply Rmult_le_compat_r; lra).
  assert (x8 <= E * (M + / 16 * M)) as B8. { apply Rle_trans with (1 := Bd). apply Rmult_le_compat_l; [lra|]. unfold N. apply Rplus_le_compat_l. apply Rmult_le_compat_r; lra. }
  replace (E * (M + / 16 * M)) with (17 / 16 * N) in B8 by (unfold N; field).
  assert (x6 <= 33 / 16 * N) as B6 by lra.
  assert (x3 <= E * (33 / 16 * N)) as B3 by (apply Rle_trans with (1 := Bf), Rmult_le_compat_l; lra).
  assert (x4 <= E * (17 / 16 * N)) as B4 by (apply Rle_trans with (1 := Bh), Rmult_le_compat_l; lra).
  assert (x5 <= N + / 16 * (50 / 16 * N)) as B5 by lra.
  assert (x2 <= E * (N + / 16 * (50 / 16 * N))) as B2 by (apply Rle_trans with (1 := Bz), Rmult_le_compat_l; lra).
  replace (9 / 2 * (E * E) * M) with (9 / 2 * (E * N)) by (unfold N; ring). 
  assert (0 <= E * N) by (apply Rmult_le_pos; lra). lra.
Qed.
Theorem any_two_sum : forall a c, Fm a -> Fm c ->
  let z := RD (a + c) in let q := RD (a - z) in let zz := RD (RD (q + c) + - RD (RD (q + z) - a)) in
  Rabs (zz - (a + c - z)) <= 18 * (u * u) * (Rabs a + Rabs c).
Proof.
  intros a c Ha Hc z q zz. pose proof u_range as [U0 U1].
  assert (Rabs (a + c - z) <= 2 * u * (Rabs a + Rabs c)) as Be.
  { replace (a + c - z) with (- (z - (a + c))) by ring. rewrite Rabs_Ropp. apply Rle_trans with (1 := any_sum a c Ha Hc).
    apply Rmult_le_compat_l; [lra|apply Rabs_triang]. }
  pose proof (Rabs_pos a) as Pa. pose proof (Rabs_pos c) as Pc.
  assert (0 <= (u * u) * (Rabs a + Rabs c)) as Ps by (apply Rmult_le_pos; [apply Rmult_le_pos|]; lra).
  assert (Fm z) as Hz by apply any_format.
  destruct (Rle_or_lt (Rabs c) (Rabs a)) as [L|L].
  - assert (q = a - z) as Q by (apply any_exact; unfold z; apply head_exact_opp; auto).
    assert (zz = RD (q + c)) as Z.
    { unfold zz. replace (q + z) with a by (rewrite Q; ring). rewrite (any_exact a Ha). unfold Rminus. rewrite Rplus_opp_r, round_0, Ropp_0, Rplus_0_r by exact _.
      apply any_exact, any_format. }
    pose proof (any_sum q c (any_format _) Hc) as E. rewrite <- Z in E. replace (q + c) with (a + c - z) in E by (rewrite Q; ring).
    apply Rle_trans with (1 := E). apply Rle_trans with (2 * u * (2 * u * (Rabs a + Rabs c))); [apply Rmult_le_compat_l; lra|]. lra.
  - destruct (Rle_or_lt (Rabs a) (Rabs z)) as [K|K].
    + assert (Fm (q + z)) as G.
      { unfold q. replace (a - z) with (- z + a) by ring. replace (RD (- z + a) + z) with (RD (- z + a) - - z) by ring.
        apply head_exact; [apply any_opp; exact Hz|exact Ha|left; rewrite Rabs_Ropp; exact K]. }
      set (e := a + c - z) in *. set (d := q - (a - z)).
      assert (Rabs d <= 2 * u * (Rabs a + Rabs c + 2 * u * (Rabs a + Rabs c))) as Bd.
      { unfold d, q. replace (a - z) with (a + - z) by ring. apply Rle_trans with (1 := any_sum a (- z) Ha (any_opp z Hz)).
        apply Rmult_le_compat_l; [lra|]. replace (a + - z) with (- c + e) by (unfold e; ring). pose proof (Rabs_triang (- c) e) as T. rewrite Rabs_Ropp in T. lra. }
      pose proof (any_sum q c (any_format _) Hc) as Ef. replace (q + c) with (e + d) in Ef by (unfold e, d; ring).
      pose proof (any_sum (q + z) (- a) G (any_opp a Ha)) as Eh. replace (q + z + - a) with d in Eh by (unfold d; ring).
      pose proof (any_sum (RD (e + d)) (- RD d) (any_format _) (any_opp _ (any_format _))) as Ez.
      assert (zz = RD (RD (e + d) + - RD d)) as Z.
      { unfold zz. rewrite (any_exact (q + z) G). replace (q + z - a) with d by (unfold d; ring). replace (q + c) with (e + d) by (unfold e, d; ring). reflexivity. }
      rewrite <- Z in Ez.
      apply Rle_trans with (9 / 2 * ((2 * u) * (2 * u)) * (Rabs a + Rabs c)); [|right; field].
      apply (two_sum_bound (2 * u) e d (RD (e + d)) (RD d)); try assumption; lra.
    + pose proof (close_sum a c Ha Hc K L) as G. assert (z = a + c) as Z by (apply any_exact; exact G).
      assert (q = - c) as Q. { unfold q. rewrite Z. replace (a - (a + c)) with (- c) by ring. apply any_exact, any_opp, Hc. }
      assert (zz = 0) as Z0.
      { unfold zz. rewrite Q, Z. replace (- c + c) with 0 by ring. replace (- c + (a + c)) with a by ring. rewrite (any_exact a Ha). unfold Rminus.
        rewrite Rplus_opp_r, !round_0 by exact _. rewrite Ropp_0, Rplus_0_r. apply round_0. exact _. }
      rewrite Z0, Z. replace (0 - (a + c - (a + c))) with 0 by ring. rewrite Rabs_R0. lra.
Qed.

(** ** The low part of a sum of pairs *)
Lemma any_step : forall x y r, Rabs (r - (x + y)) <= 2 * u * Rabs (x + y) -> Rabs (r - (x + y)) <= 2 * u * (Rabs x + Rabs y) /\ Rabs r <= (1 + 2 * u) * (Rabs x + Rabs y).
Proof.
  intros x y r H. pose proof u_range as [U0 U1]. pose proof (Rabs_triang x y) as T.
  assert (2 * u * Rabs (x + y) <= 2 * u * (Rabs x + Rabs y)) as A by (apply Rmult_le_compat_l; lra). split; [lra|].
  assert (Rabs r <= Rabs (r - (x + y)) + Rabs (x + y)) as B. { replace r with ((r - (x + y)) + (x + y)) at 1 by ring. apply Rabs_triang. } lra.
Qed.
Theorem any_sum_low : forall a aa c cc, Fm a -> Fm aa -> Fm c -> Fm cc -> Rabs aa <= 2 * u * Rabs a -> Rabs cc <= 2 * u * Rabs c ->
  let z := RD (a + c) in let q := RD (a - z) in let zz0 := RD (RD (q + c) + - RD (RD (q + z) - a)) in
  let zz := RD (RD (zz0 + aa) + cc) in
  Rabs (z + zz - (a + aa + (c + cc))) <= 37 * (u * u) * (Rabs a + Rabs c) /\ Rabs zz <= 6 * u * (Rabs a + Rabs c) /\ Rabs z <= (1 + 2 * u) * (Rabs a + Rabs c).
Proof.
  intros a aa c cc Ha Haa Hc Hcc Ba Bc z q zz0 zz. pose proof (any_two_sum a c Ha Hc) as T. cbv zeta in T. fold z in T. fold q in T. fold zz0 in T.
  destruct (any_step a c z (any_sum a c Ha Hc)) as [E0 E0'].
  destruct (any_step zz0 aa _ (any_sum zz0 aa (any_format _) Haa)) as [E1 E1'].
  destruct (any_step _ cc zz (any_sum (RD (zz0 + aa)) cc (any_format _) Hcc)) as [E2 E2'].
  set (t := RD (zz0 + aa)) in *. 
  assert (Rabs (z + zz - (a + aa + (c + cc))) <= Rabs (zz - (t + cc)) + (Rabs (t - (zz0 + aa)) + Rabs (zz0 - (a + c - z)))) as T1.
  { replace (z + zz - (a + aa + (c + cc))) with ((zz - (t + cc)) + ((t - (zz0 + aa)) + (zz0 - (a + c - z)))) by ring.
    apply Rle_trans with (1 := Rabs_triang _ _). apply Rplus_le_compat_l. apply Rabs_triang. }
  assert (Rabs zz0 <= Rabs (zz0 - (a + c - z)) + Rabs (z - (a + c))) as T2.
  { rewrite <- (Rabs_Ropp (z - (a + c))). replace zz0 with ((zz0 - (a + c - z)) + - (z - (a + c))) at 1 by ring. apply Rabs_triang. }
  pose proof u_range as [U0 U1]. pose proof (Rabs_pos a) as Pa. pose proof (Rabs_pos c) as Pc. clearbody zz t zz0 z. clear q Ha Haa Hc Hcc.
  revert T E0 E0' E1 E1' E2 E2' T1 T2 Ba Bc Pa Pc.
  generalize (Rabs (z + zz - (a + aa + (c + cc)))) (Rabs (zz - (t + cc))) (Rabs (t - (zz0 + aa))) (Rabs (zz0 - (a + c - z))) (Rabs (z - (a + c))) (Rabs zz0) (Rabs z) (Rabs t) (Rabs zz) (Rabs aa) (Rabs cc) (Rabs a) (Rabs c).
  intros X D2 D1 D0 DZ Z0 Z T ZZ A2 C2 A C T0 E0 E0' E1 E1' E2 E2' T1 T2 Ba Bc Pa Pc.
  set (M := A + C) in *. set (N := u * M). assert (0 <= N) as PN by (apply Rmult_le_pos; unfold M; lra).
  assert (0 <= u * A) as PA by (apply Rmult_le_pos; lra). assert (0 <= u * C) as PC by (apply Rmult_le_pos; lra).
  assert (N = u * A + u * C) as NS by (unfold N, M; ring).
  assert (u * N <= / 32 * N) as UN by (apply Rmult_le_compat_r; lra).
  replace (18 * (u * u) * M) with (18 * (u * N)) in T0 by (unfold N; ring).
  replace (2 * u * M) with (2 * N) in E0 by (unfold N; ring).
  assert (Z0 <= 41 / 16 * N) as F0 by lra.
  assert (Z0 + A2 <= 41 / 16 * N + 2 * (u * A)) as F1 by lra.
  assert (u * (Z0 + A2) <= u * (41 / 16 * N + 2 * (u * A))) as F1' by (apply Rmult_le_compat_l; lra).
  assert (u * (41 / 16 * N + 2 * (u * A)) <= / 32 * (41 / 16 * N + 2 * (u * A))) as F1'' by (apply Rmult_le_compat_r; lra).
  assert (T <= 17 / 16 * (41 / 16 * N + 2 * (u * A))) as F2 by lra.
  assert (T + C2 <= 5 * N) as F3 by lra.
  assert (u * (T + C2) <= u * (5 * N)) as F3' by (apply Rmult_le_compat_l; lra).
  assert (u * (41 / 16 * N + 2 * (u * A)) <= u * (73 / 16 * N)) as F4 by (apply Rmult_le_compat_l; lra).
  repeat split.
  - replace (37 * (u * u) * M) with (37 * (u * N)) by (unfold N; ring). assert (0 <= u * N) by (apply Rmult_le_pos; lra).
    assert (u * (T + C2) <= u * (17 / 16 * (41 / 16 * N + 2 * (u * A)) + 2 * (u * C))) by (apply Rmult_le_compat_l; lra).
    assert (u * (17 / 16 * (41 / 16 * N + 2 * (u * A)) + 2 * (u * C)) <= u * (623 / 128 * N)) by (apply Rmult_le_compat_l; lra). lra.
  - replace (6 * u * M) with (6 * N) by (unfold N; ring). assert (u * (5 * N) <= / 32 * (5 * N)) by (apply Rmult_le_compat_r; lra). lra.
  - exact E0'.
Qed.

(** ** The final normalization *)
Theorem any_normalize : forall z t, Fm z -> Fm t ->
  Rabs t <= Rabs z \/ (exists k, z = IZR k * bpow r2 (cexp r2 fexp t)) ->
  let r0 := RD (z + t) in let r1 := RD (RD (z - r0) + t) in
  Rabs (r0 + r1 - (z + t)) <= 4 * (u * u) * (Rabs z + Rabs t) /\ Rabs r1 <= 2 * u * Rabs r0.
Proof.
  intros z t Hz Ht H r0 r1. pose proof u_range as [U0 U1].
  assert (Fm (z - r0)) as G by (apply head_exact_opp; assumption).
  assert (r1 = RD (z - r0 + t)) as R1 by (unfold r1; rewrite (any_exact _ G); reflexivity).
  pose proof (any_sum z t Hz Ht) as E0. fold r0 in E0. pose proof (any_sum (z - r0) t G Ht) as E1. rewrite <- R1 in E1.
  replace (z - r0 + t) with (- (r0 - (z + t))) in E1, R1 by ring. rewrite Rabs_Ropp in E1. split.
  - replace (r0 + r1 - (z + t)) with (r1 - - (r0 - (z + t))) by ring. apply Rle_trans with (1 := E1).
    apply Rle_trans with (2 * u * (2 * u * (Rabs z + Rabs t))); [|right; ring]. apply Rmult_le_compat_l; [lra|].
    apply Rle_trans with (1 := E0). apply Rmult_le_compat_l; [lra|apply Rabs_triang].
  - destruct (Rle_or_lt (bpow r2 (emin + prec - 1)) (Rabs r0)) as [L|L].
    + assert (Rabs r1 <= ulp r2 fexp r0) as B.
      { assert (r0 <> 0) as N. { intros Z. rewrite Z, Rabs_R0 in L. pose proof (bpow_gt_0 r2 (emin + prec - 1)). lra. }
        rewrite ulp_neq_0 by exact N. rewrite R1. apply any_le_bpow; [unfold cexp, FLT_exp; lia|]. rewrite Rabs_Ropp. rewrite <- ulp_neq_0 by exact N.
        destruct (Req_dec (z + t) 0) as [Z|Z]; [unfold r0 in N; rewrite Z, round_0 in N by exact _; contradiction|].
        apply Rlt_le. unfold r0. apply error_lt_ulp_round; [exact _|apply FLT_exp_monotone|exact _|exact Z]. }
      apply Rle_trans with (1 := B). replace (2 * u) with (bpow r2 (1 - prec)); [rewrite Rmult_comm; apply ulp_FLT_le; exact L|].
      replace (1 - prec)%Z with (1 + - prec)%Z by ring. rewrite bpow_plus. reflexivity.
    + assert (Fm (z + t)) as S.
      { apply FLT_format_plus_small; [exact _|exact Hz|exact Ht|]. apply Rnot_lt_le. intros C. apply (Rlt_not_le _ _ L).
        apply Rle_trans with (bpow r2 (prec + emin)); [apply bpow_le; lia|]. apply abs_round_ge_generic; [exact _|exact _| |lra].
        apply generic_format_bpow. unfold FLT_exp. lia. }
      rewrite R1. unfold r0 at 1. rewrite (any_exact _ S). unfold Rminus. rewrite Rplus_opp_r, Ropp_0, round_0, Rabs_R0 by exact _.
      apply Rmult_le_pos; [lra|apply Rabs_pos].
Qed.
Lemma any_low_coarse : forall a c t, Fm a -> Fm c -> a <> 0 -> Fm t -> t <> 0 -> Rabs c <= Rabs a -> Rabs t <= 6 * u * (Rabs a + Rabs c) ->
  exists k, RD (a + c) = IZR k * bpow r2 (cexp r2 fexp t).
Proof.
  intros a c t Ha Hc Na Ht Nt L B.
  destruct (round_plus_F2R r2 fexp rnd a c Ha Hc Na) as [m Hm].
  assert (cexp r2 fexp t <= cexp r2 fexp (a / IZR r2))%Z as C.
  - unfold cexp, FLT_exp. assert (mag r2 (a / IZR r2) = mag r2 a - 1 :> Z)%Z as ->.
    { replace (a / IZR r2) with (a * bpow r2 (-1)) by reflexivity. rewrite mag_mult_bpow by assumption. lia. }
    assert (mag r2 t <= mag r2 a + 4 - prec)%Z as M; [|lia].
    apply mag_le_bpow; [assumption|]. apply Rle_lt_trans with (1 := B).
    pose proof (bpow_mag_gt r2 a) as G. pose proof u_range as [U _].
    replace (mag r2 a + 4 - prec)%Z with (4 + (- prec + mag r2 a))%Z by ring. rewrite !bpow_plus. change (bpow r2 4) with 16.
    apply Rle_lt_trans with (12 * (u * Rabs a)); [|assert (u * Rabs a < u * bpow r2 (mag r2 a)) by (apply Rmult_lt_compat_l; lra); pose proof (Rabs_pos a); nra].
    assert (u * Rabs c <= u * Rabs a) by (apply Rmult_le_compat_l; lra). lra.
  - exists (m * 2 ^ (cexp r2 fexp (a / IZR r2) - cexp r2 fexp t))%Z. rewrite Hm. unfold F2R. cbn [Fnum Fexp]. rewrite mult_IZR.
    change 2%Z with (Zaux.radix_val r2) at 1. rewrite IZR_Zpower by lia. rewrite Rmult_assoc, <- bpow_plus. do 2 f_equal. ring.
Qed.
Lemma any_low_side : forall a c t, Fm a -> Fm c -> Fm t -> Rabs t <= 6 * u * (Rabs a + Rabs c) ->
  Rabs t <= Rabs (RD (a + c)) \/ (exists k, RD (a + c) = IZR k * bpow r2 (cexp r2 fexp t)).
Proof.
  intros a c t Ha Hc Ht B.
  destruct (Req_dec t 0) as [->|Nt]; [left; rewrite Rabs_R0; apply Rabs_pos|].
  destruct (Rle_or_lt (Rabs c) (Rabs a)) as [L|L].
  - destruct (Req_dec a 0) as [->|Na].
    + rewrite Rabs_R0 in *. pose proof (Rabs_pos c). replace (Rabs c) with 0 in B by lra. pose proof (Rabs_pos_lt t Nt). lra.
    + right. apply (any_low_coarse a c t); assumption.
  - right. rewrite Rplus_comm. apply (any_low_coarse c a t); try assumption; [|lra|lra].
    intro A. rewrite A, Rabs_R0 in L. pose proof (Rabs_pos a). lra.
Qed.
(** the whole sum *)
Theorem any_pair_sum : forall a aa c cc, Fm a -> Fm aa -> Fm c -> Fm cc -> Rabs aa <= 2 * u * Rabs a -> Rabs cc <= 2 * u * Rabs c ->
  let z := RD (a + c) in let q := RD (a - z) in let zz0 := RD (RD (q + c) + - RD (RD (q + z) - a)) in
  let zz := RD (RD (zz0 + aa) + cc) in let r0 := RD (z + zz) in let r1 := RD (RD (z - r0) + zz) in
  Rabs (r0 + r1 - (a + aa + (c + cc))) <= 42 * (u * u) * (Rabs a + Rabs c) /\ Rabs r1 <= 2 * u * Rabs r0.
Proof.
  intros a aa c cc Ha Haa Hc Hcc Ba Bc z q zz0 zz r0 r1. pose proof u_range as [U0 U1].
  destruct (any_sum_low a aa c cc Ha Haa Hc Hcc Ba Bc) as [L1 [L2 L3]]. fold z in L1, L2, L3. fold q in L1, L2. fold zz0 in L1, L2. fold zz in L1, L2.
  destruct (any_normalize z zz (any_format _) (any_format _)) as [N1 N2]; [apply (any_low_side a c zz Ha Hc (any_format _) L2)|].
  fold r0 in N1, N2. fold r1 in N1, N2. split; [|exact N2].
  replace (r0 + r1 - (a + aa + (c + cc))) with ((r0 + r1 - (z + zz)) + (z + zz - (a + aa + (c + cc)))) by ring.
  apply Rle_trans with (1 := Rabs_triang _ _).
  set (M := Rabs a + Rabs c) in *. assert (0 <= M) as PM by (unfold M; pose proof (Rabs_pos a); pose proof (Rabs_pos c); lra).
  assert (Rabs z + Rabs zz <= 5 / 4 * M) as S. { assert (u * M <= / 32 * M) by (apply Rmult_le_compat_r; lra). lra. }
  assert (4 * (u * u) * (Rabs z + Rabs zz) <= 4 * (u * u) * (5 / 4 * M)) by (apply Rmult_le_compat_l; [nra|exact S]). lra.
Qed.

(** ** Products *)
Lemma any_pair_prod_num : forall w P h X D4 D3 D1 D2 D0 BD TS XY TA S X1 Y1 AD BC T T0,
  0 < w <= / 32 -> 0 < P -> 0 <= h <= w * w * w * P ->
  AD <= 2 * w * P -> BC <= 2 * w * P -> BD <= 4 * (w * w) * P -> T0 <= 2 * w * P ->
  D1 <= 2 * w * AD + h -> D2 <= 2 * w * BC + h -> X1 <= D1 + AD -> Y1 <= D2 + BC -> XY <= X1 + Y1 ->
  D3 <= 2 * w * XY -> S <= D3 + XY -> TS <= T0 + S -> D4 <= 2 * w * TS -> TA <= D4 + TS -> T <= P + T0 -> P <= T + T0 ->
  D0 <= 4 * (w * w) * (T + TA) -> X <= D0 + (D4 + (D3 + (D1 + (D2 + BD)))) ->
  X <= 40 * (w * w) * P /\ TA <= T /\ TA <= P.
Proof.
  intros w P h X D4 D3 D1 D2 D0 BD TS XY TA S X1 Y1 AD BC T T0 [W0 W1] PP [H0 H1] A1 A2 A3 A4 B1 B2 B3 B4 B5 B6 B7 B8 B9 B10 B11 B12 B13 B14.
  set (N := w * P) in *. assert (0 < N) as PN by (apply Rmult_lt_0_compat; assumption).
  set (Q := w * N). assert (0 < Q) as PQ by (apply Rmult_lt_0_compat; assumption).
  assert (Q <= / 32 * N) as QN by (apply Rmult_le_compat_r; lra). assert (N <= / 32 * P) as NP by (apply Rmult_le_compat_r; lra).
  replace (2 * w * P) with (2 * N) in * by (unfold N; ring).
  replace (4 * (w * w) * P) with (4 * Q) in A3 by (unfold Q, N; ring).
  assert (h <= / 32 * Q) as Hh. { apply Rle_trans with (1 := H1). replace (w * w * w * P) with (w * Q) by (unfold Q, N; ring). apply Rmult_le_compat_r; lra. }
  assert (D1 <= 4 * Q + h) as C1. { apply Rle_trans with (1 := B1). apply Rplus_le_compat_r. apply Rle_trans with (2 * w * (2 * N)); [apply Rmult_le_compat_l; lra|right; unfold Q; ring]. }
  assert (D2 <= 4 * Q + h) as C2. { apply Rle_trans with (1 := B2). apply Rplus_le_compat_r. apply Rle_trans with (2 * w * (2 * N)); [apply Rmult_le_compat_l; lra|right; unfold Q; ring]. }
  assert (XY <= 4 * N + (8 + / 16) * Q) as C3 by lra. assert (XY <= 273 / 64 * N) as C3' by lra.
  assert (D3 <= 273 / 32 * Q) as C4. { apply Rle_trans with (1 := B6). apply Rle_trans with (2 * w * (273 / 64 * N)); [apply Rmult_le_compat_l; lra|right; unfold Q; field]. }
  assert (S <= 18 / 4 * N + / 16 * N) as C5 by lra.
  assert (TS <= 105 / 16 * N) as C6 by lra.
  assert (D4 <= 105 / 8 * Q) as C7. { apply Rle_trans with (1 := B9). apply Rle_trans with (2 * w * (105 / 16 * N)); [apply Rmult_le_compat_l; lra|right; unfold Q; field]. }
  assert (TA <= 7 * N) as C8 by lra.
  assert (D0 <= 4 * (w * w) * (P + 9 * N)) as C9. { apply Rle_trans with (1 := B13). apply Rmult_le_compat_l; [nra|lra]. }
  assert (4 * (w * w) * (P + 9 * N) <= 4 * (w * w) * (41 / 32 * P)) as C9' by (apply Rmult_le_compat_l; [nra|lra]).
  replace (4 * (w * w) * (41 / 32 * P)) with (41 / 8 * Q) in C9' by (unfold Q, N; field).
  replace (40 * (w * w) * P) with (40 * Q) by (unfold Q, N; ring). repeat split; lra.
Qed.
Theorem any_pair_prod : forall a b c d, Fm a -> Fm c -> Rabs b <= 2 * u * Rabs a -> Rabs d <= 2 * u * Rabs c ->
  bpow r2 (emin + 3 * prec) <= Rabs (a * c) ->
  let t := RD (a * c) in let t0 := RD (a * c - t) in let x := RD (a * d) in let y := RD (b * c) in let s := RD (x + y) in let tau := RD (t0 + s) in
  let r0 := RD (t + tau) in let r1 := RD (RD (t - r0) + tau) in
  t0 = a * c - t /\ Rabs (r0 + r1 - (a + b) * (c + d)) <= 40 * (u * u) * Rabs (a * c) /\ Rabs r1 <= 2 * u * Rabs r0 /\
  Rabs tau <= Rabs (a * c).
Proof.
  intros a b c d Ha Hc Lb Ld Big t t0 x y s tau r0 r1. pose proof u_range as [U0 U1].
  assert (t0 = a * c - t) as X.
  { apply any_exact. replace (a * c - t) with (- (t - a * c)) by ring. apply any_opp. unfold t. apply mult_error_FLT; try assumption; [exact _|].
    intros _. apply Rle_trans with (2 := Big). apply bpow_le. lia. }
  assert (Rabs t0 <= 2 * u * Rabs (a * c)) as E0.
  { rewrite X. replace (a * c - t) with (- (t - a * c)) by ring. rewrite Rabs_Ropp. replace (2 * u) with (bpow r2 (- prec + 1)).
    - apply Rlt_le, relative_error_FLT; [exact prec_positive|exact _|]. apply Rle_trans with (2 := Big). apply bpow_le. lia.
    - rewrite bpow_plus. change (bpow r2 1) with 2. ring. }
  pose proof (any_prod (a * d)) as Ex. fold x in Ex. pose proof (any_prod (b * c)) as Ey. fold y in Ey.
  pose proof (any_sum x y (any_format _) (any_format _)) as Es. fold s in Es. pose proof (any_sum t0 s (any_format _) (any_format _)) as Et. fold tau in Et.
  assert (bpow r2 emin <= u * u * u * Rabs (a * c)) as H0.
  { replace (bpow r2 emin) with (u * u * u * bpow r2 (emin + 3 * prec)) by (rewrite <- !bpow_plus; f_equal; ring).
    apply Rmult_le_compat_l; [|exact Big]. apply Rmult_le_pos; [|lra]. nra. }
  assert (Rabs (a * d) <= 2 * u * Rabs (a * c)) as Had. { rewrite !Rabs_mult. replace (2 * u * (Rabs a * Rabs c)) with (Rabs a * (2 * u * Rabs c)) by ring. apply Rmult_le_compat_l; [apply Rabs_pos|exact Ld]. }
  assert (Rabs (b * c) <= 2 * u * Rabs (a * c)) as Hbc. { rewrite !Rabs_mult. rewrite <- Rmult_assoc. apply Rmult_le_compat_r; [apply Rabs_pos|exact Lb]. }
  assert (Rabs (b * d) <= 4 * (u * u) * Rabs (a * c)) as Hbd.
  { rewrite !Rabs_mult. apply Rle_trans with ((2 * u * Rabs a) * (2 * u * Rabs c)); [apply Rmult_le_compat; try assumption; apply Rabs_pos|right; ring]. }
  assert (0 < Rabs (a * c)) as PP by (apply Rlt_le_trans with (2 := Big); apply bpow_gt_0).
  assert (a * c = t + t0) as Sp by (rewrite X; ring).
  assert (Rabs (a * c) <= Rabs t + Rabs t0) as Ht by (rewrite Sp; apply Rabs_triang).
  assert (Rabs t <= Rabs (a * c) + Rabs t0) as Ht'. { replace t with (a * c + - t0) at 1 by (rewrite X; ring). rewrite <- (Rabs_Ropp t0). apply Rabs_triang. }
  assert (Rabs x <= Rabs (x - a * d) + Rabs (a * d)) as Tx. { replace x with ((x - a * d) + a * d) at 1 by ring. apply Rabs_triang. }
  assert (Rabs y <= Rabs (y - b * c) + Rabs (b * c)) as Ty. { replace y with ((y - b * c) + b * c) at 1 by ring. apply Rabs_triang. }
  assert (Rabs s <= Rabs (s - (x + y)) + Rabs (x + y)) as Ts. { replace s with ((s - (x + y)) + (x + y)) at 1 by ring. apply Rabs_triang. }
  assert (Rabs tau <= Rabs (tau - (t0 + s)) + Rabs (t0 + s)) as Tt. { replace tau with ((tau - (t0 + s)) + (t0 + s)) at 1 by ring. apply Rabs_triang. }
  assert (Rabs (r0 + r1 - (a + b) * (c + d)) <= Rabs (r0 + r1 - (t + tau)) + (Rabs (tau - (t0 + s)) + (Rabs (s - (x + y)) + (Rabs (x - a * d) + (Rabs (y - b * c) + Rabs (b * d)))))) as TT.
  { replace (r0 + r1 - (a + b) * (c + d)) with ((r0 + r1 - (t + tau)) + ((tau - (t0 + s)) + ((s - (x + y)) + ((x - a * d) + ((y - b * c) + - (b * d)))))) by (rewrite X; ring).
    rewrite <- (Rabs_Ropp (b * d)). do 4 (apply Rle_trans with (1 := Rabs_triang _ _); apply Rplus_le_compat_l). apply Rabs_triang. }
  pose proof (Rabs_triang x y) as Txy. pose proof (Rabs_triang t0 s) as T0s.
  pose proof (bpow_ge_0 r2 emin) as Pe.
  destruct (any_pair_prod_num u (Rabs (a * c)) (bpow r2 emin) (Rabs (tau - (t0 + s)) + (Rabs (s - (x + y)) + (Rabs (x - a * d) + (Rabs (y - b * c) + Rabs (b * d)))))
    _ _ _ _ 0 _ _ _ _ _ _ _ _ _ _ _ (conj U0 U1) PP (conj Pe H0) Had Hbc Hbd E0 Ex Ey Tx Ty Txy Es Ts T0s Et Tt Ht' Ht) as [_ [Q _]].
  { apply Rmult_le_pos; [nra|]. pose proof (Rabs_pos t). pose proof (Rabs_pos tau). lra. }
  { lra. }
  destruct (any_normalize t tau (any_format _) (any_format _) (or_introl Q)) as [N1 N2]. fold r0 in N1, N2. fold r1 in N1, N2.
  destruct (any_pair_prod_num u (Rabs (a * c)) (bpow r2 emin) _ _ _ _ _ _ _ _ _ _ _ _ _ _ _ _ _ (conj U0 U1) PP (conj Pe H0) Had Hbc Hbd E0 Ex Ey Tx Ty Txy Es Ts T0s Et Tt Ht' Ht N1 TT) as [K1 [_ K2]].
  exact (conj X (conj K1 (conj N2 K2))).
Qed.
End Any.
