(** * TopSum.v -- sums of pairs near the largest number, on the real numbers *)
From Coq Require Import ZArith Reals Bool Lia Lra Psatz.
From Flocq Require Import Core Plus_error Sterbenz.
From Verif Require Import Spec TwoSum AnySum.
Local Open Scope R_scope.
Ltac Zify.zify_post_hook ::= idtac.

Section Top.
Variables emin prec E : Z.
Variable choice : Z -> bool.
Hypothesis Hprec : (5 <= prec)%Z.
Hypothesis HE : (emin + 2 * prec + 2 <= E)%Z.
(** ties between a number with an odd significand and the next go to the next *)
Hypothesis Hodd : forall n, (0 <= n)%Z -> Z.odd n = true -> choice n = true.
Local Notation fexp := (FLT_exp emin prec).
Local Notation Fm := (generic_format r2 fexp).
Local Notation RN := (round r2 fexp (Znearest choice)).
Local Notation u := (bpow r2 (- prec)).
Local Notation U := (bpow r2 (E + 1 - prec)).
Local Notation MX := (bpow r2 (E + 1) - bpow r2 (E + 1 - prec)).

Local Instance top_prec : Prec_gt_0 prec.
Proof. unfold Prec_gt_0. lia. Qed.

Lemma bpow_two : forall e, bpow r2 (e + 1) = 2 * bpow r2 e.
Proof. intros e. rewrite bpow_plus. change (bpow r2 1) with 2. ring. Qed.
Lemma U_pos : 0 < U. Proof. apply bpow_gt_0. Qed.
Lemma U_scale : U = u * bpow r2 (E + 1).
Proof. rewrite <- bpow_plus. f_equal. ring. Qed.
Lemma U_small : 16 * U <= bpow r2 (E + 1).
Proof. change 16 with (bpow r2 4). rewrite <- bpow_plus. apply bpow_le. lia. Qed.
Lemma tu : 0 < u <= / 16. Proof. apply u_small. lia. Qed.

Lemma scaled : forall x k e, x = IZR k * bpow r2 e -> (emin <= e)%Z -> Rabs x <= bpow r2 (e + prec) -> Fm x.
Proof.
  intros x k e X He L. apply (multiple_format emin prec Hprec x k e X He).
  apply le_IZR. rewrite abs_IZR. replace (IZR (2 ^ prec)) with (bpow r2 prec) by (rewrite <- IZR_Zpower by lia; reflexivity).
  rewrite X, Rabs_mult, (Rabs_pos_eq (bpow r2 e)), bpow_plus, Rmult_comm in L by apply bpow_ge_0. apply Rmult_le_reg_l in L; [exact L|apply bpow_gt_0].
Qed.
(** a number of the format that is not small is a multiple of its place *)
Lemma as_multiple : forall x e, Fm x -> (emin <= e)%Z -> bpow r2 (e + prec - 1) <= Rabs x -> exists k, x = IZR k * bpow r2 e.
Proof.
  intros x e Hx He L. assert (e <= cexp r2 fexp x)%Z as C.
  { unfold cexp, FLT_exp. pose proof (mag_ge_bpow r2 x (e + prec)) as M. specialize (M L). lia. }
  exists (Ztrunc (scaled_mantissa r2 fexp x) * 2 ^ (cexp r2 fexp x - e))%Z. rewrite mult_IZR. change 2%Z with (Zaux.radix_val r2) at 1.
  rewrite IZR_Zpower by lia. rewrite Rmult_assoc, <- bpow_plus. replace (cexp r2 fexp x - e + e)%Z with (cexp r2 fexp x) by ring. exact Hx.
Qed.
Lemma below_power : forall x e, Fm x -> (emin + prec <= e)%Z -> x < bpow r2 e -> x <= bpow r2 e - bpow r2 (e - prec).
Proof.
  intros x e Hx He L. assert (Fm (bpow r2 e)) as G by (apply generic_format_bpow; unfold FLT_exp; lia).
  pose proof (pred_ge_gt r2 fexp x (bpow r2 e) Hx G L) as P. rewrite pred_bpow in P. unfold FLT_exp in P. rewrite Z.max_l in P by lia. exact P.
Qed.

(** the largest number *)
Lemma MX_format : Fm MX.
Proof.
  apply (scaled _ (2 ^ prec - 1) (E + 1 - prec)); [|lia|].
  - rewrite minus_IZR. change 2%Z with (Zaux.radix_val r2) at 1. rewrite IZR_Zpower by lia. rewrite Rmult_minus_distr_r, <- bpow_plus, Rmult_1_l. do 2 f_equal. ring.
  - replace (E + 1 - prec + prec)%Z with (E + 1)%Z by ring. pose proof U_small. pose proof U_pos. rewrite Rabs_pos_eq; lra.
Qed.
Lemma round_top : forall x, bpow r2 E <= x < bpow r2 (E + 1) -> RN x = IZR (Znearest choice (x * bpow r2 (- (E + 1 - prec)))) * U.
Proof.
  intros x [L R]. assert (mag r2 x = E + 1 :> Z)%Z as M.
  { apply mag_unique. pose proof (bpow_gt_0 r2 E). rewrite Rabs_pos_eq by lra. replace (E + 1 - 1)%Z with E by ring. split; assumption. }
  unfold round, F2R, scaled_mantissa, cexp, FLT_exp. cbn [Fnum Fexp]. rewrite M, Z.max_l by lia. reflexivity.
Qed.
Lemma MX_scaled : forall r, (MX + r) * bpow r2 (- (E + 1 - prec)) = IZR (2 ^ prec - 1) + r * bpow r2 (- (E + 1 - prec)).
Proof.
  intros r. rewrite minus_IZR. change 2%Z with (Zaux.radix_val r2) at 1. rewrite IZR_Zpower by lia.
  assert (bpow r2 (E + 1) * bpow r2 (- (E + 1 - prec)) = bpow r2 prec) as A by (rewrite <- bpow_plus; f_equal; ring).
  assert (U * bpow r2 (- (E + 1 - prec)) = 1) as C by (rewrite <- bpow_plus; replace (E + 1 - prec + - (E + 1 - prec))%Z with 0%Z by ring; reflexivity).
  rewrite Rmult_plus_distr_r, Rmult_minus_distr_r, A, C. reflexivity.
Qed.
Lemma MX_units : IZR (2 ^ prec - 1) * U = MX.
Proof. rewrite minus_IZR. change 2%Z with (Zaux.radix_val r2) at 1. rewrite IZR_Zpower by lia. rewrite Rmult_minus_distr_r, <- bpow_plus, Rmult_1_l. do 2 f_equal. ring. Qed.
Lemma near_max : forall r, Rabs r < / 2 * U -> RN (MX + r) = MX.
Proof.
  intros r H. pose proof U_small as S. pose proof U_pos as P. rewrite (bpow_two E) in S. apply Rabs_def2 in H.
  rewrite round_top by (rewrite (bpow_two E); lra). rewrite MX_scaled.
  rewrite (Znearest_imp choice _ (2 ^ prec - 1)); [apply MX_units|].
  replace (IZR (2 ^ prec - 1) + r * bpow r2 (- (E + 1 - prec)) - IZR (2 ^ prec - 1)) with (r * bpow r2 (- (E + 1 - prec))) by ring.
  rewrite Rabs_mult, (Rabs_pos_eq (bpow r2 _)) by apply bpow_ge_0. apply Rmult_lt_reg_r with U; [exact P|]. rewrite Rmult_assoc, <- bpow_plus.
  replace (- (E + 1 - prec) + (E + 1 - prec))%Z with 0%Z by ring. change (bpow r2 0) with 1. rewrite Rmult_1_r. apply Rabs_def1; lra.
Qed.
Lemma over_max : forall x, MX + / 2 * U <= x -> bpow r2 (E + 1) <= RN x.
Proof.
  intros x L. apply Rle_trans with (RN (MX + / 2 * U)); [right|apply round_le; [apply FLT_exp_valid; exact top_prec|apply valid_rnd_N|exact L]].
  pose proof U_small as S. pose proof U_pos as P. rewrite (bpow_two E) in S.
  rewrite round_top by (rewrite (bpow_two E); lra). rewrite MX_scaled.
  rewrite Rmult_assoc, <- bpow_plus. replace (E + 1 - prec + - (E + 1 - prec))%Z with 0%Z by ring. change (bpow r2 0) with 1. rewrite Rmult_1_r.
  assert (Zfloor (IZR (2 ^ prec - 1) + / 2) = 2 ^ prec - 1)%Z as Fl. { apply Zfloor_imp. rewrite plus_IZR. lra. }
  assert (1 <= 2 ^ prec)%Z as P2 by (pose proof (Z.pow_pos_nonneg 2 prec ltac:(lia) ltac:(lia)); lia).
  assert (choice (2 ^ prec - 1) = true) as C.
  { apply Hodd; [lia|]. rewrite Z.odd_sub, Z.odd_pow by lia. reflexivity. }
  assert (Znearest choice (IZR (2 ^ prec - 1) + / 2) = 2 ^ prec)%Z as ->.
  { unfold Znearest. rewrite Fl. replace (IZR (2 ^ prec - 1) + / 2 - IZR (2 ^ prec - 1)) with (/ 2) by ring. rewrite Rcompare_Eq by reflexivity. rewrite C.
    rewrite Zceil_floor_neq by (rewrite Fl; lra). rewrite Fl. ring. }
  change 2%Z with (Zaux.radix_val r2) at 1. rewrite IZR_Zpower by lia. rewrite <- bpow_plus. f_equal. ring.
Qed.
Lemma not_over : forall x, Rabs x < MX + / 2 * U -> Rabs (RN x) <= MX.
Proof.
  intros x H. pose proof U_small as S. pose proof U_pos as P. destruct (Rle_or_lt (Rabs x) MX) as [L|L].
  - apply abs_round_le_generic; [apply FLT_exp_valid; exact top_prec|apply valid_rnd_N|exact MX_format|exact L].
  - assert (RN (Rabs x) = MX) as N. { replace (Rabs x) with (MX + (Rabs x - MX)) by ring. apply near_max. rewrite Rabs_pos_eq; lra. }
    destruct (Rle_or_lt 0 x) as [G|G].
    + rewrite (Rabs_pos_eq x G) in N. rewrite N. rewrite Rabs_pos_eq; lra.
    + (* the other choice function is of the same kind near the largest number *)
      assert (RN x = - MX) as Q; [|rewrite Q, Rabs_Ropp, Rabs_pos_eq; lra].
      rewrite (Rabs_left x G) in *. replace x with (- (- x)) by ring. rewrite round_N_opp. f_equal.
      clear N. pose proof (bpow_two E) as T.
      replace (- x) with (MX + (- x - MX)) by ring. set (r := - x - MX).
      assert (Rabs r < / 2 * U) as Hr by (unfold r; rewrite Rabs_pos_eq; lra).
      assert (mag r2 (MX + r) = E + 1 :> Z)%Z as M.
      { apply mag_unique. apply Rabs_def2 in Hr. rewrite Rabs_pos_eq by lra. replace (E + 1 - 1)%Z with E by ring. lra. }
      unfold round, F2R, scaled_mantissa, cexp, FLT_exp. cbn [Fnum Fexp]. rewrite M, Z.max_l by lia. rewrite MX_scaled.
      rewrite (Znearest_imp _ _ (2 ^ prec - 1)); [apply MX_units|].
      replace (IZR (2 ^ prec - 1) + r * bpow r2 (- (E + 1 - prec)) - IZR (2 ^ prec - 1)) with (r * bpow r2 (- (E + 1 - prec))) by ring.
      rewrite Rabs_mult, (Rabs_pos_eq (bpow r2 _)) by apply bpow_ge_0. apply Rmult_lt_reg_r with U; [exact P|]. rewrite Rmult_assoc, <- bpow_plus.
      replace (- (E + 1 - prec) + (E + 1 - prec))%Z with 0%Z by ring. change (bpow r2 0) with 1. rewrite Rmult_1_r. exact Hr.
Qed.
(** rounding errors below the overflow threshold *)
Lemma err_U : forall x, Rabs x < bpow r2 (E + 1) -> Rabs (RN x - x) <= / 2 * U.
Proof.
  intros x H. apply Rle_trans with (/ 2 * ulp r2 fexp x); [apply error_le_half_ulp; apply FLT_exp_valid; exact top_prec|].
  apply Rmult_le_compat_l; [lra|]. destruct (Req_dec x 0) as [->|N].
  - rewrite ulp_FLT_0 by exact top_prec. apply bpow_le. lia.
  - rewrite ulp_neq_0 by exact N. apply bpow_le. unfold cexp, FLT_exp. pose proof (mag_le_bpow r2 x (E + 1) N H). lia.
Qed.
Local Notation RE := (round r2 fexp ZnearestE).
(** the low half of a canonical pair *)
Lemma low_bound : forall a aa k, (emin + prec <= k)%Z -> Rabs a < bpow r2 k -> RE (a + aa) = a -> Rabs aa <= / 2 * bpow r2 (k - prec).
Proof.
  intros a aa k Hk L H. pose proof (error_le_half_ulp_round r2 fexp (fun x => negb (Z.even x)) (a + aa)) as Q. rewrite H in Q.
  replace (a - (a + aa)) with (- aa) in Q by ring. rewrite Rabs_Ropp in Q. apply Rle_trans with (1 := Q). apply Rmult_le_compat_l; [lra|].
  destruct (Req_dec a 0) as [->|N].
  - rewrite ulp_FLT_0 by exact top_prec. apply bpow_le. lia.
  - rewrite ulp_neq_0 by exact N. apply bpow_le. unfold cexp, FLT_exp. pose proof (mag_le_bpow r2 a k N L). lia.
Qed.
Lemma low_power : forall aa, RE (bpow r2 E + aa) = bpow r2 E -> - (/ 4 * U) <= aa.
Proof.
  intros aa H. destruct (Rle_or_lt 0 aa) as [L|L]; [pose proof U_pos; lra|].
  pose proof (error_le_half_ulp r2 fexp (fun x => negb (Z.even x)) (bpow r2 E + aa)) as Q. rewrite H in Q.
  replace (bpow r2 E - (bpow r2 E + aa)) with (- aa) in Q by ring. rewrite Rabs_pos_eq in Q by lra.
  assert (ulp r2 fexp (bpow r2 E + aa) <= / 2 * U) as X; [|lra].
  assert (bpow r2 (E - prec) = / 2 * U) as Y. { replace (E + 1 - prec)%Z with (E - prec + 1)%Z by ring. rewrite bpow_two. lra. }
  rewrite <- Y. assert (Rabs aa <= / 2 * bpow r2 (E + 1 - prec)) as B. { apply low_bound with (bpow r2 E); [lia| |exact H]. rewrite Rabs_pos_eq by apply bpow_ge_0. apply bpow_lt. lia. }
  rewrite Rabs_left in B by exact L. pose proof U_small as S. rewrite (bpow_two E) in S. pose proof U_pos.
  rewrite ulp_neq_0 by lra. apply bpow_le. unfold cexp, FLT_exp.
  assert (mag r2 (bpow r2 E + aa) <= E)%Z by (apply mag_le_bpow; [lra|rewrite Rabs_pos_eq; lra]). lia.
Qed.
Lemma nearest_point : forall x b, Fm b -> Rabs (RN x - x) <= Rabs (b - x).
Proof. intros x b H. apply (round_N_pt r2 fexp choice x). exact H. Qed.
Lemma mono : forall x b, Fm b -> b <= x -> b <= RN x.
Proof. intros x b H L. apply round_ge_generic; [apply FLT_exp_valid; exact top_prec|apply valid_rnd_N|exact H|exact L]. Qed.
Lemma mono' : forall x b, Fm b -> x <= b -> RN x <= b.
Proof. intros x b H L. apply round_le_generic; [apply FLT_exp_valid; exact top_prec|apply valid_rnd_N|exact H|exact L]. Qed.

Theorem top_branch : forall a aa c cc, Fm a -> Fm aa -> Fm c -> Fm cc -> 0 < c <= a -> a <= MX -> c <= MX - U -> RE (a + aa) = a -> RE (c + cc) = c ->
  MX + / 2 * U <= a + c ->
  let s := RN (aa + cc) in let w := RN (s + c) in
  Rabs s <= U /\ Rabs w <= MX /\
  (MX + / 2 * U <= w + a -> MX <= a + aa + (c + cc)) /\
  (w + a < MX + / 2 * U -> RN (w + a) = MX /\ RN (a - MX) = a - MX /\ RN (a - MX + c) = a - MX + c /\
     Rabs (a - MX + c) <= 2 * U /\ Rabs (RN (a - MX + c + s)) < / 2 * U /\
     Rabs (MX + RN (a - MX + c + s) - (a + aa + (c + cc))) <= 4 * (u * u) * (Rabs a + Rabs c)).
Proof.
  intros a aa c cc Ha Haa Hc Hcc [C0 CA] AM CM Ca Cc ZA s w.
  pose proof U_pos as PU. pose proof U_small as SU. pose proof (bpow_two E) as TE. pose proof tu as [U0 U1]. pose proof U_scale as US.
  set (b := MX - a).
  assert (Rabs aa <= / 2 * U) as Ba. { apply (low_bound a aa (E + 1)); [lia|rewrite Rabs_pos_eq; lra|exact Ca]. }
  assert (Rabs cc <= / 2 * U) as Bc. { apply (low_bound c cc (E + 1)); [lia|rewrite Rabs_pos_eq; lra|exact Cc]. }
  pose proof (Rabs_triang aa cc) as Tac. assert (Rabs (aa + cc) <= U) as Bac by lra.
  assert (Rabs s <= U) as Bs. { apply RN_le_bpow; [lia|lia|lra]. }
  assert (Rabs (s - (aa + cc)) <= u * Rabs (aa + cc)) as Es.
  { apply Rle_trans with (u / (1 + u) * Rabs (aa + cc)); [apply (sum_rel emin prec choice); [lia|assumption|assumption]|].
    apply Rmult_le_compat_r; [apply Rabs_pos|]. unfold Rdiv. rewrite <- (Rmult_1_r u) at 3. apply Rmult_le_compat_l; [lra|]. rewrite <- Rinv_1 at 2. apply Rinv_le; lra. }
  assert (u * Rabs (aa + cc) <= / 16 * U) as Es'. { apply Rmult_le_compat; try lra. apply Rabs_pos. }
  (* the larger one is in the last binade *)
  assert (bpow r2 E <= a) as AE.
  { apply Rnot_lt_le. intro L. assert (c < bpow r2 E) as L' by lra.
    pose proof (below_power a E Ha ltac:(lia) L). pose proof (below_power c E Hc ltac:(lia) L').
    assert (bpow r2 (E - prec) = / 2 * U). { replace (E + 1 - prec)%Z with (E - prec + 1)%Z by ring. rewrite bpow_two. lra. } lra. }
  destruct (as_multiple a (E + 1 - prec) Ha ltac:(lia)) as [ka Ka]. { replace (E + 1 - prec + prec - 1)%Z with E by ring. rewrite Rabs_pos_eq by lra. exact AE. }
  assert (b = IZR (2 ^ prec - 1 - ka) * U) as Kb. { unfold b. rewrite minus_IZR, Rmult_minus_distr_r, MX_units, <- Ka. reflexivity. }
  set (kb := (2 ^ prec - 1 - ka)%Z) in *. clearbody kb.
  assert (0 <= b <= bpow r2 E - U) as Bb by (unfold b; lra).
  assert (Fm b) as Gb. { apply (scaled b kb (E + 1 - prec) Kb); [lia|]. rewrite Rabs_pos_eq by lra. replace (E + 1 - prec + prec)%Z with (E + 1)%Z by ring. lra. }
  assert (Fm (b + / 2 * U)) as Gb2.
  { assert (bpow r2 (E - prec) = / 2 * U) as H. { replace (E + 1 - prec)%Z with (E - prec + 1)%Z by ring. rewrite bpow_two. lra. }
    apply (scaled _ (2 * kb + 1) (E - prec)); [|lia|].
    - rewrite plus_IZR, mult_IZR, H, Kb. lra.
    - replace (E - prec + prec)%Z with E by ring. rewrite Rabs_pos_eq; lra. }
  split; [exact Bs|]. apply Rabs_le_inv in Bs. apply Rabs_le_inv in Ba. apply Rabs_le_inv in Bc. apply Rabs_le_inv in Es.
  split. { unfold w. apply not_over. apply Rabs_lt. lra. }
  assert (c + s - b = a - MX + c + s) as Xb by (unfold b; ring).
  pose proof (nearest_point (s + c) b Gb) as N. fold w in N.
  split.
  { (* overflow: the sum is large *)
    intros Hw. assert (b + / 2 * U <= w) as Hw' by (unfold b; lra). clear Hw.
    apply Rnot_lt_le. intro L. assert (s + c < b + / 16 * U) as L' by (unfold b; lra).
    destruct (Rle_or_lt (s + c) b) as [G|G]; [pose proof (mono' (s + c) b Gb G) as M; fold w in M; lra|].
    rewrite (Rabs_left (b - (s + c))), (Rabs_pos_eq (w - (s + c))) in N by lra. lra. }
  intros Hw. assert (w < b + / 2 * U) as Hw' by (unfold b; lra). clear Hw.
  assert (s + c < b + / 2 * U) as Hx. { apply Rnot_le_lt. intro G. pose proof (mono (s + c) _ Gb2 G) as M. fold w in M. lra. }
  (* the smaller one is below the last binade *)
  assert (c < bpow r2 E) as CE.
  { apply Rnot_le_lt. intro G. destruct (Rle_lt_or_eq_dec _ _ AE) as [A1|A1].
    - assert (bpow r2 E + U <= a) as A2.
      { rewrite Ka in A1 |- *. replace (bpow r2 E) with (IZR (2 ^ (prec - 1)) * U) in A1 |- *.
        2: { change 2%Z with (Zaux.radix_val r2) at 1. rewrite IZR_Zpower by lia. rewrite <- bpow_plus. f_equal. ring. }
        apply Rmult_lt_reg_r in A1; [|exact PU]. apply lt_IZR in A1. replace (IZR (2 ^ (prec - 1)) * U + U) with (IZR (2 ^ (prec - 1) + 1) * U) by (rewrite plus_IZR; ring).
        apply Rmult_le_compat_r; [lra|]. apply IZR_le. lia. }
      unfold b in *. lra.
    - assert (c = bpow r2 E) as C1 by lra. rewrite <- A1 in Ca. rewrite C1 in Cc. pose proof (low_power aa Ca) as La. pose proof (low_power cc Cc) as Lc.
      assert (- (/ 2 * U) <= s) as Ls.
      { apply mono; [|lra]. apply generic_format_opp. replace (/ 2 * U) with (bpow r2 (E - prec)); [apply generic_format_bpow; unfold FLT_exp; lia|].
        replace (E + 1 - prec)%Z with (E - prec + 1)%Z by ring. rewrite bpow_two. lra. }
      unfold b in *. lra. }
  assert (bpow r2 (E - prec) = / 2 * U) as HU. { replace (E + 1 - prec)%Z with (E - prec + 1)%Z by ring. rewrite bpow_two. lra. }
  assert (Rabs cc <= / 4 * U) as Bc'. { pose proof (low_bound c cc E ltac:(lia) ltac:(rewrite Rabs_pos_eq; lra) Cc). lra. }
  apply Rabs_le_inv in Bc'.
  assert (- (3 / 4 * U) <= s) as Ls.
  { apply mono; [|lra]. apply generic_format_opp. apply (scaled _ 3 (E - prec - 1)); [|lia|].
    - replace (E - prec)%Z with (E - prec - 1 + 1)%Z in HU by ring. rewrite bpow_two in HU. lra.
    - replace (E - prec - 1 + prec)%Z with (E - 1)%Z by ring. replace E with (E - 1 + 1)%Z in TE at 2 by ring. rewrite (bpow_two (E - 1)) in TE. rewrite Rabs_pos_eq; lra. }
  assert (b + / 2 * U <= c) as Cb by (unfold b; lra).
  assert (- (/ 4 * U) <= s + c - b < / 2 * U) as V by lra.
  (* the first sum *)
  assert (b - / 2 * U < w) as Lw.
  { destruct (Rle_or_lt b (s + c)) as [G|G]; [pose proof (mono (s + c) b Gb G) as M; fold w in M; lra|].
    rewrite (Rabs_pos_eq (b - (s + c))) in N by lra. apply Rabs_le_inv in N.
    destruct (Rle_lt_or_eq_dec (b - / 4 * U) (s + c) ltac:(lra)) as [D|D]; [lra|].
    (* a tie *)
    destruct (Rle_or_lt (bpow r2 (E - 1)) (b - / 4 * U)) as [T|T].
    - pose proof (bpow_gt_0 r2 (E - 1)) as PE1. assert (mag r2 (s + c) = E :> Z)%Z as M. { apply mag_unique. rewrite <- D, Rabs_pos_eq by lra. split; lra. }
      assert (w = b); [|lra]. unfold w, round, F2R, scaled_mantissa, cexp, FLT_exp. cbn [Fnum Fexp]. rewrite M, Z.max_l by lia. rewrite <- D.
      assert ((b - / 4 * U) * bpow r2 (- (E - prec)) = IZR (2 * kb - 1) + / 2) as Sm.
      { assert (U * bpow r2 (- (E - prec)) = 2) as W2. { rewrite <- bpow_plus. replace (E + 1 - prec + - (E - prec))%Z with 1%Z by ring. reflexivity. }
        rewrite Kb. replace ((IZR kb * U - / 4 * U) * bpow r2 (- (E - prec))) with ((IZR kb - / 4) * (U * bpow r2 (- (E - prec)))) by ring. rewrite W2, minus_IZR, mult_IZR. lra. }
      rewrite Sm. assert (Zfloor (IZR (2 * kb - 1) + / 2) = 2 * kb - 1)%Z as Fl. { apply Zfloor_imp. rewrite (plus_IZR _ 1). lra. }
      assert (1 <= kb)%Z as K1. { apply (Zlt_le_succ 0). apply lt_IZR. apply Rmult_lt_reg_r with U; [exact PU|]. rewrite <- Kb. lra. }
      assert (choice (2 * kb - 1) = true) as C. { apply Hodd; [lia|]. rewrite Z.odd_sub, Z.odd_mul. reflexivity. }
      assert (Znearest choice (IZR (2 * kb - 1) + / 2) = 2 * kb)%Z as ->.
      { unfold Znearest. rewrite Fl. replace (IZR (2 * kb - 1) + / 2 - IZR (2 * kb - 1)) with (/ 2) by ring. rewrite Rcompare_Eq by reflexivity. rewrite C.
        rewrite Zceil_floor_neq by (rewrite Fl; lra). rewrite Fl. ring. }
      rewrite mult_IZR, HU, Kb. lra.
    - assert (Fm (b - / 4 * U)) as G4.
      { assert (bpow r2 (E - prec - 1) = / 4 * U) as HU4. { replace (E - prec)%Z with (E - prec - 1 + 1)%Z in HU by ring. rewrite bpow_two in HU. lra. }
        apply (scaled _ (4 * kb - 1) (E - prec - 1)); [|lia|].
        - rewrite minus_IZR, mult_IZR, HU4, Kb. lra.
        - replace (E - prec - 1 + prec)%Z with (E - 1)%Z by ring. apply Rabs_le. pose proof (bpow_two (E - 1)) as TE1. replace (E - 1 + 1)%Z with E in TE1 by ring. lra. }
      assert (w = b - / 4 * U); [|lra]. unfold w. rewrite <- D. apply round_generic; [apply valid_rnd_N|exact G4]. }
  split. { replace (w + a) with (MX + (w - b)) by (unfold b; ring). apply near_max. apply Rabs_lt. lra. }
  split. { apply round_generic; [apply valid_rnd_N|]. replace (a - MX) with (- b) by (unfold b; ring). apply generic_format_opp, Gb. }
  replace (a - MX + c) with (c - b) by (unfold b; ring).
  (* the second half *)
  assert (b = 0 \/ U <= b) as BU.
  { destruct (Req_dec b 0) as [B0|B0]; [left; exact B0|right].
    assert (1 <= kb)%Z as K1. { apply (Zlt_le_succ 0). apply lt_IZR. apply Rmult_lt_reg_r with U; [exact PU|]. rewrite <- Kb. lra. }
    rewrite Kb. rewrite <- (Rmult_1_l U) at 1. apply Rmult_le_compat_r; [lra|]. apply IZR_le. exact K1. }
  assert (Fm (c - b)) as Gcb.
  { destruct BU as [B0|B0]; [rewrite B0, Rminus_0_r; exact Hc|].
    assert (E + 2 - prec <= mag r2 c)%Z as Mc. { apply mag_ge_bpow. replace (E + 2 - prec - 1)%Z with (E + 1 - prec)%Z by ring. rewrite Rabs_pos_eq; lra. }
    assert (mag r2 c <= E)%Z as Mc' by (apply mag_le_bpow; [lra|rewrite Rabs_pos_eq; lra]).
    assert (cexp r2 fexp c = mag r2 c - prec)%Z as Ce by (unfold cexp, FLT_exp; lia).
    apply (scaled _ (Ztrunc (scaled_mantissa r2 fexp c) - kb * 2 ^ (E + 1 - prec - cexp r2 fexp c)) (cexp r2 fexp c)).
    - rewrite minus_IZR, Rmult_minus_distr_r, mult_IZR. f_equal; [exact Hc|]. change 2%Z with (Zaux.radix_val r2) at 1. rewrite IZR_Zpower by lia.
      rewrite Rmult_assoc, <- bpow_plus. replace (E + 1 - prec - cexp r2 fexp c + cexp r2 fexp c)%Z with (E + 1 - prec)%Z by ring. exact Kb.
    - rewrite Ce. lia.
    - rewrite Ce. replace (mag r2 c - prec + prec)%Z with (mag r2 c + 0)%Z by ring. rewrite Z.add_0_r. apply Rle_trans with (2 * U); [rewrite Rabs_pos_eq; lra|].
      rewrite <- bpow_two. apply bpow_le. lia. }
  split. { apply round_generic; [apply valid_rnd_N|exact Gcb]. }
  split. { rewrite Rabs_pos_eq; lra. }
  replace (c - b + s) with (s + c - b) by ring.
  assert (U <= b -> s + c - b <= / 2 * U - u * U) as V2.
  { intro BU'. pose proof (nearest_point (s + c) _ Gb2) as N2. fold w in N2. rewrite (Rabs_pos_eq (b + / 2 * U - (s + c))) in N2 by lra. apply Rabs_le_inv in N2.
    assert (w <= b + / 2 * U - 2 * (u * U)) as G; [|lra].
    destruct (Rle_or_lt U w) as [L|L]; [|assert (u * U <= / 16 * U) by (apply Rmult_le_compat_r; lra); lra].
    set (g := (E + 1 - prec + 1 - prec)%Z).
    assert (bpow r2 g = 2 * (u * U)) as Hg. { unfold g. rewrite <- bpow_plus, <- bpow_two. f_equal. ring. }
    destruct (as_multiple w g (RN_format emin prec choice ltac:(lia) _) ltac:(lia)) as [kw Kw]. { unfold g. replace (E + 1 - prec + 1 - prec + prec - 1)%Z with (E + 1 - prec)%Z by ring. rewrite Rabs_pos_eq; lra. }
    destruct (as_multiple _ g Gb2 ltac:(lia)) as [k2 K2]. { unfold g. replace (E + 1 - prec + 1 - prec + prec - 1)%Z with (E + 1 - prec)%Z by ring. rewrite Rabs_pos_eq; lra. }
    assert (kw < k2)%Z as Kl. { apply lt_IZR. apply Rmult_lt_reg_r with (bpow r2 g); [apply bpow_gt_0|]. rewrite <- Kw, <- K2. exact Hw'. }
    rewrite <- Hg, K2, Kw. replace (IZR k2 * bpow r2 g - bpow r2 g) with (IZR (k2 - 1) * bpow r2 g) by (rewrite minus_IZR; ring).
    apply Rmult_le_compat_r; [apply bpow_ge_0|]. apply IZR_le. lia. }
  assert (b = 0 -> RN (s + c - b) < / 2 * U) as V3. { intro B0. rewrite B0, Rminus_0_r. fold w. lra. }
  set (v := s + c - b) in *.
  assert (Rabs (RN v) < / 2 * U) as B1.
  { apply Rabs_lt. split.
    - apply Rlt_le_trans with (- (/ 4 * U)); [lra|]. apply mono; [|lra]. apply generic_format_opp.
      replace (/ 4 * U) with (bpow r2 (E - prec - 1)); [apply generic_format_bpow; unfold FLT_exp; lia|].
      replace (E - prec)%Z with (E - prec - 1 + 1)%Z in HU by ring. rewrite bpow_two in HU. lra.
    - destruct BU as [B0|B0]; [exact (V3 B0)|]. specialize (V2 B0). apply Rle_lt_trans with (/ 2 * U - u * U); [|pose proof (Rmult_lt_0_compat _ _ U0 PU); lra]. apply mono'; [|exact V2].
      assert (bpow r2 (E - prec + 1 - prec) = u * U) as Hg. { rewrite <- bpow_plus. f_equal. ring. }
      apply (scaled _ (2 ^ (prec - 1) - 1) (E - prec + 1 - prec)); [|lia|].
      + rewrite minus_IZR. replace (IZR (2 ^ (prec - 1))) with (bpow r2 (prec - 1)) by (rewrite <- IZR_Zpower by lia; reflexivity).
        rewrite <- Hg, <- HU, Rmult_minus_distr_r, Rmult_1_l. f_equal. rewrite <- bpow_plus. f_equal. ring.
      + replace (E - prec + 1 - prec + prec)%Z with (E - prec + 1)%Z by ring. rewrite bpow_two, HU. pose proof (Rmult_lt_0_compat _ _ U0 PU).
        assert (u * U <= / 16 * U) by (apply Rmult_le_compat_r; lra). rewrite Rabs_pos_eq; lra. }
  split; [exact B1|].
  assert (Rabs (RN v - v) <= u * Rabs v) as Ev.
  { replace v with ((c - b) + s) by (unfold v; ring).
    apply Rle_trans with (u / (1 + u) * Rabs ((c - b) + s)); [apply (sum_rel emin prec choice); [lia|exact Gcb|apply RN_format; lia]|].
    apply Rmult_le_compat_r; [apply Rabs_pos|]. unfold Rdiv. rewrite <- (Rmult_1_r u) at 3. apply Rmult_le_compat_l; [lra|]. rewrite <- Rinv_1 at 2. apply Rinv_le; lra. }
  assert (Rabs v <= / 2 * U) as Bv by (apply Rabs_le; lra).
  assert (u * Rabs v <= u * (/ 2 * U)) as Ev' by (apply Rmult_le_compat_l; lra).
  assert (u * Rabs (aa + cc) <= u * U) as Es2 by (apply Rmult_le_compat_l; lra).
  replace (MX + RN v - (a + aa + (c + cc))) with ((RN v - v) + (s - (aa + cc))) by (unfold v, b; ring).
  apply Rle_trans with (1 := Rabs_triang _ _). apply Rle_trans with (u * (/ 2 * U) + u * U).
  { apply Rplus_le_compat; [lra|]. apply Rabs_le. lra. }
  rewrite !Rabs_pos_eq by lra.
  replace (u * (/ 2 * U) + u * U) with (u * (3 / 2 * U)) by lra. replace (4 * (u * u) * (a + c)) with (u * (u * (4 * (a + c)))) by ring.
  apply Rmult_le_compat_l; [lra|]. apply Rle_trans with (u * (4 * MX)); [|apply Rmult_le_compat_l; lra].
  replace (u * (4 * MX)) with (4 * (u * bpow r2 (E + 1)) - 4 * (u * U)) by ring. rewrite <- US.
  assert (u * U <= / 16 * U) by (apply Rmult_le_compat_r; lra). lra.
Qed.

(** the largest number less a rounded sum with it *)
Lemma max_minus_pos : forall c, Fm c -> Rabs c <= MX -> RN (MX + c) <= MX -> Fm (MX - RN (MX + c)).
Proof.
  intros c Hc B L. pose proof U_small as S. pose proof U_pos as P. apply Rabs_le_inv in B. pose proof MX_format as GM.
  assert (Monotone_exp fexp) as MO by (apply FLT_exp_monotone). assert (Valid_exp fexp) as VE by (apply FLT_exp_valid; exact top_prec).
  assert (Fm (/ 2 * MX)) as GH.
  { apply (scaled _ (2 ^ prec - 1) (E - prec)); [|lia|].
    - rewrite <- MX_units. replace (E + 1 - prec)%Z with (E - prec + 1)%Z by ring. rewrite bpow_two. lra.
    - replace (E - prec + prec)%Z with E by ring. pose proof (bpow_two E). rewrite Rabs_pos_eq; lra. }
  destruct (Rle_or_lt 0 c) as [C|C].
  - assert (MX <= RN (MX + c)) by (apply mono; [exact GM|lra]). replace (MX - RN (MX + c)) with 0 by lra. apply generic_format_0.
  - destruct (Rle_or_lt (/ 2 * MX) (- c)) as [D|D].
    + assert (Fm (MX + c)) as G. { replace (MX + c) with (MX - - c) by ring. apply sterbenz; [exact VE|exact MO|exact GM|apply generic_format_opp, Hc|lra]. }
      rewrite round_generic; [|apply valid_rnd_N|exact G]. replace (MX - (MX + c)) with (- c) by ring. apply generic_format_opp, Hc.
    + assert (/ 2 * MX <= RN (MX + c)) by (apply mono; [exact GH|lra]).
      apply sterbenz; [exact VE|exact MO|exact GM|apply RN_format; lia|lra].
Qed.

(** both signs *)
Hypothesis Hsym : forall x, choice x = negb (choice (- (x + 1))%Z).
Lemma in_range : forall x, Rabs (RN x) <= MX -> Rabs x < MX + / 2 * U.
Proof.
  intros x H. apply Rnot_le_lt. intro L. pose proof U_pos. apply Rabs_le_inv in H. unfold Rabs in L. destruct Rcase_abs in L.
  - pose proof (over_max (- x) L) as O. rewrite RN_opp in O by assumption. lra.
  - pose proof (over_max x L). lra.
Qed.
Lemma max_minus : forall a c, Fm c -> Rabs a = MX -> Rabs c <= MX -> Rabs (RN (a + c)) <= MX -> Fm (a - RN (a + c)).
Proof.
  intros a c Hc A C R. pose proof U_small. pose proof U_pos. apply Rabs_le_inv in R. unfold Rabs in A. destruct (Rcase_abs a).
  - assert (RN (a + c) = - RN (MX + - c)) as Q. { rewrite <- RN_opp by assumption. f_equal. rewrite <- A. ring. }
    rewrite Q. replace (a - - RN (MX + - c)) with (- (MX - RN (MX + - c))) by (rewrite <- A at 1; ring). apply generic_format_opp.
    apply max_minus_pos; [apply generic_format_opp, Hc|rewrite Rabs_Ropp; exact C|lra].
  - rewrite A in *. apply max_minus_pos; [exact Hc|exact C|lra].
Qed.
Theorem top_signed : forall a aa c cc, Fm a -> Fm aa -> Fm c -> Fm cc -> 0 < a * c -> Rabs c <= Rabs a -> Rabs a <= MX -> Rabs c <= MX - U -> RE (a + aa) = a -> RE (c + cc) = c ->
  MX + / 2 * U <= Rabs (a + c) ->
  let s := RN (aa + cc) in let w := RN (s + c) in
  Rabs s <= U /\ Rabs w <= MX /\
  (MX + / 2 * U <= Rabs (w + a) -> MX <= Rabs (a + aa + (c + cc)) /\ 0 < (w + a) * (a + aa + (c + cc))) /\
  (Rabs (w + a) < MX + / 2 * U -> exists T, Rabs T = MX /\ RN (w + a) = T /\ RN (a - T) = a - T /\ RN (a - T + c) = a - T + c /\
     Rabs (a - T) <= MX /\ Rabs (a - T + c) <= 2 * U /\ RN (T + RN (a - T + c + s)) = T /\ Rabs (RN (a - T + c + s)) < / 2 * U /\
     Rabs (T + RN (a - T + c + s) - (a + aa + (c + cc))) <= 4 * (u * u) * (Rabs a + Rabs c)).
Proof.
  intros a aa c cc Ha Haa Hc Hcc S CA AM CM Ca Cc ZA s w. pose proof U_pos as PU. pose proof U_small as SU.
  assert (forall x, - RN x = RN (- x)) as RO by (intro; symmetry; apply RN_opp; assumption).
  destruct (Rlt_or_le 0 a) as [A0|A0].
  - assert (0 < c) as C0 by (apply Rmult_lt_reg_l with a; lra).
    rewrite !Rabs_pos_eq in * by lra. destruct (top_branch a aa c cc Ha Haa Hc Hcc (conj C0 CA) AM CM Ca Cc ZA) as [B1 [B2 [B3 B4]]]. fold s in B1, B2, B3, B4. fold w in B2, B3, B4.
    split; [exact B1|]. split; [exact B2|].
    assert (- U <= w) as W. { apply mono; [apply generic_format_opp, generic_format_bpow; unfold FLT_exp; lia|]. apply Rabs_le_inv in B1. lra. }
    assert (0 < w + a) as WA by lra. rewrite (Rabs_pos_eq (w + a)) by lra. split.
    + intros H. specialize (B3 H). rewrite Rabs_pos_eq by lra. split; [exact B3|]. apply Rmult_lt_0_compat; lra.
    + intros H. destruct (B4 H) as [D1 [D2 [D3 [D4 [D5 D6]]]]]. exists MX. split; [apply Rabs_pos_eq; lra|].
      split; [exact D1|]. split; [exact D2|]. split; [exact D3|]. split; [apply Rabs_le; lra|]. split; [exact D4|]. split; [apply near_max, D5|]. split; [exact D5|exact D6].
  - assert (a <> 0) as N0 by (intros ->; lra). assert (0 < - a) as A1 by lra. assert (0 < - c) as C0 by (apply Rmult_lt_reg_l with (- a); lra).
    rewrite (Rabs_left1 a), (Rabs_left1 c), (Rabs_left1 (a + c)) in * by lra.
    assert (forall x y, RE (x + y) = x -> RE (- x + - y) = - x) as REO. { intros x y H. replace (- x + - y) with (- (x + y)) by ring. rewrite round_NE_opp, H. reflexivity. }
    destruct (top_branch (- a) (- aa) (- c) (- cc)) as [B1 [B2 [B3 B4]]]; try (apply generic_format_opp; assumption); try (apply REO; assumption); try lra.
    replace (- aa + - cc) with (- (aa + cc)) in B1, B2, B3, B4 by ring. rewrite <- RO in B1, B2, B3, B4. fold s in B1, B2, B3, B4.
    replace (- s + - c) with (- (s + c)) in B2, B3, B4 by ring. rewrite <- RO in B2, B3, B4. fold w in B2, B3, B4. rewrite Rabs_Ropp in B1, B2.
    split; [exact B1|]. split; [exact B2|].
    assert (w <= U) as W. { apply mono'; [apply generic_format_bpow; unfold FLT_exp; lia|]. apply Rabs_le_inv in B1. lra. }
    assert (w + a < 0) as WA by lra. rewrite (Rabs_left (w + a)) by lra. split.
    + intros H. specialize (B3 ltac:(lra)). rewrite Rabs_left by lra. split; [lra|]. nra.
    + intros H. destruct (B4 ltac:(lra)) as [D1 [D2 [D3 [D4 [D5 D6]]]]]. exists (- MX).
      replace (- w + - a) with (- (w + a)) in D1 by ring. replace (- a - MX + - c + - s) with (- (a - - MX + c + s)) in D5, D6 by ring.
      replace (- a - MX + - c) with (- (a - - MX + c)) in D3, D4 by ring. replace (- a - MX) with (- (a - - MX)) in D2 by ring.
      rewrite <- RO in D1, D2, D3, D5, D6. rewrite Rabs_Ropp in D4, D5. rewrite !Rabs_Ropp in D6.
      split; [rewrite Rabs_Ropp; apply Rabs_pos_eq; lra|]. split; [lra|]. split; [lra|]. split; [lra|]. split; [apply Rabs_le; lra|]. split; [exact D4|]. split.
      * pose proof (near_max (- RN (a - - MX + c + s)) ltac:(rewrite Rabs_Ropp; exact D5)) as N.
        replace (MX + - RN (a - - MX + c + s)) with (- (- MX + RN (a - - MX + c + s))) in N by ring. rewrite <- RO in N. lra.
      * split; [exact D5|]. replace (- MX + RN (a - - MX + c + s) - (a + aa + (c + cc))) with (- (MX + - RN (a - - MX + c + s) - (- a + - aa + (- c + - cc)))) by ring. rewrite Rabs_Ropp.
        rewrite (Rabs_left1 a), (Rabs_left1 c) in D6 by lra. exact D6.
Qed.
End Top.
