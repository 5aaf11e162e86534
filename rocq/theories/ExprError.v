(** * ExprError.v -- how far the value of an expression is from the number it denotes *)
From Coq Require Import ZArith Reals List Bool Lia Lra Psatz.
From Flocq Require Import Core Plus_error Relative.
From Verif Require Import Machine Ieee Spec Norm Arith Special Int Algebra Laws Total Reach Eft Flocq754 SpecPrograms SpecExpr Expr Sum.
Import ListNotations.
Local Open Scope Z_scope.
Ltac Zify.zify_post_hook ::= idtac.

Section ExprError.
Variable S : Semantics.
Hypothesis HS : sem_ok S.
Local Instance PG : Prec_gt_0 (PRECISION S).
Proof. unfold Prec_gt_0. destruct (ok_prec S HS). lia. Qed.
Lemma slack_pos : forall m, (0 < slack S m)%R.
Proof. intros m. assert (0 < min_positive S)%R by apply bpow_gt_0. destruct m; cbn; lra. Qed.
(** one rounding in the normal range, *)
Lemma normal_error : forall m v, (min_normal S <= Rabs v)%R -> (Rabs (rounded S m v - v) <= roundoff S m * Rabs v)%R.
Proof.
  intros m v L. assert (L' : (bpow r2 (MIN_EXP S - (PRECISION S - 1) + PRECISION S - 1) <= Rabs v)%R).
  { eapply Rle_trans; [|exact L]. apply bpow_le. lia. }
  assert (HALF : (/ 2 * bpow r2 (- PRECISION S + 1) = bpow r2 (- PRECISION S))%R).
  { rewrite bpow_plus_1. change (IZR r2) with 2%R. field. }
  assert (ONE : 1 - PRECISION S = - PRECISION S + 1) by ring.
  unfold rounded, roundoff, rnd_of, fexp. destruct m.
  + rewrite <- HALF. apply relative_error_N_FLT; [exact PG|exact L'].
  + left. rewrite ONE. apply relative_error_FLT; [exact PG|apply valid_rnd_UP|exact L'].
  + left. rewrite ONE. apply relative_error_FLT; [exact PG|apply valid_rnd_DN|exact L'].
  + left. rewrite ONE. apply relative_error_FLT; [exact PG|apply valid_rnd_ZR|exact L'].
  + rewrite <- HALF. apply relative_error_N_FLT; [exact PG|exact L'].
Qed.
(** and anywhere *)
Lemma round_error : forall m v, (Rabs (rounded S m v - v) <= roundoff S m * Rabs v + slack S m)%R.
Proof.
  intros m v. pose proof (roundoff_pos S m) as RP. pose proof (slack_pos m) as SP. pose proof (Rabs_pos v) as AP.
  destruct (Rle_lt_dec (min_normal S) (Rabs v)) as [L|L].
  - pose proof (normal_error m v L). lra.
  - assert (U : ulp r2 (fexp S) v = min_positive S).
    { unfold fexp. rewrite ulp_FLT_small; [reflexivity|exact PG|]. eapply Rlt_le_trans; [exact L|]. apply bpow_le. lia. }
    assert (N : forall c, (Rabs (round r2 (fexp S) (Znearest c) v - v) <= min_positive S / 2)%R).
    { intros c. eapply Rle_trans; [apply error_le_half_ulp; unfold fexp; apply FLT_exp_valid; exact PG|]. rewrite U. lra. }
    assert (D : forall r, Valid_rnd r -> (Rabs (round r2 (fexp S) r v - v) <= min_positive S)%R).
    { intros r V. eapply Rle_trans; [apply error_le_ulp; [unfold fexp; apply FLT_exp_valid; exact PG|exact V]|]. rewrite U. lra. }
    apply Rle_trans with (slack S m); [|nra].
    unfold rounded, slack, rnd_of. destruct m; try apply N; apply D; [apply valid_rnd_UP|apply valid_rnd_DN|apply valid_rnd_ZR].
Qed.
(** an integer is never below the normal range *)
Lemma integer_error : forall m n, (Rabs (rounded S m (IZR n) - IZR n) <= roundoff S m * Rabs (IZR n))%R.
Proof.
  intros m n. destruct (Z.eq_dec n 0) as [->|N].
  - rewrite rounded_format by apply generic_format_0. replace (0 - 0)%R with 0%R by ring. rewrite Rabs_R0. lra.
  - apply normal_error. apply Rle_trans with 1%R.
    + change 1%R with (bpow r2 0). apply bpow_le. destruct (ok_min S HS). lia.
    + rewrite <- abs_IZR. apply IZR_le. lia.
Qed.
(** an operation on inexact operands *)
Lemma carried_error : forall o x y x' y' ex ey, (Rabs (x' - x) <= ex)%R -> (Rabs (y' - y) <= ey)%R ->
  (o = Div -> ey < Rabs y)%R -> (Rabs (real_op o x' y' - real_op o x y) <= carried o x y ex ey)%R.
Proof.
  intros o x y x' y' ex ey X Y D. destruct o; cbn [real_op carried].
  - replace (x' + y' - (x + y))%R with ((x' - x) + (y' - y))%R by ring. eapply Rle_trans; [apply Rabs_triang|]. lra.
  - replace (x' - y' - (x - y))%R with ((x' - x) - (y' - y))%R by ring. eapply Rle_trans; [apply Rabs_triang|]. rewrite Rabs_Ropp. lra.
  - replace (x' * y' - x * y)%R with (x * (y' - y) + y * (x' - x) + (x' - x) * (y' - y))%R by ring.
    eapply Rle_trans; [apply Rabs_triang|]. pose proof (Rabs_triang (x * (y' - y)) (y * (x' - x))) as T. rewrite !Rabs_mult in *.
    pose proof (Rabs_pos x). pose proof (Rabs_pos y). pose proof (Rabs_pos (x' - x)). pose proof (Rabs_pos (y' - y)).
    assert (Rabs (x' - x) * Rabs (y' - y) <= ex * ey)%R by (apply Rmult_le_compat; assumption). nra.
  - specialize (D eq_refl). assert (LY : (Rabs y - ey <= Rabs y')%R).
    { replace y with (y' - (y' - y))%R at 1 by ring. pose proof (Rabs_triang y' (- (y' - y))) as T. rewrite Rabs_Ropp in T.
      replace (y' + - (y' - y))%R with (y' - (y' - y))%R in T by ring. lra. }
    pose proof (Rabs_pos (y' - y)) as P0.
    assert (NY : y <> 0%R) by (intros ->; rewrite Rabs_R0 in D; lra).
    assert (NY' : y' <> 0%R) by (intros ->; rewrite Rabs_R0 in LY; lra).
    replace (x' / y' - x / y)%R with (((x' - x) * y - x * (y' - y)) / (y * y'))%R by (field; split; assumption).
    unfold Rdiv. rewrite Rabs_mult, Rabs_inv, Rabs_mult. apply Rmult_le_compat.
    + apply Rabs_pos.
    + left. apply Rinv_0_lt_compat. apply Rmult_lt_0_compat; apply Rabs_pos_lt; assumption.
    + eapply Rle_trans; [apply Rabs_triang|]. rewrite Rabs_Ropp, !Rabs_mult. pose proof (Rabs_pos x). pose proof (Rabs_pos y). nra.
    + apply Rinv_le; [apply Rmult_lt_0_compat; lra|]. apply Rmult_le_compat_l; [apply Rabs_pos|exact LY].
Qed.
Lemma op_error : forall o m x y, wf S x -> wf S y -> 
  let v := real_op o (value S x) (value S y) in (Rabs (rounded S m v - v) <= roundoff S m * Rabs v + own_slack S o m)%R.
Proof.
  intros o m x y Wx Wy v. destruct o; cbn [own_slack real_op] in *; try (apply round_error).
  - rewrite Rplus_0_r. apply sum_error; auto using value_format.
  - rewrite Rplus_0_r. subst v. unfold Rminus. apply (sum_error S HS); [apply value_format; assumption|].
    apply generic_format_opp, value_format; assumption.
Qed.
Lemma op_delivers : forall o m x y, wf S x -> wf S y -> finite x -> finite y -> (o = Div -> category y = Normal) ->
  (Rabs (rounded S m (real_op o (value S x) (value S y))) <= max_finite S)%R ->
  exists st f, op_r o S m x y = Ret (st, f) /\ wf S f /\ finite f /\ ~ trouble st /\ value S f = rounded S m (real_op o (value S x) (value S y)).
Proof.
  intros o m x y Wx Wy Fx Fy N L. destruct (op_flags o S m x y HS Wx Wy Fx Fy N) as [st [f [E K]]].
  set (v := real_op o (value S x) (value S y)) in *.
  assert (D : exists pol zs res, op_r o S m x y = Ret res /\ delivers pol S m v zs res).
  { subst v. destruct o; cbn [op_r real_op].
    - destruct (add_r_spec S x y m HS Wx Wy Fx Fy) as [res [E' D]]. eexists _, _, res. exact (conj E' D).
    - destruct (sub_r_spec S x y m HS Wx Wy Fx Fy) as [res [E' D]]. eexists _, _, res. exact (conj E' D).
    - destruct (mul_r_crate S x y m HS Wx Wy Fx Fy) as [res [E' D]]. eexists _, _, res. exact (conj E' D).
    - destruct (div_r_crate S x y m HS Wx Wy Fx (N eq_refl)) as [res [E' D]]. eexists _, _, res. exact (conj E' D). }
  destruct D as [pol [zs [[st' f'] [E' [W' [_ [D _]]]]]]]. destruct (D L) as [F' [V' _]].
  assert (Q : st' = st /\ f' = f) by (split; congruence). destruct Q as [-> ->]. exists st, f. split; [exact E|]. split; [exact W'|].
  split; [exact F'|]. split; [|exact V']. destruct K as [_ [_ [_ [K4 [_ [K5 K6]]]]]]. intros [T|[T|T]]; [|exact (K5 T)|exact (K6 T)].
  apply K4 in T. exact (T F').
Qed.

(** *** Dot products *)
Section Dot.
Variables (m : Round) (env : nat -> R).
Let u := roundoff S m.
Let g := (1 + u)%R.
Let eta := slack S m.
Lemma g_gt_1 : (1 < g)%R.
Proof. unfold g. pose proof (roundoff_pos S m) as P. fold u in P. lra. Qed.
Lemma products_pos : forall xs, (0 <= products (absolute env) xs)%R.
Proof. induction xs as [|[i j] xs IH]; cbn [products]; [lra|]. unfold absolute at 1 2. pose proof (Rabs_pos (env i)). pose proof (Rabs_pos (env j)). nra. Qed.
Lemma dot_exact : forall xs acc, exact env (dot m acc xs) = (exact env acc + products env xs)%R.
Proof. induction xs as [|[i j] xs IH]; intros acc; cbn [dot products]; [lra|]. rewrite IH. cbn [exact real_op]. ring. Qed.
Lemma dot_numerals : forall xs acc, numerals_ok acc -> numerals_ok (dot m acc xs).
Proof. induction xs as [|[i j] xs IH]; intros acc N; cbn [dot]; [exact N|]. apply IH. cbn. tauto. Qed.
Lemma dot_error : forall xs acc P G H, (Rabs (exact env acc) <= P)%R -> (error S env acc <= (G - 1) * P + H)%R -> (g <= G)%R -> (0 <= H)%R ->
  in_bounds S env acc ->
  (g ^ length xs * G * (P + products (absolute env) xs) + g ^ length xs * (H + INR (length xs) * eta) <= max_finite S)%R ->
  in_bounds S env (dot m acc xs) /\
  (error S env (dot m acc xs) <= (g ^ length xs * G - 1) * (P + products (absolute env) xs) + g ^ length xs * (H + INR (length xs) * eta))%R.
Proof.
  pose proof g_gt_1 as G1. pose proof (roundoff_pos S m) as U0. fold u in U0. assert (E0 : (0 < eta)%R) by apply slack_pos.
  induction xs as [|[i j] xs IH]; intros acc P G H HP HE HG HH IB L; cbn [dot].
  - cbn [length pow products INR] in *. split; [exact IB|]. lra.
  - cbn [products] in *. unfold absolute at 1 2 in L. unfold absolute at 1 2. pose proof (products_pos xs) as PP. set (T := products (absolute env) xs) in *.
    change (length ((i, j) :: xs)) with (Datatypes.S (length xs)) in *. rewrite S_INR in *. cbn [pow] in *. set (n := INR (length xs)) in *.
    assert (N0 : (0 <= n)%R) by apply pos_INR. set (gn := (g ^ length xs)%R) in *. assert (GN : (1 <= gn)%R) by (apply pow_R1_Rle; lra).
    assert (P0 : (0 <= P)%R) by (pose proof (Rabs_pos (exact env acc)); lra).
    rewrite <- Rabs_mult in *. set (q := Rabs (env i * env j)) in *. assert (Q0 : (0 <= q)%R) by apply Rabs_pos.
    set (acc' := Op Add m acc (Op Mul m (Var i) (Var j))).
    assert (EP : (error S env (Op Mul m (Var i) (Var j)) = u * q + eta)%R).
    { cbn [error carried own_slack exact real_op]. fold u eta q. rewrite !Rmult_0_r. ring. }
    assert (A1 : (Rabs (exact env acc') <= P + q)%R).
    { unfold acc'. cbn [exact real_op]. eapply Rle_trans; [apply Rabs_triang|]. fold q. lra. }
    assert (EE : (error S env acc' = (error S env acc + (u * q + eta)) + (u * (Rabs (exact env acc') + (error S env acc + (u * q + eta))) + 0))%R).
    { rewrite <- EP. reflexivity. }
    assert (A2 : (error S env acc' <= (g * G - 1) * (P + q) + g * (H + eta))%R).
    { rewrite EE. assert (K : (u * Rabs (exact env acc') <= u * (P + q))%R) by (apply Rmult_le_compat_l; lra).
      assert (K2 : ((1 + u) * (error S env acc + (u * q + eta)) <= (1 + u) * ((G - 1) * P + H + (u * q + eta)))%R) by (apply Rmult_le_compat_l; lra).
      assert (K3 : (0 <= (G - g) * q)%R) by (apply Rmult_le_pos; lra). assert (K4 : (0 <= u * ((G - g) * q))%R) by (apply Rmult_le_pos; lra).
      unfold g in *. nra. }
    assert (A3 : ((g * G) * (P + q) + g * (H + eta) <= max_finite S)%R).
    { eapply Rle_trans; [|exact L]. assert (GG : (0 <= g * G)%R) by (apply Rmult_le_pos; lra).
      assert (K1 : (g * G * (P + q) <= gn * (g * G * (P + q)))%R).
      { assert (0 <= g * G * (P + q))%R by (apply Rmult_le_pos; lra). nra. }
      assert (K2 : (g * (H + eta) <= gn * (g * (H + eta)))%R).
      { assert (0 <= g * (H + eta))%R by (apply Rmult_le_pos; lra). nra. }
      assert (K3 : (0 <= gn * (g * G * T))%R) by (apply Rmult_le_pos; [lra|apply Rmult_le_pos; lra]).
      assert (K4 : (0 <= gn * (g * (n * eta)))%R) by (apply Rmult_le_pos; [lra|apply Rmult_le_pos; [lra|apply Rmult_le_pos; lra]]). lra. }
    destruct (IH acc' (P + q)%R (g * G)%R (g * (H + eta))%R) as [IB2 E2].
    + exact A1.
    + exact A2.
    + assert (0 <= g * (G - 1))%R by (apply Rmult_le_pos; lra). lra.
    + apply Rmult_le_pos; lra.
    + unfold acc'. cbn [in_bounds]. fold acc'. split; [exact IB|]. split.
      * split; [exact I|]. split; [exact I|]. split; [discriminate|]. rewrite EP. cbn [exact real_op]. fold q.
        eapply Rle_trans; [|exact A3]. assert (K1 : (0 <= g * (G - 1) * q)%R) by (apply Rmult_le_pos; [apply Rmult_le_pos; lra|lra]).
        assert (K2 : (0 <= g * G * P)%R) by (apply Rmult_le_pos; [apply Rmult_le_pos; lra|lra]). assert (K3 : (0 <= g * H)%R) by (apply Rmult_le_pos; lra).
        unfold g in *. nra.
      * split; [discriminate|]. lra.
    + eapply Rle_trans; [|exact L].
      assert (K : (gn * (n * eta) <= g * (gn * (n * eta)))%R).
      { assert (0 <= gn * (n * eta))%R by (apply Rmult_le_pos; [lra|apply Rmult_le_pos; lra]). nra. }
      unfold T in *. lra.
    + split; [exact IB2|]. eapply Rle_trans; [exact E2|].
      assert (K : (gn * (n * eta) <= g * (gn * (n * eta)))%R).
      { assert (0 <= gn * (n * eta))%R by (apply Rmult_le_pos; [lra|apply Rmult_le_pos; lra]). nra. }
      unfold T in *. lra.
Qed.
(** *** Polynomials *)
Lemma horner_exact : forall x cs acc, exact env (horner m x acc cs) = polynomial env x (exact env acc) cs.
Proof.
  intros x. assert (SH : forall cs a b, (polynomial env x (a + b) cs = a * env x ^ length cs + polynomial env x b cs)%R).
  { intros [|c cs] a b; cbn [polynomial length pow]; ring. }
  induction cs as [|c cs IH]; intros acc; cbn [horner polynomial]; [reflexivity|]. rewrite IH. cbn [exact real_op length pow]. rewrite SH. ring.
Qed.
Lemma horner_error : forall x cs acc P G H, (Rabs (exact env acc) <= P)%R -> (error S env acc <= (G - 1) * P + H)%R -> (1 <= G)%R -> (0 <= H)%R ->
  (error S env (horner m x acc cs) <= (g ^ (2 * length cs) * G - 1) * polynomial (absolute env) x P cs +
    (geometric (g * eta) (g * g * Rabs (env x)) (length cs) + (g * g * Rabs (env x)) ^ length cs * H))%R.
Proof.
  pose proof g_gt_1 as G1. pose proof (roundoff_pos S m) as U0. fold u in U0. assert (E0 : (0 < eta)%R) by apply slack_pos.
  intros x. assert (X0 : (0 <= Rabs (env x))%R) by apply Rabs_pos. set (X := Rabs (env x)) in *.
  assert (SH : forall cs a b, (polynomial (absolute env) x (a + b) cs = a * X ^ length cs + polynomial (absolute env) x b cs)%R).
  { intros [|c cs] a b; cbn [polynomial]; change (absolute env x) with X; [cbn; ring|ring]. }
  assert (GS : forall h q n, (geometric h q n + q ^ n * h = geometric h q (Datatypes.S n))%R).
  { intros h q n. induction n as [|n IHn]; [cbn; ring|]. cbn [geometric pow] in *. set (w := geometric h q n) in *. assert (K : (q * (w + q ^ n * h) = q * (h + q * w))%R) by (rewrite IHn; reflexivity). lra. }
  induction cs as [|c cs IH]; intros acc P G H HP HE HG HH.
  - cbn [horner length Nat.mul pow polynomial geometric]. rewrite Rmult_1_l, Rmult_1_l, Rplus_0_l. exact HE.
  - cbn [horner]. set (acc1 := Op Mul m acc (Var x)). set (acc2 := Op Add m acc1 (Var c)). set (C := Rabs (env c)).
    assert (C0 : (0 <= C)%R) by apply Rabs_pos. assert (P0 : (0 <= P)%R) by (pose proof (Rabs_pos (exact env acc)); lra).
    assert (XP : (0 <= X * P)%R) by (apply Rmult_le_pos; assumption). assert (XH : (0 <= X * H)%R) by (apply Rmult_le_pos; assumption).
    assert (A1 : (Rabs (exact env acc1) <= X * P)%R).
    { unfold acc1. cbn [exact real_op]. rewrite Rabs_mult. fold X. rewrite Rmult_comm. apply Rmult_le_compat_l; assumption. }
    assert (A2 : (Rabs (exact env acc2) <= X * P + C)%R).
    { unfold acc2. cbn [exact real_op]. eapply Rle_trans; [apply Rabs_triang|]. fold C. change (Rabs (exact env acc1) + C <= X * P + C)%R. lra. }
    assert (E1 : (error S env acc1 <= (g * G - 1) * (X * P) + (g * (X * H) + eta))%R).
    { assert (EE : (error S env acc1 = X * error S env acc + (u * (Rabs (exact env acc1) + X * error S env acc) + eta))%R).
      { unfold acc1 at 1. cbn [error carried own_slack]. cbn [error]. change (exact env (Op Mul m acc (Var x))) with (exact env acc1).
        change (exact env (Var x)) with (env x). fold X u eta. rewrite !Rmult_0_r, Rplus_0_l, Rplus_0_r. reflexivity. }
      rewrite EE. assert (K1 : (X * error S env acc <= X * ((G - 1) * P + H))%R) by (apply Rmult_le_compat_l; assumption).
      assert (K2 : ((1 + u) * (X * error S env acc) <= (1 + u) * (X * ((G - 1) * P + H)))%R) by (apply Rmult_le_compat_l; lra).
      assert (K3 : (u * Rabs (exact env acc1) <= u * (X * P))%R) by (apply Rmult_le_compat_l; lra).
      unfold g. lra. }
    assert (E2 : (error S env acc2 <= (g * g * G - 1) * (X * P + C) + (g * g * X * H + g * eta))%R).
    { assert (EE : (error S env acc2 = error S env acc1 + (u * (Rabs (exact env acc2) + error S env acc1) + 0))%R).
      { unfold acc2 at 1. cbn [error carried own_slack]. cbn [error]. change (exact env (Op Add m acc1 (Var c))) with (exact env acc2). rewrite Rplus_0_r. reflexivity. }
      rewrite EE. assert (K1 : ((1 + u) * error S env acc1 <= (1 + u) * ((g * G - 1) * (X * P) + (g * (X * H) + eta)))%R) by (apply Rmult_le_compat_l; lra).
      assert (K2 : (u * Rabs (exact env acc2) <= u * (X * P + C))%R) by (apply Rmult_le_compat_l; lra).
      assert (K3 : (0 <= g * g * (G - 1) * C)%R) by (apply Rmult_le_pos; [apply Rmult_le_pos; [apply Rmult_le_pos|]; lra|lra]).
      assert (K4 : (0 <= u * u * C)%R) by (apply Rmult_le_pos; [apply Rmult_le_pos|]; lra). assert (K5 : (0 <= u * C)%R) by (apply Rmult_le_pos; lra).
      unfold g in *. lra. }
    eapply Rle_trans; [apply (IH acc2 (X * P + C) (g * g * G) (g * g * X * H + g * eta))%R|].
    + exact A2.
    + exact E2.
    + assert (1 <= g * g)%R by nra. nra.
    + assert (0 <= g * g * X * H)%R by (apply Rmult_le_pos; [apply Rmult_le_pos; [apply Rmult_le_pos|]; lra|lra]). assert (0 <= g * eta)%R by (apply Rmult_le_pos; lra). lra.
    + rewrite SH. cbn [polynomial]. change (absolute env x) with X. change (absolute env c) with C.
      change (length (c :: cs)) with (Datatypes.S (length cs)). rewrite <- GS.
      replace (2 * Datatypes.S (length cs))%nat with (Datatypes.S (Datatypes.S (2 * length cs))) by lia. cbn [pow]. apply Req_le. ring.
Qed.
End Dot.

Variable env : nat -> Float.
Hypothesis W : forall i, wf S (env i).
Hypothesis F : forall i, finite (env i).
Let val := fun i => value S (env i).
Lemma eval_error : forall e, numerals_ok e -> in_bounds S val e ->
  exists st f, c_eval S env e = Ret (st, f) /\ wf S f /\ finite f /\ ~ trouble st /\
    (Rabs (value S f - exact val e) <= error S val e)%R.
Proof.
  induction e as [i|n m|e IH|o m a IHa b IHb]; intros NO B.
  - cbn [c_eval exact error]. exists OK, (env i). split; [reflexivity|]. split; [apply W|]. split; [apply F|].
    split; [unfold trouble, raised, OK; rewrite !Z.land_0_l; tauto|]. subst val. cbn. rewrite Rminus_eq_0, Rabs_R0. lra.
  - cbn [c_eval exact error in_bounds] in *. destruct (from_i128_r_spec S n m HS NO) as [[st f] [E D]]. destruct (from_i128_r_flags S n m HS NO) as [st' [f' [E' K]]].
    assert (Q : st' = st /\ f' = f) by (split; congruence). destruct Q as [-> ->].
    pose proof (integer_error m n) as IE.
    assert (L : (Rabs (rounded S m (IZR n)) <= max_finite S)%R).
    { replace (rounded S m (IZR n)) with ((rounded S m (IZR n) - IZR n) + IZR n)%R by ring. eapply Rle_trans; [apply Rabs_triang|]. lra. }
    destruct D as [Wf [_ [D _]]]. destruct (D L) as [Ff [Vf _]]. exists st, f. split; [exact E|]. split; [exact Wf|]. split; [exact Ff|].
    split; [|rewrite Vf; exact IE]. destruct K as [_ [_ [_ [K4 [_ [K5 K6]]]]]]. intros [T|[T|T]]; [|exact (K5 T)|exact (K6 T)].
    apply K4 in T. exact (T Ff).
  - cbn [c_eval exact error in_bounds] in *. destruct (IH NO B) as [st [f [E [Wf [Ff [NT V]]]]]]. rewrite E. cbn [bind]. exists st, (neg f).
    split; [reflexivity|]. split; [exact Wf|]. split; [exact Ff|]. split; [exact NT|]. rewrite value_neg.
    replace (- value S f - - exact val e)%R with (- (value S f - exact val e))%R by ring. rewrite Rabs_Ropp. exact V.
  - destruct NO as [Na Nb]. destruct B as [Ba [Bb [BD BL]]].
    destruct (IHa Na Ba) as [sa [x [Ea [Wx [Fx [Tx Vx]]]]]]. destruct (IHb Nb Bb) as [sb [y [Eb [Wy [Fy [Ty Vy]]]]]].
    cbn [c_eval]. rewrite Ea, Eb. cbn [bind].
    pose proof (carried_error o _ _ _ _ _ _ Vx Vy BD) as CE. pose proof (op_error o m x y Wx Wy) as OE. cbv zeta in OE.
    cbn [error] in *. set (ex := exact val (Op o m a b)) in *. change (real_op o (exact val a) (exact val b)) with ex in CE.
    set (d := carried o (exact val a) (exact val b) (error S val a) (error S val b)) in *. cbv zeta in BL |- *.
    set (v := real_op o (value S x) (value S y)) in *. pose proof (roundoff_pos S m) as RP.
    assert (AV : (Rabs v <= Rabs ex + d)%R).
    { replace v with ((v - ex) + ex)%R by ring. eapply Rle_trans; [apply Rabs_triang|]. lra. }
    assert (TE : (Rabs (rounded S m v - ex) <= d + (roundoff S m * (Rabs ex + d) + own_slack S o m))%R).
    { replace (rounded S m v - ex)%R with ((rounded S m v - v) + (v - ex))%R by ring. eapply Rle_trans; [apply Rabs_triang|]. nra. }
    assert (L : (Rabs (rounded S m v) <= max_finite S)%R).
    { replace (rounded S m v) with ((rounded S m v - ex) + ex)%R by ring. eapply Rle_trans; [apply Rabs_triang|]. lra. }
    assert (N : o = Div -> category y = Normal).
    { intros Q. destruct Fy as [C|C]; [exact C|exfalso]. specialize (BD Q). assert (Y0 : value S y = 0%R) by (unfold value; rewrite C; reflexivity).
      rewrite Y0 in Vy. unfold Rminus in Vy. rewrite Rplus_0_l, Rabs_Ropp in Vy. lra. }
    destruct (op_delivers o m x y Wx Wy Fx Fy N L) as [st [f [E [Wf [Ff [NT Vf]]]]]]. rewrite E. cbn [bind].
    exists (Z.lor (Z.lor sa sb) st), f. split; [reflexivity|]. split; [exact Wf|]. split; [exact Ff|]. split; [rewrite !trouble_lor; tauto|].
    rewrite Vf. exact TE.
Qed.
Lemma eval_dot : forall m xs, let g := (1 + roundoff S m)%R in let n := length xs in
  let bound := fun k => (k * products (absolute val) xs + g ^ n * (INR n * slack S m))%R in
  (bound (g ^ (n + 1)) <= max_finite S)%R ->
  exists st f, c_eval S env (dot m (Num 0 m) xs) = Ret (st, f) /\ wf S f /\ finite f /\ ~ trouble st /\
    (Rabs (value S f - products val xs) <= bound (g ^ (n + 1) - 1))%R.
Proof.
  intros m xs g n bound L. subst bound. cbv beta in *.
  assert (R0 : Rabs (exact val (Num 0 m)) = 0%R) by (cbn; apply Rabs_R0). pose proof (roundoff_pos S m) as RP.
  assert (E0 : error S val (Num 0 m) = 0%R) by (cbn [error]; rewrite Rabs_R0; ring).
  assert (M0 : (0 <= max_finite S)%R) by (pose proof (value_le_max S (env 0%nat) HS (W 0%nat)) as V; pose proof (Rabs_pos (value S (env 0%nat))); lra).
  assert (GP : (g ^ (n + 1) = g ^ n * g)%R) by (rewrite pow_add; cbn [pow]; ring).
  destruct (dot_error m val xs (Num 0 m) 0%R g 0%R) as [IB EB].
  - lra.
  - rewrite E0. lra.
  - unfold g. lra.
  - lra.
  - cbn [in_bounds]. rewrite E0, Rabs_R0, Rplus_0_l. exact M0.
  - fold g n. rewrite !Rplus_0_l, <- GP. exact L.
  - fold g n in EB. rewrite !Rplus_0_l, <- GP in EB.
    destruct (eval_error (dot m (Num 0 m) xs)) as [st [f [E [Wf [Ff [NT B]]]]]].
    + apply (dot_numerals m val).
      cbn [numerals_ok].
      split; [intros L0; discriminate L0|reflexivity].
    + exact IB.
    + exists st, f. rewrite dot_exact in B. cbn [exact] in B. rewrite Rplus_0_l in B. split; [exact E|]. split; [exact Wf|]. split; [exact Ff|]. split; [exact NT|]. lra.
Qed.
Lemma eval_horner : forall m x c0 cs, let g := (1 + roundoff S m)%R in let n := length cs in let e := horner m x (Var c0) cs in
  in_bounds S val e ->
  exists st f, c_eval S env e = Ret (st, f) /\ wf S f /\ finite f /\ ~ trouble st /\
    (Rabs (value S f - polynomial val x (val c0) cs) <= (g ^ (2 * n) - 1) * polynomial (absolute val) x (absolute val c0) cs +
      geometric (g * slack S m) (g * g * absolute val x) n)%R.
Proof.
  intros m x c0 cs g n e IB.
  assert (NK : forall cs a, numerals_ok a -> numerals_ok (horner m x a cs)).
  { induction cs0 as [|c cs0 IH]; intros a N; cbn [horner]; [exact N|]. apply IH. cbn. tauto. }
  destruct (eval_error e (NK cs (Var c0) I) IB) as [st [f [E [Wf [Ff [NT B]]]]]]. exists st, f. split; [exact E|]. split; [exact Wf|]. split; [exact Ff|]. split; [exact NT|].
  unfold e in B. rewrite horner_exact in B. eapply Rle_trans; [exact B|].
  eapply Rle_trans; [apply (horner_error m val x cs (Var c0) (absolute val c0) 1 0); try lra|].
  - apply Rle_refl.
  - cbn [error]. lra.
  - fold g n. unfold absolute at 3. rewrite Rmult_1_r, Rmult_0_r, Rplus_0_r. apply Rle_refl.
Qed.
End ExprError.
