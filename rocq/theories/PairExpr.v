(** * PairExpr.v -- expressions evaluated with pairs, and how accurate they are *)
From Coq Require Import ZArith Reals List Bool Lia Lra Psatz.
From Flocq Require Import Core.
From Verif Require Import Machine Ieee Ppc Spec Norm Arith Special Algebra Total SpecPair Pair PairOps PairDirected PairSmall SpecDirected SpecPrograms SpecExpr Expr ExprError SpecPairExpr PairQuot.
Import ListNotations.
Local Open Scope Z_scope.
Ltac Zify.zify_post_hook ::= idtac.

(** src/ppc.rs:188 [add_r], 276 [mul_r], 348 [div_r], src/lib.rs:302 [sub_r] *)
Definition dd_op_r (o : binary) (F : Semantics) (m : Round) (x y : DFloat) : outcome (Z * DFloat) :=
  match o with Add => dd_add_r F x y m | Sub => dd_sub_r F x y m | Mul => dd_mul_r F x y m | Div => dd_div_r F x y m end.
(** a client that evaluates an expression with pairs and ors the statuses; numerals by src/lib.rs:345
    [from_i128_r] *)
Fixpoint c_pairs (F : Semantics) (env : nat -> DFloat) (e : expr) : outcome (Z * DFloat) :=
  match e with
  | Var i => Ret (OK, env i)
  | Num n m => dd_from_i128_r F n m
  | Opp e => let! '(st, x) := c_pairs F env e in Ret (st, dd_neg x)
  | Op o m a b =>
    let! '(sa, x) := c_pairs F env a in
    let! '(sb, y) := c_pairs F env b in
    let! '(st, r) := dd_op_r o F m x y in
    Ret (Z.lor (Z.lor sa sb) st, r)
  end.

Section PairExpr.
Variable F : Semantics.
Hypothesis HF : pair_ok F.
Hypothesis P5 : 5 <= PRECISION F.
Lemma unit_pos : (0 < pair_unit F)%R.
Proof. unfold pair_unit. pose proof (bpow_gt_0 r2 (- (2 * PRECISION F))). lra. Qed.
(** the high half and the pair *)
Lemma narrow_high : forall x, narrow_pair F x ->
  (16 / 17 * Rabs (pair_value F x) <= Rabs (value F (d0 x)) <= 16 / 15 * Rabs (pair_value F x))%R.
Proof.
  intros x [_ [_ L]]. assert (U : (bpow r2 (1 - PRECISION F) <= / 16)%R).
  { change (/ 16)%R with (bpow r2 (-4)). apply bpow_le. lia. }
  pose proof (bpow_gt_0 r2 (1 - PRECISION F)) as U0. unfold pair_value. set (a := value F (d0 x)) in *. set (b := value F (d1 x)) in *.
  pose proof (Rabs_pos a) as A0. assert (L' : (Rabs b <= / 16 * Rabs a)%R) by (eapply Rle_trans; [exact L|]; apply Rmult_le_compat_r; assumption).
  pose proof (Rabs_triang a b) as T1. pose proof (Rabs_triang (a + b) (- b)) as T2. replace (a + b + - b)%R with a in T2 by ring. rewrite Rabs_Ropp in T2.
  split; lra.
Qed.
(** operations on computed operands *)
Lemma sum_any : forall o m x y, o = Add \/ o = Sub -> narrow_pair F x -> narrow_pair F y ->
  (Rabs (pair_value F x) + Rabs (pair_value F y) <= bpow r2 (MAX_EXP F - 5))%R ->
  exists st r, dd_op_r o F m x y = Ret (st, r) /\ narrow_pair F r /\
    (Rabs (pair_value F r - real_op o (pair_value F x) (pair_value F y)) <= pair_unit F * (Rabs (pair_value F x) + Rabs (pair_value F y)))%R.
Proof.
  intros o m x y O Nx Ny L. destruct (narrow_high x Nx) as [X1 X2]. destruct (narrow_high y Ny) as [Y1 Y2].
  assert (L4 : (Rabs (value F (d0 x)) + Rabs (value F (d0 y)) <= bpow r2 (MAX_EXP F - 4))%R).
  { replace (MAX_EXP F - 4) with (1 + (MAX_EXP F - 5)) by ring. rewrite bpow_plus. change (bpow r2 1) with 2%R. lra. }
  unfold pair_unit. pose proof (bpow_gt_0 r2 (- (2 * PRECISION F))) as U0. set (v := bpow r2 (- (2 * PRECISION F))) in *.
  assert (K : (42 * v * (Rabs (value F (d0 x)) + Rabs (value F (d0 y))) <= 48 * v * (Rabs (pair_value F x) + Rabs (pair_value F y)))%R).
  { pose proof (Rabs_pos (pair_value F x)) as Px. pose proof (Rabs_pos (pair_value F y)) as Py.
    assert (K1 : (v * (Rabs (value F (d0 x)) + Rabs (value F (d0 y))) <= v * (16 / 15 * (Rabs (pair_value F x) + Rabs (pair_value F y))))%R) by (apply Rmult_le_compat_l; lra).
    assert (K2 : (0 <= v * (Rabs (pair_value F x) + Rabs (pair_value F y)))%R) by (apply Rmult_le_pos; lra). lra. }
  destruct O as [-> | ->]; cbn [dd_op_r real_op].
  - destruct (dd_add_any F HF P5 m x y Nx Ny L4) as [st [r [E [N B]]]]. fold v in B. exists st, r. split; [exact E|]. split; [exact N|]. lra.
  - destruct (dd_sub_any F HF P5 m x y Nx Ny L4) as [st [r [E [N B]]]]. fold v in B. exists st, r. split; [exact E|]. split; [exact N|]. lra.
Qed.
Lemma zero_any : forall m x y, narrow_pair F x -> narrow_pair F y -> pair_value F x = 0%R \/ pair_value F y = 0%R ->
  exists st r, dd_mul_r F x y m = Ret (st, r) /\ narrow_pair F r /\ pair_value F r = 0%R.
Proof.
  intros m x y Nx Ny Z0.
  assert (ZC : forall z, narrow_pair F z -> pair_value F z = 0%R -> category (d0 z) = Zero).
  { intros z Nz V. destruct (narrow_high z Nz) as [_ H]. rewrite V, Rabs_R0, Rmult_0_r in H. destruct Nz as [[Wz _] [[Fz _] _]].
    destruct Fz as [C|C]; [exfalso|exact C]. apply (normal_nonzero F (d0 z) Wz C).
    destruct (Req_dec (value F (d0 z)) 0) as [Q|Q]; [exact Q|]. apply Rabs_pos_lt in Q. lra. }
  unfold dd_mul_r, dd_category. assert (Fx := Nx). destruct Fx as [_ [[Fx _] _]]. assert (Fy := Ny). destruct Fy as [_ [[Fy _] _]].
  destruct Z0 as [V|V].
  - rewrite (ZC x Nx V). exists OK, x. destruct Fy as [-> | ->]; exact (conj eq_refl (conj Nx V)).
  - rewrite (ZC y Ny V). destruct Fx as [C | C]; rewrite C; [exists OK, y; exact (conj eq_refl (conj Ny V))|].
    exists OK, x. split; [reflexivity|]. split; [exact Nx|]. exact (narrow_zero F x Nx C).
Qed.
Lemma product_any : forall m x y, narrow_pair F x -> narrow_pair F y ->
  (2 * min_normal F <= Rabs (pair_value F x) * Rabs (pair_value F y) <= bpow r2 (MAX_EXP F - 5))%R ->
  exists st r, dd_mul_r F x y m = Ret (st, r) /\ narrow_pair F r /\
    (Rabs (pair_value F r - pair_value F x * pair_value F y) <= pair_unit F * (Rabs (pair_value F x) * Rabs (pair_value F y)) + 4 * min_positive F)%R.
Proof.
  intros m x y Nx Ny [L1 L2]. destruct (narrow_high x Nx) as [X1 X2]. destruct (narrow_high y Ny) as [Y1 Y2].
  pose proof (Rabs_pos (pair_value F x)) as Px. pose proof (Rabs_pos (pair_value F y)) as Py.
  set (X := Rabs (pair_value F x)) in *. set (Y := Rabs (pair_value F y)) in *.
  assert (K1 : (16 / 17 * X * (16 / 17 * Y) <= Rabs (value F (d0 x)) * Rabs (value F (d0 y)))%R) by (apply Rmult_le_compat; lra).
  assert (K2 : (Rabs (value F (d0 x)) * Rabs (value F (d0 y)) <= 16 / 15 * X * (16 / 15 * Y))%R) by (apply Rmult_le_compat; try apply Rabs_pos; assumption).
  assert (XY : (0 <= X * Y)%R) by (apply Rmult_le_pos; assumption). assert (M0 : (0 < min_normal F)%R) by apply bpow_gt_0.
  destruct (dd_mul_small F HF P5 m x y Nx Ny) as [st [r [E [N [_ B]]]]].
  - rewrite Rabs_mult. replace (MAX_EXP F - 4) with (1 + (MAX_EXP F - 5)) by ring. rewrite bpow_plus. change (bpow r2 1) with 2%R. split; lra.
  - exists st, r. split; [exact E|]. split; [exact N|]. eapply Rle_trans; [exact B|]. rewrite Rabs_mult. unfold pair_unit.
    pose proof (bpow_gt_0 r2 (- (2 * PRECISION F))) as U0. set (v := bpow r2 (- (2 * PRECISION F))) in *.
    assert (K3 : (v * (Rabs (value F (d0 x)) * Rabs (value F (d0 y))) <= v * (16 / 15 * X * (16 / 15 * Y)))%R) by (apply Rmult_le_compat_l; lra).
    assert (K4 : (0 <= v * (X * Y))%R) by (apply Rmult_le_pos; lra). lra.
Qed.
Lemma near_abs : forall v w e, (Rabs (v - w) <= e)%R -> (Rabs w - e <= Rabs v <= Rabs w + e)%R.
Proof.
  intros v w e H. pose proof (Rabs_triang (v - w) w) as T1. replace (v - w + w)%R with v in T1 by ring.
  pose proof (Rabs_triang v (- (v - w))) as T2. rewrite Rabs_Ropp in T2. replace (v + - (v - w))%R with w in T2 by ring. lra.
Qed.
Lemma pair_error_pos : forall env e, pair_in_bounds F env e -> (0 <= pair_error F env e)%R.
Proof.
  intros env. pose proof unit_pos as U. assert (M : (0 < min_positive F)%R) by apply bpow_gt_0.
  induction e as [i|n m|e IH|o m a IHa b IHb]; intros R; cbn [pair_error pair_in_bounds] in *; try lra.
  - apply Rmult_le_pos; [lra|apply Rabs_pos].
  - apply IH. exact R.
  - cbv zeta in *. destruct R as [Ra [Rb R]]. specialize (IHa Ra). specialize (IHb Rb).
    pose proof (Rabs_pos (exact env a)) as PA. pose proof (Rabs_pos (exact env b)) as PB.
    destruct o; cbn [carried];
      set (A := Rabs (exact env a)) in *; set (B := Rabs (exact env b)) in *; set (ea := pair_error F env a) in *; set (eb := pair_error F env b) in *.
    + assert (0 <= pair_unit F * (A + ea + (B + eb)))%R by (apply Rmult_le_pos; lra). lra.
    + assert (0 <= pair_unit F * (A + ea + (B + eb)))%R by (apply Rmult_le_pos; lra). lra.
    + assert (0 <= pair_unit F * ((A + ea) * (B + eb)))%R by (apply Rmult_le_pos; [lra|apply Rmult_le_pos; lra]).
      assert (0 <= A * eb)%R by (apply Rmult_le_pos; lra). assert (0 <= B * ea)%R by (apply Rmult_le_pos; lra). assert (0 <= ea * eb)%R by (apply Rmult_le_pos; lra). lra.
    + destruct R as [R _]. assert (0 <= (A + ea) / (B - eb))%R by (apply Rle_mult_inv_pos; lra).
      assert (0 <= pair_unit F * ((A + ea) / (B - eb)))%R by (apply Rmult_le_pos; lra).
      assert (0 <= A * eb)%R by (apply Rmult_le_pos; lra). assert (0 <= B * ea)%R by (apply Rmult_le_pos; lra).
      assert (0 < B * (B - eb))%R by (apply Rmult_lt_0_compat; lra).
      assert (0 <= (A * eb + B * ea) / (B * (B - eb)))%R by (apply Rle_mult_inv_pos; lra). lra.
Qed.

(** *** Closed forms *)
Section Forms.
Variables (m : Round) (env : nat -> R).
Let w := pair_unit F.
Let g := (1 + w)%R.
Let eta := (4 * min_positive F)%R.
Lemma g_pos : (0 < w)%R. Proof. apply unit_pos. Qed.
Lemma sum_pos : forall xs, (0 <= sum (absolute env) xs)%R.
Proof. induction xs as [|i xs IH]; cbn [sum]; [lra|]. unfold absolute at 1. pose proof (Rabs_pos (env i)). lra. Qed.
Lemma chain_exact : forall xs acc, exact env (chain m acc xs) = (exact env acc + sum env xs)%R.
Proof. induction xs as [|i xs IH]; intros acc; cbn [chain sum]; [lra|]. rewrite IH. cbn [exact real_op]. ring. Qed.
Lemma chain_numerals : forall xs acc, numerals_ok acc -> numerals_ok (chain m acc xs).
Proof. induction xs as [|i xs IH]; intros acc N; cbn [chain]; [exact N|]. apply IH. exact (conj N I). Qed.
(** one more term, itself known up to [e] *)
Lemma term_error : forall A E P G H q e, (A <= P)%R -> (E <= (G - 1) * P + H)%R -> (g <= G)%R -> (0 <= q)%R -> (0 <= P)%R -> (e <= w * q + eta)%R ->
  (E + e + w * ((A + E) + (q + e)) <= (g * G - 1) * (P + q) + g * (H + eta))%R.
Proof.
  intros A E P G H q e HA HE HG Q0 P0 He. pose proof g_pos as U0.
  assert (K1 : ((1 + w) * (E + e) <= (1 + w) * ((G - 1) * P + H + (w * q + eta)))%R) by (apply Rmult_le_compat_l; lra).
  assert (K2 : (w * A <= w * P)%R) by (apply Rmult_le_compat_l; lra).
  assert (K3 : (0 <= (G - g) * q)%R) by (apply Rmult_le_pos; lra). assert (K4 : (0 <= w * ((G - g) * q))%R) by (apply Rmult_le_pos; lra).
  unfold g in *. nra.
Qed.
Lemma chain_error : forall xs acc P G, (Rabs (exact env acc) <= P)%R -> (pair_error F env acc <= (G - 1) * P)%R -> (1 <= G)%R ->
  pair_in_bounds F env acc -> (g ^ length xs * G * (P + sum (absolute env) xs) <= bpow r2 (MAX_EXP F - 5))%R ->
  pair_in_bounds F env (chain m acc xs) /\
  (pair_error F env (chain m acc xs) <= (g ^ length xs * G - 1) * (P + sum (absolute env) xs))%R.
Proof.
  pose proof g_pos as U0. induction xs as [|i xs IH]; intros acc P G HP HE HG IB L; cbn [chain].
  - cbn [length pow sum] in *. split; [exact IB|]. lra.
  - cbn [sum] in *. unfold absolute at 1 in L. unfold absolute at 1. pose proof (sum_pos xs) as PP. set (T := sum (absolute env) xs) in *.
    change (length (i :: xs)) with (Datatypes.S (length xs)) in *. cbn [pow] in *. set (gn := (g ^ length xs)%R) in *.
    assert (GN : (1 <= gn)%R) by (apply pow_R1_Rle; unfold g; lra).
    assert (P0 : (0 <= P)%R) by (pose proof (Rabs_pos (exact env acc)); lra). set (q := Rabs (env i)) in *. assert (Q0 : (0 <= q)%R) by apply Rabs_pos.
    assert (G1 : (1 <= g * G)%R) by (unfold g; nra).
    assert (EE : (pair_error F env (Op Add m acc (Var i)) = (pair_error F env acc + 0) + w * ((Rabs (exact env acc) + pair_error F env acc) + (q + 0)))%R) by reflexivity.
    assert (B1 : ((Rabs (exact env acc) + pair_error F env acc) + (q + 0) <= G * P + q)%R) by lra.
    assert (GP : (0 <= G * P)%R) by (apply Rmult_le_pos; lra).
    destruct (IH (Op Add m acc (Var i)) (P + q)%R (g * G)%R) as [IB2 E2].
    + cbn [exact real_op]. eapply Rle_trans; [apply Rabs_triang|]. fold q. lra.
    + rewrite EE. assert (K : (w * ((Rabs (exact env acc) + pair_error F env acc) + (q + 0)) <= w * (G * P + q))%R) by (apply Rmult_le_compat_l; lra).
      assert (K3 : (0 <= g * (G - 1) * q)%R) by (apply Rmult_le_pos; [apply Rmult_le_pos; unfold g; lra|lra]). unfold g in *. lra.
    + exact G1.
    + cbn [pair_in_bounds]. split; [exact IB|]. split; [exact I|]. change (pair_error F env (Var i)) with 0%R. change (Rabs (exact env (Var i))) with q.
      eapply Rle_trans; [exact B1|]. eapply Rle_trans; [|exact L].
      assert (GG : (G <= gn * (g * G))%R).
      { apply Rle_trans with (1 * (1 * G))%R; [lra|]. apply Rmult_le_compat; try lra. apply Rmult_le_compat_r; unfold g; lra. }
      assert (K1 : (G * (P + q) <= gn * (g * G) * (P + q))%R) by (apply Rmult_le_compat_r; lra).
      assert (K2 : (0 <= gn * (g * G) * T)%R) by (apply Rmult_le_pos; [apply Rmult_le_pos; lra|lra]). assert (K3 : (0 <= (G - 1) * q)%R) by (apply Rmult_le_pos; lra). lra.
    + fold T. lra.
    + fold T in E2. split; [exact IB2|]. lra.
Qed.
Lemma pair_dot_error : forall xs acc P G H, terms_ok F env xs -> (Rabs (exact env acc) <= P)%R -> (pair_error F env acc <= (G - 1) * P + H)%R -> (g <= G)%R -> (0 <= H)%R ->
  pair_in_bounds F env acc ->
  (g ^ length xs * G * (P + products (absolute env) xs) + g ^ length xs * (H + INR (length xs) * eta) <= bpow r2 (MAX_EXP F - 5))%R ->
  pair_in_bounds F env (dot m acc xs) /\
  (pair_error F env (dot m acc xs) <= (g ^ length xs * G - 1) * (P + products (absolute env) xs) + g ^ length xs * (H + INR (length xs) * eta))%R.
Proof.
  pose proof g_pos as U0. assert (G1 : (1 < g)%R) by (unfold g; lra). assert (E0 : (0 < eta)%R) by (unfold eta; assert (0 < min_positive F)%R by apply bpow_gt_0; lra).
  induction xs as [|[i j] xs IH]; intros acc P G H TS HP HE HG HH IB L; cbn [dot].
  - cbn [length pow products INR] in *. split; [exact IB|]. lra.
  - cbn [products] in *. unfold absolute at 1 2 in L. unfold absolute at 1 2. pose proof (products_pos env xs) as PP. set (T := products (absolute env) xs) in *.
    change (length ((i, j) :: xs)) with (Datatypes.S (length xs)) in *. rewrite S_INR in *. cbn [pow] in *. set (n := INR (length xs)) in *.
    assert (N0 : (0 <= n)%R) by apply pos_INR. set (gn := (g ^ length xs)%R) in *. assert (GN : (1 <= gn)%R) by (apply pow_R1_Rle; lra).
    assert (P0 : (0 <= P)%R) by (pose proof (Rabs_pos (exact env acc)); lra).
    rewrite <- Rabs_mult in *. set (q := Rabs (env i * env j)) in *. assert (Q0 : (0 <= q)%R) by apply Rabs_pos.
    set (t := Op Mul m (Var i) (Var j)). assert (XT : Rabs (exact env t) = q) by reflexivity.
    assert (EP : (pair_error F env t = w * q + eta)%R).
    { unfold t. cbn [pair_error carried exact]. cbv zeta. fold w. rewrite !Rplus_0_r, !Rmult_0_r, !Rplus_0_l, <- Rabs_mult. reflexivity. }
    set (acc' := Op Add m acc t).
    assert (EE : (pair_error F env acc' = pair_error F env acc + (w * q + eta) + w * ((Rabs (exact env acc) + pair_error F env acc) + (q + (w * q + eta))))%R).
    { unfold acc'. cbn [pair_error carried]. cbv zeta. fold t. rewrite EP, XT. reflexivity. }
    assert (A2 : (pair_error F env acc' <= (g * G - 1) * (P + q) + g * (H + eta))%R) by (rewrite EE; apply term_error; try assumption; apply Rle_refl).
    assert (A3 : ((g * G) * (P + q) + g * (H + eta) <= bpow r2 (MAX_EXP F - 5))%R).
    { eapply Rle_trans; [|exact L]. assert (GG : (0 <= g * G)%R) by (apply Rmult_le_pos; lra).
      assert (K1 : (g * G * (P + q) <= gn * (g * G * (P + q)))%R).
      { assert (0 <= g * G * (P + q))%R by (apply Rmult_le_pos; lra). nra. }
      assert (K2 : (g * (H + eta) <= gn * (g * (H + eta)))%R).
      { assert (0 <= g * (H + eta))%R by (apply Rmult_le_pos; lra). nra. }
      assert (K3 : (0 <= gn * (g * G * T))%R) by (apply Rmult_le_pos; [lra|apply Rmult_le_pos; lra]).
      assert (K4 : (0 <= gn * (g * (n * eta)))%R) by (apply Rmult_le_pos; [lra|apply Rmult_le_pos; [lra|apply Rmult_le_pos; lra]]). lra. }
    assert (GQ : (g * q <= g * G * q)%R) by (assert (0 <= g * (G - 1) * q)%R by (apply Rmult_le_pos; [apply Rmult_le_pos; lra|lra]); lra).
    assert (GPP : (G * P <= g * G * P)%R) by (assert (0 <= (g - 1) * (G * P))%R by (apply Rmult_le_pos; [lra|apply Rmult_le_pos; lra]); lra).
    assert (GH : (H + eta <= g * (H + eta))%R) by (assert (0 <= (g - 1) * (H + eta))%R by (apply Rmult_le_pos; lra); lra).
    assert (WQ : (q + w * q = g * q)%R) by (unfold g; ring). assert (PG0 : (0 <= G * P)%R) by (apply Rmult_le_pos; lra).
    assert (QQ : (q <= g * q)%R) by (assert (0 <= w * q)%R by (apply Rmult_le_pos; lra); lra).
    destruct (IH acc' (P + q)%R (g * G)%R (g * (H + eta))%R) as [IB2 E2].
    + intros a b Hab. apply TS. right. exact Hab.
    + unfold acc'. cbn [exact real_op]. eapply Rle_trans; [apply Rabs_triang|]. change (Rabs (exact env acc) + q <= P + q)%R. lra.
    + exact A2.
    + assert (0 <= g * (G - 1))%R by (apply Rmult_le_pos; lra). lra.
    + apply Rmult_le_pos; lra.
    + unfold acc'. cbn [pair_in_bounds]. split; [exact IB|]. split.
      * unfold t. cbn [pair_in_bounds pair_error exact]. split; [exact I|]. split; [exact I|]. cbv zeta. rewrite !Rplus_0_r, !Rminus_0_r.
        destruct (TS i j (or_introl eq_refl)) as [Z0|[Z0|Z0]].
        { left. rewrite Z0. apply Rabs_R0. } { right. left. rewrite Z0. apply Rabs_R0. }
        right. right. split; [apply Rabs_pos|]. split; [apply Rabs_pos|]. rewrite <- Rabs_mult. fold q. split; [exact Z0|]. lra.
      * cbv zeta. rewrite XT, EP. lra.
    + eapply Rle_trans; [|exact L].
      assert (K : (gn * (n * eta) <= g * (gn * (n * eta)))%R).
      { assert (0 <= gn * (n * eta))%R by (apply Rmult_le_pos; [lra|apply Rmult_le_pos; lra]). nra. }
      unfold T in *. lra.
    + split; [exact IB2|]. eapply Rle_trans; [exact E2|].
      assert (K : (gn * (n * eta) <= g * (gn * (n * eta)))%R).
      { assert (0 <= gn * (n * eta))%R by (apply Rmult_le_pos; [lra|apply Rmult_le_pos; lra]). nra. }
      unfold T in *. lra.
Qed.
End Forms.

Variable env : nat -> DFloat.
Hypothesis W : forall i, narrow_pair F (env i).
Let val := fun i => pair_value F (env i).
Lemma pairs_error : forall e, numerals_ok e -> pair_in_bounds F val e ->
  exists st r, c_pairs F env e = Ret (st, r) /\ narrow_pair F r /\ (Rabs (pair_value F r - exact val e) <= pair_error F val e)%R.
Proof.
  induction e as [i|n m|e IH|o m a IHa b IHb]; intros R B; [| |cbn [c_pairs exact pair_error pair_in_bounds] in *|].
  - exists OK, (env i). split; [reflexivity|]. split; [apply W|]. subst val. cbn. rewrite Rminus_eq_0, Rabs_R0. lra.
  - cbn [c_pairs exact pair_error pair_in_bounds] in *. pose proof unit_pos as U. destruct (numeral_any F HF P5 m n R) as [st [r [E [N V]]]].
    { apply Rle_trans with (1 := B). apply bpow_le. lia. }
    exists st, r. split; [exact E|]. split; [exact N|]. eapply Rle_trans; [exact V|]. apply Rmult_le_compat_r; [apply Rabs_pos|]. unfold pair_unit in *. lra.
  - destruct (IH R B) as [st [r [E [N V]]]]. rewrite E. cbn [bind]. destruct (narrow_neg F r N) as [N' [V' _]]. exists st, (dd_neg r).
    split; [reflexivity|]. split; [exact N'|]. rewrite V'. replace (- pair_value F r - - exact val e)%R with (- (pair_value F r - exact val e))%R by ring. rewrite Rabs_Ropp. exact V.
  - destruct R as [Ra Rb].
    assert (DN : o = Div -> (pair_error F val b < Rabs (exact val b))%R) by (intros ->; cbn [pair_in_bounds] in B; apply B).
    cbn [pair_in_bounds] in B. destruct B as [Ba [Bb B]]. destruct (IHa Ra Ba) as [sa [x [Ea [Nx Vx]]]]. destruct (IHb Rb Bb) as [sb [y [Eb [Ny Vy]]]].
    cbn [c_pairs]. rewrite Ea, Eb. cbn [bind].
    pose proof (carried_error o _ _ _ _ _ _ Vx Vy DN) as CE.
    pose proof (near_abs _ _ _ Vx) as AX. pose proof (near_abs _ _ _ Vy) as AY. pose proof (pair_error_pos val a Ba) as PA. pose proof (pair_error_pos val b Bb) as PB.
    pose proof (Rabs_pos (exact val a)) as QA. pose proof (Rabs_pos (exact val b)) as QB. pose proof unit_pos as U. assert (M : (0 < min_positive F)%R) by apply bpow_gt_0.
    set (A := Rabs (exact val a)) in *. set (C := Rabs (exact val b)) in *.
    set (ea := pair_error F val a) in *. set (eb := pair_error F val b) in *.
    assert (FIN : forall bound, (exists st r, dd_op_r o F m x y = Ret (st, r) /\ narrow_pair F r /\
        (Rabs (pair_value F r - real_op o (pair_value F x) (pair_value F y)) <= bound)%R) ->
      exists st r, (let! '(st, r) := dd_op_r o F m x y in Ret (Z.lor (Z.lor sa sb) st, r)) = Ret (st, r) /\ narrow_pair F r /\
        (Rabs (pair_value F r - real_op o (exact val a) (exact val b)) <= carried o (exact val a) (exact val b) ea eb + bound)%R).
    { intros bound [st [r [E [N V]]]]. rewrite E. cbn [bind]. exists (Z.lor (Z.lor sa sb) st), r. split; [reflexivity|]. split; [exact N|].
      replace (pair_value F r - real_op o (exact val a) (exact val b))%R with
        ((pair_value F r - real_op o (pair_value F x) (pair_value F y)) + (real_op o (pair_value F x) (pair_value F y) - real_op o (exact val a) (exact val b)))%R by ring.
      eapply Rle_trans; [apply Rabs_triang|]. lra. }
    assert (SUM : o = Add \/ o = Sub -> ((A + ea) + (C + eb) <= bpow r2 (MAX_EXP F - 5))%R ->
      exists st r, dd_op_r o F m x y = Ret (st, r) /\ narrow_pair F r /\
        (Rabs (pair_value F r - real_op o (pair_value F x) (pair_value F y)) <= pair_unit F * ((A + ea) + (C + eb)))%R).
    { intros O L. destruct (sum_any o m x y O Nx Ny ltac:(lra)) as [st [r [E [N V]]]]. exists st, r. split; [exact E|]. split; [exact N|].
      eapply Rle_trans; [exact V|]. apply Rmult_le_compat_l; lra. }
    change (exact val (Op o m a b)) with (real_op o (exact val a) (exact val b)). cbn [pair_error]. cbv zeta. fold A C ea eb. cbv zeta in B.
    destruct o.
    + apply FIN. apply SUM; [left; reflexivity|exact B].
    + apply FIN. apply SUM; [right; reflexivity|exact B].
    + apply FIN. cbn [dd_op_r real_op]. pose proof (Rabs_pos (pair_value F x)) as QX. pose proof (Rabs_pos (pair_value F y)) as QY.
      assert (UP : (0 <= pair_unit F * ((A + ea) * (C + eb)))%R) by (apply Rmult_le_pos; [lra|apply Rmult_le_pos; lra]).
      assert (AZ : forall v, (Rabs v <= 0)%R -> v = 0%R) by (intros v Hv; destruct (Req_dec v 0) as [Q|Q]; [exact Q|apply Rabs_pos_lt in Q; lra]).
      destruct B as [B|[B|[B1 [B2 [B3 B4]]]]].
      * destruct (zero_any m x y Nx Ny) as [st [r [E [N V]]]]; [left; apply AZ; lra|]. exists st, r. split; [exact E|]. split; [exact N|].
        assert (X0 : pair_value F x = 0%R) by (apply AZ; lra). rewrite V, X0, Rmult_0_l, Rminus_eq_0, Rabs_R0. lra.
      * destruct (zero_any m x y Nx Ny) as [st [r [E [N V]]]]; [right; apply AZ; lra|]. exists st, r. split; [exact E|]. split; [exact N|].
        assert (Y0 : pair_value F y = 0%R) by (apply AZ; lra). rewrite V, Y0, Rmult_0_r, Rminus_eq_0, Rabs_R0. lra.
      * assert (H1 : ((A - ea) * (C - eb) <= Rabs (pair_value F x) * Rabs (pair_value F y))%R) by (apply Rmult_le_compat; lra).
        assert (H2 : (Rabs (pair_value F x) * Rabs (pair_value F y) <= (A + ea) * (C + eb))%R) by (apply Rmult_le_compat; lra).
        destruct (product_any m x y Nx Ny ltac:(lra)) as [st [r [E [N V]]]]. exists st, r. split; [exact E|]. split; [exact N|].
        eapply Rle_trans; [exact V|]. assert (H3 : (pair_unit F * (Rabs (pair_value F x) * Rabs (pair_value F y)) <= pair_unit F * ((A + ea) * (C + eb)))%R) by (apply Rmult_le_compat_l; lra). lra.
    + apply FIN. cbn [dd_op_r real_op]. destruct B as [B1 [B2 [B3 B4]]]. pose proof (Rabs_pos (pair_value F x)) as QX.
      assert (Y0 : pair_value F y <> 0%R) by (intro Q; rewrite Q, Rabs_R0 in AY; lra).
      assert (T1 : (bpow r2 (MAX_EXP F - 5) <= bpow r2 (MAX_EXP F - 1))%R) by (apply bpow_le; lia).
      assert (QQ : (Rabs (pair_value F x / pair_value F y) <= (A + ea) / (C - eb))%R).
      { unfold Rdiv. rewrite Rabs_mult, Rabs_inv. apply Rmult_le_compat; [lra| |lra|].
        - apply Rlt_le, Rinv_0_lt_compat. lra.
        - apply Rinv_le; lra. }
      destruct (quotient_any F HF P5 m x y Nx Ny Y0 ltac:(lra) ltac:(lra) ltac:(lra)) as [st [r [E [N V]]]]. exists st, r. split; [exact E|]. split; [exact N|].
      eapply Rle_trans; [exact V|]. unfold pair_unit in *. pose proof (bpow_gt_0 r2 (- (2 * PRECISION F))) as U0. set (v := bpow r2 (- (2 * PRECISION F))) in *.
      pose proof (Rabs_pos (pair_value F x / pair_value F y)) as QP.
      assert (6 * v * Rabs (pair_value F x / pair_value F y) <= 48 * v * ((A + ea) / (C - eb)))%R by (apply Rmult_le_compat; lra). lra.
Qed.
Lemma pairs_sum : forall m k xs, let g := (1 + pair_unit F)%R in let n := length xs in
  let size := (absolute val k + sum (absolute val) xs)%R in
  (g ^ n * size <= bpow r2 (MAX_EXP F - 5))%R ->
  exists st r, c_pairs F env (chain m (Var k) xs) = Ret (st, r) /\ narrow_pair F r /\
    (Rabs (pair_value F r - (val k + sum val xs)) <= (g ^ n - 1) * size)%R.
Proof.
  intros m k xs g n size L. destruct (chain_error m val xs (Var k) (absolute val k) 1) as [IB EB].
  - apply Rle_refl.
  - cbn [pair_error]. lra.
  - lra.
  - exact I.
  - fold g n. rewrite Rmult_1_r. exact L.
  - fold g n in EB. rewrite Rmult_1_r in EB. destruct (pairs_error (chain m (Var k) xs) (chain_numerals m xs (Var k) I) IB) as [st [r [E [N B]]]].
    exists st, r. split; [exact E|]. split; [exact N|]. rewrite chain_exact in B. eapply Rle_trans; [exact B|exact EB].
Qed.
Lemma pairs_dot : forall m k xs, let g := (1 + pair_unit F)%R in let n := length xs in
  let bound := fun f => (f * (absolute val k + products (absolute val) xs) + g ^ n * (INR n * (4 * min_positive F)))%R in
  terms_ok F val xs -> (bound (g ^ (n + 1)) <= bpow r2 (MAX_EXP F - 5))%R ->
  exists st r, c_pairs F env (dot m (Var k) xs) = Ret (st, r) /\ narrow_pair F r /\
    (Rabs (pair_value F r - (val k + products val xs)) <= bound (g ^ (n + 1) - 1))%R.
Proof.
  intros m k xs g n bound TS L. subst bound. cbv beta in *. pose proof unit_pos as U.
  assert (GP : (g ^ (n + 1) = g ^ n * g)%R) by (rewrite pow_add; cbn [pow]; ring).
  destruct (pair_dot_error m val xs (Var k) (absolute val k) g 0%R) as [IB EB].
  - exact TS.
  - apply Rle_refl.
  - cbn [pair_error]. assert (0 <= absolute val k)%R by apply Rabs_pos. unfold g. assert (0 <= pair_unit F * absolute val k)%R by (apply Rmult_le_pos; lra). lra.
  - apply Rle_refl.
  - lra.
  - exact I.
  - fold g n. rewrite !Rplus_0_l, <- GP. exact L.
  - fold g n in EB. rewrite !Rplus_0_l, <- GP in EB. destruct (pairs_error (dot m (Var k) xs) (dot_numerals m val xs (Var k) I) IB) as [st [r [E [N B]]]].
    exists st, r. split; [exact E|]. split; [exact N|]. rewrite dot_exact in B. eapply Rle_trans; [exact B|exact EB].
Qed.
End PairExpr.
