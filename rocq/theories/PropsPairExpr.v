(** * PropsPairExpr.v -- computing with pairs (C74) *)
From Coq Require Import ZArith Reals List Bool Lra.
From Flocq Require Import Core.
From Verif Require Import Machine Ieee Ppc Spec SpecPair SpecDirected Samples SpecPrograms SpecExpr SpecPairExpr PairQuot PairExpr PairSamples PairDirectedRefute.
Import ListNotations.
Local Open Scope Z_scope.

(** ** C74: errors of expressions, sums and dot products of pairs *)
(** any expression, the modes mixed at will *)
Theorem C74_expression : forall F, pair_ok F -> 5 <= PRECISION F -> forall env, (forall i, narrow_pair F (env i)) ->
  let val := fun i => pair_value F (env i) in forall e, numerals_ok e -> pair_in_bounds F val e ->
  exists st r, c_pairs F env e = Ret (st, r) /\ narrow_pair F r /\ (Rabs (pair_value F r - exact val e) <= pair_error F val e)%R.
Proof. exact pairs_error. Qed.
Print Assumptions C74_expression.
(** one quotient; the pairs need not be canonical *)
Theorem C74_quotient : forall F, pair_ok F -> 5 <= PRECISION F -> forall m x y, narrow_pair F x -> narrow_pair F y -> pair_value F y <> 0%R ->
  (Rabs (pair_value F x) <= bpow r2 (MAX_EXP F - 1))%R -> (Rabs (pair_value F y) <= bpow r2 (MAX_EXP F - 1))%R ->
  (Rabs (pair_value F x / pair_value F y) <= bpow r2 (MAX_EXP F - 5))%R ->
  exists st r, dd_div_r F x y m = Ret (st, r) /\ narrow_pair F r /\
    (Rabs (pair_value F r - pair_value F x / pair_value F y) <=
      6 * bpow r2 (- (2 * PRECISION F)) * Rabs (pair_value F x / pair_value F y) + min_positive F)%R.
Proof. exact quotient_any. Qed.
Print Assumptions C74_quotient.
(** sums of any length *)
Theorem C74_sum : forall F, pair_ok F -> 5 <= PRECISION F -> forall env, (forall i, narrow_pair F (env i)) ->
  let val := fun i => pair_value F (env i) in forall m k xs,
  let g := (1 + pair_unit F)%R in let n := length xs in let size := (absolute val k + sum (absolute val) xs)%R in
  (g ^ n * size <= bpow r2 (MAX_EXP F - 5))%R ->
  exists st r, c_pairs F env (chain m (Var k) xs) = Ret (st, r) /\ narrow_pair F r /\
    (Rabs (pair_value F r - (val k + sum val xs)) <= (g ^ n - 1) * size)%R.
Proof. exact pairs_sum. Qed.
Print Assumptions C74_sum.
(** dot products of any length *)
Theorem C74_dot : forall F, pair_ok F -> 5 <= PRECISION F -> forall env, (forall i, narrow_pair F (env i)) ->
  let val := fun i => pair_value F (env i) in forall m k xs,
  let g := (1 + pair_unit F)%R in let n := length xs in
  let bound := fun f => (f * (absolute val k + products (absolute val) xs) + g ^ n * (INR n * (4 * min_positive F)))%R in
  terms_ok F val xs -> (bound (g ^ (n + 1)) <= bpow r2 (MAX_EXP F - 5))%R ->
  exists st r, c_pairs F env (dot m (Var k) xs) = Ret (st, r) /\ narrow_pair F r /\
    (Rabs (pair_value F r - (val k + products val xs)) <= bound (g ^ (n + 1) - 1))%R.
Proof. exact pairs_dot. Qed.
Print Assumptions C74_dot.

(** 1/3, and otherwise 5/4 + 5/4 * 2^-54 *)
Definition third_five (i : nat) : DFloat := match i with O => p_third | _ => p_five end.
Definition tf (i : nat) : R := pair_value DoubleS (third_five i).
Lemma third_five_ok : pair_ok DoubleS /\ 5 <= PRECISION DoubleS /\ forall i, narrow_pair DoubleS (third_five i).
Proof. split; [exact double_pair|]. split; [vm_compute; discriminate|]. intros [|i]; [exact third_narrow|exact five_narrow]. Qed.
Lemma tf_range : (0.3 <= tf 0 <= 0.4)%R /\ forall i, (1.2 <= tf (Datatypes.S i) <= 1.3)%R.
Proof. split; [|intros i]; unfold tf, third_five, p_third, p_five, pair_value, value; cbn; lra. Qed.
Lemma pair_unit_double : (0 < pair_unit DoubleS <= / 1024)%R.
Proof.
  unfold pair_unit. split; [pose proof (bpow_gt_0 r2 (- (2 * PRECISION DoubleS))); lra|].
  apply Rle_trans with (48 * bpow r2 (-20))%R; [apply Rmult_le_compat_l; [lra|apply bpow_le; vm_compute; discriminate]|cbn; lra].
Qed.
Lemma double_sizes : (65536 <= bpow r2 (MAX_EXP DoubleS - 5))%R /\ (2 * min_normal DoubleS <= / 1024)%R /\ (0 < min_positive DoubleS <= / 1024)%R.
Proof.
  split; [change 65536%R with (bpow r2 16); apply bpow_le; vm_compute; discriminate|].
  assert (M : (bpow r2 (-20) * 2 <= / 1024)%R) by (cbn; lra). assert (N : (min_normal DoubleS <= bpow r2 (-20))%R) by (apply bpow_le; vm_compute; discriminate).
  split; [lra|]. split; [apply bpow_gt_0|]. change (/ 1024)%R with (bpow r2 (-10)). apply bpow_le. vm_compute. discriminate.
Qed.
(** (x - y) * - y, the difference to nearest, the product toward zero *)
Example C74_example : let e := Op Mul TowardZero (Op Sub NearestTiesToEven (Var 0) (Var 1)) (Opp (Var 1)) in
  numerals_ok e /\ pair_in_bounds DoubleS tf e /\
  c_pairs DoubleS third_five e = Ret (INEXACT, mkDF (mkFloat 5160374573028694 0 Normal false) (mkFloat 6004799503160576 (-59) Normal false)).
Proof.
  destruct tf_range as [T0 T]. specialize (T 0%nat). destruct pair_unit_double as [U0 U]. destruct double_sizes as [S1 [S2 S3]].
  cbv zeta. split; [cbn; tauto|]. split; [|vm_compute; reflexivity].
  cbn [pair_in_bounds pair_error exact carried real_op]. cbv zeta. set (x := tf 0%nat) in *. set (y := tf 1%nat) in *. set (w := pair_unit DoubleS) in *.
  rewrite Rabs_Ropp, (Rabs_pos_eq x), (Rabs_pos_eq y), (Rabs_left (x - y)) by lra. rewrite !Rplus_0_r, ?Rplus_0_l, ?Rminus_0_r.
  assert (W : (0 <= w * (x + y) <= 0.1)%R) by (split; [apply Rmult_le_pos; lra|]; apply Rle_trans with (/ 1024 * (x + y))%R; [apply Rmult_le_compat_r; lra|lra]).
  split; [split; [exact I|split; [exact I|lra]]|]. split; [exact I|]. right. right. split; [lra|]. split; [lra|].
  set (t := (w * (x + y))%R) in *. split.
  - apply Rle_trans with (0.5 * 1)%R; [lra|]. apply Rmult_le_compat; lra.
  - apply Rle_trans with (2 * 2)%R; [apply Rmult_le_compat; lra|lra].
Qed.
(** y / x - 3 *)
Example C74_quotient_example : let e := Op Sub TowardNegative (Op Div TowardPositive (Var 1) (Var 0)) (Num 3 TowardZero) in
  numerals_ok e /\ pair_in_bounds DoubleS tf e /\
  c_pairs DoubleS third_five e = Ret (INEXACT, mkDF (mkFloat 6755399441055745 (-1) Normal false) (mkFloat 7881299347898368 (-54) Normal false)).
Proof.
  destruct tf_range as [T0 T]. specialize (T 0%nat). destruct pair_unit_double as [U0 U]. destruct double_sizes as [S1 [S2 S3]].
  cbv zeta. split; [split; [exact (conj I I)|cbn; split; [discriminate|reflexivity]]|]. split; [|vm_compute; reflexivity].
  cbn [pair_in_bounds pair_error exact carried real_op]. cbv zeta. set (x := tf 0%nat) in *. set (y := tf 1%nat) in *. set (w := pair_unit DoubleS) in *.
  assert (Q : (0 <= y / x <= 5)%R).
  { split; [apply Rle_mult_inv_pos; lra|]. apply Rmult_le_reg_r with x; [lra|]. unfold Rdiv. rewrite Rmult_assoc, Rinv_l by lra. lra. }
  rewrite !(Rabs_pos_eq x), !(Rabs_pos_eq y), (Rabs_pos_eq (y / x)), !(Rabs_pos_eq 3) by lra. rewrite !Rplus_0_r, ?Rplus_0_l, ?Rminus_0_r, !Rmult_0_r, ?Rplus_0_l.
  replace (0 / (x * x))%R with 0%R by (unfold Rdiv; ring). rewrite ?Rplus_0_l.
  assert (WQ : (w * (y / x) <= / 1024 * 5)%R) by (apply Rmult_le_compat; lra). assert (W3 : (w * 3 <= / 1024 * 3)%R) by (apply Rmult_le_compat; lra).
  split; [split; [exact I|]; split; [exact I|]; lra|]. split; lra.
Qed.
(** y + y + x + x *)
Example C74_sum_example :
  ((1 + pair_unit DoubleS) ^ 3 * (absolute tf 1 + sum (absolute tf) [1; 0; 0]%nat) <= bpow r2 (MAX_EXP DoubleS - 5))%R /\
  c_pairs DoubleS third_five (chain TowardPositive (Var 1) [1; 0; 0]%nat) =
    Ret (INEXACT, mkDF (mkFloat 7130699410003286 1 Normal false) (mkFloat 6380099472108201 (-53) Normal true)).
Proof.
  destruct tf_range as [T0 T]. specialize (T 0%nat). destruct pair_unit_double as [U0 U]. destruct double_sizes as [S1 _]. split; [|vm_compute; reflexivity].
  cbn [sum]. unfold absolute. rewrite (Rabs_pos_eq (tf 0)), (Rabs_pos_eq (tf 1)) by lra.
  assert (G : ((1 + pair_unit DoubleS) ^ 3 <= 2 ^ 3)%R) by (apply pow_incr; lra).
  eapply Rle_trans; [apply Rmult_le_compat; [apply pow_le; lra|lra|exact G|apply Rle_refl]|]. lra.
Qed.
(** x + x * y + y * y *)
Example C74_dot_example : let xs := [(0, 1); (1, 1)]%nat in let g := (1 + pair_unit DoubleS)%R in
  terms_ok DoubleS tf xs /\
  (g ^ 3 * (absolute tf 0 + products (absolute tf) xs) + g ^ 2 * (INR 2 * (4 * min_positive DoubleS)) <= bpow r2 (MAX_EXP DoubleS - 5))%R /\
  c_pairs DoubleS third_five (dot TowardZero (Var 0) xs) =
    Ret (INEXACT, mkDF (mkFloat 5207287069147136 1 Normal false) (mkFloat 7975124340135253 (-53) Normal false)).
Proof.
  destruct tf_range as [T0 T]. specialize (T 0%nat). destruct pair_unit_double as [U0 U]. destruct double_sizes as [S1 [S2 S3]]. cbv zeta.
  assert (XY : (0.3 * 1.2 <= tf 0 * tf 1 <= 0.4 * 1.3)%R) by (split; apply Rmult_le_compat; lra).
  assert (YY : (1.2 * 1.2 <= tf 1 * tf 1 <= 1.3 * 1.3)%R) by (split; apply Rmult_le_compat; lra).
  split; [|split; [|vm_compute; reflexivity]].
  - intros i j [Q|[Q|[]]]; assert (Q1 := f_equal fst Q); assert (Q2 := f_equal snd Q); cbn [fst snd] in Q1, Q2; subst i j; right; right; rewrite Rabs_pos_eq; lra.
  - cbn [products]. unfold absolute. rewrite (Rabs_pos_eq (tf 0)), (Rabs_pos_eq (tf 1)) by lra.
    assert (G3 : ((1 + pair_unit DoubleS) ^ 3 <= 2 ^ 3)%R) by (apply pow_incr; lra). assert (G2 : ((1 + pair_unit DoubleS) ^ 2 <= 2 ^ 2)%R) by (apply pow_incr; lra).
    cbn [INR]. eapply Rle_trans; [apply Rplus_le_compat; apply Rmult_le_compat; [apply pow_le; lra|lra|exact G3|apply Rle_refl|apply pow_le; lra|lra|exact G2|apply Rle_refl]|]. lra.
Qed.
