(** * PropsErrors.v -- how far computed expressions are from the numbers they denote (C73) *)
From Coq Require Import ZArith Reals List Bool Lra.
From Flocq Require Import Core.
From Verif Require Import Machine Ieee Spec Total Samples SpecPrograms SpecExpr Expr Sum ExprError.
Import ListNotations.
Local Open Scope Z_scope.

(** ** C73: error bounds *)
(** any expression, the modes mixed at will: if [error] keeps the denominators away from zero and
    the results below the largest number, then no flags but inexact and underflow ones are raised
    and the result is within [error] of the number denoted *)
Theorem C73_expression : forall S, sem_ok S -> forall env, (forall i, wf S (env i)) -> (forall i, finite (env i)) ->
  let val := fun i => value S (env i) in forall e, numerals_ok e -> in_bounds S val e ->
  exists st f, c_eval S env e = Ret (st, f) /\ wf S f /\ finite f /\ ~ trouble st /\
    (Rabs (value S f - exact val e) <= error S val e)%R.
Proof. exact eval_error. Qed.
Print Assumptions C73_expression.
(** dot products of any length *)
Theorem C73_dot : forall S, sem_ok S -> forall env, (forall i, wf S (env i)) -> (forall i, finite (env i)) ->
  let val := fun i => value S (env i) in forall m xs,
  let g := (1 + roundoff S m)%R in let n := length xs in
  let bound := fun k => (k * products (absolute val) xs + g ^ n * (INR n * slack S m))%R in
  (bound (g ^ (n + 1)) <= max_finite S)%R ->
  exists st f, c_eval S env (dot m (Num 0 m) xs) = Ret (st, f) /\ wf S f /\ finite f /\ ~ trouble st /\
    (Rabs (value S f - products val xs) <= bound (g ^ (n + 1) - 1))%R.
Proof. exact eval_dot. Qed.
Print Assumptions C73_dot.
(** polynomials of any degree, by Horner's rule *)
Theorem C73_horner : forall S, sem_ok S -> forall env, (forall i, wf S (env i)) -> (forall i, finite (env i)) ->
  let val := fun i => value S (env i) in forall m x c0 cs,
  let g := (1 + roundoff S m)%R in let n := length cs in let e := horner m x (Var c0) cs in
  in_bounds S val e ->
  exists st f, c_eval S env e = Ret (st, f) /\ wf S f /\ finite f /\ ~ trouble st /\
    (Rabs (value S f - polynomial val x (val c0) cs) <= (g ^ (2 * n) - 1) * polynomial (absolute val) x (absolute val c0) cs +
      geometric (g * slack S m) (g * g * absolute val x) n)%R.
Proof. exact eval_horner. Qed.
Print Assumptions C73_horner.

(** three is variable 0; every other variable is 341 / 1024, nearly a third *)
Definition h_third : Float := mkFloat 1364 (-2) Normal false.
Definition three_third (i : nat) : Float := match i with O => h_three | _ => h_third end.
Lemma three_third_wf : forall i, wf HalfS (three_third i) /\ finite (three_third i).
Proof. intros [|i]; split; try (left; reflexivity); [apply h_three_wf|cbn [three_third]; sample_wf]. Qed.
Lemma three_third_value : forall i, value HalfS (three_third i) = match i with O => 3%R | _ => (341 / 1024)%R end.
Proof. intros [|i]; unfold value; cbn; lra. Qed.
Lemma half_roundoff : forall m, (0 < roundoff HalfS m <= / 1024)%R.
Proof. intros m. destruct m; cbn; lra. Qed.
Lemma half_slack : forall m, (0 < slack HalfS m <= / 16777216)%R.
Proof. intros m. destruct m; unfold slack, min_positive; cbn; lra. Qed.
Lemma half_max : max_finite HalfS = 65504%R.
Proof. unfold max_finite; cbn; lra. Qed.
(** 1 / x for x = 3 *)
Example C73_example : let val := fun i => value HalfS (three_third i) in
  let e := Op Div NearestTiesToEven (Num 1 NearestTiesToEven) (Var 0) in
  numerals_ok e /\ in_bounds HalfS val e /\
  c_eval HalfS three_third e = Ret (INEXACT, mkFloat 1365 (-2) Normal false) /\
  (exact val e = / 3)%R /\ (value HalfS (mkFloat 1365 (-2) Normal false) = 1365 / 4096)%R /\
  (error HalfS val e = 2 / 6144 + / 12582912 + / 33554432)%R.
Proof.
  cbv zeta. assert (X : exact (fun i => value HalfS (three_third i)) (Op Div NearestTiesToEven (Num 1 NearestTiesToEven) (Var 0)) = (/ 3)%R).
  { cbn [exact real_op]. rewrite three_third_value. lra. }
  assert (U : roundoff HalfS NearestTiesToEven = (/ 2048)%R) by (cbn; lra).
  assert (N : slack HalfS NearestTiesToEven = (/ 33554432)%R) by (unfold slack, min_positive; cbn; lra).
  assert (E : error HalfS (fun i => value HalfS (three_third i)) (Op Div NearestTiesToEven (Num 1 NearestTiesToEven) (Var 0)) =
    (2 / 6144 + / 12582912 + / 33554432)%R).
  { cbn [error own_slack carried]. cbv zeta. rewrite X. cbn [exact]. rewrite three_third_value, U, N.
    rewrite (Rabs_pos_eq 1), (Rabs_pos_eq 3), (Rabs_pos_eq (/ 3)) by lra. lra. }
  split; [split; [split; [intros L; discriminate L|reflexivity]|exact I]|]. split.
  { cbn [in_bounds]. rewrite E, X, half_max. split.
    - cbn [error]. rewrite U, (Rabs_pos_eq 1) by lra. lra.
    - split; [exact I|]. split; [|rewrite Rabs_pos_eq by lra; lra]. intros _. cbn [error exact]. rewrite three_third_value, Rabs_pos_eq by lra. lra. }
  split; [vm_compute; reflexivity|]. split; [exact X|]. split; [unfold value; cbn; lra|exact E].
Qed.
(** x * y + y * y toward zero *)
Example C73_dot_example : let val := fun i => value HalfS (three_third i) in
  let xs := [(0, 1); (1, 1)]%nat in let g := (1 + roundoff HalfS TowardZero)%R in
  (g ^ 3 * products (absolute val) xs + g ^ 2 * (INR 2 * slack HalfS TowardZero) <= max_finite HalfS)%R /\
  c_eval HalfS three_third (dot TowardZero (Num 0 TowardZero) xs) = Ret (INEXACT, mkFloat 1136 0 Normal false) /\
  (products val xs = 1136 / 1024 + 569 / 1048576)%R.
Proof.
  cbv zeta. pose proof (half_roundoff TowardZero) as U. pose proof (half_slack TowardZero) as N. split; [|split].
  - rewrite half_max. cbn [products]. unfold absolute. rewrite !three_third_value. rewrite (Rabs_pos_eq 3), (Rabs_pos_eq (341 / 1024)) by lra.
    assert (G : roundoff HalfS TowardZero = (/ 1024)%R) by (cbn; lra). rewrite G. cbn [pow INR]. lra.
  - vm_compute. reflexivity.
  - cbn [products]. rewrite !three_third_value. lra.
Qed.
(** (y * y + y) * y + 3 toward zero *)
Example C73_horner_example : let val := fun i => value HalfS (three_third i) in
  in_bounds HalfS val (horner TowardZero 1 (Var 1) [1; 0]%nat) /\
  c_eval HalfS three_third (horner TowardZero 1 (Var 1) [1; 0]%nat) = Ret (INEXACT, mkFloat 1611 1 Normal false) /\
  (polynomial val 1 (val 1%nat) [1; 0]%nat = 1611 / 512 + 1437165 / 1073741824)%R.
Proof.
  cbv zeta. assert (G : roundoff HalfS TowardZero = (/ 1024)%R) by (cbn; lra). pose proof (half_slack TowardZero) as N. split; [|split].
  - cbn [horner in_bounds error exact real_op carried own_slack]. cbv zeta. rewrite !three_third_value, G, half_max.
    set (y := (341 / 1024)%R). assert (Y : (0 <= y <= 1)%R) by (unfold y; lra).
    rewrite (Rabs_pos_eq (y * y)), (Rabs_pos_eq y), (Rabs_pos_eq (y * y + y)), (Rabs_pos_eq ((y * y + y) * y)), (Rabs_pos_eq ((y * y + y) * y + 3)) by nra.
    set (h := slack HalfS TowardZero) in *. unfold y.
    split; [|split; [exact I|split; [discriminate|lra]]]. split; [|split; [exact I|split; [discriminate|lra]]].
    split; [|split; [exact I|split; [discriminate|lra]]]. split; [exact I|]. split; [exact I|]. split; [discriminate|lra].
  - vm_compute. reflexivity.
  - cbn [polynomial length pow]. rewrite !three_third_value. lra.
Qed.
