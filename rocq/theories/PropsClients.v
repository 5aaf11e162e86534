(** * PropsClients.v -- what clients of the crate can rely on: accumulated flags (C70),
    interval arithmetic (C71), long sums (C72) *)
From Coq Require Import ZArith Reals List Bool Lra.
From Flocq Require Import Core.
From Verif Require Import Machine Ieee Spec Total Eft Samples SpecPrograms SpecExpr Expr Interval Sum.
Import ListNotations.
Local Open Scope Z_scope.

(** ** C70: the statuses of an expression's operations, ored together *)
(** no flag exactly if no intermediate result needed rounding (and no denominator is zero);
    then the result is the number the expression denotes *)
Theorem C70_flags : forall S env, sem_ok S -> (forall i, wf S (env i)) -> (forall i, finite (env i)) -> forall e, numerals_ok e ->
  exists st f, c_eval S env e = Ret (st, f) /\ wf S f /\ (trouble st \/ finite f) /\
    (st = OK <-> needs_no_rounding S (fun i => value S (env i)) e) /\
    (st = OK -> finite f /\ value S f = exact (fun i => value S (env i)) e).
Proof. exact eval_flags. Qed.
Print Assumptions C70_flags.
(** (x * 5 - 7) / 8 for x = 3, and 1 / 3 * 3 - 1 *)
Definition sample_env (_ : nat) : Float := h_three.
Example C70_example : wf HalfS h_three /\ finite h_three /\
  c_eval HalfS sample_env (Op Div TowardZero (Op Sub TowardZero (Op Mul TowardZero (Var 0) (Num 5 TowardZero)) (Num 7 TowardZero)) (Num 8 TowardZero)) = Ret (OK, h_one) /\
  c_eval HalfS sample_env (Op Sub NearestTiesToEven (Op Mul TowardZero (Op Div TowardZero (Num 1 TowardZero) (Var 0)) (Num 3 TowardZero)) (Num 1 TowardZero)) =
    Ret (INEXACT, mkFloat 1024 (-11) Normal true) /\
  c_eval HalfS sample_env (Op Div TowardZero (Num 1 TowardZero) (Op Sub TowardZero (Var 0) (Var 1))) = Ret (DIV_BY_ZERO, INFINITY HalfS).
Proof. split; [apply h_three_wf|]. split; [left; reflexivity|]. vm_compute. repeat split. Qed.

(** ** C71: intervals with rounded ends *)
(** whatever numbers the variables stand for within their intervals, the result is within the interval computed *)
Theorem C71_encloses : forall S, sem_ok S -> NONFINITE_BEHAVIOR S = IEEE754 -> forall e env ienv, numerals_ok e ->
  (forall i, ends_ok S (ienv i) /\ contains S (ienv i) (env i)) ->
  exists k, i_eval S ienv e = Ret k /\ ends_ok S k /\ contains S k (exact env e).
Proof. exact eval_contains. Qed.
Print Assumptions C71_encloses.
(** where nothing needs rounding the interval is the number *)
Theorem C71_point : forall S, sem_ok S -> forall e env ienv, numerals_ok e ->
  (forall i, point S (ienv i) (env i)) -> needs_no_rounding S env e ->
  exists k, i_eval S ienv e = Ret k /\ point S k (exact env e).
Proof. exact eval_point. Qed.
Print Assumptions C71_point.
(** 1 / 3 * 3 - 1; x * (1 / y) for x and y in [1, 3] and [-3, -1]; and a denominator that may be zero *)
Definition one_to_three (_ : nat) : interval := (h_one, h_three).
Example C71_example :
  i_eval HalfS one_to_three (Op Sub TowardZero (Op Mul TowardZero (Op Div TowardZero (Num 1 TowardZero) (Num 3 TowardZero)) (Num 3 TowardZero)) (Num 1 TowardZero)) =
    Ret (mkFloat 1024 (-11) Normal true, mkFloat 1024 (-10) Normal false) /\
  i_eval HalfS one_to_three (Op Mul TowardZero (Var 0) (Op Div TowardZero (Num 1 TowardZero) (Opp (Var 1)))) =
    Ret (mkFloat 1536 1 Normal true, mkFloat 1365 (-2) Normal true) /\
  i_eval HalfS one_to_three (Op Div TowardZero (Var 0) (Op Sub TowardZero (Var 0) (Var 1))) = Ret (whole HalfS).
Proof. vm_compute. repeat split. Qed.
Example C71_hypotheses : forall i, ends_ok HalfS (one_to_three i) /\ contains HalfS (one_to_three i) 2.
Proof.
  intros i. split; [exact (conj h_one_wf h_three_wf)|]. exists (Fin (value HalfS h_one)), (Fin (value HalfS h_three)).
  split; [reflexivity|]. split; [reflexivity|]. cbn. split; left; cbn; unfold value; cbn; lra.
Qed.

(** ** C72: sums *)
(** n additions in any mode, if the result is safely below the largest number: no flags but
    inexact ones, and an error of at most (1 + u)^n - 1 times the sum of the absolute values *)
Theorem C72_sum : forall S, sem_ok S -> forall m xs acc, wf S acc -> finite acc -> numbers S xs ->
  ((1 + roundoff S m) ^ length xs * (Rabs (value S acc) + total_abs S xs) <= max_finite S)%R ->
  exists st r, c_sum S m acc xs = Ret (st, r) /\ wf S r /\ finite r /\ ~ trouble st /\
    (Rabs (value S r - (value S acc + total S xs)) <= ((1 + roundoff S m) ^ length xs - 1) * (Rabs (value S acc) + total_abs S xs))%R.
Proof. exact sum_bounded. Qed.
Print Assumptions C72_sum.
(** in the nearest modes the overflow flag alone tells whether the bound holds *)
Theorem C72_sum_reported : forall S, sem_ok S -> forall m xs acc, nearest m -> wf S acc -> finite acc -> numbers S xs ->
  exists st r, c_sum S m acc xs = Ret (st, r) /\ wf S r /\
    (~ raised OVERFLOW st -> finite r /\
      (Rabs (value S r - (value S acc + total S xs)) <= ((1 + roundoff S m) ^ length xs - 1) * (Rabs (value S acc) + total_abs S xs))%R).
Proof. exact sum_reported. Qed.
Print Assumptions C72_sum_reported.
(** 2048 + 1 + 1 is 2048 in half precision, nearly the worst the bound allows *)
Definition h_2048 : Float := mkFloat 1024 11 Normal false.
Example C72_example : wf HalfS h_2048 /\ finite h_2048 /\ numbers HalfS [h_one; h_one] /\
  ((1 + roundoff HalfS NearestTiesToEven) ^ 2 * (Rabs (value HalfS h_2048) + total_abs HalfS [h_one; h_one]) <= max_finite HalfS)%R /\
  c_sum HalfS NearestTiesToEven h_2048 [h_one; h_one] = Ret (INEXACT, h_2048) /\
  (Rabs (value HalfS h_2048 - (value HalfS h_2048 + total HalfS [h_one; h_one])) = 2)%R /\
  (2 < ((1 + roundoff HalfS NearestTiesToEven) ^ 2 - 1) * (Rabs (value HalfS h_2048) + total_abs HalfS [h_one; h_one]) < 2.003)%R.
Proof.
  assert (V : value HalfS h_2048 = 2048%R) by (unfold value; cbn; lra). assert (V1 : value HalfS h_one = 1%R) by (unfold value; cbn; lra).
  split; [sample_wf|]. split; [left; reflexivity|].
  split; [intros x [<-|[<-|[]]]; split; try apply h_one_wf; left; reflexivity|]. cbn [total total_abs]. rewrite V, V1.
  rewrite (Rabs_pos_eq 2048), (Rabs_pos_eq 1) by lra.
  assert (U : roundoff HalfS NearestTiesToEven = (/ 2048)%R) by (cbn; lra). rewrite U.
  split; [unfold max_finite; cbn; lra|]. split; [vm_compute; reflexivity|].
  split; [replace (2048 - (2048 + (1 + (1 + 0))))%R with (- (2))%R by lra; rewrite Rabs_Ropp; apply Rabs_pos_eq; lra|]. cbn. lra.
Qed.
