(** * PropsCompensated.v -- compensated sums and dot products (C76) *)
From Coq Require Import ZArith Reals List Bool Lra Lia.
From Flocq Require Import Core.
From Verif Require Import Machine Ieee Spec Samples Eft SpecPrograms SpecExpr Expr Sum Compensated.
Import ListNotations.
Local Open Scope Z_scope.

(** ** C76: as accurate as if computed with twice the precision *)
Theorem C76_sum : forall S, sem_ok S -> forall m, nearest m -> forall xs acc, wf S acc -> finite acc -> numbers S xs ->
  let u := roundoff S m in let g := (1 + u)%R in
  let n := length xs in let t := (Rabs (value S acc) + total_abs S xs)%R in let v := (value S acc + total S xs)%R in
  (g ^ (2 * n + 1) * t <= bpow r2 (MAX_EXP S - 4))%R ->
  exists r, c_sum2 S m acc xs = Ret r /\ wf S r /\ finite r /\
    (Rabs (value S r - v) <= u * Rabs v + g * (g ^ n - 1) ^ 2 * t)%R.
Proof. exact sum2_error. Qed.
Print Assumptions C76_sum.
Theorem C76_dot : forall S, sem_ok S -> forall m, nearest m -> forall xs, factors S xs ->
  let u := roundoff S m in let g := (1 + u)%R in
  let n := length xs in let t := ((1 + 2 * u) * inner_abs S xs)%R in
  (g ^ (4 * n + 1) * t <= bpow r2 (MAX_EXP S - 4))%R ->
  exists r, c_dot2 S m xs = Ret r /\ wf S r /\ finite r /\
    (Rabs (value S r - inner S xs) <= u * Rabs (inner S xs) + g * (g ^ (2 * n) - 1) ^ 2 * t)%R.
Proof. exact dot2_error. Qed.
Print Assumptions C76_dot.
(** the additions' own errors are kept exactly: what is left out is the rounding of their sum *)
Theorem C76_errors : forall S, sem_ok S -> forall m, nearest m -> forall xs acc comp, wf S acc -> finite acc -> wf S comp -> finite comp -> numbers S xs ->
  let g := (1 + roundoff S m)%R in
  let n := length xs in let t := (Rabs (value S acc) + total_abs S xs)%R in
  (g ^ n * t <= bpow r2 (MAX_EXP S - 4))%R -> (g ^ n * (Rabs (value S comp) + (g ^ n - 1) * t) <= bpow r2 (MAX_EXP S - 4))%R ->
  exists s c e b, c_errors S m acc comp xs = Ret (s, c) /\ wf S s /\ finite s /\ wf S c /\ finite c /\
    (value S s + e = value S acc + total S xs)%R /\ (Rabs (value S s) <= g ^ n * t)%R /\
    (Rabs e <= b)%R /\ (b <= (g ^ n - 1) * t)%R /\
    (Rabs (value S c - (value S comp + e)) <= (g ^ n - 1) * (Rabs (value S comp) + b))%R.
Proof. exact errors_kept. Qed.
Print Assumptions C76_errors.

(** 512 + 1.5 * 2^-10 - 512: nothing is left of it in a plain sum *)
Definition h_512 : Float := mkFloat 1024 9 Normal false.
Definition h_one_two : Float := mkFloat 1026 0 Normal true.
Lemma half_u : roundoff HalfS NearestTiesToEven = (/ 2048)%R.
Proof. cbn; lra. Qed.
Example C76_sum_example : let xs := [h_small; neg h_512] in
  nearest NearestTiesToEven /\ wf HalfS h_512 /\ finite h_512 /\ numbers HalfS xs /\
  ((1 + roundoff HalfS NearestTiesToEven) ^ 5 * (Rabs (value HalfS h_512) + total_abs HalfS xs) <= bpow r2 (MAX_EXP HalfS - 4))%R /\
  c_sum HalfS NearestTiesToEven h_512 xs = Ret (INEXACT, h_zero) /\ c_sum2 HalfS NearestTiesToEven h_512 xs = Ret h_small /\
  c_errors HalfS NearestTiesToEven h_512 h_zero xs = Ret (h_zero, h_small).
Proof.
  cbv zeta. split; [left; reflexivity|]. split; [unfold h_512; sample_wf|]. split; [left; reflexivity|]. split; [|split].
  - intros x [<-|[<-|[]]]; split; try (left; reflexivity); [exact h_small_wf|unfold h_512; cbn; sample_wf].
  - rewrite half_u. unfold total_abs. replace (value HalfS h_512) with 512%R by (unfold value; cbn; lra).
    replace (value HalfS h_small) with (3 / 2048)%R by (unfold value; cbn; lra). replace (value HalfS (neg h_512)) with (-512)%R by (unfold value; cbn; lra).
    rewrite (Rabs_left (-512)), !Rabs_pos_eq by lra. cbn; lra.
  - vm_compute. repeat split.
Qed.
(** (1 + 2^-10)^2 - (1 + 2^-9) is 2^-20 *)
Example C76_dot_example : let xs := [(h_one_ulp, h_one_ulp); (h_one, h_one_two)] in
  factors HalfS xs /\
  ((1 + roundoff HalfS NearestTiesToEven) ^ 9 * ((1 + 2 * roundoff HalfS NearestTiesToEven) * inner_abs HalfS xs) <= bpow r2 (MAX_EXP HalfS - 4))%R /\
  c_dot2 HalfS NearestTiesToEven xs = Ret (mkFloat 16 (-14) Normal false) /\ inner HalfS xs = (/ 1048576)%R.
Proof.
  cbv zeta. assert (V1 : value HalfS h_one_ulp = (1025 / 1024)%R) by (unfold value; cbn; lra). assert (V2 : value HalfS h_one = 1%R) by (unfold value; cbn; lra).
  assert (V3 : value HalfS h_one_two = (- (1026 / 1024))%R) by (unfold value; cbn; lra).
  split; [|split; [|split]].
  - intros x y [E|[E|[]]]; inversion E; subst; (split; [first [exact h_one_ulp_wf|exact h_one_wf]|]); (split; [first [exact h_one_ulp_wf|unfold h_one_two; sample_wf]|]);
      (split; [left; reflexivity|]); (split; [left; reflexivity|]); right.
    + rewrite V1. rewrite Rabs_pos_eq by lra. cbn. lra.
    + rewrite V2, V3. rewrite Rabs_left by lra. cbn. lra.
  - rewrite half_u. unfold inner_abs. rewrite V1, V2, V3. rewrite Rabs_pos_eq, Rabs_left by lra. cbn. lra.
  - vm_compute. reflexivity.
  - unfold inner. rewrite V1, V2, V3. lra.
Qed.
