(** * PropsBisect.v -- bisection ends at neighbours (C77) *)
From Coq Require Import ZArith Reals List Bool Lra Lia.
From Flocq Require Import Core.
From Verif Require Import Machine Ieee Spec Samples Eft Bisect.
Import ListNotations.
Local Open Scope Z_scope.

(** ** C77: bisection with (a + b) * 0.5 *)
Theorem C77_bisect : forall S, sem_ok S -> forall m, nearest m -> forall half, wf S half -> finite half -> value S half = (/ 2)%R ->
  forall (p : Float -> bool) fuel a b, wf S a -> wf S b -> finite a -> finite b ->
  (Rabs (value S a) <= bpow r2 (MAX_EXP S - 1))%R -> (Rabs (value S b) <= bpow r2 (MAX_EXP S - 1))%R -> (value S a < value S b)%R ->
  p a = false -> p b = true -> 3 * (MAX_EXP S - MIN_EXP S + PRECISION S - 1) < Z.of_nat fuel ->
  exists a' b', c_bisect S m half p fuel a b = Ret (a', b') /\ wf S a' /\ wf S b' /\ finite a' /\ finite b' /\
    (value S a <= value S a' < value S b')%R /\ (value S b' <= value S b)%R /\
    neighbours S (value S a') (value S b') /\ p a' = p a /\ p b' = p b.
Proof. exact bisect_ends. Qed.
Print Assumptions C77_bisect.
(** rounded to nearest the computed midpoint is that of the exact one, and lies inside as long as any number does *)
Theorem C77_midpoint : forall S, sem_ok S -> forall m, nearest m -> forall half, wf S half -> finite half -> value S half = (/ 2)%R ->
  forall a b, wf S a -> wf S b -> finite a -> finite b ->
  (Rabs (value S a) <= bpow r2 (MAX_EXP S - 1))%R -> (Rabs (value S b) <= bpow r2 (MAX_EXP S - 1))%R ->
  exists st s st' c, add_r S a b m = Ret (st, s) /\ mul_r S s half m = Ret (st', c) /\ wf S c /\ finite c /\
    value S c = rounded S m ((value S a + value S b) / 2) /\
    (forall z, generic_format r2 (fexp S) z -> (value S a < z < value S b)%R -> (value S a < value S c < value S b)%R).
Proof. exact midpoint_inside. Qed.
Print Assumptions C77_midpoint.
(** rounded up it need not: between the predecessor and the successor of one it is not one *)
Theorem C77_upward_refuted : exists a b c, wf HalfS a /\ wf HalfS b /\ wf HalfS c /\
  (value HalfS a < value HalfS c < value HalfS b)%R /\
  forall p fuel, c_bisect HalfS TowardPositive h_half p (Datatypes.S fuel) a b = Ret (a, b).
Proof. exact upward_refuted. Qed.
Print Assumptions C77_upward_refuted.

(** the square root of two lies between 1448/1024 and 1449/1024 *)
Definition h_two : Float := mkFloat 1024 1 Normal false.
Definition square_over_two (x : Float) : bool :=
  match mul_r HalfS x x TowardZero with
  | Ret (_, y) => match lt_f y h_two with Ret b => negb b | _ => false end
  | _ => false
  end.
Example C77_example : wf HalfS h_half /\ finite h_half /\ value HalfS h_half = (/ 2)%R /\ wf HalfS h_one /\ wf HalfS h_ten /\
  (Rabs (value HalfS h_one) <= bpow r2 (MAX_EXP HalfS - 1))%R /\ (Rabs (value HalfS h_ten) <= bpow r2 (MAX_EXP HalfS - 1))%R /\
  (value HalfS h_one < value HalfS h_ten)%R /\
  square_over_two h_one = false /\ square_over_two h_ten = true /\ 3 * (MAX_EXP HalfS - MIN_EXP HalfS + PRECISION HalfS - 1) = 117 /\
  c_bisect HalfS NearestTiesToEven h_half square_over_two 118 h_one h_ten = Ret (mkFloat 1448 0 Normal false, mkFloat 1449 0 Normal false) /\
  c_bisect HalfS NearestTiesToEven h_half square_over_two 14 h_one h_ten = Diverge.
Proof.
  assert (V1 : value HalfS h_one = 1%R) by (unfold value; cbn; lra). assert (V2 : value HalfS h_ten = 10%R) by (unfold value; cbn; lra).
  split; [unfold h_half; sample_wf|]. split; [left; reflexivity|]. split; [unfold value; cbn; lra|]. split; [exact h_one_wf|]. split; [exact h_ten_wf|].
  rewrite V1, V2, !Rabs_pos_eq by lra. split; [cbn; lra|]. split; [cbn; lra|]. split; [lra|]. vm_compute. repeat split.
Qed.
