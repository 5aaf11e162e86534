(** * PropsRem.v -- remainders (C18, C19) *)
From Coq Require Import ZArith Reals List Bool Lra.
From Flocq Require Import Core.
From Verif Require Import Machine Ieee Spec Rem Samples.
Import ListNotations.
Local Open Scope Z_scope.

Theorem C18_c_fmod : forall S x y, sem_ok S -> wf S x -> wf S y -> finite x -> category y = Normal ->
  exists r, c_fmod S x y = Ret (OK, r) /\ wf S r /\ finite r /\
    value S r = (value S x - IZR (Ztrunc (value S x / value S y)) * value S y)%R /\
    sign r = sign x /\ (Rabs (value S r) < Rabs (value S y))%R.
Proof. exact c_fmod_finite. Qed.
Print Assumptions C18_c_fmod.
Theorem C19_ieee_rem : forall S x y, sem_ok S -> wf S x -> wf S y -> finite x -> category y = Normal ->
  exists r n, ieee_rem S x y = Ret (OK, r) /\ wf S r /\ finite r /\
    value S r = (value S x - IZR n * value S y)%R /\
    (2 * Rabs (value S r) <= Rabs (value S y))%R /\
    (2 * Rabs (value S r) = Rabs (value S y) -> Z.even n = true)%R /\
    (value S r = 0%R -> sign r = sign x).
Proof. exact ieee_rem_finite. Qed.
Print Assumptions C19_ieee_rem.
(** the conditions on the quotient say that it is x/y rounded to nearest, ties to even *)
Theorem C19_nearest_quotient : forall a b n r, b <> 0%R -> r = (a - IZR n * b)%R -> (2 * Rabs r <= Rabs b)%R ->
  ((2 * Rabs r = Rabs b)%R -> Z.even n = true) -> ZnearestE (a / b) = n.
Proof. exact nearest_quotient. Qed.
Print Assumptions C19_nearest_quotient.
(** 10 = 3 * 3 + 1; 3 = 2 * 2 - 1, a tie *)
Example C19_nearest_quotient_example :
  (3 <> 0)%R /\ (1 = 10 - IZR 3 * 3)%R /\ (2 * Rabs 1 <= Rabs 3)%R /\ ((2 * Rabs 1 = Rabs 3)%R -> Z.even 3 = true) /\
  (-1 = 3 - IZR 2 * 2)%R /\ (2 * Rabs (-1) = Rabs 2)%R /\ Z.even 2 = true.
Proof.
  rewrite (Rabs_pos_eq 1), (Rabs_pos_eq 3), (Rabs_pos_eq 2), Rabs_left by lra.
  repeat split; try reflexivity; lra.
Qed.
Example C18_C19_example : wf HalfS h_ten /\ wf HalfS h_three /\ finite h_ten /\ category h_three = Normal /\
  c_fmod HalfS (neg h_ten) h_three = Ret (OK, neg h_one) /\ ieee_rem HalfS h_ten h_three = Ret (OK, h_one) /\
  c_fmod HalfS h_max h_min = Ret (OK, h_zero) /\ ieee_rem HalfS h_three (mkFloat 1024 1 Normal false) = Ret (OK, neg h_one).
Proof.
  split; [exact h_ten_wf|]. split; [exact h_three_wf|]. split; [left; reflexivity|]. vm_compute. repeat split.
Qed.
