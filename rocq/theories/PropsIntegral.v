(** * PropsIntegral.v -- rounding to integral values (C17) *)
From Coq Require Import ZArith Reals List Bool.
From Flocq Require Import Core.
From Verif Require Import Machine Ieee Spec Integral Samples.
Import ListNotations.
Local Open Scope Z_scope.

Theorem C17_round_to_integral : forall S x m, sem_ok S -> wf S x -> finite x ->
  exists st r, round_to_integral S x m = Ret (st, r) /\
    wf S r /\ finite r /\ value S r = IZR (rnd_of m (value S x)) /\ sign r = sign x /\
    (value S r = value S x -> st = OK) /\ (value S r <> value S x -> st = INEXACT).
Proof. exact round_to_integral_finite. Qed.
Print Assumptions C17_round_to_integral.
Theorem C17_round_to_integral_special : forall S x m, sem_ok S -> ~ finite x ->
  round_to_integral S x m =
    match category x with
    | NaN => Ret (invalid_if (signaling S x), quieted S x)
    | _ => Ret (OK, x)
    end.
Proof. exact round_to_integral_special. Qed.
Print Assumptions C17_round_to_integral_special.
Theorem C17_is_integer : forall S x, sem_ok S -> wf S x ->
  exists b, is_integer S x = Ret b /\ (b = true <-> finite x /\ exists n, value S x = IZR n).
Proof. exact is_integer_spec. Qed.
Print Assumptions C17_is_integer.
Example C17_example : wf HalfS h_neg /\ finite h_neg /\
  round_to_integral HalfS h_neg TowardPositive = Ret (INEXACT, neg h_one) /\
  round_to_integral HalfS (neg h_min) TowardPositive = Ret (INEXACT, h_nzero) /\
  round_to_integral HalfS h_neg NearestTiesToEven = Ret (INEXACT, mkFloat 1024 1 Normal true) /\
  round_to_integral HalfS h_max NearestTiesToEven = Ret (OK, h_max) /\
  is_integer HalfS h_ten = Ret true /\ is_integer HalfS h_neg = Ret false.
Proof. split; [exact h_neg_wf|]. split; [left; reflexivity|]. vm_compute. repeat split. Qed.
