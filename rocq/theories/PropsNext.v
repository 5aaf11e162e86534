(** * PropsNext.v -- neighbours, exact inverses (C14, C24) *)
From Coq Require Import ZArith Reals List Bool.
From Flocq Require Import Core.
From Verif Require Import Machine Ieee Spec Next Samples.
Import ListNotations.
Local Open Scope Z_scope.

Theorem C14_next_up : forall S x a, sem_ok S -> wf S x -> ext_of S x = Some a ->
  exists r, next_up S x = Ret (OK, r) /\ least_above S a r /\ (finite r -> value S r = 0%R -> sign r = true).
Proof. exact next_up_spec. Qed.
Print Assumptions C14_next_up.
Theorem C14_next_down : forall S x a, sem_ok S -> wf S x -> ext_of S x = Some a ->
  exists r, next_down S x = Ret (OK, r) /\ greatest_below S a r /\ (finite r -> value S r = 0%R -> sign r = false).
Proof. exact next_down_spec. Qed.
Print Assumptions C14_next_down.
Theorem C14_next_down_next_up : forall S x, sem_ok S -> wf S x -> finite x ->
  exists r, next_up S x = Ret (OK, r) /\
    (finite r -> exists r', next_down S r = Ret (OK, r') /\ finite r' /\ value S r' = value S x).
Proof. exact next_down_next_up. Qed.
Print Assumptions C14_next_down_next_up.
Example C14_example : next_up HalfS h_max = Ret (OK, h_inf) /\ next_up HalfS (neg h_min) = Ret (OK, h_nzero) /\
  next_up HalfS h_one = Ret (OK, h_one_ulp) /\ next_down HalfS h_inf = Ret (OK, h_max) /\
  next_down HalfS h_zero = Ret (OK, neg h_min) /\ next_up Float8E4M3FNS (neg e_mmin) = Ret (OK, mkFloat 2 (-6) Normal false).
Proof. vm_compute. repeat split. Qed.
Theorem C24_get_exact_inverse : forall S x, sem_ok S -> wf S x ->
  exists o, get_exact_inverse S x = Ret o /\
    match o with
    | Some y => finite x /\ wf S y /\ category y = Normal /\ (min_normal S <= Rabs (value S x))%R /\
                (min_normal S <= Rabs (value S y))%R /\ (value S x * value S y = 1)%R /\ sign y = sign x
    | None => ~ (finite x /\ (min_normal S <= Rabs (value S x))%R /\
                 exists y, representable S y /\ (min_normal S <= Rabs y)%R /\ (value S x * y = 1)%R)
    end.
Proof. exact get_exact_inverse_spec. Qed.
Print Assumptions C24_get_exact_inverse.
Example C24_example : get_exact_inverse HalfS (mkFloat 1024 3 Normal true) = Ret (Some (mkFloat 1024 (-3) Normal true)) /\
  get_exact_inverse HalfS h_three = Ret None /\ get_exact_inverse HalfS h_min = Ret None.
Proof. vm_compute. repeat split. Qed.
