(** * PropsWidening.v -- what may be done before or after a conversion to a wider format (C79) *)
From Coq Require Import ZArith Reals List Bool Lra Lia.
From Flocq Require Import Core.
From Verif Require Import Machine Ieee Spec Samples Samples Widening.
Import ListNotations.
Local Open Scope Z_scope.

(** ** C79: operations on converted numbers *)
(** [convertible S T x]: well-formed, and T has infinities if x is one; NaNs included *)
Theorem C79_compare : forall S T, sem_ok S -> sem_ok T -> contains T S ->
  forall x y m m' st X lost st' Y lost', convertible S T x -> convertible S T y ->
  convert_r S T x m = Ret (st, X, lost) -> convert_r S T y m' = Ret (st', Y, lost') ->
  partial_cmp X Y = partial_cmp x y.
Proof. exact widen_compare. Qed.
Print Assumptions C79_compare.
(** the same operand is chosen *)
Theorem C79_min_max : forall S T, sem_ok S -> sem_ok T -> contains T S ->
  forall f, f = min \/ f = max \/ f = minimum \/ f = maximum ->
  forall x y m m' st X lost st' Y lost', convertible S T x -> convertible S T y ->
  convert_r S T x m = Ret (st, X, lost) -> convert_r S T y m' = Ret (st', Y, lost') ->
  exists b : bool, f x y = Ret (if b then x else y) /\ f X Y = Ret (if b then X else Y).
Proof. exact widen_choice. Qed.
Print Assumptions C79_min_max.
(** the same integer, status and exactness *)
Theorem C79_to_int : forall S T, sem_ok S -> sem_ok T -> contains T S ->
  forall x m st X lost, convertible S T x -> convert_r S T x m = Ret (st, X, lost) ->
  forall w m', (1 <= w <= 128 -> to_u128_r T X w m' = to_u128_r S x w m') /\ (2 <= w <= 128 -> to_i128_r T X w m' = to_i128_r S x w m').
Proof. exact widen_to_int. Qed.
Print Assumptions C79_to_int.
Theorem C79_ilogb : forall S T, sem_ok S -> sem_ok T -> contains T S ->
  forall x m st X lost, convertible S T x -> convert_r S T x m = Ret (st, X, lost) -> ilogb T X = ilogb S x.
Proof. exact widen_ilogb. Qed.
Print Assumptions C79_ilogb.
Theorem C79_sign : forall S T, sem_ok S -> sem_ok T -> contains T S ->
  forall x m st X lost, wf S x -> finite x -> convert_r S T x m = Ret (st, X, lost) ->
  forall m', (exists Y, convert_r S T (neg x) m' = Ret (OK, Y, false) /\ bitwise_eq Y (neg X) = true) /\
    (exists Y, convert_r S T (Ieee.abs x) m' = Ret (OK, Y, false) /\ bitwise_eq Y (Ieee.abs X) = true).
Proof. exact widen_sign. Qed.
Print Assumptions C79_sign.
Theorem C79_round_to_integral : forall S T, sem_ok S -> sem_ok T -> contains T S ->
  forall x m st X lost, wf S x -> finite x -> convert_r S T x m = Ret (st, X, lost) ->
  forall m' m'', exists st' r R Y, round_to_integral S x m' = Ret (st', r) /\ round_to_integral T X m' = Ret (st', R) /\
    convert_r S T r m'' = Ret (OK, Y, false) /\ bitwise_eq Y R = true.
Proof. exact widen_integral. Qed.
Print Assumptions C79_round_to_integral.
(** ** comparisons with a number outside the narrow format: round it up for <, down for > *)
Theorem C79_constant : forall S T, sem_ok S -> sem_ok T -> contains T S ->
  NONFINITE_BEHAVIOR S = IEEE754 -> forall x m st X lost c, wf S x -> finite x -> wf T c -> finite c ->
  convert_r S T x m = Ret (st, X, lost) -> forall up down su sd lu ld,
  convert_r T S c TowardPositive = Ret (su, up, lu) -> convert_r T S c TowardNegative = Ret (sd, down, ld) ->
  lt_f X c = lt_f x up /\ gt_f X c = gt_f x down.
Proof. exact widen_constant. Qed.
Print Assumptions C79_constant.
(** an integer converted exactly compares like the integer with the number rounded to an integer *)
Theorem C79_integer : forall S, sem_ok S -> forall n m x c w m' st k ex, - 2 ^ 127 <= n < 2 ^ 127 -> from_i128_r S n m = Ret (OK, x) ->
  wf S c -> finite c -> 2 <= w <= 128 -> to_i128_r S c w m' = Ret (st, k, ex) -> st <> INVALID_OP ->
  (m' = TowardPositive -> lt_f x c = Ret (n <? k)) /\ (m' = TowardNegative -> gt_f x c = Ret (k <? n)).
Proof. exact int_above. Qed.
Print Assumptions C79_integer.

(** half in single: 1.5 is less than 1.5 + 2^-20 as it is less than the next half *)
Definition s_neg : Float := mkFloat (3 * 2 ^ 22) 0 Normal true.
Definition s_const : Float := mkFloat (3 * 2 ^ 22 + 8) 0 Normal true.
Example C79_example : sem_ok HalfS /\ sem_ok SingleS /\ contains SingleS HalfS /\ convertible HalfS SingleS h_neg /\ convertible HalfS SingleS h_ninf /\
  wf SingleS s_const /\
  convert_r HalfS SingleS h_neg TowardZero = Ret (OK, s_neg, false) /\
  convert_r HalfS SingleS h_ninf TowardZero = Ret (OK, mkFloat 0 128 Infinity true, false) /\
  partial_cmp h_neg h_ninf = Ret (Some Gt) /\
  to_i128_r HalfS h_neg 8 TowardNegative = Ret (INEXACT, -2, false) /\
  round_to_integral HalfS h_neg TowardZero = Ret (INEXACT, neg h_one) /\
  convert_r SingleS HalfS s_const TowardPositive = Ret (INEXACT, h_neg, true) /\
  convert_r SingleS HalfS s_const TowardNegative = Ret (INEXACT, mkFloat 1537 0 Normal true, true) /\
  lt_f s_neg s_const = Ret false /\ gt_f s_neg s_const = Ret true /\ gt_f h_neg (mkFloat 1537 0 Normal true) = Ret true /\
  from_i128_r HalfS (-1) TowardZero = Ret (OK, neg h_one) /\ to_i128_r HalfS h_neg 8 TowardPositive = Ret (INEXACT, -1, false) /\
  gt_f (neg h_one) h_neg = Ret true /\ lt_f (neg h_one) h_neg = Ret false.
Proof.
  split; [exact half_ok|]. split; [exact single_ok|]. split; [exact single_contains_half|]. split; [split; [exact h_neg_wf|discriminate]|].
  split; [split; [exact h_ninf_wf|reflexivity]|]. split; [unfold s_const; sample_wf|]. vm_compute. repeat split.
Qed.
