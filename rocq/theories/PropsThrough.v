(** * PropsThrough.v -- computing in a wider format (C55) *)
From Coq Require Import ZArith Reals List Bool.
From Flocq Require Import Core.
From Verif Require Import Machine Ieee Spec Formats Samples Through.
Import ListNotations.
Local Open Scope Z_scope.

(** [same_through T S op m x y]: the operands convert to T without loss, and the
    operation done in T and converted back in mode m delivers the float that it
    delivers in S; the result in S is exact if and only if both steps are.
    [wider T S]: T has infinities, a binade above the largest number of S and
    all the numbers of S.  [usual S m]: S has infinities or m is no directed
    mode. *)
Theorem C55_add : forall S T x y m, sem_ok S -> sem_ok T -> wider T S -> 2 * PRECISION S + 1 <= PRECISION T -> usual S m ->
  wf S x -> wf S y -> finite x -> finite y ->
  same_through T S (fun F a b => add_r F a b m) m x y.
Proof. exact add_through. Qed.
Print Assumptions C55_add.
Theorem C55_sub : forall S T x y m, sem_ok S -> sem_ok T -> wider T S -> 2 * PRECISION S + 1 <= PRECISION T -> usual S m ->
  wf S x -> wf S y -> finite x -> finite y ->
  same_through T S (fun F a b => sub_r F a b m) m x y.
Proof. exact sub_through. Qed.
Print Assumptions C55_sub.
Theorem C55_mul : forall S T x y m, sem_ok S -> sem_ok T -> wider T S ->
  2 * PRECISION S <= PRECISION T -> emin T <= 2 * emin S -> usual S m ->
  wf S x -> wf S y -> finite x -> finite y ->
  same_through T S (fun F a b => mul_r F a b m) m x y.
Proof. exact mul_through. Qed.
Print Assumptions C55_mul.
Theorem C55_div : forall S T x y m, sem_ok S -> sem_ok T -> wider T S ->
  2 * PRECISION S <= PRECISION T -> emin T <= emin S - PRECISION S - 2 -> usual S m ->
  wf S x -> wf S y -> finite x -> category y = Normal ->
  same_through T S (fun F a b => div_r F a b m) m x y.
Proof. exact div_through. Qed.
Print Assumptions C55_div.
Theorem C55_fmod : forall S T x y m, sem_ok S -> sem_ok T -> contains T S ->
  wf S x -> wf S y -> finite x -> category y = Normal ->
  same_through T S c_fmod m x y.
Proof. exact fmod_through. Qed.
Print Assumptions C55_fmod.
Theorem C55_rem : forall S T x y m, sem_ok S -> sem_ok T -> contains T S ->
  wf S x -> wf S y -> finite x -> category y = Normal ->
  same_through T S ieee_rem m x y.
Proof. exact rem_through. Qed.
Print Assumptions C55_rem.

(** formats of the crate that meet the conditions of all six *)
Theorem C55_formats : qualifies SingleS HalfS /\ qualifies DoubleS SingleS /\ qualifies QuadS DoubleS /\
  qualifies HalfS Float8E4M3FNS /\ qualifies SingleS Float8E5M2S /\ qualifies DoubleS BFloatS /\ qualifies DoubleS HalfS.
Proof. exact qualifying_formats. Qed.
Print Assumptions C55_formats.
(** without the bound on the precision it fails: sums of doubles through x87 *)
Theorem C55_x87_refuted : exists x y, wf DoubleS x /\ wf DoubleS y /\ finite x /\ finite y /\ wider X87DoubleExtendedS DoubleS /\
  ~ same_through X87DoubleExtendedS DoubleS (fun F a b => add_r F a b NearestTiesToEven) NearestTiesToEven x y.
Proof. exact x87_through_refuted. Qed.
Print Assumptions C55_x87_refuted.
Example C55_example : qualifies SingleS HalfS /\ wf HalfS h_one_ulp /\ wf HalfS h_three /\
  mul_r HalfS h_one_ulp h_three TowardPositive = Ret (INEXACT, mkFloat 1538 1 Normal false) /\
  convert_r HalfS SingleS h_one_ulp TowardPositive = Ret (OK, mkFloat 8396800 0 Normal false, false) /\
  convert_r HalfS SingleS h_three TowardPositive = Ret (OK, mkFloat 12582912 1 Normal false, false) /\
  mul_r SingleS (mkFloat 8396800 0 Normal false) (mkFloat 12582912 1 Normal false) TowardPositive = Ret (OK, mkFloat 12595200 1 Normal false) /\
  convert_r SingleS HalfS (mkFloat 12595200 1 Normal false) TowardPositive = Ret (INEXACT, mkFloat 1538 1 Normal false, true).
Proof.
  split; [apply qualifying_formats|]. split; [exact h_one_ulp_wf|]. split; [exact h_three_wf|]. vm_compute. repeat split.
Qed.
