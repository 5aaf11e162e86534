(** * PropsLibFun.v -- library functions built on the crate (C88) *)
From Coq Require Import ZArith Reals List Bool Lra Lia.
From Flocq Require Import Core.
From Verif Require Import Machine Ieee Spec Samples LibFun.
Import ListNotations.
Local Open Scope Z_scope.

(** ** C88: fractional part, Euclidean division, midpoint and clamp *)
(** the fractional part is exact in every mode *)
Theorem C88_fract : forall S, sem_ok S -> forall x m, wf S x -> finite x -> exists f, c_fract S x m = Ret (OK, f) /\ wf S f /\ finite f /\
  value S f = (value S x - IZR (Ztrunc (value S x)))%R /\ (Rabs (value S f) < 1)%R.
Proof. exact trunc_part. Qed.
Print Assumptions C88_fract.
(** the Euclidean remainder is the exact one rounded once; without error when x >= 0 *)
Theorem C88_rem_euclid : forall S, sem_ok S -> forall x y m, wf S x -> wf S y -> finite x -> category y = Normal ->
  exists k st r, c_rem_euclid S x y m = Ret (st, r) /\ wf S r /\ finite r /\
    (0 <= value S x - IZR k * value S y < Rabs (value S y))%R /\
    value S r = rounded S m (value S x - IZR k * value S y) /\ (0 <= value S r <= Rabs (value S y))%R /\
    ((0 <= value S x)%R -> st = OK /\ value S r = (value S x - IZR k * value S y)%R).
Proof. exact rem_euclid_rounded. Qed.
Print Assumptions C88_rem_euclid.
(** but it may reach the divisor *)
Theorem C88_rem_euclid_strict_refuted : exists x y r, wf HalfS x /\ wf HalfS y /\ finite x /\ category y = Normal /\
  c_rem_euclid HalfS x y NearestTiesToEven = Ret (INEXACT, r) /\ value HalfS r = Rabs (value HalfS y).
Proof. exact rem_euclid_strict_refuted. Qed.
Print Assumptions C88_rem_euclid_strict_refuted.
(** on integers of moderate size quotient and remainder are those of Euclid, in every mode *)
Theorem C88_div_euclid_integers : forall S, sem_ok S -> forall one x y m X Y, wf S one -> finite one -> value S one = 1%R ->
  wf S x -> wf S y -> finite x -> finite y ->
  value S x = IZR X -> value S y = IZR Y -> Y <> 0 -> Z.abs X + Z.abs Y <= 2 ^ (PRECISION S - 1) ->
  exists k n st q st' r, c_div_euclid S one x y m = Ret (st, q) /\ c_rem_euclid S x y m = Ret (st', r) /\ wf S q /\ wf S r /\ finite q /\ finite r /\
    value S q = IZR k /\ value S r = IZR n /\ X = k * Y + n /\ 0 <= n < Z.abs Y.
Proof. exact div_euclid_integers. Qed.
Print Assumptions C88_div_euclid_integers.
(** on other numbers they need not fit together *)
Theorem C88_div_euclid_refuted : exists x y q r, wf HalfS x /\ wf HalfS y /\ finite x /\ category y = Normal /\
  c_div_euclid HalfS h_one x y NearestTiesToEven = Ret (OK, q) /\ c_rem_euclid HalfS x y NearestTiesToEven = Ret (OK, r) /\
  value HalfS q = 3%R /\ value HalfS r = 1%R /\ (value HalfS x = 2 * value HalfS y + value HalfS r)%R.
Proof. exact div_euclid_refuted. Qed.
Print Assumptions C88_div_euclid_refuted.
(** the midpoint is rounded once and never overflows, in every mode *)
Theorem C88_midpoint : forall S, sem_ok S -> forall two, wf S two -> finite two -> value S two = 2%R -> PRECISION S + 5 <= MAX_EXP S - MIN_EXP S ->
  forall a b m, wf S a -> wf S b -> finite a -> finite b ->
  exists r, c_midpoint S two a b m = Ret r /\ wf S r /\ finite r /\ value S r = rounded S m ((value S a + value S b) / 2).
Proof. exact midpoint_rounded. Qed.
Print Assumptions C88_midpoint.
(** clamp stays between the bounds and moves nothing that is there already *)
Theorem C88_clamp : forall S x lo hi a b, sem_ok S -> wf S x -> wf S lo -> wf S hi ->
  ext_of S lo = Some a -> ext_of S hi = Some b -> ext_le a b ->
  exists r, c_clamp x lo hi = Ret r /\
    match ext_of S x with
    | None => r = x
    | Some c => exists d, ext_of S r = Some d /\ ext_le a d /\ ext_le d b /\
        (ext_le a c -> ext_le c b -> r = x) /\ (ext_lt c a -> r = lo) /\ (ext_lt b c -> r = hi)
    end.
Proof. exact clamp_bounds. Qed.
Print Assumptions C88_clamp.
Theorem C88_clamp_panics : forall S x lo hi, sem_ok S -> wf S x -> wf S lo -> wf S hi ->
  c_clamp x lo hi = Panic <-> match ext_of S lo, ext_of S hi with Some a, Some b => ext_lt b a | _, _ => True end.
Proof. exact clamp_panics. Qed.
Print Assumptions C88_clamp_panics.

Definition h_minus_seven : Float := mkFloat 1792 2 Normal true.
Definition h_three : Float := mkFloat 1536 1 Normal false.
Definition h_two : Float := mkFloat 1024 1 Normal false.
(** -7 = -3 * 3 + 2, and the fractional part of -7/2 *)
Example C88_euclid_example : wf HalfS h_minus_seven /\ wf HalfS h_three /\ value HalfS h_minus_seven = IZR (-7) /\ value HalfS h_three = IZR 3 /\
  Z.abs (-7) + Z.abs 3 <= 2 ^ (PRECISION HalfS - 1) /\
  c_div_euclid HalfS h_one h_minus_seven h_three TowardZero = Ret (OK, mkFloat 1536 1 Normal true) /\
  c_rem_euclid HalfS h_minus_seven h_three TowardZero = Ret (OK, h_two) /\
  c_fract HalfS (mkFloat 1792 1 Normal true) TowardPositive = Ret (OK, mkFloat 1024 (-1) Normal true).
Proof.
  split; [unfold h_minus_seven; sample_wf|]. split; [unfold h_three; sample_wf|]. split; [unfold value; cbn; lra|]. split; [unfold value; cbn; lra|].
  split; [cbn; lia|]. vm_compute. repeat split.
Qed.
(** the largest number and the smallest, whose sum is rounded away; and two largest ones, whose sum would overflow *)
Example C88_midpoint_example : wf HalfS h_two /\ value HalfS h_two = 2%R /\ PRECISION HalfS + 5 <= MAX_EXP HalfS - MIN_EXP HalfS /\
  c_midpoint HalfS h_two (largest HalfS) (largest HalfS) NearestTiesToEven = Ret (largest HalfS) /\
  c_midpoint HalfS h_two (largest HalfS) (SMALLEST HalfS) NearestTiesToEven = Ret (mkFloat 2047 14 Normal false) /\
  c_midpoint HalfS h_two (largest HalfS) (SMALLEST HalfS) TowardPositive = Ret (mkFloat 1024 15 Normal false) /\
  c_midpoint HalfS h_two (SMALLEST HalfS) (SMALLEST HalfS) TowardPositive = Ret (SMALLEST HalfS).
Proof.
  split; [unfold h_two; sample_wf|]. split; [unfold value; cbn; lra|]. split; [cbn; lia|]. vm_compute. repeat split.
Qed.
Example C88_clamp_example : c_clamp h_three h_minus_seven h_two = Ret h_two /\ c_clamp h_one h_minus_seven h_two = Ret h_one /\
  c_clamp h_one h_two h_minus_seven = Panic /\ c_clamp (qnan HalfS None) h_minus_seven h_two = Ret (qnan HalfS None).
Proof. vm_compute. repeat split. Qed.
