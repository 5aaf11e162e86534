(** * PropsLoops.v -- loops on floats end, and with what (C75) *)
From Coq Require Import ZArith Reals List Bool Lra Lia.
From Flocq Require Import Core.
From Verif Require Import Machine Ieee Spec Formats BitOrder Samples Loops.
Import ListNotations.
Local Open Scope Z_scope.

(** ** C75: loops end *)
(** Euclid's algorithm with either remainder: the greatest common divisor, exactly, within as many
    tests as the format has binades and bits (twice as many with c_fmod) *)
Theorem C75_gcd : forall S, sem_ok S -> forall (nearest : bool) fuel a b ka kb, wf S a -> wf S b -> finite a -> finite b ->
  units S a ka -> units S b kb ->
  (if nearest then 1 else 2) * (MAX_EXP S - MIN_EXP S + PRECISION S) < Z.of_nat fuel ->
  exists g kg, c_gcd S nearest fuel a b = Ret g /\ wf S g /\ finite g /\ units S g kg /\ Z.abs kg = Z.gcd ka kb.
Proof. exact gcd_ends. Qed.
Print Assumptions C75_gcd.
(** every number is so many units *)
Theorem C75_units : forall S, sem_ok S -> forall x, wf S x ->
  exists k, units S x k /\ Z.abs k < 2 ^ (MAX_EXP S - MIN_EXP S + PRECISION S).
Proof. exact units_exist. Qed.
Print Assumptions C75_units.
(** next_up steps from any number to any greater one, in as many steps as their encodings are apart *)
Theorem C75_walk : forall bits eb nf, In (bits, eb, nf) interchange_formats -> let S := ieee_semantics bits eb nf in
  forall fuel x y b c, wf S x -> wf S y -> category x <> NaN -> category y <> NaN ->
  to_bits S x = Ret b -> to_bits S y = Ret c -> 0 <= rank bits c - rank bits b < Z.of_nat fuel ->
  exists r, c_walk S fuel x y 0 = Ret (rank bits c - rank bits b, r) /\ wf S r /\ partial_cmp r y = Ret (Some Eq).
Proof. exact walk_ends_crate. Qed.
Print Assumptions C75_walk.
(** counting in steps of one gets stuck at 2 to the precision *)
Theorem C75_count : forall S, sem_ok S -> forall one, wf S one -> finite one -> value S one = 1%R ->
  forall fuel x k, wf S x -> finite x -> value S x = IZR k -> 0 <= k <= 2 ^ PRECISION S -> 2 ^ PRECISION S - k < Z.of_nat fuel ->
  exists r, c_count S one fuel x 0 = Ret (2 ^ PRECISION S - k, r) /\ wf S r /\ finite r /\ value S r = IZR (2 ^ PRECISION S).
Proof. exact count_from. Qed.
Print Assumptions C75_count.

(** the greatest common divisor of 10 and 3 * 2^-24 (three units) is 2^-24 *)
Definition h_units (k : Z) : Float := mkFloat k (-14) Normal false.
Example C75_gcd_example : wf HalfS h_ten /\ finite h_ten /\ wf HalfS (h_units 3) /\ finite (h_units 3) /\
  units HalfS h_ten 167772160 /\ units HalfS (h_units 3) 3 /\
  MAX_EXP HalfS - MIN_EXP HalfS + PRECISION HalfS = 40 /\
  c_gcd HalfS true 41 h_ten (h_units 3) = Ret (h_units 1) /\ c_gcd HalfS false 81 h_ten (h_units 3) = Ret (h_units 1) /\
  c_gcd HalfS false 3 h_ten (h_units 3) = Ret (h_units 1) /\ c_gcd HalfS false 2 h_ten (h_units 3) = Diverge.
Proof.
  split; [exact h_ten_wf|]. split; [left; reflexivity|]. split; [unfold h_units; sample_wf|]. split; [left; reflexivity|].
  split; [unfold units, value, min_positive; cbn; lra|]. split; [unfold units, value, min_positive; cbn; lra|]. vm_compute. repeat split.
Qed.
(** from 1 to 3 in half precision; from -2^-24 to 0 (at -0); from -0 to 2^-24; from the largest to infinity *)
Example C75_walk_example : In (16, 5, IEEE754) interchange_formats /\ wf HalfS h_one /\ wf HalfS h_three /\
  to_bits HalfS h_one = Ret 15360 /\ to_bits HalfS h_three = Ret 16896 /\ rank 16 16896 - rank 16 15360 = 1536 /\
  c_walk HalfS 1537 h_one h_three 0 = Ret (1536, h_three) /\ c_walk HalfS 1536 h_one h_three 0 = Diverge /\
  c_walk HalfS 2 (neg h_min) h_zero 0 = Ret (1, h_nzero) /\ c_walk HalfS 2 h_nzero h_min 0 = Ret (1, h_min) /\
  c_walk HalfS 2 h_max (INFINITY HalfS) 0 = Ret (1, INFINITY HalfS).
Proof.
  split; [vm_compute; tauto|]. split; [exact h_one_wf|]. split; [exact h_three_wf|]. vm_compute. repeat split.
Qed.
Example C75_count_example : wf HalfS h_one /\ value HalfS h_one = 1%R /\ wf HalfS h_three /\ value HalfS h_three = 3%R /\
  c_count HalfS h_one 2046 h_three 0 = Ret (2045, mkFloat 1024 11 Normal false) /\ c_count HalfS h_one 2045 h_three 0 = Diverge.
Proof.
  split; [exact h_one_wf|]. split; [unfold value; cbn; lra|]. split; [exact h_three_wf|]. split; [unfold value; cbn; lra|]. vm_compute. repeat split.
Qed.
