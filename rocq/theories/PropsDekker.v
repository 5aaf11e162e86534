(** * PropsDekker.v -- C86: error-free products without a fused multiply-add *)
From Coq Require Import ZArith Reals List Bool.
From Flocq Require Import Core.
From Verif Require Import Machine Ieee Spec Samples Eft Dekker.
Local Open Scope Z_scope.

(** ** C86

    [cut S] is half the precision, rounded up.  Multiplying by 2^cut + 1 and
    subtracting splits a number into one of [PRECISION - cut] bits and one of
    [cut] bits, whose sum it is. *)
Theorem C86_split : forall S, sem_ok S -> forall m, nearest m -> 4 <= PRECISION S ->
  forall c x a, wf S c -> finite c -> value S c = (bpow r2 (cut S) + 1)%R -> wf S x -> finite x ->
  (Rabs (value S x) <= bpow r2 a)%R -> MIN_EXP S - (PRECISION S - 1) <= a -> a + cut S + 3 <= MAX_EXP S ->
  exists h t, split_half S c x m = Ret (h, t) /\ wf S h /\ wf S t /\ finite h /\ finite t /\
    value S x = (value S h + value S t)%R /\ has_bits (PRECISION S - cut S) (value S h) /\ has_bits (cut S) (value S t).
Proof. exact split_half_exact. Qed.
Print Assumptions C86_split.
(** The rounded product and its error, from sixteen sums, differences and products:
    exact unless the product is tiny, and then within 7/2 of the smallest positive
    number. *)
Theorem C86_dekker : forall S, sem_ok S -> forall m, nearest m -> 4 <= PRECISION S ->
  forall x y a b, wf S x -> wf S y -> finite x -> finite y ->
  (Rabs (value S x) <= bpow r2 a)%R -> (Rabs (value S y) <= bpow r2 b)%R ->
  MIN_EXP S - (PRECISION S - 1) <= a -> MIN_EXP S - (PRECISION S - 1) <= b ->
  a + cut S + 3 <= MAX_EXP S -> b + cut S + 3 <= MAX_EXP S -> MIN_EXP S - (PRECISION S - 1) <= a + b <= MAX_EXP S - 5 ->
  exists r t, dekker S x y m = Ret (r, t) /\ wf S r /\ wf S t /\ finite r /\ finite t /\ value S r = rounded S m (value S x * value S y) /\
    ((value S x * value S y = 0)%R \/ (bpow r2 (MIN_EXP S + PRECISION S) <= Rabs (value S x * value S y))%R -> (value S r + value S t = value S x * value S y)%R) /\
    (Rabs (value S x * value S y - (value S r + value S t)) <= 7 / 2 * min_positive S)%R.
Proof. exact dekker_spec. Qed.
Print Assumptions C86_dekker.
(** 1283/1024 squared, and the constant 65 *)
Example C86_example : sem_ok HalfS /\ nearest NearestTiesToAway /\ 4 <= PRECISION HalfS /\ wf HalfS h_1283 /\ finite h_1283 /\ (Rabs (value HalfS h_1283) <= bpow r2 1)%R /\
  (1 + cut HalfS + 3 <= MAX_EXP HalfS) /\ (MIN_EXP HalfS - (PRECISION HalfS - 1) <= 1 + 1 <= MAX_EXP HalfS - 5) /\
  (bpow r2 (MIN_EXP HalfS + PRECISION HalfS) <= Rabs (value HalfS h_1283 * value HalfS h_1283))%R /\
  wf HalfS (mkFloat 1040 6 Normal false) /\ finite (mkFloat 1040 6 Normal false) /\ value HalfS (mkFloat 1040 6 Normal false) = (bpow r2 (cut HalfS) + 1)%R.
Proof. exact dekker_sample. Qed.
Example C86_runs : split_half HalfS (mkFloat 1040 6 Normal false) h_1283 NearestTiesToAway = Ret (mkFloat 1280 0 Normal false, mkFloat 1536 (-9) Normal false) /\
  dekker HalfS h_1283 h_1283 NearestTiesToAway = dekker HalfS h_1283 h_1283 NearestTiesToEven.
Proof. split; vm_compute; reflexivity. Qed.
(** not in the directed modes, and not if the split overflows *)
Theorem C86_directed_refuted : exists x r t, wf HalfS x /\ finite x /\ (Rabs (value HalfS x) <= bpow r2 1)%R /\
  dekker HalfS x x TowardPositive = Ret (r, t) /\ finite r /\ finite t /\ (value HalfS r + value HalfS t <> value HalfS x * value HalfS x)%R.
Proof. exact dekker_directed_refuted. Qed.
Print Assumptions C86_directed_refuted.
Theorem C86_overflow_refuted : exists x y r t, wf HalfS x /\ finite x /\ wf HalfS y /\ finite y /\
  mul_r HalfS x y NearestTiesToEven = Ret (INEXACT, r) /\ finite r /\ dekker HalfS x y NearestTiesToEven = Ret (r, t) /\ category t = NaN.
Proof. exact dekker_overflow_refuted. Qed.
Print Assumptions C86_overflow_refuted.
