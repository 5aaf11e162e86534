(** * PropsPairTotal.v -- sequences of operations on pairs: C61 *)
From Coq Require Import ZArith Reals List Bool.
From Flocq Require Import Core.
From Verif Require Import Machine Ieee Ppc Spec Samples Reach SpecFma SpecPair PairSamples PairTotal.
Local Open Scope Z_scope.

(** ** C61

    [pair_reachable x]: some finite sequence of operations of [DoubleDouble]'s
    interface, in any modes, ends with [x].  [pair_wf]: both halves are
    canonical values of the half format. *)
Theorem C61_reachable : forall x, pair_reachable x -> pair_wf DoubleS x.
Proof. exact pair_reachable_wf. Qed.
Print Assumptions C61_reachable.

(** sums and differences never panic, canonical or not *)
Theorem C61_sum : forall F, pair_ok F -> forall x y m, pair_wf F x -> pair_wf F y ->
  exists st r, dd_add_r F x y m = Ret (st, r) /\ pair_wf F r.
Proof. exact dd_add_r_total. Qed.
Print Assumptions C61_sum.
Theorem C61_difference : forall F, pair_ok F -> forall x y m, pair_wf F x -> pair_wf F y ->
  exists st r, dd_sub_r F x y m = Ret (st, r) /\ pair_wf F r.
Proof. exact dd_sub_r_total. Qed.
Print Assumptions C61_difference.
(** Missing: high halves whose product is below the smallest normal number, for
    which the code can panic ([C61_product_refuted]) *)
Theorem C61_product_partial : forall F, pair_ok F -> forall x y m, pair_wf F x -> pair_wf F y ->
  (category (d0 x) = Normal -> category (d0 y) = Normal -> min_normal F <= Rabs (value F (d0 x) * value F (d0 y)))%R ->
  exists st r, dd_mul_r F x y m = Ret (st, r) /\ pair_wf F r.
Proof. exact dd_mul_r_total. Qed.
Print Assumptions C61_product_partial.
(** any operands: a pair, or a panic, the latter when the product of the high
    halves is tiny and its rounding error below 2^(MIN_EXP - 2 * PRECISION) *)
Theorem C61_product_outcome : forall F, pair_ok F -> forall x y m, pair_wf F x -> pair_wf F y ->
  (exists st r, dd_mul_r F x y m = Ret (st, r) /\ pair_wf F r) \/
  (dd_mul_r F x y m = Panic /\ category (d0 x) = Normal /\ category (d0 y) = Normal /\
   (Rabs (value F (d0 x) * value F (d0 y)) < min_normal F)%R /\
   exists st t, mul_r F (d0 x) (d0 y) m = Ret (st, t) /\ finite t /\
     (0 < Rabs (value F (d0 x) * value F (d0 y) - value F t) < bpow radix2 (MIN_EXP F - 2 * PRECISION F))%R).
Proof. exact dd_mul_r_outcome. Qed.
Print Assumptions C61_product_outcome.
(** and exactly when it panics: the rounded product is the exact one with the
    digits below 2^(MIN_EXP - 2 * PRECISION) cut off ([cut_down], SpecFma.v), not
    all of them zero *)
Theorem C61_product_panics : forall F, pair_ok F -> forall x y m, pair_wf F x -> pair_wf F y ->
  (dd_mul_r F x y m = Panic <->
   category (d0 x) = Normal /\ category (d0 y) = Normal /\
   (Rabs (value F (d0 x) * value F (d0 y)) < min_normal F)%R /\
   exists st t, mul_r F (d0 x) (d0 y) m = Ret (st, t) /\ finite t /\ value F t <> 0%R /\
     Rabs (value F t) = cut_down F (Rabs (value F (d0 x) * value F (d0 y))) /\
     Rabs (value F t) <> Rabs (value F (d0 x) * value F (d0 y))).
Proof. exact dd_mul_r_panics. Qed.
Print Assumptions C61_product_panics.
Theorem C61_product_refuted : exists x y, pair_reachable x /\ pair_reachable y /\
  canonical_pair DoubleS x /\ canonical_pair DoubleS y /\ dd_mul_r DoubleS x y NearestTiesToEven = Panic.
Proof. exact pair_mul_panics_refuted. Qed.
Print Assumptions C61_product_refuted.

(** the operations that go through the double-width format return a pair or
    panic ([pair_returns_or_panics]); they do panic on signaling NaNs in the
    high half, or in the low half of a number ([unreadable]) *)
Theorem C61_wide : forall F, pair_ok F -> forall x y m, pair_wf F x -> pair_wf F y ->
  pair_returns_or_panics F (dd_div_r F x y m) /\ pair_returns_or_panics F (dd_ieee_rem F x y) /\
  pair_returns_or_panics F (dd_c_fmod F x y) /\ pair_returns_or_panics F (dd_round_to_integral F x m) /\
  pair_returns_or_panics F (dd_next_up F x) /\ pair_returns_or_panics F (dd_next_down F x).
Proof. exact wide_operations_outcome. Qed.
Print Assumptions C61_wide.
Theorem C61_mul_add : forall F, pair_ok F -> forall x y z m, pair_wf F x -> pair_wf F y -> pair_wf F z ->
  pair_returns_or_panics F (dd_mul_add_r F x y z m).
Proof. exact dd_mul_add_r_outcome. Qed.
Print Assumptions C61_mul_add.
Theorem C61_inverse : forall F, pair_ok F -> forall x, pair_wf F x ->
  (exists o, dd_get_exact_inverse F x = Ret o /\ forall r, o = Some r -> pair_wf F r) \/ dd_get_exact_inverse F x = Panic.
Proof. exact dd_get_exact_inverse_outcome. Qed.
Print Assumptions C61_inverse.
Theorem C61_unreadable : forall F, pair_ok F -> forall x y z m, pair_wf F x -> unreadable F x ->
  dd_div_r F x y m = Panic /\ dd_ieee_rem F x y = Panic /\ dd_c_fmod F x y = Panic /\ dd_mul_add_r F x y z m = Panic /\
  dd_round_to_integral F x m = Panic /\ dd_next_up F x = Panic /\ dd_get_exact_inverse F x = Panic.
Proof. exact unreadable_panics. Qed.
Print Assumptions C61_unreadable.
Theorem C61_to_u128 : forall F, pair_ok F -> forall x w m, pair_wf F x -> 1 <= w <= 128 ->
  (~ unreadable F x /\ defined (dd_to_u128_r F x w m)) \/ (unreadable F x /\ dd_to_u128_r F x w m = Panic).
Proof. exact dd_to_u128_r_outcome. Qed.
Print Assumptions C61_to_u128.

(** the operations on the halves never panic *)
Theorem C61_halves : forall F, pair_ok F -> forall x m, pair_wf F x ->
  (forall n, exists r, dd_scalbn_r F x n m = Ret r /\ pair_wf F r) /\
  (exists r e, dd_frexp_r F x m = Ret (r, e) /\ pair_wf F r) /\
  (exists e, dd_ilogb F x = Ret e).
Proof. exact dd_halves_total. Qed.
Print Assumptions C61_halves.
Theorem C61_order : forall F, pair_ok F -> forall x y, pair_wf F x -> pair_wf F y ->
  defined (dd_partial_cmp x y) /\ defined (dd_lt x y) /\ defined (dd_eq x y) /\
  defined (dd_min x y) /\ defined (dd_max x y) /\ defined (dd_minimum x y) /\ defined (dd_maximum x y) /\
  defined (dd_is_denormal F x) /\ defined (dd_is_integer F x).
Proof. exact dd_order_defined. Qed.
Print Assumptions C61_order.

(** reachable pairs need not be canonical *)
Theorem C61_canonical_refuted : exists x n m r, pair_reachable x /\ canonical_pair DoubleS x /\
  dd_scalbn_r DoubleS x n m = Ret r /\ ~ canonical_pair DoubleS r.
Proof. exact pair_reachable_canonical_refuted. Qed.
Print Assumptions C61_canonical_refuted.

(** a sequence of operations: scalbn(-(1 / 3 - (-5)), -1000) *)
Example C61_sequence : exists x, pair_reachable x /\
  x = mkDF (mkFloat 6004799503160661 (-998) Normal true) (mkFloat 5592405 (-1022) Normal true).
Proof. exact pair_reachable_sample. Qed.
(** a pair that is not canonical (low half larger than the high one), and its sum with 1/3 *)
Example C61_sum_sample : let x := mkDF (mkFloat (2 ^ 52) 0 Normal false) (mkFloat (2 ^ 52) 7 Normal true) in
  pair_ok DoubleS /\ pair_wf DoubleS x /\ pair_wf DoubleS p_third /\
  exists r, dd_add_r DoubleS x p_third TowardNegative = Ret (INEXACT, r).
Proof.
  cbv zeta. split; [exact double_pair|]. split; [split; sample_wf|]. split; [exact (proj1 p_third_canonical)|].
  eexists. vm_compute. reflexivity.
Qed.
Example C61_product_sample : pair_wf DoubleS p_third /\ pair_wf DoubleS p_five /\
  (min_normal DoubleS <= Rabs (value DoubleS (d0 p_third) * value DoubleS (d0 p_five)))%R.
Proof. exact p_product_normal. Qed.
(** a number whose low half is a signaling NaN *)
Example C61_unreadable_sample : let x := mkDF (mkFloat (2 ^ 52) 0 Normal false) (mkFloat 1 1024 NaN false) in
  pair_wf DoubleS x /\ unreadable DoubleS x /\ dd_round_to_integral DoubleS x TowardZero = Panic /\
  ~ unreadable DoubleS p_third.
Proof.
  cbv zeta. split; [split; sample_wf|]. split; [right; repeat split|]. split; [vm_compute; reflexivity|].
  intros [[Q _]|[_ [Q _]]]; discriminate Q.
Qed.
