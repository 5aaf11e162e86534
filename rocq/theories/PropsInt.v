(** * PropsInt.v -- integer conversions (C15, C16, C40) *)
From Coq Require Import ZArith Reals List Bool.
From Flocq Require Import Core.
From Verif Require Import Machine Ieee Spec Int Samples Refute More.
Import ListNotations.
Local Open Scope Z_scope.

(** ** C15 *)
Theorem C15_from_u128 : forall S n m, sem_ok S -> 0 <= n < 2 ^ 128 ->
  exists res, from_u128_r S n m = Ret res /\ correctly_rounded S m (IZR n) false res.
Proof. exact from_u128_r_spec. Qed.
Print Assumptions C15_from_u128.
Theorem C15_from_i128 : forall S n m, sem_ok S -> - 2 ^ 127 <= n < 2 ^ 127 ->
  exists res, from_i128_r S n m = Ret res /\ correctly_rounded S m (IZR n) false res.
Proof. exact from_i128_r_spec. Qed.
Print Assumptions C15_from_i128.
Example C15_example : from_i128_r HalfS (- 2 ^ 127) TowardZero = Ret (INEXACT, neg h_max) /\
  from_u128_r HalfS 10 NearestTiesToEven = Ret (OK, h_ten) /\
  from_u128_r HalfS 2049 TowardPositive = Ret (INEXACT, mkFloat 1025 11 Normal false).
Proof. vm_compute. repeat split. Qed.

(** ** C16

    [converted_to_int S x m lo hi st n]: n is x rounded to an integer in mode m if
    that lies within lo..hi (OK or INEXACT), else the nearer bound with INVALID_OP;
    NaN gives 0 with INVALID_OP. *)
Theorem C16_to_u128 : forall S x w m, sem_ok S -> wf S x -> 1 <= w <= 128 ->
  exists st n ex, to_u128_r S x w m = Ret (st, n, ex) /\
    converted_to_int S x m 0 (2 ^ w - 1) st n /\
    (ex = true <-> st <> INVALID_OP /\ IZR n = value S x /\ ~ (category x = Zero /\ sign x = true)).
Proof. exact to_u128_r_spec. Qed.
Print Assumptions C16_to_u128.
(** Missing: width 1 for values with a clear sign bit, where the code panics; and
    is_exact of a negative zero, which is true *)
Theorem C16_to_i128_partial : forall S x w m, sem_ok S -> wf S x -> (if sign x then 1 else 2) <= w <= 128 ->
  exists st n ex, to_i128_r S x w m = Ret (st, n, ex) /\
    converted_to_int S x m (- 2 ^ (w - 1)) (2 ^ (w - 1) - 1) st n /\
    (ex = true <-> st <> INVALID_OP /\ IZR n = value S x).
Proof. exact to_i128_r_spec. Qed.
Print Assumptions C16_to_i128_partial.
Theorem C16_to_i128_refuted : exists S x m, sem_ok S /\ wf S x /\ to_i128_r S x 1 m = Panic.
Proof. exact to_i128_r_refuted. Qed.
Print Assumptions C16_to_i128_refuted.
Theorem C16_is_exact_refuted : exists S x w m f, sem_ok S /\ wf S x /\
  to_i128_r S x w m = Ret (OK, 0, true) /\ from_i128_r S 0 m = Ret (OK, f) /\ bitwise_eq f x = false.
Proof. exact to_i128_exact_refuted. Qed.
Print Assumptions C16_is_exact_refuted.
Example C16_example : wf HalfS h_neg /\ to_i128_r HalfS h_neg 8 TowardNegative = Ret (INEXACT, -2, false) /\
  to_i128_r HalfS h_max 8 TowardZero = Ret (INVALID_OP, 127, false) /\
  to_u128_r HalfS h_neg 8 TowardZero = Ret (INVALID_OP, 0, false) /\
  to_u128_r HalfS h_ten 4 TowardZero = Ret (OK, 10, true) /\
  to_i128_r HalfS h_qnan 64 TowardZero = Ret (INVALID_OP, 0, false).
Proof. split; [exact h_neg_wf|]. vm_compute. repeat split. Qed.

(** ** C40 *)
Theorem C40_i128_round_trip : forall S n w m m', sem_ok S -> 2 <= w <= 128 -> - 2 ^ (w - 1) <= n < 2 ^ (w - 1) ->
  representable S (IZR n) ->
  exists f ex, from_i128_r S n m = Ret (OK, f) /\ to_i128_r S f w m' = Ret (OK, n, ex) /\ ex = true.
Proof. exact i128_round_trip. Qed.
Print Assumptions C40_i128_round_trip.
Theorem C40_u128_round_trip : forall S n w m m', sem_ok S -> 1 <= w <= 128 -> 0 <= n < 2 ^ w ->
  representable S (IZR n) ->
  exists f ex, from_u128_r S n m = Ret (OK, f) /\ to_u128_r S f w m' = Ret (OK, n, ex) /\ ex = true.
Proof. exact u128_round_trip. Qed.
Print Assumptions C40_u128_round_trip.
Theorem C40_float_int_float : forall S x n w m m', sem_ok S -> wf S x -> finite x -> 2 <= w <= 128 ->
  value S x = IZR n -> - 2 ^ (w - 1) <= n < 2 ^ (w - 1) ->
  exists ex f, to_i128_r S x w m = Ret (OK, n, ex) /\ ex = true /\
    from_i128_r S n m' = Ret (OK, f) /\ finite f /\ value S f = value S x.
Proof. exact float_int_float. Qed.
Print Assumptions C40_float_int_float.
Example C40_example : wf HalfS h_ten /\ finite h_ten /\ value HalfS h_ten = IZR 10 /\
  from_i128_r HalfS 10 TowardZero = Ret (OK, h_ten) /\ to_i128_r HalfS h_ten 5 TowardZero = Ret (OK, 10, true).
Proof.
  split; [exact h_ten_wf|]. split; [left; reflexivity|]. split; [exact h_ten_value|].
  vm_compute. repeat split.
Qed.

(** C16: a width of one bit panics for every operand without sign bit *)
Theorem C16_to_i128_width_1 : forall S x m, sign x = false -> to_i128_r S x 1 m = Panic.
Proof. exact to_i128_width_1. Qed.
Print Assumptions C16_to_i128_width_1.
Example C16_to_i128_width_1_example : sign h_one = false /\ to_i128_r HalfS h_one 1 TowardZero = Panic /\
  to_i128_r HalfS (neg h_one) 1 TowardZero = Ret (OK, -1, true).
Proof. vm_compute. repeat split. Qed.
(** and exactly the widths for which the conversions panic; [usize] has no negative
    widths.  A width of 129 is accepted for operands without sign bit. *)
Theorem C16_to_u128_panics : forall S x w m, sem_ok S -> wf S x -> sign x = false -> 0 <= w ->
  (to_u128_r S x w m = Panic <-> w = 0 \/ 128 < w).
Proof. exact to_u128_panics. Qed.
Print Assumptions C16_to_u128_panics.
Theorem C16_to_i128_panics : forall S x w m, sem_ok S -> wf S x -> 0 <= w ->
  (to_i128_r S x w m = Panic <-> if sign x then w = 0 \/ 128 < w else w <= 1 \/ 129 < w).
Proof. exact to_i128_panics. Qed.
Print Assumptions C16_to_i128_panics.
Example C16_panics_example : sem_ok HalfS /\ wf HalfS h_ten /\ to_u128_r HalfS h_ten 0 TowardZero = Panic /\ to_u128_r HalfS h_ten 129 TowardZero = Panic /\
  to_i128_r HalfS h_ten 130 TowardZero = Panic /\ to_i128_r HalfS h_ten 129 TowardZero = Ret (OK, 10, true) /\
  to_i128_r HalfS (neg h_ten) 129 TowardZero = Panic /\ to_i128_r HalfS (neg h_ten) 0 TowardZero = Panic.
Proof. split; [exact half_ok|]. split; [exact h_ten_wf|]. vm_compute. repeat split. Qed.
