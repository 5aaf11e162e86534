(** * PropsStatus.v -- the statuses are the documented ones (C80) *)
From Coq Require Import ZArith String List Bool.
From Verif Require Import Machine Ieee Parse Ppc Samples StatusDoc.
Import ListNotations.
Local Open Scope Z_scope.

(** ** C80: which statuses are returned
    The flags are 1 invalid operation, 2 division by zero, 4 overflow,
    8 underflow and 16 inexact (src/lib.rs:59-66).  The statements are about
    operands of any shape and any format: no well-formedness is assumed. *)
Theorem C80_arithmetic : forall S x y z m st r,
  add_r S x y m = Ret (st, r) \/ sub_r S x y m = Ret (st, r) \/ mul_r S x y m = Ret (st, r) \/ mul_add_r S x y z m = Ret (st, r) \/
  round_to_integral S x m = Ret (st, r) \/ (exists T l, convert_r S T x m = Ret (st, r, l)) ->
  In st [0; 1; 16; 4 + 16; 8 + 16].
Proof. exact arithmetic_list. Qed.
Print Assumptions C80_arithmetic.

(** division by zero is signalled by a finite non-zero number over zero, and by nothing else *)
Theorem C80_division : forall S x y m st r, div_r S x y m = Ret (st, r) ->
  In st [0; 1; 16; 4 + 16; 8 + 16; 2] /\ (st = 2 <-> category x = Normal /\ category y = Zero).
Proof. exact division_list. Qed.
Print Assumptions C80_division.

Theorem C80_exact : forall S x y st r,
  ieee_rem S x y = Ret (st, r) \/ c_fmod S x y = Ret (st, r) \/ next_up S x = Ret (st, r) \/ next_down S x = Ret (st, r) -> In st [0; 1].
Proof. exact exact_list. Qed.
Print Assumptions C80_exact.

Theorem C80_input : forall S n s m st r,
  from_u128_r S n m = Ret (st, r) \/ from_i128_r S n m = Ret (st, r) \/ from_str_r S s m = Ret (Ok (st, r)) -> In st [0; 16; 4 + 16; 8 + 16].
Proof. exact input_list. Qed.
Print Assumptions C80_input.

Theorem C80_output : forall S x w m st v e, to_u128_r S x w m = Ret (st, v, e) \/ to_i128_r S x w m = Ret (st, v, e) -> In st [0; 16; 1].
Proof. exact output_list. Qed.
Print Assumptions C80_output.

(** an invalid operation delivers a NaN *)
Theorem C80_invalid_nan : forall S x y z m r,
  add_r S x y m = Ret (1, r) \/ sub_r S x y m = Ret (1, r) \/ mul_r S x y m = Ret (1, r) \/ div_r S x y m = Ret (1, r) \/
  mul_add_r S x y z m = Ret (1, r) \/ ieee_rem S x y = Ret (1, r) \/ c_fmod S x y = Ret (1, r) -> category r = NaN.
Proof. exact invalid_nan. Qed.
Print Assumptions C80_invalid_nan.

(** a NaN out of operands that are none is always signalled, in a format with infinities *)
Theorem C80_nan_invalid : forall S x y z m st r, NONFINITE_BEHAVIOR S = IEEE754 ->
  category x <> NaN -> category y <> NaN ->
  add_r S x y m = Ret (st, r) \/ sub_r S x y m = Ret (st, r) \/ mul_r S x y m = Ret (st, r) \/ div_r S x y m = Ret (st, r) \/
  (category z <> NaN /\ mul_add_r S x y z m = Ret (st, r)) -> category r = NaN -> st = 1.
Proof. exact nan_invalid. Qed.
Print Assumptions C80_nan_invalid.

(** in a format without infinities overflow delivers a NaN that is not signalled as invalid *)
Theorem C80_nan_only_refuted : exists x m st r, category x = Normal /\
  mul_r Float8E4M3FNS x x m = Ret (st, r) /\ category r = NaN /\ st = 4 + 16.
Proof. exists (largest Float8E4M3FNS), NearestTiesToEven. vm_compute. eauto 8. Qed.
Print Assumptions C80_nan_only_refuted.

(** ** Pairs
    Sums and products add the flags of their steps; only the five flags appear
    and overflow or underflow come with inexact. *)
Theorem C80_pair_flags : forall F x y m st r,
  dd_add_r F x y m = Ret (st, r) \/ dd_sub_r F x y m = Ret (st, r) \/ dd_mul_r F x y m = Ret (st, r) ->
  0 <= st < 32 /\ (Z.testbit st 2 = true -> Z.testbit st 4 = true) /\ (Z.testbit st 3 = true -> Z.testbit st 4 = true).
Proof. exact pair_coherent. Qed.
Print Assumptions C80_pair_flags.

Theorem C80_pair_others : forall F x y z n s m st r,
  (dd_mul_add_r F x y z m = Ret (st, r) \/ dd_round_to_integral F x m = Ret (st, r) -> In st [0; 1; 16; 4 + 16; 8 + 16]) /\
  (dd_div_r F x y m = Ret (st, r) -> In st [0; 1; 16; 4 + 16; 8 + 16; 2]) /\
  (dd_ieee_rem F x y = Ret (st, r) \/ dd_c_fmod F x y = Ret (st, r) \/ dd_next_up F x = Ret (st, r) \/ dd_next_down F x = Ret (st, r) -> In st [0; 1]) /\
  (dd_from_u128_r F n m = Ret (st, r) \/ dd_from_i128_r F n m = Ret (st, r) \/ dd_from_str_r F s m = Ret (Ok (st, r)) -> In st [0; 16; 4 + 16; 8 + 16]) /\
  (forall w v e, dd_to_u128_r F x w m = Ret (st, v, e) \/ dd_to_i128_r F x w m = Ret (st, v, e) -> In st [0; 16; 1]).
Proof. exact pair_list. Qed.
Print Assumptions C80_pair_others.

(** each of the statuses occurs *)
Example C80_sample :
  (exists r, add_r HalfS h_max h_max NearestTiesToEven = Ret (4 + 16, r)) /\
  (exists r, mul_r HalfS h_min h_small NearestTiesToEven = Ret (8 + 16, r)) /\
  (exists r, mul_r HalfS h_one_ulp h_one_ulp NearestTiesToEven = Ret (16, r)) /\
  (exists r, sub_r HalfS h_inf h_inf NearestTiesToEven = Ret (1, r) /\ category r = NaN) /\
  (exists r, div_r HalfS h_one h_zero NearestTiesToEven = Ret (2, r)) /\
  (exists r, add_r HalfS h_one h_one NearestTiesToEven = Ret (0, r)) /\
  (exists r, from_str_r HalfS (bytes "1e9") NearestTiesToEven = Ret (Ok (4 + 16, r))) /\
  (exists r, dd_mul_r DoubleS (mkDF (largest DoubleS) (ZERO DoubleS)) (mkDF (largest DoubleS) (ZERO DoubleS)) NearestTiesToEven = Ret (4 + 16, r)).
Proof. vm_compute. repeat split; eauto. Qed.
