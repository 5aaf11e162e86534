(** * PropsFlocq.v -- agreement with Flocq's executable IEEE 754 arithmetic (C59, C60) *)
From Coq Require Import ZArith Reals List Bool.
From Flocq Require Import Core.
From Flocq Require BinarySingleNaN Binary IEEE754.Bits.
From Verif Require Import Machine Ieee Spec Samples Flocq754 FlocqBits FlocqSamples.
Local Open Scope Z_scope.

(** the formats of the crate this is about *)
Theorem C59_formats : ieee_format HalfS /\ ieee_format BFloatS /\ ieee_format SingleS /\ ieee_format DoubleS /\ ieee_format QuadS /\ ieee_format X87DoubleExtendedS /\ ieee_format Float8E5M2S.
Proof. exact flocq_formats. Qed.
Print Assumptions C59_formats.
(** every number of Flocq is a float, and only one up to NaN payloads; every float is exactly one number *)
Theorem C59_onto : forall S (HF : ieee_format S) b, exists x, same S x b.
Proof. exact every_number. Qed.
Print Assumptions C59_onto.
Theorem C59_total : forall S (HF : ieee_format S) x, wf S x -> exists b, same S x b.
Proof. exact every_float. Qed.
Print Assumptions C59_total.
Theorem C59_unique : forall S x b c, same S x b -> same S x c -> b = c.
Proof. exact same_unique'. Qed.
Print Assumptions C59_unique.
Theorem C59_injective : forall S x y b, same S x b -> same S y b ->
  category x = category y /\ (category x <> NaN -> sign x = sign y) /\ (category x = Normal -> x = y).
Proof. exact same_injective. Qed.
Print Assumptions C59_injective.
(** the four operations, on all operands and in all modes *)
Theorem C59_add : forall S (HF : ieee_format S) (PG : Prec_gt_0 (PRECISION S)) (PL : BinarySingleNaN.Prec_lt_emax (PRECISION S) (MAX_EXP S + 1)) x y a b m, same S x a -> same S y b ->
  exists st r, add_r S x y m = Ret (st, r) /\ same S r (BinarySingleNaN.Bplus (mode_of m) a b).
Proof. exact @add_same. Qed.
Print Assumptions C59_add.
Theorem C59_sub : forall S (HF : ieee_format S) (PG : Prec_gt_0 (PRECISION S)) (PL : BinarySingleNaN.Prec_lt_emax (PRECISION S) (MAX_EXP S + 1)) x y a b m, same S x a -> same S y b ->
  exists st r, sub_r S x y m = Ret (st, r) /\ same S r (BinarySingleNaN.Bminus (mode_of m) a b).
Proof. exact @sub_same. Qed.
Print Assumptions C59_sub.
Theorem C59_mul : forall S (HF : ieee_format S) (PG : Prec_gt_0 (PRECISION S)) (PL : BinarySingleNaN.Prec_lt_emax (PRECISION S) (MAX_EXP S + 1)) x y a b m, same S x a -> same S y b ->
  exists st r, mul_r S x y m = Ret (st, r) /\ same S r (BinarySingleNaN.Bmult (mode_of m) a b).
Proof. exact @mul_same. Qed.
Print Assumptions C59_mul.
Theorem C59_div : forall S (HF : ieee_format S) (PG : Prec_gt_0 (PRECISION S)) (PL : BinarySingleNaN.Prec_lt_emax (PRECISION S) (MAX_EXP S + 1)) x y a b m, same S x a -> same S y b ->
  exists st r, div_r S x y m = Ret (st, r) /\ same S r (BinarySingleNaN.Bdiv (mode_of m) a b).
Proof. exact @div_same. Qed.
Print Assumptions C59_div.
(** missing: finite operands outside [fma_safe], where the code may panic (C08) *)
Theorem C59_fma_partial : forall S (HF : ieee_format S) (PG : Prec_gt_0 (PRECISION S)) (PL : BinarySingleNaN.Prec_lt_emax (PRECISION S) (MAX_EXP S + 1)) x y z a b c m, same S x a -> same S y b -> same S z c ->
  (finite x -> finite y -> finite z -> fma_safe S x y z) ->
  exists st r, mul_add_r S x y z m = Ret (st, r) /\ same S r (BinarySingleNaN.Bfma (mode_of m) a b c).
Proof. exact @fma_same. Qed.
Print Assumptions C59_fma_partial.
Theorem C59_neg : forall S x a, same S x a -> same S (neg x) (BinarySingleNaN.Bopp a).
Proof. exact @neg_same. Qed.
Print Assumptions C59_neg.
Theorem C59_abs : forall S x a, same S x a -> same S (abs x) (BinarySingleNaN.Babs a).
Proof. exact @abs_same. Qed.
Print Assumptions C59_abs.
Theorem C59_compare : forall S (HF : ieee_format S) x y a b, same S x a -> same S y b -> partial_cmp x y = Ret (BinarySingleNaN.Bcompare a b).
Proof. exact @cmp_same. Qed.
Print Assumptions C59_compare.
Theorem C59_scalbn : forall S (HF : ieee_format S) (PG : Prec_gt_0 (PRECISION S)) (PL : BinarySingleNaN.Prec_lt_emax (PRECISION S) (MAX_EXP S + 1)) x a n m, same S x a ->
  exists r, scalbn_r S x n m = Ret r /\ same S r (BinarySingleNaN.Bldexp (mode_of m) a n).
Proof. exact @scalbn_same. Qed.
Print Assumptions C59_scalbn.
Theorem C59_round_to_integral : forall S (HF : ieee_format S) (PL : BinarySingleNaN.Prec_lt_emax (PRECISION S) (MAX_EXP S + 1)) x a m, same S x a ->
  exists st r, round_to_integral S x m = Ret (st, r) /\ same S r (BinarySingleNaN.Bnearbyint (mode_of m) a).
Proof. exact @integral_same. Qed.
Print Assumptions C59_round_to_integral.
Theorem C59_next_up : forall S (HF : ieee_format S) (PG : Prec_gt_0 (PRECISION S)) (PL : BinarySingleNaN.Prec_lt_emax (PRECISION S) (MAX_EXP S + 1)) x a, same S x a ->
  exists st r, next_up S x = Ret (st, r) /\ same S r (BinarySingleNaN.Bsucc a).
Proof. exact @next_up_same. Qed.
Print Assumptions C59_next_up.
Theorem C59_next_down : forall S (HF : ieee_format S) (PG : Prec_gt_0 (PRECISION S)) (PL : BinarySingleNaN.Prec_lt_emax (PRECISION S) (MAX_EXP S + 1)) x a, same S x a ->
  exists st r, next_down S x = Ret (st, r) /\ same S r (BinarySingleNaN.Bpred a).
Proof. exact @next_down_same. Qed.
Print Assumptions C59_next_down.
Theorem C59_frexp : forall S (HF : ieee_format S) (PG : Prec_gt_0 (PRECISION S)) x a m, same S x a -> category x = Normal ->
  exists r e, frexp_r S x m = Ret (r, e) /\ same S r (fst (BinarySingleNaN.Bfrexp a)) /\ e = snd (BinarySingleNaN.Bfrexp a).
Proof. exact @frexp_same. Qed.
Print Assumptions C59_frexp.
Theorem C59_from_u128 : forall S (HF : ieee_format S) (PG : Prec_gt_0 (PRECISION S)) (PL : BinarySingleNaN.Prec_lt_emax (PRECISION S) (MAX_EXP S + 1)) n m, 0 <= n < 2 ^ 128 ->
  exists st r, from_u128_r S n m = Ret (st, r) /\
    same S r (BinarySingleNaN.binary_normalize (PRECISION S) (MAX_EXP S + 1) PG PL (mode_of m) n 0 false).
Proof. exact @from_u128_same. Qed.
Print Assumptions C59_from_u128.
Theorem C59_from_i128 : forall S (HF : ieee_format S) (PG : Prec_gt_0 (PRECISION S)) (PL : BinarySingleNaN.Prec_lt_emax (PRECISION S) (MAX_EXP S + 1)) n m, - 2 ^ 127 <= n < 2 ^ 127 ->
  exists st r, from_i128_r S n m = Ret (st, r) /\
    same S r (BinarySingleNaN.binary_normalize (PRECISION S) (MAX_EXP S + 1) PG PL (mode_of m) n 0 false).
Proof. exact @from_i128_same. Qed.
Print Assumptions C59_from_i128.
(** conversion is [binary_normalize] of mantissa and exponent of the operand *)
Theorem C59_convert : forall S T, ieee_format S -> ieee_format T -> forall (PG : Prec_gt_0 (PRECISION T))
  (PL : BinarySingleNaN.Prec_lt_emax (PRECISION T) (MAX_EXP T + 1)) x (a : bfloat S) m, same S x a ->
  exists st r lost, convert_r S T x m = Ret (st, r, lost) /\ same T r (b_convert T PG PL (mode_of m) a).
Proof. exact convert_same. Qed.
Print Assumptions C59_convert.
Example C59_example : exists a b, same HalfS h_one a /\ same HalfS h_max b /\
  fma_safe HalfS h_one h_max h_three /\ category h_max = Normal.
Proof. exact flocq_sample. Qed.
(** what the code computes for these operands *)
Example C59_run : add_r HalfS h_max h_max NearestTiesToEven = Ret (Z.lor OVERFLOW INEXACT, h_inf) /\
  mul_r HalfS h_max h_three TowardZero = Ret (INEXACT, h_max) /\
  mul_add_r HalfS h_one h_max h_three NearestTiesToEven = Ret (INEXACT, h_max) /\
  next_up HalfS h_max = Ret (OK, h_inf) /\ scalbn_r HalfS h_max (-40) TowardPositive = Ret h_min.
Proof. vm_compute. repeat split. Qed.

(** for any two patterns that are not signaling NaNs the result has the bits Flocq computes, NaN payloads included *)
Theorem C60_add64 : forall m a b, 0 <= a < 2 ^ 64 -> 0 <= b < 2 ^ 64 -> quiet_pattern 64 11 a -> quiet_pattern 64 11 b ->
  exists x y st r, from_bits DoubleS a = Ret x /\ from_bits DoubleS b = Ret y /\ add_r DoubleS x y m = Ret (st, r) /\
    to_bits DoubleS r = Ret (IEEE754.Bits.bits_of_b64 (IEEE754.Bits.b64_plus (mode_of m) (IEEE754.Bits.b64_of_bits a) (IEEE754.Bits.b64_of_bits b))).
Proof. exact b64_plus. Qed.
Print Assumptions C60_add64.
Theorem C60_sub64 : forall m a b, 0 <= a < 2 ^ 64 -> 0 <= b < 2 ^ 64 -> quiet_pattern 64 11 a -> quiet_pattern 64 11 b ->
  exists x y st r, from_bits DoubleS a = Ret x /\ from_bits DoubleS b = Ret y /\ sub_r DoubleS x y m = Ret (st, r) /\
    to_bits DoubleS r = Ret (IEEE754.Bits.bits_of_b64 (IEEE754.Bits.b64_minus (mode_of m) (IEEE754.Bits.b64_of_bits a) (IEEE754.Bits.b64_of_bits b))).
Proof. exact b64_minus. Qed.
Print Assumptions C60_sub64.
Theorem C60_mul64 : forall m a b, 0 <= a < 2 ^ 64 -> 0 <= b < 2 ^ 64 -> quiet_pattern 64 11 a -> quiet_pattern 64 11 b ->
  exists x y st r, from_bits DoubleS a = Ret x /\ from_bits DoubleS b = Ret y /\ mul_r DoubleS x y m = Ret (st, r) /\
    to_bits DoubleS r = Ret (IEEE754.Bits.bits_of_b64 (IEEE754.Bits.b64_mult (mode_of m) (IEEE754.Bits.b64_of_bits a) (IEEE754.Bits.b64_of_bits b))).
Proof. exact b64_mult. Qed.
Print Assumptions C60_mul64.
Theorem C60_div64 : forall m a b, 0 <= a < 2 ^ 64 -> 0 <= b < 2 ^ 64 -> quiet_pattern 64 11 a -> quiet_pattern 64 11 b ->
  exists x y st r, from_bits DoubleS a = Ret x /\ from_bits DoubleS b = Ret y /\ div_r DoubleS x y m = Ret (st, r) /\
    to_bits DoubleS r = Ret (IEEE754.Bits.bits_of_b64 (IEEE754.Bits.b64_div (mode_of m) (IEEE754.Bits.b64_of_bits a) (IEEE754.Bits.b64_of_bits b))).
Proof. exact b64_div. Qed.
Print Assumptions C60_div64.
Theorem C60_compare64 : forall a b, 0 <= a < 2 ^ 64 -> 0 <= b < 2 ^ 64 ->
  exists x y, from_bits DoubleS a = Ret x /\ from_bits DoubleS b = Ret y /\
    partial_cmp x y = Ret (IEEE754.Bits.b64_compare (IEEE754.Bits.b64_of_bits a) (IEEE754.Bits.b64_of_bits b)).
Proof. exact b64_compare. Qed.
Print Assumptions C60_compare64.
(** missing: finite operands outside [fma_safe]; the payload of NaN results *)
Theorem C60_fma64_partial : forall a b c m, 0 <= a < 2 ^ 64 -> 0 <= b < 2 ^ 64 -> 0 <= c < 2 ^ 64 ->
  exists x y z, from_bits DoubleS a = Ret x /\ from_bits DoubleS b = Ret y /\ from_bits DoubleS c = Ret z /\
    let f := IEEE754.Bits.b64_fma (mode_of m) (IEEE754.Bits.b64_of_bits a) (IEEE754.Bits.b64_of_bits b) (IEEE754.Bits.b64_of_bits c) in
    ((finite x -> finite y -> finite z -> fma_safe DoubleS x y z) ->
     exists st r, mul_add_r DoubleS x y z m = Ret (st, r) /\
       if Binary.is_nan _ _ f then category r = NaN else to_bits DoubleS r = Ret (IEEE754.Bits.bits_of_b64 f)).
Proof. exact b64_fma. Qed.
Print Assumptions C60_fma64_partial.
Theorem C60_add32 : forall m a b, 0 <= a < 2 ^ 32 -> 0 <= b < 2 ^ 32 -> quiet_pattern 32 8 a -> quiet_pattern 32 8 b ->
  exists x y st r, from_bits SingleS a = Ret x /\ from_bits SingleS b = Ret y /\ add_r SingleS x y m = Ret (st, r) /\
    to_bits SingleS r = Ret (IEEE754.Bits.bits_of_b32 (IEEE754.Bits.b32_plus (mode_of m) (IEEE754.Bits.b32_of_bits a) (IEEE754.Bits.b32_of_bits b))).
Proof. exact b32_plus. Qed.
Print Assumptions C60_add32.
Theorem C60_sub32 : forall m a b, 0 <= a < 2 ^ 32 -> 0 <= b < 2 ^ 32 -> quiet_pattern 32 8 a -> quiet_pattern 32 8 b ->
  exists x y st r, from_bits SingleS a = Ret x /\ from_bits SingleS b = Ret y /\ sub_r SingleS x y m = Ret (st, r) /\
    to_bits SingleS r = Ret (IEEE754.Bits.bits_of_b32 (IEEE754.Bits.b32_minus (mode_of m) (IEEE754.Bits.b32_of_bits a) (IEEE754.Bits.b32_of_bits b))).
Proof. exact b32_minus. Qed.
Print Assumptions C60_sub32.
Theorem C60_mul32 : forall m a b, 0 <= a < 2 ^ 32 -> 0 <= b < 2 ^ 32 -> quiet_pattern 32 8 a -> quiet_pattern 32 8 b ->
  exists x y st r, from_bits SingleS a = Ret x /\ from_bits SingleS b = Ret y /\ mul_r SingleS x y m = Ret (st, r) /\
    to_bits SingleS r = Ret (IEEE754.Bits.bits_of_b32 (IEEE754.Bits.b32_mult (mode_of m) (IEEE754.Bits.b32_of_bits a) (IEEE754.Bits.b32_of_bits b))).
Proof. exact b32_mult. Qed.
Print Assumptions C60_mul32.
Theorem C60_div32 : forall m a b, 0 <= a < 2 ^ 32 -> 0 <= b < 2 ^ 32 -> quiet_pattern 32 8 a -> quiet_pattern 32 8 b ->
  exists x y st r, from_bits SingleS a = Ret x /\ from_bits SingleS b = Ret y /\ div_r SingleS x y m = Ret (st, r) /\
    to_bits SingleS r = Ret (IEEE754.Bits.bits_of_b32 (IEEE754.Bits.b32_div (mode_of m) (IEEE754.Bits.b32_of_bits a) (IEEE754.Bits.b32_of_bits b))).
Proof. exact b32_div. Qed.
Print Assumptions C60_div32.
Theorem C60_compare32 : forall a b, 0 <= a < 2 ^ 32 -> 0 <= b < 2 ^ 32 ->
  exists x y, from_bits SingleS a = Ret x /\ from_bits SingleS b = Ret y /\
    partial_cmp x y = Ret (IEEE754.Bits.b32_compare (IEEE754.Bits.b32_of_bits a) (IEEE754.Bits.b32_of_bits b)).
Proof. exact b32_compare. Qed.
Print Assumptions C60_compare32.
Theorem C60_fma32_partial : forall a b c m, 0 <= a < 2 ^ 32 -> 0 <= b < 2 ^ 32 -> 0 <= c < 2 ^ 32 ->
  exists x y z, from_bits SingleS a = Ret x /\ from_bits SingleS b = Ret y /\ from_bits SingleS c = Ret z /\
    let f := IEEE754.Bits.b32_fma (mode_of m) (IEEE754.Bits.b32_of_bits a) (IEEE754.Bits.b32_of_bits b) (IEEE754.Bits.b32_of_bits c) in
    ((finite x -> finite y -> finite z -> fma_safe SingleS x y z) ->
     exists st r, mul_add_r SingleS x y z m = Ret (st, r) /\
       if Binary.is_nan _ _ f then category r = NaN else to_bits SingleS r = Ret (IEEE754.Bits.bits_of_b32 f)).
Proof. exact b32_fma. Qed.
Print Assumptions C60_fma32_partial.
(** the patterns of 1.5, of a quiet NaN with a payload and of the largest number satisfy the hypotheses *)
Example C60_example : quiet_pattern 64 11 0x3FF8000000000000 /\ quiet_pattern 64 11 0xFFF8000000000123 /\
  quiet_pattern 32 8 0x7F7FFFFF /\ ~ quiet_pattern 32 8 0x7F800001.
Proof. exact pattern_sample. Qed.
(** 1.5 + 1.5; a NaN and a number; 1 / 3; 2^128 overflows *)
Example C60_run :
  IEEE754.Bits.bits_of_b64 (IEEE754.Bits.b64_plus BinarySingleNaN.mode_NE (IEEE754.Bits.b64_of_bits 0x3FF8000000000000) (IEEE754.Bits.b64_of_bits 0x3FF8000000000000)) = 0x4008000000000000 /\
  (let! x := from_bits DoubleS 0x3FF8000000000000 in let! r := add_r DoubleS x x NearestTiesToEven in to_bits DoubleS (snd r)) = Ret 0x4008000000000000 /\
  (let! x := from_bits DoubleS 0xFFF8000000000123 in let! y := from_bits DoubleS 0x3FF8000000000000 in
   let! r := add_r DoubleS x y NearestTiesToEven in to_bits DoubleS (snd r)) = Ret 0xFFF8000000000123 /\
  IEEE754.Bits.bits_of_b32 (IEEE754.Bits.b32_div BinarySingleNaN.mode_UP (IEEE754.Bits.b32_of_bits 0x3F800000) (IEEE754.Bits.b32_of_bits 0x40400000)) = 0x3EAAAAAB /\
  (let! x := from_bits SingleS 0x3F800000 in let! y := from_bits SingleS 0x40400000 in
   let! r := div_r SingleS x y TowardPositive in to_bits SingleS (snd r)) = Ret 0x3EAAAAAB.
Proof. vm_compute. repeat split. Qed.
(** without [quiet_pattern] it is false: Flocq does not quiet the operand *)
Theorem C60_signaling_refuted : exists a b x y st r, 0 <= a < 2 ^ 32 /\ 0 <= b < 2 ^ 32 /\ quiet_pattern 32 8 b /\
  from_bits SingleS a = Ret x /\ from_bits SingleS b = Ret y /\ add_r SingleS x y NearestTiesToEven = Ret (st, r) /\
  to_bits SingleS r <> Ret (IEEE754.Bits.bits_of_b32 (IEEE754.Bits.b32_plus BinarySingleNaN.mode_NE (IEEE754.Bits.b32_of_bits a) (IEEE754.Bits.b32_of_bits b))).
Proof. exact signaling_differs. Qed.
Print Assumptions C60_signaling_refuted.
