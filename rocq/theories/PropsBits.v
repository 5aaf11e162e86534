(** * PropsBits.v -- bit patterns (C01, C02, C03) *)
From Coq Require Import ZArith Reals List Bool.
From Flocq Require Import Core.
From Verif Require Import Machine Ieee Spec Bits Formats Samples Refute More.
Import ListNotations.
Local Open Scope Z_scope.

(** ** C01 *)

(** every pattern of every interchange format comes back *)
Theorem C01_bits_round_trip : forall bits eb nf, In (bits, eb, nf) interchange_formats ->
  forall b, 0 <= b < 2 ^ bits ->
  exists x, from_bits (ieee_semantics bits eb nf) b = Ret x /\ wf (ieee_semantics bits eb nf) x /\
    to_bits (ieee_semantics bits eb nf) x = Ret b.
Proof. exact bits_round_trip_crate. Qed.
Print Assumptions C01_bits_round_trip.
Example C01_bits_round_trip_example : In (16, 5, IEEE754) interchange_formats /\ 0 <= 64517 < 2 ^ 16 /\
  from_bits HalfS 64517 = Ret h_snan /\ to_bits HalfS h_snan = Ret 64517.
Proof. vm_compute. intuition congruence. Qed.

(** bits beyond the width are ignored *)
Theorem C01_high_bits_ignored : forall bits eb nf, In (bits, eb, nf) interchange_formats ->
  forall b, 0 <= b < 2 ^ 128 ->
  from_bits (ieee_semantics bits eb nf) b = from_bits (ieee_semantics bits eb nf) (b mod 2 ^ bits).
Proof. exact high_bits_crate. Qed.
Print Assumptions C01_high_bits_ignored.
Example C01_high_bits_example : from_bits HalfS (2 ^ 100 + 15360) = Ret h_one /\ (2 ^ 100 + 15360) mod 2 ^ 16 = 15360.
Proof. vm_compute. split; reflexivity. Qed.

(** the x87 format: the supported encodings come back ... *)
Theorem C01_bits_round_trip_x87 : forall b, 0 <= b < 2 ^ 80 -> x87_canonical_pattern b ->
  exists x, from_bits X87DoubleExtendedS b = Ret x /\ wf X87DoubleExtendedS x /\ to_bits X87DoubleExtendedS x = Ret b.
Proof. exact bits_roundtrip_x87_canonical. Qed.
Print Assumptions C01_bits_round_trip_x87.
Example C01_x87_example : x87_canonical_pattern (16383 * 2 ^ 64 + 2 ^ 63 + 1) /\
  from_bits X87DoubleExtendedS (16383 * 2 ^ 64 + 2 ^ 63 + 1) = Ret (mkFloat (2 ^ 63 + 1) 0 Normal false).
Proof. split; [right; vm_compute; split; discriminate|vm_compute; reflexivity]. Qed.

(** ... and all others are changed in the exponent field only: pseudo-denormals
    to the equal normal encoding, unnormals and the like to NaN patterns *)
Theorem C01_bits_x87_others : forall b, 0 <= b < 2 ^ 80 ->
  exists x, from_bits X87DoubleExtendedS b = Ret x /\ wf X87DoubleExtendedS x /\
    to_bits X87DoubleExtendedS x = Ret ((if field_sign 80 b then 1 else 0) * 2 ^ 79 +
      (if (field_exp 80 15 b =? 0) && (2 ^ 63 <=? field_frac 80 15 b) then 1
       else if negb (field_exp 80 15 b =? 0) && (field_frac 80 15 b <? 2 ^ 63) then 32767
       else field_exp 80 15 b) * 2 ^ 64 + field_frac 80 15 b).
Proof. exact bits_roundtrip_x87. Qed.
Print Assumptions C01_bits_x87_others.
(** so the round trip does not hold for every pattern *)
Theorem C01_x87_refuted : exists b x b', 0 <= b < 2 ^ 80 /\
  from_bits X87DoubleExtendedS b = Ret x /\ to_bits X87DoubleExtendedS x = Ret b' /\ b <> b'.
Proof. exact x87_bits_refuted. Qed.
Print Assumptions C01_x87_refuted.

(** ** C02 *)
Theorem C02_value_round_trip : forall bits eb nf, In (bits, eb, nf) interchange_formats ->
  forall x, wf (ieee_semantics bits eb nf) x ->
  exists b y, to_bits (ieee_semantics bits eb nf) x = Ret b /\ 0 <= b < 2 ^ bits /\
    from_bits (ieee_semantics bits eb nf) b = Ret y /\ bitwise_eq x y = true.
Proof. exact value_round_trip_crate. Qed.
Print Assumptions C02_value_round_trip.
Example C02_value_round_trip_example : wf HalfS h_min /\ to_bits HalfS h_min = Ret 1 /\ from_bits HalfS 1 = Ret h_min.
Proof. split; [exact h_min_wf|]. vm_compute. split; reflexivity. Qed.

Theorem C02_value_round_trip_x87 : forall x, wf X87DoubleExtendedS x ->
  exists b y, to_bits X87DoubleExtendedS x = Ret b /\ 0 <= b < 2 ^ 80 /\
    from_bits X87DoubleExtendedS b = Ret y /\ bitwise_eq x y = true.
Proof. exact value_roundtrip_x87. Qed.
Print Assumptions C02_value_round_trip_x87.

(** what it means to be bitwise equal *)
Theorem C02_bitwise_eq : forall bits eb nf, In (bits, eb, nf) interchange_formats ->
  forall x y, wf (ieee_semantics bits eb nf) x -> wf (ieee_semantics bits eb nf) y ->
  bitwise_eq x y = true <-> to_bits (ieee_semantics bits eb nf) x = to_bits (ieee_semantics bits eb nf) y.
Proof. exact bitwise_eq_crate. Qed.
Print Assumptions C02_bitwise_eq.
Theorem C02_bitwise_eq_x87 : forall x y, wf X87DoubleExtendedS x -> wf X87DoubleExtendedS y ->
  bitwise_eq x y = true <-> to_bits X87DoubleExtendedS x = to_bits X87DoubleExtendedS y.
Proof. exact bitwise_eq_bits_x87. Qed.
Print Assumptions C02_bitwise_eq_x87.
Example C02_bitwise_eq_example : wf HalfS h_zero /\ wf HalfS h_nzero /\ bitwise_eq h_zero h_nzero = false /\
  to_bits HalfS h_zero = Ret 0 /\ to_bits HalfS h_nzero = Ret 32768.
Proof. split; [exact h_zero_wf|]. split; [exact h_nzero_wf|]. vm_compute. repeat split. Qed.

(** ** C03 *)
Theorem C03_from_bits_denotes : forall bits eb nf, In (bits, eb, nf) interchange_formats ->
  forall b, 0 <= b < 2 ^ bits ->
  exists x, from_bits (ieee_semantics bits eb nf) b = Ret x /\ sign x = field_sign bits b /\
    denotes (ieee_semantics bits eb nf) x (decoded nf bits eb b).
Proof. exact from_bits_denotes_crate. Qed.
Print Assumptions C03_from_bits_denotes.
Theorem C03_from_bits_denotes_x87 : forall b, 0 <= b < 2 ^ 80 ->
  exists x, from_bits X87DoubleExtendedS b = Ret x /\ sign x = field_sign 80 b /\
    denotes X87DoubleExtendedS x (decoded_x87 b).
Proof. exact from_bits_denotes_x87. Qed.
Print Assumptions C03_from_bits_denotes_x87.
(** the pattern 0xfc01 of half precision is a NaN, 0x7c00 infinity, the pattern
    0x7e of Float8E4M3FN the number 448 *)
Example C03_example : decoded IEEE754 16 5 64513 = MNaN 1 /\ decoded IEEE754 16 5 31744 = MInfinity /\
  decoded NanOnly 8 4 126 = MNumber (1 * (IZR 14 * bpow r2 5)) /\ from_bits Float8E4M3FNS 126 = Ret (mkFloat 14 8 Normal false).
Proof. repeat split. Qed.

(** the extended format: the 48 bits above are ignored *)
Theorem C01_high_bits_x87 : forall b, 0 <= b < 2 ^ 128 ->
  from_bits X87DoubleExtendedS b = from_bits X87DoubleExtendedS (b mod 2 ^ 80).
Proof. exact high_bits_x87. Qed.
Print Assumptions C01_high_bits_x87.
Example C01_high_bits_x87_example : 0 <= 2 ^ 100 + 0x3fff8000000000000000 < 2 ^ 128 /\
  (2 ^ 100 + 0x3fff8000000000000000) mod 2 ^ 80 = 0x3fff8000000000000000 /\
  from_bits X87DoubleExtendedS (2 ^ 100 + 0x3fff8000000000000000) = Ret (mkFloat (2 ^ 63) 0 Normal false).
Proof. vm_compute. intuition congruence. Qed.
