(** * PropsTable.v -- the formats of the crate, with their parameters written out (C81) *)
From Coq Require Import ZArith Reals List Bool.
From Flocq Require Import Core.
From Verif Require Import Machine Ieee Ppc Spec Table.
Import ListNotations.
Local Open Scope Z_scope.

(** ** C81: the table
    [format_table] (Table.v) has one row for each format: total bits, exponent
    bits, precision, largest and smallest exponent, exponent of the last place
    of the subnormals, and the largest number, all as literals. *)
(** what the crate's constants are *)
Theorem C81_constants : forall S bits eb p emax emin elast top, In (S, (bits, eb, p, emax, emin, elast, top)) format_table ->
  (BITS S = bits /\ EXP_BITS S = eb /\ PRECISION S = p /\ MAX_EXP S = emax /\ MIN_EXP S = emin) /\
  value S (largest S) = top /\ value S (smallest_normalized S) = bpow r2 emin /\ value S (SMALLEST S) = bpow r2 elast.
Proof. exact table_constants. Qed.
Print Assumptions C81_constants.

(** the numbers of the format are these and no others *)
Theorem C81_numbers : forall S bits eb p emax emin elast top, In (S, (bits, eb, p, emax, emin, elast, top)) format_table ->
  forall r, (exists x, wf S x /\ finite x /\ value S x = r) <->
            (exists n e, Z.abs n < 2 ^ p /\ elast <= e /\ r = (IZR n * bpow r2 e)%R /\ (Rabs r <= top)%R).
Proof. exact table_numbers. Qed.
Print Assumptions C81_numbers.

(** the patterns of the seven formats of IEEE shape *)
Theorem C81_patterns : forall S bits eb nf,
  In (S, (bits, eb, nf))
    [ (HalfS, (16, 5, IEEE754)); (SingleS, (32, 8, IEEE754)); (DoubleS, (64, 11, IEEE754)); (QuadS, (128, 15, IEEE754));
      (BFloatS, (16, 8, IEEE754)); (Float8E5M2S, (8, 5, IEEE754)); (Float8E4M3FNS, (8, 4, NanOnly)) ] ->
  forall b, 0 <= b < 2 ^ bits ->
  exists x, from_bits S b = Ret x /\ wf S x /\ sign x = field_sign bits b /\ denotes S x (decoded nf bits eb b) /\ to_bits S x = Ret b.
Proof. exact table_patterns. Qed.
Print Assumptions C81_patterns.

(** the formats behind pairs of doubles *)
Theorem C81_pair : dd_BITS DoubleS = 128 /\ dd_PRECISION DoubleS = 106 /\ dd_MAX_EXP DoubleS = 1023 /\ dd_MIN_EXP DoubleS = -969 /\
  PRECISION (FallbackExtendedS DoubleS) = 106 /\ MAX_EXP (FallbackExtendedS DoubleS) = 1023 /\ MIN_EXP (FallbackExtendedS DoubleS) = -1022.
Proof. repeat split. Qed.
Print Assumptions C81_pair.

(** 3/1024 is a number of half precision, below its normal range it is still one with less precision; 65520 is none *)
Example C81_example : In (HalfS, (16, 5, 11, 15, -14, -24, 65504%R)) format_table /\
  wf HalfS (mkFloat 1536 (-9) Normal false) /\ wf HalfS (mkFloat 3 (-14) Normal true) /\
  from_bits HalfS 0x7bff = Ret (largest HalfS) /\ from_bits HalfS 1 = Ret (SMALLEST HalfS) /\
  from_bits HalfS 0x0400 = Ret (smallest_normalized HalfS).
Proof. split; [left; reflexivity|]. vm_compute. intuition (try congruence; try discriminate; try (right; discriminate)). Qed.
