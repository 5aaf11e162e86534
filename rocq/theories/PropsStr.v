(** * PropsStr.v -- parsing: C31, C32 and C33 *)
From Coq Require Import ZArith Reals List Bool String.
From Flocq Require Import Core.
From Verif Require Import Machine Ieee Spec Formats Parse Nans SpecStr StrSyntax StrTop StrSamples StrRefute StrLong StrFar.
Import ListNotations.
Local Open Scope Z_scope.

(** ** C31

    [hex_text s g x]: the bytes [s] are a hexadecimal literal for [x], with a
    minus sign if [g] (SpecStr.v).  Missing: literals of 511 MiB and more, where it fails (below). *)
Theorem C31_hexadecimal_partial : forall S s g x m, sem_ok S -> PRECISION S <= 125 -> hex_text s g x -> len s + 2 ^ 20 <= 2 ^ 29 ->
  exists res, from_str_r S s m = Ret (Ok res) /\ correctly_rounded S m x g res.
Proof. exact from_str_hex. Qed.
Print Assumptions C31_hexadecimal_partial.

Example C31_text : hex_text (bytes "-0x1.8p-3") true (- (24 * bpow r2 (-7))).
Proof. exact hex_sample. Qed.
Example C31_run : from_str_r SingleS (bytes "-0x1.8p-3") NearestTiesToEven = Ret (Ok (OK, mkFloat 12582912 (-3) Normal true)).
Proof. exact hex_sample_run. Qed.
Example C31_rounded_run : from_str_r HalfS (bytes "0x1.00200000000000000000000000000000000000000001p0") NearestTiesToEven =
  Ret (Ok (INEXACT, mkFloat 1025 0 Normal false)).
Proof. exact hex_round_run. Qed.
(** With 2^29 digits the exponent saturates half-way: a literal for 1/8 is read as
    2^-27 in single precision, with no flag. *)
Theorem C31_long_refuted : exists S s x f, sem_ok S /\ hex_text s false x /\
  from_str_r S s NearestTiesToEven = Ret (Ok (OK, f)) /\ forall st' g, ~ correctly_rounded S NearestTiesToEven x g (st', f).
Proof. exact hex_long_refuted. Qed.
Print Assumptions C31_long_refuted.

(** ** C32

    [dec_text s g x]: the bytes [s] are a decimal literal for [x] (SpecStr.v),
    of any number of digits and any exponent.  [dec_ok] holds of every format of
    the crate.

    In the two nearest modes the number is the correctly rounded one.  Missing:
    literals of 32 MiB and more, and the status, which is the right one unless
    one of the two is OK (false without that, see the counterexamples below). *)
Theorem C32_nearest_partial : forall S s g x m, sem_ok S -> dec_ok S -> dec_text s g x -> len s < 2 ^ 25 ->
  m = NearestTiesToEven \/ m = NearestTiesToAway ->
  exists st f, from_str_r S s m = Ret (Ok (st, f)) /\
    exists st', correctly_rounded S m x g (st', f) /\ (st = st' \/ st = OK \/ st' = OK).
Proof. exact from_str_dec_nearest. Qed.
Print Assumptions C32_nearest_partial.
(** in all modes the result is right for a number that differs from the written
    one by less than one part in 2^124 *)
Theorem C32_backward : forall S s g x m, sem_ok S -> dec_ok S -> dec_text s g x -> len s < 2 ^ 25 ->
  exists res y, from_str_r S s m = Ret (Ok res) /\ (Rabs (x - y) <= Rabs y * bpow r2 (-124))%R /\ correctly_rounded S m y g res.
Proof. exact from_str_dec_backward. Qed.
Print Assumptions C32_backward.
(** With at most 38 digits and a moderate exponent the directed modes are right.
    Missing: longer literals, for which they are wrong ([C32_directed_refuted]). *)
Theorem C32_directed_partial : forall S s g x m, sem_ok S -> dec_ok S -> dec_text s g x -> len s < 2 ^ 25 -> short (Rabs x) ->
  m = TowardPositive \/ m = TowardNegative \/ m = TowardZero ->
  exists res, from_str_r S s m = Ret (Ok res) /\ correctly_rounded S m x g res.
Proof. exact from_str_dec_directed. Qed.
Print Assumptions C32_directed_partial.
(** And so are all modes, if the number is a binary fraction of 127 bits.
    Missing: other numbers, for which the status may be wrong. *)
Theorem C32_exact_partial : forall S s g x m, sem_ok S -> dec_ok S -> dec_text s g x -> len s < 2 ^ 25 -> short (Rabs x) ->
  (exists n e, Z.abs n < 2 ^ 127 /\ x = (IZR n * bpow r2 e)%R) ->
  exists res, from_str_r S s m = Ret (Ok res) /\ correctly_rounded S m x g res.
Proof. exact from_str_dec_exact. Qed.
Print Assumptions C32_exact_partial.
(** And so are all modes, status included, unless a number of the format lies
    within one part in 2^123 of the written one. *)
Theorem C32_separated_partial : forall S s g x m, sem_ok S -> dec_ok S -> dec_text s g x -> len s < 2 ^ 25 ->
  (forall z, generic_format r2 (fexp S) z -> (Rabs x * bpow r2 (-123) < Rabs (x - z))%R) ->
  exists res, from_str_r S s m = Ret (Ok res) /\ correctly_rounded S m x g res.
Proof. exact from_str_dec_far. Qed.
Print Assumptions C32_separated_partial.
Example C32_separated_example : dec_text (bytes "1e-60") false (1 * bpow r10 (-60)) /\
  (forall z, generic_format r2 (fexp DoubleS) z -> (Rabs (1 * bpow r10 (-60)) * bpow r2 (-123) < Rabs (1 * bpow r10 (-60) - z))%R) /\
  from_str_r DoubleS (bytes "1e-60") TowardZero = Ret (Ok (INEXACT, mkFloat 7237005577332262 (-200) Normal false)) /\
  from_str_r DoubleS (bytes "1e-60") TowardPositive = Ret (Ok (INEXACT, mkFloat 7237005577332263 (-200) Normal false)).
Proof. split; [exact dec_far_text|]. split; [exact dec_far_separated|]. vm_compute. split; reflexivity. Qed.
Theorem C32_crate_formats : forall S, In S crate_formats -> dec_ok S.
Proof. exact crate_dec_ok. Qed.
Print Assumptions C32_crate_formats.

Example C32_text : dec_text (bytes "-6.25e-2") true (- (625 * bpow r10 (-4))).
Proof. exact dec_sample. Qed.
Example C32_text_short : short (Rabs (- (625 * bpow r10 (-4)))).
Proof. exact dec_sample_short. Qed.
Example C32_text_binary : exists n e, Z.abs n < 2 ^ 127 /\ (- (625 * bpow r10 (-4)))%R = (IZR n * bpow r2 e)%R.
Proof. exact dec_sample_binary. Qed.
Example C32_run : forall m, from_str_r HalfS (bytes "-6.25e-2") m = Ret (Ok (OK, mkFloat 1024 (-4) Normal true)).
Proof. exact dec_sample_run. Qed.
Example C32_long_runs : map (fun t => from_str_r DoubleS t NearestTiesToEven)
  [bytes "9007199254740993"; bytes "9007199254740993." ++ repeat 48 120 ++ bytes "1"; bytes "3e-324"; bytes "1e99999999999"; bytes "1e-400"] =
  [Ret (Ok (INEXACT, mkFloat 4503599627370496 53 Normal false)); Ret (Ok (INEXACT, mkFloat 4503599627370497 53 Normal false));
   Ret (Ok (Z.lor UNDERFLOW INEXACT, mkFloat 1 (-1022) Normal false)); Ret (Ok (Z.lor OVERFLOW INEXACT, mkFloat 0 1024 Infinity false));
   Ret (Ok (Z.lor UNDERFLOW INEXACT, mkFloat 0 (-1023) Zero false))].
Proof. exact dec_long_run. Qed.

(** A long literal rounded toward zero gives the predecessor of the number that
    it denotes exactly. *)
Theorem C32_directed_refuted : exists S s x st f, sem_ok S /\ dec_ok S /\ dec_text s false x /\
  from_str_r S s TowardZero = Ret (Ok (st, f)) /\ forall st' g, ~ correctly_rounded S TowardZero x g (st', f).
Proof. exact decimal_directed_refuted. Qed.
Print Assumptions C32_directed_refuted.
(** INEXACT is raised though the number is exact *)
Theorem C32_spurious_inexact_refuted : exists S s x f, sem_ok S /\ dec_ok S /\ dec_text s false x /\
  from_str_r S s NearestTiesToEven = Ret (Ok (INEXACT, f)) /\ finite f /\ value S f = x.
Proof. exact decimal_spurious_inexact_refuted. Qed.
Print Assumptions C32_spurious_inexact_refuted.
(** INEXACT is not raised though the number is not exact *)
Theorem C32_missing_inexact_refuted : exists S s x f, sem_ok S /\ dec_ok S /\ dec_text s false x /\ short x /\
  from_str_r S s NearestTiesToEven = Ret (Ok (OK, f)) /\ finite f /\ value S f <> x.
Proof. exact decimal_missing_inexact_refuted. Qed.
Print Assumptions C32_missing_inexact_refuted.
(** 1 followed by 2^32 zeros is read as 1: the count of digits is cut to 32 bits *)
Theorem C32_long_refuted : exists S s x f, sem_ok S /\ dec_ok S /\ dec_text s false x /\
  from_str_r S s NearestTiesToEven = Ret (Ok (OK, f)) /\ forall m st' g, ~ correctly_rounded S m x g (st', f).
Proof. exact dec_long_refuted. Qed.
Print Assumptions C32_long_refuted.
(** without [dec_ok]: a custom format with a wide exponent range *)
Theorem C32_underflow_refuted : exists S s x st f, sem_ok S /\ dec_text s false x /\
  from_str_r S s NearestTiesToEven = Ret (Ok (st, f)) /\ forall st' g, ~ correctly_rounded S NearestTiesToEven x g (st', f).
Proof. exact decimal_underflow_refuted. Qed.
Print Assumptions C32_underflow_refuted.

(** ** C33

    [accepted s]: the bytes [s] are a literal of one of the four kinds.
    Any other text is an error, in every format, whatever [sem_ok] says. *)
Theorem C33_rejects : forall S s m, ~ accepted s -> exists e, from_str_r S s m = Ret (Err e).
Proof. exact from_str_not_accepted. Qed.
Print Assumptions C33_rejects.
Theorem C33_infinity : forall S s g m, sem_ok S -> inf_text s g ->
  exists f, from_str_r S s m = Ret (Ok (OK, f)) /\ is_special S (infinity_of S) g f.
Proof. exact from_str_inf_value. Qed.
Print Assumptions C33_infinity.
Theorem C33_nan : forall S s g q pl m, sem_ok S -> nan_text s g q pl ->
  exists f, from_str_r S s m = Ret (Ok (OK, f)) /\ is_special S NaN g f /\
    (NONFINITE_BEHAVIOR S = IEEE754 -> signaling S f = q /\
       low_payload S f = (let low := payload_bits pl mod 2 ^ (PRECISION S - 2) in
                          if q && (low =? 0) then 2 ^ (PRECISION S - 3) else low)).
Proof. exact from_str_nan_value. Qed.
Print Assumptions C33_nan.

(** Every literal is accepted, and no text at all makes the parser panic.
    Missing: texts of 32 MiB and more; false from 2 GiB on (below). *)
Theorem C33_accepts_partial : forall S s m, sem_ok S -> dec_ok S -> accepted s -> len s < 2 ^ 25 ->
  exists st f, from_str_r S s m = Ret (Ok (st, f)) /\ wf S f.
Proof. exact from_str_accepts. Qed.
Print Assumptions C33_accepts_partial.
Theorem C33_total_partial : forall S s m, sem_ok S -> dec_ok S -> len s < 2 ^ 25 ->
  (exists st f, from_str_r S s m = Ret (Ok (st, f)) /\ wf S f /\ accepted s) \/
  (exists e, from_str_r S s m = Ret (Err e)).
Proof. exact from_str_total. Qed.
Print Assumptions C33_total_partial.

(** a hexadecimal literal of 2^31 digits panics, in every format and mode *)
Theorem C33_long_refuted : exists s, accepted s /\ forall S m, from_str_r S s m = Panic.
Proof. exact hex_panic_refuted. Qed.
Print Assumptions C33_long_refuted.

Example C33_nan_text : nan_text (bytes "-snan(017)") true true (Some 15).
Proof. exact nan_sample. Qed.
Example C33_nan_run : from_str_r SingleS (bytes "-snan(017)") NearestTiesToEven = Ret (Ok (OK, mkFloat 15 128 NaN true)).
Proof. exact nan_sample_run. Qed.
Example C33_rejected_runs : forall m, map (fun t => from_str_r SingleS t m)
  (map bytes ["1..2"; "0x1.8"; "-+1"; "."; "1e5x"; "+nan"; "Inf"; "nan()"; "0x"; "e1"]%string) =
  [Ret (Err StringContainsMultipleDots); Ret (Err HexStringsRequireAnExponent); Ret (Err InvalidCharacterInSignificand);
   Ret (Err SignificandHasNoDigits); Ret (Err InvalidCharacterInExponent); Ret (Err InvalidCharacterInSignificand);
   Ret (Err InvalidCharacterInSignificand); Ret (Err InvalidCharacterInSignificand); Ret (Err InvalidString); Ret (Err SignificandHasNoDigits)].
Proof. exact rejected_runs. Qed.
