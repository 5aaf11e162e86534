(** * PropsFmt.v -- Display: C34, C35 and C50 *)
From Coq Require Import ZArith Reals List Bool String.
From Flocq Require Import Core.
From Verif Require Import Machine Ieee Ppc Spec Formats Parse Samples SpecStr StrTop Fmt SpecFmt SpecPair PairSamples FmtTop FmtEdge FmtExact FmtBack FmtRefute PairFmt.
Import ListNotations.
Local Open Scope Z_scope.

(** ** C34

    [fmt S x w None alternate] is the text of [x] for the width [w] and the
    default precision.  [dec_ok] holds of every format of the crate
    ([C32_crate_formats]). *)
Theorem C34_normal : forall S x w alternate m, sem_ok S -> dec_ok S -> wf S x -> category x = Normal -> 0 <= chosen_width w ->
  m = NearestTiesToEven \/ m = NearestTiesToAway ->
  exists s st, fmt S x w None alternate = Ret s /\ from_str_r S s m = Ret (Ok (st, x)).
Proof. exact fmt_round_trip. Qed.
Print Assumptions C34_normal.
(** any precision P with 2^PRECISION < 10^(P-1); the default one is such *)
Theorem C34_digits : forall S x w p alternate m, sem_ok S -> dec_ok S -> wf S x -> category x = Normal -> 0 <= chosen_width w ->
  1 <= chosen_precision S p < 2 ^ 22 -> 2 ^ PRECISION S < 10 ^ (chosen_precision S p - 1) ->
  m = NearestTiesToEven \/ m = NearestTiesToAway ->
  exists s st, fmt S x w p alternate = Ret s /\ from_str_r S s m = Ret (Ok (st, x)).
Proof. exact fmt_round_trip_digits. Qed.
Print Assumptions C34_digits.
(** and one digit less is not enough *)
Theorem C34_digits_refuted : exists S x w p s st f, sem_ok S /\ dec_ok S /\ wf S x /\ category x = Normal /\
  10 ^ (p - 1) < 2 ^ PRECISION S < 10 ^ p /\ fmt S x w (Some p) false = Ret s /\
  from_str_r S s NearestTiesToEven = Ret (Ok (st, f)) /\ value S f <> value S x.
Proof. exact fmt_digits_refuted. Qed.
Print Assumptions C34_digits_refuted.
Example C34_digits_sample : 2 ^ PRECISION HalfS < 10 ^ (5 - 1) /\ 2 ^ PRECISION SingleS < 10 ^ (9 - 1) /\ 2 ^ PRECISION DoubleS < 10 ^ (17 - 1) /\
  fmt HalfS (mkFloat 2001 9 Normal false) None (Some 5) false = Ret (bytes "1000.5") /\
  from_str_r HalfS (bytes "1000.5") NearestTiesToEven = Ret (Ok (OK, mkFloat 2001 9 Normal false)).
Proof. vm_compute. repeat split; reflexivity. Qed.
Theorem C34_zero : forall S x w p alternate m, sem_ok S -> dec_ok S -> category x = Zero -> (forall n, p = Some n -> n < 2 ^ 24) ->
  exists s f, fmt S x w p alternate = Ret s /\ from_str_r S s m = Ret (Ok (OK, f)) /\ wf S f /\ category f = Zero /\ sign f = sign x.
Proof. exact fmt_zero_round_trip. Qed.
Print Assumptions C34_zero.
Theorem C34_infinity : forall S x w p alternate m, sem_ok S -> wf S x -> category x = Infinity ->
  exists s f, fmt S x w p alternate = Ret s /\ from_str_r S s m = Ret (Ok (OK, f)) /\ is_special S Infinity (sign x) f.
Proof. exact fmt_infinity_round_trip. Qed.
Print Assumptions C34_infinity.
(** a NaN comes back as a NaN, without its sign and payload *)
Theorem C34_nan : forall S x w p alternate m, sem_ok S -> category x = NaN ->
  exists f, fmt S x w p alternate = Ret (bytes "NaN") /\ from_str_r S (bytes "NaN") m = Ret (Ok (OK, f)) /\ is_special S NaN false f /\
    (NONFINITE_BEHAVIOR S = IEEE754 -> signaling S f = false).
Proof. exact fmt_nan. Qed.
Print Assumptions C34_nan.
(** the text belongs to the grammar, whatever the precision, and is accepted *)
Theorem C34_grammar : forall S x w p alternate, sem_ok S -> wf S x -> 0 <= chosen_width w -> 1 <= chosen_precision S p <= largest_precision ->
  exists s, fmt S x w p alternate = Ret s /\ accepted s.
Proof. exact fmt_accepted. Qed.
Print Assumptions C34_grammar.
Theorem C34_accepted : forall S x w p alternate m, sem_ok S -> dec_ok S -> wf S x -> 0 <= chosen_width w -> 1 <= chosen_precision S p < 2 ^ 22 ->
  exists s st f, fmt S x w p alternate = Ret s /\ from_str_r S s m = Ret (Ok (st, f)) /\ wf S f.
Proof. exact fmt_parses. Qed.
Print Assumptions C34_accepted.
Theorem C34_length : forall S x w p alternate s, sem_ok S -> wf S x -> category x = Normal -> 0 <= chosen_width w -> 1 <= chosen_precision S p <= 2 ^ 32 ->
  fmt S x w p alternate = Ret s -> len s <= 4 * chosen_precision S p + (PRECISION S - MIN_EXP S) + 20.
Proof. exact fmt_length. Qed.
Print Assumptions C34_length.
(** the directed modes do not give the value back *)
Theorem C34_directed_refuted : exists S x s st f, sem_ok S /\ dec_ok S /\ wf S x /\ category x = Normal /\ fmt S x None None false = Ret s /\
  from_str_r S s TowardZero = Ret (Ok (st, f)) /\ value S f <> value S x.
Proof. exact fmt_round_trip_directed_refuted. Qed.
Print Assumptions C34_directed_refuted.

Example C34_tenth : let x := mkFloat 7205759403792794 (-4) Normal true in
  wf DoubleS x /\ dec_ok DoubleS /\ fmt DoubleS x None None false = Ret (bytes "-0.10000000000000001") /\
  from_str_r DoubleS (bytes "-0.10000000000000001") NearestTiesToEven = Ret (Ok (INEXACT, x)).
Proof.
  cbv zeta. split; [sample_wf|]. split; [apply crate_dec_ok; do 2 right; left; reflexivity|]. split; vm_compute; reflexivity.
Qed.
Example C34_tenth_wide : fmt DoubleS (mkFloat 7205759403792794 (-4) Normal true) (Some 0) None true = Ret (bytes "-1.00000000000000010e-01").
Proof. vm_compute. reflexivity. Qed.
Example C34_zeros : map (fun w => fmt HalfS (mkFloat 0 (-15) Zero true) w (Some 3) true) [None; Some 0] = [Ret (bytes "-0"); Ret (bytes "-0.000e+00")].
Proof. vm_compute. reflexivity. Qed.
Example C34_specials : fmt HalfS (mkFloat 0 16 Infinity true) None None false = Ret (bytes "-Inf") /\ wf HalfS (mkFloat 0 16 Infinity true) /\
  fmt HalfS (mkFloat 513 16 NaN true) None None false = Ret (bytes "NaN").
Proof. split; [vm_compute; reflexivity|]. split; [sample_wf|vm_compute; reflexivity]. Qed.

(** ** C35

    [printed width P alternate g v s]: [s] is the text, in one of the four
    notations, of [v] reduced to [P] digits (SpecFmt.v).  [last_place P v q]:
    the [P]-th digit of [v] has the weight 10^q.  Missing: the precision 0 and
    precisions above [largest_precision], about 2^56.4, for which the claim is
    false; what happens then is said by [C35_precision_0] and [C35_too_precise]. *)
Theorem C35_text_partial : forall S x w p alternate, sem_ok S -> wf S x -> category x = Normal ->
  0 <= chosen_width w -> 1 <= chosen_precision S p <= largest_precision ->
  exists s, fmt S x w p alternate = Ret s /\ printed (chosen_width w) (chosen_precision S p) alternate (sign x) (Rabs (value S x)) s.
Proof. exact fmt_normal. Qed.
Print Assumptions C35_text_partial.
(** what is printed is less than a unit of the last place away, and exact if that is possible *)
Theorem C35_error_partial : forall S x w p alternate, sem_ok S -> wf S x -> category x = Normal -> 0 <= chosen_width w -> 1 <= chosen_precision S p <= largest_precision ->
  exists s y q, fmt S x w p alternate = Ret s /\ dec_text s (sign x) y /\ last_place (chosen_precision S p) (Rabs (value S x)) q /\
    (Rabs (y - value S x) < bpow r10 q)%R /\
    (forall m j, value S x = (IZR m * bpow r10 j)%R -> Z.abs m < 10 ^ chosen_precision S p -> y = value S x).
Proof. exact fmt_error. Qed.
Print Assumptions C35_error_partial.
Theorem C35_zero : forall S x w p alternate, category x = Zero ->
  exists t, fmt S x w p alternate = Ret ((if sign x then [45] else []) ++ t) /\ zero_text (chosen_width w) p alternate t.
Proof. exact fmt_zero. Qed.
Print Assumptions C35_zero.
Theorem C35_infinity : forall S x w p alternate, category x = Infinity ->
  exists s, fmt S x w p alternate = Ret s /\ inf_text s (sign x).
Proof. exact fmt_infinity. Qed.
Print Assumptions C35_infinity.
(** with the precision 0 the number 8 makes the code panic and 1 is printed as ten *)
Theorem C35_precision_0_refuted : exists S x y s v, sem_ok S /\ wf S x /\ wf S y /\ category x = Normal /\ category y = Normal /\
  fmt S x None (Some 0) false = Panic /\
  fmt S y None (Some 0) false = Ret s /\ dec_text s false v /\ value S y = 1%R /\ v = 10%R.
Proof. exact fmt_precision_0_refuted. Qed.
Print Assumptions C35_precision_0_refuted.
(** What the precision 0 does.  Let [N * 10^e] be the exact expansion of the
    number.  The code estimates how many digits [N] has and panics if the estimate
    is at least right; otherwise the power of ten above the number is printed. *)
Theorem C35_precision_0 : forall S x w alternate, sem_ok S -> wf S x -> category x = Normal -> 0 <= chosen_width w ->
  exists N e, expansion (Rabs (value S x)) N e /\
  if N <? 10 ^ ((Z.log2 N + 1) * 59 / 196) then fmt S x w (Some 0) alternate = Panic
  else exists k t, (bpow r10 (k - 1) <= Rabs (value S x) < bpow r10 k)%R /\ layout (chosen_width w) 0 alternate 1 k t /\
    fmt S x w (Some 0) alternate = Ret ((if sign x then [45] else []) ++ t).
Proof. exact fmt_precision_0. Qed.
Print Assumptions C35_precision_0.
Theorem C35_expansion_unique : forall v N e N' e', expansion v N e -> expansion v N' e' -> N = N' /\ e = e'.
Proof. exact expansion_unique. Qed.
Print Assumptions C35_expansion_unique.
Theorem C35_too_precise : forall S x w p alternate, sem_ok S -> wf S x -> category x = Normal -> largest_precision < chosen_precision S p ->
  fmt S x w p alternate = Panic.
Proof. exact fmt_too_precise. Qed.
Print Assumptions C35_too_precise.
Theorem C35_precision_huge_refuted : exists S x P, sem_ok S /\ wf S x /\ category x = Normal /\ 0 < P < 2 ^ 64 /\ fmt S x None (Some P) false = Panic.
Proof. exact fmt_precision_huge_refuted. Qed.
Print Assumptions C35_precision_huge_refuted.
(** the printed decimal is not always the nearest one *)
Theorem C35_nearest_refuted : exists S x s y n k, sem_ok S /\ wf S x /\ category x = Normal /\ fmt S x None None false = Ret s /\ dec_text s false y /\
  0 < n < 10 ^ chosen_precision S None /\ (Rabs (IZR n * bpow r10 k - value S x) < Rabs (y - value S x))%R.
Proof. exact fmt_nearest_refuted. Qed.
Print Assumptions C35_nearest_refuted.

Example C35_runs : let x := mkFloat (5 * 2 ^ 50 + 2) 30 Normal false in wf DoubleS x /\
  map (fun w => fmt DoubleS x (Some w) (Some 4) true) [0; 100] = [Ret (bytes "1.3420e+09"); Ret (bytes "1.3420e+09")] /\
  map (fun p => fmt DoubleS x None p false) [None; Some 60] = [Ret (bytes "1342177280.0000005"); Ret (bytes "1342177280.000000476837158203125")].
Proof. cbv zeta. split; [sample_wf|]. split; vm_compute; reflexivity. Qed.
Example C35_small_runs : let x := mkFloat 1040 (-7) Normal true in wf HalfS x /\
  map (fun w => fmt HalfS x w (Some 2) false) [None; Some 2; Some 1; Some 0] =
    [Ret (bytes "-0.0079"); Ret (bytes "-7.9E-3"); Ret (bytes "-7.9E-3"); Ret (bytes "-7.9E-3")].
Proof. cbv zeta. split; [sample_wf|]. vm_compute; reflexivity. Qed.

Example C35_precision_0_runs : let run e := fmt HalfS (mkFloat 1536 e Normal true) (Some 4) (Some 0) in
  wf HalfS (mkFloat 1536 3 Normal true) /\ wf HalfS (mkFloat 1536 (-3) Normal true) /\
  run 3 false = Ret (bytes "-1.0E+2") /\ run (-6) false = Ret (bytes "-0.1") /\ run (-3) true = Ret (bytes "-1.e+00") /\
  fmt HalfS (mkFloat 1024 3 Normal false) None (Some 0) false = Panic.
Proof. cbv zeta. split; [sample_wf|]. split; [sample_wf|]. split; [vm_compute; reflexivity|]. split; [vm_compute; reflexivity|]. split; vm_compute; reflexivity. Qed.

(** ** C50 *)
Theorem C50_text_partial : forall F, pair_ok F -> forall x w pr alternate, canonical_pair F x -> category (d0 x) = Normal ->
  0 <= chosen_width w -> 1 <= chosen_precision (FallbackS F) pr <= largest_precision ->
  exists s, dd_fmt F x w pr alternate = Ret s /\
    printed (chosen_width w) (chosen_precision (FallbackS F) pr) alternate (sign (d0 x)) (Rabs (operand F x)) s.
Proof. exact dd_fmt_normal. Qed.
Print Assumptions C50_text_partial.
Theorem C50_precision_0 : forall F, pair_ok F -> forall x w alternate, canonical_pair F x -> category (d0 x) = Normal -> 0 <= chosen_width w ->
  exists N e, expansion (Rabs (operand F x)) N e /\
  if N <? 10 ^ ((Z.log2 N + 1) * 59 / 196) then dd_fmt F x w (Some 0) alternate = Panic
  else exists k t, (bpow r10 (k - 1) <= Rabs (operand F x) < bpow r10 k)%R /\ layout (chosen_width w) 0 alternate 1 k t /\
    dd_fmt F x w (Some 0) alternate = Ret ((if sign (d0 x) then [45] else []) ++ t).
Proof. exact dd_fmt_precision_0. Qed.
Print Assumptions C50_precision_0.
Theorem C50_too_precise : forall F, pair_ok F -> forall x w pr alternate, canonical_pair F x -> category (d0 x) = Normal ->
  largest_precision < chosen_precision (FallbackS F) pr -> dd_fmt F x w pr alternate = Panic.
Proof. exact dd_fmt_too_precise. Qed.
Print Assumptions C50_too_precise.
Theorem C50_zero : forall F, pair_ok F -> forall x w pr alternate, canonical_pair F x -> category (d0 x) = Zero ->
  exists t, dd_fmt F x w pr alternate = Ret ((if sign (d0 x) then [45] else []) ++ t) /\ zero_text (chosen_width w) pr alternate t.
Proof. exact dd_fmt_zero. Qed.
Print Assumptions C50_zero.
Theorem C50_special : forall F, pair_ok F -> forall x w pr alternate, readable F x ->
  (category (d0 x) = Infinity -> exists s, dd_fmt F x w pr alternate = Ret s /\ inf_text s (sign (d0 x))) /\
  (category (d0 x) = NaN -> dd_fmt F x w pr alternate = Ret (bytes "NaN")).
Proof. exact dd_fmt_special. Qed.
Print Assumptions C50_special.
(** pairs that fit twice the precision are read back as they were *)
Theorem C50_round_trip : forall F, pair_ok F -> forall x w alternate m, dec_ok (FallbackS F) -> canonical_pair F x -> category (d0 x) = Normal ->
  operand F x = pair_value F x -> 0 <= chosen_width w -> m = NearestTiesToEven \/ m = NearestTiesToAway ->
  exists s st r, dd_fmt F x w None alternate = Ret s /\ dd_from_str_r F s m = Ret (Ok (st, r)) /\ canonical_pair F r /\
    d0 r = d0 x /\ value F (d1 r) = value F (d1 x).
Proof. exact dd_fmt_round_trip. Qed.
Print Assumptions C50_round_trip.
Theorem C50_round_trip_digits : forall F, pair_ok F -> forall x w pr alternate m, dec_ok (FallbackS F) -> canonical_pair F x -> category (d0 x) = Normal ->
  operand F x = pair_value F x -> 0 <= chosen_width w -> 1 <= chosen_precision (FallbackS F) pr < 2 ^ 22 ->
  2 ^ (2 * PRECISION F) < 10 ^ (chosen_precision (FallbackS F) pr - 1) -> m = NearestTiesToEven \/ m = NearestTiesToAway ->
  exists s st r, dd_fmt F x w pr alternate = Ret s /\ dd_from_str_r F s m = Ret (Ok (st, r)) /\ canonical_pair F r /\
    d0 r = d0 x /\ value F (d1 r) = value F (d1 x).
Proof. exact dd_fmt_round_trip_digits. Qed.
Print Assumptions C50_round_trip_digits.
Example C50_sample : canonical_pair DoubleS p_third /\ dec_ok (FallbackS DoubleS) /\ operand DoubleS p_third = pair_value DoubleS p_third /\
  dd_fmt DoubleS p_third None None false = Ret (bytes "0.333333333333333333333333333333335") /\
  dd_from_str_r DoubleS (bytes "0.333333333333333333333333333333335") NearestTiesToEven = Ret (Ok (INEXACT, p_third)).
Proof.
  split; [exact p_third_canonical|]. split; [apply crate_dec_ok; do 8 right; left; reflexivity|]. split; [exact p_third_exact|]. split; vm_compute; reflexivity.
Qed.

(** ** C64

    [printed_exactly width P alternate g v s]: [s] is the text of [n * 10^k], where
    [selected P N e n k] says which digits [n] are taken from the exact decimal
    expansion [N * 10^e] of [v] (SpecFmt.v); all of it is determined by the number,
    the width and the precision.  The precision 0 and precisions above
    [largest_precision] are in [C35_precision_0] and [C35_too_precise]. *)
Theorem C64_text : forall S x w p alternate, sem_ok S -> wf S x -> category x = Normal ->
  0 <= chosen_width w -> 1 <= chosen_precision S p <= largest_precision ->
  forall s, fmt S x w p alternate = Ret s <-> printed_exactly (chosen_width w) (chosen_precision S p) alternate (sign x) (Rabs (value S x)) s.
Proof. exact fmt_is. Qed.
Print Assumptions C64_text.
Theorem C64_total : forall S x w p alternate, sem_ok S -> wf S x -> category x = Normal ->
  0 <= chosen_width w -> 1 <= chosen_precision S p <= largest_precision ->
  exists s, fmt S x w p alternate = Ret s /\ printed_exactly (chosen_width w) (chosen_precision S p) alternate (sign x) (Rabs (value S x)) s.
Proof. exact fmt_exact. Qed.
Print Assumptions C64_total.
Theorem C64_unique : forall width P alternate g v s s', 1 <= P ->
  printed_exactly width P alternate g v s -> printed_exactly width P alternate g v s' -> s = s'.
Proof. exact printed_unique. Qed.
Print Assumptions C64_unique.
Theorem C64_digits_unique : forall P N e n k n' k', 1 <= P -> selected P N e n k -> selected P N e n' k' -> n = n' /\ k = k'.
Proof. exact selected_unique. Qed.
Print Assumptions C64_digits_unique.
Theorem C64_pair : forall F, pair_ok F -> forall x w pr alternate, canonical_pair F x -> category (d0 x) = Normal ->
  0 <= chosen_width w -> 1 <= chosen_precision (FallbackS F) pr <= largest_precision ->
  forall s, dd_fmt F x w pr alternate = Ret s <->
    printed_exactly (chosen_width w) (chosen_precision (FallbackS F) pr) alternate (sign (d0 x)) (Rabs (operand F x)) s.
Proof. exact dd_fmt_is. Qed.
Print Assumptions C64_pair.
(** 7 * 2^-23 is 83446502685546875 * 10^-23; the default precision is 5 and the
    digits 83446 are cut; 1025/1024 is rounded to 1.00 *)
Example C64_cut : wf HalfS (mkFloat 14 (-14) Normal false) /\ selected 5 (7 * 5 ^ 23) (-23) 83446 (-11) /\
  fmt HalfS (mkFloat 14 (-14) Normal false) None None false = Ret (bytes "8.3446E-7").
Proof.
  split; [sample_wf|]. split; [|vm_compute; reflexivity]. apply (selected_cut 5 (7 * 5 ^ 23) (-23) 83446 (-11) 0); vm_compute; congruence.
Qed.
Example C64_rounded : wf HalfS (mkFloat 1025 0 Normal true) /\ selected 3 10009765625 (-10) 1 0 /\
  fmt HalfS (mkFloat 1025 0 Normal true) (Some 0) (Some 3) true = Ret (bytes "-1.000e+00").
Proof.
  split; [sample_wf|]. split; [|vm_compute; reflexivity]. apply (selected_rounded 3 10009765625 (-10) 1 0 8 2); try (vm_compute; congruence). vm_compute. split; congruence.
Qed.
(** ties go away from zero: 1.25 and 2.5 *)
Example C64_ties : map (fun p => fmt HalfS (mkFloat 1280 0 Normal false) None (Some p) false) [2; 3] = [Ret (bytes "1.3"); Ret (bytes "1.25")] /\
  fmt HalfS (mkFloat 1280 1 Normal false) None (Some 1) false = Ret (bytes "3").
Proof. vm_compute. split; reflexivity. Qed.
