(** * PropsConvert.v -- conversions between formats (C20, C21, C39) *)
From Coq Require Import ZArith Reals List Bool.
From Flocq Require Import Core.
From Verif Require Import Machine Ieee Spec Convert Laws Samples Refute More.
Import ListNotations.
Local Open Scope Z_scope.

(** every target with infinities; the last clause is C21 *)
Theorem C20_convert : forall S T x m, sem_ok S -> sem_ok T -> NONFINITE_BEHAVIOR T = IEEE754 -> wf S x -> finite x ->
  exists st r lost, convert_r S T x m = Ret (st, r, lost) /\
    correctly_rounded T m (value S x) (sign x) (st, r) /\
    (lost = false <-> finite r /\ value T r = value S x).
Proof. exact convert_r_ieee. Qed.
Print Assumptions C20_convert.
(** every target.  Missing: negative values overflowing in a directed mode of a
    NaN-only format *)
Theorem C20_convert_partial : forall S T x m, sem_ok S -> sem_ok T -> wf S x -> finite x ->
  overflow_side_ok T m (value S x) ->
  exists st r lost, convert_r S T x m = Ret (st, r, lost) /\
    correctly_rounded T m (value S x) (sign x) (st, r) /\
    (lost = false <-> finite r /\ value T r = value S x).
Proof. exact convert_r_finite. Qed.
Print Assumptions C20_convert_partial.
(** the crate's own overflow rule, every case *)
Theorem C20_convert_crate : forall S T x m, sem_ok S -> sem_ok T -> wf S x -> finite x ->
  exists st r lost, convert_r S T x m = Ret (st, r, lost) /\
    crate_rounded T m (value S x) (sign x) (st, r) /\
    (lost = false <-> finite r /\ value T r = value S x).
Proof. exact convert_r_crate. Qed.
Print Assumptions C20_convert_crate.
Theorem C20_convert_infinite : forall S T x m, sem_ok T -> category x = Infinity ->
  exists r, convert_r S T x m =
      Ret (match NONFINITE_BEHAVIOR T with IEEE754 => OK | NanOnly => INEXACT end, r,
           match NONFINITE_BEHAVIOR T with IEEE754 => false | NanOnly => true end) /\
    is_special T (infinity_of T) (sign x) r.
Proof. exact convert_r_infinite. Qed.
Print Assumptions C20_convert_infinite.
Theorem C20_convert_nan : forall S T x m, sem_ok S -> sem_ok T -> wf S x -> category x = NaN ->
  exists r lost, convert_r S T x m = Ret (invalid_if (signaling S x), r, lost) /\
    default_nan T r /\ sign r = sign x /\
    (NONFINITE_BEHAVIOR S = IEEE754 -> NONFINITE_BEHAVIOR T = IEEE754 ->
       sig r mod 2 ^ (PRECISION T - 1) = Z.shiftl (sig (quieted S x)) (PRECISION T - PRECISION S) mod 2 ^ (PRECISION T - 1)) /\
    (NONFINITE_BEHAVIOR S = IEEE754 ->
      (lost = false <->
       NONFINITE_BEHAVIOR T = IEEE754 /\
       sig (quieted S x) = Z.shiftl (Z.shiftl (sig (quieted S x)) (PRECISION T - PRECISION S)) (PRECISION S - PRECISION T) /\
       (X87 S = true -> X87 T = false -> signaling S x = false))).
Proof. exact convert_r_nan. Qed.
Print Assumptions C20_convert_nan.
Theorem C20_convert_refuted : exists S T x m st r lost, sem_ok S /\ sem_ok T /\ wf S x /\ finite x /\
  convert_r S T x m = Ret (st, r, lost) /\ forall zs, ~ correctly_rounded T m (value S x) zs (st, r).
Proof. exact convert_r_refuted. Qed.
Print Assumptions C20_convert_refuted.
Theorem C21_loses_info : forall S T x m, sem_ok S -> sem_ok T -> wf S x -> finite x ->
  exists st r lost, convert_r S T x m = Ret (st, r, lost) /\
    (lost = false <-> finite r /\ value T r = value S x).
Proof. exact convert_r_lost. Qed.
Print Assumptions C21_loses_info.
(** [contains T S]: T has at least the precision and the exponent range of S *)
Theorem C21_widening : forall S T x m m', sem_ok S -> sem_ok T -> wf S x -> finite x -> contains T S ->
  exists r, convert_r S T x m = Ret (OK, r, false) /\ wf T r /\ finite r /\ value T r = value S x /\
    exists r', convert_r T S r m' = Ret (OK, r', false) /\ bitwise_eq r' x = true.
Proof. exact convert_round_trip. Qed.
Print Assumptions C21_widening.
(** 2^-24, a subnormal of the narrow format, is normal in the wide one and comes back; 2047 * 2^5 does not fit bfloat16 *)
Example C21_example : sem_ok HalfS /\ sem_ok SingleS /\ wf HalfS h_min /\ finite h_min /\ contains SingleS HalfS /\
  convert_r HalfS SingleS h_min TowardPositive = Ret (OK, mkFloat (2 ^ 23) (-24) Normal false, false) /\
  convert_r SingleS HalfS (mkFloat (2 ^ 23) (-24) Normal false) TowardNegative = Ret (OK, h_min, false) /\
  wf HalfS h_max /\ convert_r HalfS BFloatS h_max TowardZero = Ret (INEXACT, mkFloat 255 15 Normal false, true) /\
  convert_r HalfS BFloatS h_ten TowardZero = Ret (OK, mkFloat 160 3 Normal false, false).
Proof.
  split; [exact half_ok|]. split; [exact single_ok|]. split; [exact h_min_wf|]. split; [left; reflexivity|].
  split; [exact single_contains_half|]. split; [vm_compute; reflexivity|]. split; [vm_compute; reflexivity|].
  split; [exact h_max_wf|]. split; vm_compute; reflexivity.
Qed.
Theorem C39_round_trip : forall S T x m m', sem_ok S -> sem_ok T -> wf S x -> finite x -> contains T S ->
  exists r, convert_r S T x m = Ret (OK, r, false) /\ wf T r /\ finite r /\ value T r = value S x /\
    exists r', convert_r T S r m' = Ret (OK, r', false) /\ bitwise_eq r' x = true.
Proof. exact convert_round_trip. Qed.
Print Assumptions C39_round_trip.
(** Missing: NaN-only formats, x87 NaNs with a clear integer bit, signaling x87 NaNs *)
Theorem C39_round_trip_nan_partial : forall S T x m m', sem_ok S -> sem_ok T -> wf S x -> category x = NaN ->
  NONFINITE_BEHAVIOR S = IEEE754 -> NONFINITE_BEHAVIOR T = IEEE754 -> PRECISION S <= PRECISION T ->
  proper_nan S x -> (X87 S = true -> X87 T = false -> signaling S x = false) ->
  exists r r', convert_r S T x m = Ret (invalid_if (signaling S x), r, false) /\ default_nan T r /\ sign r = sign x /\
    convert_r T S r m' = Ret (OK, r', false) /\ bitwise_eq r' (quieted S x) = true.
Proof. exact convert_round_trip_nan. Qed.
Print Assumptions C39_round_trip_nan_partial.
(** a quiet NaN comes back, a signaling NaN comes back quieted *)
Example C39_example : wf HalfS h_snan /\ wf HalfS h_qnan /\ proper_nan HalfS h_snan /\ proper_nan HalfS h_qnan /\
  signaling HalfS h_snan = true /\ signaling HalfS h_qnan = false /\
  convert_r HalfS SingleS h_qnan NearestTiesToEven = Ret (OK, mkFloat (517 * 2 ^ 13) 128 NaN true, false) /\
  convert_r SingleS HalfS (mkFloat (517 * 2 ^ 13) 128 NaN true) TowardZero = Ret (OK, h_qnan, false) /\
  convert_r HalfS SingleS h_snan NearestTiesToEven = Ret (INVALID_OP, mkFloat (517 * 2 ^ 13) 128 NaN true, false) /\
  bitwise_eq h_qnan (quieted HalfS h_snan) = true.
Proof.
  split; [exact h_snan_wf|]. split; [exact h_qnan_wf|]. split; [sample_wf|]. split; [sample_wf|]. vm_compute. repeat split.
Qed.
Theorem C39_nan_refuted : exists S T x m r r', sem_ok S /\ sem_ok T /\ contains T S /\ wf S x /\
  convert_r S T x m = Ret (OK, r, false) /\ convert_r T S r m = Ret (OK, r', true) /\ bitwise_eq r' x = true.
Proof. exact nan_round_trip_refuted. Qed.
Print Assumptions C39_nan_refuted.
Example C20_example : sem_ok HalfS /\ sem_ok SingleS /\ sem_ok BFloatS /\ wf HalfS h_one_ulp /\ contains SingleS HalfS /\
  convert_r HalfS SingleS h_min TowardZero = Ret (OK, mkFloat (2 ^ 23) (-24) Normal false, false) /\
  convert_r SingleS HalfS (mkFloat (2 ^ 23) (-24) Normal false) TowardZero = Ret (OK, h_min, false) /\
  convert_r HalfS BFloatS h_one_ulp NearestTiesToEven = Ret (INEXACT, mkFloat 128 0 Normal false, true) /\
  convert_r HalfS Float8E4M3FNS h_ninf NearestTiesToEven = Ret (INEXACT, mkFloat 7 8 NaN true, true).
Proof.
  split; [exact half_ok|]. split; [exact single_ok|]. split; [exact bfloat_ok|]. split; [exact h_one_ulp_wf|].
  split; [exact single_contains_half|]. vm_compute. repeat split.
Qed.

(** C20: NaNs of a format that has only one per sign: a canonical quiet NaN, sign kept,
    no flag, nothing lost *)
Theorem C20_convert_nan_only : forall S T x m, sem_ok S -> sem_ok T -> wf S x -> category x = NaN -> NONFINITE_BEHAVIOR S = NanOnly ->
  exists r, convert_r S T x m = Ret (OK, r, false) /\ default_nan T r /\ sign r = sign x.
Proof. exact convert_r_nan_only. Qed.
Print Assumptions C20_convert_nan_only.
Example C20_convert_nan_only_example : sem_ok Float8E4M3FNS /\ wf Float8E4M3FNS (mkFloat 7 8 NaN true) /\
  convert_r Float8E4M3FNS HalfS (mkFloat 7 8 NaN true) NearestTiesToEven = Ret (OK, mkFloat 896 16 NaN true, false).
Proof. split; [exact e4m3_ok|]. split; [sample_wf|]. vm_compute. repeat split. Qed.
