(** * PropsOps.v -- operators, default rounding modes, Debug (C53, C54) *)
From Coq Require Import ZArith Reals List Bool String.
From Flocq Require Import Core.
From Verif Require Import Machine Ieee Parse Fmt Ppc Ops Spec SpecStr SpecFmt SpecPair PairBase Formats Samples StrDec StrSamples PairSamples OpsSpec.
Import ListNotations.
Local Open Scope Z_scope.

(** ** C53

    [nearest] is [NearestTiesToEven].  In this mode the overflow rule of the
    formats without infinities agrees with the standard, so every format is covered. *)
Theorem C53_add : forall S x y, sem_ok S -> wf S x -> wf S y -> finite x -> finite y ->
  exists res, op_add S x y = Ret res /\ correctly_rounded S nearest (value S x + value S y) (sum_zero_sign x y (sign y) nearest) res.
Proof. exact op_add_spec. Qed.
Print Assumptions C53_add.
Theorem C53_sub : forall S x y, sem_ok S -> wf S x -> wf S y -> finite x -> finite y ->
  exists res, op_sub S x y = Ret res /\ correctly_rounded S nearest (value S x - value S y) (sum_zero_sign x y (negb (sign y)) nearest) res.
Proof. exact op_sub_spec. Qed.
Print Assumptions C53_sub.
Theorem C53_mul : forall S x y, sem_ok S -> wf S x -> wf S y -> finite x -> finite y ->
  exists res, op_mul S x y = Ret res /\ correctly_rounded S nearest (value S x * value S y) (xorb (sign x) (sign y)) res.
Proof. exact op_mul_spec. Qed.
Print Assumptions C53_mul.
Theorem C53_div : forall S x y, sem_ok S -> wf S x -> wf S y -> finite x -> category y = Normal ->
  exists res, op_div S x y = Ret res /\ correctly_rounded S nearest (value S x / value S y) (xorb (sign x) (sign y)) res.
Proof. exact op_div_spec. Qed.
Print Assumptions C53_div.
Theorem C53_rem : forall S x y, sem_ok S -> wf S x -> wf S y -> finite x -> category y = Normal ->
  exists r, op_rem S x y = Ret (OK, r) /\ wf S r /\ finite r /\
    value S r = (value S x - IZR (Ztrunc (value S x / value S y)) * value S y)%R /\
    sign r = sign x /\ (Rabs (value S r) < Rabs (value S y))%R.
Proof. exact op_rem_spec. Qed.
Print Assumptions C53_rem.
Theorem C53_add_assign : forall S x y, sem_ok S -> wf S x -> wf S y -> finite x -> finite y ->
  exists st f, add_assign S x y = Ret f /\ correctly_rounded S nearest (value S x + value S y) (sum_zero_sign x y (sign y) nearest) (st, f).
Proof. exact add_assign_spec. Qed.
Print Assumptions C53_add_assign.
Theorem C53_sub_assign : forall S x y, sem_ok S -> wf S x -> wf S y -> finite x -> finite y ->
  exists st f, sub_assign S x y = Ret f /\ correctly_rounded S nearest (value S x - value S y) (sum_zero_sign x y (negb (sign y)) nearest) (st, f).
Proof. exact sub_assign_spec. Qed.
Print Assumptions C53_sub_assign.
Theorem C53_mul_assign : forall S x y, sem_ok S -> wf S x -> wf S y -> finite x -> finite y ->
  exists st f, mul_assign S x y = Ret f /\ correctly_rounded S nearest (value S x * value S y) (xorb (sign x) (sign y)) (st, f).
Proof. exact mul_assign_spec. Qed.
Print Assumptions C53_mul_assign.
Theorem C53_div_assign : forall S x y, sem_ok S -> wf S x -> wf S y -> finite x -> category y = Normal ->
  exists st f, div_assign S x y = Ret f /\ correctly_rounded S nearest (value S x / value S y) (xorb (sign x) (sign y)) (st, f).
Proof. exact div_assign_spec. Qed.
Print Assumptions C53_div_assign.
Theorem C53_rem_assign : forall S x y, sem_ok S -> wf S x -> wf S y -> finite x -> category y = Normal ->
  exists r, rem_assign S x y = Ret r /\ wf S r /\ finite r /\
    value S r = (value S x - IZR (Ztrunc (value S x / value S y)) * value S y)%R /\
    sign r = sign x /\ (Rabs (value S r) < Rabs (value S y))%R.
Proof. exact rem_assign_spec. Qed.
Print Assumptions C53_rem_assign.
Example C53_operators_example : wf HalfS h_one /\ wf HalfS h_ten /\ op_div HalfS h_one h_ten = Ret (INEXACT, mkFloat 1638 (-4) Normal false) /\
  div_assign HalfS h_one h_ten = Ret (mkFloat 1638 (-4) Normal false) /\
  op_rem HalfS h_ten h_neg = Ret (OK, h_one) /\ op_add HalfS h_max h_max = Ret (Z.lor OVERFLOW INEXACT, h_inf).
Proof. split; [exact h_one_wf|]. split; [exact h_ten_wf|]. vm_compute. repeat split. Qed.
(** Missing: operands outside [fma_safe] (C08) *)
Theorem C53_mul_add_partial : forall S x y z, sem_ok S -> wf S x -> wf S y -> wf S z ->
  finite x -> finite y -> finite z -> fma_safe S x y z ->
  exists res, mul_add S x y z = Ret res /\
    correctly_rounded S nearest (value S x * value S y + value S z) (fma_zero_sign (xorb (sign x) (sign y)) z nearest) res.
Proof. exact mul_add_spec. Qed.
Print Assumptions C53_mul_add_partial.
Theorem C53_from_i128 : forall S n, sem_ok S -> - 2 ^ 127 <= n < 2 ^ 127 ->
  exists res, from_i128 S n = Ret res /\ correctly_rounded S nearest (IZR n) false res.
Proof. exact from_i128_spec. Qed.
Print Assumptions C53_from_i128.
Theorem C53_from_u128 : forall S n, sem_ok S -> 0 <= n < 2 ^ 128 ->
  exists res, from_u128 S n = Ret res /\ correctly_rounded S nearest (IZR n) false res.
Proof. exact from_u128_spec. Qed.
Print Assumptions C53_from_u128.
Theorem C53_to_u128 : forall S x w, sem_ok S -> wf S x -> 1 <= w <= 128 ->
  exists st n, to_u128 S x w = Ret (st, n) /\ converted_to_int S x TowardZero 0 (2 ^ w - 1) st n.
Proof. exact to_u128_spec. Qed.
Print Assumptions C53_to_u128.
(** Missing: width 1 of a value without a sign (C16) *)
Theorem C53_to_i128_partial : forall S x w, sem_ok S -> wf S x -> (if sign x then 1 else 2) <= w <= 128 ->
  exists st n, to_i128 S x w = Ret (st, n) /\ converted_to_int S x TowardZero (- 2 ^ (w - 1)) (2 ^ (w - 1) - 1) st n.
Proof. exact to_i128_spec. Qed.
Print Assumptions C53_to_i128_partial.
Theorem C53_scalbn : forall S x n, sem_ok S -> wf S x -> category x = Normal ->
  exists st f, scalbn S x n = Ret f /\ correctly_rounded S nearest (value S x * bpow r2 n) (sign x) (st, f).
Proof. exact scalbn_spec. Qed.
Print Assumptions C53_scalbn.
Theorem C53_frexp : forall S x, sem_ok S -> wf S x -> category x = Normal ->
  exists f e, frexp S x = Ret (f, e) /\ wf S f /\ finite f /\
    value S x = (value S f * bpow r2 e)%R /\ (/ 2 <= Rabs (value S f) < 1)%R.
Proof. exact frexp_spec. Qed.
Print Assumptions C53_frexp.
Theorem C53_convert : forall S T x, sem_ok S -> sem_ok T -> wf S x -> finite x ->
  exists st r lost, convert S T x = Ret (st, r, lost) /\
    correctly_rounded T nearest (value S x) (sign x) (st, r) /\
    (lost = false <-> finite r /\ value T r = value S x).
Proof. exact convert_spec. Qed.
Print Assumptions C53_convert.
Theorem C53_default : forall S, sem_ok S -> is_special S Zero false (default S).
Proof. exact default_spec. Qed.
Print Assumptions C53_default.
Example C53_methods_example : mul_add HalfS h_one h_one h_ten = Ret (OK, mkFloat 1408 3 Normal false) /\
  from_i128 HalfS (-1) = Ret (OK, neg h_one) /\ from_u128 HalfS 2049 = Ret (INEXACT, mkFloat 1024 11 Normal false) /\ scalbn HalfS h_one 3 = Ret (mkFloat 1024 3 Normal false) /\ to_i128 HalfS h_neg 8 = Ret (INEXACT, -1) /\ to_u128 HalfS h_max 8 = Ret (INVALID_OP, 255) /\
  frexp HalfS h_ten = Ret (mkFloat 1280 (-1) Normal false, 4) /\ convert HalfS Float8E4M3FNS h_max = Ret (Z.lor OVERFLOW INEXACT, mkFloat 7 8 NaN false, true).
Proof. vm_compute. repeat split. Qed.
(** The status is lost, so that decimal literals have no exceptions but their length.
    Missing: longer literals (C31, C32) *)
Theorem C53_from_str_hex_partial : forall S s g x, sem_ok S -> PRECISION S <= 125 -> hex_text s g x -> len s + 2 ^ 20 <= 2 ^ 29 ->
  exists st f, from_str S s = Ret (Ok f) /\ correctly_rounded S nearest x g (st, f).
Proof. exact from_str_spec_hex. Qed.
Print Assumptions C53_from_str_hex_partial.
Theorem C53_from_str_dec_partial : forall S s g x, sem_ok S -> dec_ok S -> dec_text s g x -> len s < 2 ^ 25 ->
  exists st f, from_str S s = Ret (Ok f) /\ correctly_rounded S nearest x g (st, f).
Proof. exact from_str_spec_dec. Qed.
Print Assumptions C53_from_str_dec_partial.
Theorem C53_from_str_err : forall S s, ~ accepted s -> exists e, from_str S s = Ret (Err e).
Proof. exact from_str_spec_err. Qed.
Print Assumptions C53_from_str_err.
Example C53_from_str_example : from_str SingleS (bytes "0.1") = Ret (Ok (mkFloat 13421773 (-4) Normal false)) /\
  from_str SingleS (bytes "0x1.8p-3") = Ret (Ok (mkFloat 12582912 (-3) Normal false)) /\
  (exists e, from_str SingleS (bytes "0.1.") = Ret (Err e)).
Proof. split; [vm_compute; reflexivity|]. split; [vm_compute; reflexivity|]. eexists. vm_compute. reflexivity. Qed.
(** [unwrapped r] is [r.unwrap()] *)
Theorem C53_unwrap_add : forall S x y, sem_ok S -> wf S x -> wf S y -> finite x -> finite y ->
  (representable S (value S x + value S y) -> exists f, unwrapped (op_add S x y) = Ret f /\ wf S f /\ finite f /\ value S f = (value S x + value S y)%R) /\
  (~ representable S (value S x + value S y) -> unwrapped (op_add S x y) = Panic).
Proof. exact unwrap_add. Qed.
Print Assumptions C53_unwrap_add.
Theorem C53_unwrap_mul : forall S x y, sem_ok S -> wf S x -> wf S y -> finite x -> finite y ->
  (representable S (value S x * value S y) -> exists f, unwrapped (op_mul S x y) = Ret f /\ wf S f /\ finite f /\ value S f = (value S x * value S y)%R) /\
  (~ representable S (value S x * value S y) -> unwrapped (op_mul S x y) = Panic).
Proof. exact unwrap_mul. Qed.
Print Assumptions C53_unwrap_mul.
Theorem C53_unwrap_from_i128 : forall S n, sem_ok S -> - 2 ^ 127 <= n < 2 ^ 127 ->
  (representable S (IZR n) -> exists f, unwrapped (from_i128 S n) = Ret f /\ wf S f /\ finite f /\ value S f = IZR n) /\
  (~ representable S (IZR n) -> unwrapped (from_i128 S n) = Panic).
Proof. exact unwrap_from_i128. Qed.
Print Assumptions C53_unwrap_from_i128.
(** [mapped f r] is [r.map(f)] *)
Theorem C53_map_unwrap : forall (A B : Type) (f : A -> B) (r : outcome (Z * A)), unwrapped (mapped f r) = (let! v := unwrapped r in Ret (f v)).
Proof. exact map_unwrapped. Qed.
Print Assumptions C53_map_unwrap.
Theorem C53_map_map : forall (A B C : Type) (f : A -> B) (g : B -> C) (r : outcome (Z * A)),
  mapped g (mapped f r) = mapped (fun v => g (f v)) r /\ mapped (fun v => v) r = r.
Proof. exact map_twice. Qed.
Print Assumptions C53_map_map.
Theorem C53_map_from_u128 : forall S n m, sem_ok S -> 0 < n <= 2 ^ 127 -> mapped neg (from_u128_r S n (round_neg m)) = from_i128_r S (- n) m.
Proof. exact map_from_u128. Qed.
Print Assumptions C53_map_from_u128.
Example C53_unwrap_example : unwrapped (op_add HalfS h_one h_ten) = Ret (mkFloat 1408 3 Normal false) /\
  unwrapped (op_mul HalfS h_max h_ten) = Panic /\ unwrapped (from_i128 HalfS 2049) = Panic /\ unwrapped (from_i128 HalfS 2050) = Ret (mkFloat 1025 11 Normal false) /\
  mapped neg (from_i128 HalfS 2049) = Ret (INEXACT, mkFloat 1024 11 Normal true).
Proof. vm_compute. repeat split. Qed.
(** pairs *)
(** relative error of products away from both ends of the range; all canonical operands: PropsOpsPairTop.v *)
Theorem C53_pair_mul_relative : forall F, pair_ok F -> 4 <= PRECISION F -> forall x y, canonical_pair F x -> canonical_pair F y ->
  (bpow r2 (MIN_EXP F + 2 * PRECISION F + 1) <= Rabs (value F (d0 x) * value F (d0 y)) <= bpow r2 (MAX_EXP F - 4))%R ->
  exists st r, dd_op_mul F x y = Ret (st, r) /\ canonical_pair F r /\
    (Rabs (pair_value F r - pair_value F x * pair_value F y) <= bpow r2 (4 - 2 * PRECISION F) * Rabs (pair_value F x * pair_value F y))%R.
Proof. exact dd_op_mul_spec. Qed.
Print Assumptions C53_pair_mul_relative.
Theorem C53_pair_div : forall F, pair_ok F -> forall x y, canonical_pair F x -> canonical_pair F y -> operand F y <> 0%R ->
  via_wide F (fun st f => correctly_rounded (FallbackS F) nearest (operand F x / operand F y) (xorb (sign (d0 x)) (sign (d0 y))) (st, f))
    (dd_op_div F x y).
Proof. exact dd_op_div_spec. Qed.
Print Assumptions C53_pair_div.
Theorem C53_pair_rem : forall F, pair_ok F -> forall x y, canonical_pair F x -> canonical_pair F y -> operand F y <> 0%R ->
  via_wide F (fun st f => st = OK /\ finite f /\ sign f = sign (d0 x) /\
      value (FallbackS F) f = (operand F x - IZR (Ztrunc (operand F x / operand F y)) * operand F y)%R /\
      (Rabs (value (FallbackS F) f) < Rabs (operand F y))%R)
    (dd_op_rem F x y).
Proof. exact dd_op_rem_spec. Qed.
Print Assumptions C53_pair_rem.
Theorem C53_pair_default : forall F, pair_ok F ->
  proper_pair F (dd_default F) /\ category (d0 (dd_default F)) = Zero /\ sign (d0 (dd_default F)) = false /\ pair_value F (dd_default F) = 0%R.
Proof. exact dd_default_spec. Qed.
Print Assumptions C53_pair_default.
Theorem C53_pair_from_str_partial : forall F, pair_ok F -> forall s g x, dec_ok (FallbackS F) -> dec_text s g x -> len s < 2 ^ 25 ->
  exists st f, correctly_rounded (FallbackS F) nearest x g (st, f) /\
    (splittable F f -> exists r, dd_from_str F s = Ret (Ok r) /\ split_of F f r) /\
    (~ splittable F f -> dd_from_str F s = Panic).
Proof. exact dd_from_str_spec_dec. Qed.
Print Assumptions C53_pair_from_str_partial.
Theorem C53_pair_from_str_err : forall F s, ~ accepted s -> exists e, dd_from_str F s = Ret (Err e).
Proof. exact dd_from_str_spec_err. Qed.
Print Assumptions C53_pair_from_str_err.

(** ** C54

    The text begins with that of Display; and no two values have the same one:
    [x = y] compares significand, exponent, category and sign, so that NaNs with
    different payloads, and the values of the two zeros, are told apart. *)
Theorem C54_debug : forall S x, sem_ok S -> wf S x ->
  exists s, debug S x = Ret s /\
    (exists t u, s = t ++ u /\ fmt S x None None false = Ret t /\ accepted t) /\
    forall y, wf S y -> debug S y = Ret s -> x = y.
Proof. exact debug_spec. Qed.
Print Assumptions C54_debug.
Example C54_example : debug HalfS h_neg = Ret (bytes "-1.5(Normal | -[1536] * 2^0)") /\
  debug HalfS h_nzero = Ret (bytes "-0(Zero | -[0] * 2^-15)") /\ debug HalfS h_qnan = Ret (bytes "NaN(NaN | -[517] * 2^16)").
Proof. vm_compute. repeat split. Qed.
