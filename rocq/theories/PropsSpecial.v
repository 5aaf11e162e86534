(** * PropsSpecial.v -- special operands and NaNs (C10, C11) *)
From Coq Require Import ZArith Reals List Bool.
From Flocq Require Import Core.
From Verif Require Import Machine Ieee Spec Special Formats Fma Integral Scale Next Convert Samples Refute More.
Import ListNotations.
Local Open Scope Z_scope.

(** ** C10: infinities and zeros

    [is_special S c g f]: f is canonical of category c and sign g;
    [default_nan]: a canonical quiet NaN; [infinity_of S] is NaN in a NaN-only
    format. *)
Theorem C10_add_r_infinite : forall S x y m, sem_ok S -> wf S x -> wf S y ->
  category x <> NaN -> category y <> NaN -> category x = Infinity \/ category y = Infinity ->
  exists st f, add_r S x y m = Ret (st, f) /\
    match category x, category y with
    | Infinity, Infinity =>
      if Bool.eqb (sign x) (sign y) then st = OK /\ is_special S Infinity (sign x) f
      else st = INVALID_OP /\ default_nan S f
    | Infinity, _ => st = OK /\ is_special S Infinity (sign x) f
    | _, _ => st = OK /\ is_special S Infinity (sign y) f
    end.
Proof. exact add_r_infinite. Qed.
Print Assumptions C10_add_r_infinite.
Theorem C10_sub_r_infinite : forall S x y m, sem_ok S -> wf S x -> wf S y ->
  category x <> NaN -> category y <> NaN -> category x = Infinity \/ category y = Infinity ->
  exists st f, sub_r S x y m = Ret (st, f) /\
    match category x, category y with
    | Infinity, Infinity =>
      if Bool.eqb (sign x) (sign y) then st = INVALID_OP /\ default_nan S f
      else st = OK /\ is_special S Infinity (sign x) f
    | Infinity, _ => st = OK /\ is_special S Infinity (sign x) f
    | _, _ => st = OK /\ is_special S Infinity (negb (sign y)) f
    end.
Proof. exact sub_r_infinite. Qed.
Print Assumptions C10_sub_r_infinite.
Theorem C10_mul_r_infinite : forall S x y m, sem_ok S -> wf S x -> wf S y ->
  category x <> NaN -> category y <> NaN -> category x = Infinity \/ category y = Infinity ->
  exists st f, mul_r S x y m = Ret (st, f) /\
    match category x, category y with
    | Zero, _ | _, Zero => st = INVALID_OP /\ default_nan S f
    | _, _ => st = OK /\ is_special S Infinity (xorb (sign x) (sign y)) f
    end.
Proof. exact mul_r_infinite. Qed.
Print Assumptions C10_mul_r_infinite.
Theorem C10_div_r_special : forall S x y m, sem_ok S -> wf S x -> wf S y ->
  category x <> NaN -> category y <> NaN ->
  category x = Infinity \/ category y = Infinity \/ category y = Zero ->
  exists st f, div_r S x y m = Ret (st, f) /\
    let g := xorb (sign x) (sign y) in
    match category x, category y with
    | Infinity, Infinity | Zero, Zero => st = INVALID_OP /\ default_nan S f
    | Infinity, _ => st = OK /\ is_special S Infinity g f
    | _, Infinity => st = OK /\ is_special S Zero g f
    | _, _ => st = DIV_BY_ZERO /\ is_special S (infinity_of S) g f
    end.
Proof. exact div_r_special. Qed.
Print Assumptions C10_div_r_special.
Theorem C10_c_fmod_special : forall S x y, sem_ok S -> wf S x -> wf S y ->
  category x <> NaN -> category y <> NaN ->
  category x = Infinity \/ category y = Infinity \/ category y = Zero \/ category x = Zero ->
  exists st f, c_fmod S x y = Ret (st, f) /\
    match category x, category y with
    | Infinity, _ | _, Zero => st = INVALID_OP /\ default_nan S f
    | _, _ => st = OK /\ f = x
    end.
Proof. exact c_fmod_special. Qed.
Print Assumptions C10_c_fmod_special.
Theorem C10_ieee_rem_special : forall S x y, sem_ok S -> wf S x -> wf S y ->
  category x <> NaN -> category y <> NaN ->
  category x = Infinity \/ category y = Infinity \/ category y = Zero \/ category x = Zero ->
  exists st f, ieee_rem S x y = Ret (st, f) /\
    match category x, category y with
    | Infinity, _ | _, Zero => st = INVALID_OP /\ default_nan S f
    | _, _ => st = OK /\ f = x
    end.
Proof. exact ieee_rem_special. Qed.
Print Assumptions C10_ieee_rem_special.
Theorem C10_mul_add_r_infinite : forall S x y z m, sem_ok S -> wf S x -> wf S y -> wf S z ->
  category x <> NaN -> category y <> NaN -> category z <> NaN ->
  category x = Infinity \/ category y = Infinity \/ category z = Infinity ->
  exists st f, mul_add_r S x y z m = Ret (st, f) /\
    let g := xorb (sign x) (sign y) in
    match category x, category y, category z with
    | Infinity, Zero, _ | Zero, Infinity, _ => st = INVALID_OP /\ default_nan S f
    | Infinity, _, Infinity | _, Infinity, Infinity =>
      if Bool.eqb g (sign z) then st = OK /\ is_special S Infinity g f else st = INVALID_OP /\ default_nan S f
    | Infinity, _, _ | _, Infinity, _ => st = OK /\ is_special S Infinity g f
    | _, _, _ => st = OK /\ is_special S Infinity (sign z) f
    end.
Proof. exact mul_add_r_infinite. Qed.
Print Assumptions C10_mul_add_r_infinite.
Example C10_example :
  wf HalfS h_inf /\ wf HalfS h_ninf /\ wf HalfS h_zero /\ wf HalfS h_neg /\
  add_r HalfS h_inf h_ninf NearestTiesToEven = Ret (INVALID_OP, NAN HalfS) /\
  add_r HalfS h_neg h_ninf TowardPositive = Ret (OK, h_ninf) /\
  sub_r HalfS h_inf h_ninf NearestTiesToEven = Ret (OK, h_inf) /\
  mul_r HalfS h_zero h_ninf NearestTiesToEven = Ret (INVALID_OP, NAN HalfS) /\
  mul_r HalfS h_neg h_ninf NearestTiesToEven = Ret (OK, h_inf) /\
  div_r HalfS h_neg h_zero NearestTiesToEven = Ret (DIV_BY_ZERO, h_ninf) /\
  div_r HalfS h_neg h_inf NearestTiesToEven = Ret (OK, h_nzero) /\
  c_fmod HalfS h_inf h_one = Ret (INVALID_OP, NAN HalfS) /\
  ieee_rem HalfS h_neg h_inf = Ret (OK, h_neg) /\
  mul_add_r HalfS h_inf h_neg h_inf NearestTiesToEven = Ret (INVALID_OP, NAN HalfS).
Proof.
  split; [exact h_inf_wf|]. split; [exact h_ninf_wf|]. split; [exact h_zero_wf|]. split; [exact h_neg_wf|].
  vm_compute. repeat split.
Qed.

(** ** C11: NaN operands *)
Theorem C11_add_r_nan : forall S x y m, sem_ok S -> category x = NaN \/ category y = NaN ->
  add_r S x y m = Ret (invalid_if (signaling S x || signaling S y), quieted S (first_nan x y)).
Proof. exact add_r_nan. Qed.
Print Assumptions C11_add_r_nan.
Theorem C11_sub_r_nan : forall S x y m, sem_ok S -> category x = NaN \/ category y = NaN ->
  sub_r S x y m = Ret (invalid_if (signaling S x || signaling S y), quieted S (first_nan x y)).
Proof. exact sub_r_nan. Qed.
Print Assumptions C11_sub_r_nan.
Theorem C11_mul_r_nan : forall S x y m, sem_ok S -> category x = NaN \/ category y = NaN ->
  mul_r S x y m = Ret (invalid_if (signaling S x || signaling S y), quieted S (first_nan x y)).
Proof. exact mul_r_nan. Qed.
Print Assumptions C11_mul_r_nan.
Theorem C11_div_r_nan : forall S x y m, sem_ok S -> category x = NaN \/ category y = NaN ->
  div_r S x y m = Ret (invalid_if (signaling S x || signaling S y), quieted S (first_nan x y)).
Proof. exact div_r_nan. Qed.
Print Assumptions C11_div_r_nan.
Theorem C11_c_fmod_nan : forall S x y, sem_ok S -> category x = NaN \/ category y = NaN ->
  c_fmod S x y = Ret (invalid_if (signaling S x || signaling S y), quieted S (first_nan x y)).
Proof. exact c_fmod_nan. Qed.
Print Assumptions C11_c_fmod_nan.
Theorem C11_ieee_rem_nan : forall S x y, sem_ok S -> category x = NaN \/ category y = NaN ->
  ieee_rem S x y = Ret (invalid_if (signaling S x || signaling S y), quieted S (first_nan x y)).
Proof. exact ieee_rem_nan. Qed.
Print Assumptions C11_ieee_rem_nan.
Theorem C11_mul_add_r_nan : forall S x y z m, sem_ok S -> wf S x -> wf S y ->
  category x = NaN \/ category y = NaN \/ category z = NaN ->
  exists st f, mul_add_r S x y z m = Ret (st, f) /\
    match category x, category y with
    | NaN, _ | _, NaN => st = invalid_if (signaling S x || signaling S y || signaling S z) /\ f = quieted S (first_nan x y)
    | Infinity, Zero | Zero, Infinity => st = INVALID_OP /\ default_nan S f
    | _, _ => st = invalid_if (signaling S z) /\ f = quieted S z
    end.
Proof. exact mul_add_r_nan. Qed.
Print Assumptions C11_mul_add_r_nan.
Theorem C11_round_to_integral_special : forall S x m, sem_ok S -> ~ finite x ->
  round_to_integral S x m =
    match category x with
    | NaN => Ret (invalid_if (signaling S x), quieted S x)
    | _ => Ret (OK, x)
    end.
Proof. exact round_to_integral_special. Qed.
Print Assumptions C11_round_to_integral_special.
Theorem C11_next_up_nan : forall S x, sem_ok S -> wf S x -> category x = NaN ->
  exists r, next_up S x = Ret (invalid_if (signaling S x), r) /\
    (if signaling S x then r = with_sign (NAN S) (sign x) else r = x).
Proof. exact next_up_nan. Qed.
Print Assumptions C11_next_up_nan.
Theorem C11_next_down_nan : forall S x, sem_ok S -> wf S x -> category x = NaN ->
  exists r, next_down S x = Ret (invalid_if (signaling S x), r) /\
    (if signaling S x then r = with_sign (NAN S) (sign x) else r = x).
Proof. exact next_down_nan. Qed.
Print Assumptions C11_next_down_nan.
(** the quieted operand is a value of the format *)
Theorem C11_quieted_wf : forall S x, sem_ok S -> wf S x -> category x = NaN -> wf S (quieted S x).
Proof. exact wf_quieted. Qed.
Print Assumptions C11_quieted_wf.
(** and is not signaling.  Missing: the NaNs of the x87 format whose integer bit is
    clear; they stay signaling *)
Theorem C11_quiet_partial : forall S x, sem_ok S -> proper_nan S x -> signaling S (quieted S x) = false.
Proof. exact quieted_not_signaling. Qed.
Print Assumptions C11_quiet_partial.
Theorem C11_quiet_refuted : exists S x m st f, sem_ok S /\ wf S x /\ signaling S x = true /\
  add_r S x x m = Ret (st, f) /\ signaling S f = true.
Proof. exact quiet_x87_refuted. Qed.
Print Assumptions C11_quiet_refuted.
(** 5 is a signaling payload of half precision; the quiet bit is 512 *)
Example C11_example : sem_ok HalfS /\ wf HalfS h_snan /\ category h_snan = NaN /\ proper_nan HalfS h_snan /\
  signaling HalfS h_snan = true /\ signaling HalfS h_qnan = false /\ quieted HalfS h_snan = h_qnan /\
  add_r HalfS h_one h_snan NearestTiesToEven = Ret (INVALID_OP, h_qnan) /\
  mul_r HalfS h_qnan h_snan NearestTiesToEven = Ret (INVALID_OP, h_qnan) /\
  div_r HalfS h_qnan h_one NearestTiesToEven = Ret (OK, h_qnan).
Proof.
  split; [exact half_ok|]. split; [exact h_snan_wf|]. split; [reflexivity|]. split; [intro H; discriminate H|].
  vm_compute. repeat split.
Qed.

(** C11: what setting the quiet bit fails to make quiet, exactly: the extended format's
    pseudo-NaNs, whose integer bit is clear *)
Theorem C11_quiet_exact : forall S x, sem_ok S -> category x = NaN ->
  (signaling S (quieted S x) = true <-> X87 S = true /\ Z.testbit (sig x) (PRECISION S - 1) = false).
Proof. exact quieted_signaling. Qed.
Print Assumptions C11_quiet_exact.
Example C11_quiet_exact_example : sem_ok X87DoubleExtendedS /\ wf X87DoubleExtendedS (mkFloat 1 16384 NaN false) /\
  signaling X87DoubleExtendedS (quieted X87DoubleExtendedS (mkFloat 1 16384 NaN false)) = true /\
  signaling X87DoubleExtendedS (quieted X87DoubleExtendedS (mkFloat (2 ^ 63 + 1) 16384 NaN false)) = false.
Proof. split; [exact x87_ok|]. split; [sample_wf|]. vm_compute. repeat split. Qed.
