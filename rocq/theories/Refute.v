(** * Refute.v -- inputs on which the code as modelled does not satisfy the
    claim one would expect of it *)
From Coq Require Import ZArith Reals List Bool Lia Lra ZifyBool.
From Flocq Require Import Core.
From Verif Require Import Machine Sig SpecSig Ieee Spec Norm Arith Formats Nans Reach Samples.
Import ListNotations.
Local Open Scope Z_scope.

(** ** Overflow of negative numbers in Float8E4M3FN

    -480 lies beyond the largest magnitude 448; rounded up it is -448.  The code
    returns NaN with OVERFLOW: src/ieee.rs:2100 and 2148 pass the rounding mode
    to [overflow_result] without negating it as src/ieee.rs:2064 does. *)
Lemma m480_rounded : forall m, rounded Float8E4M3FNS m (-480) = (-480)%R.
Proof.
  intro m. apply rounded_format. unfold fexp. apply generic_format_FLT.
  exists (Defs.Float r2 (-15) 5).
  - unfold Defs.F2R. cbn. lra.
  - vm_compute. reflexivity.
  - vm_compute. discriminate.
Qed.
Lemma e4m3_max : max_finite Float8E4M3FNS = 448%R.
Proof. unfold max_finite. cbn. lra. Qed.
Lemma m480_wrong : forall zs f, ~ correctly_rounded Float8E4M3FNS TowardPositive (-480) zs (20, f).
Proof.
  intros zs f [_ [[G _] [_ O]]]. rewrite m480_rounded, e4m3_max in O.
  rewrite G in O by lra. rewrite Rabs_left in O by lra.
  destruct O as [O _]; [lra|]. discriminate O.
Qed.

Definition e_nan : Float := mkFloat 7 8 NaN true.
Definition e_15 : Float := mkFloat 15 3 Normal false.
Definition e_240 : Float := mkFloat 15 7 Normal true.
Definition e_half : Float := mkFloat 8 (-1) Normal false.
Definition e_448 : Float := mkFloat 14 8 Normal false.
Definition h_m480 : Float := mkFloat 1920 8 Normal true.

Theorem add_r_refuted : exists S x y m res, sem_ok S /\ wf S x /\ wf S y /\ finite x /\ finite y /\
  add_r S x y m = Ret res /\ forall zs, ~ correctly_rounded S m (value S x + value S y) zs res.
Proof.
  exists Float8E4M3FNS, e_m32, e_m448, TowardPositive, (20, e_nan).
  split; [exact e4m3_ok|]. split; [exact e_m32_wf|]. split; [exact e_m448_wf|].
  split; [left; reflexivity|]. split; [left; reflexivity|]. split; [vm_compute; reflexivity|].
  intro zs. replace (value _ _ + value _ _)%R with (-480)%R by (unfold value; cbn; lra). apply m480_wrong.
Qed.
Theorem sub_r_refuted : exists S x y m res, sem_ok S /\ wf S x /\ wf S y /\ finite x /\ finite y /\
  sub_r S x y m = Ret res /\ forall zs, ~ correctly_rounded S m (value S x - value S y) zs res.
Proof.
  exists Float8E4M3FNS, e_m32, e_448, TowardPositive, (20, e_nan).
  split; [exact e4m3_ok|]. split; [exact e_m32_wf|]. split; [sample_wf|].
  split; [left; reflexivity|]. split; [left; reflexivity|]. split; [vm_compute; reflexivity|].
  intro zs. replace (value _ _ - value _ _)%R with (-480)%R by (unfold value; cbn; lra). apply m480_wrong.
Qed.
Theorem mul_r_refuted : exists S x y m res, sem_ok S /\ wf S x /\ wf S y /\ finite x /\ finite y /\
  mul_r S x y m = Ret res /\ forall zs, ~ correctly_rounded S m (value S x * value S y) zs res.
Proof.
  exists Float8E4M3FNS, e_m32, e_15, TowardPositive, (20, e_nan).
  split; [exact e4m3_ok|]. split; [exact e_m32_wf|]. split; [sample_wf|].
  split; [left; reflexivity|]. split; [left; reflexivity|]. split; [vm_compute; reflexivity|].
  intro zs. replace (value _ _ * value _ _)%R with (-480)%R by (unfold value; cbn; lra). apply m480_wrong.
Qed.
Theorem div_r_refuted : exists S x y m res, sem_ok S /\ wf S x /\ wf S y /\ finite x /\ category y = Normal /\
  div_r S x y m = Ret res /\ forall zs, ~ correctly_rounded S m (value S x / value S y) zs res.
Proof.
  exists Float8E4M3FNS, e_240, e_half, TowardPositive, (20, e_nan).
  split; [exact e4m3_ok|]. split; [sample_wf|]. split; [sample_wf|].
  split; [left; reflexivity|]. split; [reflexivity|]. split; [vm_compute; reflexivity|].
  intro zs. replace (value _ _ / value _ _)%R with (-480)%R by (unfold value; cbn; lra). apply m480_wrong.
Qed.
Theorem scalbn_r_refuted : exists S x n m f, sem_ok S /\ wf S x /\ category x = Normal /\
  scalbn_r S x n m = Ret f /\ forall st zs, ~ correctly_rounded S m (value S x * bpow r2 n) zs (st, f).
Proof.
  exists Float8E4M3FNS, e_240, 1, TowardPositive, e_nan.
  split; [exact e4m3_ok|]. split; [sample_wf|]. split; [reflexivity|]. split; [vm_compute; reflexivity|].
  intros st zs [_ [[G _] [_ O]]]. revert G O.
  replace (value _ _ * bpow r2 1)%R with (-480)%R by (unfold value; cbn; lra). intros G O.
  rewrite m480_rounded, e4m3_max in O. rewrite G in O by lra. rewrite Rabs_left in O by lra.
  destruct O as [_ [O _]]; [lra|]. discriminate O.
Qed.
Theorem convert_r_refuted : exists S T x m st r lost, sem_ok S /\ sem_ok T /\ wf S x /\ finite x /\
  convert_r S T x m = Ret (st, r, lost) /\ forall zs, ~ correctly_rounded T m (value S x) zs (st, r).
Proof.
  exists HalfS, Float8E4M3FNS, h_m480, TowardPositive, 20, e_nan, true.
  split; [exact half_ok|]. split; [exact e4m3_ok|]. split; [sample_wf|]. split; [left; reflexivity|].
  split; [vm_compute; reflexivity|].
  intro zs. replace (value _ _) with (-480)%R by (unfold value; cbn; lra). apply m480_wrong.
Qed.

(** the mirrored direction: rounded down -450 is beyond the range, and the
    code delivers the largest finite number *)
Theorem sub_r_down_refuted : exists S x y res, sem_ok S /\ wf S x /\ wf S y /\ finite x /\ finite y /\
  add_r S x y TowardNegative = Ret res /\
  forall zs, ~ correctly_rounded S TowardNegative (value S x + value S y) zs res.
Proof.
  exists Float8E4M3FNS, e_m32, e_m448, (16, e_m448).
  split; [exact e4m3_ok|]. split; [exact e_m32_wf|]. split; [exact e_m448_wf|].
  split; [left; reflexivity|]. split; [left; reflexivity|]. split; [vm_compute; reflexivity|].
  intro zs. replace (value _ _ + value _ _)%R with (-480)%R by (unfold value; cbn; lra).
  intros [_ [[G _] [_ O]]]. rewrite m480_rounded, e4m3_max in O.
  rewrite G in O by lra. rewrite Rabs_left in O by lra.
  destruct O as [O _]; [lra|]. discriminate O.
Qed.

(** negation does not commute with the multiplication there *)
Theorem mul_r_neg_refuted : exists S x y m st f st' f', sem_ok S /\ wf S x /\ wf S y /\ finite x /\ finite y /\
  mul_r S x y m = Ret (st, f) /\ mul_r S (neg x) y (mirrored m) = Ret (st', f') /\
  (st <> st' /\ bitwise_eq f' (neg f) = false).
Proof.
  exists Float8E4M3FNS, e_m32, e_15, TowardPositive, 20, e_nan, 16, e_448.
  split; [exact e4m3_ok|]. split; [exact e_m32_wf|]. split; [sample_wf|].
  split; [left; reflexivity|]. split; [left; reflexivity|]. split; [vm_compute; reflexivity|].
  split; [vm_compute; reflexivity|]. split; [discriminate|reflexivity].
Qed.

(** ** The fused multiply-add with a subnormal addend

    src/ieee.rs:1178-1183 place the addend in the extended precision without
    normalizing it, so [sig::add_or_sub] can meet a product that is larger than
    the addend although its exponent is smaller. *)
Definition h_0c11 : Float := mkFloat 1041 (-12) Normal false.
Definition h_0bdf : Float := mkFloat 2015 (-13) Normal false.
Definition h_8001 : Float := mkFloat 1 (-14) Normal true.
Theorem mul_add_r_panic_refuted : exists S x y z m, sem_ok S /\ wf S x /\ wf S y /\ wf S z /\
  finite x /\ finite y /\ finite z /\ mul_add_r S x y z m = Panic.
Proof.
  exists HalfS, h_0c11, h_0bdf, h_8001, NearestTiesToEven.
  split; [exact half_ok|]. split; [sample_wf|]. split; [sample_wf|]. split; [sample_wf|].
  split; [left; reflexivity|]. split; [left; reflexivity|]. split; [left; reflexivity|]. vm_compute. reflexivity.
Qed.

(** 7 * 2^-6 times -7 * 2^-15 plus 2^-16 is -17 * 2^-21, which rounds to
    -2^-16; the code returns -0 *)
Definition e5_x : Float := mkFloat 7 (-4) Normal false.
Definition e5_y : Float := mkFloat 7 (-13) Normal true.
Definition e5_z : Float := mkFloat 1 (-14) Normal false.
Definition e5_r : Float := mkFloat 0 (-15) Zero true.

Theorem mul_add_r_refuted : exists S x y z m res, sem_ok S /\ NONFINITE_BEHAVIOR S = IEEE754 /\
  wf S x /\ wf S y /\ wf S z /\ finite x /\ finite y /\ finite z /\
  mul_add_r S x y z m = Ret res /\
  forall zs, ~ correctly_rounded S m (value S x * value S y + value S z) zs res.
Proof.
  exists Float8E5M2S, e5_x, e5_y, e5_z, NearestTiesToEven, (24, e5_r).
  split; [exact e5m2_ok|]. split; [reflexivity|]. split; [sample_wf|]. split; [sample_wf|]. split; [sample_wf|].
  split; [left; reflexivity|]. split; [left; reflexivity|]. split; [left; reflexivity|].
  split; [vm_compute; reflexivity|].
  intros zs [_ [_ [F O]]]. revert F O.
  set (v := (_ + value _ _)%R).
  assert (V : v = (-17 * bpow r2 (-21))%R) by (unfold v, value; cbn; lra).
  assert (U : (Rabs (rounded Float8E5M2S NearestTiesToEven v - v) <= bpow r2 (-17))%R).
  { pose proof (fexp_valid _ e5m2_ok) as VE.
    eapply Rle_trans; [apply (error_le_half_ulp r2 (fexp Float8E5M2S) (fun x => negb (Z.even x)) v)|].
    rewrite ulp_neq_0 by (rewrite V; cbn; lra).
    unfold cexp. rewrite (mag_unique r2 v (-16)).
    - vm_compute fexp. cbn. lra.
    - rewrite V. rewrite Rabs_left by (cbn; lra). cbn. lra. }
  intros F O. destruct (Rle_or_lt (Rabs (rounded Float8E5M2S NearestTiesToEven v)) (max_finite Float8E5M2S)) as [L|L].
  - destruct (F L) as [_ [E _]]. rewrite <- E, V in U. unfold value in U. cbn in U.
    rewrite Rabs_right in U by lra. lra.
  - destruct (O L) as [E _]. discriminate E.
Qed.

(** ** Integers *)

(** a one-bit signed integer: src/lib.rs:397 asks for [width - 1 = 0] bits, and
    src/ieee.rs:1684 then shifts a 128-bit integer by 128 *)
Theorem to_i128_r_refuted : exists S x m, sem_ok S /\ wf S x /\ to_i128_r S x 1 m = Panic.
Proof.
  exists HalfS, h_one, NearestTiesToEven. split; [exact half_ok|]. split; [exact h_one_wf|]. vm_compute. reflexivity.
Qed.
(** -0 is reported as an exact integer although +0 comes back *)
Theorem to_i128_exact_refuted : exists S x w m f, sem_ok S /\ wf S x /\
  to_i128_r S x w m = Ret (OK, 0, true) /\ from_i128_r S 0 m = Ret (OK, f) /\ bitwise_eq f x = false.
Proof.
  exists HalfS, h_nzero, 32, NearestTiesToEven, h_zero. split; [exact half_ok|]. split; [exact h_nzero_wf|].
  split; [vm_compute; reflexivity|]. split; vm_compute; reflexivity.
Qed.

(** ** x87 NaNs without the integer bit *)

(** src/ieee.rs:846-858 leave the integer bit alone when quieting, and
    [is_signaling] asks for it *)
Definition x_pseudo_nan : Float := mkFloat 5 16384 NaN false.
Theorem quiet_x87_refuted : exists S x m st f, sem_ok S /\ wf S x /\ signaling S x = true /\
  add_r S x x m = Ret (st, f) /\ signaling S f = true.
Proof.
  exists X87DoubleExtendedS, x_pseudo_nan, NearestTiesToEven, INVALID_OP, (mkFloat (2 ^ 62 + 5) 16384 NaN false).
  split; [exact x87_ok|]. split; [sample_wf|]. split; [reflexivity|]. split; vm_compute; reflexivity.
Qed.
(** the encoding of a pseudo-denormal is not preserved *)
Theorem x87_bits_refuted : exists b x b', 0 <= b < 2 ^ 80 /\
  from_bits X87DoubleExtendedS b = Ret x /\ to_bits X87DoubleExtendedS x = Ret b' /\ b <> b'.
Proof.
  exists (2 ^ 63 + 1), (mkFloat (2 ^ 63 + 1) (-16382) Normal false), (2 ^ 64 + 2 ^ 63 + 1).
  split; [lia|]. split; [vm_compute; reflexivity|]. split; [vm_compute; reflexivity|]. lia.
Qed.

(** ** The NaN of Float8E4M3FN does not survive a widening without a report of
    lost information on the way back *)
Theorem nan_round_trip_refuted : exists S T x m r r', sem_ok S /\ sem_ok T /\ contains T S /\ wf S x /\
  convert_r S T x m = Ret (OK, r, false) /\ convert_r T S r m = Ret (OK, r', true) /\ bitwise_eq r' x = true.
Proof.
  exists Float8E4M3FNS, HalfS, (mkFloat 7 8 NaN false), NearestTiesToEven, (mkFloat 896 16 NaN false), (mkFloat 7 8 NaN false).
  split; [exact e4m3_ok|]. split; [exact half_ok|]. split; [|split; [sample_wf|]].
  - split; [discriminate|]. split.
    + unfold min_positive. apply bpow_le. discriminate.
    + unfold max_finite. cbn. lra.
  - split; [vm_compute; reflexivity|]. split; vm_compute; reflexivity.
Qed.

(** the panics happen on values of the interface *)
Theorem mul_add_panics_reachable : exists S x y z m, reachable S x /\ reachable S y /\ reachable S z /\ mul_add_r S x y z m = Panic.
Proof.
  exists HalfS, h_0c11, h_0bdf, h_8001, NearestTiesToEven.
  split; [from_pattern 0x0c11|]. split; [from_pattern 0x0bdf|]. split; [from_pattern 0x8001|]. vm_compute. reflexivity.
Qed.
Theorem to_i128_panics_reachable : exists S x m, reachable S x /\ to_i128_r S x 1 m = Panic.
Proof. exists HalfS, h_one, NearestTiesToEven. split; [from_pattern 0x3c00|]. vm_compute. reflexivity. Qed.
