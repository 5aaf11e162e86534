(** * PairLawsTop.v -- the laws of PairLaws.v for every pair format, and where they fail *)
From Coq Require Import ZArith Reals Lia Lra Bool.
From Flocq Require Import Core.
From Verif Require Import Machine Ieee Ppc Spec Norm SpecPair SpecPairLaws Special Order Symmetry Laws Arith Fma FmaExact Through Pair PairBase PairLaws PairSamples PairMulRefute.
Local Open Scope Z_scope.
Ltac Zify.zify_post_hook ::= idtac.

Section Top.
Variable F : Semantics.
Hypothesis HF : pair_ok F.
Let HS : sem_ok F := pok_half F HF.
Let HI : NONFINITE_BEHAVIOR F = IEEE754 := pok_ieee F HF.
Lemma quiet_nan : wf F (NAN F) /\ is_signaling F (NAN F) = false.
Proof. destruct (NAN_default' F HS) as [W [_ Q]]. split; [exact W|]. rewrite (is_signaling_spec F _ HS). exact Q. Qed.
Let HN := quiet_nan.
Lemma zero_half : wf F (ZERO F). Proof. exact (proj1 (ZERO_special F false HS)). Qed.
Let HZ := zero_half.

Theorem pair_add_neg : forall x y m, m <> TowardPositive -> m <> TowardNegative -> pair_wf F x -> pair_wf F y -> finite (d1 x) -> finite (d1 y) ->
  opposite_result F (dd_add_r F x y m) (dd_add_r F (dd_neg x) (dd_neg y) m).
Proof. exact (dd_add_neg F HS HI HN HZ). Qed.
Theorem pair_sub_neg : forall x y m, m <> TowardPositive -> m <> TowardNegative -> pair_wf F x -> pair_wf F y -> finite (d1 x) -> finite (d1 y) ->
  opposite_result F (dd_sub_r F x y m) (dd_sub_r F (dd_neg x) (dd_neg y) m).
Proof.
  intros x y m M1 M2 Wx Wy Fx Fy. unfold dd_sub_r. apply pair_add_neg; try assumption.
  - unfold pair_wf. rewrite dd_neg_d0, dd_neg_d1. split; [apply wf_neg, Wy|]. destruct (is_finite_non_zero (d1 y)); [apply wf_neg|]; apply Wy.
  - rewrite dd_neg_d1. destruct (is_finite_non_zero (d1 y)); [apply finite_neg|]; exact Fy.
Qed.
Theorem pair_mul_neg : forall x y m, pair_wf F x -> pair_wf F y -> finite (d1 x) -> finite (d1 y) -> category (d0 x) = Normal -> category (d0 y) = Normal ->
  dd_mul_r F x y m = Panic /\ dd_mul_r F (dd_neg x) y (mirrored m) = Panic \/
  opposite_result F (dd_mul_r F x y m) (dd_mul_r F (dd_neg x) y (mirrored m)).
Proof. exact (dd_mul_neg F HS HI HN HZ). Qed.
Theorem pair_mul_comm : forall x y m, pair_wf F x -> pair_wf F y -> category (d0 x) = Normal -> category (d0 y) = Normal -> finite (d1 x) -> finite (d1 y) ->
  dd_mul_r F x y m = Panic /\ dd_mul_r F y x m = Panic \/ same_pair (dd_mul_r F x y m) (dd_mul_r F y x m).
Proof. exact (dd_mul_comm F HS HI HN HZ). Qed.
Theorem pair_comm_special : forall x y m, category (d0 x) <> category (d0 y) ->
  dd_add_r F x y m = dd_add_r F y x m /\ dd_mul_r F x y m = dd_mul_r F y x m.
Proof. intros x y m N. unfold dd_add_r, dd_mul_r, dd_category. destruct (category (d0 x)), (category (d0 y)); try congruence; split; reflexivity. Qed.
Theorem pair_sub_self : forall x m, pair_wf F x -> category (d0 x) = Normal -> finite (d1 x) ->
  exists r, dd_sub_r F x x m = Ret (OK, r) /\ category (d0 r) = Zero /\ category (d1 r) = Zero.
Proof. exact (dd_sub_self F HS). Qed.
Theorem pair_mul_one : forall x y, canonical_pair F x -> category (d0 x) = Normal -> pair_wf F y -> value F (d0 y) = 1%R -> category (d0 y) = Normal -> category (d1 y) = Zero ->
  exists st r, dd_mul_r F x y NearestTiesToEven = Ret (st, r) /\ bitwise_eq (d0 r) (d0 x) = true /\ value F (d1 r) = value F (d1 x) /\ (category (d1 x) = Zero -> st = OK).
Proof. exact (dd_mul_one F HS). Qed.
End Top.

(** ** Where the laws fail *)
Definition p_quarter : DFloat := mkDF (mkFloat 4503599627370496 0 Normal false) (mkFloat 4503599627370496 (-54) Normal false).
Definition p_three_quarters : DFloat := mkDF (mkFloat 6755399441055744 (-53) Normal false) (mkFloat 0 (-1023) Zero false).
(** the product of two zeros has the sign of the first one *)
Theorem pair_mul_comm_refuted : exists x y r r', canonical_pair DoubleS x /\ canonical_pair DoubleS y /\
  dd_mul_r DoubleS x y NearestTiesToEven = Ret (OK, r) /\ dd_mul_r DoubleS y x NearestTiesToEven = Ret (OK, r') /\ sign (d0 r) <> sign (d0 r').
Proof.
  exists p_zero, (dd_neg p_zero). eexists. eexists. split; [exact p_zero_canonical|]. split; [exact (dd_neg_canonical _ _ p_zero_canonical)|].
  split; [vm_compute; reflexivity|]. split; [vm_compute; reflexivity|]. vm_compute. discriminate.
Qed.
(** an infinite second factor keeps its sign whatever the sign of the first one is *)
Theorem pair_mul_neg_refuted : exists x y r, canonical_pair DoubleS x /\ category (d0 x) = Normal /\ category (d0 y) = Infinity /\ category (d1 y) = Zero /\ pair_wf DoubleS y /\
  dd_mul_r DoubleS x y NearestTiesToEven = Ret (OK, r) /\ dd_mul_r DoubleS (dd_neg x) y NearestTiesToEven = Ret (OK, r) /\ category (d0 r) = Infinity.
Proof.
  exists p_one, p_inf. eexists. split; [exact p_one_canonical|]. split; [reflexivity|]. split; [reflexivity|]. split; [reflexivity|]. split; [exact (proj1 p_inf_proper)|].
  split; [vm_compute; reflexivity|]. split; [vm_compute; reflexivity|]. reflexivity.
Qed.
(** upwards the sum reports nothing, downwards the negated sum reports [INEXACT] *)
Theorem pair_add_neg_refuted : exists x y r r', canonical_pair DoubleS x /\ canonical_pair DoubleS y /\
  dd_add_r DoubleS x y TowardPositive = Ret (OK, r) /\ dd_add_r DoubleS (dd_neg x) (dd_neg y) TowardNegative = Ret (INEXACT, r').
Proof.
  exists p_quarter, p_three_quarters. eexists. eexists. split; [sample_canonical|]. split; [sample_canonical|].
  split; [vm_compute; reflexivity|]. vm_compute; reflexivity.
Qed.
Lemma p_one_value : value DoubleS (d0 p_one) = 1%R.
Proof.
  unfold p_one, value. cbn [d0 category sign sig exp signed]. change 4503599627370496 with (Zpower r2 52).
  rewrite (IZR_Zpower r2 52) by discriminate. rewrite <- bpow_plus. reflexivity.
Qed.
