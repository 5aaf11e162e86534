(** * Samples.v -- concrete values for the examples beside the theorems *)
From Coq Require Import ZArith Reals List Bool Lia Lra.
From Flocq Require Import Core.
From Verif Require Import Machine Sig SpecSig Ieee Spec Formats.
Import ListNotations.
Local Open Scope Z_scope.

(** closed goals about concrete floats *)
Ltac sample_wf :=
  vm_compute;
  repeat match goal with
  | |- _ /\ _ => split
  | |- _ -> False => intro
  | |- _ -> _ => intro
  | |- _ \/ _ => first [left; solve [reflexivity | discriminate] | right; solve [reflexivity | discriminate]]
  end; try discriminate; try reflexivity; try exact I.

Lemma half_ok : sem_ok HalfS. Proof. apply crate_formats_ok. vm_compute. tauto. Qed.
Lemma single_ok : sem_ok SingleS. Proof. apply crate_formats_ok. vm_compute. tauto. Qed.
Lemma double_ok : sem_ok DoubleS. Proof. apply crate_formats_ok. vm_compute. tauto. Qed.
Lemma quad_ok : sem_ok QuadS. Proof. apply crate_formats_ok. vm_compute. tauto. Qed.
Lemma bfloat_ok : sem_ok BFloatS. Proof. apply crate_formats_ok. vm_compute. tauto. Qed.
Lemma e5m2_ok : sem_ok Float8E5M2S. Proof. apply crate_formats_ok. vm_compute. tauto. Qed.
Lemma e4m3_ok : sem_ok Float8E4M3FNS. Proof. apply crate_formats_ok. vm_compute. tauto. Qed.
Lemma x87_ok : sem_ok X87DoubleExtendedS. Proof. apply crate_formats_ok. vm_compute. tauto. Qed.
Lemma half_ieee : NONFINITE_BEHAVIOR HalfS = IEEE754. Proof. reflexivity. Qed.

(** half precision: 1, 1 + 2^-10, 3 * 2^-11, the largest number, the smallest
    subnormal, -1.5, infinity, a signaling and a quiet NaN *)
Definition h_one : Float := mkFloat 1024 0 Normal false.
Definition h_one_ulp : Float := mkFloat 1025 0 Normal false.
Definition h_small : Float := mkFloat 1536 (-10) Normal false.
Definition h_max : Float := mkFloat 2047 15 Normal false.
Definition h_min : Float := mkFloat 1 (-14) Normal false.
Definition h_neg : Float := mkFloat 1536 0 Normal true.
Definition h_three : Float := mkFloat 1536 1 Normal false.
Definition h_ten : Float := mkFloat 1280 3 Normal false.
Definition h_zero : Float := mkFloat 0 (-15) Zero false.
Definition h_nzero : Float := mkFloat 0 (-15) Zero true.
Definition h_inf : Float := mkFloat 0 16 Infinity false.
Definition h_ninf : Float := mkFloat 0 16 Infinity true.
Definition h_snan : Float := mkFloat 5 16 NaN true.
Definition h_qnan : Float := mkFloat 517 16 NaN true.

Lemma h_one_wf : wf HalfS h_one. Proof. sample_wf. Qed.
Lemma h_one_ulp_wf : wf HalfS h_one_ulp. Proof. sample_wf. Qed.
Lemma h_small_wf : wf HalfS h_small. Proof. sample_wf. Qed.
Lemma h_max_wf : wf HalfS h_max. Proof. sample_wf. Qed.
Lemma h_min_wf : wf HalfS h_min. Proof. sample_wf. Qed.
Lemma h_neg_wf : wf HalfS h_neg. Proof. sample_wf. Qed.
Lemma h_three_wf : wf HalfS h_three. Proof. sample_wf. Qed.
Lemma h_ten_wf : wf HalfS h_ten. Proof. sample_wf. Qed.
Lemma h_zero_wf : wf HalfS h_zero. Proof. sample_wf. Qed.
Lemma h_nzero_wf : wf HalfS h_nzero. Proof. sample_wf. Qed.
Lemma h_inf_wf : wf HalfS h_inf. Proof. sample_wf. Qed.
Lemma h_ninf_wf : wf HalfS h_ninf. Proof. sample_wf. Qed.
Lemma h_snan_wf : wf HalfS h_snan. Proof. sample_wf. Qed.
Lemma h_qnan_wf : wf HalfS h_qnan. Proof. sample_wf. Qed.

(** Float8E4M3FN: -32, -448 (the largest magnitude), -2^-9 (the smallest) *)
Definition e_m32 : Float := mkFloat 8 5 Normal true.
Definition e_m448 : Float := mkFloat 14 8 Normal true.
Definition e_mmin : Float := mkFloat 1 (-6) Normal true.
Lemma e_m32_wf : wf Float8E4M3FNS e_m32. Proof. sample_wf. Qed.
Lemma e_m448_wf : wf Float8E4M3FNS e_m448. Proof. sample_wf. Qed.
Lemma e_mmin_wf : wf Float8E4M3FNS e_mmin. Proof. sample_wf. Qed.

Lemma h_one_ulp_square : (min_normal HalfS <= Rabs (value HalfS h_one_ulp * value HalfS h_one_ulp))%R.
Proof. unfold min_normal, value. cbn. rewrite Rabs_pos_eq; lra. Qed.
Lemma h_one_value : value HalfS h_one = 1%R.
Proof. unfold value. cbn. lra. Qed.
Lemma h_ten_value : value HalfS h_ten = 10%R.
Proof. unfold value. cbn. lra. Qed.
Lemma single_contains_half : contains SingleS HalfS.
Proof.
  unfold contains. split; [vm_compute; discriminate|]. split.
  - unfold min_positive. apply bpow_le. vm_compute. discriminate.
  - unfold max_finite, value. cbn. lra.
Qed.
