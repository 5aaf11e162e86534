(** * FmtRefute.v -- Display: claims that do not hold *)
From Coq Require Import ZArith Reals List Bool Lia Lra String.
From Flocq Require Import Core.
From Verif Require Import Machine Ieee Spec Formats Samples Norm Algebra Parse SpecStr StrHex StrDecimal StrTop StrRefute Fmt SpecFmt FmtTop FmtBack.
Import ListNotations.
Local Open Scope Z_scope.
Ltac Zify.zify_post_hook ::= idtac.

Lemma text_E : forall c f d, 48 <= c <= 57 -> 48 <= f <= 57 -> 48 <= d <= 57 ->
  dec_text [c; 46; f; 69; 43; d] false (IZR ((c - 48) * 10 + (f - 48)) * bpow r10 (d - 48 - 1)).
Proof.
  intros c f d Hc Hf Hd.
  assert (D1 : forall c, 48 <= c <= 57 -> digits 10 [c] (c - 48)).
  { intros a Ha. pose proof (digits_snoc 10 [] 0 a (a - 48) (digits_nil 10)) as X. cbn [app] in X. apply X; [|lia].
    replace a with (48 + (a - 48)) at 1 by lia. constructor. lia. }
  assert (D2 : digits 10 [c; f] ((c - 48) * 10 + (f - 48))).
  { apply (digits_snoc 10 [c] (c - 48) f (f - 48)); [apply D1; lia| |lia]. replace f with (48 + (f - 48)) at 1 by lia. constructor. lia. }
  apply (dec_text_intro [] false); [constructor|].
  apply (dec_exp [c; 46; f] _ 1 69 [43; d] (d - 48)); [exact (mantissa_point 10 [c] [f] _ D2 ltac:(discriminate))|right; reflexivity|].
  apply exponent_plus. apply D1. exact Hd.
Qed.
(** With the precision 0 the number 8 is not printed at all: the code discards
    all its digits and then asserts that there are some.  The number 1 is
    printed as ten. *)
Theorem fmt_precision_0_refuted : exists S x y s v, sem_ok S /\ wf S x /\ wf S y /\ category x = Normal /\ category y = Normal /\
  fmt S x None (Some 0) false = Panic /\
  fmt S y None (Some 0) false = Ret s /\ dec_text s false v /\ value S y = 1%R /\ v = 10%R.
Proof.
  exists HalfS, (mkFloat 1024 3 Normal false), (mkFloat 1024 0 Normal false), (bytes "1.0E+1"), 10%R.
  split; [exact half_ok|]. split; [sample_wf|]. split; [sample_wf|]. split; [reflexivity|]. split; [reflexivity|].
  split; [vm_compute; reflexivity|]. split; [vm_compute; reflexivity|]. split; [|split; [|reflexivity]].
  - pose proof (text_E 49 48 49 ltac:(lia) ltac:(lia) ltac:(lia)) as X. replace (IZR ((49 - 48) * 10 + (48 - 48)) * bpow r10 (49 - 48 - 1))%R with 10%R in X by (cbn; lra). exact X.
  - unfold value. cbn [category sign sig exp signed]. change (0 - (PRECISION HalfS - 1)) with (-10). cbn. lra.
Qed.
(** A precision for which [precision * 196 + 58] does not fit 64 bits *)
Theorem fmt_precision_huge_refuted : exists S x P, sem_ok S /\ wf S x /\ category x = Normal /\ 0 < P < 2 ^ 64 /\ fmt S x None (Some P) false = Panic.
Proof.
  exists HalfS, (mkFloat 1024 0 Normal false), (2 ^ 63). split; [exact half_ok|]. split; [sample_wf|]. split; [reflexivity|]. split; [lia|]. vm_compute. reflexivity.
Qed.

(** The printed decimal need not be the nearest one with that many digits:
    14 * 2^-24 is 8.34465026...e-7 and is printed as 8.3446E-7 *)
Definition tiny : Float := mkFloat 14 (-14) Normal false.
Lemma tiny_value : value HalfS tiny = (IZR (14 * 5 ^ 24) * bpow r10 (-24))%R.
Proof.
  unfold value. cbn [category sign sig exp signed tiny]. change (-14 - (PRECISION HalfS - 1)) with (-24).
  symmetry. exact (cancel5 14 24 eq_refl).
Qed.
Lemma tiny_text : dec_text (bytes "8.3446E-7") false (83446 * bpow r10 (-11)).
Proof.
  apply (dec_text_intro [] false); [constructor|].
  apply (dec_exp [56; 46; 51; 52; 52; 54] 83446 4 69 [45; 55] (-7)).
  - apply (mantissa_point 10 [56] [51; 52; 52; 54]); [exact (digits_all [56; 51; 52; 52; 54] eq_refl)|discriminate].
  - right. reflexivity.
  - apply (exponent_minus [55] 7). exact (digits_all [55] eq_refl).
Qed.
Theorem fmt_nearest_refuted : exists S x s y n k, sem_ok S /\ wf S x /\ category x = Normal /\ fmt S x None None false = Ret s /\ dec_text s false y /\
  0 < n < 10 ^ chosen_precision S None /\ (Rabs (IZR n * bpow r10 k - value S x) < Rabs (y - value S x))%R.
Proof.
  exists HalfS, tiny, (bytes "8.3446E-7"), (83446 * bpow r10 (-11))%R, 83447, (-11).
  split; [exact half_ok|]. split; [unfold tiny; sample_wf|]. split; [reflexivity|]. split; [vm_compute; reflexivity|]. split; [exact tiny_text|].
  split; [vm_compute; split; reflexivity|]. rewrite tiny_value. pose proof (bpow_gt_0 r10 (-24)) as B.
  replace (bpow r10 (-11)) with (IZR (10 ^ 13) * bpow r10 (-24))%R by (rewrite <- bpow10_pos by lia; rewrite <- bpow_plus; reflexivity).
  rewrite <- !Rmult_assoc, <- !mult_IZR, <- !Rmult_minus_distr_r, <- !minus_IZR, !Rabs_mult, <- !abs_IZR, (Rabs_pos_eq (bpow r10 (-24))) by lra.
  apply Rmult_lt_compat_r; [exact B|]. apply IZR_lt. vm_compute. reflexivity.
Qed.
(** Read with rounding toward zero the printed text gives another value *)
Theorem fmt_round_trip_directed_refuted : exists S x s st f, sem_ok S /\ dec_ok S /\ wf S x /\ category x = Normal /\ fmt S x None None false = Ret s /\
  from_str_r S s TowardZero = Ret (Ok (st, f)) /\ value S f <> value S x.
Proof.
  exists HalfS, tiny, (bytes "8.3446E-7"). eexists. eexists. split; [exact half_ok|]. split; [apply crate_dec_ok; cbn; tauto|]. split; [unfold tiny; sample_wf|]. split; [reflexivity|].
  split; [vm_compute; reflexivity|]. split; [vm_compute; reflexivity|].
  unfold value. cbn [category sign sig exp signed tiny]. intro H. apply Rmult_eq_reg_r in H; [apply eq_IZR in H; discriminate|apply Rgt_not_eq, bpow_gt_0].
Qed.
(** one digit less than needed *)
Theorem fmt_digits_refuted : exists S x w p s st f, sem_ok S /\ dec_ok S /\ wf S x /\ category x = Normal /\
  10 ^ (p - 1) < 2 ^ PRECISION S < 10 ^ p /\ fmt S x w (Some p) false = Ret s /\
  from_str_r S s NearestTiesToEven = Ret (Ok (st, f)) /\ value S f <> value S x.
Proof.
  exists HalfS, (mkFloat 2001 9 Normal false), None, 4, (bytes "1001"). eexists. eexists. split; [exact half_ok|]. split; [apply crate_dec_ok; cbn; tauto|].
  split; [sample_wf|]. split; [reflexivity|]. split; [vm_compute; split; reflexivity|].
  split; [vm_compute; reflexivity|]. split; [vm_compute; reflexivity|].
  unfold value. cbn [category sign sig exp signed]. intro H. apply Rmult_eq_reg_r in H; [apply eq_IZR in H; discriminate|apply Rgt_not_eq, bpow_gt_0].
Qed.
