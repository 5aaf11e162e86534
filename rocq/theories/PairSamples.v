(** * PairSamples.v -- concrete pairs for the examples beside the theorems *)
From Coq Require Import ZArith Reals List Bool Lia Lra String.
From Flocq Require Import Core.
From Verif Require Import Machine Sig SpecSig Ieee Parse Fmt Ppc Spec Norm Arith Special Order Formats Samples Algebra SpecPair Pair PairOps PairBase.
Import ListNotations.
Local Open Scope Z_scope.
Ltac Zify.zify_post_hook ::= idtac.

Lemma double_pair : pair_ok DoubleS.
Proof. constructor; [exact double_ok|reflexivity|reflexivity|vm_compute; discriminate|vm_compute; discriminate|vm_compute; discriminate]. Qed.
Lemma single_pair : pair_ok SingleS.
Proof. constructor; [exact single_ok|reflexivity|reflexivity|vm_compute; discriminate|vm_compute; discriminate|vm_compute; discriminate]. Qed.

(** a pair is canonical if adding its halves gives the high half back *)
Lemma canonical_by_run : forall F x st, pair_ok F -> pair_wf F x -> pair_finite x ->
  add_r F (d0 x) (d1 x) NearestTiesToEven = Ret (st, d0 x) -> canonical_pair F x.
Proof.
  intros F x st HF [H0 H1] [F0 F1] E. split; [split; assumption|]. split; [split; assumption|].
  pose proof (F_ok F HF) as FO.
  destruct (add_r_finite F (d0 x) (d1 x) NearestTiesToEven FO H0 H1 F0 F1 (sides F _ _ (pok_ieee F HF))) as [[st' f] [E' D]].
  rewrite E in E'. injection E' as <- <-. destruct D as [_ [_ [D1 D2]]]. unfold pair_value.
  destruct (Rle_or_lt (Rabs (rounded F NearestTiesToEven (value F (d0 x) + value F (d1 x)))) (max_finite F)) as [B|B].
  - apply (proj1 (proj2 (D1 B))).
  - specialize (D2 B). cbn [to_infinity] in D2. destruct D2 as [_ C]. rewrite (pok_ieee F HF) in C. destruct F0 as [Q|Q]; congruence.
Qed.
Lemma canonical_by_run_b : forall F x st f, pair_ok F -> pair_wf F x -> pair_finite x ->
  add_r F (d0 x) (d1 x) NearestTiesToEven = Ret (st, f) -> bitwise_eq f (d0 x) = true -> canonical_pair F x.
Proof.
  intros F x st f HF [H0 H1] [F0 F1] E Q. split; [split; assumption|]. split; [split; assumption|].
  pose proof (F_ok F HF) as FO.
  destruct (add_r_finite F (d0 x) (d1 x) NearestTiesToEven FO H0 H1 F0 F1 (sides F _ _ (pok_ieee F HF))) as [[st' f'] [E' D]].
  rewrite E in E'. injection E' as <- <-. destruct D as [W [_ [D1 D2]]]. unfold pair_value.
  apply (bitwise_eq_spec F f (d0 x) FO W H0) in Q. destruct Q as [Q1 [Q2 [_ Q4]]].
  destruct (Rle_or_lt (Rabs (rounded F NearestTiesToEven (value F (d0 x) + value F (d1 x)))) (max_finite F)) as [B|B].
  - destruct (D1 B) as [_ [V _]]. rewrite <- V. destruct F0 as [C|C].
    + symmetry. apply Q4. congruence.
    + rewrite (value_zero F (d0 x) C), (value_zero F f) by congruence. reflexivity.
  - specialize (D2 B). cbn [to_infinity] in D2. destruct D2 as [_ C]. rewrite (pok_ieee F HF) in C. unfold finite in F0. rewrite <- Q1 in F0. destruct F0; congruence.
Qed.
Ltac sample_canonical := eapply canonical_by_run_b;
  [exact double_pair|split; sample_wf|split; (left; reflexivity) || (right; reflexivity)|vm_compute; reflexivity|vm_compute; reflexivity].

(** 1/3, 3, 1 + 2^-60, 1 - 2^-60, 5/4 + 5/4 * 2^-54, 3 + 3 * 2^-54, the largest pair, -1, 1 *)
Definition p_third : DFloat := mkDF (mkFloat 6004799503160661 (-2) Normal false) (mkFloat 6004799503160662 (-56) Normal false).
Definition p_one : DFloat := mkDF (mkFloat 4503599627370496 0 Normal false) (mkFloat 0 (-1023) Zero false).
Definition p_neg : DFloat := mkDF (mkFloat 4503599627370496 0 Normal true) (mkFloat 0 (-1023) Zero false).
Definition p_three : DFloat := mkDF (mkFloat 6755399441055744 1 Normal false) (mkFloat 0 (-1023) Zero false).
Definition p_above : DFloat := mkDF (mkFloat 4503599627370496 0 Normal false) (mkFloat 4503599627370496 (-60) Normal false).
Definition p_below : DFloat := mkDF (mkFloat 4503599627370496 0 Normal false) (mkFloat 4503599627370496 (-60) Normal true).
Definition p_five : DFloat := mkDF (mkFloat 5629499534213120 0 Normal false) (mkFloat 5629499534213120 (-54) Normal false).
Definition p_six : DFloat := mkDF (mkFloat 6755399441055744 1 Normal false) (mkFloat 6755399441055744 (-53) Normal false).
Definition p_max : DFloat := mkDF (mkFloat 9007199254740991 1023 Normal false) (mkFloat 9007199254740991 969 Normal false).
Definition p_zero : DFloat := mkDF (mkFloat 0 (-1023) Zero false) (mkFloat 0 (-1023) Zero false).
Definition p_inf : DFloat := mkDF (mkFloat 0 1024 Infinity false) (mkFloat 0 (-1023) Zero false).
Definition p_qnan : DFloat := mkDF (mkFloat 2251799813685253 1024 NaN true) (mkFloat 0 (-1023) Zero false).
Definition p_snan : DFloat := mkDF (mkFloat 5 1024 NaN true) (mkFloat 0 (-1023) Zero false).

Lemma p_third_canonical : canonical_pair DoubleS p_third. Proof. sample_canonical. Qed.
Lemma p_one_canonical : canonical_pair DoubleS p_one. Proof. sample_canonical. Qed.
Lemma p_neg_canonical : canonical_pair DoubleS p_neg. Proof. sample_canonical. Qed.
Lemma p_three_canonical : canonical_pair DoubleS p_three. Proof. sample_canonical. Qed.
Lemma p_above_canonical : canonical_pair DoubleS p_above. Proof. sample_canonical. Qed.
Lemma p_below_canonical : canonical_pair DoubleS p_below. Proof. sample_canonical. Qed.
Lemma p_five_canonical : canonical_pair DoubleS p_five. Proof. sample_canonical. Qed.
Lemma p_six_canonical : canonical_pair DoubleS p_six. Proof. sample_canonical. Qed.
Lemma p_max_canonical : canonical_pair DoubleS p_max. Proof. sample_canonical. Qed.
Lemma p_zero_canonical : canonical_pair DoubleS p_zero. Proof. sample_canonical. Qed.

Lemma p_qnan_readable : readable DoubleS p_qnan. Proof. split; [sample_wf|reflexivity]. Qed.
Lemma p_inf_readable : readable DoubleS p_inf. Proof. exact I. Qed.
Lemma canonical_proper : forall F x, canonical_pair F x -> proper_pair F x.
Proof.
  intros F x H. pose proof H as [W [[[D|D] _] _]]; (split; [exact W|rewrite D; exact H]).
Qed.
Lemma p_inf_proper : proper_pair DoubleS p_inf. Proof. split; [split; sample_wf|reflexivity]. Qed.
Lemma p_qnan_proper : proper_pair DoubleS p_qnan. Proof. split; [split; sample_wf|reflexivity]. Qed.
Lemma p_three_operand : operand DoubleS p_three <> 0%R.
Proof. intro E. apply (operand_zero DoubleS double_pair _ p_three_canonical) in E. discriminate. Qed.
Lemma p_five_operand : operand DoubleS p_five <> 0%R.
Proof. intro E. apply (operand_zero DoubleS double_pair _ p_five_canonical) in E. discriminate. Qed.

(** a pair that fits the double width *)
Lemma operand_exact : forall F x n e, pair_ok F -> pair_value F x = (IZR n * bpow r2 e)%R -> Z.abs n < 2 ^ (2 * PRECISION F) ->
  MIN_EXP (FallbackS F) - (2 * PRECISION F - 1) <= e -> operand F x = pair_value F x.
Proof.
  intros F x n e HF V Hn He. unfold operand. apply round_generic; [destruct NearestTiesToEven; typeclasses eauto|]. rewrite V. unfold fexp. rewrite (W_prec F).
  apply generic_format_FLT. exists (Defs.Float r2 n e); [reflexivity|exact Hn|exact He].
Qed.
Lemma p_third_exact : operand DoubleS p_third = pair_value DoubleS p_third.
Proof.
  apply (operand_exact DoubleS p_third (6004799503160661 * 2 ^ 53 + 3002399751580331) (-107) double_pair).
  - unfold pair_value, value. cbn [p_third d0 d1 category sign sig exp signed].
    change (-2 - (PRECISION DoubleS - 1)) with (53 + -107). change (-56 - (PRECISION DoubleS - 1)) with (-1 + -107).
    change 6004799503160662 with (3002399751580331 * 2). rewrite !bpow_plus, plus_IZR, !mult_IZR. change (bpow r2 53) with (IZR (2 ^ 53)). change (bpow r2 (-1)) with (/ 2)%R. field.
  - vm_compute. reflexivity.
  - vm_compute. discriminate.
Qed.
