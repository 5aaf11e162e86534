(** * FlocqSamples.v -- the formats, the correspondence and concrete cases *)
From Coq Require Import ZArith Reals List Bool Lia Lra SpecFloat.
From Flocq Require Import Core.
From Flocq Require BinarySingleNaN Binary.
From Flocq Require IEEE754.Bits.
From Verif Require Import Machine Ieee Spec Samples Flocq754 FlocqBits.
Local Open Scope Z_scope.
Ltac Zify.zify_post_hook ::= idtac.

Lemma flocq_formats : ieee_format HalfS /\ ieee_format BFloatS /\ ieee_format SingleS /\ ieee_format DoubleS /\ ieee_format QuadS /\ ieee_format X87DoubleExtendedS /\ ieee_format Float8E5M2S.
Proof.
  split; [|split; [|split; [|split; [|split; [|split]]]]].
  - split; [exact half_ok|reflexivity|reflexivity].
  - split; [exact bfloat_ok|reflexivity|reflexivity].
  - exact single_format.
  - exact double_format.
  - split; [exact quad_ok|reflexivity|reflexivity].
  - split; [exact x87_ok|reflexivity|reflexivity].
  - split; [exact e5m2_ok|reflexivity|reflexivity].
Qed.
Section Any.
Variable S : Semantics.
Hypothesis HF : ieee_format S.
Variable PG : Prec_gt_0 (PRECISION S).
Variable PL : BinarySingleNaN.Prec_lt_emax (PRECISION S) (MAX_EXP S + 1).
Lemma every_number : forall b, exists x, same S x b.
Proof. intros b. exists (of_b S b). apply (same_of_b S HF). Qed.
Lemma every_float : forall x, wf S x -> exists b, same S x b.
Proof. intros x W. exists (to_b S HF x W). apply (same_to_b S HF). Qed.
Lemma same_unique' : forall x b c, same S x b -> same S x c -> b = c.
Proof. intros x b c. apply same_unique. Qed.
(** of zeros and infinities category and sign count, of NaNs the category *)
Lemma same_injective : forall x y b, same S x b -> same S y b ->
  category x = category y /\ (category x <> NaN -> sign x = sign y) /\ (category x = Normal -> x = y).
Proof.
  intros x y b [Wx Ex] [Wy Ey]. rewrite <- Ey in Ex. clear Ey.
  assert (C : category x = category y). { unfold view in Ex. destruct (category x), (category y); try discriminate Ex; reflexivity. }
  split; [exact C|]. split.
  - intros N. unfold view in Ex. destruct (category x); try congruence; rewrite <- C in Ex; congruence.
  - intros N. pose proof (sig_bounds S x Wx N) as Bx. rewrite N in C. symmetry in C. pose proof (sig_bounds S y Wy C) as By.
    unfold view in Ex. rewrite N, C in Ex. assert (sign x = sign y) by congruence.
    assert (P : Z.to_pos (sig x) = Z.to_pos (sig y)) by congruence. apply Z2Pos.inj in P; [|lia|lia].
    assert (exp x - (PRECISION S - 1) = exp y - (PRECISION S - 1)) by congruence. assert (exp x = exp y) by lia.
    destruct x, y. cbn in *. congruence.
Qed.
End Any.

Lemma flocq_sample : exists a b, same HalfS h_one a /\ same HalfS h_max b /\
  fma_safe HalfS h_one h_max h_three /\ category h_max = Normal.
Proof.
  destruct flocq_formats as [HF _].
  destruct (every_float HalfS HF h_one h_one_wf) as [a A]. destruct (every_float HalfS HF h_max h_max_wf) as [b B].
  exists a, b. repeat split; try apply A; try apply B. left. reflexivity.
Qed.
Lemma pattern_sample : quiet_pattern 64 11 0x3FF8000000000000 /\ quiet_pattern 64 11 0xFFF8000000000123 /\
  quiet_pattern 32 8 0x7F7FFFFF /\ ~ quiet_pattern 32 8 0x7F800001.
Proof.
  unfold quiet_pattern. split; [|split; [|split]].
  - intros H. vm_compute in H. discriminate H.
  - intros _ _. vm_compute. discriminate.
  - intros H. vm_compute in H. discriminate H.
  - intros H. apply (H eq_refl ltac:(discriminate)). vm_compute. reflexivity.
Qed.
Lemma signaling_differs : exists a b x y st r, 0 <= a < 2 ^ 32 /\ 0 <= b < 2 ^ 32 /\ quiet_pattern 32 8 b /\
  from_bits SingleS a = Ret x /\ from_bits SingleS b = Ret y /\ add_r SingleS x y NearestTiesToEven = Ret (st, r) /\
  to_bits SingleS r <> Ret (IEEE754.Bits.bits_of_b32 (IEEE754.Bits.b32_plus BinarySingleNaN.mode_NE (IEEE754.Bits.b32_of_bits a) (IEEE754.Bits.b32_of_bits b))).
Proof.
  exists 0x7F800001, 0x3F800000.
  eexists _, _, _, _. split; [split; [discriminate|reflexivity]|]. split; [split; [discriminate|reflexivity]|].
  split. { intros H. vm_compute in H. discriminate H. }
  split; [vm_compute; reflexivity|]. split; [vm_compute; reflexivity|]. split; [vm_compute; reflexivity|].
  vm_compute. discriminate.
Qed.
