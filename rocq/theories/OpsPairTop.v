(** * OpsPairTop.v -- the operators on pairs over their whole range *)
From Coq Require Import ZArith Reals Lia Lra.
From Flocq Require Import Core.
From Verif Require Import Machine Ieee Ppc Ops OpsPair Spec SpecPair SpecDirected SpecTop PairDirected PairTop PairTopMul PairTopSamples PairSmall.
Local Open Scope Z_scope.
Ltac Zify.zify_post_hook ::= idtac.

Section Operators.
Variable F : Semantics.
Hypothesis HF : pair_ok F.
Hypothesis P5 : 5 <= PRECISION F.
Notation NE := NearestTiesToEven.

Theorem dd_op_add_full : forall x y, canonical_pair F x -> canonical_pair F y ->
  exists st r, dd_op_add F x y = Ret (st, r) /\
    (canonical_pair F r /\
      (Rabs (pair_value F r - (pair_value F x + pair_value F y)) <=
       bpow r2 (2 - 2 * PRECISION F) * (Rabs (value F (d0 x)) + Rabs (value F (d0 y))))%R \/
     (max_finite F <= Rabs (pair_value F x + pair_value F y))%R /\
      is_special F Infinity (Rlt_bool (pair_value F x + pair_value F y) 0) (d0 r) /\ is_special F Zero false (d1 r) \/
     lost_tie F NE x y /\ Z.testbit st 0 = true /\ category (d0 r) = NaN /\ is_special F Zero false (d1 r)).
Proof.
  intros x y Hx Hy. unfold dd_op_add. destruct (lost_dec F NE x y) as [L|L].
  - destruct (dd_add_lost F HF P5 NE (or_introl eq_refl) x y Hx Hy L) as [st [r [E H]]]. exists st, r. split; [exact E|]. right. right. exact (conj L H).
  - destruct (dd_add_top F HF P5 NE (or_introl eq_refl) x y Hx Hy L) as [st [r [E [[_ [_ [C [_ B]]]]|H]]]]; exists st, r; (split; [exact E|]).
    + left. exact (conj (C eq_refl) B).
    + right. left. exact H.
Qed.
Theorem dd_op_sub_full : forall x y, canonical_pair F x -> canonical_pair F y ->
  exists st r, dd_op_sub F x y = Ret (st, r) /\
    (canonical_pair F r /\
      (Rabs (pair_value F r - (pair_value F x - pair_value F y)) <=
       bpow r2 (2 - 2 * PRECISION F) * (Rabs (value F (d0 x)) + Rabs (value F (d0 y))))%R \/
     (max_finite F <= Rabs (pair_value F x - pair_value F y))%R /\
      is_special F Infinity (Rlt_bool (pair_value F x - pair_value F y) 0) (d0 r) /\ is_special F Zero false (d1 r) \/
     lost_tie F NE x (dd_neg y) /\ Z.testbit st 0 = true /\ category (d0 r) = NaN /\ is_special F Zero false (d1 r)).
Proof.
  intros x y Hx Hy. unfold dd_op_sub. destruct (lost_dec F NE x (dd_neg y)) as [L|L].
  - destruct (dd_sub_lost F HF P5 NE (or_introl eq_refl) x y Hx Hy L) as [st [r [E H]]]. exists st, r. split; [exact E|]. right. right. exact (conj L H).
  - destruct (dd_sub_top F HF P5 NE (or_introl eq_refl) x y Hx Hy L) as [st [r [E [[_ [_ [C [_ B]]]]|H]]]]; exists st, r; (split; [exact E|]).
    + left. exact (conj (C eq_refl) B).
    + right. left. exact H.
Qed.
Theorem dd_op_mul_full : forall x y, canonical_pair F x -> canonical_pair F y ->
  (Rabs (value F (d0 x) * value F (d0 y)) < min_normal F)%R /\ dd_op_mul F x y = Panic \/
  exists st r, dd_op_mul F x y = Ret (st, r) /\
    (canonical_pair F r /\
      (Rabs (pair_value F r - pair_value F x * pair_value F y) <=
       40 * bpow r2 (- (2 * PRECISION F)) * Rabs (value F (d0 x) * value F (d0 y)) + 5 * min_positive F)%R \/
     ((1 - bpow r2 (1 - PRECISION F)) * max_finite F <= Rabs (pair_value F x * pair_value F y))%R /\
      is_special F Infinity (Rlt_bool (pair_value F x * pair_value F y) 0) (d0 r) /\ is_special F Zero false (d1 r)).
Proof.
  intros x y Hx Hy. unfold dd_op_mul.
  pose proof (canonical_narrow F HF P5 x Hx) as Nx. pose proof (canonical_narrow F HF P5 y Hy) as Ny.
  assert (0 < min_positive F)%R as Q by apply bpow_gt_0. set (v := Rabs (value F (d0 x) * value F (d0 y))).
  assert (0 <= v)%R as V0 by apply Rabs_pos. assert (0 <= bpow r2 (- (2 * PRECISION F)) * v)%R as V1 by (apply Rmult_le_pos; [apply bpow_ge_0|exact V0]).
  destruct (Rlt_le_dec v (min_normal F)) as [T|T].
  - destruct (dd_mul_tiny F HF P5 NE x y Nx Ny T) as [E|[st [r [E [C [_ B]]]]]]; [left; exact (conj T E)|]. right. exists st, r. split; [exact E|]. left. split; [exact C|]. lra.
  - right. destruct (Rle_lt_dec v (bpow r2 (MAX_EXP F - 4))) as [U|U].
    + destruct (dd_mul_small F HF P5 NE x y Nx Ny (conj T U)) as [st [r [E [_ [C B]]]]]. exists st, r. split; [exact E|]. left. split; [exact (C eq_refl)|]. fold v in B. lra.
    + assert (bpow r2 (MIN_EXP F + 2 * PRECISION F + 1) <= v)%R as K.
      { apply Rle_trans with (bpow r2 (MAX_EXP F - 4)); [|apply Rlt_le, U]. apply bpow_le. pose proof HF as HF'. destruct HF'. lia. }
      destruct (dd_mul_top F HF P5 NE (or_introl eq_refl) x y Hx Hy K) as [st [r [E [[_ [_ [C [_ B]]]]|H]]]]; exists st, r; (split; [exact E|]).
      * left. split; [exact (C eq_refl)|]. fold v in B. replace (bpow r2 (3 - 2 * PRECISION F)) with (8 * bpow r2 (- (2 * PRECISION F)))%R in B by (unfold Zminus; rewrite bpow_plus; reflexivity). lra.
      * right. exact H.
Qed.

(** compound assignment drops the status *)
Theorem dd_add_assign_full : forall x y, canonical_pair F x -> canonical_pair F y ->
  exists r, dd_add_assign F x y = Ret r /\
    (canonical_pair F r /\
      (Rabs (pair_value F r - (pair_value F x + pair_value F y)) <=
       bpow r2 (2 - 2 * PRECISION F) * (Rabs (value F (d0 x)) + Rabs (value F (d0 y))))%R \/
     (max_finite F <= Rabs (pair_value F x + pair_value F y))%R /\
      is_special F Infinity (Rlt_bool (pair_value F x + pair_value F y) 0) (d0 r) /\ is_special F Zero false (d1 r) \/
     lost_tie F NE x y /\ category (d0 r) = NaN /\ is_special F Zero false (d1 r)).
Proof.
  intros x y Hx Hy. destruct (dd_op_add_full x y Hx Hy) as [st [r [E H]]]. exists r. split; [unfold dd_add_assign; rewrite E; reflexivity|].
  destruct H as [H|[H|[L [_ H]]]]; [left; exact H|right; left; exact H|right; right; exact (conj L H)].
Qed.
Theorem dd_sub_assign_full : forall x y, canonical_pair F x -> canonical_pair F y ->
  exists r, dd_sub_assign F x y = Ret r /\
    (canonical_pair F r /\
      (Rabs (pair_value F r - (pair_value F x - pair_value F y)) <=
       bpow r2 (2 - 2 * PRECISION F) * (Rabs (value F (d0 x)) + Rabs (value F (d0 y))))%R \/
     (max_finite F <= Rabs (pair_value F x - pair_value F y))%R /\
      is_special F Infinity (Rlt_bool (pair_value F x - pair_value F y) 0) (d0 r) /\ is_special F Zero false (d1 r) \/
     lost_tie F NE x (dd_neg y) /\ category (d0 r) = NaN /\ is_special F Zero false (d1 r)).
Proof.
  intros x y Hx Hy. destruct (dd_op_sub_full x y Hx Hy) as [st [r [E H]]]. exists r. split; [unfold dd_sub_assign; rewrite E; reflexivity|].
  destruct H as [H|[H|[L [_ H]]]]; [left; exact H|right; left; exact H|right; right; exact (conj L H)].
Qed.
Theorem dd_mul_assign_full : forall x y, canonical_pair F x -> canonical_pair F y ->
  (Rabs (value F (d0 x) * value F (d0 y)) < min_normal F)%R /\ dd_mul_assign F x y = Panic \/
  exists r, dd_mul_assign F x y = Ret r /\
    (canonical_pair F r /\
      (Rabs (pair_value F r - pair_value F x * pair_value F y) <=
       40 * bpow r2 (- (2 * PRECISION F)) * Rabs (value F (d0 x) * value F (d0 y)) + 5 * min_positive F)%R \/
     ((1 - bpow r2 (1 - PRECISION F)) * max_finite F <= Rabs (pair_value F x * pair_value F y))%R /\
      is_special F Infinity (Rlt_bool (pair_value F x * pair_value F y) 0) (d0 r) /\ is_special F Zero false (d1 r)).
Proof.
  intros x y Hx Hy. unfold dd_mul_assign. destruct (dd_op_mul_full x y Hx Hy) as [[T E]|[st [r [E H]]]]; rewrite E.
  - left. exact (conj T eq_refl).
  - right. exists r. exact (conj eq_refl H).
Qed.
End Operators.
