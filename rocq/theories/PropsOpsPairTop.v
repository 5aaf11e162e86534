(** * PropsOpsPairTop.v -- C53: sums, differences and products of any two canonical pairs *)
From Coq Require Import ZArith Reals.
From Flocq Require Import Core.
From Verif Require Import Machine Ieee Ppc Ops OpsPair Spec SpecPair SpecDirected SpecTop PairSamples PairMulRefute PairTopSamples PairTotal PairSmall OpsPairTop.
Local Open Scope Z_scope.

(** No range is assumed.  A sum of canonical pairs is a canonical pair within the
    error bound, or an infinity because the exact sum reaches the largest finite
    high half, or the NaN of C66; the operators never panic. *)
Theorem C53_pair_add : forall F, pair_ok F -> 5 <= PRECISION F -> forall x y, canonical_pair F x -> canonical_pair F y ->
  exists st r, dd_op_add F x y = Ret (st, r) /\
    (canonical_pair F r /\
      (Rabs (pair_value F r - (pair_value F x + pair_value F y)) <=
       bpow r2 (2 - 2 * PRECISION F) * (Rabs (value F (d0 x)) + Rabs (value F (d0 y))))%R \/
     (max_finite F <= Rabs (pair_value F x + pair_value F y))%R /\
      is_special F Infinity (Rlt_bool (pair_value F x + pair_value F y) 0) (d0 r) /\ is_special F Zero false (d1 r) \/
     lost_tie F NearestTiesToEven x y /\ Z.testbit st 0 = true /\ category (d0 r) = NaN /\ is_special F Zero false (d1 r)).
Proof. exact dd_op_add_full. Qed.
Print Assumptions C53_pair_add.

Theorem C53_pair_sub : forall F, pair_ok F -> 5 <= PRECISION F -> forall x y, canonical_pair F x -> canonical_pair F y ->
  exists st r, dd_op_sub F x y = Ret (st, r) /\
    (canonical_pair F r /\
      (Rabs (pair_value F r - (pair_value F x - pair_value F y)) <=
       bpow r2 (2 - 2 * PRECISION F) * (Rabs (value F (d0 x)) + Rabs (value F (d0 y))))%R \/
     (max_finite F <= Rabs (pair_value F x - pair_value F y))%R /\
      is_special F Infinity (Rlt_bool (pair_value F x - pair_value F y) 0) (d0 r) /\ is_special F Zero false (d1 r) \/
     lost_tie F NearestTiesToEven x (dd_neg y) /\ Z.testbit st 0 = true /\ category (d0 r) = NaN /\ is_special F Zero false (d1 r)).
Proof. exact dd_op_sub_full. Qed.
Print Assumptions C53_pair_sub.

(** A product may also panic, but only below the smallest normal number (C61 says when); its
    error is relative with a few of the smallest units added. *)
Theorem C53_pair_mul : forall F, pair_ok F -> 5 <= PRECISION F -> forall x y, canonical_pair F x -> canonical_pair F y ->
  (Rabs (value F (d0 x) * value F (d0 y)) < min_normal F)%R /\ dd_op_mul F x y = Panic \/
  exists st r, dd_op_mul F x y = Ret (st, r) /\
    (canonical_pair F r /\
      (Rabs (pair_value F r - pair_value F x * pair_value F y) <=
       40 * bpow r2 (- (2 * PRECISION F)) * Rabs (value F (d0 x) * value F (d0 y)) + 5 * min_positive F)%R \/
     ((1 - bpow r2 (1 - PRECISION F)) * max_finite F <= Rabs (pair_value F x * pair_value F y))%R /\
      is_special F Infinity (Rlt_bool (pair_value F x * pair_value F y) 0) (d0 r) /\ is_special F Zero false (d1 r)).
Proof. exact dd_op_mul_full. Qed.
Print Assumptions C53_pair_mul.

(** large operands whose sum is finite, whose sum is infinite, and a lost tie; a tiny product, and one that panics *)
Example C53_pair_top_example : canonical_pair DoubleS p_larger /\ canonical_pair DoubleS p_down /\ canonical_pair DoubleS p_top /\
  (exists st r, dd_op_add DoubleS p_large p_large = Ret (st, r) /\ category (d0 r) = Normal /\ category (d1 r) = Normal) /\
  (exists st r, dd_op_add DoubleS p_larger p_larger = Ret (st, r) /\ category (d0 r) = Infinity) /\
  (exists st r, dd_op_add DoubleS p_down p_top = Ret (st, r) /\ category (d0 r) = NaN) /\
  (exists st r, dd_op_mul DoubleS (p_faint (-600)) (p_faint (-420)) = Ret (st, r) /\ category (d0 r) = Normal) /\
  dd_op_mul DoubleS p_tiny1 p_tiny2 = Panic.
Proof.
  split; [exact (proj1 top_infinite)|]. split; [exact (proj1 top_lost)|]. split; [exact (proj1 (proj2 top_lost))|].
  do 4 (split; [do 2 eexists; vm_compute; repeat split|]). vm_compute. reflexivity.
Qed.

(** The same for the compound assignments, which drop the status. *)
Theorem C53_pair_add_assign : forall F, pair_ok F -> 5 <= PRECISION F -> forall x y, canonical_pair F x -> canonical_pair F y ->
  exists r, dd_add_assign F x y = Ret r /\
    (canonical_pair F r /\
      (Rabs (pair_value F r - (pair_value F x + pair_value F y)) <=
       bpow r2 (2 - 2 * PRECISION F) * (Rabs (value F (d0 x)) + Rabs (value F (d0 y))))%R \/
     (max_finite F <= Rabs (pair_value F x + pair_value F y))%R /\
      is_special F Infinity (Rlt_bool (pair_value F x + pair_value F y) 0) (d0 r) /\ is_special F Zero false (d1 r) \/
     lost_tie F NearestTiesToEven x y /\ category (d0 r) = NaN /\ is_special F Zero false (d1 r)).
Proof. exact dd_add_assign_full. Qed.
Print Assumptions C53_pair_add_assign.

Theorem C53_pair_sub_assign : forall F, pair_ok F -> 5 <= PRECISION F -> forall x y, canonical_pair F x -> canonical_pair F y ->
  exists r, dd_sub_assign F x y = Ret r /\
    (canonical_pair F r /\
      (Rabs (pair_value F r - (pair_value F x - pair_value F y)) <=
       bpow r2 (2 - 2 * PRECISION F) * (Rabs (value F (d0 x)) + Rabs (value F (d0 y))))%R \/
     (max_finite F <= Rabs (pair_value F x - pair_value F y))%R /\
      is_special F Infinity (Rlt_bool (pair_value F x - pair_value F y) 0) (d0 r) /\ is_special F Zero false (d1 r) \/
     lost_tie F NearestTiesToEven x (dd_neg y) /\ category (d0 r) = NaN /\ is_special F Zero false (d1 r)).
Proof. exact dd_sub_assign_full. Qed.
Print Assumptions C53_pair_sub_assign.

Theorem C53_pair_mul_assign : forall F, pair_ok F -> 5 <= PRECISION F -> forall x y, canonical_pair F x -> canonical_pair F y ->
  (Rabs (value F (d0 x) * value F (d0 y)) < min_normal F)%R /\ dd_mul_assign F x y = Panic \/
  exists r, dd_mul_assign F x y = Ret r /\
    (canonical_pair F r /\
      (Rabs (pair_value F r - pair_value F x * pair_value F y) <=
       40 * bpow r2 (- (2 * PRECISION F)) * Rabs (value F (d0 x) * value F (d0 y)) + 5 * min_positive F)%R \/
     ((1 - bpow r2 (1 - PRECISION F)) * max_finite F <= Rabs (pair_value F x * pair_value F y))%R /\
      is_special F Infinity (Rlt_bool (pair_value F x * pair_value F y) 0) (d0 r) /\ is_special F Zero false (d1 r)).
Proof. exact dd_mul_assign_full. Qed.
Print Assumptions C53_pair_mul_assign.

Example C53_pair_assign_top_example : canonical_pair DoubleS p_larger /\ canonical_pair DoubleS p_down /\ canonical_pair DoubleS p_top /\
  (exists r, dd_add_assign DoubleS p_larger p_larger = Ret r /\ category (d0 r) = Infinity) /\
  (exists r, dd_add_assign DoubleS p_down p_top = Ret r /\ category (d0 r) = NaN) /\
  (exists r, dd_sub_assign DoubleS p_larger p_large = Ret r /\ category (d0 r) = Normal /\ category (d1 r) = Normal) /\
  dd_mul_assign DoubleS p_tiny1 p_tiny2 = Panic.
Proof.
  split; [exact (proj1 top_infinite)|]. split; [exact (proj1 top_lost)|]. split; [exact (proj1 (proj2 top_lost))|].
  do 3 (split; [eexists; vm_compute; repeat split|]). vm_compute. reflexivity.
Qed.
