(** * PropsPairLaws.v -- laws of DoubleDouble sums and products: C68 *)
From Coq Require Import ZArith Reals.
From Verif Require Import Machine Ieee Ppc Spec SpecPair SpecPairLaws Symmetry PairSamples PairLaws PairLawsTop.
Local Open Scope Z_scope.

(** ** C68

    [opposite_result]: both return, with the same status and opposite numbers in
    both halves; [same_pair]: both return, with the same status and the same bits
    (SpecPairLaws.v). *)
Theorem C68_mul_comm : forall F, pair_ok F -> forall x y m, pair_wf F x -> pair_wf F y ->
  category (d0 x) = Normal -> category (d0 y) = Normal -> finite (d1 x) -> finite (d1 y) ->
  dd_mul_r F x y m = Panic /\ dd_mul_r F y x m = Panic \/ same_pair (dd_mul_r F x y m) (dd_mul_r F y x m).
Proof. exact pair_mul_comm. Qed.
Print Assumptions C68_mul_comm.
(** special operands *)
Theorem C68_comm_special : forall F x y m, category (d0 x) <> category (d0 y) ->
  dd_add_r F x y m = dd_add_r F y x m /\ dd_mul_r F x y m = dd_mul_r F y x m.
Proof. exact pair_comm_special. Qed.
Print Assumptions C68_comm_special.
Theorem C68_mul_comm_refuted : exists x y r r', canonical_pair DoubleS x /\ canonical_pair DoubleS y /\
  dd_mul_r DoubleS x y NearestTiesToEven = Ret (OK, r) /\ dd_mul_r DoubleS y x NearestTiesToEven = Ret (OK, r') /\ sign (d0 r) <> sign (d0 r').
Proof. exact pair_mul_comm_refuted. Qed.
Print Assumptions C68_mul_comm_refuted.
Example C68_mul_comm_example : pair_ok DoubleS /\ canonical_pair DoubleS p_third /\ canonical_pair DoubleS p_five /\
  exists r, dd_mul_r DoubleS p_third p_five TowardPositive = Ret (INEXACT, r) /\ dd_mul_r DoubleS p_five p_third TowardPositive = Ret (INEXACT, r).
Proof.
  split; [exact double_pair|]. split; [exact p_third_canonical|]. split; [exact p_five_canonical|]. eexists. split; vm_compute; reflexivity.
Qed.

Theorem C68_add_neg : forall F, pair_ok F -> forall x y m, m <> TowardPositive -> m <> TowardNegative ->
  pair_wf F x -> pair_wf F y -> finite (d1 x) -> finite (d1 y) ->
  opposite_result F (dd_add_r F x y m) (dd_add_r F (dd_neg x) (dd_neg y) m).
Proof. exact pair_add_neg. Qed.
Print Assumptions C68_add_neg.
Theorem C68_sub_neg : forall F, pair_ok F -> forall x y m, m <> TowardPositive -> m <> TowardNegative ->
  pair_wf F x -> pair_wf F y -> finite (d1 x) -> finite (d1 y) ->
  opposite_result F (dd_sub_r F x y m) (dd_sub_r F (dd_neg x) (dd_neg y) m).
Proof. exact pair_sub_neg. Qed.
Print Assumptions C68_sub_neg.
Theorem C68_add_neg_refuted : exists x y r r', canonical_pair DoubleS x /\ canonical_pair DoubleS y /\
  dd_add_r DoubleS x y TowardPositive = Ret (OK, r) /\ dd_add_r DoubleS (dd_neg x) (dd_neg y) TowardNegative = Ret (INEXACT, r').
Proof. exact pair_add_neg_refuted. Qed.
Print Assumptions C68_add_neg_refuted.
Theorem C68_mul_neg : forall F, pair_ok F -> forall x y m, pair_wf F x -> pair_wf F y -> finite (d1 x) -> finite (d1 y) ->
  category (d0 x) = Normal -> category (d0 y) = Normal ->
  dd_mul_r F x y m = Panic /\ dd_mul_r F (dd_neg x) y (mirrored m) = Panic \/
  opposite_result F (dd_mul_r F x y m) (dd_mul_r F (dd_neg x) y (mirrored m)).
Proof. exact pair_mul_neg. Qed.
Print Assumptions C68_mul_neg.
Theorem C68_mul_neg_refuted : exists x y r, canonical_pair DoubleS x /\ category (d0 x) = Normal /\ category (d0 y) = Infinity /\ category (d1 y) = Zero /\ pair_wf DoubleS y /\
  dd_mul_r DoubleS x y NearestTiesToEven = Ret (OK, r) /\ dd_mul_r DoubleS (dd_neg x) y NearestTiesToEven = Ret (OK, r) /\ category (d0 r) = Infinity.
Proof. exact pair_mul_neg_refuted. Qed.
Print Assumptions C68_mul_neg_refuted.
Example C68_neg_example : pair_ok DoubleS /\ canonical_pair DoubleS p_third /\ canonical_pair DoubleS p_five /\
  exists r r', dd_add_r DoubleS p_third p_five TowardZero = Ret (INEXACT, r) /\
    dd_add_r DoubleS (dd_neg p_third) (dd_neg p_five) TowardZero = Ret (INEXACT, dd_neg r) /\
    dd_mul_r DoubleS p_third p_five TowardPositive = Ret (INEXACT, r') /\
    dd_mul_r DoubleS (dd_neg p_third) p_five TowardNegative = Ret (INEXACT, dd_neg r').
Proof.
  split; [exact double_pair|]. split; [exact p_third_canonical|]. split; [exact p_five_canonical|]. eexists. eexists.
  split; [vm_compute; reflexivity|]. split; [vm_compute; reflexivity|]. split; vm_compute; reflexivity.
Qed.

Theorem C68_sub_self : forall F, pair_ok F -> forall x m, pair_wf F x -> category (d0 x) = Normal -> finite (d1 x) ->
  exists r, dd_sub_r F x x m = Ret (OK, r) /\ category (d0 r) = Zero /\ category (d1 r) = Zero.
Proof. exact pair_sub_self. Qed.
Print Assumptions C68_sub_self.
Theorem C68_mul_one : forall F, pair_ok F -> forall x y, canonical_pair F x -> category (d0 x) = Normal ->
  pair_wf F y -> value F (d0 y) = 1%R -> category (d0 y) = Normal -> category (d1 y) = Zero ->
  exists st r, dd_mul_r F x y NearestTiesToEven = Ret (st, r) /\ bitwise_eq (d0 r) (d0 x) = true /\ value F (d1 r) = value F (d1 x) /\
    (category (d1 x) = Zero -> st = OK).
Proof. exact pair_mul_one. Qed.
Print Assumptions C68_mul_one.
Example C68_one_example : canonical_pair DoubleS p_third /\ value DoubleS (d0 p_one) = 1%R /\
  dd_mul_r DoubleS p_third p_one NearestTiesToEven = Ret (INEXACT, p_third) /\
  exists z, dd_sub_r DoubleS p_third p_third TowardNegative = Ret (OK, z) /\ sign (d0 z) = true.
Proof.
  split; [exact p_third_canonical|]. split; [exact p_one_value|].
  split; [vm_compute; reflexivity|]. eexists. split; [vm_compute; reflexivity|]. reflexivity.
Qed.
