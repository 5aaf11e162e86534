(** * PairTopSamples.v -- pairs near the largest number *)
From Coq Require Import ZArith Reals String List Bool Lia Lra.
From Flocq Require Import Core.
From Verif Require Import Machine Ieee Ppc Spec SpecTop SpecDirected Norm Arith Samples SpecPair PairBase PairSamples PairMulRefute PairTop Parse OpsPair.
Local Open Scope Z_scope.
Ltac Zify.zify_post_hook ::= idtac.

(** 2^1022 - 2^970 - 2^967, 3 * 2^1022 - 2^969 *)
Definition p_large : DFloat := mkDF (mkFloat 9007199254740990 1021 Normal false) (mkFloat 4503599627370496 967 Normal true).
Definition p_larger : DFloat := mkDF (mkFloat 6755399441055744 1023 Normal false) (mkFloat 4503599627370496 969 Normal true).
(** 2^1023 - 2^967, 2^1023 - 2^970 - 2^967 *)
Definition p_half : DFloat := mkDF (mkFloat 4503599627370496 1023 Normal false) (mkFloat 4503599627370496 967 Normal true).
Definition p_half' : DFloat := mkDF (mkFloat 9007199254740991 1022 Normal false) (mkFloat 4503599627370496 967 Normal true).
(** 2^512 + 2^461 - 2^459, 2^512 - 2^461 - 2^458 *)
Definition p_root : DFloat := mkDF (mkFloat 4503599627370498 512 Normal false) (mkFloat 4503599627370496 459 Normal true).
Definition p_root' : DFloat := mkDF (mkFloat 9007199254740988 511 Normal false) (mkFloat 4503599627370496 458 Normal true).

Lemma below_largest : forall g s e, 0 <= s < 2 ^ 53 -> e <= 1022 \/ e = 1023 /\ s < 2 ^ 53 - 1 -> (Rabs (value DoubleS (mkFloat s e Normal g)) < max_finite DoubleS)%R.
Proof.
  intros g s e Hs He. unfold value, max_finite. cbn [category sign sig exp]. change (max_sig DoubleS) with (2 ^ 53 - 1). change (PRECISION DoubleS - 1) with 52. change (MAX_EXP DoubleS) with 1023.
  rewrite Rabs_mult, (Rabs_pos_eq (bpow _ _)) by apply bpow_ge_0. rewrite <- abs_IZR. assert (Z.abs (signed g s) = s) as -> by (unfold signed; destruct g; lia).
  destruct He as [He|[-> He]].
  - apply Rlt_le_trans with (IZR (2 ^ 53) * bpow r2 (e - 52))%R; [apply Rmult_lt_compat_r; [apply bpow_gt_0|apply IZR_lt; lia]|].
    apply Rle_trans with (IZR (2 ^ 53) * bpow r2 970)%R; [apply Rmult_le_compat_l; [apply IZR_le; lia|apply bpow_le; lia]|].
    change (1023 - 52) with (970 + 1). rewrite bpow_plus. change (bpow r2 1) with 2%R. pose proof (bpow_gt_0 r2 970) as P. rewrite <- (Rmult_1_l (bpow r2 970)) at 2.
    replace (IZR (2 ^ 53 - 1) * (1 * bpow r2 970 * 2))%R with (IZR (2 * (2 ^ 53 - 1)) * bpow r2 970)%R by (rewrite mult_IZR; ring).
    apply Rmult_le_compat_r; [lra|]. apply IZR_le. lia.
  - apply Rmult_lt_compat_r; [apply bpow_gt_0|]. apply IZR_lt. exact He.
Qed.
Lemma not_lost : forall m x y, (Rabs (value DoubleS (d0 y)) < max_finite DoubleS)%R -> ~ lost_tie DoubleS m x y.
Proof. intros m x y L [_ [H _]]. lra. Qed.
Lemma top_sample : pair_ok DoubleS /\ 5 <= PRECISION DoubleS /\ canonical_pair DoubleS p_large /\ canonical_pair DoubleS p_larger /\
  ~ lost_tie DoubleS NearestTiesToEven p_large p_larger /\
  dd_add_r DoubleS p_large p_larger NearestTiesToEven =
    Ret (INEXACT, mkDF (mkFloat 9007199254740991 1023 Normal false) (mkFloat 6755399441055744 968 Normal false)).
Proof.
  split; [exact double_pair|]. split; [vm_compute; discriminate|]. split; [sample_canonical|]. split; [sample_canonical|].
  split; [apply not_lost, below_largest; lia|]. vm_compute. reflexivity.
Qed.
Lemma top_infinite : canonical_pair DoubleS p_larger /\ ~ lost_tie DoubleS NearestTiesToEven (dd_neg p_larger) (dd_neg p_larger) /\
  dd_sub_r DoubleS (dd_neg p_larger) p_larger NearestTiesToEven = Ret (Z.lor OVERFLOW INEXACT, mkDF (mkFloat 0 1024 Infinity true) (mkFloat 0 (-1023) Zero false)).
Proof. split; [sample_canonical|]. split; [apply not_lost; change (d0 (dd_neg p_larger)) with (mkFloat 6755399441055744 1023 Normal true); apply below_largest; lia|]. vm_compute. reflexivity. Qed.
Lemma lost_dec : forall F m x y, lost_tie F m x y \/ ~ lost_tie F m x y.
Proof.
  intros F m x y. unfold lost_tie. destruct (Rlt_dec (value F (d0 x) * value F (d0 y)) 0) as [A|A]; [|right; tauto].
  destruct (Req_dec (Rabs (value F (d0 y))) (max_finite F)) as [B|B]; [|right; tauto].
  destruct (Req_dec (Rabs (rounded F m (value F (d0 x) + value F (d0 y)))) (Rabs (value F (d0 x) + value F (d0 y)) + / 2 * bpow r2 (MAX_EXP F + 1 - PRECISION F))) as [C|C]; [|right; tauto].
  left. exact (conj A (conj B C)).
Qed.
Lemma top_lost : canonical_pair DoubleS p_down /\ canonical_pair DoubleS p_top /\ lost_tie DoubleS NearestTiesToEven p_down p_top.
Proof.
  split; [sample_canonical|]. split; [sample_canonical|]. destruct (lost_dec DoubleS NearestTiesToEven p_down p_top) as [L|L]; [exact L|exfalso].
  destruct (dd_add_top DoubleS double_pair ltac:(vm_compute; discriminate) NearestTiesToEven (or_introl eq_refl) p_down p_top ltac:(sample_canonical) ltac:(sample_canonical) L) as [st [r [A B]]].
  assert (category (d0 r) = NaN) as C.
  { apply (f_equal (fun o => match o with Ret (_, r) => category (d0 r) | _ => Zero end)) in A. rewrite <- A. vm_compute. reflexivity. }
  destruct B as [[_ [[[H|H] _] _]]|[_ [[_ [H _]] _]]]; rewrite C in H; discriminate.
Qed.

(** infinite although the exact sum is a pair *)
Theorem pair_add_early_refuted : exists x y z st, canonical_pair DoubleS x /\ canonical_pair DoubleS y /\ canonical_pair DoubleS z /\
  pair_value DoubleS z = (pair_value DoubleS x + pair_value DoubleS y)%R /\
  dd_add_r DoubleS x y NearestTiesToEven = Ret (st, mkDF (INFINITY DoubleS) (ZERO DoubleS)).
Proof.
  exists p_half, p_half', (mkDF (mkFloat 9007199254740991 1023 Normal false) (mkFloat 6755399441055744 969 Normal false)). eexists.
  split; [sample_canonical|]. split; [sample_canonical|]. split; [sample_canonical|]. split; [|vm_compute; reflexivity].
  unfold pair_value. cbn [p_half p_half' d0 d1]. rewrite !(scaled_value _ _ _ 915) by (vm_compute; discriminate).
  rewrite <- !Rmult_plus_distr_r, <- !plus_IZR. apply (f_equal (fun n => IZR n * bpow r2 915)%R). vm_compute. reflexivity.
Qed.
(** and a product infinite although the exact one is below the largest number of the half format *)
Theorem pair_mul_early_refuted : exists x y st, canonical_pair DoubleS x /\ canonical_pair DoubleS y /\
  (0 < pair_value DoubleS x * pair_value DoubleS y < max_finite DoubleS)%R /\
  dd_mul_r DoubleS x y NearestTiesToEven = Ret (st, mkDF (INFINITY DoubleS) (ZERO DoubleS)).
Proof.
  exists p_root, p_root'. eexists. split; [sample_canonical|]. split; [sample_canonical|]. split; [|vm_compute; reflexivity].
  unfold pair_value, max_finite. cbn [p_root p_root' d0 d1]. change (max_sig DoubleS) with 9007199254740991. change (MAX_EXP DoubleS - (PRECISION DoubleS - 1)) with (159 + (406 + 406)).
  rewrite !(scaled_value _ _ _ 406) by (vm_compute; discriminate).
  rewrite <- !Rmult_plus_distr_r, <- !plus_IZR. rewrite (bpow_plus r2 159), (bpow_plus r2 406 406), <- (IZR_Zpower r2 159) by lia.
  set (n := signed false _ * _ + _). set (k := signed false _ * _ + _).
  replace (IZR n * bpow r2 406 * (IZR k * bpow r2 406))%R with (IZR (n * k) * (bpow r2 406 * bpow r2 406))%R by (rewrite mult_IZR; ring).
  rewrite <- (Rmult_assoc (IZR 9007199254740991)), <- mult_IZR. assert (0 < bpow r2 406 * bpow r2 406)%R as P by (apply Rmult_lt_0_compat; apply bpow_gt_0). split.
  - apply Rmult_lt_0_compat; [apply IZR_lt; vm_compute; reflexivity|exact P].
  - apply Rmult_lt_compat_r; [exact P|apply IZR_lt; vm_compute; reflexivity].
Qed.
Lemma top_product_sample : canonical_pair DoubleS p_root /\ (bpow r2 (MIN_EXP DoubleS + 2 * PRECISION DoubleS + 1) <= Rabs (value DoubleS (d0 p_root) * value DoubleS (d0 p_half)))%R /\
  dd_mul_r DoubleS p_root p_half NearestTiesToEven = Ret (Z.lor OVERFLOW INEXACT, mkDF (mkFloat 0 1024 Infinity false) (mkFloat 0 (-1023) Zero false)) /\
  (bpow r2 (MIN_EXP DoubleS + 2 * PRECISION DoubleS + 1) <= Rabs (value DoubleS (d0 p_large) * value DoubleS (d0 p_three)))%R /\
  dd_mul_r DoubleS p_large p_three NearestTiesToEven =
    Ret (INEXACT, mkDF (mkFloat 6755399441055742 1023 Normal false) (mkFloat 5629499534213120 969 Normal false)).
Proof.
  split; [sample_canonical|].
  assert (bpow r2 (MIN_EXP DoubleS + 2 * PRECISION DoubleS + 1) <= 1)%R as L. { change 1%R with (bpow r2 0). apply bpow_le. vm_compute. discriminate. }
  assert (forall x y : R, (1 <= Rabs x)%R -> (1 <= Rabs y)%R -> (bpow r2 (MIN_EXP DoubleS + 2 * PRECISION DoubleS + 1) <= Rabs (x * y))%R) as K.
  { intros x y Hx Hy. rewrite Rabs_mult. apply Rle_trans with (1 := L). rewrite <- (Rmult_1_r 1). apply Rmult_le_compat; lra. }
  assert (forall g s e, 2 ^ 52 <= s -> 0 <= e -> (1 <= Rabs (value DoubleS (mkFloat s e Normal g)))%R) as V.
  { intros g s e Hs He. apply Rle_trans with (bpow r2 e); [change 1%R with (bpow r2 0); apply bpow_le, He|]. apply double_big. exact Hs. }
  split; [apply K; apply V; lia|]. split; [vm_compute; reflexivity|]. split; [apply K; apply V; lia|]. vm_compute. reflexivity.
Qed.

(** in a directed mode an overflow leaves the largest number in both halves *)
Definition p_max : DFloat := mkDF (mkFloat 9007199254740991 1023 Normal false) (mkFloat 0 (-1023) Zero false).
Definition p_two : DFloat := mkDF (mkFloat 4503599627370496 1 Normal false) (mkFloat 0 (-1023) Zero false).
Definition p_twice : DFloat := mkDF (mkFloat 9007199254740991 1023 Normal false) (mkFloat 9007199254740991 1023 Normal false).
Lemma twice_not_narrow : ~ narrow_pair DoubleS p_twice.
Proof.
  intros [_ [_ N]]. cbn [p_twice d0 d1] in N. pose proof (double_big false 9007199254740991 1023 ltac:(lia)) as B. pose proof (bpow_gt_0 r2 1023) as P.
  change (1 - PRECISION DoubleS) with (-52) in N. assert (bpow r2 (-52) < 1)%R as L by (change 1%R with (bpow r2 0); apply bpow_lt; lia).
  set (v := Rabs _) in *. nra.
Qed.
Theorem pair_directed_refuted : exists x y r,
  canonical_pair DoubleS x /\ canonical_pair DoubleS y /\
  dd_add_r DoubleS x x TowardZero = Ret (INEXACT, r) /\ dd_mul_r DoubleS x y TowardZero = Ret (INEXACT, r) /\ dd_mul_r DoubleS x x TowardZero = Ret (INEXACT, r) /\
  ~ narrow_pair DoubleS r /\ dd_is_finite r = true /\ dd_fmt DoubleS r None None false = Ret (bytes "+Inf").
Proof.
  exists p_max, p_two, p_twice. split; [sample_canonical|]. split; [sample_canonical|].
  split; [vm_compute; reflexivity|]. split; [vm_compute; reflexivity|]. split; [vm_compute; reflexivity|]. split; [exact twice_not_narrow|]. split; vm_compute; reflexivity.
Qed.
