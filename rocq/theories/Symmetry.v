(** * Symmetry.v -- negated operands in the mirrored rounding mode *)
From Coq Require Import ZArith Reals List Bool Lia Lra.
From Flocq Require Import Core.
From Verif Require Import Machine Sig SpecSig Ieee Spec Norm Arith Special Order Bits Int Scale Next Convert Integral Rem Fma Algebra Laws Through Samples.
Import ListNotations.
Local Open Scope Z_scope.
Ltac Zify.zify_post_hook ::= idtac.

(** the second result is the negation of the first, with the same flags *)
Definition negated (o o' : outcome (Z * Float)) : Prop :=
  exists st f f', o = Ret (st, f) /\ o' = Ret (st, f') /\ bitwise_eq f' (neg f) = true.

Lemma usual_mirrored : forall S m, usual S m -> usual S (mirrored m).
Proof. intros S m [H|[H1 H2]]; [left; exact H|right]. destruct m; split; cbn; congruence. Qed.

Lemma symmetric : forall S m x zs o o', sem_ok S -> usual S m ->
  (exists res, o = Ret res /\ crate_rounded S m x zs res) ->
  (exists res, o' = Ret res /\ crate_rounded S (mirrored m) (- x) (negb zs) res) -> negated o o'.
Proof.
  intros S m x zs o o' HS U [[st f] [E D]] [[st' f'] [E' D']].
  eapply delivers_mirrored with (pol' := crate_to_infinity S (mirrored m) (- x)) in D.
  - destruct (delivers_unique _ _ _ _ _ _ _ _ _ HS D' D) as [-> B].
    exists st, f, f'. split; [exact E|]. split; [exact E'|exact B].
  - intro g. rewrite (usual_crate S m _ _ U), (usual_crate S (mirrored m) _ _ (usual_mirrored S m U)). apply to_infinity_mirrored.
Qed.

Lemma sign_neg : forall x, sign (neg x) = negb (sign x).
Proof. intro x. rewrite neg_spec. reflexivity. Qed.
Lemma category_neg : forall x, category (neg x) = category x.
Proof. intro x. rewrite neg_spec. reflexivity. Qed.

Lemma mul_symmetric : forall S x y m, sem_ok S -> usual S m -> wf S x -> wf S y -> finite x -> finite y ->
  negated (mul_r S x y m) (mul_r S (neg x) y (mirrored m)).
Proof.
  intros S x y m HS U Wx Wy Fx Fy. eapply symmetric with (zs := xorb (sign x) (sign y)); [exact HS|exact U| |].
  - exact (mul_r_crate S x y m HS Wx Wy Fx Fy).
  - destruct (mul_r_crate S (neg x) y (mirrored m) HS (wf_neg S x Wx) Wy (finite_neg x Fx) Fy) as [res [E D]].
    rewrite value_neg, Ropp_mult_distr_l_reverse, sign_neg in D. exists res. split; [exact E|].
    replace (negb (xorb (sign x) (sign y))) with (xorb (negb (sign x)) (sign y)) by (destruct (sign x), (sign y); reflexivity). exact D.
Qed.

Lemma div_symmetric : forall S x y m, sem_ok S -> usual S m -> wf S x -> wf S y -> finite x -> category y = Normal ->
  negated (div_r S x y m) (div_r S (neg x) y (mirrored m)).
Proof.
  intros S x y m HS U Wx Wy Fx Fy. eapply symmetric with (zs := xorb (sign x) (sign y)); [exact HS|exact U| |].
  - exact (div_r_crate S x y m HS Wx Wy Fx Fy).
  - destruct (div_r_crate S (neg x) y (mirrored m) HS (wf_neg S x Wx) Wy (finite_neg x Fx) Fy) as [res [E D]].
    rewrite value_neg, sign_neg in D. unfold Rdiv in *. rewrite Ropp_mult_distr_l_reverse in D. exists res. split; [exact E|].
    replace (negb (xorb (sign x) (sign y))) with (xorb (negb (sign x)) (sign y)) by (destruct (sign x), (sign y); reflexivity). exact D.
Qed.

Lemma zero_sign_irrelevant : forall pol S m x zs zs' res, x <> 0%R \/ zs = zs' -> delivers pol S m x zs res -> delivers pol S m x zs' res.
Proof.
  intros pol S m x zs zs' [st f] [N| <-] D; [|exact D]. destruct D as [W [[G1 [G2 G3]] D]].
  split; [exact W|]. split; [|exact D]. split; [exact G1|]. split; [exact G2|]. intro Z. destruct (N Z).
Qed.

(** a sum that is exactly zero changes its sign with the operands if the mode is
    directed or if both operands are zeros of one sign *)
Definition sum_changes_sign (m : Round) (x y : Float) (sy : bool) (v : R) : Prop :=
  v <> 0%R \/ m = TowardPositive \/ m = TowardNegative \/ (category x = Zero /\ category y = Zero /\ sign x = sy).

Lemma add_symmetric : forall S x y m, sem_ok S -> usual S m -> wf S x -> wf S y -> finite x -> finite y ->
  sum_changes_sign m x y (sign y) (value S x + value S y) ->
  negated (add_r S x y m) (add_r S (neg x) (neg y) (mirrored m)).
Proof.
  intros S x y m HS U Wx Wy Fx Fy C. eapply symmetric with (zs := sum_zero_sign x y (sign y) m); [exact HS|exact U| |].
  - exact (add_r_spec S x y m HS Wx Wy Fx Fy).
  - destruct (add_r_spec S (neg x) (neg y) (mirrored m) HS (wf_neg S x Wx) (wf_neg S y Wy) (finite_neg x Fx) (finite_neg y Fy)) as [res [E D]].
    rewrite !value_neg, <- Ropp_plus_distr, sign_neg in D. exists res. split; [exact E|].
    eapply zero_sign_irrelevant; [|exact D].
    unfold sum_zero_sign. rewrite !category_neg, sign_neg.
    replace (Bool.eqb (negb (sign x)) (negb (sign y))) with (Bool.eqb (sign x) (sign y)) by (destruct (sign x), (sign y); reflexivity).
    destruct C as [N|[->|[->|[C1 [C2 C3]]]]].
    + left. lra.
    + right. destruct (category x), (category y), (Bool.eqb (sign x) (sign y)); reflexivity.
    + right. destruct (category x), (category y), (Bool.eqb (sign x) (sign y)); reflexivity.
    + right. rewrite C1, C2, C3, eqb_reflx. reflexivity.
Qed.

Lemma sub_symmetric : forall S x y m, sem_ok S -> usual S m -> wf S x -> wf S y -> finite x -> finite y ->
  sum_changes_sign m x y (negb (sign y)) (value S x - value S y) ->
  negated (sub_r S x y m) (sub_r S (neg x) (neg y) (mirrored m)).
Proof.
  intros S x y m HS U Wx Wy Fx Fy C. eapply symmetric with (zs := sum_zero_sign x y (negb (sign y)) m); [exact HS|exact U| |].
  - exact (sub_r_spec S x y m HS Wx Wy Fx Fy).
  - destruct (sub_r_spec S (neg x) (neg y) (mirrored m) HS (wf_neg S x Wx) (wf_neg S y Wy) (finite_neg x Fx) (finite_neg y Fy)) as [res [E D]].
    rewrite !value_neg in D. replace (- value S x - - value S y)%R with (- (value S x - value S y))%R in D by ring. rewrite sign_neg in D.
    exists res. split; [exact E|].
    eapply zero_sign_irrelevant; [|exact D].
    unfold sum_zero_sign. rewrite !category_neg, sign_neg.
    replace (Bool.eqb (negb (sign x)) (negb (negb (sign y)))) with (Bool.eqb (sign x) (negb (sign y))) by (destruct (sign x), (sign y); reflexivity).
    destruct C as [N|[->|[->|[C1 [C2 C3]]]]].
    + left. lra.
    + right. destruct (category x), (category y), (Bool.eqb (sign x) (negb (sign y))); reflexivity.
    + right. destruct (category x), (category y), (Bool.eqb (sign x) (negb (sign y))); reflexivity.
    + right. rewrite C1, C2, C3, eqb_reflx. reflexivity.
Qed.

Lemma fma_safe_neg : forall S x y z, fma_safe S x y z -> fma_safe S (neg x) y (neg z).
Proof.
  intros S x y z. unfold fma_safe. rewrite !sign_neg, !category_neg, !value_neg, Ropp_mult_distr_l_reverse, !Rabs_Ropp.
  intros [H|[H|[H|[H|[H|[k H]]]]]].
  - left. rewrite <- H. destruct (sign x), (sign y); reflexivity.
  - right. left. exact H.
  - do 2 right. left. exact H.
  - do 3 right. left. exact H.
  - do 4 right. left. exact H.
  - do 5 right. exists (- k). rewrite opp_IZR, H. ring.
Qed.

Lemma mul_add_symmetric : forall S x y z m, sem_ok S -> usual S m -> wf S x -> wf S y -> wf S z -> finite x -> finite y -> finite z ->
  fma_safe S x y z ->
  (value S x * value S y + value S z <> 0)%R \/ m = TowardPositive \/ m = TowardNegative \/ xorb (sign x) (sign y) = sign z ->
  negated (mul_add_r S x y z m) (mul_add_r S (neg x) y (neg z) (mirrored m)).
Proof.
  intros S x y z m HS U Wx Wy Wz Fx Fy Fz Sf C. eapply symmetric with (zs := fma_zero_sign (xorb (sign x) (sign y)) z m); [exact HS|exact U| |].
  - exact (mul_add_r_crate S x y z m HS Wx Wy Wz Fx Fy Fz Sf).
  - destruct (mul_add_r_crate S (neg x) y (neg z) (mirrored m) HS (wf_neg S x Wx) Wy (wf_neg S z Wz) (finite_neg x Fx) Fy (finite_neg z Fz) (fma_safe_neg S x y z Sf)) as [res [E D]].
    rewrite !value_neg, Ropp_mult_distr_l_reverse, <- Ropp_plus_distr in D. exists res. split; [exact E|].
    eapply zero_sign_irrelevant; [|exact D]. unfold fma_zero_sign. rewrite !sign_neg.
    destruct C as [N|[->|[->|C]]].
    + left. lra.
    + right. destruct (sign x), (sign y), (sign z); reflexivity.
    + right. destruct (sign x), (sign y), (sign z); reflexivity.
    + right. destruct (sign x), (sign y), (sign z); try discriminate C; reflexivity.
Qed.

Lemma convert_symmetric : forall S T x m, sem_ok S -> sem_ok T -> usual T m -> wf S x -> finite x ->
  exists st f f' lost, convert_r S T x m = Ret (st, f, lost) /\ convert_r S T (neg x) (mirrored m) = Ret (st, f', lost) /\
    bitwise_eq f' (neg f) = true.
Proof.
  intros S T x m HS HT U Wx Fx.
  destruct (convert_r_crate S T x m HS HT Wx Fx) as [st [f [lost [E [D L]]]]].
  destruct (convert_r_crate S T (neg x) (mirrored m) HS HT (wf_neg S x Wx) (finite_neg x Fx)) as [st' [f' [lost' [E' [D' L']]]]].
  rewrite value_neg, sign_neg in D'.
  destruct (symmetric T m (value S x) (sign x) (Ret (st, f)) (Ret (st', f')) HT U) as [s [g [g' [Q [Q' B]]]]].
  - exists (st, f). split; [reflexivity|exact D].
  - exists (st', f'). split; [reflexivity|exact D'].
  - assert (st = s /\ f = g) as [-> ->] by (split; congruence). assert (st' = s /\ f' = g') as [-> ->] by (split; congruence).
    exists s, g, g', lost. split; [exact E|]. split; [|exact B]. rewrite E'. f_equal. f_equal.
    assert (Wg : wf T g) by apply D. assert (Wg' : wf T g') by apply D'.
    apply (bitwise_eq_spec T g' (neg g) HT Wg' (wf_neg T g Wg)) in B. rewrite category_neg in B. destruct B as [B1 [_ [_ B2]]].
    assert (Ef : finite g' <-> finite g) by (unfold finite; rewrite B1; reflexivity).
    assert (Ev : finite g -> value T g' = (- value T g)%R).
    { rewrite value_neg in B2. intros [C|C]; [apply B2; congruence|]. rewrite !value_zero by congruence. ring. }
    assert (lost = false <-> lost' = false) as Q0.
    { rewrite L, L', Ef, value_neg. split; intros [F V]; (split; [exact F|]); rewrite (Ev F) in *; lra. }
    destruct lost, lost'; try reflexivity; exfalso; [pose proof (proj2 Q0 eq_refl)|pose proof (proj1 Q0 eq_refl)]; discriminate.
Qed.

Lemma scalbn_symmetric : forall S x n m, sem_ok S -> usual S m -> wf S x -> category x = Normal ->
  exists f f', scalbn_r S x n m = Ret f /\ scalbn_r S (neg x) n (mirrored m) = Ret f' /\ bitwise_eq f' (neg f) = true.
Proof.
  intros S x n m HS U Wx Cx.
  destruct (scalbn_r_crate S x n m HS Wx Cx) as [st [f [E D]]].
  destruct (scalbn_r_crate S (neg x) n (mirrored m) HS (wf_neg S x Wx) ltac:(rewrite category_neg; exact Cx)) as [st' [f' [E' D']]].
  rewrite value_neg, sign_neg, Ropp_mult_distr_l_reverse in D'.
  destruct (symmetric S m _ (sign x) (Ret (st, f)) (Ret (st', f')) HS U (ex_intro _ _ (conj eq_refl D)) (ex_intro _ _ (conj eq_refl D')))
    as [s [g [g' [Q [Q' B]]]]].
  exists f, f'. split; [exact E|]. split; [exact E'|]. assert (f = g) as -> by congruence. assert (f' = g') as -> by congruence. exact B.
Qed.

Lemma from_i128_symmetric : forall S n m, sem_ok S -> n <> 0 -> - 2 ^ 127 < n < 2 ^ 127 ->
  negated (from_i128_r S n m) (from_i128_r S (- n) (mirrored m)).
Proof.
  intros S n m HS N Hn.
  destruct (from_i128_r_spec S n m HS ltac:(lia)) as [[st f] [E D]].
  destruct (from_i128_r_spec S (- n) (mirrored m) HS ltac:(lia)) as [[st' f'] [E' D']].
  rewrite opp_IZR in D'. apply (zero_sign_irrelevant _ _ _ _ _ (negb false)) in D'.
  2: { left. apply Ropp_neq_0_compat. apply IZR_neq. exact N. }
  eapply delivers_mirrored with (pol' := to_infinity (mirrored m)) in D; [|intro g; apply to_infinity_mirrored].
  destruct (delivers_unique _ _ _ _ _ _ _ _ _ HS D' D) as [-> B].
  exists st, f, f'. split; [exact E|]. split; [exact E'|exact B].
Qed.

Lemma finite_negated : forall S f f', sem_ok S -> wf S f -> wf S f' -> finite f -> finite f' -> value S f' = (- value S f)%R -> sign f' = negb (sign f) ->
  bitwise_eq f' (neg f) = true.
Proof.
  intros S f f' HS W W' F F' V G. apply (same_finite S f' (neg f) HS W' (wf_neg S f W) F' (finite_neg f F)).
  - rewrite value_neg. exact V.
  - rewrite sign_neg. exact G.
Qed.

Lemma rnd_of_mirrored : forall m x, rnd_of (mirrored m) (- x) = - rnd_of m x.
Proof.
  intros m x. apply eq_IZR. rewrite opp_IZR, <- !round_FIX_IZR. destruct m; cbn [mirrored rnd_of].
  - apply round_NE_opp.
  - apply round_DN_opp.
  - apply round_UP_opp.
  - apply round_ZR_opp.
  - apply round_NA_opp.
Qed.

Lemma round_to_integral_symmetric : forall S x m, sem_ok S -> wf S x -> finite x ->
  negated (round_to_integral S x m) (round_to_integral S (neg x) (mirrored m)).
Proof.
  intros S x m HS Wx Fx.
  destruct (round_to_integral_finite S x m HS Wx Fx) as [st [f [E [W [F [V [G [O I]]]]]]]].
  destruct (round_to_integral_finite S (neg x) (mirrored m) HS (wf_neg S x Wx) (finite_neg x Fx)) as [st' [f' [E' [W' [F' [V' [G' [O' I']]]]]]]].
  rewrite value_neg in *. rewrite rnd_of_mirrored, opp_IZR in V'. rewrite sign_neg in G'.
  assert (value S f' = (- value S f)%R) as N by (rewrite V, V'; reflexivity).
  exists st, f, f'. split; [exact E|]. split.
  - rewrite E'. f_equal. f_equal. destruct (Req_dec (value S f) (value S x)) as [H|H].
    + rewrite (O H). apply O'. lra.
    + rewrite (I H). apply I'. lra.
  - apply (finite_negated S); try assumption. congruence.
Qed.

Lemma c_fmod_symmetric : forall S x y, sem_ok S -> wf S x -> wf S y -> finite x -> category y = Normal ->
  negated (c_fmod S x y) (c_fmod S (neg x) y) /\
  exists st f f', c_fmod S x y = Ret (st, f) /\ c_fmod S x (neg y) = Ret (st, f') /\ bitwise_eq f' f = true.
Proof.
  intros S x y HS Wx Wy Fx Cy.
  assert (Ny : value S y <> 0%R) by (apply normal_nonzero; assumption).
  destruct (c_fmod_finite S x y HS Wx Wy Fx Cy) as [f [E [W [F [V [G _]]]]]].
  destruct (c_fmod_finite S (neg x) y HS (wf_neg S x Wx) Wy (finite_neg x Fx) Cy) as [f' [E' [W' [F' [V' [G' _]]]]]].
  destruct (c_fmod_finite S x (neg y) HS Wx (wf_neg S y Wy) Fx ltac:(rewrite category_neg; exact Cy)) as [f2 [E2 [W2 [F2 [V2 [G2 _]]]]]].
  rewrite value_neg in V', V2. rewrite sign_neg in G'. split.
  - exists OK, f, f'. split; [exact E|]. split; [exact E'|]. apply (finite_negated S); try assumption.
    + rewrite V', V. replace (- value S x / value S y)%R with (- (value S x / value S y))%R by (field; exact Ny).
      rewrite Ztrunc_opp, opp_IZR. ring.
    + congruence.
  - exists OK, f, f2. split; [exact E|]. split; [exact E2|].
    apply (same_finite S f2 f HS W2 W F2 F); [|congruence].
    rewrite V2, V. replace (value S x / - value S y)%R with (- (value S x / value S y))%R by (field; exact Ny).
    rewrite Ztrunc_opp, opp_IZR. ring.
Qed.

Lemma nonzero_normal : forall S f, finite f -> value S f <> 0%R -> category f = Normal.
Proof. intros S f [C|C] N; [exact C|]. rewrite value_zero in N by exact C. destruct (N eq_refl). Qed.
Lemma opposite_signs : forall S f f', wf S f -> wf S f' -> finite f -> finite f' -> value S f' = (- value S f)%R -> value S f <> 0%R ->
  sign f' = negb (sign f).
Proof.
  intros S f f' W W' F F' V N.
  destruct (normal_sign S f W (nonzero_normal S f F N)) as [[A1 A2] [A3 A4]].
  destruct (normal_sign S f' W' (nonzero_normal S f' F' ltac:(lra))) as [[B1 B2] [B3 B4]].
  destruct (sign f).
  - apply B3. specialize (A2 eq_refl). lra.
  - apply B1. specialize (A4 eq_refl). lra.
Qed.
Lemma equal_signs : forall S f f', wf S f -> wf S f' -> finite f -> finite f' -> value S f' = value S f -> value S f <> 0%R ->
  sign f' = sign f.
Proof.
  intros S f f' W W' F F' V N.
  destruct (normal_sign S f W (nonzero_normal S f F N)) as [[A1 A2] [A3 A4]].
  destruct (normal_sign S f' W' (nonzero_normal S f' F' ltac:(lra))) as [[B1 B2] [B3 B4]].
  destruct (sign f).
  - apply B1. specialize (A2 eq_refl). lra.
  - apply B3. specialize (A4 eq_refl). lra.
Qed.

Lemma ieee_rem_symmetric : forall S x y, sem_ok S -> wf S x -> wf S y -> finite x -> category y = Normal ->
  negated (ieee_rem S x y) (ieee_rem S (neg x) y) /\
  exists st f f', ieee_rem S x y = Ret (st, f) /\ ieee_rem S x (neg y) = Ret (st, f') /\ bitwise_eq f' f = true.
Proof.
  intros S x y HS Wx Wy Fx Cy.
  assert (Ny : value S y <> 0%R) by (apply normal_nonzero; assumption).
  assert (C' : category (neg y) = Normal) by (rewrite category_neg; exact Cy).
  assert (Nny : value S (neg y) <> 0%R) by (rewrite value_neg; lra).
  destruct (ieee_rem_finite S x y HS Wx Wy Fx Cy) as [f [n [E [W [F [V [B [T G]]]]]]]].
  destruct (ieee_rem_finite S (neg x) y HS (wf_neg S x Wx) Wy (finite_neg x Fx) Cy) as [f' [n' [E' [W' [F' [V' [B' [T' G']]]]]]]].
  destruct (ieee_rem_finite S x (neg y) HS Wx (wf_neg S y Wy) Fx C') as [f2 [n2 [E2 [W2 [F2 [V2 [B2 [T2 G2]]]]]]]].
  pose proof (nearest_quotient _ _ _ _ Ny V B T) as Q.
  pose proof (nearest_quotient _ _ _ _ Ny V' B' T') as Q'.
  pose proof (nearest_quotient _ _ _ _ Nny V2 B2 T2) as Q2.
  rewrite value_neg in V', V2, Q', Q2.
  assert (En' : n' = - n).
  { rewrite <- Q', <- Q. replace (- value S x / value S y)%R with (- (value S x / value S y))%R by (field; exact Ny).
    exact (rnd_of_mirrored NearestTiesToEven _). }
  assert (En2 : n2 = - n).
  { rewrite <- Q2, <- Q. replace (value S x / - value S y)%R with (- (value S x / value S y))%R by (field; exact Ny).
    exact (rnd_of_mirrored NearestTiesToEven _). }
  assert (Vn : value S f' = (- value S f)%R) by (rewrite V', V, En', opp_IZR; ring).
  assert (Vn2 : value S f2 = value S f) by (rewrite V2, V, En2, opp_IZR; ring).
  split.
  - exists OK, f, f'. split; [exact E|]. split; [exact E'|]. apply (finite_negated S); try assumption.
    destruct (Req_dec (value S f) 0) as [Z|Z].
    + rewrite (G Z), G', sign_neg by lra. reflexivity.
    + apply (opposite_signs S); assumption.
  - exists OK, f, f2. split; [exact E|]. split; [exact E2|].
    apply (same_finite S f2 f HS W2 W F2 F Vn2).
    destruct (Req_dec (value S f) 0) as [Z|Z].
    + rewrite (G Z), G2 by lra. reflexivity.
    + apply (equal_signs S); assumption.
Qed.
