(** * FmaSymmetry.v -- [mul_add_r] of negated operands, also where digits of the product are cut *)
From Coq Require Import ZArith Reals Lia Lra Bool.
From Flocq Require Import Core.
From Verif Require Import Machine Ieee Spec SpecFma Arith Algebra Laws Through Symmetry Fma FmaExact.
Local Open Scope Z_scope.
Ltac Zify.zify_post_hook ::= idtac.

Section Neg.
Variable S : Semantics.
Hypothesis HS : sem_ok S.

Lemma product_abs_neg : forall x y, Rabs (value S (neg x) * value S y) = Rabs (value S x * value S y).
Proof. intros x y. rewrite value_neg, Ropp_mult_distr_l_reverse. apply Rabs_Ropp. Qed.
Lemma product_cut_neg : forall x y z, product_cut S (neg x) y (neg z) <-> product_cut S x y z.
Proof.
  intros x y z. unfold product_cut. rewrite product_abs_neg, value_neg, Rabs_Ropp, !sign_neg.
  assert (xorb (negb (sign x)) (sign y) <> negb (sign z) <-> xorb (sign x) (sign y) <> sign z) as ->.
  { destruct (sign x), (sign y), (sign z); cbn; split; intros H E; try discriminate E; apply H; reflexivity. }
  assert ((- value S z <> 0)%R <-> (value S z <> 0)%R) as -> by (split; intros H E; apply H; lra). reflexivity.
Qed.
Lemma fma_seen_neg : forall x y z, fma_seen S (neg x) y (neg z) = (- fma_seen S x y z)%R.
Proof.
  intros x y z. unfold fma_seen. rewrite product_abs_neg, value_neg, Rabs_Ropp, !sign_neg.
  set (w := if Rlt_bool (fma_difference _ _ _) _ then _ else _). destruct (Rlt_bool _ (Rabs (value S z))).
  - destruct (sign z); cbn [negb]; lra.
  - destruct (sign x), (sign y); cbn [negb xorb]; lra.
Qed.

(** both panic, or the second result is the negation of the first *)
Theorem mul_add_symmetric_any : forall x y z m, usual S m -> wf S x -> wf S y -> wf S z -> finite x -> finite y -> finite z ->
  (value S x * value S y + value S z <> 0)%R \/ m = TowardPositive \/ m = TowardNegative \/ xorb (sign x) (sign y) = sign z ->
  mul_add_r S x y z m = Panic /\ mul_add_r S (neg x) y (neg z) (mirrored m) = Panic /\ ~ fma_safe S x y z \/
  negated (mul_add_r S x y z m) (mul_add_r S (neg x) y (neg z) (mirrored m)).
Proof.
  intros x y z m U Wx Wy Wz Fx Fy Fz C.
  destruct (Classical_Prop.classic (product_cut S x y z)) as [P|P].
  - assert (product_cut S (neg x) y (neg z)) as P' by (apply product_cut_neg; exact P).
    destruct (mul_add_r_cut S HS x y z m Wx Wy Wz Fx Fy Fz P) as [A B].
    destruct (mul_add_r_cut S HS (neg x) y (neg z) (mirrored m) (wf_neg S x Wx) Wy (wf_neg S z Wz) (finite_neg x Fx) Fy (finite_neg z Fz) P') as [A' B'].
    rewrite product_abs_neg, (value_neg S z), Rabs_Ropp in A', B'.
    destruct (Req_dec (cut_down S (Rabs (value S x * value S y))) (Rabs (value S z))) as [Q|Q].
    + left. split; [exact (A Q)|]. split; [exact (A' Q)|]. intro K. destruct (mul_add_r_crate S x y z m HS Wx Wy Wz Fx Fy Fz K) as [res [E _]]. rewrite (A Q) in E. discriminate E.
    + right. destruct (B Q false) as [_ R]. destruct (B' Q true) as [_ R']. rewrite fma_seen_neg in R'. exact (symmetric S m _ false _ _ HS U R R').
  - assert (~ product_cut S (neg x) y (neg z)) as P' by (intro H; apply P, product_cut_neg, H).
    right. eapply symmetric with (zs := fma_zero_sign (xorb (sign x) (sign y)) z m); [exact HS|exact U| |].
    + exact (mul_add_r_uncut S HS x y z m Wx Wy Wz Fx Fy Fz P).
    + destruct (mul_add_r_uncut S HS (neg x) y (neg z) (mirrored m) (wf_neg S x Wx) Wy (wf_neg S z Wz) (finite_neg x Fx) Fy (finite_neg z Fz) P') as [res [E D]].
      rewrite !value_neg, Ropp_mult_distr_l_reverse, <- Ropp_plus_distr in D. exists res. split; [exact E|].
      eapply zero_sign_irrelevant; [|exact D]. unfold fma_zero_sign. rewrite !sign_neg.
      destruct C as [N|[->|[->|C]]].
      * left. lra.
      * right. destruct (sign x), (sign y), (sign z); reflexivity.
      * right. destruct (sign x), (sign y), (sign z); reflexivity.
      * right. destruct (sign x), (sign y), (sign z); try discriminate C; reflexivity.
Qed.
End Neg.
