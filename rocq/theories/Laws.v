(** * Laws.v -- algebraic laws of the operations *)
From Coq Require Import ZArith Reals List Bool Lia Lra ZifyBool.
From Flocq Require Import Core Sterbenz.
From Verif Require Import Machine Sig SpecSig Limbs SigProofs SigProofs2 SigProofs3 SigProofs4 SigProofs5 Ieee Spec Norm Arith Special Order Bits Int Scale Next Convert Integral Rem Fma Algebra.
Import ListNotations.
Local Open Scope Z_scope.
Ltac Zify.zify_post_hook ::= idtac.

(** ** The sums with the sign of zero of Spec.v *)
Theorem add_r_spec : forall S x y m, sem_ok S -> wf S x -> wf S y -> finite x -> finite y ->
  exists res, add_r S x y m = Ret res /\
    crate_rounded S m (value S x + value S y) (sum_zero_sign x y (sign y) m) res.
Proof.
  intros S x y m HS Hx Hy Fx Fy. rewrite <- zero_sum_sign_eq. destruct y as [a b c d]. apply add_r_crate; assumption.
Qed.
Theorem sub_r_spec : forall S x y m, sem_ok S -> wf S x -> wf S y -> finite x -> finite y ->
  exists res, sub_r S x y m = Ret res /\
    crate_rounded S m (value S x - value S y) (sum_zero_sign x y (negb (sign y)) m) res.
Proof.
  intros S x y m HS Hx Hy Fx Fy. rewrite <- zero_sum_sign_eq.
  exact (sub_r_crate S x y m HS Hx Hy Fx Fy).
Qed.

(** ** Commutativity *)
Lemma sum_zero_sign_comm : forall x y m, sum_zero_sign x y (sign y) m = sum_zero_sign y x (sign x) m.
Proof. intros [s e c g] [s' e' c' g'] m. unfold sum_zero_sign. cbn [category sign]. destruct c, c', g, g'; reflexivity. Qed.

Lemma bitwise_eq_refl : forall x, bitwise_eq x x = true.
Proof.
  intros [s e c g]. unfold bitwise_eq, is_finite_non_zero, is_finite, is_nan, is_infinite, is_zero, is_negative. cbn [category sign sig exp].
  rewrite !Z.eqb_refl. destruct c, g; reflexivity.
Qed.

Lemma finite_dec : forall x, category x <> NaN -> finite x \/ category x = Infinity.
Proof. intros x H. unfold finite. destruct (category x); tauto. Qed.

Theorem add_r_comm : forall S x y m, sem_ok S -> wf S x -> wf S y -> category x <> NaN -> category y <> NaN ->
  exists st f f', add_r S x y m = Ret (st, f) /\ add_r S y x m = Ret (st, f') /\ bitwise_eq f f' = true.
Proof.
  intros S x y m HS Wx Wy Nx Ny.
  destruct (finite_dec x Nx) as [Fx|Cx]; [destruct (finite_dec y Ny) as [Fy|Cy]|].
  - destruct (add_r_spec S x y m HS Wx Wy Fx Fy) as [[st f] [E D]].
    destruct (add_r_spec S y x m HS Wy Wx Fy Fx) as [[st' f'] [E' D']].
    rewrite Rplus_comm, <- sum_zero_sign_comm in D'.
    destruct (delivers_unique _ _ _ _ _ _ _ _ _ HS D D') as [-> B].
    exists st', f, f'. split; [exact E|]. split; [exact E'|exact B].
  - unfold add_r. rewrite Cy. unfold is_zero. rewrite Cy.
    destruct Fx as [Cx|Cx]; rewrite Cx; cbn [category_eqb negb orb andb]; do 3 eexists;
      (split; [reflexivity|]); (split; [reflexivity|]); apply bitwise_eq_refl.
  - unfold add_r. unfold is_zero. rewrite Cx. destruct (category y) eqn:Cy; try congruence.
    + rewrite (xorb_comm (is_negative y)). destruct (xorb (is_negative x) (is_negative y)) eqn:Q.
      * unfold NAN, qnan. cbn [category category_eqb negb orb andb]. do 3 eexists;
          (split; [reflexivity|]); (split; [reflexivity|]); apply bitwise_eq_refl.
      * rewrite ?Cx, ?Cy. cbn [category category_eqb negb orb andb]. do 3 eexists;
          (split; [reflexivity|]); (split; [reflexivity|]).
        destruct x as [s e c g], y as [s' e' c' g']. unfold is_negative in Q. cbn [category sign] in *. subst.
        apply Bool.xorb_eq in Q. subst. unfold bitwise_eq, is_negative. cbn [category sign category_eqb negb orb]. rewrite eqb_reflx. reflexivity.
    + rewrite ?Cx, ?Cy. cbn [category_eqb negb orb andb]. do 3 eexists;
      (split; [reflexivity|]); (split; [reflexivity|]); apply bitwise_eq_refl.
    + rewrite ?Cx, ?Cy. cbn [category_eqb negb orb andb]. do 3 eexists;
      (split; [reflexivity|]); (split; [reflexivity|]); apply bitwise_eq_refl.
Qed.

Theorem mul_r_comm : forall S x y m, sem_ok S -> wf S x -> wf S y -> category x <> NaN -> category y <> NaN ->
  exists st f f', mul_r S x y m = Ret (st, f) /\ mul_r S y x m = Ret (st, f') /\ bitwise_eq f f' = true.
Proof.
  intros S x y m HS Wx Wy Nx Ny.
  assert (INF : category x = Infinity \/ category y = Infinity ->
    exists st f f', mul_r S x y m = Ret (st, f) /\ mul_r S y x m = Ret (st, f') /\ bitwise_eq f f' = true).
  { intro I. unfold mul_r. rewrite !negate_if_eq. cbn [category]. unfold is_negative. cbn [sign].
    rewrite (xorb_comm (sign y) (sign x)).
    destruct (category x) eqn:Cx, (category y) eqn:Cy; try congruence; try (destruct I; discriminate);
      do 3 eexists; (split; [reflexivity|]); (split; [reflexivity|]);
      rewrite ?copy_sign_eq; apply bitwise_eq_refl. }
  destruct (finite_dec x Nx) as [Fx|Cx]; [destruct (finite_dec y Ny) as [Fy|Cy]|]; [|apply INF; tauto|apply INF; tauto].
  destruct (mul_r_crate S x y m HS Wx Wy Fx Fy) as [[st f] [E D]].
  destruct (mul_r_crate S y x m HS Wy Wx Fy Fx) as [[st' f'] [E' D']].
  rewrite Rmult_comm, xorb_comm in D'.
  destruct (delivers_unique _ _ _ _ _ _ _ _ _ HS D D') as [-> B].
  exists st', f, f'. split; [exact E|]. split; [exact E'|exact B].
Qed.

Lemma bind_ext : forall {A B} (o : outcome A) (f g : A -> outcome B), (forall a, f a = g a) -> bind o f = bind o g.
Proof. intros A B [a| |] f g H; cbn [bind]; [apply H|reflexivity|reflexivity]. Qed.
Lemma widening_mul_comm : forall a b, limb a -> limb b -> widening_mul a b = widening_mul b a.
Proof.
  intros a b Ha Hb.
  destruct (widening_mul_spec a b Ha Hb) as [lo [hi [E [Hl [Hh V]]]]].
  destruct (widening_mul_spec b a Hb Ha) as [lo' [hi' [E' [Hl' [Hh' V']]]]].
  rewrite E, E'. unfold limb in *. rewrite (Z.mul_comm b a) in V'.
  assert (hi = hi') by (clear - Hl Hl' V V'; lia). subst. replace lo' with lo by lia. reflexivity.
Qed.
Lemma mul_r_comm_special : forall S x y m, is_nan x && is_nan y = false -> is_finite_non_zero x && is_finite_non_zero y = false ->
  mul_r S x y m = mul_r S y x m.
Proof.
  intros S [s e c g] [s' e' c' g'] m. unfold mul_r, binop_result_from_either_nan, result_from_nan, is_signaling, is_finite_non_zero, is_finite, is_nan, is_infinite, is_zero, is_negative, negate_if, copy_sign, neg, is_negative.
  cbn [category sign sig exp].
  destruct c, c'; cbn [category_eqb negb andb]; intros H H'; try discriminate; destruct g, g'; cbn [category sign sig exp negb category_eqb andb xorb bind assertb];
    try reflexivity;
  match goal with |- context[if ?b then _ else _] => destruct b end; reflexivity.
Qed.
(** the two factors of a fused multiply-add; two NaNs are excluded because the first wins *)
Theorem mul_add_r_comm : forall S x y z m, sem_ok S -> wf S x -> wf S y -> ~ (category x = NaN /\ category y = NaN) ->
  mul_add_r S x y z m = mul_add_r S y x z m.
Proof.
  intros S x y z m HS Wx Wy N.
  unfold mul_add_r.
  assert (N' : is_nan x && is_nan y = false).
  { unfold is_nan. destruct (category x), (category y); try reflexivity. exfalso; apply N; split; reflexivity. }
  rewrite (orb_comm (negb (is_finite_non_zero y))).
  rewrite (andb_comm (is_finite_non_zero y)).
  destruct (is_finite_non_zero x && is_finite_non_zero y) eqn:F.
  2:{ assert (negb (is_finite_non_zero x) || negb (is_finite_non_zero y) = true) as -> by (destruct (is_finite_non_zero x), (is_finite_non_zero y); try reflexivity; discriminate).
      cbn [orb]. rewrite (mul_r_comm_special S x y m N' F). reflexivity. }
  apply andb_true_iff in F. destruct F as [Fx Fy]. rewrite Fx, Fy. cbn [negb orb andb].
  assert (Cx : category x = Normal) by (revert Fx; unfold is_finite_non_zero, is_finite, is_nan, is_infinite, is_zero; destruct (category x); cbn; congruence).
  assert (Cy : category y = Normal) by (revert Fy; unfold is_finite_non_zero, is_finite, is_nan, is_infinite, is_zero; destruct (category y); cbn; congruence).
  destruct (negb (is_finite z)) eqn:Fz.
  { cbn [assertb bind]. unfold OK. cbn [Z.eqb].
    unfold add_r. rewrite Cx, Cy. unfold is_finite, is_nan, is_infinite in Fz.
    destruct (category z) eqn:Cz; try discriminate Fz.
    - unfold is_zero. rewrite Cz. reflexivity.
    - unfold binop_result_from_either_nan. rewrite Cx, Cy, Cz. reflexivity. }
  destruct x as [s e c g], y as [s' e' c' g']. cbn [category] in Cx, Cy. subst c c'.
  destruct Wx as [Lx _], Wy as [Ly _]. cbn [sig] in Lx, Ly.
  unfold with_sign, negate_if, neg, set_sig_exp, is_negative. cbn [sig exp sign category].
  destruct g, g'; cbn [sig exp sign category negb xorb]; rewrite (widening_mul_comm s' s Ly Lx), (Z.add_comm e' e);
    (destruct (limbs_for_bits (PRECISION S * 2 + 1) <=? 2); cbn [assertb]; [|reflexivity]);
    (apply bind_ext; intros [lo hi]); (apply bind_ext; intros e0); (apply bind_ext; intros e1);
    (apply bind_ext; intros [[[[w e2] sg] l] o]); (apply bind_ext; intros e3); (apply bind_ext; intros [[w' e4] l']);
    (apply bind_ext; intros s0); destruct sg; reflexivity.
Qed.

(** ** Signs *)
Lemma crate_ieee : forall S m x g, NONFINITE_BEHAVIOR S = IEEE754 -> crate_to_infinity S m x g = to_infinity m g.
Proof. intros S m x g H. unfold crate_to_infinity, wrong_side. rewrite H. apply xorb_false_l. Qed.

Theorem mul_r_neg : forall S x y m, sem_ok S -> NONFINITE_BEHAVIOR S = IEEE754 ->
  wf S x -> wf S y -> finite x -> finite y ->
  exists st f f', mul_r S x y m = Ret (st, f) /\ mul_r S (neg x) y (mirrored m) = Ret (st, f') /\ bitwise_eq f' (neg f) = true.
Proof.
  intros S x y m HS NB Wx Wy Fx Fy.
  destruct (mul_r_crate S x y m HS Wx Wy Fx Fy) as [[st f] [E D]].
  destruct (mul_r_crate S (neg x) y (mirrored m) HS (wf_neg S x Wx) Wy (finite_neg x Fx) Fy) as [[st' f'] [E' D']].
  rewrite value_neg, Ropp_mult_distr_l_reverse in D'.
  eapply delivers_mirrored with (pol' := crate_to_infinity S (mirrored m) (- (value S x * value S y))) in D.
  - replace (xorb (sign (neg x)) (sign y)) with (negb (xorb (sign x) (sign y))) in D' by (unfold neg, is_negative; cbn; destruct (sign x), (sign y); reflexivity).
    destruct (delivers_unique _ _ _ _ _ _ _ _ _ HS D' D) as [-> B].
    exists st, f, f'. split; [exact E|]. split; [exact E'|exact B].
  - intro g. rewrite !crate_ieee by exact NB. apply to_infinity_mirrored.
Qed.

Theorem div_r_neg : forall S x y m, sem_ok S -> NONFINITE_BEHAVIOR S = IEEE754 ->
  wf S x -> wf S y -> finite x -> category y = Normal ->
  exists st f f', div_r S x y m = Ret (st, f) /\ div_r S (neg x) y (mirrored m) = Ret (st, f') /\ bitwise_eq f' (neg f) = true.
Proof.
  intros S x y m HS NB Wx Wy Fx Fy.
  destruct (div_r_crate S x y m HS Wx Wy Fx Fy) as [[st f] [E D]].
  destruct (div_r_crate S (neg x) y (mirrored m) HS (wf_neg S x Wx) Wy (finite_neg x Fx) Fy) as [[st' f'] [E' D']].
  rewrite value_neg in D'. unfold Rdiv in D'. rewrite Ropp_mult_distr_l_reverse in D'.
  eapply delivers_mirrored with (pol' := crate_to_infinity S (mirrored m) (- (value S x * / value S y))) in D.
  - replace (xorb (sign (neg x)) (sign y)) with (negb (xorb (sign x) (sign y))) in D' by (unfold neg, is_negative; cbn; destruct (sign x), (sign y); reflexivity).
    destruct (delivers_unique _ _ _ _ _ _ _ _ _ HS D' D) as [-> B].
    exists st, f, f'. split; [exact E|]. split; [exact E'|exact B].
  - intro g. rewrite !crate_ieee by exact NB. apply to_infinity_mirrored.
Qed.

(** a sum changes its sign with its operands unless it is exactly zero *)
Theorem add_r_neg : forall S x y m, sem_ok S -> NONFINITE_BEHAVIOR S = IEEE754 ->
  wf S x -> wf S y -> finite x -> finite y -> (value S x + value S y <> 0)%R ->
  exists st f f', add_r S x y m = Ret (st, f) /\ add_r S (neg x) (neg y) (mirrored m) = Ret (st, f') /\ bitwise_eq f' (neg f) = true.
Proof.
  intros S x y m HS NB Wx Wy Fx Fy NZ.
  destruct (add_r_crate S x y m HS Wx Wy Fx Fy) as [[st f] [E D]].
  destruct (add_r_crate S (neg x) (neg y) (mirrored m) HS (wf_neg S x Wx) (wf_neg S y Wy) (finite_neg x Fx) (finite_neg y Fy)) as [[st' f'] [E' D']].
  rewrite !value_neg in D'. rewrite <- Ropp_plus_distr in D'.
  eapply delivers_mirrored with (pol' := crate_to_infinity S (mirrored m) (- (value S x + value S y))) in D.
  - apply cr_change_zs with (zs' := zero_sum_sign (neg x) (neg y) (mirrored m)) in D; [|lra].
    destruct (delivers_unique _ _ _ _ _ _ _ _ _ HS D' D) as [-> B].
    exists st, f, f'. split; [exact E|]. split; [exact E'|exact B].
  - intro g. rewrite !crate_ieee by exact NB. apply to_infinity_mirrored.
Qed.

(** ** Monotonicity *)
Lemma ordered_crate : forall S m x x' zs zs' o o' st f st' f', sem_ok S ->
  o = Ret (st, f) -> o' = Ret (st', f') ->
  crate_rounded S m x zs (st, f) -> crate_rounded S m x' zs' (st', f') -> (x <= x')%R -> ordered S o o'.
Proof.
  intros S m x x' zs zs' o o' st f st' f' HS E E' D D' L. exists st, f, st', f'. split; [exact E|]. split; [exact E'|].
  intros N N'. refine (delivers_monotone _ _ S m x x' zs zs' st st' f f' HS _ D D' N N' L).
  intros NB g. rewrite !crate_ieee by exact NB. reflexivity.
Qed.

Theorem add_r_monotone : forall S x x' y m, sem_ok S -> wf S x -> wf S x' -> wf S y -> finite x -> finite x' -> finite y ->
  (value S x <= value S x')%R -> ordered S (add_r S x y m) (add_r S x' y m).
Proof.
  intros S x x' y m HS Wx Wx' Wy Fx Fx' Fy L.
  destruct (add_r_crate S x y m HS Wx Wy Fx Fy) as [[st f] [E D]].
  destruct (add_r_crate S x' y m HS Wx' Wy Fx' Fy) as [[st' f'] [E' D']].
  eapply ordered_crate; [exact HS|exact E|exact E'|exact D|exact D'|lra].
Qed.
Theorem sub_r_monotone : forall S x x' y m, sem_ok S -> wf S x -> wf S x' -> wf S y -> finite x -> finite x' -> finite y ->
  (value S x <= value S x')%R ->
  ordered S (sub_r S x y m) (sub_r S x' y m) /\ ordered S (sub_r S y x' m) (sub_r S y x m).
Proof.
  intros S x x' y m HS Wx Wx' Wy Fx Fx' Fy L. split.
  - destruct (sub_r_crate S x y m HS Wx Wy Fx Fy) as [[st f] [E D]].
    destruct (sub_r_crate S x' y m HS Wx' Wy Fx' Fy) as [[st' f'] [E' D']].
    eapply ordered_crate; [exact HS|exact E|exact E'|exact D|exact D'|lra].
  - destruct (sub_r_crate S y x m HS Wy Wx Fy Fx) as [[st f] [E D]].
    destruct (sub_r_crate S y x' m HS Wy Wx' Fy Fx') as [[st' f'] [E' D']].
    eapply ordered_crate; [exact HS|exact E'|exact E|exact D'|exact D|lra].
Qed.
Theorem mul_r_monotone : forall S x x' y m, sem_ok S -> wf S x -> wf S x' -> wf S y -> finite x -> finite x' -> finite y ->
  (value S x <= value S x')%R -> (0 <= value S y)%R -> ordered S (mul_r S x y m) (mul_r S x' y m).
Proof.
  intros S x x' y m HS Wx Wx' Wy Fx Fx' Fy L P.
  destruct (mul_r_crate S x y m HS Wx Wy Fx Fy) as [[st f] [E D]].
  destruct (mul_r_crate S x' y m HS Wx' Wy Fx' Fy) as [[st' f'] [E' D']].
  eapply ordered_crate; [exact HS|exact E|exact E'|exact D|exact D'|apply Rmult_le_compat_r; assumption].
Qed.
Theorem div_r_monotone : forall S x x' y m, sem_ok S -> wf S x -> wf S x' -> wf S y -> finite x -> finite x' -> category y = Normal ->
  (value S x <= value S x')%R -> (0 < value S y)%R -> ordered S (div_r S x y m) (div_r S x' y m).
Proof.
  intros S x x' y m HS Wx Wx' Wy Fx Fx' Fy L P.
  destruct (div_r_crate S x y m HS Wx Wy Fx Fy) as [[st f] [E D]].
  destruct (div_r_crate S x' y m HS Wx' Wy Fx' Fy) as [[st' f'] [E' D']].
  eapply ordered_crate; [exact HS|exact E|exact E'|exact D|exact D'|].
  apply Rmult_le_compat_r; [|exact L]. apply Rlt_le, Rinv_0_lt_compat, P.
Qed.

(** ** Exact results *)
Lemma delivers_representable : forall pol S m x zs st f, sem_ok S -> delivers pol S m x zs (st, f) -> representable S x ->
  st = OK /\ finite f /\ value S f = x.
Proof.
  intros pol S m x zs st f HS [W [G [Fi Ov]]] [GF L].
  assert (R : rounded S m x = x) by (apply rounded_format; exact GF).
  rewrite R in Fi. destruct (Fi L) as [F [V [O _]]]. split; [apply O; reflexivity|]. split; assumption.
Qed.

(** Sterbenz: the difference of numbers within a factor of two is exact *)
Theorem sub_r_sterbenz : forall S x y m, sem_ok S -> wf S x -> wf S y -> finite x -> finite y ->
  (value S y / 2 <= value S x <= 2 * value S y)%R ->
  exists f, sub_r S x y m = Ret (OK, f) /\ finite f /\ value S f = (value S x - value S y)%R.
Proof.
  intros S x y m HS Wx Wy Fx Fy B.
  destruct (sub_r_crate S x y m HS Wx Wy Fx Fy) as [[st f] [E D]].
  destruct (delivers_representable _ _ _ _ _ _ _ HS D) as [-> [F V]].
  - pose proof (ok_prec S HS) as Hp. split.
    + apply sterbenz; try (apply value_format; assumption); try exact B.
      * apply fexp_valid. exact HS.
      * unfold fexp. apply FLT_exp_monotone.
    + pose proof (value_le_max S x HS Wx) as Hx. pose proof (value_le_max S y HS Wy) as Hy.
      apply Rabs_le_inv in Hx, Hy. apply Rabs_le. lra.
  - exists f. split; [exact E|]. split; assumption.
Qed.

(** a number minus itself; the sign of the zero *)
Theorem sub_r_self : forall S x m, sem_ok S -> wf S x -> finite x ->
  exists f, sub_r S x x m = Ret (OK, f) /\ category f = Zero /\
    sign f = (match m with TowardNegative => true | _ => false end).
Proof.
  intros S x m HS Wx Fx.
  destruct (sub_r_spec S x x m HS Wx Wx Fx Fx) as [[st f] [E D]].
  rewrite Rminus_diag_eq in D by reflexivity.
  destruct (cr_zero_category _ _ _ _ _ HS D) as [C ->]. exists f. split; [exact E|]. split; [exact C|].
  destruct D as [_ [[_ [_ G]] _]]. rewrite G by reflexivity. unfold sum_zero_sign.
  destruct (category x), (sign x); reflexivity.
Qed.

Lemma representable_value : forall S x, sem_ok S -> wf S x -> representable S (value S x).
Proof. intros S x HS W. split; [apply value_format; assumption|apply value_le_max; assumption]. Qed.

(** one is a unit of the multiplication *)
Theorem mul_r_one : forall S x one m, sem_ok S -> wf S x -> finite x -> wf S one -> finite one -> value S one = 1%R -> sign one = false ->
  exists f, mul_r S x one m = Ret (OK, f) /\ bitwise_eq f x = true.
Proof.
  intros S x one m HS Wx Fx W1 F1 V1 S1.
  destruct (mul_r_crate S x one m HS Wx W1 Fx F1) as [[st f] [E D]].
  rewrite V1, Rmult_1_r, S1, xorb_false_r in D.
  destruct (delivers_unique _ _ _ _ _ _ _ _ _ HS D (cr_exact S m x (sign x) HS Wx Fx (fun _ => eq_refl))) as [-> B].
  exists f. split; assumption.
Qed.
Theorem div_r_one : forall S x one m, sem_ok S -> wf S x -> finite x -> wf S one -> category one = Normal -> value S one = 1%R -> sign one = false ->
  exists f, div_r S x one m = Ret (OK, f) /\ bitwise_eq f x = true.
Proof.
  intros S x one m HS Wx Fx W1 F1 V1 S1.
  destruct (div_r_crate S x one m HS Wx W1 Fx F1) as [[st f] [E D]].
  rewrite V1, S1, xorb_false_r in D. unfold Rdiv in D. rewrite Rinv_1, Rmult_1_r in D.
  destruct (delivers_unique _ _ _ _ _ _ _ _ _ HS D (cr_exact S m x (sign x) HS Wx Fx (fun _ => eq_refl))) as [-> B].
  exists f. split; assumption.
Qed.
(** a number divided by itself *)
Theorem div_r_self : forall S x m, sem_ok S -> wf S x -> category x = Normal ->
  exists f, div_r S x x m = Ret (OK, f) /\ finite f /\ value S f = 1%R.
Proof.
  intros S x m HS Wx Cx.
  destruct (div_r_crate S x x m HS Wx Wx (or_introl Cx) Cx) as [[st f] [E D]].
  unfold Rdiv in D. rewrite Rinv_r in D by (apply normal_nonzero; assumption).
  destruct (delivers_representable _ _ _ _ _ _ _ HS D) as [-> [F V]].
  - pose proof (ok_prec S HS) as Hp. pose proof (ok_min S HS) as Hm. pose proof (ok_max S HS) as HM. split.
    + change 1%R with (bpow r2 0). apply generic_format_bpow. unfold fexp, FLT_exp. lia.
    + rewrite Rabs_R1. change 1%R with (bpow r2 0). eapply Rle_trans; [|apply finite_le_max with (s := 2 ^ (PRECISION S - 1)) (e := 0); [exact HS|]].
      * rewrite IZR_pow2_bpow by lia. apply bpow_le. lia.
      * pose proof (p_pow S HS) as [P1 [P2 P3]]. unfold canonical_normal. repeat split; try lia.
  - exists f. split; [exact E|]. split; assumption.
Qed.
(** adding a zero *)
Theorem add_r_zero : forall S x z m, sem_ok S -> wf S x -> category x = Normal -> wf S z -> category z = Zero ->
  exists f, add_r S x z m = Ret (OK, f) /\ bitwise_eq f x = true.
Proof.
  intros S x z m HS Wx Cx Wz Cz.
  destruct (add_r_crate S x z m HS Wx Wz (or_introl Cx) (or_intror Cz)) as [[st f] [E D]].
  rewrite (value_zero S z Cz), Rplus_0_r in D.
  assert (NZ : category x = Zero -> sign x = zero_sum_sign x z m) by congruence.
  destruct (delivers_unique _ _ _ _ _ _ _ _ _ HS D (cr_exact S m x _ HS Wx (or_introl Cx) NZ)) as [-> B].
  exists f. split; assumption.
Qed.

(** ** The fused multiply-add and the two-step operations *)
Theorem mul_add_r_zero : forall S x y z m, sem_ok S -> wf S x -> wf S y -> wf S z ->
  category x = Normal -> category y = Normal -> category z = Zero ->
  exists st f f', mul_add_r S x y z m = Ret (st, f) /\ mul_r S x y m = Ret (st, f') /\ bitwise_eq f f' = true.
Proof.
  intros S x y z m HS Wx Wy Wz Cx Cy Cz.
  destruct (mul_add_r_crate S x y z m HS Wx Wy Wz (or_introl Cx) (or_introl Cy) (or_intror Cz) (or_intror (or_introl Cz))) as [[st f] [E D]].
  destruct (mul_r_crate S x y m HS Wx Wy (or_introl Cx) (or_introl Cy)) as [[st' f'] [E' D']].
  rewrite (value_zero S z Cz), Rplus_0_r in D.
  apply cr_change_zs with (zs' := xorb (sign x) (sign y)) in D.
  - destruct (delivers_unique _ _ _ _ _ _ _ _ _ HS D D') as [-> B].
    exists st', f, f'. split; [exact E|]. split; assumption.
  - apply Rmult_integral_contrapositive_currified; apply normal_nonzero; assumption.
Qed.

(** ** The formats with infinities *)
Theorem add_r_ieee : forall S x y m, sem_ok S -> NONFINITE_BEHAVIOR S = IEEE754 ->
  wf S x -> wf S y -> finite x -> finite y ->
  exists res, add_r S x y m = Ret res /\
    correctly_rounded S m (value S x + value S y) (sum_zero_sign x y (sign y) m) res.
Proof.
  intros S x y m HS NB Hx Hy Fx Fy. destruct (add_r_spec S x y m HS Hx Hy Fx Fy) as [res [E D]].
  exists res. split; [exact E|]. apply crate_rounded_ieee; assumption.
Qed.
Theorem sub_r_ieee : forall S x y m, sem_ok S -> NONFINITE_BEHAVIOR S = IEEE754 ->
  wf S x -> wf S y -> finite x -> finite y ->
  exists res, sub_r S x y m = Ret res /\
    correctly_rounded S m (value S x - value S y) (sum_zero_sign x y (negb (sign y)) m) res.
Proof.
  intros S x y m HS NB Hx Hy Fx Fy. destruct (sub_r_spec S x y m HS Hx Hy Fx Fy) as [res [E D]].
  exists res. split; [exact E|]. apply crate_rounded_ieee; assumption.
Qed.
Theorem mul_r_ieee : forall S x y m, sem_ok S -> NONFINITE_BEHAVIOR S = IEEE754 ->
  wf S x -> wf S y -> finite x -> finite y ->
  exists res, mul_r S x y m = Ret res /\
    correctly_rounded S m (value S x * value S y) (xorb (sign x) (sign y)) res.
Proof.
  intros S x y m HS NB Hx Hy Fx Fy. destruct (mul_r_crate S x y m HS Hx Hy Fx Fy) as [res [E D]].
  exists res. split; [exact E|]. apply crate_rounded_ieee; assumption.
Qed.
Theorem div_r_ieee : forall S x y m, sem_ok S -> NONFINITE_BEHAVIOR S = IEEE754 ->
  wf S x -> wf S y -> finite x -> category y = Normal ->
  exists res, div_r S x y m = Ret res /\
    correctly_rounded S m (value S x / value S y) (xorb (sign x) (sign y)) res.
Proof.
  intros S x y m HS NB Hx Hy Fx Fy. destruct (div_r_crate S x y m HS Hx Hy Fx Fy) as [res [E D]].
  exists res. split; [exact E|]. apply crate_rounded_ieee; assumption.
Qed.
Theorem mul_add_r_ieee : forall S x y z m, sem_ok S -> NONFINITE_BEHAVIOR S = IEEE754 ->
  wf S x -> wf S y -> wf S z -> finite x -> finite y -> finite z -> fma_safe S x y z ->
  exists res, mul_add_r S x y z m = Ret res /\
    correctly_rounded S m (value S x * value S y + value S z) (fma_zero_sign (xorb (sign x) (sign y)) z m) res.
Proof.
  intros S x y z m HS NB Hx Hy Hz Fx Fy Fz Sf.
  destruct (mul_add_r_crate S x y z m HS Hx Hy Hz Fx Fy Fz Sf) as [res [E D]].
  exists res. split; [exact E|]. apply crate_rounded_ieee; assumption.
Qed.
Theorem convert_r_ieee : forall S T x m, sem_ok S -> sem_ok T -> NONFINITE_BEHAVIOR T = IEEE754 -> wf S x -> finite x ->
  exists st r lost, convert_r S T x m = Ret (st, r, lost) /\
    correctly_rounded T m (value S x) (sign x) (st, r) /\
    (lost = false <-> finite r /\ value T r = value S x).
Proof.
  intros S T x m HS HT NB Hx Fx. destruct (convert_r_crate S T x m HS HT Hx Fx) as [st [r [lost [E [D L]]]]].
  exists st, r, lost. split; [exact E|]. split; [|exact L]. apply crate_rounded_ieee; assumption.
Qed.
Theorem scalbn_r_ieee : forall S x n m, sem_ok S -> NONFINITE_BEHAVIOR S = IEEE754 -> wf S x -> category x = Normal ->
  exists st f, scalbn_r S x n m = Ret f /\ correctly_rounded S m (value S x * bpow r2 n) (sign x) (st, f).
Proof.
  intros S x n m HS NB Hx Cx. destruct (scalbn_r_crate S x n m HS Hx Cx) as [st [f [E D]]].
  exists st, f. split; [exact E|]. apply crate_rounded_ieee; assumption.
Qed.

(** ** Exception flags of the operations *)
Theorem add_r_flags : forall S x y m, sem_ok S -> wf S x -> wf S y -> finite x -> finite y ->
  exists st f, add_r S x y m = Ret (st, f) /\ flags_exact S m (value S x + value S y) st f.
Proof.
  intros S x y m HS Hx Hy Fx Fy. destruct (add_r_crate S x y m HS Hx Hy Fx Fy) as [[st f] [E D]].
  exists st, f. split; [exact E|]. eapply delivers_flags; eassumption.
Qed.
Theorem sub_r_flags : forall S x y m, sem_ok S -> wf S x -> wf S y -> finite x -> finite y ->
  exists st f, sub_r S x y m = Ret (st, f) /\ flags_exact S m (value S x - value S y) st f.
Proof.
  intros S x y m HS Hx Hy Fx Fy. destruct (sub_r_crate S x y m HS Hx Hy Fx Fy) as [[st f] [E D]].
  exists st, f. split; [exact E|]. eapply delivers_flags; eassumption.
Qed.
Theorem mul_r_flags : forall S x y m, sem_ok S -> wf S x -> wf S y -> finite x -> finite y ->
  exists st f, mul_r S x y m = Ret (st, f) /\ flags_exact S m (value S x * value S y) st f.
Proof.
  intros S x y m HS Hx Hy Fx Fy. destruct (mul_r_crate S x y m HS Hx Hy Fx Fy) as [[st f] [E D]].
  exists st, f. split; [exact E|]. eapply delivers_flags; eassumption.
Qed.
Theorem div_r_flags : forall S x y m, sem_ok S -> wf S x -> wf S y -> finite x -> category y = Normal ->
  exists st f, div_r S x y m = Ret (st, f) /\ flags_exact S m (value S x / value S y) st f.
Proof.
  intros S x y m HS Hx Hy Fx Fy. destruct (div_r_crate S x y m HS Hx Hy Fx Fy) as [[st f] [E D]].
  exists st, f. split; [exact E|]. eapply delivers_flags; eassumption.
Qed.
Theorem mul_add_r_flags : forall S x y z m, sem_ok S -> wf S x -> wf S y -> wf S z ->
  finite x -> finite y -> finite z -> fma_safe S x y z ->
  exists st f, mul_add_r S x y z m = Ret (st, f) /\ flags_exact S m (value S x * value S y + value S z) st f.
Proof.
  intros S x y z m HS Hx Hy Hz Fx Fy Fz Sf. destruct (mul_add_r_crate S x y z m HS Hx Hy Hz Fx Fy Fz Sf) as [[st f] [E D]].
  exists st, f. split; [exact E|]. eapply delivers_flags; eassumption.
Qed.
Theorem from_u128_r_flags : forall S n m, sem_ok S -> 0 <= n < 2 ^ 128 ->
  exists st f, from_u128_r S n m = Ret (st, f) /\ flags_exact S m (IZR n) st f.
Proof.
  intros S n m HS H. destruct (from_u128_r_spec S n m HS H) as [[st f] [E D]].
  exists st, f. split; [exact E|]. eapply delivers_flags; eassumption.
Qed.
Theorem from_i128_r_flags : forall S n m, sem_ok S -> - 2 ^ 127 <= n < 2 ^ 127 ->
  exists st f, from_i128_r S n m = Ret (st, f) /\ flags_exact S m (IZR n) st f.
Proof.
  intros S n m HS H. destruct (from_i128_r_spec S n m HS H) as [[st f] [E D]].
  exists st, f. split; [exact E|]. eapply delivers_flags; eassumption.
Qed.
Theorem convert_r_flags : forall S T x m, sem_ok S -> sem_ok T -> wf S x -> finite x ->
  exists st r lost, convert_r S T x m = Ret (st, r, lost) /\ flags_exact T m (value S x) st r.
Proof.
  intros S T x m HS HT Hx Fx. destruct (convert_r_crate S T x m HS HT Hx Fx) as [st [r [lost [E [D L]]]]].
  exists st, r, lost. split; [exact E|]. eapply delivers_flags; eassumption.
Qed.

(** ** Signs of exactly zero sums *)
Theorem add_r_zero_sign : forall S x y m, sem_ok S -> wf S x -> wf S y -> finite x -> finite y ->
  (value S x + value S y = 0)%R ->
  exists f, add_r S x y m = Ret (OK, f) /\ category f = Zero /\
    sign f = (if category_eqb (category x) Zero && Bool.eqb (sign x) (sign y) then sign x
              else match m with TowardNegative => true | _ => false end).
Proof.
  intros S x y m HS Hx Hy Fx Fy Z0.
  destruct (add_r_spec S x y m HS Hx Hy Fx Fy) as [[st f] [E D]]. rewrite Z0 in D.
  destruct (cr_zero_category _ _ _ _ _ HS D) as [C ->]. exists f. split; [exact E|]. split; [exact C|].
  destruct D as [_ [[_ [_ G]] _]]. rewrite G by reflexivity. unfold sum_zero_sign.
  destruct Fx as [Cx|Cx]; rewrite Cx; cbn [category_eqb andb]; [reflexivity|].
  destruct Fy as [Cy|Cy]; rewrite Cy.
  - exfalso. apply (normal_nonzero S y Hy Cy). rewrite (value_zero S x Cx) in Z0. lra.
  - destruct (Bool.eqb (sign x) (sign y)); reflexivity.
Qed.
Theorem sub_r_zero_sign : forall S x y m, sem_ok S -> wf S x -> wf S y -> finite x -> finite y ->
  (value S x - value S y = 0)%R ->
  exists f, sub_r S x y m = Ret (OK, f) /\ category f = Zero /\
    sign f = (if category_eqb (category x) Zero && xorb (sign x) (sign y) then sign x
              else match m with TowardNegative => true | _ => false end).
Proof.
  intros S x y m HS Hx Hy Fx Fy Z0.
  destruct (sub_r_spec S x y m HS Hx Hy Fx Fy) as [[st f] [E D]]. rewrite Z0 in D.
  destruct (cr_zero_category _ _ _ _ _ HS D) as [C ->]. exists f. split; [exact E|]. split; [exact C|].
  destruct D as [_ [[_ [_ G]] _]]. rewrite G by reflexivity. unfold sum_zero_sign.
  destruct Fx as [Cx|Cx]; rewrite Cx; cbn [category_eqb andb]; [reflexivity|].
  destruct Fy as [Cy|Cy]; rewrite Cy.
  - exfalso. apply (normal_nonzero S y Hy Cy). rewrite (value_zero S x Cx) in Z0. lra.
  - destruct (sign x), (sign y); reflexivity.
Qed.

Theorem sub_r_add_neg : forall S x y m, sem_ok S -> wf S x -> wf S y -> category x <> NaN -> category y <> NaN ->
  exists st f f', sub_r S x y m = Ret (st, f) /\ add_r S x (neg y) m = Ret (st, f') /\ bitwise_eq f f' = true.
Proof.
  intros S x y m HS Wx Wy Nx Ny.
  assert (Ny' : category (neg y) <> NaN) by exact Ny.
  destruct (add_r_comm S x (neg y) m HS Wx (wf_neg S y Wy) Nx Ny') as [st [f [f' [E _]]]].
  exists st, f, f. split; [|split; [exact E|apply bitwise_eq_refl]].
  unfold sub_r. rewrite E. destruct (category x), (category y); congruence.
Qed.

Theorem convert_r_lost : forall S T x m, sem_ok S -> sem_ok T -> wf S x -> finite x ->
  exists st r lost, convert_r S T x m = Ret (st, r, lost) /\
    (lost = false <-> finite r /\ value T r = value S x).
Proof.
  intros S T x m HS HT Wx Fx. destruct (convert_r_crate S T x m HS HT Wx Fx) as [st [r [lost [E [_ H]]]]].
  exists st, r, lost. split; assumption.
Qed.
