(** * PairFlags.v -- what the status of sums and products of pairs says about
    their exactness (src/ppc.rs:188-340). *)
From Coq Require Import ZArith Reals List Bool Lia Lra Psatz.
From Flocq Require Import Core.
From Verif Require Import Machine Sig SpecSig Ieee Ppc Spec Norm Arith Special Order Fma Algebra Laws SpecFma SpecPair Int Pair PairBase PairConst PairAdd Samples PairSamples PairMulRefute.
Local Open Scope Z_scope.
Ltac Zify.zify_post_hook ::= idtac.

Section Flags.
Variable F : Semantics.
Hypothesis HF : pair_ok F.
Let FO := F_ok F HF.
Let NB := pok_ieee F HF.

Definition good (x : Float) : Prop := wf F x /\ finite x.
(** a step without flags is exact *)
Lemma step : forall m v zs st f, crate_rounded F m v zs (st, f) -> st = OK -> good f /\ value F f = v.
Proof.
  intros m v zs st f D ->. apply crate_rounded_ieee in D; [|exact NB]. destruct D as [W [_ [D1 D2]]].
  destruct (Rle_or_lt (Rabs (rounded F m v)) (max_finite F)) as [L|L].
  - destruct (D1 L) as [A [B [_ [C1 C2]]]]. split; [split; assumption|]. destruct (Req_dec (rounded F m v) v) as [E|E]; [congruence|].
    destruct (Rle_or_lt (min_normal F) (Rabs (rounded F m v))) as [K|K]; [discriminate (C1 E K)|discriminate (C2 E K)].
  - pose proof (D2 L) as K. destruct (to_infinity m (sign f)); destruct K as [K _]; discriminate K.
Qed.
Lemma add_step : forall x y m, good x -> good y ->
  exists st f, add_r F x y m = Ret (st, f) /\ (st = OK -> good f /\ value F f = (value F x + value F y)%R).
Proof.
  intros x y m [Wx Fx] [Wy Fy]. destruct (add_r_crate F x y m FO Wx Wy Fx Fy) as [[st f] [E D]]. exists st, f. split; [exact E|exact (step _ _ _ _ _ D)].
Qed.
Lemma sub_step : forall x y m, good x -> good y ->
  exists st f, sub_r F x y m = Ret (st, f) /\ (st = OK -> good f /\ value F f = (value F x - value F y)%R).
Proof.
  intros x y m [Wx Fx] [Wy Fy]. destruct (sub_r_crate F x y m FO Wx Wy Fx Fy) as [[st f] [E D]]. exists st, f. split; [exact E|exact (step _ _ _ _ _ D)].
Qed.
Lemma mul_step : forall x y m, good x -> good y ->
  exists st f, mul_r F x y m = Ret (st, f) /\ (st = OK -> good f /\ value F f = (value F x * value F y)%R).
Proof.
  intros x y m [Wx Fx] [Wy Fy]. destruct (mul_r_crate F x y m FO Wx Wy Fx Fy) as [[st f] [E D]]. exists st, f. split; [exact E|exact (step _ _ _ _ _ D)].
Qed.

Lemma bind_inv : forall (e : outcome (Z * Float)) (k : Z -> Float -> outcome (Z * DFloat)) v,
  bind e (fun '(st, f) => k st f) = Ret v -> exists st f, e = Ret (st, f) /\ k st f = Ret v.
Proof. intros [[st f]| |] k v H; [|discriminate H|discriminate H]. exists st, f. split; [reflexivity|exact H]. Qed.
Lemma bind_inv2 : forall (e : outcome (Z * Float)) (k : Z -> Float -> outcome (Z * Float)) v,
  bind e (fun '(st, f) => k st f) = Ret v -> exists st f, e = Ret (st, f) /\ k st f = Ret v.
Proof. intros [[st f]| |] k v H; [|discriminate H|discriminate H]. exists st, f. split; [reflexivity|exact H]. Qed.
Lemma ret_inv2 : forall (st st' : Z) (r r' : Float), Ret (st, r) = Ret (st', r') -> st = st' /\ r = r'.
Proof. intros. split; congruence. Qed.
Lemma add_inv : forall x y m st f, good x -> good y -> add_r F x y m = Ret (st, f) -> st = OK -> good f /\ value F f = (value F x + value F y)%R.
Proof. intros x y m st f Hx Hy E. destruct (add_step x y m Hx Hy) as [st' [f' [E' K]]]. rewrite E in E'. inversion E'; subst. exact K. Qed.
Lemma sub_inv : forall x y m st f, good x -> good y -> sub_r F x y m = Ret (st, f) -> st = OK -> good f /\ value F f = (value F x - value F y)%R.
Proof. intros x y m st f Hx Hy E. destruct (sub_step x y m Hx Hy) as [st' [f' [E' K]]]. rewrite E in E'. inversion E'; subst. exact K. Qed.
Lemma mul_inv : forall x y m st f, good x -> good y -> mul_r F x y m = Ret (st, f) -> st = OK -> good f /\ value F f = (value F x * value F y)%R.
Proof. intros x y m st f Hx Hy E. destruct (mul_step x y m Hx Hy) as [st' [f' [E' K]]]. rewrite E in E'. inversion E'; subst. exact K. Qed.
Lemma lor_ok : forall a b, Z.lor a b = OK -> a = OK /\ b = OK.
Proof. intros a b H. apply Z.lor_eq_0_iff in H. exact H. Qed.
Lemma good_neg : forall x, good x -> good (neg x).
Proof. intros x [H K]. split; [apply wf_neg, H|]. unfold finite in *. rewrite category_neg. exact K. Qed.

Ltac bi H := let st := fresh "st" in let f := fresh "f" in let E := fresh "E" in
  apply bind_inv in H; destruct H as [st [f [E H]]]; cbv zeta in H.
Ltac oks := repeat match goal with H : Z.lor _ _ = OK |- _ => apply lor_ok in H; destruct H end.
Ltac fwd :=
  match goal with
  | E : add_r F ?x ?y ?m = Ret (?st, ?f), G : good ?x, K : good ?y, O : ?st = OK |- _ =>
      let Gf := fresh "G" in let V := fresh "V" in destruct (add_inv x y m st f G K E O) as [Gf V]; clear E
  | E : sub_r F ?x ?y ?m = Ret (?st, ?f), G : good ?x, K : good ?y, O : ?st = OK |- _ =>
      let Gf := fresh "G" in let V := fresh "V" in destruct (sub_inv x y m st f G K E O) as [Gf V]; clear E
  | E : mul_r F ?x ?y ?m = Ret (?st, ?f), G : good ?x, K : good ?y, O : ?st = OK |- _ =>
      let Gf := fresh "G" in let V := fresh "V" in destruct (mul_inv x y m st f G K E O) as [Gf V]; clear E
  end.
Lemma ret_inv : forall (st st' : Z) (r r' : DFloat), Ret (st, r) = Ret (st', r') -> st = st' /\ r = r'.
Proof. intros. split; congruence. Qed.
Lemma not_finite : forall z, good z -> is_finite z = true.
Proof. intros z [_ [C|C]]; unfold is_finite, is_nan, is_infinite; rewrite C; reflexivity. Qed.

Lemma dd_add_normal_ok : forall x y m r, good (d0 x) -> good (d1 x) -> good (d0 y) -> good (d1 y) ->
  dd_add_normal F x y m = Ret (OK, r) ->
  (pair_finite r /\ pair_value F r = (pair_value F x + pair_value F y)%R) \/
  (d1 r = ZERO F /\ exists st, add_r F (d0 x) (d0 y) m = Ret (st, d0 r)).
Proof.
  intros x y m r A AA C CC H. unfold dd_add_normal in H. bi H. rename f into z.
  destruct (is_finite z) eqn:Fz; cbn [negb] in H.
  - do 7 bi H. destruct (is_zero f5 && negb (is_negative f5)) eqn:Z0.
    + right. apply ret_inv in H. destruct H as [_ <-]. cbn [d0 d1]. split; [reflexivity|]. exists st. exact E.
    + left. bi H. destruct (is_finite f6) eqn:F6; cbn [negb] in H.
      * do 2 bi H. apply ret_inv in H. destruct H as [O <-]. oks. unfold pair_value, pair_finite. cbn [d0 d1].
        fwd. fwd. fwd. fwd. fwd. pose proof (good_neg _ G3) as G3'. fwd. fwd. fwd. fwd. fwd. fwd.
        split; [split; [apply G7|apply G9]|]. rewrite value_neg in *. lra.
      * apply ret_inv in H. destruct H as [O <-]. oks. exfalso.
        fwd. fwd. fwd. fwd. fwd. pose proof (good_neg _ G3) as G3'. fwd. fwd. fwd. fwd. rewrite (not_finite _ G7) in F6. discriminate F6.
  - left. destruct (is_infinite z); cbn [negb] in H.
    + destruct (cmp_abs_normal (d0 x) (d0 y)) as [c| |]; cbn [bind] in H; [|discriminate H|discriminate H]. bi H. bi H.
      assert (exists st3 f3 st4 f4,
        (add_r F f (d0 x) m = Ret (st3, f3) /\ add_r F f3 (d0 y) m = Ret (st4, f4) \/
         add_r F f (d0 y) m = Ret (st3, f3) /\ add_r F f3 (d0 x) m = Ret (st4, f4)) /\
        st1 = Z.lor (Z.lor (Z.lor OK st0) st3) st4 /\ f0 = f4) as [st3 [f3 [st4 [f4 [D [S1 S2]]]]]].
      { destruct c; apply bind_inv2 in E1; destruct E1 as [st3 [f3 [E1 E2]]]; apply bind_inv2 in E2; destruct E2 as [st4 [f4 [E2 E3]]];
          apply ret_inv2 in E3; destruct E3 as [E3 E4]; exists st3, f3, st4, f4; split; [left; split; assumption|split; symmetry; assumption|left; split; assumption|split; symmetry; assumption|right; split; assumption|split; symmetry; assumption]. }
      subst st1 f0. clear E1.
      destruct (is_finite f4) eqn:F4; cbn [negb] in H.
      * bi H. destruct c; do 3 bi H; apply ret_inv in H; destruct H as [O <-]; oks;
          unfold pair_value, pair_finite; cbn [d0 d1]; fwd; destruct D as [[D1 D2]|[D1 D2]]; fwd; fwd; fwd; fwd; fwd; fwd;
          (split; [split; match goal with G : good ?f |- finite ?f => exact (proj2 G) end|lra]).
      * exfalso. apply ret_inv in H. destruct H as [O _]. oks. fwd. destruct D as [[D1 D2]|[D1 D2]]; fwd; fwd;
          match goal with G : good f4 |- _ => rewrite (not_finite _ G) in F4; discriminate F4 end.
    + exfalso. apply ret_inv in H. destruct H as [O _]. fwd. rewrite (not_finite _ G) in Fz. discriminate Fz.
Qed.

Lemma exact_tau : forall a c t m st tau, good a -> good c -> good t -> value F t = (value F a * value F c)%R ->
  mul_add_r F a c (neg t) m = Ret (st, tau) -> good tau /\ value F tau = 0%R.
Proof.
  intros a c t m st tau [Wa Fa] [Wc Fc] Gt V E. pose proof (good_neg t Gt) as [Wn Fn].
  assert (fma_safe F a c (neg t)) as SF.
  { unfold fma_safe. do 5 right. rewrite <- V. pose proof (ok_prec F FO).
    destruct Gt as [Wt [C|C]].
    - exists (signed (sign t) (sig t) * 2 ^ (exp t - MIN_EXP F + PRECISION F + 1)). unfold value. rewrite C.
      assert (MIN_EXP F <= exp t) as L by (destruct Wt as [_ [_ Q]]; rewrite C in Q; exact (proj1 (proj1 (proj2 Q)))).
      rewrite mult_IZR. change 2 with (radix_val r2) at 1. rewrite IZR_Zpower by lia. rewrite Rmult_assoc, <- bpow_plus. f_equal. f_equal. lia.
    - exists 0. rewrite (value_zero F t C). lra. }
  destruct (mul_add_r_ieee F a c (neg t) m FO NB Wa Wc Wn Fa Fc Fn SF) as [[st' f'] [E' D]]. rewrite E in E'. inversion E'; subst st' f'.
  rewrite value_neg, <- V in D. replace (value F t + - value F t)%R with 0%R in D by ring.
  assert (rounded F m 0 = 0%R) as R0.
  { apply rounded_0. }
  destruct D as [W [_ [D _]]]. rewrite R0, Rabs_R0 in D.
  destruct D as [D1 [D2 _]]; [|split; [split; assumption|exact D2]].
  apply Rlt_le, max_finite_pos, FO.
Qed.
(** Sums: without a flag the result is exact, or it is the rounded sum of the
    high halves alone. *)
Theorem dd_add_r_ok : forall x y m r, pair_wf F x -> pair_wf F y -> pair_finite x -> pair_finite y ->
  category (d0 x) = Normal -> category (d0 y) = Normal -> dd_add_r F x y m = Ret (OK, r) ->
  (pair_finite r /\ pair_value F r = (pair_value F x + pair_value F y)%R) \/
  (is_special F Zero false (d1 r) /\ exists st, add_r F (d0 x) (d0 y) m = Ret (st, d0 r)).
Proof.
  intros x y m r [A1 A2] [B1 B2] [C1 C2] [D1 D2] Nx Ny H. unfold dd_add_r, dd_category in H. rewrite Nx, Ny in H.
  destruct (dd_add_normal_ok x y m r (conj A1 C1) (conj A2 C2) (conj B1 D1) (conj B2 D2) H) as [K|[K1 K2]]; [left; exact K|right].
  split; [rewrite K1; exact (zero_special F HF)|exact K2].
Qed.

(** Products: without a flag the result is the exact product less that of the low halves. *)
Theorem dd_mul_r_ok : forall x y m r, pair_wf F x -> pair_wf F y -> pair_finite x -> pair_finite y ->
  category (d0 x) = Normal -> category (d0 y) = Normal -> dd_mul_r F x y m = Ret (OK, r) ->
  pair_finite r /\ pair_value F r = (pair_value F x * pair_value F y - value F (d1 x) * value F (d1 y))%R.
Proof.
  intros x y m r [A1 A2] [B1 B2] [C1 C2] [D1 D2] Nx Ny H. unfold dd_mul_r, dd_category in H. rewrite Nx, Ny in H.
  pose proof (conj A1 C1 : good (d0 x)) as Ga. pose proof (conj A2 C2 : good (d1 x)) as Gb.
  pose proof (conj B1 D1 : good (d0 y)) as Gc. pose proof (conj B2 D2 : good (d1 y)) as Gd.
  unfold dd_mul_normal in H. bi H. rename f into t. destruct (is_finite_non_zero t) eqn:Ft; cbn [negb] in H.
  - bi H. rename f into tau. rename E0 into Tau. do 5 bi H. destruct (is_finite f3) eqn:F3; cbn [negb] in H.
    + do 2 bi H. apply ret_inv in H. destruct H as [O <-]. oks. unfold pair_value, pair_finite. cbn [d0 d1].
      destruct (mul_inv _ _ _ _ _ Ga Gc E ltac:(assumption)) as [Gt Vt].
      destruct (exact_tau _ _ _ _ _ _ Ga Gc Gt Vt Tau) as [Gtau Vtau]. clear E Tau.
      repeat fwd. split; [split; match goal with G : good ?f |- finite ?f => exact (proj2 G) end|lra].
    + exfalso. apply ret_inv in H. destruct H as [O _]. oks.
      destruct (mul_inv _ _ _ _ _ Ga Gc E ltac:(assumption)) as [Gt Vt].
      destruct (exact_tau _ _ _ _ _ _ Ga Gc Gt Vt Tau) as [Gtau Vtau]. clear E Tau.
      repeat fwd. match goal with G : good f3 |- _ => rewrite (not_finite _ G) in F3; discriminate F3 end.
  - exfalso. apply ret_inv in H. destruct H as [O _]. destruct (mul_inv _ _ _ _ _ Ga Gc E O) as [[Wt [Gt|Gt]] Vt].
    + unfold is_finite_non_zero in Ft. rewrite (not_finite _ (conj Wt (or_introl Gt))) in Ft. unfold is_zero in Ft. rewrite Gt in Ft. discriminate Ft.
    + rewrite (value_zero F t Gt) in Vt. apply (normal_nonzero F (d0 x) A1) in Nx. apply (normal_nonzero F (d0 y) B1) in Ny.
      symmetry in Vt. apply Rmult_integral in Vt. tauto.
Qed.

Lemma zero_pair : forall x, canonical_pair F x -> category (d0 x) = Zero -> pair_value F x = 0%R.
Proof.
  intros x [[_ W] [[_ Fx] V]] C. unfold pair_value in *. rewrite (value_zero F (d0 x) C), Rplus_0_l in *.
  rewrite rounded_format in V by (apply value_format; assumption). symmetry. exact V.
Qed.
(** every canonical pair, zero included *)
Theorem dd_add_r_flags : forall x y m r, canonical_pair F x -> canonical_pair F y -> dd_add_r F x y m = Ret (OK, r) ->
  (pair_finite r /\ pair_value F r = (pair_value F x + pair_value F y)%R) \/
  (is_special F Zero false (d1 r) /\ exists st, add_r F (d0 x) (d0 y) m = Ret (st, d0 r)).
Proof.
  intros x y m r Hx Hy H. pose proof Hx as [Wx [Fx _]]. pose proof Hy as [Wy [Fy _]].
  pose proof Fx as [[Cx|Cx] _]; pose proof Fy as [[Cy|Cy] _].
  - exact (dd_add_r_ok x y m r Wx Wy Fx Fy Cx Cy H).
  - left. unfold dd_add_r, dd_category in H. rewrite Cx, Cy in H. apply ret_inv in H. destruct H as [_ <-].
    rewrite (zero_pair y Hy Cy), Rplus_0_r. split; [exact Fx|reflexivity].
  - left. unfold dd_add_r, dd_category in H. rewrite Cx, Cy in H. apply ret_inv in H. destruct H as [_ <-].
    rewrite (zero_pair x Hx Cx), Rplus_0_l. split; [exact Fy|reflexivity].
  - left. unfold dd_add_r, dd_category in H. rewrite Cx, Cy in H. apply ret_inv in H. destruct H as [_ <-].
    rewrite (zero_pair y Hy Cy), Rplus_0_r. split; [exact Fx|reflexivity].
Qed.
Theorem dd_sub_r_flags : forall x y m r, canonical_pair F x -> canonical_pair F y -> dd_sub_r F x y m = Ret (OK, r) ->
  (pair_finite r /\ pair_value F r = (pair_value F x - pair_value F y)%R) \/
  (is_special F Zero false (d1 r) /\ exists st, sub_r F (d0 x) (d0 y) m = Ret (st, d0 r)).
Proof.
  intros x y m r Hx Hy H. unfold dd_sub_r in H.
  destruct (dd_add_r_flags x (dd_neg y) m r Hx (dd_neg_canonical F y Hy) H) as [[A B]|[A [st B]]].
  - left. split; [exact A|]. rewrite B, (proj1 (dd_neg_value F y Hy)). ring.
  - right. split; [exact A|]. exists st. rewrite <- B.
    replace (d0 (dd_neg y)) with (neg (d0 y)) by (unfold dd_neg; destruct (is_finite_non_zero (d1 y)); reflexivity).
    destruct Hx as [_ [[[Cx|Cx] _] _]]; destruct Hy as [_ [[[Cy|Cy] _] _]]; unfold sub_r; rewrite Cx, Cy; reflexivity.
Qed.
Theorem dd_mul_r_flags : forall x y m r, canonical_pair F x -> canonical_pair F y -> dd_mul_r F x y m = Ret (OK, r) ->
  pair_finite r /\ pair_value F r = (pair_value F x * pair_value F y - value F (d1 x) * value F (d1 y))%R.
Proof.
  intros x y m r Hx Hy H. pose proof Hx as [Wx [Fx _]]. pose proof Hy as [Wy [Fy _]].
  pose proof Fx as [[Cx|Cx] _]; pose proof Fy as [[Cy|Cy] _].
  - exact (dd_mul_r_ok x y m r Wx Wy Fx Fy Cx Cy H).
  - unfold dd_mul_r, dd_category in H. rewrite Cx, Cy in H. apply ret_inv in H. destruct H as [_ <-].
    split; [exact Fy|]. pose proof (zero_pair y Hy Cy) as V. pose proof V as V'. unfold pair_value in V'. rewrite (value_zero F _ Cy) in V'.
    rewrite V. replace (value F (d1 y)) with 0%R by lra. ring.
  - unfold dd_mul_r, dd_category in H. rewrite Cx, Cy in H. apply ret_inv in H. destruct H as [_ <-].
    split; [exact Fx|]. pose proof (zero_pair x Hx Cx) as V. pose proof V as V'. unfold pair_value in V'. rewrite (value_zero F _ Cx) in V'.
    rewrite V. replace (value F (d1 x)) with 0%R by lra. ring.
  - unfold dd_mul_r, dd_category in H. rewrite Cx, Cy in H. apply ret_inv in H. destruct H as [_ <-].
    split; [exact Fx|]. pose proof (zero_pair x Hx Cx) as V. pose proof V as V'. unfold pair_value in V'. rewrite (value_zero F _ Cx) in V'.
    rewrite V. replace (value F (d1 x)) with 0%R by lra. ring.
Qed.
End Flags.

(** ** Refutations *)
(** 1 + 2^-54 and 2^54 - 1 *)
Definition p_low : DFloat := mkDF (mkFloat 4503599627370496 0 Normal false) (mkFloat 4503599627370496 (-54) Normal false).
Definition p_high : DFloat := mkDF (mkFloat 4503599627370496 54 Normal false) (mkFloat 4503599627370496 0 Normal true).
(** 2^-60 *)
Definition p_tiny : DFloat := mkDF (mkFloat 4503599627370496 (-60) Normal false) (mkFloat 0 (-1023) Zero false).
Lemma p_low_canonical : canonical_pair DoubleS p_low. Proof. sample_canonical. Qed.
Lemma p_high_canonical : canonical_pair DoubleS p_high. Proof. sample_canonical. Qed.
Lemma p_tiny_canonical : canonical_pair DoubleS p_tiny. Proof. sample_canonical. Qed.
(** 1 + 2^-30 *)
Definition p_step : DFloat := mkDF (mkFloat 4503599631564800 0 Normal false) (mkFloat 0 (-1023) Zero false).
Lemma p_step_canonical : canonical_pair DoubleS p_step. Proof. sample_canonical. Qed.

Ltac scale k := unfold pair_value; cbn [p_low p_high p_tiny p_step p_one p_above p_below d0 d1];
  rewrite ?(value_zero DoubleS (mkFloat 0 (-1023) Zero false) eq_refl), ?Rplus_0_r, ?(scaled_value _ _ _ k) by (vm_compute; discriminate).
Lemma unit_square : bpow r2 (-112) = (IZR (2 ^ 112) * (bpow r2 (-112) * bpow r2 (-112)))%R.
Proof. rewrite IZR_pow2 by lia. rewrite <- !bpow_plus. f_equal. Qed.
Lemma cross : forall a b d e u, (u <> 0)%R -> (IZR a * (IZR b * (u * u)) = IZR d * u * (IZR e * u))%R <-> a * b = d * e.
Proof.
  intros a b d e u N. split; intro E.
  - apply eq_IZR, Rmult_eq_reg_r with (u * u)%R; [|apply Rmult_integral_contrapositive_currified; exact N].
    rewrite !mult_IZR. transitivity (IZR a * (IZR b * (u * u)))%R; [ring|]. rewrite E. ring.
  - apply (f_equal IZR) in E. rewrite !mult_IZR in E. transitivity (IZR a * IZR b * (u * u))%R; [ring|]. rewrite E. ring.
Qed.
Lemma unit_pos : bpow r2 (-112) <> 0%R.
Proof. apply Rgt_not_eq, bpow_gt_0. Qed.
(** no flag, yet not exact *)
Theorem pair_add_ok_refuted : exists x y r, canonical_pair DoubleS x /\ canonical_pair DoubleS y /\
  dd_add_r DoubleS x y NearestTiesToEven = Ret (OK, r) /\ pair_value DoubleS r <> (pair_value DoubleS x + pair_value DoubleS y)%R.
Proof.
  exists p_low, p_high. eexists. split; [exact p_low_canonical|]. split; [exact p_high_canonical|]. split; [vm_compute; reflexivity|].
  scale (-106). rewrite <- !Rmult_plus_distr_r, <- !plus_IZR. intro E. apply Rmult_eq_reg_r in E; [|apply Rgt_not_eq, bpow_gt_0].
  apply eq_IZR in E. vm_compute in E. discriminate E.
Qed.
Theorem pair_mul_ok_refuted : exists x y r, canonical_pair DoubleS x /\ canonical_pair DoubleS y /\
  dd_mul_r DoubleS x y NearestTiesToEven = Ret (OK, r) /\ pair_value DoubleS r <> (pair_value DoubleS x * pair_value DoubleS y)%R.
Proof.
  exists p_above, p_below. eexists. split; [exact p_above_canonical|]. split; [exact p_below_canonical|]. split; [vm_compute; reflexivity|].
  scale (-112). rewrite <- !Rmult_plus_distr_r, <- !plus_IZR.
  rewrite unit_square at 1.
  rewrite (cross _ _ _ _ _ unit_pos). intro K. vm_compute in K. discriminate K.
Qed.
(** exact, yet with a flag *)
Theorem pair_add_inexact_refuted : exists x y r, canonical_pair DoubleS x /\ canonical_pair DoubleS y /\
  dd_add_r DoubleS x y NearestTiesToEven = Ret (INEXACT, r) /\ pair_value DoubleS r = (pair_value DoubleS x + pair_value DoubleS y)%R.
Proof.
  exists p_one, p_tiny. eexists. split; [exact p_one_canonical|]. split; [exact p_tiny_canonical|]. split; [vm_compute; reflexivity|].
  scale (-112). ring.
Qed.
Theorem pair_mul_inexact_refuted : exists x r, canonical_pair DoubleS x /\
  dd_mul_r DoubleS x x NearestTiesToEven = Ret (INEXACT, r) /\ pair_value DoubleS r = (pair_value DoubleS x * pair_value DoubleS x)%R.
Proof.
  exists p_step. eexists. split; [exact p_step_canonical|]. split; [vm_compute; reflexivity|].
  scale (-112). rewrite <- !Rmult_plus_distr_r, <- !plus_IZR.
  rewrite unit_square at 1.
  apply (cross _ _ _ _ _ unit_pos). vm_compute. reflexivity.
Qed.
