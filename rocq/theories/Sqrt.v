(** * Sqrt.v -- a client that computes square roots by bisection and [mul_add] *)
From Coq Require Import ZArith Reals List Bool Lia Lra.
From Flocq Require Import Core Plus_error.
From Verif Require Import Machine Ieee Spec Norm Arith Order Fma Rem Special Int Algebra Laws Total Reach Flocq754 SpecPrograms SpecExpr Expr Samples Loops StrAtt FmtBack Eft Bisect LibFun.
Import ListNotations.
Local Open Scope Z_scope.
Ltac Zify.zify_post_hook ::= idtac.

(** is r * s < x, or r * s > x?  The fused multiply-add rounded away from the answer "equal" keeps the sign;
    src/ieee.rs:1113 [mul_add_r], src/ieee.rs:458 [partial_cmp] *)
Definition c_product_below (S : Semantics) (x r s : Float) : outcome bool :=
  let! '(_, d) := mul_add_r S r s (neg x) TowardNegative in lt_f d (ZERO S).
Definition c_product_above (S : Semantics) (x r s : Float) : outcome bool :=
  let! '(_, d) := mul_add_r S r s (neg x) TowardPositive in gt_f d (ZERO S).
(** the test of the bisection; it always returns (see [above_spec]) *)
Definition c_square_above (S : Semantics) (x r : Float) : bool :=
  match c_product_above S x r r with Ret b => b | _ => false end.
(** the square root of x, between a and b: bisection finds the neighbours around it, a product decides between them;
    src/ieee.rs:1009 [add_r], src/ieee.rs:1080 [mul_r] through [c_bisect] *)
Definition c_sqrt (S : Semantics) (half : Float) (fuel : nat) (x a b : Float) (m : Round) : outcome Float :=
  let! '(lo, hi) := c_bisect S NearestTiesToEven half (c_square_above S x) fuel a b in
  match m with
  | TowardZero | TowardNegative => Ret lo
  | TowardPositive => let! below := c_product_below S x lo lo in Ret (if below then hi else lo)
  | NearestTiesToEven | NearestTiesToAway => let! below := c_product_below S x lo hi in Ret (if below then hi else lo)
  end.

Section Sqrt.
Variable S : Semantics.
Hypothesis HS : sem_ok S.
Notation F := (generic_format r2 (fexp S)).
Local Instance valid_here : Valid_exp (fexp S) := fexp_valid S HS.
Local Instance prec_here : Prec_gt_0 (PRECISION S).
Proof. unfold Prec_gt_0. destruct (ok_prec S HS). lia. Qed.
Variable x : Float.
Hypothesis Wx : wf S x.
Hypothesis Fx : finite x.
Hypothesis Nx : (min_normal S <= value S x)%R.

Lemma up_positive : forall v, (0 < rounded S TowardPositive v)%R <-> (0 < v)%R.
Proof.
  intros v. split; intros H.
  - destruct (Rle_or_lt v 0) as [L|L]; [|exact L]. exfalso.
    assert (rounded S TowardPositive v <= 0)%R; [|lra]. rewrite <- (rounded_format S TowardPositive 0 (generic_format_0 _ _)). apply rounded_mono; assumption.
  - pose proof (round_UP_pt r2 (fexp S) v) as [_ [U _]]. unfold rounded. cbn [rnd_of]. lra.
Qed.
Lemma down_negative : forall v, (rounded S TowardNegative v < 0)%R <-> (v < 0)%R.
Proof.
  intros v. split; intros H.
  - destruct (Rle_or_lt 0 v) as [L|L]; [|exact L]. exfalso.
    assert (0 <= rounded S TowardNegative v)%R; [|lra]. rewrite <- (rounded_format S TowardNegative 0 (generic_format_0 _ _)) at 1. apply rounded_mono; assumption.
  - pose proof (round_DN_pt r2 (fexp S) v) as [_ [U _]]. unfold rounded. cbn [rnd_of]. lra.
Qed.
Lemma fused : forall r s m, wf S r -> wf S s -> finite r -> finite s -> (0 <= value S r * value S s <= max_finite S)%R ->
  exists st d, mul_add_r S r s (neg x) m = Ret (st, d) /\ wf S d /\ finite d /\ value S d = rounded S m (value S r * value S s - value S x).
Proof.
  intros r s m Wr Ws Fr Fs B. pose proof (value_le_max S x HS Wx) as Mx. assert (0 < min_normal S)%R as P by apply bpow_gt_0. rewrite Rabs_pos_eq in Mx by lra.
  assert (SF : fma_safe S r s (neg x)) by (right; right; left; rewrite value_neg, Rabs_Ropp, Rabs_pos_eq by lra; exact Nx).
  pose proof (mul_add_r_crate S r s (neg x) m HS Wr Ws (wf_neg S x Wx) Fr Fs (finite_neg x Fx) SF) as C. rewrite value_neg in C.
  apply (in_range S m _ _ _ C). apply rounded_le_max; [exact HS|]. apply Rabs_le. lra.
Qed.
Lemma above_spec : forall r s, wf S r -> wf S s -> finite r -> finite s -> (0 <= value S r * value S s <= max_finite S)%R ->
  c_product_above S x r s = Ret (Rlt_bool (value S x) (value S r * value S s)).
Proof.
  intros r s Wr Ws Fr Fs B. unfold c_product_above. destruct (fused r s TowardPositive Wr Ws Fr Fs B) as [st [d [-> [Wd [Fd Vd]]]]]. cbn [bind].
  destruct (zero_facts S HS) as [Wz [Fz Vz]]. rewrite (gt_test S HS d (ZERO S) Wd Wz Fd Fz), Vz, Vd. f_equal.
  pose proof (up_positive (value S r * value S s - value S x)) as U.
  destruct (Rlt_bool_spec 0 (rounded S TowardPositive (value S r * value S s - value S x))) as [A|A];
    destruct (Rlt_bool_spec (value S x) (value S r * value S s)) as [C|C]; try reflexivity; exfalso.
  - apply U in A. lra.
  - assert (0 < value S r * value S s - value S x)%R as C' by lra. apply U in C'. lra.
Qed.
Lemma below_spec : forall r s, wf S r -> wf S s -> finite r -> finite s -> (0 <= value S r * value S s <= max_finite S)%R ->
  c_product_below S x r s = Ret (Rlt_bool (value S r * value S s) (value S x)).
Proof.
  intros r s Wr Ws Fr Fs B. unfold c_product_below. destruct (fused r s TowardNegative Wr Ws Fr Fs B) as [st [d [-> [Wd [Fd Vd]]]]]. cbn [bind].
  destruct (zero_facts S HS) as [Wz [Fz Vz]]. rewrite (less_test S HS d (ZERO S) Wd Wz Fd Fz), Vz, Vd. f_equal.
  pose proof (down_negative (value S r * value S s - value S x)) as U.
  destruct (Rlt_bool_spec (rounded S TowardNegative (value S r * value S s - value S x)) 0) as [A|A];
    destruct (Rlt_bool_spec (value S r * value S s) (value S x)) as [C|C]; try reflexivity; exfalso.
  - apply U in A. lra.
  - assert (value S r * value S s - value S x < 0)%R as C' by lra. apply U in C'. lra.
Qed.

(** ** On the reals *)
(** neighbours around the root: their product tells on which side of the middle it lies *)
Lemma middle : forall X l h, F X -> F l -> F h -> (min_normal S <= l)%R -> h = succ r2 (fexp S) l -> (l * l <= X < h * h)%R ->
  (l * h < X -> (l + h) * / 2 < sqrt X)%R /\ (X <= l * h -> sqrt X < (l + h) * / 2)%R.
Proof.
  intros X l h FX Fl Fh Nl Eh B. assert (P : (0 < min_normal S)%R) by apply bpow_gt_0. pose proof (ok_prec S HS) as Kp.
  set (e := Raux.mag r2 l - 1). assert (ME : MIN_EXP S <= e).
  { assert (MIN_EXP S + 1 <= Raux.mag r2 l) by (apply mag_ge_bpow; replace (MIN_EXP S + 1 - 1) with (MIN_EXP S) by lia; rewrite Rabs_pos_eq by lra; exact Nl). unfold e. lia. }
  assert (CE : cexp r2 (fexp S) l = e - (PRECISION S - 1)) by (unfold cexp, fexp, FLT_exp, e in *; lia).
  set (u := bpow r2 (e - (PRECISION S - 1))) in *. assert (U0 : (0 < u)%R) by apply bpow_gt_0.
  assert (Hu : h = (l + u)%R) by (rewrite Eh, succ_eq_pos by lra; rewrite ulp_neq_0 by lra; rewrite CE; reflexivity).
  destruct (ex_shift r2 (fexp S) l (e - (PRECISION S - 1)) Fl ltac:(lia)) as [n Hn]. fold u in Hn.
  assert (Ll : (bpow r2 e <= l)%R).
  { unfold e. pose proof (bpow_mag_le r2 l ltac:(lra)) as Q. rewrite (Rabs_pos_eq l) in Q by lra. exact Q. }
  assert (LX : (bpow r2 (2 * e) <= X)%R).
  { apply Rle_trans with (l * l)%R; [|lra]. replace (2 * e) with (e + e) by lia. rewrite bpow_plus. pose proof (bpow_ge_0 r2 e). apply Rmult_le_compat; lra. }
  assert (MX : 2 * e + 1 <= Raux.mag r2 X).
  { apply mag_ge_bpow. replace (2 * e + 1 - 1) with (2 * e) by lia. pose proof (bpow_gt_0 r2 (2 * e)). rewrite Rabs_pos_eq by lra. exact LX. }
  destruct (ex_shift r2 (fexp S) X (2 * (e - (PRECISION S - 1))) FX) as [k Hk]. { unfold cexp, fexp, FLT_exp. lia. }
  replace (2 * (e - (PRECISION S - 1))) with (e - (PRECISION S - 1) + (e - (PRECISION S - 1))) in Hk by lia. rewrite bpow_plus in Hk. fold u in Hk.
  assert (UU : (0 < u * u)%R) by (apply Rmult_lt_0_compat; exact U0).
  assert (E1 : (l * h = IZR (n * (n + 1)) * (u * u))%R) by (rewrite Hu, Hn, mult_IZR, plus_IZR; ring).
  assert (E2 : ((l + h) * / 2 * ((l + h) * / 2) = (IZR (n * (n + 1)) + / 4) * (u * u))%R) by (rewrite Hu, Hn, mult_IZR, plus_IZR; field).
  assert (X0 : (0 <= X)%R) by (pose proof (bpow_gt_0 r2 (2 * e)); lra).
  assert (M0 : (0 <= (l + h) * / 2)%R) by lra.
  split; intros L; rewrite E1, Hk in L.
  - apply Rmult_lt_reg_r in L; [|exact UU]. apply lt_IZR in L. assert (Q : (IZR (n * (n + 1)) + 1 <= IZR k)%R) by (rewrite <- plus_IZR; apply IZR_le; lia).
    rewrite <- (sqrt_square ((l + h) * / 2) M0). apply sqrt_lt_1; [rewrite E2; nra|exact X0|]. rewrite E2, Hk. apply Rmult_lt_compat_r; [exact UU|lra].
  - apply Rmult_le_reg_r in L; [|exact UU]. rewrite <- (sqrt_square ((l + h) * / 2) M0). apply sqrt_lt_1; [exact X0|rewrite E2; rewrite Hk in X0; nra|].
    rewrite E2, Hk. apply Rmult_lt_compat_r; [exact UU|lra].
Qed.

Variable half : Float.
Hypothesis Wh : wf S half.
Hypothesis Fh : finite half.
Hypothesis Vh : value S half = (/ 2)%R.
Theorem sqrt_rounded : forall m fuel a b, wf S a -> wf S b -> finite a -> finite b -> (0 <= value S a)%R ->
  (value S a * value S a <= value S x < value S b * value S b)%R -> (0 < value S b)%R -> (value S b * value S b <= max_finite S)%R -> (value S b <= bpow r2 (MAX_EXP S - 1))%R ->
  3 * (MAX_EXP S - MIN_EXP S + PRECISION S - 1) < Z.of_nat fuel ->
  exists r, c_sqrt S half fuel x a b m = Ret r /\ wf S r /\ finite r /\ value S r = rounded S m (sqrt (value S x)).
Proof.
  intros m fuel a b Wa Wb Fa Fb A0 AB B0 BM BL FU. assert (P : (0 < min_normal S)%R) by apply bpow_gt_0.
  assert (AltB : (value S a < value S b)%R) by (apply Rsqr_incrst_0; unfold Rsqr; lra).
  assert (TS : forall r, wf S r -> finite r -> (0 <= value S r <= value S b)%R -> c_square_above S x r = Rlt_bool (value S x) (value S r * value S r)).
  { intros r Wr Fr Br. unfold c_square_above. rewrite above_spec; [reflexivity|assumption..|]. split; [apply Rmult_le_pos; lra|].
    apply Rle_trans with (value S b * value S b)%R; [apply Rmult_le_compat; lra|exact BM]. }
  unfold c_sqrt.
  destruct (bisect_ends S HS NearestTiesToEven (or_introl eq_refl) half Wh Fh Vh (c_square_above S x) fuel a b Wa Wb Fa Fb)
    as [lo [hi [-> [Wl [Wi [Fl [Fi [L1 [L2 [NB [T1 T2]]]]]]]]]]]; [rewrite Rabs_pos_eq by lra; lra|rewrite Rabs_pos_eq by lra; lra|exact AltB| | |exact FU|].
  { rewrite TS by (assumption || lra). apply Rlt_bool_false. lra. }
  { rewrite TS by (assumption || lra). apply Rlt_bool_true. lra. }
  cbn [bind]. rewrite (TS lo Wl Fl) in T1 by lra. rewrite (TS a Wa Fa) in T1 by lra. rewrite (TS hi Wi Fi) in T2 by lra. rewrite (TS b Wb Fb) in T2 by lra.
  rewrite (Rlt_bool_false (value S x) (value S a * value S a)) in T1 by lra. rewrite (Rlt_bool_true (value S x) (value S b * value S b)) in T2 by lra.
  destruct (Rlt_bool_spec (value S x) (value S lo * value S lo)) as [|Ql]; [discriminate|]. destruct (Rlt_bool_spec (value S x) (value S hi * value S hi)) as [Qh|]; [|discriminate].
  set (X := value S x) in *. set (l := value S lo) in *. set (h := value S hi) in *.
  assert (FX : F X) by (apply (finite_representable S); assumption). assert (Gl : F l) by (apply (finite_representable S); assumption). assert (Gh : F h) by (apply (finite_representable S); assumption).
  assert (Sl : (l <= sqrt X)%R) by (rewrite <- (sqrt_square l) by lra; apply sqrt_le_1; nra).
  assert (Sh : (sqrt X < h)%R) by (rewrite <- (sqrt_square h) by lra; apply sqrt_lt_1; nra).
  assert (SX : (sqrt X * sqrt X = X)%R) by (apply sqrt_sqrt; lra).
  assert (Eh : h = succ r2 (fexp S) l).
  { apply Rle_antisym; [|apply succ_le_lt; [exact valid_here|exact Gl|exact Gh|lra]]. apply Rnot_lt_le. intros Q.
    apply (NB (succ r2 (fexp S) l)); [apply generic_format_succ; [exact valid_here|exact Gl]|]. split; [apply (succ_more S HS)|exact Q]. }
  assert (MN1 : (min_normal S < 1)%R) by (change 1%R with (bpow r2 0); apply bpow_lt; pose proof (ok_min S HS); lia).
  assert (Nl : (min_normal S <= l)%R).
  { apply Rnot_lt_le. intros Q. apply (NB (min_normal S)); [apply generic_format_FLT_bpow; [exact prec_here|pose proof (ok_prec S HS); lia]|]. split; [exact Q|].
    apply Rsqr_incrst_0; unfold Rsqr; [|lra|lra]. fold h. nra. }
  assert (DN : round r2 (fexp S) Zfloor (sqrt X) = l) by (apply round_DN_eq; [exact valid_here|exact Gl|rewrite <- Eh; lra]).
  assert (PH : pred r2 (fexp S) h = l) by (rewrite Eh; apply pred_succ; [exact valid_here|exact Gl]).
  assert (UP : (l < sqrt X)%R -> round r2 (fexp S) Zceil (sqrt X) = h) by (intros Q; apply round_UP_eq; [exact valid_here|exact Gh|rewrite PH; lra]).
  destruct (middle X l h FX Gl Gh Nl Eh (conj Ql Qh)) as [M1 M2].
  assert (NE : forall m', StrAtt.nearest m' = true -> rounded S m' (sqrt X) = if Rlt_bool (l * h) X then h else l).
  { intros m' Hm. destruct (StrCell.rounded_nearest S m' Hm) as [choice E]. rewrite E. destruct (Rlt_bool_spec (l * h) X) as [Q|Q].
    - specialize (M1 Q). apply Rle_antisym; [apply (round_le_generic r2 (fexp S)); [apply valid_rnd_N|exact Gh|lra]|].
      apply round_N_ge_midp; [exact valid_here|exact Gh|]. rewrite PH. lra.
    - specialize (M2 Q). apply Rle_antisym; [|apply (round_ge_generic r2 (fexp S)); [apply valid_rnd_N|exact Gl|lra]].
      apply round_N_le_midp; [exact valid_here|exact Gl|]. rewrite <- Eh. lra. }
  assert (PB : forall r s, (0 <= r <= value S b)%R -> (0 <= s <= value S b)%R -> (0 <= r * s <= max_finite S)%R).
  { intros r s Br Bs. split; [apply Rmult_le_pos; lra|]. apply Rle_trans with (value S b * value S b)%R; [apply Rmult_le_compat; lra|exact BM]. }
  assert (NEAR : forall m', StrAtt.nearest m' = true -> exists r, (let! below := c_product_below S x lo hi in Ret (if below then hi else lo)) = Ret r /\ wf S r /\ finite r /\ value S r = rounded S m' (sqrt X)).
  { intros m' Hm. rewrite (below_spec lo hi Wl Wi Fl Fi) by (apply PB; fold l h; lra). cbn [bind]. fold l h X. rewrite (NE m' Hm). eexists. split; [reflexivity|].
    destruct (Rlt_bool (l * h) X); auto. }
  destruct m.
  - apply NEAR. reflexivity.
  - rewrite (below_spec lo lo Wl Wl Fl Fl) by (apply PB; fold l h; lra). cbn [bind]. fold l X. eexists. split; [reflexivity|]. unfold rounded. cbn [rnd_of].
    destruct (Rlt_bool_spec (l * l) X) as [Q|Q].
    + split; [exact Wi|]. split; [exact Fi|]. fold h. symmetry. apply UP. apply Rsqr_incrst_0; unfold Rsqr; [lra|lra|apply sqrt_pos].
    + split; [exact Wl|]. split; [exact Fl|]. fold l. assert (EX : X = (l * l)%R) by lra. rewrite EX, sqrt_square by lra. symmetry. apply round_generic; [apply valid_rnd_UP|exact Gl].
  - exists lo. split; [reflexivity|]. split; [exact Wl|]. split; [exact Fl|]. symmetry. exact DN.
  - exists lo. split; [reflexivity|]. split; [exact Wl|]. split; [exact Fl|]. unfold rounded. cbn [rnd_of]. rewrite round_ZR_DN by apply sqrt_pos. symmetry. exact DN.
  - apply NEAR. reflexivity.
Qed.
End Sqrt.

(** below the normal range the fused multiply-add cuts the product (C08): the test panics although r * r > x *)
Lemma subnormal_refuted : exists x r, wf SingleS x /\ wf SingleS r /\ finite x /\ finite r /\
  (0 < value SingleS x < min_normal SingleS)%R /\ (value SingleS x < value SingleS r * value SingleS r < 1)%R /\ c_product_above SingleS x r r = Panic.
Proof.
  exists (mkFloat 83560 (-126) Normal false), (mkFloat 13395661 (-67) Normal false).
  split; [sample_wf|]. split; [sample_wf|]. split; [left; reflexivity|]. split; [left; reflexivity|].
  change (value SingleS (mkFloat 83560 (-126) Normal false)) with (IZR 83560 * bpow r2 (-149))%R.
  change (value SingleS (mkFloat 13395661 (-67) Normal false)) with (IZR 13395661 * bpow r2 (-90))%R.
  change (min_normal SingleS) with (bpow r2 (-126)).
  replace (bpow r2 (-149)) with (bpow r2 31 * bpow r2 (-180))%R by (rewrite <- bpow_plus; reflexivity).
  replace (bpow r2 (-126)) with (bpow r2 54 * bpow r2 (-180))%R by (rewrite <- bpow_plus; reflexivity).
  replace (IZR 13395661 * bpow r2 (-90) * (IZR 13395661 * bpow r2 (-90)))%R with (IZR (13395661 * 13395661) * bpow r2 (-180))%R.
  2:{ rewrite mult_IZR. replace (bpow r2 (-180)) with (bpow r2 (-90) * bpow r2 (-90))%R by (rewrite <- bpow_plus; reflexivity). ring. }
  pose proof (bpow_gt_0 r2 (-180)) as P. replace 1%R with (bpow r2 180 * bpow r2 (-180))%R by (rewrite <- bpow_plus; reflexivity).
  rewrite <- !IZR_pow2 by lia. rewrite <- !Rmult_assoc, <- !mult_IZR.
  split; [split; [apply Rmult_lt_0_compat; [apply IZR_lt; reflexivity|exact P]|apply Rmult_lt_compat_r; [exact P|apply IZR_lt; reflexivity]]|].
  split; [split; apply Rmult_lt_compat_r; try exact P; apply IZR_lt; reflexivity|]. vm_compute. reflexivity.
Qed.
