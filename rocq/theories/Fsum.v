(** * Fsum.v -- a client that rounds an exact sum once *)
From Coq Require Import ZArith Reals List Bool Lia Lra.
From Flocq Require Import Core Mult_error.
From Verif Require Import Machine Ieee Spec Norm Arith Special Int Fma Algebra Laws Total Eft SpecPrograms SpecExpr Expr Sum Orderx ExprError Samples.
From Verif Require Import Order Rem Interval Compensated Expansion.
Import ListNotations.
Local Open Scope Z_scope.
Ltac Zify.zify_post_hook ::= idtac.

(** the sum hi + lo, with hi rounded from it, and something of sign [rest] that is smaller than what lo is made of:
    only if lo is half a step can the rest change the rounding (the last lines of Python's [math.fsum]);
    src/ieee.rs:1009 [add_r], src/ieee.rs:1070 [sub_r], src/ieee.rs:458 [partial_cmp] *)
Definition c_settle (S : Semantics) (m : Round) (hi lo : Float) (rest : comparison) : outcome Float :=
  if match rest with Eq => false | Lt => sign lo | Gt => negb (sign lo) end then
    let! '(_, y) := add_r S lo lo m in
    let! '(_, x) := add_r S hi y m in
    let! '(_, yr) := sub_r S x hi m in
    let! same := eq_f y yr in
    Ret (if same then x else hi)
  else Ret hi.
(** the components from the largest down are added until an addition is not exact *)
Fixpoint c_collect (S : Semantics) (m : Round) (hi : Float) (es : list Float) : outcome Float :=
  match es with
  | [] => Ret hi
  | y :: es =>
    let! '(s, t) := two_sum S hi y m in
    if is_zero t then c_collect S m s es else c_settle S m s t (leading (rev es))
  end.
Definition c_fsum (S : Semantics) (m : Round) (xs : list Float) : outcome Float :=
  let! es := c_expand S m [] xs in c_collect S m (ZERO S) (rev es).

(** in a directed mode the rest does not matter: hi + lo lies between two numbers, and so does the whole sum *)
Fixpoint c_collect_directed (S : Semantics) (m n : Round) (hi : Float) (es : list Float) : outcome Float :=
  match es with
  | [] => Ret hi
  | y :: es =>
    let! '(s, t) := two_sum S hi y m in
    if is_zero t then c_collect_directed S m n s es else let! '(_, r) := add_r S s t n in Ret r
  end.
Definition c_fsum_directed (S : Semantics) (m n : Round) (xs : list Float) : outcome Float :=
  let! es := c_expand S m [] xs in c_collect_directed S m n (ZERO S) (rev es).
(** the same for a dot product *)
Definition c_fdot (S : Semantics) (m : Round) (xs : list (Float * Float)) : outcome Float :=
  let! ps := c_products S m xs in c_fsum S m ps.
Definition c_fdot_directed (S : Semantics) (m n : Round) (xs : list (Float * Float)) : outcome Float :=
  let! ps := c_products S m xs in c_fsum_directed S m n ps.

Fixpoint sum (vs : list R) : R := match vs with [] => 0%R | v :: vs => (v + sum vs)%R end.
Lemma sum_app : forall a b, sum (a ++ b) = (sum a + sum b)%R.
Proof. induction a as [|v a IH]; intros b; cbn [app sum]; [ring|]. rewrite IH. ring. Qed.
Lemma sum_multiple : forall k vs, (forall w, In w vs -> multiple k w) -> multiple k (sum vs).
Proof.
  intros k vs. induction vs as [|v vs IH]; intros H; cbn [sum]; [apply multiple_0|]. apply multiple_plus; [apply H; left; reflexivity|]. apply IH. intros w I. apply H. right. exact I.
Qed.
(** the sum of the lower components is smaller than a power of two of which the others are multiples *)
Lemma lower_sum : forall b l r, (forall w, In w r -> multiple b w) -> separated (l ++ r) ->
  exists k, (Rabs (sum l) < bpow r2 k)%R /\ (forall w, In w r -> multiple k w).
Proof.
  intros b l r Hb. induction l as [|v l IH]; cbn [app separated sum]; intros H.
  - exists b. rewrite Rabs_R0. split; [apply bpow_gt_0|exact Hb].
  - destruct H as [[k0 [B0 M0]] H]. destruct (IH H) as [k [B M]]. pose proof (bpow_gt_0 r2 k0) as P0.
    assert (ML : multiple k0 (sum l)) by (apply sum_multiple; intros w I; apply M0, in_or_app; left; exact I).
    destruct (Req_dec (sum l) 0) as [Z|Z].
    + exists k0. rewrite Z, Rplus_0_r. split; [lra|]. intros w I. apply M0, in_or_app. right. exact I.
    + exists k. split; [|exact M]. pose proof (multiple_large k0 _ ML Z) as L.
      assert (Lk : k0 < k) by (apply (lt_bpow r2); lra).
      assert (MK : multiple k0 (bpow r2 k - Rabs (sum l))).
      { apply multiple_minus; [apply multiple_less with k; [exists 1; ring|lia]|]. destruct ML as [n E]. rewrite E. exists (Z.abs n).
        rewrite Rabs_mult, (Rabs_pos_eq (bpow _ _)) by apply bpow_ge_0. rewrite abs_IZR. reflexivity. }
      pose proof (multiple_large k0 _ MK ltac:(lra)) as L2. rewrite Rabs_pos_eq in L2 by lra. pose proof (Rabs_triang v (sum l)). lra.
Qed.

Section Fsum.
Variable S : Semantics.
Hypothesis HS : sem_ok S.
Variable m : Round.
Hypothesis NM : nearest m.
Notation F := (generic_format r2 (fexp S)).
Local Instance valid_here : Valid_exp (fexp S) := fexp_valid S HS.
Let u := roundoff S m.
Let g := (1 + 2 * u)%R.

Section Near.
Variables (k : Z) (v : R).
Hypothesis MV : multiple k v.
Hypothesis NF : ~ F v.
Let d := round r2 (fexp S) Zfloor v.
Let c := round r2 (fexp S) Zceil v.

Lemma around : F d /\ F c /\ (d < v < c)%R /\ (forall w, F w -> (w <= d)%R \/ (c <= w)%R) /\
  multiple k d /\ multiple k c /\ multiple k ((d + c) / 2).
Proof.
  pose proof (round_DN_pt r2 (fexp S) v) as [D1 [D2 D3]]. pose proof (round_UP_pt r2 (fexp S) v) as [U1 [U2 U3]]. fold d in D1, D2, D3. fold c in U1, U2, U3.
  assert (D4 : d <> v) by (intros E; apply NF; rewrite <- E; exact D1). assert (U4 : c <> v) by (intros E; apply NF; rewrite <- E; exact U1).
  assert (LC : k < cexp r2 (fexp S) v).
  { destruct (Z_lt_le_dec k (cexp r2 (fexp S) v)) as [L|L]; [exact L|]. exfalso. apply NF. destruct MV as [n E]. rewrite E at 1.
    change (IZR n * bpow r2 k)%R with (F2R (Defs.Float r2 n k)). apply generic_format_F2R. intros _. change (F2R (Defs.Float r2 n k)) with (IZR n * bpow r2 k)%R. rewrite <- E. exact L. }
  set (e := cexp r2 (fexp S) v) in *. set (z := scaled_mantissa r2 (fexp S) v).
  assert (Ed : d = (IZR (Zfloor z) * bpow r2 e)%R) by reflexivity. assert (Ec : c = (IZR (Zceil z) * bpow r2 e)%R) by reflexivity.
  assert (Z1 : IZR (Zfloor z) <> z).
  { intros E. apply D4. rewrite Ed, E. unfold z, e. apply scaled_mantissa_mult_bpow. }
  rewrite Zceil_floor_neq in Ec by exact Z1.
  split; [exact D1|]. split; [exact U1|]. split; [split; lra|]. split; [|split; [|split]].
  - intros w Fw. destruct (Rle_or_lt w v) as [L|L]; [left; apply D3; assumption|right; apply U3; [exact Fw|lra]].
  - apply multiple_less with e; [exists (Zfloor z); exact Ed|lia].
  - apply multiple_less with e; [exists (Zfloor z + 1); exact Ec|lia].
  - apply multiple_less with (e - 1); [|lia]. exists (2 * Zfloor z + 1). rewrite Ed, Ec, !plus_IZR, mult_IZR.
    replace (bpow r2 e) with (2 * bpow r2 (e - 1))%R by (change 2%R with (bpow r2 1); rewrite <- bpow_plus; f_equal; lia). field.
Qed.
Lemma side : forall w q, multiple k w -> (Rabs q < bpow r2 k)%R -> ((w < v -> w < v + q) /\ (v < w -> v + q < w))%R.
Proof.
  intros w q MW Q. apply Rabs_lt_inv in Q. pose proof (multiple_minus k v w MV MW) as MD. split; intros L.
  - pose proof (multiple_large k _ MD ltac:(lra)) as B. rewrite Rabs_pos_eq in B by lra. lra.
  - pose proof (multiple_large k _ MD ltac:(lra)) as B. rewrite Rabs_left in B by lra. lra.
Qed.
Lemma nearby : forall q, (Rabs q < bpow r2 k)%R ->
  ((v + q < (d + c) / 2 -> rounded S m (v + q) = d) /\ ((d + c) / 2 < v + q -> rounded S m (v + q) = c))%R.
Proof.
  intros q Q. destruct around as [Fd [Fc [[L1 L2] [N [Md [Mc Mm]]]]]]. destruct (nearest_choice m NM) as [ch [C _]].
  pose proof (proj1 (side d q Md Q) L1) as B1. pose proof (proj2 (side c q Mc Q) L2) as B2.
  assert (PD : Rnd_DN_pt F (v + q) d) by (split; [exact Fd|]; split; [lra|]; intros w Fw Lw; destruct (N w Fw); lra).
  assert (PU : Rnd_UP_pt F (v + q) c) by (split; [exact Fc|]; split; [lra|]; intros w Fw Lw; destruct (N w Fw); lra).
  unfold rounded. rewrite C. split; intros H.
  - apply (round_N_eq_DN_pt r2 (fexp S) ch (v + q) d c PD PU H).
  - apply (round_N_eq_UP_pt r2 (fexp S) ch (v + q) d c PD PU H).
Qed.
Lemma step_format : F (c - d).
Proof.
  destruct around as [_ [_ [[L1 L2] _]]]. pose proof (ok_prec S HS) as K.
  set (e := cexp r2 (fexp S) v) in *. set (z := scaled_mantissa r2 (fexp S) v).
  assert (Ed : d = (IZR (Zfloor z) * bpow r2 e)%R) by reflexivity. assert (Ec : c = (IZR (Zceil z) * bpow r2 e)%R) by reflexivity.
  assert (Z1 : IZR (Zfloor z) <> z).
  { intros E. apply (Rlt_not_eq _ _ L1). rewrite Ed, E. unfold z, e. apply scaled_mantissa_mult_bpow. }
  rewrite Zceil_floor_neq in Ec by exact Z1. replace (c - d)%R with (bpow r2 e) by (rewrite Ed, Ec, plus_IZR; ring).
  apply generic_format_bpow. unfold fexp, FLT_exp, e, cexp, fexp, FLT_exp. lia.
Qed.
Lemma between : forall w, (d <= w <= c)%R -> rounded S m w = d \/ rounded S m w = c.
Proof.
  intros w [L1 L2]. destruct around as [Fd [Fc [_ [N _]]]]. destruct (nearest_choice m NM) as [ch [C _]].
  pose proof (rounded_mono S m _ _ HS L1) as M1. pose proof (rounded_mono S m _ _ HS L2) as M2. rewrite (rounded_format S m d Fd) in M1. rewrite (rounded_format S m c Fc) in M2.
  destruct (N (rounded S m w)); [unfold rounded; rewrite C; apply generic_format_round; [exact valid_here|apply valid_rnd_N]|left; lra|right; lra].
Qed.
Lemma directed : forall n q, ~ nearest n -> (Rabs q < bpow r2 k)%R -> rounded S n (v + q) = rounded S n v.
Proof.
  intros n q Hn Q. destruct around as [Fd [Fc [[L1 L2] [N [Md [Mc Mm]]]]]].
  pose proof (proj1 (side d q Md Q) L1) as B1. pose proof (proj2 (side c q Mc Q) L2) as B2.
  assert (PD : forall w, (d < w < c)%R -> round r2 (fexp S) Zfloor w = d).
  { intros w Hw. apply Rnd_DN_pt_unique with F w; [apply round_DN_pt; exact valid_here|]. split; [exact Fd|]. split; [lra|]. intros f Ff Lf. destruct (N f Ff); lra. }
  assert (PU : forall w, (d < w < c)%R -> round r2 (fexp S) Zceil w = c).
  { intros w Hw. apply Rnd_UP_pt_unique with F w; [apply round_UP_pt; exact valid_here|]. split; [exact Fc|]. split; [lra|]. intros f Ff Lf. destruct (N f Ff); lra. }
  unfold rounded. destruct n; cbn [rnd_of]; [destruct Hn; left; reflexivity|rewrite !PU by lra; reflexivity|rewrite !PD by lra; reflexivity| |destruct Hn; right; reflexivity].
  destruct (N 0%R (generic_format_0 _ _)) as [Z|Z].
  - rewrite !round_ZR_DN by lra. rewrite !PD by lra. reflexivity.
  - rewrite !round_ZR_UP by lra. rewrite !PU by lra. reflexivity.
Qed.
(** when the rest matters *)
Lemma settle : forall q, (Rabs q < bpow r2 k)%R -> let hi := rounded S m v in let lo := (v - hi)%R in let x := rounded S m (hi + 2 * lo) in
  lo <> 0%R /\ (~ (0 < lo * q)%R -> rounded S m (v + q) = hi) /\
  ((0 < lo * q)%R -> rounded S m (v + q) = (if Req_bool (2 * lo) (rounded S m (x - hi)) then x else hi)).
Proof.
  intros q Q hi lo x. destruct around as [Fd [Fc [[L1 L2] [N [Md [Mc Mm]]]]]]. pose proof step_format as SF.
  assert (Q0 : (Rabs 0 < bpow r2 k)%R) by (rewrite Rabs_R0; apply bpow_gt_0).
  pose proof (nearby 0 Q0) as [A1 A2]. rewrite Rplus_0_r in A1, A2. fold hi in A1, A2. pose proof (nearby q Q) as [B1 B2]. pose proof (side _ q Mm Q) as [S1 S2].
  assert (SG : F (d - c)) by (replace (d - c)%R with (- (c - d))%R by ring; apply generic_format_opp; exact SF).
  assert (R0 : rounded S m 0 = 0%R) by (apply rounded_format, generic_format_0).
  destruct (Rtotal_order v ((d + c) / 2)) as [H|[H|H]].
  - specialize (A1 H). specialize (B1 (S2 H)). clearbody hi. subst hi. unfold lo in *. split; [lra|]. split; [intros _; exact B1|]. intros _.
    rewrite Req_bool_false; [exact B1|]. destruct (between (d + 2 * (v - d))) as [X|X]; [lra| |]; unfold x; rewrite X.
    + replace (d - d)%R with 0%R by ring. rewrite R0. lra.
    + rewrite (rounded_format S m _ SF). lra.
  - assert (Hhi : hi = d \/ hi = c) by (apply between; lra). assert (V0 : rounded S m v = hi) by reflexivity. clearbody hi.
    destruct Hhi as [-> | ->].
    + assert (EL : (2 * lo = c - d)%R) by (unfold lo; lra). split; [lra|]. split.
      * intros P. destruct (Rtotal_order q 0) as [C|[C|C]]; [apply B1; lra|rewrite C, Rplus_0_r; exact V0|]. exfalso. apply P. apply Rmult_lt_0_compat; lra.
      * intros P. assert (0 < q)%R by (apply Rmult_lt_reg_l with lo; lra). assert (X : x = c) by (unfold x; rewrite EL; replace (d + (c - d))%R with c by ring; apply rounded_format; exact Fc).
        rewrite X. rewrite (rounded_format S m _ SF). rewrite Req_bool_true by exact EL. apply B2. lra.
    + assert (EL : (2 * lo = d - c)%R) by (unfold lo; lra). split; [lra|]. split.
      * intros P. destruct (Rtotal_order q 0) as [C|[C|C]]; [|rewrite C, Rplus_0_r; exact V0|apply B2; lra]. exfalso. apply P.
        replace (lo * q)%R with ((- lo) * (- q))%R by ring. apply Rmult_lt_0_compat; lra.
      * intros P. assert (q < 0)%R.
        { apply Ropp_lt_cancel. rewrite Ropp_0. apply Rmult_lt_reg_l with (- lo)%R; [lra|]. replace (- lo * - q)%R with (lo * q)%R by ring. lra. }
        assert (X : x = d) by (unfold x; rewrite EL; replace (c + (d - c))%R with d by ring; apply rounded_format; exact Fd).
        rewrite X. rewrite (rounded_format S m _ SG). rewrite Req_bool_true by exact EL. apply B1. lra.
  - specialize (A2 H). specialize (B2 (S1 H)). clearbody hi. subst hi. unfold lo in *. split; [lra|]. split; [intros _; exact B2|]. intros _.
    rewrite Req_bool_false; [exact B2|]. destruct (between (c + 2 * (v - c))) as [X|X]; [lra| |]; unfold x; rewrite X.
    + rewrite (rounded_format S m _ SG). lra.
    + replace (c - c)%R with 0%R by ring. rewrite R0. lra.
Qed.
End Near.

Lemma top_room : (8 * bpow r2 (MAX_EXP S - 4) <= max_finite S)%R.
Proof.
  replace (8 * bpow r2 (MAX_EXP S - 4))%R with (bpow r2 (MAX_EXP S - 1)) by (change 8%R with (bpow r2 3); rewrite <- bpow_plus; f_equal; lia).
  apply bpow_max; [exact HS|lia].
Qed.
Lemma eq_test : forall x y, wf S x -> wf S y -> finite x -> finite y -> eq_f x y = Ret (Req_bool (value S x) (value S y)).
Proof.
  intros x y Wx Wy Fx Fy. unfold eq_f. rewrite (partial_cmp_finite S x y HS Wx Wy Fx Fy). cbn [bind]. unfold Req_bool.
  destruct (Rcompare (value S x) (value S y)); reflexivity.
Qed.
Lemma near_zero : forall v, (Rabs (rounded S m v - v) <= Rabs v)%R.
Proof. intros v. pose proof (rounded_near S HS m NM v 0 (generic_format_0 _ _)) as H. rewrite Rminus_0_l, Rabs_Ropp in H. exact H. Qed.

Lemma settle_spec : forall k v q hi lo, multiple k v -> (Rabs q < bpow r2 k)%R -> (Rabs v <= bpow r2 (MAX_EXP S - 4))%R ->
  wf S hi -> finite hi -> wf S lo -> category lo = Normal -> value S hi = rounded S m v -> (value S hi + value S lo = v)%R ->
  exists r, c_settle S m hi lo (Rcompare q 0) = Ret r /\ wf S r /\ finite r /\ value S r = rounded S m (v + q).
Proof.
  intros k v q hi lo MV Q B Wh Fh Wl Cl Vh Vl. assert (Fl : finite lo) by (left; exact Cl). pose proof (normal_sign S lo Wl Cl) as SL.
  assert (NF : ~ F v) by (intros G; rewrite (rounded_format S m v G) in Vh; destruct (sign lo); lra).
  destruct (settle k v MV NF q Q) as [_ [K1 K2]]. rewrite <- Vh in K1, K2. replace (v - value S hi)%R with (value S lo) in K1, K2 by lra.
  unfold c_settle. set (b := match Rcompare q 0 with Eq => false | Lt => sign lo | Gt => negb (sign lo) end).
  assert (Hb : if b then (0 < value S lo * q)%R else ~ (0 < value S lo * q)%R).
  { unfold b. destruct (Rcompare_spec q 0) as [C|C|C], (sign lo); cbn [negb]; nra. }
  clearbody b. destruct b; [|exists hi; rewrite (K1 Hb); auto].
  specialize (K2 Hb). pose proof top_room as TR. pose proof (bpow_gt_0 r2 (MAX_EXP S - 4)) as TP. pose proof (near_zero v) as N0. set (T := bpow r2 (MAX_EXP S - 4)) in *.
  assert (PG : Prec_gt_0 (PRECISION S)) by (unfold Prec_gt_0; destruct (ok_prec S HS); lia).
  assert (Bl : (Rabs (value S lo) <= T)%R) by (replace (value S lo) with (- (rounded S m v - v))%R by lra; rewrite Rabs_Ropp; lra).
  assert (Bh : (Rabs (value S hi) <= 2 * T)%R) by (replace (value S hi) with (v + - value S lo)%R by lra; pose proof (Rabs_triang v (- value S lo)) as T3; rewrite Rabs_Ropp in T3; lra).
  apply Rabs_le_inv in Bl. apply Rabs_le_inv in Bh.
  assert (RL : representable S (value S lo + value S lo)).
  { split; [|apply Rabs_le; lra]. replace (value S lo + value S lo)%R with (value S lo * bpow r2 1)%R by (change (bpow r2 1) with 2%R; ring).
    apply mult_bpow_pos_exact_FLT; [apply value_format; assumption|lia]. }
  destruct (exactly S m _ _ _ HS RL (add_r_crate S lo lo m HS Wl Wl Fl Fl)) as [y [-> [Wy [Fy Vy]]]].
  cbn [bind]. pose proof (add_r_crate S hi y m HS Wh Wy Fh Fy) as C. replace (value S hi + value S y)%R with (value S hi + 2 * value S lo)%R in C by (rewrite Vy; ring).
  apply Eft.in_range in C; [|apply rounded_le_max; [exact HS|]; apply Rabs_le; lra]. destruct C as [st [x [-> [Wx [Fx Vx]]]]]. cbn [bind].
  assert (Bx : (Rabs (value S x) <= 6 * T)%R).
  { rewrite Vx. apply Rle_trans with (Rabs (rounded S m (value S hi + 2 * value S lo) - (value S hi + 2 * value S lo)) + Rabs (value S hi + 2 * value S lo))%R.
    - replace (rounded S m (value S hi + 2 * value S lo)) with (rounded S m (value S hi + 2 * value S lo) - (value S hi + 2 * value S lo) + (value S hi + 2 * value S lo))%R at 1 by ring. apply Rabs_triang.
    - pose proof (near_zero (value S hi + 2 * value S lo)) as N1. assert (Rabs (value S hi + 2 * value S lo) <= 3 * T)%R; [|lra].
      replace (value S hi + 2 * value S lo)%R with (v + value S lo)%R by lra. apply Rabs_le_inv in B. apply Rabs_le. lra. }
  apply Rabs_le_inv in Bx.
  pose proof (sub_r_crate S x hi m HS Wx Wh Fx Fh) as C.
  apply Eft.in_range in C; [|apply rounded_le_max; [exact HS|]; apply Rabs_le; lra]. destruct C as [st' [yr [-> [Wr [Fr Vr]]]]]. cbn [bind].
  rewrite (eq_test y yr Wy Wr Fy Fr). cbn [bind]. rewrite Vr, Vy, Vx. replace (value S lo + value S lo)%R with (2 * value S lo)%R by ring.
  destruct (Req_bool _ _) eqn:E.
  - exists x. rewrite K2, Vx. auto.
  - exists hi. rewrite K2. auto.
Qed.

Lemma total_sum : forall es, total S es = sum (map (value S) es).
Proof. induction es as [|e es IH]; cbn [total map sum]; [reflexivity|]. rewrite IH. reflexivity. Qed.
Lemma sum_rev : forall vs, sum (rev vs) = sum vs.
Proof. induction vs as [|v vs IH]; cbn [rev sum]; [reflexivity|]. rewrite sum_app, IH. cbn [sum]. ring. Qed.
Lemma separated_low : forall l r, separated (l ++ r) -> separated l.
Proof.
  induction l as [|v l IH]; intros r; cbn [app separated]; [intros _; exact I|]. intros [[k [B M]] H]. split; [|exact (IH r H)].
  exists k. split; [exact B|]. intros w J. apply M, in_or_app. left. exact J.
Qed.
Lemma value_multiple : forall x, wf S x -> finite x -> multiple (MIN_EXP S - (PRECISION S - 1)) (value S x).
Proof.
  intros x [_ [_ W]] [C|C]; unfold value; rewrite C in *; [|apply multiple_0]. destruct W as [_ [W _]].
  apply multiple_less with (exp x - (PRECISION S - 1)); [eexists; reflexivity|lia].
Qed.

Lemma collect_spec : forall es hi r, wf S hi -> finite hi -> numbers S es -> separated (map (value S) (rev es) ++ r) -> value S hi = sum r ->
  (forall w, In w r -> multiple (MIN_EXP S - (PRECISION S - 1)) w) -> (Rabs (value S hi) + total_abs S es <= bpow r2 (MAX_EXP S - 4))%R ->
  exists f, c_collect S m hi es = Ret f /\ wf S f /\ finite f /\ value S f = rounded S m (value S hi + total S es).
Proof.
  induction es as [|y es IH]; intros hi r Wh Fh Ne Se Vh Mr B; cbn [c_collect total total_abs rev] in *.
  - exists hi. rewrite Rplus_0_r, (rounded_format S m _ (value_format S hi HS Wh)). auto.
  - destruct (Ne y (or_introl eq_refl)) as [Wy Fy]. assert (Ne' : numbers S es) by (intros z I; apply Ne; right; exact I).
    pose proof (total_abs_pos S es) as TP. pose proof (Rabs_pos (value S hi)) as P1. pose proof (Rabs_pos (value S y)) as P2.
    destruct (two_sum_exact S hi y m HS NM Wh Wy Fh Fy) as [s [t [E1 [Ws [Wt [Fs [Ft [Vs Vt]]]]]]]]; [lra|]. rewrite E1. cbn [bind].
    rewrite map_app, <- app_assoc in Se. cbn [map app] in Se.
    assert (Mr' : forall w, In w (value S y :: r) -> multiple (MIN_EXP S - (PRECISION S - 1)) w) by (intros w [<-|I]; [apply value_multiple; assumption|exact (Mr w I)]).
    unfold is_zero. destruct Ft as [Ct|Ct]; rewrite Ct; cbn [category_eqb].
    + destruct (lower_sum _ _ _ Mr' Se) as [k [Bk Mk]].
      assert (Nr : numbers S (rev es)) by (intros z I; apply Ne'; apply in_rev; exact I).
      rewrite (leading_spec S (rev es) Nr) by exact (separated_low _ _ Se).
      rewrite total_sum. rewrite <- Rplus_assoc. replace (total S es) with (sum (map (value S) (rev es))) by (rewrite total_sum, map_rev, sum_rev; reflexivity).
      apply (settle_spec k); try assumption.
      * apply multiple_plus; [rewrite Vh; apply sum_multiple; intros w I; apply Mk; right; exact I|apply Mk; left; reflexivity].
      * pose proof (Rabs_triang (value S hi) (value S y)). lra.
    + assert (V0 : value S t = 0%R) by (unfold value; rewrite Ct; reflexivity). rewrite V0, Rplus_0_r in Vt.
      destruct (IH s (value S y :: r) Ws Fs Ne') as [f [E [W [Ff V]]]]; [rewrite map_rev in Se |- *; exact Se|cbn [sum]; lra|exact Mr'| |].
      * rewrite Vt. pose proof (Rabs_triang (value S hi) (value S y)). lra.
      * exists f. rewrite V, Vt. rewrite Rplus_assoc. auto.
Qed.
Lemma collect_directed : forall n es hi r, ~ nearest n -> wf S hi -> finite hi -> numbers S es -> separated (map (value S) (rev es) ++ r) -> value S hi = sum r ->
  (forall w, In w r -> multiple (MIN_EXP S - (PRECISION S - 1)) w) -> (Rabs (value S hi) + total_abs S es <= bpow r2 (MAX_EXP S - 4))%R ->
  exists f, c_collect_directed S m n hi es = Ret f /\ wf S f /\ finite f /\ value S f = rounded S n (value S hi + total S es).
Proof.
  intros n es. induction es as [|y es IH]; intros hi r Hn Wh Fh Ne Se Vh Mr B; cbn [c_collect_directed total total_abs rev] in *.
  - exists hi. rewrite Rplus_0_r, (rounded_format S n _ (value_format S hi HS Wh)). auto.
  - destruct (Ne y (or_introl eq_refl)) as [Wy Fy]. assert (Ne' : numbers S es) by (intros z I; apply Ne; right; exact I).
    pose proof (total_abs_pos S es) as TP. pose proof (Rabs_pos (value S hi)) as P1. pose proof (Rabs_pos (value S y)) as P2. pose proof (Rabs_triang (value S hi) (value S y)) as P3.
    destruct (two_sum_exact S hi y m HS NM Wh Wy Fh Fy) as [s [t [E1 [Ws [Wt [Fs [Ft [Vs Vt]]]]]]]]; [lra|]. rewrite E1. cbn [bind].
    rewrite map_app, <- app_assoc in Se. cbn [map app] in Se.
    assert (Mr' : forall w, In w (value S y :: r) -> multiple (MIN_EXP S - (PRECISION S - 1)) w) by (intros w [<-|I]; [apply value_multiple; assumption|exact (Mr w I)]).
    unfold is_zero. destruct (category_eqb (category t) Zero) eqn:Ct.
    + assert (V0 : value S t = 0%R) by (unfold value; destruct (category t); try discriminate Ct; reflexivity). rewrite V0, Rplus_0_r in Vt.
      destruct (IH s (value S y :: r) Hn Ws Fs Ne') as [f [E [W [Ff V]]]]; [exact Se|cbn [sum]; lra|exact Mr'|rewrite Vt; lra|].
      exists f. rewrite V, Vt. rewrite Rplus_assoc. auto.
    + destruct (lower_sum _ _ _ Mr' Se) as [k [Bk Mk]]. rewrite <- Rplus_assoc. replace (total S es) with (sum (map (value S) (rev es))) by (rewrite total_sum, map_rev, sum_rev; reflexivity).
      assert (Cn : category t = Normal) by (destruct Ft as [C|C]; [exact C|rewrite C in Ct; discriminate Ct]). pose proof (normal_sign S t Wt Cn) as SL.
      rewrite (directed k); [|apply multiple_plus; [rewrite Vh; apply sum_multiple; intros w I; apply Mk; right; exact I|apply Mk; left; reflexivity]| |exact Hn|exact Bk].
      * pose proof (add_r_crate S s t n HS Ws Wt Fs Ft) as C. rewrite Vt in C. apply Eft.in_range in C.
        -- destruct C as [st [f [-> [W [Ff V]]]]]. cbn [bind]. exists f. auto.
        -- apply rounded_le_max; [exact HS|]. pose proof top_room as TR. pose proof (bpow_gt_0 r2 (MAX_EXP S - 4)). lra.
      * intros G. rewrite (rounded_format S m _ G) in Vs. destruct (sign t); lra.
Qed.
Theorem fsum_rounded : forall xs, numbers S xs -> (g ^ (length xs * length xs) * total_abs S xs <= bpow r2 (MAX_EXP S - 4))%R ->
  exists r, c_fsum S m xs = Ret r /\ wf S r /\ finite r /\ value S r = rounded S m (total S xs).
Proof.
  intros xs N L. destruct (expand_spec S HS m NM xs [] N) as [es [E [Ne [_ [V [Se A]]]]]]; [intros x []|exact I|cbn [length total_abs Nat.add]; rewrite Rplus_0_l; exact L|].
  cbn [length total_abs Nat.add total] in A, V. rewrite Rplus_0_l in A, V. unfold c_fsum. rewrite E. cbn [bind].
  assert (WZ : wf S (ZERO S)) by apply (wf_zero S false HS). assert (FZ : finite (ZERO S)) by (right; reflexivity). assert (VZ : value S (ZERO S) = 0%R) by reflexivity.
  assert (TR : forall l, total_abs S (rev l) = total_abs S l).
  { assert (TA : forall a b, total_abs S (a ++ b) = (total_abs S a + total_abs S b)%R) by (induction a as [|z a IH]; intros b; cbn [app total_abs]; [ring|rewrite IH; ring]).
    induction l as [|z l IH]; cbn [rev total_abs]; [reflexivity|]. rewrite TA, IH. cbn [total_abs]. ring. }
  destruct (collect_spec (rev es) (ZERO S) [] WZ FZ) as [f [Ef [Wf [Ff Vf]]]].
  - intros z J. apply Ne. apply in_rev. exact J.
  - rewrite rev_involutive, app_nil_r. exact Se.
  - exact VZ.
  - intros w [].
  - rewrite VZ, Rabs_R0, Rplus_0_l, TR. exact (Rle_trans _ _ _ A L).
  - exists f. split; [exact Ef|]. split; [exact Wf|]. split; [exact Ff|]. rewrite Vf, VZ, Rplus_0_l. f_equal. rewrite total_sum, map_rev, sum_rev, <- total_sum. exact V.
Qed.
Theorem fsum_directed : forall n xs, ~ nearest n -> numbers S xs -> (g ^ (length xs * length xs) * total_abs S xs <= bpow r2 (MAX_EXP S - 4))%R ->
  exists r, c_fsum_directed S m n xs = Ret r /\ wf S r /\ finite r /\ value S r = rounded S n (total S xs).
Proof.
  intros n xs Hn N L. destruct (expand_spec S HS m NM xs [] N) as [es [E [Ne [_ [V [Se A]]]]]]; [intros x []|exact I|cbn [length total_abs Nat.add]; rewrite Rplus_0_l; exact L|].
  cbn [length total_abs Nat.add total] in A, V. rewrite Rplus_0_l in A, V. unfold c_fsum_directed. rewrite E. cbn [bind].
  assert (WZ : wf S (ZERO S)) by apply (wf_zero S false HS). assert (FZ : finite (ZERO S)) by (right; reflexivity). assert (VZ : value S (ZERO S) = 0%R) by reflexivity.
  assert (TR : forall l, total_abs S (rev l) = total_abs S l).
  { assert (TA : forall a b, total_abs S (a ++ b) = (total_abs S a + total_abs S b)%R) by (induction a as [|z a IH]; intros b; cbn [app total_abs]; [ring|rewrite IH; ring]).
    induction l as [|z l IH]; cbn [rev total_abs]; [reflexivity|]. rewrite TA, IH. cbn [total_abs]. ring. }
  destruct (collect_directed n (rev es) (ZERO S) [] Hn WZ FZ) as [f [Ef [Wf [Ff Vf]]]].
  - intros z J. apply Ne. apply in_rev. exact J.
  - rewrite rev_involutive, app_nil_r. exact Se.
  - exact VZ.
  - intros w [].
  - rewrite VZ, Rabs_R0, Rplus_0_l, TR. exact (Rle_trans _ _ _ A L).
  - exists f. split; [exact Ef|]. split; [exact Wf|]. split; [exact Ff|]. rewrite Vf, VZ, Rplus_0_l. f_equal. rewrite total_sum, map_rev, sum_rev, <- total_sum. exact V.
Qed.
Theorem fdot_rounded : forall xs, factors S xs -> (g ^ (4 * (length xs * length xs) + 1) * inner_abs S xs <= bpow r2 (MAX_EXP S - 4))%R ->
  exists r, c_fdot S m xs = Ret r /\ wf S r /\ finite r /\ value S r = rounded S m (inner S xs).
Proof.
  intros xs H L. assert (U : (0 < u)%R) by apply roundoff_pos.
  assert (T0 : (0 <= inner_abs S xs)%R).
  { clear. induction xs as [|[x y] xs IH]; cbn [inner_abs]; [lra|]. pose proof (Rabs_pos (value S x * value S y)). lra. }
  rewrite pow_add, pow_1 in L. assert (G : (1 <= g ^ (4 * (length xs * length xs)))%R) by (apply pow_R1_Rle; unfold g; lra). set (gn := (g ^ (4 * (length xs * length xs)))%R) in *.
  assert (T1 : (g * inner_abs S xs <= bpow r2 (MAX_EXP S - 4))%R).
  { eapply Rle_trans; [|exact L]. rewrite Rmult_assoc. assert (0 <= g * inner_abs S xs)%R by (apply Rmult_le_pos; [unfold g; lra|exact T0]).
    assert (0 <= (gn - 1) * (g * inner_abs S xs))%R by (apply Rmult_le_pos; lra). lra. }
  destruct (products_kept S HS m xs H) as [ps [E [N [LN [T A]]]]].
  { eapply Rle_trans; [|exact T1]. apply Rmult_le_compat_r; [exact T0|]. unfold g. fold u. lra. }
  unfold c_fdot. rewrite E. cbn [bind]. rewrite <- T. apply fsum_rounded; [exact N|]. rewrite LN.
  replace (2 * length xs * (2 * length xs))%nat with (4 * (length xs * length xs))%nat by lia. fold gn. eapply Rle_trans; [|exact L].
  rewrite Rmult_assoc. apply Rmult_le_compat_l; [lra|]. exact A.
Qed.
Theorem fdot_directed : forall n xs, ~ nearest n -> factors S xs -> (g ^ (4 * (length xs * length xs) + 1) * inner_abs S xs <= bpow r2 (MAX_EXP S - 4))%R ->
  exists r, c_fdot_directed S m n xs = Ret r /\ wf S r /\ finite r /\ value S r = rounded S n (inner S xs).
Proof.
  intros n xs Hn H L. assert (U : (0 < u)%R) by apply roundoff_pos.
  assert (T0 : (0 <= inner_abs S xs)%R).
  { clear. induction xs as [|[x y] xs IH]; cbn [inner_abs]; [lra|]. pose proof (Rabs_pos (value S x * value S y)). lra. }
  rewrite pow_add, pow_1 in L. assert (G : (1 <= g ^ (4 * (length xs * length xs)))%R) by (apply pow_R1_Rle; unfold g; lra). set (gn := (g ^ (4 * (length xs * length xs)))%R) in *.
  assert (T1 : (g * inner_abs S xs <= bpow r2 (MAX_EXP S - 4))%R).
  { eapply Rle_trans; [|exact L]. rewrite Rmult_assoc. assert (0 <= g * inner_abs S xs)%R by (apply Rmult_le_pos; [unfold g; lra|exact T0]).
    assert (0 <= (gn - 1) * (g * inner_abs S xs))%R by (apply Rmult_le_pos; lra). lra. }
  destruct (products_kept S HS m xs H) as [ps [E [N [LN [T A]]]]].
  { eapply Rle_trans; [|exact T1]. apply Rmult_le_compat_r; [exact T0|]. unfold g. fold u. lra. }
  unfold c_fdot_directed. rewrite E. cbn [bind]. rewrite <- T. apply fsum_directed; [exact Hn|exact N|]. rewrite LN.
  replace (2 * length xs * (2 * length xs))%nat with (4 * (length xs * length xs))%nat by lia. fold gn. eapply Rle_trans; [|exact L].
  rewrite Rmult_assoc. apply Rmult_le_compat_l; [lra|]. exact A.
Qed.
End Fsum.
