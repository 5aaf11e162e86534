(** * PairDirected.v -- sums, differences and products of pairs
    (src/ppc.rs:188-340) in every rounding mode *)
From Coq Require Import ZArith Reals List Bool Lia Lra Psatz.
From Flocq Require Import Core.
From Verif Require Import Machine Sig SpecSig Ieee Ppc Spec Norm Arith Order Fma Algebra SpecPair Pair PairOps PairBase TwoSum AnySum PairAdd PairMul SpecDirected.
Local Open Scope Z_scope.
Ltac Zify.zify_post_hook ::= idtac.

Section Directed.
Variable F : Semantics.
Hypothesis HF : pair_ok F.
Hypothesis P5 : 5 <= PRECISION F.
Variable m : Round.
Local Notation p := (PRECISION F).
Local Notation emin := (MIN_EXP F - (p - 1)).
Local Notation RD := (rounded F m).
Local Notation Fm := (generic_format r2 (fexp F)).
Local Notation B k := (bpow r2 (MAX_EXP F - k)).
Local Notation u := (bpow r2 (- p)).
Let FO := F_ok F HF.
Let VR := valid_rnd_of m.

Lemma P4 : 4 <= p. Proof. lia. Qed.
Lemma RD_eq : forall x, RD x = round r2 (FLT_exp emin p) (rnd_of m) x.
Proof. reflexivity. Qed.
Lemma RD_B : forall x k, 0 <= k <= 4 -> (Rabs x <= B k)%R -> (Rabs (RD x) <= B k)%R.
Proof.
  intros x k Hk H. rewrite RD_eq. apply any_le_bpow; [exact VR|exact P5| |exact H].
  pose proof (ok_max F FO). pose proof (ok_min F FO). pose proof (pok_max F HF). pose proof (pok_min F HF). lia.
Qed.
Lemma eps_eq : (bpow r2 (1 - p) = 2 * u)%R.
Proof. replace (1 - p) with (1 + - p) by ring. rewrite bpow_plus. reflexivity. Qed.
Lemma u_32 : (0 < u <= / 32)%R. Proof. apply u_range. exact P5. Qed.
Lemma canonical_narrow : forall x, canonical_pair F x -> narrow_pair F x.
Proof.
  intros x Hx. pose proof (canonical_low F HF P4 x Hx) as L. destruct Hx as [W [Fx _]]. split; [exact W|]. split; [exact Fx|].
  rewrite eps_eq. pose proof u_32. pose proof (Rabs_pos (value F (d0 x))). apply Rle_trans with (1 := L). apply Rmult_le_compat_r; lra.
Qed.
Lemma narrow_zero : forall x, narrow_pair F x -> category (d0 x) = Zero -> pair_value F x = 0%R.
Proof.
  intros x [_ [_ L]] C. rewrite (value_zero F (d0 x) C), Rabs_R0, Rmult_0_r in L.
  unfold pair_value. rewrite (value_zero F (d0 x) C). assert (value F (d1 x) = 0)%R as ->; [|ring].
  destruct (Req_dec (value F (d1 x)) 0) as [Z|Z]; [exact Z|]. apply Rabs_pos_lt in Z. lra.
Qed.

Theorem dd_add_normal_any : forall x y, narrow_pair F x -> narrow_pair F y ->
  (Rabs (value F (d0 x)) + Rabs (value F (d0 y)) <= B 4)%R ->
  exists st r, dd_add_normal F x y m = Ret (st, r) /\ narrow_pair F r /\
    (Rabs (pair_value F r - (pair_value F x + pair_value F y)) <= 42 * (u * u) * (Rabs (value F (d0 x)) + Rabs (value F (d0 y))))%R.
Proof.
  intros x y [[Wa Waa] [[Fa Faa] La]] [[Wc Wcc] [[Fc Fcc] Lc]] R. rewrite eps_eq in La, Lc. unfold pair_value.
  set (a := value F (d0 x)) in *. set (c := value F (d0 y)) in *. set (aa := value F (d1 x)) in *. set (cc := value F (d1 y)) in *.
  assert (Fm a /\ Fm aa /\ Fm c /\ Fm cc) as [Ga [Gaa [Gc Gcc]]] by (repeat split; apply value_format; assumption).
  pose proof u_32 as [U0 U1]. pose proof (B_0 F) as B4. pose proof (B_step F 3) as B3. pose proof (B_step F 2) as B2. pose proof (B_step F 1) as B1. pose proof (B_step F 0) as B0.
  change (3 + 1) with 4 in B3. change (2 + 1) with 3 in B2. change (1 + 1) with 2 in B1. change (0 + 1) with 1 in B0.
  pose proof (B_max F HF P4 0 ltac:(lia)) as MX. pose proof (Rabs_pos a) as Pa. pose proof (Rabs_pos c) as Pc.
  assert (Rabs aa <= B 4 /\ Rabs cc <= B 4)%R as [Raa Rcc] by (split; nra).
  pose proof (Rabs_triang a c) as T.
  pose proof (any_pair_sum emin p (rnd_of m) VR P5 a aa c cc Ga Gaa Gc Gcc La Lc) as Q. cbv zeta in Q. change (round r2 (FLT_exp emin p) (rnd_of m)) with RD in Q. destruct Q as [Q1 Q2].
  pose proof (any_sum_low emin p (rnd_of m) VR P5 a aa c cc Ga Gaa Gc Gcc La Lc) as Q. cbv zeta in Q. change (round r2 (FLT_exp emin p) (rnd_of m)) with RD in Q. destruct Q as [_ [Q3 _]].
  set (z := RD (a + c)) in *. set (q := RD (a - z)) in *.
  assert (Rabs z <= B 4)%R as Rz by (apply RD_B; [lia|lra]).
  unfold dd_add_normal.
  destruct (add_step F HF m (d0 x) (d0 y) Wa Wc Fa Fc) as [st1 [fz [E1 [Wz [Fz [Vz Sz]]]]]]; [fold a c; lra|]. rewrite E1. cbn [bind]. clear E1.
  fold a c in Vz. fold z in Vz. rewrite (finite_is_finite fz Fz). cbn [negb].
  (* q = a - z *)
  assert (Rabs (a - z) <= B 3)%R as Rq0. { unfold Rminus. pose proof (Rabs_triang a (- z)) as T0. rewrite Rabs_Ropp in T0. lra. }
  assert (Rabs q <= B 3)%R as Rq by (apply RD_B; [lia|exact Rq0]).
  destruct (sub_step F HF m (d0 x) fz Wa Wz Fa Fz) as [st2 [fq [E1 [Wq [Fq [Vq Sq]]]]]]; [rewrite Vz; fold a; lra|]. rewrite E1. cbn [bind]. clear E1.
  rewrite Vz in Vq. fold a in Vq. fold q in Vq.
  (* q + c *)
  assert (Rabs (q + c) <= B 2)%R as Rq1. { pose proof (Rabs_triang q c). lra. }
  pose proof (RD_B _ 2 ltac:(lia) Rq1) as Rq1'.
  destruct (add_step F HF m fq (d0 y) Wq Wc Fq Fc) as [st3 [fzz1 [E1 [Wzz1 [Fzz1 [Vzz1 Szz1]]]]]]; [rewrite Vq; fold c; lra|]. rewrite E1. cbn [bind]. clear E1.
  rewrite Vq in Vzz1. fold c in Vzz1.
  (* q + z *)
  assert (Rabs (q + z) <= B 2)%R as Rq2. { pose proof (Rabs_triang q z). lra. }
  pose proof (RD_B _ 2 ltac:(lia) Rq2) as Rq2'.
  destruct (add_step F HF m fq fz Wq Wz Fq Fz) as [st4 [fq2 [E1 [Wq2 [Fq2 [Vq2 Sq2]]]]]]; [rewrite Vq, Vz; lra|]. rewrite E1. cbn [bind]. clear E1.
  rewrite Vq, Vz in Vq2.
  (* (q + z) - a *)
  assert (Rabs (RD (q + z) - a) <= B 1)%R as Rq3. { pose proof (Rabs_triang (RD (q + z)) (- a)) as T0. rewrite Rabs_Ropp in T0. unfold Rminus. lra. }
  pose proof (RD_B _ 1 ltac:(lia) Rq3) as Rq3'.
  destruct (sub_step F HF m fq2 (d0 x) Wq2 Wa Fq2 Fa) as [st5 [fq3 [E1 [Wq3 [Fq3 [Vq3 Sq3]]]]]]; [rewrite Vq2; fold a; lra|]. rewrite E1. cbn [bind]. clear E1.
  rewrite Vq2 in Vq3. fold a in Vq3.
  set (zz0 := RD (RD (q + c) + - RD (RD (q + z) - a))) in *.
  assert (Rabs (RD (q + c) + - RD (RD (q + z) - a)) <= B 0)%R as Rs.
  { pose proof (Rabs_triang (RD (q + c)) (- RD (RD (q + z) - a))) as T0. rewrite Rabs_Ropp in T0. lra. }
  destruct (add_step F HF m fzz1 (neg fq3) Wzz1 (wf_neg F fq3 Wq3) Fzz1 (finite_neg fq3 Fq3)) as [st6 [fe [E1 [We [Fe [Ve Se]]]]]];
    [rewrite value_neg, Vzz1, Vq3; lra|]. rewrite E1. cbn [bind]. clear E1.
  rewrite value_neg, Vzz1, Vq3 in Ve. fold zz0 in Ve.
  assert (Rabs zz0 <= B 2)%R as Re.
  { pose proof (any_two_sum emin p (rnd_of m) VR P5 a c Ga Gc) as E. cbv zeta in E. change (round r2 (FLT_exp emin p) (rnd_of m)) with RD in E. fold z in E. fold q in E. fold zz0 in E.
    assert (Rabs zz0 <= Rabs (zz0 - (a + c - z)) + (Rabs (a + c) + Rabs z))%R as T0.
    { rewrite <- (Rabs_Ropp z). apply Rle_trans with (Rabs (zz0 - (a + c - z)) + Rabs (a + c + - z))%R; [|apply Rplus_le_compat_l, Rabs_triang].
      replace zz0 with (zz0 - (a + c - z) + (a + c + - z))%R at 1 by ring. apply Rabs_triang. }
    assert (18 * (u * u) * (Rabs a + Rabs c) <= 18 * (/ 32 * / 32) * (Rabs a + Rabs c))%R as T1.
    { apply Rmult_le_compat_r; [lra|]. apply Rmult_le_compat_l; [lra|]. apply Rmult_le_compat; lra. }
    lra. }
  (* + aa *)
  assert (Rabs (zz0 + aa) <= B 1)%R as Rea by (pose proof (Rabs_triang zz0 aa); lra).
  pose proof (RD_B _ 1 ltac:(lia) Rea) as Rea'.
  destruct (add_step F HF m fe (d1 x) We Waa Fe Faa) as [st7 [ft [E1 [Wt [Ft [Vt St]]]]]]; [rewrite Ve; fold aa; lra|]. rewrite E1. cbn [bind]. clear E1.
  rewrite Ve in Vt. fold aa in Vt.
  (* + cc *)
  assert (Rabs (RD (zz0 + aa) + cc) <= B 0)%R as Rt by (pose proof (Rabs_triang (RD (zz0 + aa)) cc); lra).
  destruct (add_step F HF m ft (d1 y) Wt Wcc Ft Fcc) as [st8 [fzz [E1 [Wzz [Fzz [Vzz Szz]]]]]]; [rewrite Vt; fold cc; lra|]. rewrite E1. cbn [bind]. clear E1.
  rewrite Vt in Vzz. fold cc in Vzz. set (zz := RD (RD (zz0 + aa) + cc)) in *.
  set (r0 := RD (z + zz)) in *.
  assert (Fm zz /\ Fm z) as [Gzz Gz]. { rewrite <- Vzz, <- Vz. split; apply value_format; assumption. }
  destruct (is_zero fzz && negb (is_negative fzz)) eqn:Z.
  - (* nothing to add *)
    exists OK, (mkDF fz (ZERO F)). split; [reflexivity|].
    apply andb_true_iff in Z. destruct Z as [Z _]. unfold is_zero in Z.
    assert (zz = 0)%R as Z0. { rewrite <- Vzz. apply value_zero. destruct (category fzz); try discriminate; reflexivity. }
    assert (r0 = z) as Z1. { unfold r0. rewrite Z0, Rplus_0_r. apply (rounded_format F m z). exact Gz. }
    rewrite Z0, Z1 in Q1. replace (z - z)%R with 0%R in Q1 by ring. rewrite (rounded_0 F m), Rplus_0_r, (rounded_0 F m) in Q1.
    unfold narrow_pair, pair_wf, pair_finite, pair_value. cbn [d0 d1]. rewrite (value_zero F (ZERO F) eq_refl), Vz.
    split; [|exact Q1]. split; [split; [exact Wz|exact (wf_ZERO F HF)]|]. split; [split; [exact Fz|right; reflexivity]|].
    rewrite Rabs_R0. apply Rmult_le_pos; [apply bpow_ge_0|apply Rabs_pos].
  - assert (Rabs zz <= B 3)%R as Rzz. { assert (u * (Rabs a + Rabs c) <= / 32 * (Rabs a + Rabs c))%R by (apply Rmult_le_compat_r; lra). lra. }
    assert (Rabs (z + zz) <= B 2)%R as Rr by (pose proof (Rabs_triang z zz); lra).
    pose proof (RD_B _ 2 ltac:(lia) Rr) as Rr'. fold r0 in Rr'.
    destruct (add_step F HF m fz fzz Wz Wzz Fz Fzz) as [st9 [fr0 [E1 [Wr0 [Fr0 [Vr0 Sr0]]]]]]; [rewrite Vz, Vzz; lra|]. rewrite E1. cbn [bind]. clear E1.
    rewrite Vz, Vzz in Vr0. fold r0 in Vr0. rewrite (finite_is_finite fr0 Fr0). cbn [negb].
    assert (Rabs (z - r0) <= B 1)%R as Rd. { pose proof (Rabs_triang z (- r0)) as T0. rewrite Rabs_Ropp in T0. unfold Rminus. lra. }
    pose proof (RD_B _ 1 ltac:(lia) Rd) as Rd'.
    destruct (sub_step F HF m fz fr0 Wz Wr0 Fz Fr0) as [st10 [fd [E1 [Wd [Fd [Vd Sd]]]]]]; [rewrite Vz, Vr0; lra|]. rewrite E1. cbn [bind]. clear E1.
    rewrite Vz, Vr0 in Vd.
    destruct (add_step F HF m fd fzz Wd Wzz Fd Fzz) as [st11 [fr1 [E1 [Wr1 [Fr1 [Vr1 Sr1]]]]]].
    { rewrite Vd, Vzz. pose proof (Rabs_triang (RD (z - r0)) zz). lra. }
    rewrite E1. cbn [bind]. clear E1. rewrite Vd, Vzz in Vr1.
    eexists. exists (mkDF fr0 fr1). split; [reflexivity|]. unfold narrow_pair, pair_wf, pair_finite, pair_value. cbn [d0 d1]. rewrite Vr0, Vr1, eps_eq.
    split; [|exact Q1]. split; [exact (conj Wr0 Wr1)|]. split; [exact (conj Fr0 Fr1)|exact Q2].
Qed.

Definition any_bound (k : R) : R := (k * bpow r2 (- (2 * p)))%R.
Lemma any_bound_eq : forall k, any_bound k = (k * (u * u))%R.
Proof. intro k. unfold any_bound. rewrite <- bpow_plus. do 2 f_equal. ring. Qed.

Theorem dd_add_any : forall x y, narrow_pair F x -> narrow_pair F y ->
  (Rabs (value F (d0 x)) + Rabs (value F (d0 y)) <= B 4)%R ->
  exists st r, dd_add_r F x y m = Ret (st, r) /\ narrow_pair F r /\
    (Rabs (pair_value F r - (pair_value F x + pair_value F y)) <= 42 * bpow r2 (- (2 * p)) * (Rabs (value F (d0 x)) + Rabs (value F (d0 y))))%R.
Proof.
  intros x y Hx Hy R. change (42 * bpow r2 (- (2 * p)))%R with (any_bound 42). rewrite any_bound_eq. pose proof u_32 as [U0 U1].
  set (M := (Rabs (value F (d0 x)) + Rabs (value F (d0 y)))%R) in *.
  assert (0 <= 42 * (u * u) * M)%R as P.
  { unfold M. pose proof (Rabs_pos (value F (d0 x))). pose proof (Rabs_pos (value F (d0 y))). apply Rmult_le_pos; [nra|lra]. }
  unfold dd_add_r, dd_category. pose proof Hx as [Wx [Fx _]]. pose proof Hy as [Wy [Fy _]].
  assert (category (d0 y) = Zero -> (Rabs (pair_value F x - (pair_value F x + pair_value F y)) <= 42 * (u * u) * M)%R) as Zy.
  { intro C. rewrite (narrow_zero y Hy C), Rplus_0_r, Rminus_diag_eq, Rabs_R0 by reflexivity. exact P. }
  assert (category (d0 x) = Zero -> (Rabs (pair_value F y - (pair_value F x + pair_value F y)) <= 42 * (u * u) * M)%R) as Zx.
  { intro C. rewrite (narrow_zero x Hx C), Rplus_0_l, Rminus_diag_eq, Rabs_R0 by reflexivity. exact P. }
  assert (category (d0 x) = Normal \/ category (d0 x) = Zero) as [Cx|Cx] by (destruct Fx as [[C|C] _]; auto);
  assert (category (d0 y) = Normal \/ category (d0 y) = Zero) as [Cy|Cy] by (destruct Fy as [[C|C] _]; auto); rewrite Cx, Cy.
  - exact (dd_add_normal_any x y Hx Hy R).
  - exists OK, x. split; [reflexivity|]. split; [exact Hx|exact (Zy Cy)].
  - exists OK, y. split; [reflexivity|]. split; [exact Hy|exact (Zx Cx)].
  - exists OK, x. split; [reflexivity|]. split; [exact Hx|exact (Zy Cy)].
Qed.

(** ** Differences *)
Lemma narrow_neg : forall x, narrow_pair F x ->
  narrow_pair F (dd_neg x) /\ pair_value F (dd_neg x) = (- pair_value F x)%R /\ Rabs (value F (d0 (dd_neg x))) = Rabs (value F (d0 x)).
Proof.
  intros x [[W0 W1] [[F0 F1] L]]. unfold dd_neg, narrow_pair, pair_wf, pair_finite, pair_value.
  destruct (is_finite_non_zero (d1 x)) eqn:N; cbn [d0 d1]; rewrite ?value_neg.
  - rewrite !Rabs_Ropp. split; [|split; [ring|reflexivity]]. split; [split; apply wf_neg; assumption|]. split; [split; apply finite_neg; assumption|exact L].
  - assert (value F (d1 x) = 0)%R as Z. { apply value_zero. rewrite is_finite_non_zero_spec in N. destruct F1 as [C|C]; [rewrite C in N; discriminate|exact C]. }
    rewrite Z in *. rewrite ?Rabs_Ropp. split; [|split; [ring|reflexivity]]. split; [split; [apply wf_neg; assumption|assumption]|].
    split; [split; [apply finite_neg; assumption|assumption]|]. rewrite ?Z. exact L.
Qed.
Theorem dd_sub_any : forall x y, narrow_pair F x -> narrow_pair F y ->
  (Rabs (value F (d0 x)) + Rabs (value F (d0 y)) <= B 4)%R ->
  exists st r, dd_sub_r F x y m = Ret (st, r) /\ narrow_pair F r /\
    (Rabs (pair_value F r - (pair_value F x - pair_value F y)) <= 42 * bpow r2 (- (2 * p)) * (Rabs (value F (d0 x)) + Rabs (value F (d0 y))))%R.
Proof.
  intros x y Hx Hy R. destruct (narrow_neg y Hy) as [Hn [V A]].
  destruct (dd_add_any x (dd_neg y) Hx Hn ltac:(rewrite A; exact R)) as [st [r H]].
  exists st, r. rewrite A, V in H. exact H.
Qed.

(** ** Products *)
Lemma fma_any : forall x y z, wf F x -> wf F y -> wf F z -> finite x -> finite y -> finite z -> (min_normal F <= Rabs (value F x * value F y))%R ->
  (Rabs (value F x * value F y + value F z) <= max_finite F)%R ->
  exists st f, mul_add_r F x y z m = Ret (st, f) /\ wf F f /\ finite f /\ value F f = RD (value F x * value F y + value F z).
Proof.
  intros x y z Hx Hy Hz Fx Fy Fz N R. assert (fma_safe F x y z) as Sf by (unfold fma_safe; tauto).
  destruct (mul_add_r_finite F x y z m FO Hx Hy Hz Fx Fy Fz Sf (sides F _ _ (pok_ieee F HF))) as [[st f] [E [A [S [D _]]]]].
  exists st, f. destruct (D (rounded_le_max F m _ FO R)) as [D1 [D2 _]]. exact (conj E (conj A (conj D1 D2))).
Qed.
Theorem dd_mul_any : forall x y, narrow_pair F x -> narrow_pair F y ->
  (bpow r2 (MIN_EXP F + 2 * p + 1) <= Rabs (value F (d0 x) * value F (d0 y)) <= B 4)%R ->
  exists st r, dd_mul_r F x y m = Ret (st, r) /\ narrow_pair F r /\
    (Rabs (pair_value F r - pair_value F x * pair_value F y) <= 40 * bpow r2 (- (2 * p)) * Rabs (value F (d0 x) * value F (d0 y)))%R.
Proof.
  intros x y [[Wa Wb] [[Fa Fb] Lx]] [[Wc Wd] [[Fc Fd] Ly]] [Lo Hi]. rewrite eps_eq in Lx, Ly.
  change (40 * bpow r2 (- (2 * p)))%R with (any_bound 40). rewrite any_bound_eq.
  assert (0 < Rabs (value F (d0 x) * value F (d0 y)))%R as Pos by (apply Rlt_le_trans with (2 := Lo), bpow_gt_0).
  assert (category (d0 x) = Normal) as Cx.
  { destruct Fa as [C|C]; [exact C|]. rewrite (value_zero F _ C), Rmult_0_l, Rabs_R0 in Pos. lra. }
  assert (category (d0 y) = Normal) as Cy.
  { destruct Fc as [C|C]; [exact C|]. rewrite (value_zero F _ C), Rmult_0_r, Rabs_R0 in Pos. lra. }
  unfold dd_mul_r, dd_category. rewrite Cx, Cy. unfold dd_mul_normal, pair_value.
  set (a := value F (d0 x)) in *. set (c := value F (d0 y)) in *. set (b := value F (d1 x)) in *. set (d := value F (d1 y)) in *.
  assert (Fm a /\ Fm c) as [Ga Gc] by (split; apply value_format; assumption).
  pose proof (any_pair_prod emin p (rnd_of m) VR P5 a b c d Ga Gc Lx Ly) as Q. cbv zeta in Q. change (round r2 (FLT_exp emin p) (rnd_of m)) with RD in Q.
  destruct Q as [X [Err [Low Small]]]. { apply Rle_trans with (2 := Lo). apply bpow_le. lia. }
  rewrite X in Err, Low, Small. set (t := RD (a * c)) in *.
  set (s := RD (RD (a * d) + RD (b * c))) in *. set (tau := RD (a * c - t + s)) in *. set (r0 := RD (t + tau)) in *.
  pose proof u_32 as [U0 U1]. pose proof (B_0 F) as B4. pose proof (B_step F 3) as B3. pose proof (B_step F 2) as B2. pose proof (B_step F 1) as B1. pose proof (B_step F 0) as B0.
  change (3 + 1) with 4 in B3. change (2 + 1) with 3 in B2. change (1 + 1) with 2 in B1. change (0 + 1) with 1 in B0.
  pose proof (B_max F HF P4 0 ltac:(lia)) as MX.
  assert (Rabs t <= B 4)%R as Rt by (apply RD_B; [lia|exact Hi]).
  assert (Rabs (a * c - t) <= B 3)%R as Rt0. { pose proof (Rabs_triang (a * c) (- t)) as T0. rewrite Rabs_Ropp in T0. unfold Rminus. lra. }
  assert (Rabs (a * d) <= B 4)%R as Rad. { rewrite Rabs_mult in *. pose proof (Rabs_pos a). pose proof (Rabs_pos c). nra. }
  assert (Rabs (b * c) <= B 4)%R as Rbc. { rewrite Rabs_mult in *. pose proof (Rabs_pos a). pose proof (Rabs_pos c). nra. }
  (* t *)
  destruct (mul_step F HF m (d0 x) (d0 y) Wa Wc Fa Fc) as [st1 [ft [E [Wt [Ft Vt]]]]]; [fold a c; lra|]. rewrite E. cbn [bind]. clear E.
  fold a c in Vt. fold t in Vt.
  assert (is_finite_non_zero ft = true) as Nt.
  { rewrite is_finite_non_zero_spec. destruct Ft as [C|C]; rewrite C; [reflexivity|]. exfalso. rewrite (value_zero F ft C) in Vt.
    assert (bpow r2 (MIN_EXP F) <= Rabs t)%R as G; [|rewrite <- Vt, Rabs_R0 in G; pose proof (bpow_gt_0 r2 (MIN_EXP F)); lra].
    unfold t. rewrite RD_eq. apply abs_round_ge_generic; [exact (F_valid F HF)|exact VR| |].
    - apply generic_format_bpow. unfold FLT_exp. lia.
    - apply Rle_trans with (2 := Lo). apply bpow_le. lia. }
  rewrite Nt. cbn [negb].
  (* tau = a * c - t *)
  destruct (fma_any (d0 x) (d0 y) (neg ft) Wa Wc (wf_neg F ft Wt) Fa Fc (finite_neg ft Ft)) as [st2 [f0 [E [W0 [F0 V0]]]]].
  { unfold min_normal. apply Rle_trans with (2 := Lo). apply bpow_le. lia. }
  { rewrite value_neg, Vt. fold a c. change (a * c + - t)%R with (a * c - t)%R. lra. }
  rewrite E. cbn [bind]. clear E. rewrite value_neg, Vt in V0. fold a c in V0. change (a * c + - t)%R with (a * c - t)%R in V0. rewrite X in V0.
  (* a * d, b * c, their sum *)
  destruct (mul_step F HF m (d0 x) (d1 y) Wa Wd Fa Fd) as [st3 [fv [E [Wv [Fv Vv]]]]]; [fold a d; lra|]. rewrite E. cbn [bind]. clear E. fold a d in Vv.
  destruct (mul_step F HF m (d1 x) (d0 y) Wb Wc Fb Fc) as [st4 [fw [E [Ww [Fw Vw]]]]]; [fold b c; lra|]. rewrite E. cbn [bind]. clear E. fold b c in Vw.
  pose proof (RD_B _ 4 ltac:(lia) Rad) as Rad'. pose proof (RD_B _ 4 ltac:(lia) Rbc) as Rbc'.
  assert (Rabs (RD (a * d) + RD (b * c)) <= B 3)%R as Rs by (pose proof (Rabs_triang (RD (a * d)) (RD (b * c))); lra).
  pose proof (RD_B _ 3 ltac:(lia) Rs) as Rs'. fold s in Rs'.
  destruct (add_step F HF m fv fw Wv Ww Fv Fw) as [st5 [fs [E [Ws [Fs [Vs _]]]]]]; [rewrite Vv, Vw; lra|]. rewrite E. cbn [bind]. clear E. rewrite Vv, Vw in Vs.
  fold s in Vs.
  (* tau *)
  assert (Rabs (a * c - t + s) <= B 2)%R as Ru by (pose proof (Rabs_triang (a * c - t) s); lra).
  destruct (add_step F HF m f0 fs W0 Ws F0 Fs) as [st6 [fu [E [Wu [Fu [Vu _]]]]]]; [rewrite V0, Vs; lra|]. rewrite E. cbn [bind]. clear E. rewrite V0, Vs in Vu.
  fold tau in Vu.
  (* t + tau *)
  assert (Rabs (t + tau) <= B 3)%R as Rr by (pose proof (Rabs_triang t tau); lra).
  pose proof (RD_B _ 3 ltac:(lia) Rr) as Rr'. fold r0 in Rr'.
  destruct (add_step F HF m ft fu Wt Wu Ft Fu) as [st7 [fr0 [E [Wr0 [Fr0 [Vr0 _]]]]]]; [rewrite Vt, Vu; lra|]. rewrite E. cbn [bind]. clear E. rewrite Vt, Vu in Vr0.
  fold r0 in Vr0. rewrite (finite_is_finite fr0 Fr0). cbn [negb].
  assert (Rabs (t - r0) <= B 2)%R as Rd. { pose proof (Rabs_triang t (- r0)) as T0. rewrite Rabs_Ropp in T0. unfold Rminus. lra. }
  pose proof (RD_B _ 2 ltac:(lia) Rd) as Rd'.
  destruct (sub_step F HF m ft fr0 Wt Wr0 Ft Fr0) as [st8 [fd [E [Wfd [Ffd [Vfd _]]]]]]; [rewrite Vt, Vr0; lra|]. rewrite E. cbn [bind]. clear E. rewrite Vt, Vr0 in Vfd.
  destruct (add_step F HF m fd fu Wfd Wu Ffd Fu) as [st9 [fr1 [E [Wr1 [Fr1 [Vr1 _]]]]]].
  { rewrite Vfd, Vu. pose proof (Rabs_triang (RD (t - r0)) tau). lra. }
  rewrite E. cbn [bind]. clear E. rewrite Vfd, Vu in Vr1.
  eexists. exists (mkDF fr0 fr1). split; [reflexivity|]. unfold narrow_pair, pair_wf, pair_finite. cbn [d0 d1]. rewrite Vr0, Vr1, eps_eq.
  split; [|exact Err]. split; [exact (conj Wr0 Wr1)|]. split; [exact (conj Fr0 Fr1)|exact Low].
Qed.
End Directed.
