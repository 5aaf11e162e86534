(** * PairAdd.v -- sums and differences of pairs (src/ppc.rs:188-274): the
    pair that is returned, and how far it is from the exact sum *)
From Coq Require Import ZArith Reals List Bool Lia Lra Psatz.
From Flocq Require Import Core.
From Verif Require Import Machine Sig SpecSig Ieee Ppc Spec Norm Arith Order Algebra SpecPair Pair PairOps PairBase TwoSum.
Local Open Scope Z_scope.
Ltac Zify.zify_post_hook ::= idtac.

Definition ties (m : Round) : Z -> bool :=
  match m with NearestTiesToAway => Z.leb 0 | _ => fun x => negb (Z.even x) end.
Lemma ties_sym : forall m x, ties m x = negb (ties m (- (x + 1))).
Proof.
  intros m x. assert (negb (Z.even x) = negb (negb (Z.even (- (x + 1))))) as E.
  { rewrite Z.even_opp, Z.even_add. destruct (Z.even x); reflexivity. }
  destruct m; cbn [ties]; try exact E. destruct (Z.leb_spec 0 x), (Z.leb_spec 0 (- (x + 1))); try reflexivity; lia.
Qed.

Section Add.
Variable F : Semantics.
Hypothesis HF : pair_ok F.
Hypothesis P4 : 4 <= PRECISION F.
Variable m : Round.
Hypothesis Hm : m = NearestTiesToEven \/ m = NearestTiesToAway.
Local Notation p := (PRECISION F).
Local Notation emin := (MIN_EXP F - (p - 1)).
Local Notation RN := (rounded F m).
Local Notation Fm := (generic_format r2 (fexp F)).
Local Notation B k := (bpow r2 (MAX_EXP F - k)).
Let FO := F_ok F HF.

Lemma emin_neg : emin <= 0.
Proof. pose proof (ok_min F FO). pose proof (ok_prec F FO). lia. Qed.
Lemma RN_eq : forall x, RN x = round r2 (FLT_exp emin p) (Znearest (ties m)) x.
Proof. intro x. unfold rounded, fexp. destruct Hm as [-> | ->]; reflexivity. Qed.
Lemma B_max : forall k, 0 <= k -> (B k <= max_finite F)%R.
Proof.
  intros k Hk. apply Rle_trans with (bpow r2 (MAX_EXP F)); [apply bpow_le; lia|].
  rewrite (max_finite_ieee F FO (pok_ieee F HF)). rewrite bpow_plus_1. change (IZR (Zaux.radix_val r2)) with 2%R.
  assert (bpow r2 (MAX_EXP F + 1 - p) <= bpow r2 (MAX_EXP F))%R by (apply bpow_le; lia). lra.
Qed.
Lemma RN_B : forall x k, 0 <= k <= 4 -> (Rabs x <= B k)%R -> (Rabs (RN x) <= B k)%R.
Proof.
  intros x k Hk H. rewrite RN_eq. apply RN_le_bpow; [lia| |exact H].
  pose proof (ok_max F FO). pose proof (ok_min F FO). pose proof (pok_max F HF). pose proof (pok_min F HF). lia.
Qed.
Lemma B_step : forall k, (B k = 2 * B (k + 1))%R.
Proof. intro k. replace (MAX_EXP F - k) with (MAX_EXP F - (k + 1) + 1) by ring. rewrite bpow_plus_1. reflexivity. Qed.
Lemma B_0 : (0 < B 4)%R. Proof. apply bpow_gt_0. Qed.

(** one addition in range *)
Lemma add_step : forall x y, wf F x -> wf F y -> finite x -> finite y -> (Rabs (value F x + value F y) <= max_finite F)%R ->
  exists st f, add_r F x y m = Ret (st, f) /\ wf F f /\ finite f /\ value F f = RN (value F x + value F y) /\
    has_sign (value F x + value F y) (zero_sum_sign x y m) f.
Proof.
  intros x y Hx Hy Fx Fy R. destruct (add_r_finite F x y m FO Hx Hy Fx Fy (sides F _ _ (pok_ieee F HF))) as [[st f] [E [A [S [D _]]]]].
  exists st, f. destruct (D (rounded_le_max F m _ FO R)) as [D1 [D2 _]]. exact (conj E (conj A (conj D1 (conj D2 S)))).
Qed.
Lemma sub_step : forall x y, wf F x -> wf F y -> finite x -> finite y -> (Rabs (value F x - value F y) <= max_finite F)%R ->
  exists st f, sub_r F x y m = Ret (st, f) /\ wf F f /\ finite f /\ value F f = RN (value F x - value F y) /\
    has_sign (value F x - value F y) (zero_sum_sign x (neg y) m) f.
Proof.
  intros x y Hx Hy Fx Fy R. destruct (sub_r_finite F x y m FO Hx Hy Fx Fy (sides F _ _ (pok_ieee F HF))) as [[st f] [E [A [S [D _]]]]].
  exists st, f. destruct (D (rounded_le_max F m _ FO R)) as [D1 [D2 _]]. exact (conj E (conj A (conj D1 (conj D2 S)))).
Qed.
Lemma finite_is_finite : forall f, finite f -> is_finite f = true.
Proof. intros f [C|C]; unfold is_finite, is_nan, is_infinite; rewrite C; reflexivity. Qed.

(** the low half of a canonical pair *)
Lemma canonical_low : forall x, canonical_pair F x -> (Rabs (value F (d1 x)) <= bpow r2 (- p) * Rabs (value F (d0 x)))%R.
Proof.
  intros x [[W0 W1] [[F0 F1] V]]. apply (low_half emin p (fun x => negb (Z.even x))); [exact P4| | |symmetry; exact V]; apply value_format; assumption.
Qed.
Lemma u_le_1 : (0 < bpow r2 (- p) <= / 16)%R. Proof. apply u_small. exact P4. Qed.

Theorem dd_add_normal_spec : forall x y, pair_wf F x -> pair_wf F y -> pair_finite x -> pair_finite y ->
  (Rabs (value F (d1 x)) <= bpow r2 (- p) * Rabs (value F (d0 x)))%R ->
  (Rabs (value F (d1 y)) <= bpow r2 (- p) * Rabs (value F (d0 y)))%R ->
  (Rabs (value F (d0 x)) + Rabs (value F (d0 y)) <= B 4)%R ->
  let a := value F (d0 x) in let c := value F (d0 y) in
  let z := RN (a + c) in let zz := RN (RN (a + c - z + value F (d1 x)) + value F (d1 y)) in
  exists st r, dd_add_normal F x y m = Ret (st, r) /\ pair_wf F r /\ pair_finite r /\
    value F (d0 r) = RN (pair_value F r) /\ pair_value F r = (z + zz)%R.
Proof.
  intros x y [Wa Waa] [Wc Wcc] [Fa Faa] [Fc Fcc] La Lc R a c z zz.
  set (aa := value F (d1 x)) in *. set (cc := value F (d1 y)) in *.
  assert (Fm a /\ Fm aa /\ Fm c /\ Fm cc) as [Ga [Gaa [Gc Gcc]]] by (repeat split; apply value_format; assumption).
  pose proof u_le_1 as [U0 U1]. pose proof B_0 as B4. pose proof (B_step 3) as B3. pose proof (B_step 2) as B2. pose proof (B_step 1) as B1. pose proof (B_step 0) as B0.
  change (3 + 1) with 4 in B3. change (2 + 1) with 3 in B2. change (1 + 1) with 2 in B1. change (0 + 1) with 1 in B0.
  pose proof (B_max 0 ltac:(lia)) as MX.
  fold a c in La, Lc, R. pose proof (Rabs_pos a) as Pa. pose proof (Rabs_pos c) as Pc.
  assert (Rabs aa <= B 4 /\ Rabs cc <= B 4)%R as [Raa Rcc] by (split; nra).
  pose proof (Rabs_triang a c) as T.
  assert (Rabs z <= B 4)%R as Rz by (apply RN_B; [lia|lra]).
  unfold dd_add_normal.
  destruct (add_step (d0 x) (d0 y) Wa Wc Fa Fc) as [st1 [fz [E1 [Wz [Fz [Vz Sz]]]]]]; [fold a c; lra|]. rewrite E1. cbn [bind]. clear E1.
  fold a c in Vz. fold z in Vz. rewrite (finite_is_finite fz Fz). cbn [negb].
  (* q = a - z *)
  set (q := RN (a - z)). assert (Rabs (a - z) <= B 3)%R as Rq0. { unfold Rminus. pose proof (Rabs_triang a (- z)) as T0. rewrite Rabs_Ropp in T0. lra. }
  assert (Rabs q <= B 3)%R as Rq by (apply RN_B; [lia|exact Rq0]).
  destruct (sub_step (d0 x) fz Wa Wz Fa Fz) as [st2 [fq [E1 [Wq [Fq [Vq Sq]]]]]]; [rewrite Vz; fold a; lra|]. rewrite E1. cbn [bind]. clear E1.
  rewrite Vz in Vq. fold a in Vq. fold q in Vq.
  (* q + c *)
  assert (Rabs (q + c) <= B 2)%R as Rq1. { pose proof (Rabs_triang q c). lra. }
  pose proof (RN_B _ 2 ltac:(lia) Rq1) as Rq1'.
  destruct (add_step fq (d0 y) Wq Wc Fq Fc) as [st3 [fzz1 [E1 [Wzz1 [Fzz1 [Vzz1 Szz1]]]]]]; [rewrite Vq; fold c; lra|]. rewrite E1. cbn [bind]. clear E1.
  rewrite Vq in Vzz1. fold c in Vzz1.
  (* q + z *)
  assert (Rabs (q + z) <= B 2)%R as Rq2. { pose proof (Rabs_triang q z). lra. }
  pose proof (RN_B _ 2 ltac:(lia) Rq2) as Rq2'.
  destruct (add_step fq fz Wq Wz Fq Fz) as [st4 [fq2 [E1 [Wq2 [Fq2 [Vq2 Sq2]]]]]]; [rewrite Vq, Vz; lra|]. rewrite E1. cbn [bind]. clear E1.
  rewrite Vq, Vz in Vq2.
  (* (q + z) - a *)
  assert (Rabs (RN (q + z) - a) <= B 1)%R as Rq3. { pose proof (Rabs_triang (RN (q + z)) (- a)) as T0. rewrite Rabs_Ropp in T0. unfold Rminus. lra. }
  pose proof (RN_B _ 1 ltac:(lia) Rq3) as Rq3'.
  destruct (sub_step fq2 (d0 x) Wq2 Wa Fq2 Fa) as [st5 [fq3 [E1 [Wq3 [Fq3 [Vq3 Sq3]]]]]]; [rewrite Vq2; fold a; lra|]. rewrite E1. cbn [bind]. clear E1.
  rewrite Vq2 in Vq3. fold a in Vq3.
  (* zz is the error of the first sum *)
  set (e := (a + c - z)%R) in *.
  assert (RN (RN (q + c) + - RN (RN (q + z) - a)) = e) as TS.
  { pose proof (two_sum emin p (ties m) P4 emin_neg (ties_sym m) a c Ga Gc) as TS. cbv zeta in TS. rewrite <- ?RN_eq in TS. fold z in TS. rewrite <- ?RN_eq in TS. fold q in TS. rewrite <- ?RN_eq in TS. exact TS. }
  assert (Rabs (RN (q + c) + - RN (RN (q + z) - a)) <= B 0)%R as Rs.
  { pose proof (Rabs_triang (RN (q + c)) (- RN (RN (q + z) - a))) as T0. rewrite Rabs_Ropp in T0. lra. }
  destruct (add_step fzz1 (neg fq3) Wzz1 (wf_neg F fq3 Wq3) Fzz1 (finite_neg fq3 Fq3)) as [st6 [fe [E1 [We [Fe [Ve Se]]]]]];
    [rewrite value_neg, Vzz1, Vq3; lra|]. rewrite E1. cbn [bind]. clear E1.
  rewrite value_neg, Vzz1, Vq3, TS in Ve.
  destruct (sum_low_bounds emin p (ties m) P4 a aa c cc Ga Gaa Gc Gcc La Lc) as [_ Bzz]. rewrite <- ?RN_eq in Bzz. fold z e in Bzz. rewrite <- ?RN_eq in Bzz. fold zz in Bzz.
  assert (Rabs e <= B 3)%R as Re. { unfold e, Rminus. pose proof (Rabs_triang (a + c) (- z)) as T0. rewrite Rabs_Ropp in T0. lra. }
  (* + aa *)
  assert (Rabs (e + aa) <= B 2)%R as Rea by (pose proof (Rabs_triang e aa); lra).
  pose proof (RN_B _ 2 ltac:(lia) Rea) as Rea'.
  destruct (add_step fe (d1 x) We Waa Fe Faa) as [st7 [ft [E1 [Wt [Ft [Vt St]]]]]]; [rewrite Ve; fold aa; lra|]. rewrite E1. cbn [bind]. clear E1.
  rewrite Ve in Vt. fold aa in Vt.
  (* + cc *)
  assert (Rabs (RN (e + aa) + cc) <= B 1)%R as Rt by (pose proof (Rabs_triang (RN (e + aa)) cc); lra).
  destruct (add_step ft (d1 y) Wt Wcc Ft Fcc) as [st8 [fzz [E1 [Wzz [Fzz [Vzz Szz]]]]]]; [rewrite Vt; fold cc; lra|]. rewrite E1. cbn [bind]. clear E1.
  rewrite Vt in Vzz. fold cc in Vzz. fold zz in Vzz.
  assert (Fm zz /\ Fm z) as [Gzz Gz]. { rewrite <- Vzz, <- Vz. split; apply value_format; assumption. }
  destruct (is_zero fzz && negb (is_negative fzz)) eqn:Z.
  - (* nothing to add *)
    exists OK, (mkDF fz (ZERO F)). split; [reflexivity|].
    apply andb_true_iff in Z. destruct Z as [Z _]. unfold is_zero in Z.
    assert (zz = 0)%R as Z0. { rewrite <- Vzz. apply value_zero. destruct (category fzz); try discriminate; reflexivity. }
    unfold pair_wf, pair_finite, pair_value. cbn [d0 d1]. rewrite (value_zero F (ZERO F) eq_refl), Z0, Vz, Rplus_0_r.
    split; [split; [exact Wz|exact (wf_ZERO F HF)]|]. split; [split; [exact Fz|right; reflexivity]|]. split; [|reflexivity].
    symmetry. rewrite RN_eq. apply RN_exact. exact Gz.
  - assert (Rabs zz <= B 3)%R as Rzz. { nra. }
    assert (Rabs (z + zz) <= B 2)%R as Rr by (pose proof (Rabs_triang z zz); lra).
    pose proof (RN_B _ 2 ltac:(lia) Rr) as Rr'.
    destruct (add_step fz fzz Wz Wzz Fz Fzz) as [st9 [fr0 [E1 [Wr0 [Fr0 [Vr0 Sr0]]]]]]; [rewrite Vz, Vzz; lra|]. rewrite E1. cbn [bind]. clear E1.
    rewrite Vz, Vzz in Vr0. rewrite (finite_is_finite fr0 Fr0). cbn [negb].
    assert (Rabs (z - RN (z + zz)) <= B 1)%R as Rd. { pose proof (Rabs_triang z (- RN (z + zz))) as T0. rewrite Rabs_Ropp in T0. unfold Rminus. lra. }
    pose proof (RN_B _ 1 ltac:(lia) Rd) as Rd'.
    destruct (sub_step fz fr0 Wz Wr0 Fz Fr0) as [st10 [fd [E1 [Wd [Fd [Vd Sd]]]]]]; [rewrite Vz, Vr0; lra|]. rewrite E1. cbn [bind]. clear E1.
    rewrite Vz, Vr0 in Vd.
    destruct (add_step fd fzz Wd Wzz Fd Fzz) as [st11 [fr1 [E1 [Wr1 [Fr1 [Vr1 Sr1]]]]]].
    { rewrite Vd, Vzz. pose proof (Rabs_triang (RN (z - RN (z + zz))) zz). lra. }
    rewrite E1. cbn [bind]. clear E1. rewrite Vd, Vzz in Vr1.
    pose proof (sum_exact emin p (ties m) P4 emin_neg (ties_sym m) a c zz Ga Gc Gzz Bzz) as X. cbv zeta in X. rewrite <- ?RN_eq in X. fold z in X. rewrite <- ?RN_eq in X. rewrite X in Vr1.
    eexists. exists (mkDF fr0 fr1). split; [reflexivity|]. unfold pair_wf, pair_finite, pair_value. cbn [d0 d1]. rewrite Vr0, Vr1.
    replace (RN (z + zz) + (z + zz - RN (z + zz)))%R with (z + zz)%R by ring. exact (conj (conj Wr0 Wr1) (conj (conj Fr0 Fr1) (conj eq_refl eq_refl))).
Qed.

(** the error bound, relative to the magnitudes of the high halves *)
Definition add_bound (x y : DFloat) : R := (bpow r2 (2 - 2 * p) * (Rabs (value F (d0 x)) + Rabs (value F (d0 y))))%R.
Lemma bound_eq : (bpow r2 (2 - 2 * p) = 4 * (bpow r2 (- p) * bpow r2 (- p)))%R.
Proof. rewrite <- bpow_plus. change 4%R with (bpow r2 2). rewrite <- bpow_plus. f_equal. ring. Qed.

Lemma canonical_zero : forall x, canonical_pair F x -> category (d0 x) = Zero -> pair_value F x = 0%R.
Proof.
  intros x Hx C. pose proof (canonical_low x Hx) as L. rewrite (value_zero F (d0 x) C), Rabs_R0, Rmult_0_r in L.
  unfold pair_value. rewrite (value_zero F (d0 x) C). assert (value F (d1 x) = 0)%R as ->; [|ring].
  destruct (Req_dec (value F (d1 x)) 0) as [Z|Z]; [exact Z|]. apply Rabs_pos_lt in Z. lra.
Qed.
Theorem dd_add_accurate : forall x y, canonical_pair F x -> canonical_pair F y ->
  (Rabs (value F (d0 x)) + Rabs (value F (d0 y)) <= B 4)%R ->
  exists st r, dd_add_r F x y m = Ret (st, r) /\ pair_wf F r /\ pair_finite r /\
    (m = NearestTiesToEven -> canonical_pair F r) /\
    (Rabs (value F (d1 r)) <= bpow r2 (- p) * Rabs (value F (d0 r)))%R /\
    (Rabs (pair_value F r - (pair_value F x + pair_value F y)) <= add_bound x y)%R.
Proof.
  intros x y Hx Hy R. pose proof (canonical_low x Hx) as Lx. pose proof (canonical_low y Hy) as Ly.
  assert (0 <= add_bound x y)%R as P.
  { apply Rmult_le_pos; [apply bpow_ge_0|]. pose proof (Rabs_pos (value F (d0 x))). pose proof (Rabs_pos (value F (d0 y))). lra. }
  unfold dd_add_r, dd_category. pose proof Hx as [Wx [Fx _]]. pose proof Hy as [Wy [Fy _]].
  assert (category (d0 y) = Zero -> (Rabs (pair_value F x - (pair_value F x + pair_value F y)) <= add_bound x y)%R) as Zy.
  { intro C. rewrite (canonical_zero y Hy C), Rplus_0_r, Rminus_diag_eq, Rabs_R0 by reflexivity. exact P. }
  assert (category (d0 x) = Zero -> (Rabs (pair_value F y - (pair_value F x + pair_value F y)) <= add_bound x y)%R) as Zx.
  { intro C. rewrite (canonical_zero x Hx C), Rplus_0_l, Rminus_diag_eq, Rabs_R0 by reflexivity. exact P. }
  assert (category (d0 x) = Normal \/ category (d0 x) = Zero) as [Cx|Cx] by (destruct Fx as [[C|C] _]; auto);
  assert (category (d0 y) = Normal \/ category (d0 y) = Zero) as [Cy|Cy] by (destruct Fy as [[C|C] _]; auto); rewrite Cx, Cy.
  - destruct (dd_add_normal_spec x y Wx Wy Fx Fy Lx Ly R) as [st [r [E [Wr [Fr [V0 V]]]]]].
    exists st, r. split; [exact E|]. split; [exact Wr|]. split; [exact Fr|].
    split; [intros ->; split; [exact Wr|split; [exact Fr|exact V0]]|]. split.
    + apply (low_half emin p (ties m) P4); [apply value_format; [exact FO|exact (proj1 Wr)|exact (proj1 Fr)]|apply value_format; [exact FO|exact (proj2 Wr)|exact (proj2 Fr)]|].
      rewrite <- RN_eq. symmetry. exact V0.
    + rewrite V. unfold add_bound. rewrite bound_eq.
      assert (Fm (value F (d0 x)) /\ Fm (value F (d1 x)) /\ Fm (value F (d0 y)) /\ Fm (value F (d1 y))) as [Ga [Gaa [Gc Gcc]]].
      { destruct Wx, Wy, Fx, Fy. split; [|split; [|split]]; apply value_format; assumption. }
      destruct (sum_low_bounds emin p (ties m) P4 _ _ _ _ Ga Gaa Gc Gcc Lx Ly) as [A _]. rewrite <- ?RN_eq in A.
      unfold pair_value. set (a := value F (d0 x)) in *. set (c := value F (d0 y)) in *. set (aa := value F (d1 x)) in *. set (cc := value F (d1 y)) in *.
      set (z := RN (a + c)) in *. set (zz := RN (RN (a + c - z + aa) + cc)) in *.
      replace (z + zz - (a + aa + (c + cc)))%R with (zz - (a + c - z + aa + cc))%R by ring. exact A.
  - exists OK, x. split; [reflexivity|]. split; [exact Wx|]. split; [exact Fx|]. split; [intros _; exact Hx|]. split; [exact Lx|exact (Zy Cy)].
  - exists OK, y. split; [reflexivity|]. split; [exact Wy|]. split; [exact Fy|]. split; [intros _; exact Hy|]. split; [exact Ly|exact (Zx Cx)].
  - exists OK, x. split; [reflexivity|]. split; [exact Wx|]. split; [exact Fx|]. split; [intros _; exact Hx|]. split; [exact Lx|exact (Zy Cy)].
Qed.
(** sums of two halves are exact *)
Theorem dd_add_exact : forall x y, canonical_pair F x -> canonical_pair F y -> category (d1 x) = Zero -> category (d1 y) = Zero ->
  (Rabs (value F (d0 x)) + Rabs (value F (d0 y)) <= B 4)%R ->
  exists st r, dd_add_r F x y m = Ret (st, r) /\ pair_wf F r /\ pair_finite r /\
    (m = NearestTiesToEven -> canonical_pair F r) /\ pair_value F r = (pair_value F x + pair_value F y)%R.
Proof.
  intros x y Hx Hy Zx Zy R. pose proof (canonical_low x Hx) as Lx. pose proof (canonical_low y Hy) as Ly.
  unfold dd_add_r, dd_category. pose proof Hx as [Wx [Fx _]]. pose proof Hy as [Wy [Fy _]].
  assert (category (d0 x) = Normal \/ category (d0 x) = Zero) as [Cx|Cx] by (destruct Fx as [[C|C] _]; auto);
  assert (category (d0 y) = Normal \/ category (d0 y) = Zero) as [Cy|Cy] by (destruct Fy as [[C|C] _]; auto); rewrite Cx, Cy.
  - destruct (dd_add_normal_spec x y Wx Wy Fx Fy Lx Ly R) as [st [r [E [Wr [Fr [V0 V]]]]]].
    exists st, r. split; [exact E|]. split; [exact Wr|]. split; [exact Fr|].
    split; [intros ->; split; [exact Wr|split; [exact Fr|exact V0]]|].
    rewrite V. unfold pair_value. rewrite (value_zero F (d1 x) Zx), (value_zero F (d1 y) Zy), !Rplus_0_r.
    set (a := value F (d0 x)) in *. set (c := value F (d0 y)) in *.
    assert (Fm (a + c - RN (a + c))) as G.
    { replace (a + c - RN (a + c))%R with (- (RN (a + c) - (a + c)))%R by ring. apply generic_format_opp. rewrite RN_eq.
      apply Plus_error.plus_error; [exact (F_valid F HF)|apply FLT_exp_monotone|apply value_format; [exact FO|exact (proj1 Wx)|exact (proj1 Fx)]|apply value_format; [exact FO|exact (proj1 Wy)|exact (proj1 Fy)]]. }
    assert (RN (a + c - RN (a + c)) = a + c - RN (a + c))%R as X. { rewrite (RN_eq (a + c - RN (a + c))). apply RN_exact. exact G. }
    rewrite X, X. ring.
  - exists OK, x. rewrite (canonical_zero y Hy Cy), Rplus_0_r. split; [reflexivity|]. split; [exact Wx|]. split; [exact Fx|]. split; [intros _; exact Hx|reflexivity].
  - exists OK, y. rewrite (canonical_zero x Hx Cx), Rplus_0_l. split; [reflexivity|]. split; [exact Wy|]. split; [exact Fy|]. split; [intros _; exact Hy|reflexivity].
  - exists OK, x. rewrite (canonical_zero y Hy Cy), Rplus_0_r. split; [reflexivity|]. split; [exact Wx|]. split; [exact Fx|]. split; [intros _; exact Hx|reflexivity].
Qed.

(** ** Differences *)
Lemma dd_neg_value : forall x, canonical_pair F x -> pair_value F (dd_neg x) = (- pair_value F x)%R /\ Rabs (value F (d0 (dd_neg x))) = Rabs (value F (d0 x)).
Proof.
  intros x Hx. destruct (dd_neg_spec F x) as [A [B [C [D E]]]]. split; [apply D; exact (proj2 (proj1 (proj2 Hx)))|].
  unfold dd_neg. destruct (is_finite_non_zero (d1 x)); cbn [d0]; rewrite value_neg; apply Rabs_Ropp.
Qed.
Theorem dd_sub_accurate : forall x y, canonical_pair F x -> canonical_pair F y ->
  (Rabs (value F (d0 x)) + Rabs (value F (d0 y)) <= B 4)%R ->
  exists st r, dd_sub_r F x y m = Ret (st, r) /\ pair_wf F r /\ pair_finite r /\
    (m = NearestTiesToEven -> canonical_pair F r) /\
    (Rabs (value F (d1 r)) <= bpow r2 (- p) * Rabs (value F (d0 r)))%R /\
    (Rabs (pair_value F r - (pair_value F x - pair_value F y)) <= add_bound x y)%R.
Proof.
  intros x y Hx Hy R. destruct (dd_neg_value y Hy) as [V A].
  destruct (dd_add_accurate x (dd_neg y) Hx (dd_neg_canonical F y Hy) ltac:(rewrite A; exact R)) as [st [r H]].
  exists st, r. unfold add_bound in H. rewrite A, V in H. exact H.
Qed.

(** operands of the same sign: the relative error *)
Theorem dd_add_relative : forall x y, canonical_pair F x -> canonical_pair F y ->
  (Rabs (value F (d0 x)) + Rabs (value F (d0 y)) <= B 4)%R -> (0 <= value F (d0 x) * value F (d0 y))%R ->
  exists st r, dd_add_r F x y m = Ret (st, r) /\
    (Rabs (pair_value F r - (pair_value F x + pair_value F y)) <= bpow r2 (3 - 2 * p) * Rabs (pair_value F x + pair_value F y))%R.
Proof.
  intros x y Hx Hy R S. destruct (dd_add_accurate x y Hx Hy R) as [st [r [E [_ [_ [_ [_ H]]]]]]]. exists st, r. split; [exact E|].
  apply Rle_trans with (1 := H). unfold add_bound. replace (3 - 2 * p) with (1 + (2 - 2 * p)) by ring. rewrite (bpow_plus r2 1 (2 - 2 * p)). change (bpow r2 1) with 2%R.
  rewrite (Rmult_comm 2), Rmult_assoc. apply Rmult_le_compat_l; [apply bpow_ge_0|].
  pose proof (canonical_low x Hx) as Lx. pose proof (canonical_low y Hy) as Ly. pose proof u_le_1 as [U0 U1].
  unfold pair_value. revert S Lx Ly. generalize (value F (d0 x)) (value F (d1 x)) (value F (d0 y)) (value F (d1 y)) (bpow r2 (- p)) U0 U1. clear.
  intros a aa c cc u U0 U1 S La Lc.
  assert (Rabs aa <= / 16 * Rabs a)%R as Ba by (pose proof (Rabs_pos a); nra). assert (Rabs cc <= / 16 * Rabs c)%R as Bc by (pose proof (Rabs_pos c); nra). clear La Lc U0 U1 u.
  assert (Rabs (a + c) = Rabs a + Rabs c)%R as E.
  { unfold Rabs. destruct (Rcase_abs a), (Rcase_abs c), (Rcase_abs (a + c)); try lra; nra. }
  pose proof (Rabs_triang (a + aa + (c + cc)) (- (aa + cc))) as T. replace (a + aa + (c + cc) + - (aa + cc))%R with (a + c)%R in T by ring.
  rewrite Rabs_Ropp in T. pose proof (Rabs_triang aa cc). pose proof (Rabs_pos a). pose proof (Rabs_pos c). lra.
Qed.

(** ** A number minus itself *)
Lemma zero_of_value : forall f, finite f -> value F f = 0%R -> wf F f -> category f = Zero.
Proof. intros f [C|C] V W; [|exact C]. exfalso. exact (normal_nonzero F f W C V). Qed.
Lemma RN_self : forall f, wf F f -> finite f -> RN (value F f) = value F f.
Proof. intros f W H. rewrite RN_eq. apply RN_exact. apply value_format; assumption. Qed.
Lemma RN_zero : RN 0 = 0%R.
Proof. rewrite RN_eq. apply RN_exact. apply generic_format_0. Qed.
Lemma nearest_zero : round_eqb m TowardNegative = false.
Proof. destruct Hm as [-> | ->]; reflexivity. Qed.
Lemma zero_sum_pos : forall x y, category x <> Zero \/ category y <> Zero \/ sign x = false \/ sign y = false -> zero_sum_sign x y m = false.
Proof.
  intros x y H. unfold zero_sum_sign. rewrite nearest_zero. destruct (category x), (category y); try reflexivity.
  destruct (sign x), (sign y); try reflexivity. destruct H as [H|[H|[H|H]]]; congruence.
Qed.
(** a sum that is zero, and one that only copies *)
Lemma add_zero : forall x y, wf F x -> wf F y -> finite x -> finite y -> (value F x + value F y = 0)%R ->
  category x <> Zero \/ category y <> Zero \/ sign x = false \/ sign y = false ->
  exists st f, add_r F x y m = Ret (st, f) /\ wf F f /\ category f = Zero /\ sign f = false.
Proof.
  intros x y Hx Hy Fx Fy V H. destruct (add_step x y Hx Hy Fx Fy) as [st [f [E [W [Ff [Vf [_ [_ S]]]]]]]].
  { rewrite V, Rabs_R0. apply Rlt_le, max_finite_pos, FO. }
  exists st, f. split; [exact E|]. split; [exact W|]. split; [|rewrite (S V); apply zero_sum_pos, H].
  apply zero_of_value; [exact Ff| |exact W]. rewrite Vf, V. exact RN_zero.
Qed.
Lemma add_copy : forall x y, wf F x -> wf F y -> finite x -> category y = Zero ->
  exists st f, add_r F x y m = Ret (st, f) /\ wf F f /\ finite f /\ value F f = value F x.
Proof.
  intros x y Hx Hy Fx C. pose proof (value_zero F y C) as V. assert (finite y) as Fy by (right; exact C).
  destruct (add_step x y Hx Hy Fx Fy) as [st [f [E [W [Ff [Vf _]]]]]].
  { rewrite V, Rplus_0_r. apply value_le_max; assumption. }
  exists st, f. rewrite V, Rplus_0_r, RN_self in Vf by assumption. exact (conj E (conj W (conj Ff Vf))).
Qed.
Lemma sub_zero : forall x y, wf F x -> wf F y -> finite x -> finite y -> (value F x - value F y = 0)%R -> category x <> Zero ->
  exists st f, sub_r F x y m = Ret (st, f) /\ wf F f /\ category f = Zero /\ sign f = false.
Proof.
  intros x y Hx Hy Fx Fy V H. destruct (sub_step x y Hx Hy Fx Fy) as [st [f [E [W [Ff [Vf [_ [_ S]]]]]]]].
  { rewrite V, Rabs_R0. apply Rlt_le, max_finite_pos, FO. }
  exists st, f. split; [exact E|]. split; [exact W|]. split; [|rewrite (S V); apply zero_sum_pos; left; exact H].
  apply zero_of_value; [exact Ff| |exact W]. rewrite Vf, V. exact RN_zero.
Qed.
Lemma sub_copy : forall x y, wf F x -> wf F y -> finite x -> category y = Zero ->
  exists st f, sub_r F x y m = Ret (st, f) /\ wf F f /\ finite f /\ value F f = value F x.
Proof.
  intros x y Hx Hy Fx C. pose proof (value_zero F y C) as V. assert (finite y) as Fy by (right; exact C).
  destruct (sub_step x y Hx Hy Fx Fy) as [st [f [E [W [Ff [Vf _]]]]]].
  { rewrite V, Rminus_0_r. apply value_le_max; assumption. }
  exists st, f. rewrite V, Rminus_0_r, RN_self in Vf by assumption. exact (conj E (conj W (conj Ff Vf))).
Qed.
Lemma add_copy_r : forall x y, wf F x -> wf F y -> category x = Zero -> sign x = false -> finite y ->
  exists st f, add_r F x y m = Ret (st, f) /\ wf F f /\ finite f /\ value F f = value F y /\ (category f = Zero -> sign f = false).
Proof.
  intros x y Hx Hy C G Fy. pose proof (value_zero F x C) as V. assert (finite x) as Fx by (right; exact C).
  destruct (add_step x y Hx Hy Fx Fy) as [st [f [E [W [Ff [Vf [_ [_ S]]]]]]]].
  { rewrite V, Rplus_0_l. apply value_le_max; assumption. }
  exists st, f. rewrite V, Rplus_0_l, RN_self in Vf by assumption. split; [exact E|]. split; [exact W|]. split; [exact Ff|]. split; [exact Vf|].
  intro Z. rewrite S; [apply zero_sum_pos; tauto|]. rewrite V, <- Vf, (value_zero F f Z). ring.
Qed.
Theorem dd_sub_self : forall x, canonical_pair F x -> category (d0 x) = Normal ->
  exists r, dd_sub_r F x x m = Ret (OK, r) /\ is_special F Zero false (d0 r) /\ is_special F Zero false (d1 r).
Proof.
  intros x [[Wa Waa] [[Fa Faa] _]] C. unfold dd_sub_r, dd_add_r, dd_category.
  assert (d0 (dd_neg x) = neg (d0 x)) as N0 by (unfold dd_neg; destruct is_finite_non_zero; reflexivity).
  assert (wf F (d1 (dd_neg x)) /\ finite (d1 (dd_neg x)) /\ value F (d1 (dd_neg x)) = - value F (d1 x))%R as [Wn [Fn Vn]].
  { unfold dd_neg. rewrite is_finite_non_zero_spec. destruct (category_eqb (category (d1 x)) Normal) eqn:Q; cbn [d1].
    - split; [apply wf_neg, Waa|]. split; [apply finite_neg, Faa|apply value_neg].
    - split; [exact Waa|]. split; [exact Faa|]. destruct Faa as [A|A]; [rewrite A in Q; discriminate|]. rewrite (value_zero F (d1 x) A). ring. }
  rewrite N0, category_neg, C. unfold dd_add_normal. rewrite N0.
  pose proof (wf_neg F (d0 x) Wa) as Wc. pose proof (finite_neg (d0 x) Fa) as Fc.
  destruct (add_zero (d0 x) (neg (d0 x)) Wa Wc Fa Fc) as [st1 [fz [E [Wz [Cz Sz]]]]]; [rewrite value_neg; ring|left; rewrite C; discriminate|].
  rewrite E. cbn [bind]. clear E. rewrite (finite_is_finite fz (or_intror Cz)). cbn [negb].
  destruct (sub_copy (d0 x) fz Wa Wz Fa Cz) as [st2 [fq [E [Wq [Fq Vq]]]]].
  rewrite E. cbn [bind]. clear E.
  assert (category fq <> Zero) as Nq. { intro A. apply (normal_nonzero F (d0 x) Wa C). rewrite <- Vq. apply value_zero, A. }
  destruct (add_zero fq (neg (d0 x)) Wq Wc Fq Fc) as [st3 [f1 [E [W1 [C1 S1]]]]]; [rewrite value_neg, Vq; ring|left; exact Nq|].
  rewrite E. cbn [bind]. clear E.
  destruct (add_copy fq fz Wq Wz Fq Cz) as [st4 [fq2 [E [Wq2 [Fq2 Vq2]]]]]. rewrite E. cbn [bind]. clear E.
  assert (category fq2 <> Zero) as Nq2. { intro A. apply (normal_nonzero F (d0 x) Wa C). rewrite <- Vq, <- Vq2. apply value_zero, A. }
  destruct (sub_zero fq2 (d0 x) Wq2 Wa Fq2 Fa) as [st5 [f2 [E [W2 [C2 S2]]]]]; [rewrite Vq2, Vq; ring|exact Nq2|].
  rewrite E. cbn [bind]. clear E.
  destruct (add_zero f1 (neg f2) W1 (wf_neg F f2 W2) (or_intror C1)) as [st6 [f3 [E [W3 [C3 S3]]]]];
    [right; rewrite category_neg; exact C2|rewrite value_neg, (value_zero F f1 C1), (value_zero F f2 C2); ring|tauto|].
  rewrite E. cbn [bind]. clear E.
  destruct (add_copy_r f3 (d1 x) W3 Waa C3 S3 Faa) as [st7 [f4 [E [W4 [F4 [V4 S4]]]]]]. rewrite E. cbn [bind]. clear E.
  destruct (add_zero f4 (d1 (dd_neg x)) W4 Wn F4 Fn) as [st8 [f5 [E [W5 [C5 S5]]]]];
    [rewrite V4, Vn; ring| |].
  { destruct F4 as [A|A]; [left; rewrite A; discriminate|]. right. right. left. exact (S4 A). }
  rewrite E. cbn [bind]. clear E. unfold is_zero, is_negative. rewrite C5, S5. cbn [category_eqb negb andb].
  exists (mkDF fz (ZERO F)). split; [reflexivity|]. cbn [d0 d1].
  split; split; [exact Wz|split; assumption|exact (wf_ZERO F HF)|split; reflexivity].
Qed.
End Add.
