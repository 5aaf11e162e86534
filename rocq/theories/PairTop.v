(** * PairTop.v -- sums of pairs in the whole range (src/ppc.rs:188-274) *)
From Coq Require Import ZArith Reals List Bool Lia Lra Psatz.
From Flocq Require Import Core.
From Verif Require Import Machine Sig SpecSig Ieee Ppc Spec SpecTop Norm Arith Order Rem Algebra SpecPair Pair PairOps Special PairBase TwoSum TopSum PairAdd.
Local Open Scope Z_scope.
Ltac Zify.zify_post_hook ::= idtac.

Lemma ties_odd : forall m n, m = NearestTiesToEven \/ m = NearestTiesToAway -> 0 <= n -> Z.odd n = true -> ties m n = true.
Proof.
  intros m n [-> | ->] H O; cbn [ties].
  - rewrite <- Z.negb_odd, O. reflexivity.
  - apply Z.leb_le, H.
Qed.

Section Top.
Variable F : Semantics.
Hypothesis HF : pair_ok F.
Hypothesis P5 : 5 <= PRECISION F.
Variable m : Round.
Hypothesis Hm : m = NearestTiesToEven \/ m = NearestTiesToAway.
Local Notation p := (PRECISION F).
Local Notation emin := (MIN_EXP F - (p - 1)).
Local Notation E := (MAX_EXP F).
Local Notation RN := (rounded F m).
Local Notation Fm := (generic_format r2 (fexp F)).
Local Notation u := (bpow r2 (- p)).
Local Notation U := (bpow r2 (E + 1 - p)).
Local Notation MX := (bpow r2 (E + 1) - bpow r2 (E + 1 - p))%R.
Let FO := F_ok F HF.
Let P4 : 4 <= p. Proof. lia. Qed.

Lemma top_range : emin + 2 * p + 2 <= E.
Proof. pose proof (pok_min F HF). pose proof (pok_max F HF). lia. Qed.
Lemma MX_eq : max_finite F = MX.
Proof. apply max_finite_ieee; [exact FO|exact (pok_ieee F HF)]. Qed.

(** one addition, whatever comes out *)
Lemma add_any : forall x y, wf F x -> wf F y -> finite x -> finite y ->
  exists st f, add_r F x y m = Ret (st, f) /\ wf F f /\ has_sign (value F x + value F y) (zero_sum_sign x y m) f /\
    ((Rabs (RN (value F x + value F y)) <= MX)%R -> finite f /\ value F f = RN (value F x + value F y)) /\
    ((MX < Rabs (RN (value F x + value F y)))%R -> category f = Infinity).
Proof.
  intros x y Hx Hy Fx Fy. destruct (add_r_finite F x y m FO Hx Hy Fx Fy (sides F _ _ (pok_ieee F HF))) as [[st f] [Q [A [S [D O]]]]].
  exists st, f. rewrite MX_eq in D, O. split; [exact Q|]. split; [exact A|]. split; [exact S|]. split.
  - intro H. destruct (D H) as [D1 [D2 _]]. exact (conj D1 D2).
  - intro H. specialize (O H). rewrite (pok_ieee F HF) in O. destruct (to_infinity m (sign f)) eqn:T; [exact (proj2 O)|].
    destruct Hm as [-> | ->]; discriminate T.
Qed.
Lemma sub_any : forall x y, wf F x -> wf F y -> finite x -> finite y ->
  exists st f, sub_r F x y m = Ret (st, f) /\ wf F f /\
    ((Rabs (RN (value F x - value F y)) <= MX)%R -> finite f /\ value F f = RN (value F x - value F y)) /\
    ((MX < Rabs (RN (value F x - value F y)))%R -> category f = Infinity).
Proof.
  intros x y Hx Hy Fx Fy. destruct (sub_r_finite F x y m FO Hx Hy Fx Fy (sides F _ _ (pok_ieee F HF))) as [[st f] [Q [A [S [D O]]]]].
  exists st, f. rewrite MX_eq in D, O. split; [exact Q|]. split; [exact A|]. split.
  - intro H. destruct (D H) as [D1 [D2 _]]. exact (conj D1 D2).
  - intro H. specialize (O H). rewrite (pok_ieee F HF) in O. destruct (to_infinity m (sign f)) eqn:T; [exact (proj2 O)|].
    destruct Hm as [-> | ->]; discriminate T.
Qed.
(** below the largest number *)
Lemma below_max : forall x, wf F x -> finite x -> (Rabs (value F x) < max_finite F)%R -> (Rabs (value F x) <= MX - U)%R.
Proof.
  intros x Wx Fx L. rewrite MX_eq in L. pose proof (value_format F x FO Wx Fx) as G. apply generic_format_abs in G. set (a := Rabs (value F x)) in *.
  pose proof (U_small p E P5) as S. pose proof (U_pos p E) as PU. pose proof (bpow_two E) as TE.
  destruct (Rle_or_lt (bpow r2 E) a) as [A|A]; [|lra].
  pose proof top_range as TR. pose proof (ok_prec F FO) as OP.
  destruct (as_multiple emin p a (E + 1 - p) G ltac:(lia)) as [k K].
  { replace (E + 1 - p + p - 1) with E by ring. rewrite Rabs_pos_eq by (apply Rabs_pos). exact A. }
  rewrite <- (MX_units p E P5) in L |- *. rewrite K in L |- *. apply Rmult_lt_reg_r in L; [|exact PU]. apply lt_IZR in L.
  replace (IZR (2 ^ p - 1) * U - U)%R with (IZR (2 ^ p - 1 - 1) * U)%R by (rewrite (minus_IZR _ 1); ring). apply Rmult_le_compat_r; [lra|]. apply IZR_le. lia.
Qed.

Definition good (x y r : DFloat) : Prop := pair_wf F r /\ pair_finite r /\ value F (d0 r) = RN (pair_value F r) /\
  (Rabs (pair_value F r - (pair_value F x + pair_value F y)) <= add_bound F x y)%R.
Definition over (x y r : DFloat) : Prop := (max_finite F <= Rabs (pair_value F x + pair_value F y))%R /\
  is_special F Infinity (Rlt_bool (pair_value F x + pair_value F y) 0) (d0 r) /\ d1 r = ZERO F.

(** the branch for overflowing sums of the high halves; [b] is the larger operand *)
Lemma overflow_branch_below : forall b k fs fzz, canonical_pair F b -> canonical_pair F k ->
  wf F fs -> finite fs -> wf F fzz -> finite fzz -> value F fs = RN (value F (d1 b) + value F (d1 k)) -> value F fzz = value F fs ->
  (Rabs (value F (d0 k)) < max_finite F)%R -> (Rabs (value F (d0 k)) <= Rabs (value F (d0 b)))%R ->
  (MX < Rabs (RN (value F (d0 b) + value F (d0 k))))%R ->
  exists st1 fw st2 fz, add_r F fs (d0 k) m = Ret (st1, fw) /\ add_r F fw (d0 b) m = Ret (st2, fz) /\
    ((is_finite fz = false /\ over b k (mkDF fz (ZERO F))) \/
     (is_finite fz = true /\ exists st3 f3 st4 f4 st5 f5, sub_r F (d0 b) fz m = Ret (st3, f3) /\ add_r F f3 (d0 k) m = Ret (st4, f4) /\
        add_r F f4 fzz m = Ret (st5, f5) /\ good b k (mkDF fz f5))).
Proof.
  intros b k fs fzz [[Wb Wbb] [[Fb Fbb] Cb]] [[Wk Wkk] [[Fk Fkk] Ck]] Ws Fs Wz Fz Vs Vz Lb Lk O.
  assert (Fm (value F (d0 b)) /\ Fm (value F (d1 b)) /\ Fm (value F (d0 k)) /\ Fm (value F (d1 k))) as [Gb [Gbb [Gk Gkk]]] by (repeat split; apply value_format; assumption).
  pose proof (below_max (d0 k) Wk Fk Lb) as Lb'. pose proof (value_le_max F (d0 b) FO Wb) as Mb. rewrite MX_eq in Mb. pose proof top_range as TR. pose proof (ok_prec F FO) as OP.
  pose proof (U_small p E P5) as SU. pose proof (U_pos p E) as PU. pose proof (bpow_two E) as TE.
  pose proof (ties_sym m) as TS. assert (forall n, 0 <= n -> Z.odd n = true -> ties m n = true) as TO by (intros n; apply ties_odd, Hm).
  assert (MX + / 2 * U <= Rabs (value F (d0 b) + value F (d0 k)))%R as O'.
  { apply Rnot_lt_le. intro L. pose proof (not_over emin p E (ties m) P5 TR _ L) as N. rewrite <- (RN_eq F m Hm) in N. lra. }
  destruct (top_signed emin p E (ties m) P5 TR TO TS (value F (d0 b)) (value F (d1 b)) (value F (d0 k)) (value F (d1 k))) as [B1 [B2 [B3 B4]]]; try assumption.
  { (* the same sign *)
    apply Rnot_le_lt. intro S. assert (Rabs (value F (d0 b) + value F (d0 k)) <= Rabs (value F (d0 b)))%R; [|lra].
    revert S Lk. generalize (value F (d0 b)) (value F (d0 k)). clear. intros a c S L. unfold Rabs in *. destruct (Rcase_abs a), (Rcase_abs c), (Rcase_abs (a + c)); nra. }
  { symmetry. exact Cb. } { symmetry. exact Ck. }
  assert (forall x, round r2 (FLT_exp emin p) (Znearest (ties m)) x = RN x) as RQ by (intro; symmetry; apply RN_eq, Hm).
  rewrite RQ in B1, B2, B3, B4. rewrite RQ in B2, B3, B4. rewrite <- Vs in B1, B2, B3, B4.
  set (vs := value F fs) in *. set (a := value F (d0 b)) in *. set (c := value F (d0 k)) in *. set (w := RN (vs + c)) in *.
  assert (Rabs (vs + c) <= MX)%R as Rw. { pose proof (Rabs_triang vs c). lra. }
  destruct (add_step F HF m fs (d0 k) Ws Wk Fs Fk ltac:(rewrite MX_eq; exact Rw)) as [st1 [fw [E1 [Ww [Fw [Vw _]]]]]]. fold vs c w in Vw.
  destruct (add_any fw (d0 b) Ww Wb Fw Fb) as [st2 [fz [E2 [Wfz [Sz [Dz Oz]]]]]]. rewrite Vw in Sz, Dz, Oz. fold a in Sz, Dz, Oz.
  exists st1, fw, st2, fz. split; [exact E1|]. split; [exact E2|].
  destruct (Rle_or_lt (Rabs (RN (w + a))) MX) as [L|L].
  - right. destruct (Dz L) as [Ff Vf]. split; [exact (finite_is_finite fz Ff)|].
    assert (Rabs (w + a) < MX + / 2 * U)%R as L'. { apply (in_range emin p E (ties m) P5 TR TO TS). rewrite <- (RN_eq F m Hm). exact L. }
    destruct (B4 L') as [T [T1 [T2 [T3 [T4 [T5 [T6 [T7 [T8 T9]]]]]]]]]. rewrite <- ?(RN_eq F m Hm) in T2, T3, T4, T7, T8, T9. rewrite <- ?(RN_eq F m Hm) in T7. rewrite T2 in Vf.
    destruct (sub_step F HF m (d0 b) fz Wb Wfz Fb Ff) as [st3 [f3 [E3 [W3 [F3 [V3 _]]]]]]. { rewrite Vf, MX_eq. exact T5. }
    rewrite Vf in V3. fold a in V3. rewrite T3 in V3.
    destruct (add_step F HF m f3 (d0 k) W3 Wk F3 Fk) as [st4 [f4 [E4 [W4 [F4 [V4 _]]]]]]. { rewrite V3, MX_eq. fold c. lra. }
    rewrite V3 in V4. fold c in V4. rewrite T4 in V4.
    destruct (add_step F HF m f4 fzz W4 Wz F4 Fz) as [st5 [f5 [E5 [W5 [F5 [V5 _]]]]]]. { rewrite V4, Vz, MX_eq. pose proof (Rabs_triang (a - T + c) vs). lra. }
    rewrite V4, Vz in V5.
    exists st3, f3, st4, f4, st5, f5. split; [exact E3|]. split; [exact E4|]. split; [exact E5|].
    unfold good, pair_wf, pair_finite, pair_value, add_bound. cbn [d0 d1]. rewrite Vf, V5. fold a c. rewrite bound_eq.
    exact (conj (conj Wfz W5) (conj (conj Ff F5) (conj (eq_sym T7) T9))).
  - left. specialize (Oz L).
    assert (MX + / 2 * U <= Rabs (w + a))%R as L'. { apply Rnot_lt_le. intro Q. pose proof (not_over emin p E (ties m) P5 TR _ Q) as N. rewrite <- (RN_eq F m Hm) in N. lra. }
    destruct (B3 L') as [B5 B6]. split; [unfold is_finite, is_nan, is_infinite; rewrite Oz; reflexivity|].
    unfold over, pair_value. cbn [d0 d1]. fold a c. rewrite MX_eq. split; [exact B5|]. split; [|reflexivity]. split; [exact Wfz|]. split; [exact Oz|].
    destruct Sz as [S1 [S2 _]]. set (S := (a + value F (d1 b) + (c + value F (d1 k)))%R) in *. unfold Rlt_bool. destruct (Rcompare_spec S 0) as [Q|Q|Q].
    + apply S1. apply Rnot_le_lt. intro G. assert ((w + a) * S <= 0)%R by nra. lra.
    + rewrite Q, Rmult_0_r in B6. lra.
    + apply S2. apply Rnot_le_lt. intro G. assert ((w + a) * S <= 0)%R by nra. lra.
Qed.

(** both high halves the largest number *)
Lemma overflow_branch_max : forall b k fs, canonical_pair F b -> canonical_pair F k ->
  wf F fs -> finite fs -> value F fs = RN (value F (d1 b) + value F (d1 k)) ->
  Rabs (value F (d0 k)) = max_finite F -> (Rabs (value F (d0 k)) <= Rabs (value F (d0 b)))%R ->
  (MX < Rabs (RN (value F (d0 b) + value F (d0 k))))%R ->
  exists st1 fw st2 fz, add_r F fs (d0 k) m = Ret (st1, fw) /\ add_r F fw (d0 b) m = Ret (st2, fz) /\
    is_finite fz = false /\ over b k (mkDF fz (ZERO F)).
Proof.
  intros b k fs Hb Hk Ws Fs Vs Lk Lb O. pose proof (canonical_low F HF P4 b Hb) as La. pose proof (canonical_low F HF P4 k Hk) as Lc.
  destruct Hb as [[Wb Wbb] [[Fb Fbb] Cb]], Hk as [[Wk Wkk] [[Fk Fkk] Ck]].
  pose proof (value_le_max F (d0 b) FO Wb) as Mb. rewrite MX_eq in Mb, Lk. pose proof top_range as TR.
  pose proof (U_small p E P5) as SU. pose proof (U_pos p E) as PU. pose proof (bpow_two E) as TE. pose proof (U_scale p E) as US. pose proof (u_le_1 F P4) as [U0 U1].
  assert (MX + / 2 * U <= Rabs (value F (d0 b) + value F (d0 k)))%R as O'.
  { apply Rnot_lt_le. intro L. pose proof (not_over emin p E (ties m) P5 TR _ L) as N. rewrite <- (RN_eq F m Hm) in N. lra. }
  assert (forall x, round r2 (FLT_exp emin p) (Znearest (ties m)) x = RN x) as RQ by (intro; symmetry; apply RN_eq, Hm).
  unfold over, pair_value. cbn [d0 d1]. rewrite MX_eq.
  set (a := value F (d0 b)) in *. set (c := value F (d0 k)) in *. set (aa := value F (d1 b)) in *. set (cc := value F (d1 k)) in *. set (s := value F fs) in *.
  assert (Rabs aa <= U)%R as Baa. { apply Rle_trans with (1 := La). rewrite US. apply Rmult_le_compat_l; lra. }
  assert (Rabs cc <= U)%R as Bcc. { apply Rle_trans with (1 := Lc). rewrite US. apply Rmult_le_compat_l; lra. }
  assert (Rabs s <= 2 * U)%R as Bs.
  { rewrite Vs, (RN_eq F m Hm), <- bpow_two. apply RN_le_bpow; [lia|lia|]. rewrite bpow_two. pose proof (Rabs_triang aa cc). lra. }
  assert (forall v, (MX - 2 * U <= v)%R -> (MX - 2 * U <= RN v)%R) as MO.
  { intros v H. rewrite <- RQ. apply (mono emin p (ties m) P5); [|exact H]. pose proof (ok_prec F FO).
    apply (scaled emin p P5 _ (2 ^ p - 3) (E + 1 - p)); [rewrite minus_IZR, <- (MX_units p E P5), minus_IZR; ring|lia|].
    replace (E + 1 - p + p) with (E + 1) by ring. rewrite Rabs_pos_eq; lra. }
  assert (forall v, (v <= - (MX - 2 * U))%R -> (RN v <= - (MX - 2 * U))%R) as MO'.
  { intros v H. assert (RN (- v) = - RN v)%R as Q by (rewrite <- !RQ; apply RN_opp; apply ties_sym). pose proof (MO (- v)%R ltac:(lra)) as X. rewrite Q in X. lra. }
  assert (exists t, (t = 1 \/ t = -1)%R /\ a = (t * MX)%R /\ c = (t * MX)%R) as [t [T [Ea Ec]]].
  { assert (Rabs a = MX) as Ra by lra. unfold Rabs in Ra, Lk, O'. destruct (Rcase_abs a), (Rcase_abs c), (Rcase_abs (a + c)); try lra.
    - exists (-1)%R. split; [right; reflexivity|]. split; lra.
    - exists 1%R. split; [left; reflexivity|]. split; lra. }
  set (S := (a + aa + (c + cc))%R).
  assert (MX <= Rabs S)%R as MS. { apply Rabs_le_inv in Baa. apply Rabs_le_inv in Bcc. unfold S, Rabs. destruct (Rcase_abs _), T as [-> | ->]; lra. }
  assert (0 < t * S)%R as TS. { apply Rabs_le_inv in Baa. apply Rabs_le_inv in Bcc. unfold S. destruct T as [-> | ->]; lra. }
  apply Rabs_le_inv in Bs.
  assert (forall (v : R) zs f, (0 < t * v)%R -> has_sign v zs f -> sign f = Rlt_bool S 0) as SG.
  { intros v zs f Hv [H1 [H2 _]]. unfold Rlt_bool. destruct (Rcompare_spec S 0) as [Q|Q|Q]; [|rewrite Q in TS; lra|].
    - apply H1. destruct T as [-> | ->]; lra.
    - apply H2. destruct T as [-> | ->]; lra. }
  destruct (add_any fs (d0 k) Ws Wk Fs Fk) as [st1 [fw [E1 [Ww [Sw [Dw Ow]]]]]]. fold s c in Sw, Dw, Ow.
  destruct (Rle_or_lt (Rabs (RN (s + c))) MX) as [L|L].
  - destruct (Dw L) as [Fw Vw]. destruct (add_any fw (d0 b) Ww Wb Fw Fb) as [st2 [fz [E2 [Wz [Sz [_ Oz]]]]]]. rewrite Vw in Sz, Oz. fold a in Sz, Oz.
    assert (MX - 2 * U <= t * RN (s + c))%R as B. { destruct T as [-> | ->]; [pose proof (MO (s + c)%R)|pose proof (MO' (s + c)%R)]; lra. }
    assert (category fz = Infinity) as Cz.
    { apply Oz. rewrite <- RQ. assert (MX < Rabs (round r2 (FLT_exp emin p) (Znearest (ties m)) (RN (s + c) + a)))%R as Q; [|exact Q].
      apply Rnot_le_lt. intro H. pose proof (in_range emin p E (ties m) P5 TR (fun n => ties_odd m n Hm) (ties_sym m) _ H) as H'.
      unfold Rabs in H'. destruct (Rcase_abs _), T as [-> | ->]; lra. }
    exists st1, fw, st2, fz. split; [exact E1|]. split; [exact E2|]. split; [unfold is_finite, is_nan, is_infinite; rewrite Cz; reflexivity|].
    split; [exact MS|]. split; [|reflexivity]. split; [exact Wz|]. split; [exact Cz|]. apply (SG _ _ _) with (2 := Sz). destruct T as [-> | ->]; lra.
  - specialize (Ow L). destruct (add_r_infinite F fw (d0 b) m FO Ww Wb) as [st2 [fz [E2 H]]]; [rewrite Ow; discriminate|destruct Fb as [C|C]; rewrite C; discriminate|left; exact Ow|].
    exists st1, fw, st2, fz. split; [exact E1|]. split; [exact E2|].
    assert (is_special F Infinity (sign fw) fz) as [Wz [Cz Sz]]. { rewrite Ow in H. destruct Fb as [C|C]; rewrite C in H; exact (proj2 H). }
    split; [unfold is_finite, is_nan, is_infinite; rewrite Cz; reflexivity|].
    split; [exact MS|]. split; [|reflexivity]. split; [exact Wz|]. split; [exact Cz|]. rewrite Sz. apply (SG _ _ _) with (2 := Sw). destruct T as [-> | ->]; lra.
Qed.
Lemma overflow_branch : forall b k fs fzz, canonical_pair F b -> canonical_pair F k ->
  wf F fs -> finite fs -> wf F fzz -> finite fzz -> value F fs = RN (value F (d1 b) + value F (d1 k)) -> value F fzz = value F fs ->
  (Rabs (value F (d0 k)) <= Rabs (value F (d0 b)))%R -> (MX < Rabs (RN (value F (d0 b) + value F (d0 k))))%R ->
  exists st1 fw st2 fz, add_r F fs (d0 k) m = Ret (st1, fw) /\ add_r F fw (d0 b) m = Ret (st2, fz) /\
    ((is_finite fz = false /\ over b k (mkDF fz (ZERO F))) \/
     (is_finite fz = true /\ exists st3 f3 st4 f4 st5 f5, sub_r F (d0 b) fz m = Ret (st3, f3) /\ add_r F f3 (d0 k) m = Ret (st4, f4) /\
        add_r F f4 fzz m = Ret (st5, f5) /\ good b k (mkDF fz f5))).
Proof.
  intros b k fs fzz Hb Hk Ws Fs Wz Fz Vs Vz Lk O. pose proof (value_le_max F (d0 k) FO (proj1 (proj1 Hk))) as M.
  destruct (Rle_lt_or_eq_dec _ _ M) as [L|L]; [exact (overflow_branch_below b k fs fzz Hb Hk Ws Fs Wz Fz Vs Vz L Lk O)|].
  destruct (overflow_branch_max b k fs Hb Hk Ws Fs Vs L Lk O) as [st1 [fw [st2 [fz [A [B C]]]]]].
  exists st1, fw, st2, fz. split; [exact A|]. split; [exact B|]. left. exact C.
Qed.

(** the difference of a rounded sum and its first term *)
Lemma top_difference : forall a c z : R, (Rabs a <= MX)%R -> (Rabs c <= MX)%R -> ((Rabs c < MX)%R -> (Rabs c <= MX - U)%R) ->
  (Rabs z <= MX)%R -> (Rabs (z - (a + c)) <= / 2 * U)%R -> ~ (a * c < 0 /\ Rabs c = MX /\ Rabs z = Rabs (a + c) + / 2 * U)%R -> (Rabs (a - z) < MX + / 2 * U)%R.
Proof.
  intros a c z A C C' Z1 Z2 N. pose proof (U_pos p E) as PU. pose proof (U_small p E P5) as SU.
  destruct (Rle_lt_or_eq_dec _ _ C) as [C1|C1].
  { specialize (C' C1). replace (a - z)%R with (- (z - (a + c)) + - c)%R by ring. pose proof (Rabs_triang (- (z - (a + c))) (- c)) as T. rewrite !Rabs_Ropp in T. lra. }
  clear C'. apply Rabs_le_inv in A. apply Rabs_le_inv in Z1. apply Rabs_le_inv in Z2.
  apply Rnot_le_lt. intro L. apply N. split; [|split; [exact C1|]].
  - apply Rnot_le_lt. intro P. unfold Rabs in C1, L. destruct (Rcase_abs c).
    + assert (a <= 0)%R by nra. destruct (Rcase_abs (a - z)); lra.
    + assert (0 <= a)%R by nra. destruct (Rcase_abs (a - z)); lra.
  - unfold Rabs in C1, L. destruct (Rcase_abs c).
    + rewrite (Rabs_left1 (a + c)), (Rabs_left1 z) by (destruct (Rcase_abs (a - z)); lra). destruct (Rcase_abs (a - z)); lra.
    + rewrite (Rabs_pos_eq (a + c)), (Rabs_pos_eq z) by (destruct (Rcase_abs (a - z)); lra). destruct (Rcase_abs (a - z)); lra.
Qed.

(** the sum of the high halves does not overflow *)
Lemma regular_branch : forall x y, canonical_pair F x -> canonical_pair F y ->
  ~ lost_tie F m x y -> (Rabs (RN (value F (d0 x) + value F (d0 y))) <= MX)%R ->
  exists st r, dd_add_normal F x y m = Ret (st, r) /\ (good x y r \/ over x y r).
Proof.
  intros x y Hx Hy NL. unfold lost_tie in NL. rewrite MX_eq in NL. pose proof (canonical_low F HF P4 x Hx) as La. pose proof (canonical_low F HF P4 y Hy) as Lc.
  revert La Lc. destruct Hx as [[Wa Waa] [[Fa Faa] Cx]], Hy as [[Wc Wcc] [[Fc Fcc] Cy]].
  pose proof (below_max (d0 x) Wa Fa) as Ba'. pose proof (below_max (d0 y) Wc Fc) as Bc'. rewrite MX_eq in Ba', Bc'.
  pose proof (value_le_max F (d0 x) FO Wa) as Ba. pose proof (value_le_max F (d0 y) FO Wc) as Bc. rewrite MX_eq in Ba, Bc.
  unfold over, good, pair_wf, pair_finite, add_bound, pair_value in *. rewrite bound_eq, MX_eq.
  assert (Fm (value F (d0 x)) /\ Fm (value F (d1 x)) /\ Fm (value F (d0 y)) /\ Fm (value F (d1 y))) as [Ga [Gaa [Gc Gcc]]] by (repeat split; apply value_format; assumption).
  pose proof top_range as TR. pose proof (ok_prec F FO) as OP.
  pose proof (U_small p E P5) as SU. pose proof (U_pos p E) as PU. pose proof (bpow_two E) as TE. pose proof (U_scale p E) as US.
  pose proof (ties_sym m) as TS. assert (forall n, 0 <= n -> Z.odd n = true -> ties m n = true) as TO by (intros n; apply ties_odd, Hm).
  assert (forall x, round r2 (FLT_exp emin p) (Znearest (ties m)) x = RN x) as RQ by (intro; symmetry; apply RN_eq, Hm).
  assert (forall x, (Rabs x < bpow r2 (E + 1))%R -> (Rabs (RN x - x) <= / 2 * U)%R) as ER. { intros v H. rewrite <- RQ. apply (err_U emin p E (ties m) P5 TR v H). }
  set (a := value F (d0 x)) in *. set (c := value F (d0 y)) in *. set (aa := value F (d1 x)) in *. set (cc := value F (d1 y)) in *.
  intros La Lc R. set (z := RN (a + c)) in *. set (zz := RN (RN (a + c - z + aa) + cc)).
  pose proof (u_le_1 F P4) as [U0 U1].
  assert (Rabs (a + c) < MX + / 2 * U)%R as Rac. { apply (in_range emin p E (ties m) P5 TR TO TS). rewrite RQ. exact R. }
  assert (Rabs (z - (a + c)) <= / 2 * U)%R as Ez by (apply ER; lra).
  (* the low halves are at most one unit *)
  assert (Rabs aa <= U)%R as Raa. { apply Rle_trans with (1 := La). rewrite US. apply Rmult_le_compat_l; lra. }
  assert (Rabs cc <= U)%R as Rcc. { apply Rle_trans with (1 := Lc). rewrite US. apply Rmult_le_compat_l; lra. }
  unfold dd_add_normal.
  destruct (add_any (d0 x) (d0 y) Wa Wc Fa Fc) as [st1 [fz [E1 [Wz [_ [Dz _]]]]]]. rewrite E1. cbn [bind]. clear E1. fold a c in Dz. fold z in Dz. destruct (Dz R) as [Fz Vz]. clear Dz.
  rewrite (finite_is_finite fz Fz). cbn [negb].
  (* q = a - z *)
  set (q := RN (a - z)).
  assert (Rabs (a - z) < MX + / 2 * U)%R as Rq0 by (apply (top_difference a c z); assumption).
  assert (Rabs (q - (a - z)) <= / 2 * U)%R as Eq by (apply ER; lra).
  destruct (sub_any (d0 x) fz Wa Wz Fa Fz) as [st2 [fq [E1 [Wq [Dq _]]]]]. rewrite E1. cbn [bind]. clear E1.
  rewrite Vz in Dq. fold a in Dq. fold q in Dq. destruct Dq as [Fq Vq]. { unfold q. rewrite <- RQ. apply (not_over emin p E (ties m) P5 TR). exact Rq0. }
  (* q + c *)
  assert (Rabs (q + c) <= U)%R as Rq1.
  { replace (q + c)%R with ((q - (a - z)) + - (z - (a + c)))%R by ring. pose proof (Rabs_triang (q - (a - z)) (- (z - (a + c)))) as T. rewrite Rabs_Ropp in T. lra. }
  assert (forall v, (Rabs v <= U)%R -> (Rabs (RN v) <= U)%R) as RU. { intros v Hv. rewrite (RN_eq F m Hm). apply RN_le_bpow; [lia|lia|exact Hv]. }
  pose proof (RU _ Rq1) as Rq1'.
  destruct (add_step F HF m fq (d0 y) Wq Wc Fq Fc) as [st3 [fzz1 [E1 [Wzz1 [Fzz1 [Vzz1 _]]]]]]; [rewrite Vq, MX_eq; fold c; lra|]. rewrite E1. cbn [bind]. clear E1.
  rewrite Vq in Vzz1. fold c in Vzz1.
  (* q + z *)
  assert (Rabs (q + z - a) <= / 2 * U)%R as Rq2. { replace (q + z - a)%R with (q - (a - z))%R by ring. exact Eq. }
  assert (Rabs (q + z) <= MX)%R as Rq2'.
  { destruct (Rle_lt_or_eq_dec _ _ Ba) as [Ba1|Ba1].
    2: { pose proof (max_minus emin p E (ties m) P5 TR TS a c Gc Ba1 Bc) as G. rewrite RQ in G. fold z in G. specialize (G R).
         assert (q = a - z)%R as ->. { unfold q. rewrite <- RQ. apply RN_exact. exact G. } replace (a - z + z)%R with a by ring. exact Ba. }
    specialize (Ba' Ba1). replace (q + z)%R with ((q + z - a) + a)%R by ring. pose proof (Rabs_triang (q + z - a) a). lra. }
  destruct (add_step F HF m fq fz Wq Wz Fq Fz) as [st4 [fq2 [E1 [Wq2 [Fq2 [Vq2 _]]]]]]; [rewrite Vq, Vz, MX_eq; exact Rq2'|]. rewrite E1. cbn [bind]. clear E1.
  rewrite Vq, Vz in Vq2.
  (* (q + z) - a *)
  assert (Rabs (RN (q + z) - a) <= U)%R as Rq3.
  { pose proof (ER (q + z)%R ltac:(lra)) as X. replace (RN (q + z) - a)%R with ((RN (q + z) - (q + z)) + (q + z - a))%R by ring. pose proof (Rabs_triang (RN (q + z) - (q + z)) (q + z - a)). lra. }
  pose proof (RU _ Rq3) as Rq3'.
  destruct (sub_step F HF m fq2 (d0 x) Wq2 Wa Fq2 Fa) as [st5 [fq3 [E1 [Wq3 [Fq3 [Vq3 _]]]]]]; [rewrite Vq2, MX_eq; fold a; lra|]. rewrite E1. cbn [bind]. clear E1.
  rewrite Vq2 in Vq3. fold a in Vq3.
  set (e := (a + c - z)%R) in *.
  assert (RN (RN (q + c) + - RN (RN (q + z) - a)) = e) as TW.
  { pose proof (two_sum emin p (ties m) P4 (emin_neg F HF P4) TS a c Ga Gc) as W. cbv zeta in W. rewrite !RQ in W. exact W. }
  assert (Rabs (RN (q + c) + - RN (RN (q + z) - a)) <= 2 * U)%R as Rs.
  { pose proof (Rabs_triang (RN (q + c)) (- RN (RN (q + z) - a))) as T0. rewrite Rabs_Ropp in T0. lra. }
  destruct (add_step F HF m fzz1 (neg fq3) Wzz1 (wf_neg F fq3 Wq3) Fzz1 (finite_neg fq3 Fq3)) as [st6 [fe [E1 [We [Fe [Ve _]]]]]];
    [rewrite value_neg, Vzz1, Vq3, MX_eq; lra|]. rewrite E1. cbn [bind]. clear E1.
  rewrite value_neg, Vzz1, Vq3, TW in Ve.
  destruct (sum_low_bounds emin p (ties m) P4 a aa c cc Ga Gaa Gc Gcc La Lc) as [Ezz Bzz]. rewrite !RQ in Ezz, Bzz. fold z e in Ezz, Bzz. rewrite ?RQ in Ezz, Bzz. fold zz in Ezz, Bzz.
  assert (Rabs e <= U)%R as Re. { unfold e. rewrite Rabs_minus_sym. lra. }
  assert (Rabs (e + aa) <= 2 * U)%R as Rea by (pose proof (Rabs_triang e aa); lra).
  assert (forall v, (Rabs v <= 2 * U)%R -> (Rabs (RN v) <= 2 * U)%R) as RU2.
  { intros v Hv. rewrite (RN_eq F m Hm). rewrite <- bpow_two in Hv |- *. apply RN_le_bpow; [lia|lia|exact Hv]. }
  pose proof (RU2 _ Rea) as Rea'.
  destruct (add_step F HF m fe (d1 x) We Waa Fe Faa) as [st7 [ft [E1 [Wt [Ft [Vt _]]]]]]; [rewrite Ve, MX_eq; fold aa; lra|]. rewrite E1. cbn [bind]. clear E1.
  rewrite Ve in Vt. fold aa in Vt.
  assert (Rabs (RN (e + aa) + cc) <= 3 * U)%R as Rt by (pose proof (Rabs_triang (RN (e + aa)) cc); lra).
  destruct (add_step F HF m ft (d1 y) Wt Wcc Ft Fcc) as [st8 [fzz [E1 [Wzz [Fzz [Vzz _]]]]]]; [rewrite Vt, MX_eq; fold cc; lra|]. rewrite E1. cbn [bind]. clear E1.
  rewrite Vt in Vzz. fold cc in Vzz. fold e zz in Vzz.
  assert (Rabs zz <= 4 * U)%R as Rzz. { unfold zz. fold e. pose proof (ER (RN (e + aa) + cc)%R ltac:(lra)) as X. replace (RN (RN (e + aa) + cc)) with ((RN (RN (e + aa) + cc) - (RN (e + aa) + cc)) + (RN (e + aa) + cc))%R by ring. apply Rle_trans with (1 := Rabs_triang _ _). lra. }
  assert (Fm zz /\ Fm z) as [Gzz Gz]. { rewrite <- Vzz, <- Vz. split; apply value_format; assumption. }
  assert (Rabs (z + zz - (a + aa + (c + cc))) <= 4 * (u * u) * (Rabs a + Rabs c))%R as ERR.
  { replace (z + zz - (a + aa + (c + cc)))%R with (zz - (e + aa + cc))%R by (unfold e; ring). exact Ezz. }
  destruct (is_zero fzz && negb (is_negative fzz)) eqn:Z.
  - exists OK, (mkDF fz (ZERO F)). split; [reflexivity|]. left.
    apply andb_true_iff in Z. destruct Z as [Z _]. unfold is_zero in Z.
    assert (zz = 0)%R as Z0. { rewrite <- Vzz. apply value_zero. destruct (category fzz); try discriminate; reflexivity. }
    cbn [d0 d1]. rewrite (value_zero F (ZERO F) eq_refl), Vz. rewrite Z0 in ERR.
    split; [split; [exact Wz|exact (wf_ZERO F HF)]|]. split; [split; [exact Fz|right; reflexivity]|]. split; [|exact ERR].
    rewrite Rplus_0_r. symmetry. rewrite (RN_eq F m Hm). apply RN_exact. exact Gz.
  - destruct (add_any fz fzz Wz Wzz Fz Fzz) as [st9 [fr0 [E1 [Wr0 [Sr0 [Dr0 Or0]]]]]]. rewrite E1. cbn [bind]. clear E1. rewrite Vz, Vzz in Sr0, Dr0, Or0.
    destruct (Rle_or_lt (Rabs (RN (z + zz))) MX) as [L|L].
    + destruct (Dr0 L) as [Fr0 Vr0]. rewrite (finite_is_finite fr0 Fr0). cbn [negb].
      assert (Rabs (z + zz) < MX + / 2 * U)%R as Lz. { apply (in_range emin p E (ties m) P5 TR TO TS). rewrite RQ. exact L. }
      pose proof (ER (z + zz)%R ltac:(lra)) as Er.
      assert (Rabs (z - RN (z + zz)) <= 5 * U)%R as Rd.
      { replace (z - RN (z + zz))%R with (- (RN (z + zz) - (z + zz)) + - zz)%R by ring. pose proof (Rabs_triang (- (RN (z + zz) - (z + zz))) (- zz)) as T. rewrite !Rabs_Ropp in T. lra. }
      pose proof (ER (z - RN (z + zz))%R ltac:(lra)) as Ed.
      destruct (sub_step F HF m fz fr0 Wz Wr0 Fz Fr0) as [st10 [fd [E1 [Wd [Fd [Vd _]]]]]]; [rewrite Vz, Vr0, MX_eq; lra|]. rewrite E1. cbn [bind]. clear E1.
      rewrite Vz, Vr0 in Vd.
      destruct (add_step F HF m fd fzz Wd Wzz Fd Fzz) as [st11 [fr1 [E1 [Wr1 [Fr1 [Vr1 _]]]]]].
      { rewrite Vd, Vzz, MX_eq. replace (RN (z - RN (z + zz)) + zz)%R with ((RN (z - RN (z + zz)) - (z - RN (z + zz))) + - (RN (z + zz) - (z + zz)))%R by ring.
        pose proof (Rabs_triang (RN (z - RN (z + zz)) - (z - RN (z + zz))) (- (RN (z + zz) - (z + zz)))) as T. rewrite Rabs_Ropp in T. lra. }
      rewrite E1. cbn [bind]. clear E1. rewrite Vd, Vzz in Vr1.
      pose proof (sum_exact emin p (ties m) P4 (emin_neg F HF P4) TS a c zz Ga Gc Gzz Bzz) as X. cbv zeta in X. rewrite !RQ in X. fold z in X. rewrite X in Vr1.
      eexists. exists (mkDF fr0 fr1). split; [reflexivity|]. left. cbn [d0 d1]. rewrite Vr0, Vr1.
      replace (RN (z + zz) + (z + zz - RN (z + zz)))%R with (z + zz)%R by ring. exact (conj (conj Wr0 Wr1) (conj (conj Fr0 Fr1) (conj eq_refl ERR))).
    + specialize (Or0 L). assert (is_finite fr0 = false) as IF by (unfold is_finite, is_nan, is_infinite; rewrite Or0; reflexivity). rewrite IF. cbn [negb].
      eexists. exists (mkDF fr0 (ZERO F)). split; [reflexivity|]. right. cbn [d0 d1].
      assert (MX + / 2 * U <= Rabs (z + zz))%R as L'. { apply Rnot_lt_le. intro Q. pose proof (not_over emin p E (ties m) P5 TR _ Q) as N. rewrite RQ in N. lra. }
      set (S := (a + aa + (c + cc))%R) in *.
      assert (4 * (u * u) * (Rabs a + Rabs c) <= / 4 * U)%R as EB.
      { assert (Rabs a + Rabs c <= 2 * bpow r2 (E + 1))%R as AC by lra.
        assert (u <= / 32)%R as U2. { change (/ 32)%R with (bpow r2 (-5)). apply bpow_le. lia. }
        apply Rle_trans with (4 * (u * u) * (2 * bpow r2 (E + 1)))%R; [apply Rmult_le_compat_l; [pose proof (Rmult_lt_0_compat u u U0 U0); lra|exact AC]|].
        replace (4 * (u * u) * (2 * bpow r2 (E + 1)))%R with (u * (8 * (u * bpow r2 (E + 1))))%R by ring. rewrite <- US.
        apply Rle_trans with (/ 32 * (8 * U))%R; [apply Rmult_le_compat_r; lra|lra]. }
      assert (Rabs (z + zz - S) <= / 4 * U)%R as ES by lra. clear ERR EB.
      split.
      * pose proof (Rabs_triang (z + zz - S) S) as T. replace (z + zz - S + S)%R with (z + zz)%R in T by ring. lra.
      * split; [|reflexivity]. split; [exact Wr0|]. split; [exact Or0|]. destruct Sr0 as [S1 [S2 _]]. apply Rabs_le_inv in ES.
        unfold Rlt_bool. destruct (Rcompare_spec S 0) as [Q|Q|Q].
        -- apply S1. unfold Rabs in L'. destruct (Rcase_abs (z + zz)); lra.
        -- exfalso. unfold Rabs in L'. destruct (Rcase_abs (z + zz)); lra.
        -- apply S2. unfold Rabs in L'. destruct (Rcase_abs (z + zz)); lra.
Qed.

(** the lost tie *)
Definition nan (r : DFloat) : Prop := category (d0 r) = NaN /\ d1 r = ZERO F.
Lemma lost_overflow : forall a c z : R, (Rabs a <= MX)%R -> (Rabs z <= MX)%R -> (a + c <= 0 -> z <= 0)%R -> (0 <= a + c -> 0 <= z)%R -> Rabs c = MX -> (a * c < 0)%R -> (Rabs z = Rabs (a + c) + / 2 * U)%R -> (Rabs (z - (a + c)) <= / 2 * U)%R ->
  (MX + / 2 * U <= Rabs (a - z))%R.
Proof.
  intros a c z A Z1 N1 N2 C P Z2 Z3. pose proof (U_pos p E) as PU. pose proof (U_small p E P5) as SU.
  apply Rabs_le_inv in A. apply Rabs_le_inv in Z3. unfold Rabs in C, Z2. destruct (Rcase_abs c).
  - assert (0 < a)%R by nra. specialize (N1 ltac:(lra)). destruct (Rcase_abs (a + c)), (Rcase_abs z); try lra; rewrite Rabs_pos_eq; lra.
  - assert (a < 0)%R by nra. specialize (N2 ltac:(lra)). destruct (Rcase_abs (a + c)), (Rcase_abs z); try lra; rewrite Rabs_left1; lra.
Qed.
Lemma lost_branch : forall x y, canonical_pair F x -> canonical_pair F y -> lost_tie F m x y ->
  exists st r, dd_add_normal F x y m = Ret (st, r) /\ nan r /\ Z.testbit st 0 = true.
Proof.
  intros x y [[Wa Waa] [[Fa Faa] Cx]] [[Wc Wcc] [[Fc Fcc] Cy]] [NL1 [NL2 NL3]]. rewrite MX_eq in NL2.
  pose proof (value_le_max F (d0 x) FO Wa) as Ba. rewrite MX_eq in Ba. pose proof top_range as TR. pose proof (ok_prec F FO) as OP.
  pose proof (U_small p E P5) as SU. pose proof (U_pos p E) as PU.
  assert (forall x, round r2 (FLT_exp emin p) (Znearest (ties m)) x = RN x) as RQ by (intro; symmetry; apply RN_eq, Hm).
  set (a := value F (d0 x)) in *. set (c := value F (d0 y)) in *. set (z := RN (a + c)) in *.
  assert (Rabs (a + c) <= MX)%R as Bac.
  { apply Rabs_le_inv in Ba. apply Rabs_le. unfold Rabs in NL2. destruct (Rcase_abs c); [assert (0 < a)%R by nra|assert (a < 0)%R by nra]; lra. }
  assert (Rabs z <= MX)%R as Bz. { unfold z. rewrite <- RQ. apply (not_over emin p E (ties m) P5 TR). lra. }
  assert (Rabs (z - (a + c)) <= / 2 * U)%R as Ez. { unfold z. rewrite <- RQ. apply (err_U emin p E (ties m) P5 TR). lra. }
  assert (MX < Rabs (RN (a - z)))%R as O.
  { apply Rnot_le_lt. intro H. rewrite <- RQ in H. pose proof (in_range emin p E (ties m) P5 TR (fun n => ties_odd m n Hm) (ties_sym m) _ H) as H'.
    pose proof (lost_overflow a c z Ba Bz) as Q. assert (MX + / 2 * U <= Rabs (a - z))%R; [|lra]. apply Q; try assumption.
    - intro G. unfold z. rewrite <- RQ. apply (mono' emin p (ties m) P5); [apply generic_format_0|exact G].
    - intro G. unfold z. rewrite <- RQ. apply (mono emin p (ties m) P5); [apply generic_format_0|exact G]. }
  unfold dd_add_normal.
  destruct (add_any (d0 x) (d0 y) Wa Wc Fa Fc) as [st1 [fz [E1 [Wz [_ [Dz _]]]]]]. rewrite E1. cbn [bind]. clear E1. fold a c in Dz. fold z in Dz. destruct (Dz Bz) as [Fz Vz]. clear Dz.
  rewrite (finite_is_finite fz Fz). cbn [negb].
  destruct (sub_any (d0 x) fz Wa Wz Fa Fz) as [st2 [fq [E1 [Wq [_ Oq]]]]]. rewrite E1. cbn [bind]. clear E1. rewrite Vz in Oq. fold a in Oq. specialize (Oq O).
  assert (forall f, finite f -> category f <> NaN) as NF by (intros f [C|C]; rewrite C; discriminate).
  assert (forall f g, wf F f -> wf F g -> category f = Infinity -> finite g -> exists st h, add_r F f g m = Ret (st, h) /\ is_special F Infinity (sign f) h) as AI.
  { intros f g Wf Wg Cf Fg. destruct (add_r_infinite F f g m FO Wf Wg ltac:(rewrite Cf; discriminate) (NF g Fg) (or_introl Cf)) as [st [h [A B]]].
    exists st, h. split; [exact A|]. rewrite Cf in B. destruct Fg as [C|C]; rewrite C in B; exact (proj2 B). }
  assert (forall f g, wf F f -> wf F g -> category f = Infinity -> finite g -> exists st h, sub_r F f g m = Ret (st, h) /\ is_special F Infinity (sign f) h) as SI.
  { intros f g Wf Wg Cf Fg. destruct (sub_r_infinite F f g m FO Wf Wg ltac:(rewrite Cf; discriminate) (NF g Fg) (or_introl Cf)) as [st [h [A B]]].
    exists st, h. split; [exact A|]. rewrite Cf in B. destruct Fg as [C|C]; rewrite C in B; exact (proj2 B). }
  destruct (AI fq (d0 y) Wq Wc Oq Fc) as [st3 [f1 [E1 [W1 [C1 S1]]]]]. rewrite E1. cbn [bind]. clear E1.
  destruct (AI fq fz Wq Wz Oq Fz) as [st4 [f2 [E1 [W2 [C2 S2]]]]]. rewrite E1. cbn [bind]. clear E1.
  destruct (SI f2 (d0 x) W2 Wa C2 Fa) as [st5 [f3 [E1 [W3 [C3 S3]]]]]. rewrite E1. cbn [bind]. clear E1.
  destruct (add_r_infinite F f1 (neg f3) m FO W1 (wf_neg F f3 W3)) as [st6 [f4 [E1 H]]]; [rewrite C1; discriminate|unfold neg; cbn [category]; rewrite C3; discriminate|left; exact C1|].
  rewrite E1. cbn [bind]. clear E1. rewrite C1 in H. unfold neg, is_negative in H. cbn [category sign] in H. rewrite C3, S1, S3, S2 in H. destruct (sign fq); cbn [negb Bool.eqb] in H; destruct H as [-> [W4 [C4 _]]].
  all: rewrite (add_r_nan F f4 (d1 x) m FO (or_introl C4)); cbn [bind]; set (f5 := quieted F (first_nan f4 (d1 x)));
    assert (category f5 = NaN) as C5 by (unfold f5, quieted, first_nan; cbn [category]; rewrite C4; exact C4);
    rewrite (add_r_nan F f5 (d1 y) m FO (or_introl C5)); cbn [bind]; set (f6 := quieted F (first_nan f5 (d1 y)));
    assert (category f6 = NaN) as C6 by (unfold f6, quieted, first_nan; cbn [category]; rewrite C5; exact C5);
    assert (is_zero f6 = false) as Z6 by (unfold is_zero; rewrite C6; reflexivity); rewrite Z6; cbn [andb];
    rewrite (add_r_nan F fz f6 m FO (or_intror C6)); cbn [bind]; set (f7 := quieted F (first_nan fz f6));
    assert (category f7 = NaN) as C7 by (unfold f7, quieted, first_nan; cbn [category]; destruct (category fz) eqn:Q; try exact Q; exact C6);
    assert (is_finite f7 = false) as I7 by (unfold is_finite, is_nan, is_infinite; rewrite C7; reflexivity); rewrite I7; cbn [negb];
    eexists; eexists; split; [reflexivity|]; split; [split; [exact C7|reflexivity]|]; rewrite !Z.lor_spec; change (Z.testbit INVALID_OP 0) with true; rewrite ?orb_true_r; reflexivity.
Qed.
Theorem dd_add_normal_top : forall x y, canonical_pair F x -> canonical_pair F y -> category (d0 x) = Normal -> category (d0 y) = Normal ->
  ~ lost_tie F m x y -> exists st r, dd_add_normal F x y m = Ret (st, r) /\ (good x y r \/ over x y r).
Proof.
  intros x y Hx Hy Cx Cy NL. destruct (Rle_or_lt (Rabs (RN (value F (d0 x) + value F (d0 y)))) MX) as [L|L]; [apply regular_branch; assumption|].
  pose proof Hx as [[Wa Waa] [[Fa Faa] _]]. pose proof Hy as [[Wc Wcc] [[Fc Fcc] _]].
  pose proof (value_le_max F (d0 x) FO Wa) as Lx. pose proof (value_le_max F (d0 y) FO Wc) as Ly.
  unfold dd_add_normal. destruct (add_any (d0 x) (d0 y) Wa Wc Fa Fc) as [st1 [fz [E1 [Wz [_ [_ Oz]]]]]]. rewrite E1. cbn [bind]. clear E1. specialize (Oz L).
  assert (is_finite fz = false /\ is_infinite fz = true) as [I1 I2] by (unfold is_finite, is_nan, is_infinite; rewrite Oz; split; reflexivity). rewrite I1, I2. cbn [negb].
  rewrite (cmp_abs_value F (d0 x) (d0 y) FO Wa Wc Cx Cy). cbn [bind].
  pose proof (canonical_low F HF P4 x Hx) as La. pose proof (canonical_low F HF P4 y Hy) as Lc.
  pose proof (u_le_1 F P4) as [U0 U1]. pose proof (max_finite_pos F FO) as MP.
  assert (Rabs (value F (d1 x)) <= / 16 * max_finite F)%R as Raa. { apply Rle_trans with (1 := La). apply Rmult_le_compat; try lra. apply Rabs_pos. }
  assert (Rabs (value F (d1 y)) <= / 16 * max_finite F)%R as Rcc. { apply Rle_trans with (1 := Lc). apply Rmult_le_compat; try lra. apply Rabs_pos. }
  destruct (add_step F HF m (d1 y) (d1 x) Wcc Waa Fcc Faa) as [st2 [fs [E1 [Ws [Fs [Vs _]]]]]]. { pose proof (Rabs_triang (value F (d1 y)) (value F (d1 x))). lra. }
  rewrite E1. cbn [bind]. clear E1.
  destruct (add_step F HF m (d1 x) (d1 y) Waa Wcc Faa Fcc) as [st3 [fzz [E3 [Wzz [Fzz [Vzz _]]]]]]. { pose proof (Rabs_triang (value F (d1 x)) (value F (d1 y))). lra. }
  assert (value F fzz = value F fs) as VQ by (rewrite Vs, Vzz, Rplus_comm; reflexivity).
  assert (forall a b r, good a b r -> good b a r) as GS.
  { intros a b r [A [B [C D]]]. unfold good, add_bound in *. rewrite (Rplus_comm (pair_value F b)), (Rplus_comm (Rabs (value F (d0 b)))). exact (conj A (conj B (conj C D))). }
  assert (forall a b r, over a b r -> over b a r) as OS.
  { intros a b r H. unfold over in *. rewrite (Rplus_comm (pair_value F b)). exact H. }
  destruct (Rcompare_spec (Rabs (value F (d0 x))) (Rabs (value F (d0 y)))) as [Q|Q|Q].
  - destruct (overflow_branch y x fs fzz Hy Hx Ws Fs Wzz Fzz Vs VQ ltac:(lra) ltac:(rewrite Rplus_comm; exact L)) as [s1 [fw [s2 [fy [A [B C]]]]]].
    rewrite A. cbn [bind]. rewrite B. cbn [bind]. destruct C as [[C D]|[C [s3 [f3 [s4 [f4 [s5 [f5 [D1 [D2 [D3 D4]]]]]]]]]]]; rewrite C; cbn [negb].
    + eexists. eexists. split; [reflexivity|]. right. apply OS. exact D.
    + rewrite E3. cbn [bind]. rewrite D1. cbn [bind]. rewrite D2. cbn [bind]. rewrite D3. cbn [bind]. eexists. eexists. split; [reflexivity|]. left. apply GS. exact D4.
  - destruct (overflow_branch y x fs fzz Hy Hx Ws Fs Wzz Fzz Vs VQ ltac:(lra) ltac:(rewrite Rplus_comm; exact L)) as [s1 [fw [s2 [fy [A [B C]]]]]].
    rewrite A. cbn [bind]. rewrite B. cbn [bind]. destruct C as [[C D]|[C [s3 [f3 [s4 [f4 [s5 [f5 [D1 [D2 [D3 D4]]]]]]]]]]]; rewrite C; cbn [negb].
    + eexists. eexists. split; [reflexivity|]. right. apply OS. exact D.
    + rewrite E3. cbn [bind]. rewrite D1. cbn [bind]. rewrite D2. cbn [bind]. rewrite D3. cbn [bind]. eexists. eexists. split; [reflexivity|]. left. apply GS. exact D4.
  - destruct (overflow_branch x y fs fzz Hx Hy Ws Fs Wzz Fzz ltac:(rewrite Rplus_comm; exact Vs) VQ ltac:(lra) L) as [s1 [fw [s2 [fy [A [B C]]]]]].
    rewrite A. cbn [bind]. rewrite B. cbn [bind]. destruct C as [[C D]|[C [s3 [f3 [s4 [f4 [s5 [f5 [D1 [D2 [D3 D4]]]]]]]]]]]; rewrite C; cbn [negb].
    + eexists. eexists. split; [reflexivity|]. right. exact D.
    + rewrite E3. cbn [bind]. rewrite D1. cbn [bind]. rewrite D2. cbn [bind]. rewrite D3. cbn [bind]. eexists. eexists. split; [reflexivity|]. left. exact D4.
Qed.

(** all sums *)
Theorem dd_add_top : forall x y, canonical_pair F x -> canonical_pair F y ->
  ~ lost_tie F m x y ->
  exists st r, dd_add_r F x y m = Ret (st, r) /\
    ((pair_wf F r /\ pair_finite r /\ (m = NearestTiesToEven -> canonical_pair F r) /\
      (Rabs (value F (d1 r)) <= bpow r2 (- p) * Rabs (value F (d0 r)))%R /\
      (Rabs (pair_value F r - (pair_value F x + pair_value F y)) <= bpow r2 (2 - 2 * p) * (Rabs (value F (d0 x)) + Rabs (value F (d0 y))))%R) \/
     ((max_finite F <= Rabs (pair_value F x + pair_value F y))%R /\
      is_special F Infinity (Rlt_bool (pair_value F x + pair_value F y) 0) (d0 r) /\ is_special F Zero false (d1 r))).
Proof.
  intros x y Hx Hy NL. pose proof (canonical_low F HF P4 x Hx) as Bx. pose proof (canonical_low F HF P4 y Hy) as By.
  assert (0 <= add_bound F x y)%R as P.
  { apply Rmult_le_pos; [apply bpow_ge_0|]. pose proof (Rabs_pos (value F (d0 x))). pose proof (Rabs_pos (value F (d0 y))). lra. }
  unfold dd_add_r, dd_category. pose proof Hx as [Wx [Fx _]]. pose proof Hy as [Wy [Fy _]].
  assert (category (d0 y) = Zero -> (Rabs (pair_value F x - (pair_value F x + pair_value F y)) <= add_bound F x y)%R) as Zy.
  { intro C. rewrite (canonical_zero F HF P4 y Hy C), Rplus_0_r, Rminus_diag_eq, Rabs_R0 by reflexivity. exact P. }
  assert (category (d0 x) = Zero -> (Rabs (pair_value F y - (pair_value F x + pair_value F y)) <= add_bound F x y)%R) as Zx.
  { intro C. rewrite (canonical_zero F HF P4 x Hx C), Rplus_0_l, Rminus_diag_eq, Rabs_R0 by reflexivity. exact P. }
  assert (category (d0 x) = Normal \/ category (d0 x) = Zero) as [Cx|Cx] by (destruct Fx as [[C|C] _]; auto);
  assert (category (d0 y) = Normal \/ category (d0 y) = Zero) as [Cy|Cy] by (destruct Fy as [[C|C] _]; auto); rewrite Cx, Cy.
  - destruct (dd_add_normal_top x y Hx Hy Cx Cy NL) as [st [r [Q [[Wr [Fr [V0 V]]]|[A [B C]]]]]]; exists st, r; (split; [exact Q|]).
    + left. split; [exact Wr|]. split; [exact Fr|]. split; [intros ->; split; [exact Wr|split; [exact Fr|exact V0]]|]. split; [|exact V].
      apply (low_half emin p (ties m) P4); [apply value_format; [exact FO|exact (proj1 Wr)|exact (proj1 Fr)]|apply value_format; [exact FO|exact (proj2 Wr)|exact (proj2 Fr)]|].
      rewrite <- (RN_eq F m Hm). symmetry. exact V0.
    + right. split; [exact A|]. split; [exact B|]. rewrite C. split; [exact (wf_ZERO F HF)|]. split; reflexivity.
  - exists OK, x. split; [reflexivity|]. left. exact (conj Wx (conj Fx (conj (fun _ => Hx) (conj Bx (Zy Cy))))).
  - exists OK, y. split; [reflexivity|]. left. exact (conj Wy (conj Fy (conj (fun _ => Hy) (conj By (Zx Cx))))).
  - exists OK, x. split; [reflexivity|]. left. exact (conj Wx (conj Fx (conj (fun _ => Hx) (conj Bx (Zy Cy))))).
Qed.
Theorem dd_sub_top : forall x y, canonical_pair F x -> canonical_pair F y ->
  ~ lost_tie F m x (dd_neg y) ->
  exists st r, dd_sub_r F x y m = Ret (st, r) /\
    ((pair_wf F r /\ pair_finite r /\ (m = NearestTiesToEven -> canonical_pair F r) /\
      (Rabs (value F (d1 r)) <= bpow r2 (- p) * Rabs (value F (d0 r)))%R /\
      (Rabs (pair_value F r - (pair_value F x - pair_value F y)) <= bpow r2 (2 - 2 * p) * (Rabs (value F (d0 x)) + Rabs (value F (d0 y))))%R) \/
     ((max_finite F <= Rabs (pair_value F x - pair_value F y))%R /\
      is_special F Infinity (Rlt_bool (pair_value F x - pair_value F y) 0) (d0 r) /\ is_special F Zero false (d1 r))).
Proof.
  intros x y Hx Hy NL. destruct (dd_neg_value F y Hy) as [V A].
  destruct (dd_add_top x (dd_neg y) Hx (dd_neg_canonical F y Hy) NL) as [st [r H]].
  exists st, r. rewrite A, V in H. exact H.
Qed.
Theorem dd_add_lost : forall x y, canonical_pair F x -> canonical_pair F y -> lost_tie F m x y ->
  exists st r, dd_add_r F x y m = Ret (st, r) /\ Z.testbit st 0 = true /\ category (d0 r) = NaN /\ is_special F Zero false (d1 r).
Proof.
  intros x y Hx Hy NL. destruct (lost_branch x y Hx Hy NL) as [st [r [A [[B C] D]]]]. exists st, r.
  destruct NL as [N _]. unfold dd_add_r, dd_category. pose proof Hx as [_ [[Fx _] _]]. pose proof Hy as [_ [[Fy _] _]].
  destruct Fx as [Cx|Cx], Fy as [Cy|Cy]; try (rewrite (value_zero F _ Cx) in N; lra); try (rewrite (value_zero F _ Cy) in N; lra).
  rewrite Cx, Cy. split; [exact A|]. split; [exact D|]. split; [exact B|]. rewrite C. split; [exact (wf_ZERO F HF)|]. split; reflexivity.
Qed.
Theorem dd_sub_lost : forall x y, canonical_pair F x -> canonical_pair F y -> lost_tie F m x (dd_neg y) ->
  exists st r, dd_sub_r F x y m = Ret (st, r) /\ Z.testbit st 0 = true /\ category (d0 r) = NaN /\ is_special F Zero false (d1 r).
Proof. intros x y Hx Hy NL. exact (dd_add_lost x (dd_neg y) Hx (dd_neg_canonical F y Hy) NL). Qed.
End Top.
