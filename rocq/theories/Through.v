(** * Through.v -- computing in a wider format and converting back *)
From Coq Require Import ZArith Reals List Bool Lia Lra.
From Flocq Require Import Core Double_rounding.
From Verif Require Import Machine Sig SpecSig Ieee Spec Norm Arith Special Order Bits Int Scale Next Convert Integral Rem Fma Algebra Laws Formats Samples.
Import ListNotations.
Local Open Scope Z_scope.
Ltac Zify.zify_post_hook ::= idtac.

(** ** What is claimed *)

(** the exponent of the last place of the subnormal numbers *)
Definition emin (S : Semantics) : Z := MIN_EXP S - (PRECISION S - 1).
(** T has infinities and a binade above the largest number of S, and contains the numbers of S *)
Definition wider (T S : Semantics) : Prop :=
  NONFINITE_BEHAVIOR T = IEEE754 /\ MAX_EXP S + 1 <= MAX_EXP T /\ PRECISION S <= PRECISION T /\ emin T <= emin S.
(** the modes in which overflow follows the standard (C04) *)
Definition usual (S : Semantics) (m : Round) : Prop :=
  NONFINITE_BEHAVIOR S = IEEE754 \/ (m <> TowardPositive /\ m <> TowardNegative).
(** The operands are converted to T without loss, the operation is done there
    and its result converted back: the float obtained is that of the operation
    in S, and that one is exact if and only if both steps are. *)
Definition same_through (T S : Semantics) (op : Semantics -> Float -> Float -> outcome (Z * Float)) (m : Round) (x y : Float) : Prop :=
  exists x' y' st f st' g st'' h lost,
    convert_r S T x m = Ret (OK, x', false) /\ convert_r S T y m = Ret (OK, y', false) /\
    op S x y = Ret (st, f) /\ op T x' y' = Ret (st', g) /\ convert_r T S g m = Ret (st'', h, lost) /\
    bitwise_eq h f = true /\ (st = OK <-> st' = OK /\ st'' = OK).

(** ** Rounding twice *)
Lemma fexp_emin : forall S, fexp S = FLT_exp (emin S) (PRECISION S).
Proof. reflexivity. Qed.

Lemma wider_format : forall S T x, sem_ok S -> PRECISION S <= PRECISION T -> emin T <= emin S ->
  generic_format r2 (fexp S) x -> generic_format r2 (fexp T) x.
Proof.
  intros S T x HS Hp He Fx. destruct (Req_dec x 0) as [->|Nx]; [apply generic_format_0|].
  apply (generic_inclusion_mag r2 (fexp S)); [|exact Fx]. intros _.
  unfold fexp, FLT_exp. unfold emin in He. lia.
Qed.

Lemma twice_down : forall S T x, sem_ok S -> sem_ok T -> PRECISION S <= PRECISION T -> emin T <= emin S ->
  round r2 (fexp S) Zfloor (round r2 (fexp T) Zfloor x) = round r2 (fexp S) Zfloor x.
Proof.
  intros S T x HS HT Hp He. pose proof (fexp_valid S HS) as VS. pose proof (fexp_valid T HT) as VT.
  apply Rle_antisym.
  - apply round_le; [exact VS|apply valid_rnd_DN|]. apply (round_DN_pt r2 (fexp T) x).
  - rewrite <- (round_generic r2 (fexp S) Zfloor (round r2 (fexp S) Zfloor x)) at 1
      by (apply generic_format_round; [exact VS|apply valid_rnd_DN]).
    apply round_le; [exact VS|apply valid_rnd_DN|].
    apply (round_DN_pt r2 (fexp T) x).
    + apply (wider_format S); [exact HS|exact Hp|exact He|]. apply generic_format_round; [exact VS|apply valid_rnd_DN].
    + apply (round_DN_pt r2 (fexp S) x).
Qed.

Lemma twice_up : forall S T x, sem_ok S -> sem_ok T -> PRECISION S <= PRECISION T -> emin T <= emin S ->
  round r2 (fexp S) Zceil (round r2 (fexp T) Zceil x) = round r2 (fexp S) Zceil x.
Proof.
  intros S T x HS HT Hp He.
  replace x with (- - x)%R by lra. rewrite !round_UP_opp, (twice_down S T (- x) HS HT Hp He). reflexivity.
Qed.

Lemma twice_directed : forall S T m x, sem_ok S -> sem_ok T -> PRECISION S <= PRECISION T -> emin T <= emin S ->
  m = TowardPositive \/ m = TowardNegative \/ m = TowardZero ->
  rounded S m (rounded T m x) = rounded S m x.
Proof.
  intros S T m x HS HT Hp He Hm. pose proof (fexp_valid S HS) as VS. pose proof (fexp_valid T HT) as VT.
  unfold rounded. destruct Hm as [->|[->| ->]]; cbn [rnd_of].
  - apply twice_up; assumption.
  - apply twice_down; assumption.
  - destruct (Rle_dec 0 x) as [H|H].
    + assert (0 <= round r2 (fexp T) Ztrunc x)%R.
      { rewrite <- (round_0 r2 (fexp T) Ztrunc). apply round_le; [exact VT|apply valid_rnd_ZR|exact H]. }
      rewrite (round_ZR_DN r2 (fexp S) (round r2 (fexp T) Ztrunc x)) by assumption.
      rewrite (round_ZR_DN r2 (fexp T) x), (round_ZR_DN r2 (fexp S) x) by assumption.
      apply twice_down; assumption.
    + assert (x <= 0)%R as H' by lra.
      assert (round r2 (fexp T) Ztrunc x <= 0)%R.
      { rewrite <- (round_0 r2 (fexp T) Ztrunc). apply round_le; [exact VT|apply valid_rnd_ZR|exact H']. }
      rewrite (round_ZR_UP r2 (fexp S) (round r2 (fexp T) Ztrunc x)) by assumption.
      rewrite (round_ZR_UP r2 (fexp T) x), (round_ZR_UP r2 (fexp S) x) by assumption.
      apply twice_up; assumption.
Qed.

Definition nearest_harmless (S T : Semantics) (x : R) : Prop :=
  forall choice, round_round_eq r2 (fexp S) (fexp T) choice choice x.
Lemma twice : forall S T m x, sem_ok S -> sem_ok T -> PRECISION S <= PRECISION T -> emin T <= emin S ->
  nearest_harmless S T x -> rounded S m (rounded T m x) = rounded S m x.
Proof.
  intros S T m x HS HT Hp He Hn. destruct m; try (apply twice_directed; tauto).
  - exact (Hn _).
  - exact (Hn _).
Qed.

(** ** Converting the operands *)
Lemma top_of_wider : forall S T, sem_ok S -> sem_ok T -> wider T S -> (bpow r2 (MAX_EXP S + 1) <= max_finite T)%R.
Proof.
  intros S T HS HT [HT1 [HT2 [HT3 HT4]]]. unfold max_finite, max_sig. rewrite HT1.
  apply Rle_trans with (IZR (2 ^ (PRECISION T - 1)) * bpow r2 (MAX_EXP T - (PRECISION T - 1)))%R.
  - replace (IZR (2 ^ (PRECISION T - 1))) with (bpow r2 (PRECISION T - 1)) by (rewrite <- IZR_Zpower by (destruct HT; lia); reflexivity).
    rewrite <- bpow_plus. apply bpow_le. lia.
  - apply Rmult_le_compat_r; [apply bpow_ge_0|]. apply IZR_le.
    pose proof (ok_prec T HT). replace (PRECISION T) with (Z.succ (PRECISION T - 1)) at 2 by lia.
    rewrite Z.pow_succ_r by lia. pose proof (Z.pow_pos_nonneg 2 (PRECISION T - 1)). lia.
Qed.

Lemma max_below_top : forall S, sem_ok S -> (max_finite S < bpow r2 (MAX_EXP S + 1))%R.
Proof.
  intros S HS. unfold max_finite. replace (MAX_EXP S + 1) with (PRECISION S + (MAX_EXP S - (PRECISION S - 1))) by lia.
  rewrite bpow_plus. apply Rmult_lt_compat_r; [apply bpow_gt_0|].
  rewrite <- IZR_Zpower by (destruct HS; lia). apply IZR_lt. unfold max_sig.
  change (Zpower r2 (PRECISION S)) with (2 ^ PRECISION S). destruct (NONFINITE_BEHAVIOR S); lia.
Qed.

Lemma emin_contains : forall S T, sem_ok S -> sem_ok T -> wider T S -> contains T S.
Proof.
  intros S T HS HT HW. split; [apply HW|]. split.
  - unfold min_positive. apply bpow_le. apply HW.
  - pose proof (top_of_wider S T HS HT HW). pose proof (max_below_top S HS). lra.
Qed.

Lemma zero_or_normal : forall S x, wf S x -> finite x -> category x = (if Req_EM_T (value S x) 0 then Zero else Normal).
Proof.
  intros S x W [H|H].
  - destruct (Req_EM_T _ _) as [E|E]; [|exact H]. exfalso. exact (normal_nonzero S x W H E).
  - destruct (Req_EM_T _ _) as [E|E]; [exact H|]. exfalso. apply E. unfold value. rewrite H. reflexivity.
Qed.

Lemma widen : forall S T x m, sem_ok S -> sem_ok T -> contains T S -> wf S x -> finite x ->
  exists r, convert_r S T x m = Ret (OK, r, false) /\ wf T r /\ finite r /\ value T r = value S x /\
    sign r = sign x /\ category r = category x.
Proof.
  intros S T x m HS HT HC W F.
  destruct (convert_round_trip S T x m m HS HT W F HC) as [r [E [Wr [Fr [Vr _]]]]].
  destruct (convert_r_crate S T x m HS HT W F) as [st [r' [lost [E' [D _]]]]].
  rewrite E in E'. injection E' as <- <- <-.
  exists r. repeat (split; [assumption|]). split.
  - destruct D as [_ [[H1 [H2 H3]] _]].
    destruct (Rtotal_order (value S x) 0) as [H|[H|H]].
    + rewrite (H1 H). symmetry. destruct F as [F|F].
      * apply (normal_sign S x W F). exact H.
      * unfold value in H. rewrite F in H. lra.
    + apply H3. exact H.
    + rewrite (H2 H). symmetry. destruct F as [F|F].
      * apply (normal_sign S x W F). exact H.
      * unfold value in H. rewrite F in H. lra.
  - rewrite (zero_or_normal T r Wr Fr), (zero_or_normal S x W F), Vr. reflexivity.
Qed.

(** ** The round trip of a result *)
Lemma usual_crate : forall S m x g, usual S m -> crate_to_infinity S m x g = to_infinity m g.
Proof.
  intros S m x g [H|[H1 H2]]; unfold crate_to_infinity, wrong_side.
  - rewrite H. destruct (to_infinity m g); reflexivity.
  - destruct (NONFINITE_BEHAVIOR S), m; try congruence; destruct (to_infinity _ g); reflexivity.
Qed.

Lemma beyond : forall S m x, sem_ok S -> (bpow r2 (MAX_EXP S + 1) <= Rabs x)%R -> (max_finite S < Rabs (rounded S m x))%R.
Proof.
  intros S m x HS H. apply Rlt_le_trans with (1 := max_below_top S HS).
  unfold rounded. pose proof (fexp_valid S HS) as VS. pose proof (valid_rnd_of m) as VR.
  apply abs_round_ge_generic; [exact VS|exact VR| |exact H].
  apply generic_format_bpow. unfold fexp, FLT_exp. destruct HS as [? ? ? ?]. lia.
Qed.

Lemma back : forall S T m x zs st f st' g, sem_ok S -> sem_ok T -> wider T S -> usual S m ->
  rounded S m (rounded T m x) = rounded S m x ->
  crate_rounded S m x zs (st, f) -> crate_rounded T m x zs (st', g) ->
  exists st'' h lost, convert_r T S g m = Ret (st'', h, lost) /\ bitwise_eq h f = true /\ (st = OK <-> st' = OK /\ st'' = OK).
Proof.
  intros S T m x zs st f st' g HS HT HW HU HR D D'.
  assert (usual T m) as HUT by (left; apply HW).
  assert (NONFINITE_BEHAVIOR T = IEEE754) as HTI by apply HW.
  pose proof (top_of_wider S T HS HT HW) as Top.
  pose proof D as [Wf [Sf [D1 D2]]]. pose proof D' as [Wg [Sg [G1 G2]]].
  assert (delivers (to_infinity m) S m x zs (st, f)) as Df.
  { split; [exact Wf|]. split; [exact Sf|]. split; [exact D1|].
    intro H. specialize (D2 H). rewrite (usual_crate S m x _ HU) in D2. exact D2. }
  destruct (Rle_or_lt (Rabs (rounded T m x)) (max_finite T)) as [Hfin|Hinf].
  - destruct (G1 Hfin) as [Fg [Vg [G1a [G1b G1c]]]].
    destruct (convert_r_crate T S g m HT HS Wg Fg) as [st'' [h [lost [E [C _]]]]].
    exists st'', h, lost. split; [exact E|].
    pose proof C as [Wh [Sh [C1 C2]]]. rewrite Vg in C1, C2, Sh. rewrite HR in C1, C2.
    assert (has_sign x zs h) as Shx.
    { destruct Sg as [S1 [S2 S3]]. destruct Sh as [T1 [T2 T3]].
      pose proof (fexp_valid T HT) as VT. pose proof (valid_rnd_of m) as VR.
      split; [|split]; intro H.
      - assert (rounded T m x <= 0)%R as Hw.
        { unfold rounded. rewrite <- (round_0 r2 (fexp T) (rnd_of m)). apply round_le; [exact VT|exact VR|lra]. }
        destruct (Req_dec (rounded T m x) 0) as [Z|Z]; [rewrite (T3 Z); exact (S1 H)|apply T1; lra].
      - assert (0 <= rounded T m x)%R as Hw.
        { unfold rounded. rewrite <- (round_0 r2 (fexp T) (rnd_of m)). apply round_le; [exact VT|exact VR|lra]. }
        destruct (Req_dec (rounded T m x) 0) as [Z|Z]; [rewrite (T3 Z); exact (S2 H)|apply T2; lra].
      - rewrite T3; [exact (S3 H)|]. rewrite H. apply round_0. exact VR. }
    assert (sign h = sign f) as Shf by (apply (has_sign_unique x zs); assumption).
    split.
    + apply (delivers_unique (to_infinity m) S m x zs st h st f HS); [|exact Df].
      split; [exact Wh|]. split; [exact Shx|]. split.
      * intro H. destruct (C1 H) as [Fh [Vh _]]. destruct (D1 H) as [_ [_ Q]]. split; [exact Fh|]. split; [exact Vh|]. exact Q.
      * intro H. specialize (C2 H). rewrite (usual_crate S m _ _ HU) in C2.
        specialize (D2 H). rewrite (usual_crate S m _ _ HU) in D2. rewrite <- Shf in D2.
        destruct (to_infinity m (sign h)); tauto.
    + destruct (cr_kept S m x zs st f HS D) as [K1 _]. destruct (cr_kept T m x zs st' g HT D') as [K2 _].
      destruct (cr_kept S m _ _ st'' h HS C) as [K3 _].
      split.
      * intro H. apply K1 in H. destruct H as [Ff Vf].
        assert (representable S x) as Rx by (rewrite <- Vf; apply representable_value; assumption).
        assert (rounded T m x = x) as RT.
        { unfold rounded. apply round_generic; [apply valid_rnd_of|]. apply (wider_format S); [exact HS|apply HW|apply HW|apply Rx]. }
        split; [apply K2; split; [exact Fg|congruence]|].
        apply K3.
        assert (rounded S m x = x) as RS by (unfold rounded; apply round_generic; [apply valid_rnd_of|apply Rx]).
        assert (Rabs (rounded S m x) <= max_finite S)%R as RM by (rewrite RS; apply Rx).
        destruct (C1 RM) as [Fh [Vh _]]. split; [exact Fh|]. congruence.
      * intros [H1 H2]. apply K1. apply K2 in H1. apply K3 in H2. destruct H1 as [_ H1]. destruct H2 as [Fh H2].
        destruct (Rle_or_lt (Rabs (rounded S m x)) (max_finite S)) as [Q|Q].
        -- destruct (D1 Q) as [Ff [Vf _]]. split; [exact Ff|]. destruct (C1 Q) as [_ [Vh _]]. congruence.
        -- exfalso. assert (representable S (value T g)) as Rg by (rewrite <- H2; apply representable_value; assumption).
           assert (rounded S m (value T g) = value T g) as RG by (unfold rounded; apply round_generic; [apply valid_rnd_of|apply Rg]).
           rewrite Vg in RG, Rg. rewrite HR in RG. rewrite RG in Q. destruct Rg as [_ Rg]. lra.
  - assert (max_finite T <= Rabs x)%R as Hx.
    { apply Rnot_lt_le. intro H. apply (Rlt_irrefl (max_finite T)). apply Rlt_le_trans with (1 := Hinf).
      unfold rounded. pose proof (fexp_valid T HT) as VT. pose proof (valid_rnd_of m) as VR.
      apply abs_round_le_generic; [exact VT|exact VR| |lra].
      apply (representable_value T (mkFloat (max_sig T) (MAX_EXP T) Normal false) HT (wf_largest T false HT)). }
    pose proof (beyond S m x HS ltac:(lra)) as Ov.
    specialize (D2 Ov). rewrite (usual_crate S m _ _ HU) in D2.
    specialize (G2 Hinf). rewrite (usual_crate T m _ _ HUT) in G2.
    assert (sign f = sign g) as Sfg by (apply (has_sign_unique x zs); assumption).
    rewrite Sfg in D2.
    assert (x <> 0)%R as Nx.
    { intro Z. rewrite Z, Rabs_R0 in Hx. pose proof (max_finite_pos T HT). lra. }
    destruct (to_infinity m (sign g)) eqn:TI.
    + destruct G2 as [Gs Gc]. rewrite HTI in Gc. destruct D2 as [Ds Dc].
      destruct (convert_r_infinite T S g m HS Gc) as [h [E [Wh [Ch Sh]]]].
      eexists _, h, _. split; [exact E|]. split.
      * apply (delivers_unique (to_infinity m) S m x zs st h st f HS); [|exact Df].
        split; [exact Wh|]. split.
        { destruct Sg as [S1 [S2 S3]]. rewrite <- Sh in S1, S2, S3. split; [exact S1|split; [exact S2|exact S3]]. }
        split; [intro H; lra|]. intros _. rewrite Sh, TI. split; [exact Ds|exact Ch].
      * rewrite Ds, Gs. split; [discriminate|]. intros [H _]. discriminate H.
    + destruct G2 as [Gs [Gc Gv]]. destruct D2 as [Ds [Dc Dv]].
      destruct (convert_r_crate T S g m HT HS Wg (or_introl Gc)) as [st'' [h [lost [E [C _]]]]].
      exists st'', h, lost. split; [exact E|].
      pose proof C as [Wh [Sh [_ C2]]].
      assert (bpow r2 (MAX_EXP S + 1) <= Rabs (value T g))%R as Hg by (rewrite Gv; exact Top).
      specialize (C2 (beyond S m _ HS Hg)). rewrite (usual_crate S m _ _ HU) in C2.
      assert (sign h = sign g) as Shg.
      { destruct Sh as [T1 [T2 T3]]. destruct (normal_sign T g Wg Gc) as [N1 N2].
        destruct (Rtotal_order (value T g) 0) as [H|[H|H]].
        - rewrite (T1 H). symmetry. apply N1. exact H.
        - exact (T3 H).
        - rewrite (T2 H). symmetry. apply N2. exact H. }
      rewrite Shg, TI in C2. destruct C2 as [Cs [Cc Cv]].
      split.
      * apply (delivers_unique (to_infinity m) S m x zs st h st f HS); [|exact Df].
        split; [exact Wh|]. split.
        { destruct Sg as [S1 [S2 S3]]. rewrite <- Shg in S1, S2, S3. split; [exact S1|split; [exact S2|exact S3]]. }
        split; [intro H; lra|]. intros _. rewrite Shg, TI. tauto.
      * rewrite Ds, Gs. split; [discriminate|]. intros [H _]. discriminate H.
Qed.

(** ** The operations *)
Lemma flt_format : forall S x, sem_ok S -> wf S x -> finite x -> FLT_format r2 (emin S) (PRECISION S) (value S x).
Proof.
  intros S x HS W F. apply FLT_format_generic; [unfold Prec_gt_0; destruct HS; lia|].
  apply (representable_value S x HS W).
Qed.

Theorem add_through : forall S T x y m, sem_ok S -> sem_ok T -> wider T S -> 2 * PRECISION S + 1 <= PRECISION T -> usual S m ->
  wf S x -> wf S y -> finite x -> finite y ->
  same_through T S (fun F a b => add_r F a b m) m x y.
Proof.
  intros S T x y m HS HT HW HP HU Wx Wy Fx Fy.
  pose proof (emin_contains S T HS HT HW) as HC.
  destruct (widen S T x m HS HT HC Wx Fx) as [x' [Ex [Wx' [Fx' [Vx [Sx Cx]]]]]].
  destruct (widen S T y m HS HT HC Wy Fy) as [y' [Ey [Wy' [Fy' [Vy [Sy Cy]]]]]].
  destruct (add_r_spec S x y m HS Wx Wy Fx Fy) as [[st f] [E D]].
  destruct (add_r_spec T x' y' m HT Wx' Wy' Fx' Fy') as [[st' g] [E' D']].
  assert (sum_zero_sign x' y' (sign y') m = sum_zero_sign x y (sign y) m) as Z
    by (unfold sum_zero_sign; rewrite Sx, Sy, Cx, Cy; reflexivity).
  rewrite Z, Vx, Vy in D'.
  assert (rounded S m (rounded T m (value S x + value S y)) = rounded S m (value S x + value S y)) as HR.
  { apply twice; [exact HS|exact HT|apply HW|apply HW|]. intro c. rewrite !fexp_emin.
    apply round_round_plus_FLT; [unfold Prec_gt_0; destruct HS; lia|unfold Prec_gt_0; destruct HT; lia|apply HW|lia| |];
      apply flt_format; assumption. }
  destruct (back S T m _ _ st f st' g HS HT HW HU HR D D') as [st'' [h [lost [E'' [B O]]]]].
  exists x', y', st, f, st', g, st'', h, lost. repeat (split; [assumption|]). exact O.
Qed.

Theorem sub_through : forall S T x y m, sem_ok S -> sem_ok T -> wider T S -> 2 * PRECISION S + 1 <= PRECISION T -> usual S m ->
  wf S x -> wf S y -> finite x -> finite y ->
  same_through T S (fun F a b => sub_r F a b m) m x y.
Proof.
  intros S T x y m HS HT HW HP HU Wx Wy Fx Fy.
  pose proof (emin_contains S T HS HT HW) as HC.
  destruct (widen S T x m HS HT HC Wx Fx) as [x' [Ex [Wx' [Fx' [Vx [Sx Cx]]]]]].
  destruct (widen S T y m HS HT HC Wy Fy) as [y' [Ey [Wy' [Fy' [Vy [Sy Cy]]]]]].
  destruct (sub_r_spec S x y m HS Wx Wy Fx Fy) as [[st f] [E D]].
  destruct (sub_r_spec T x' y' m HT Wx' Wy' Fx' Fy') as [[st' g] [E' D']].
  assert (sum_zero_sign x' y' (negb (sign y')) m = sum_zero_sign x y (negb (sign y)) m) as Z
    by (unfold sum_zero_sign; rewrite Sx, Sy, Cx, Cy; reflexivity).
  rewrite Z, Vx, Vy in D'.
  assert (rounded S m (rounded T m (value S x - value S y)) = rounded S m (value S x - value S y)) as HR.
  { apply twice; [exact HS|exact HT|apply HW|apply HW|]. intro c. rewrite !fexp_emin.
    apply round_round_minus_FLT; [unfold Prec_gt_0; destruct HS; lia|unfold Prec_gt_0; destruct HT; lia|apply HW|lia| |];
      apply flt_format; assumption. }
  destruct (back S T m _ _ st f st' g HS HT HW HU HR D D') as [st'' [h [lost [E'' [B O]]]]].
  exists x', y', st, f, st', g, st'', h, lost. repeat (split; [assumption|]). exact O.
Qed.

Theorem mul_through : forall S T x y m, sem_ok S -> sem_ok T -> wider T S ->
  2 * PRECISION S <= PRECISION T -> emin T <= 2 * emin S -> usual S m ->
  wf S x -> wf S y -> finite x -> finite y ->
  same_through T S (fun F a b => mul_r F a b m) m x y.
Proof.
  intros S T x y m HS HT HW HP HE HU Wx Wy Fx Fy.
  pose proof (emin_contains S T HS HT HW) as HC.
  destruct (widen S T x m HS HT HC Wx Fx) as [x' [Ex [Wx' [Fx' [Vx [Sx Cx]]]]]].
  destruct (widen S T y m HS HT HC Wy Fy) as [y' [Ey [Wy' [Fy' [Vy [Sy Cy]]]]]].
  destruct (mul_r_crate S x y m HS Wx Wy Fx Fy) as [[st f] [E D]].
  destruct (mul_r_crate T x' y' m HT Wx' Wy' Fx' Fy') as [[st' g] [E' D']].
  rewrite Sx, Sy, Vx, Vy in D'.
  assert (rounded S m (rounded T m (value S x * value S y)) = rounded S m (value S x * value S y)) as HR.
  { unfold rounded. rewrite !fexp_emin. pose proof (valid_rnd_of m) as VR.
    assert (Prec_gt_0 (PRECISION S)) as P1 by (unfold Prec_gt_0; destruct HS; lia).
    assert (Prec_gt_0 (PRECISION T)) as P2 by (unfold Prec_gt_0; destruct HT; lia).
    apply round_round_mult_FLT; [exact VR|exact HE|exact HP| |]; apply flt_format; assumption. }
  destruct (back S T m _ _ st f st' g HS HT HW HU HR D D') as [st'' [h [lost [E'' [B O]]]]].
  exists x', y', st, f, st', g, st'', h, lost. repeat (split; [assumption|]). exact O.
Qed.

Theorem div_through : forall S T x y m, sem_ok S -> sem_ok T -> wider T S ->
  2 * PRECISION S <= PRECISION T -> emin T <= emin S - PRECISION S - 2 -> usual S m ->
  wf S x -> wf S y -> finite x -> category y = Normal ->
  same_through T S (fun F a b => div_r F a b m) m x y.
Proof.
  intros S T x y m HS HT HW HP HE HU Wx Wy Fx Ny.
  assert (finite y) as Fy by (left; exact Ny).
  pose proof (emin_contains S T HS HT HW) as HC.
  destruct (widen S T x m HS HT HC Wx Fx) as [x' [Ex [Wx' [Fx' [Vx [Sx Cx]]]]]].
  destruct (widen S T y m HS HT HC Wy Fy) as [y' [Ey [Wy' [Fy' [Vy [Sy Cy]]]]]].
  destruct (div_r_crate S x y m HS Wx Wy Fx Ny) as [[st f] [E D]].
  destruct (div_r_crate T x' y' m HT Wx' Wy' Fx' ltac:(congruence)) as [[st' g] [E' D']].
  rewrite Sx, Sy, Vx, Vy in D'.
  assert (rounded S m (rounded T m (value S x / value S y)) = rounded S m (value S x / value S y)) as HR.
  { apply twice; [exact HS|exact HT|apply HW|apply HW|]. intro c. rewrite !fexp_emin.
    apply round_round_div_FLT; [unfold Prec_gt_0; destruct HS; lia|unfold Prec_gt_0; destruct HT; lia|exists 1; reflexivity|exact HE|exact HP| | |].
    - apply (normal_nonzero S y Wy Ny).
    - apply flt_format; assumption.
    - apply flt_format; assumption. }
  destruct (back S T m _ _ st f st' g HS HT HW HU HR D D') as [st'' [h [lost [E'' [B O]]]]].
  exists x', y', st, f, st', g, st'', h, lost. repeat (split; [assumption|]). exact O.
Qed.

(** remainders are exact in both formats *)
Lemma back_exact : forall S T m v zs r g, sem_ok S -> sem_ok T -> wf S r -> finite r -> wf T g -> finite g ->
  value S r = v -> value T g = v -> (v = 0%R -> sign r = zs) -> (v = 0%R -> sign g = zs) ->
  exists h lost, convert_r T S g m = Ret (OK, h, lost) /\ bitwise_eq h r = true.
Proof.
  intros S T m v zs r g HS HT Wr Fr Wg Fg Vr Vg Sr Sg.
  destruct (convert_r_crate T S g m HT HS Wg Fg) as [st [h [lost [E [C _]]]]].
  assert (representable S (value T g)) as Rg by (rewrite Vg, <- Vr; apply representable_value; assumption).
  destruct (delivers_representable _ S m _ _ st h HS C Rg) as [-> [Fh Vh]].
  exists h, lost. split; [exact E|]. destruct C as [Wh [[S1 [S2 S3]] _]].
  apply (same_finite S); try assumption; [congruence|].
  destruct (Rtotal_order v 0) as [H|[H|H]].
  - rewrite S1 by lra. symmetry. destruct Fr as [Fr|Fr].
    + apply (normal_sign S r Wr Fr). lra.
    + unfold value in Vr. rewrite Fr in Vr. lra.
  - rewrite S3 by congruence. rewrite Sr, Sg by exact H. reflexivity.
  - rewrite S2 by lra. symmetry. destruct Fr as [Fr|Fr].
    + apply (normal_sign S r Wr Fr). lra.
    + unfold value in Vr. rewrite Fr in Vr. lra.
Qed.

Theorem fmod_through : forall S T x y m, sem_ok S -> sem_ok T -> contains T S ->
  wf S x -> wf S y -> finite x -> category y = Normal ->
  same_through T S c_fmod m x y.
Proof.
  intros S T x y m HS HT HC Wx Wy Fx Ny.
  assert (finite y) as Fy by (left; exact Ny).
  destruct (widen S T x m HS HT HC Wx Fx) as [x' [Ex [Wx' [Fx' [Vx [Sx Cx]]]]]].
  destruct (widen S T y m HS HT HC Wy Fy) as [y' [Ey [Wy' [Fy' [Vy [Sy Cy]]]]]].
  destruct (c_fmod_finite S x y HS Wx Wy Fx Ny) as [r [E [Wr [Fr [Vr [Sr _]]]]]].
  destruct (c_fmod_finite T x' y' HT Wx' Wy' Fx' ltac:(congruence)) as [g [E' [Wg [Fg [Vg [Sg _]]]]]].
  rewrite Vx, Vy in Vg.
  destruct (back_exact S T m _ (sign x) r g HS HT Wr Fr Wg Fg Vr Vg) as [h [lost [E'' B]]]; [intros _; exact Sr|intros _; congruence|].
  exists x', y', OK, r, OK, g, OK, h, lost. repeat (split; [assumption|]). tauto.
Qed.

Theorem rem_through : forall S T x y m, sem_ok S -> sem_ok T -> contains T S ->
  wf S x -> wf S y -> finite x -> category y = Normal ->
  same_through T S ieee_rem m x y.
Proof.
  intros S T x y m HS HT HC Wx Wy Fx Ny.
  assert (finite y) as Fy by (left; exact Ny).
  destruct (widen S T x m HS HT HC Wx Fx) as [x' [Ex [Wx' [Fx' [Vx [Sx Cx]]]]]].
  destruct (widen S T y m HS HT HC Wy Fy) as [y' [Ey [Wy' [Fy' [Vy [Sy Cy]]]]]].
  destruct (ieee_rem_finite S x y HS Wx Wy Fx Ny) as [r [n [E [Wr [Fr [Vr [R1 [R2 Sr]]]]]]]].
  destruct (ieee_rem_finite T x' y' HT Wx' Wy' Fx' ltac:(congruence)) as [g [n' [E' [Wg [Fg [Vg [G1 [G2 Sg]]]]]]]].
  pose proof (normal_nonzero S y Wy Ny) as Nz.
  assert (n = n') as <-.
  { transitivity (ZnearestE (value S x / value S y)).
    - symmetry. apply (nearest_quotient _ _ n (value S r)); assumption.
    - apply (nearest_quotient _ _ n' (value T g)); rewrite ?Vx, ?Vy in *; assumption. }
  rewrite Vx, Vy in Vg.
  destruct (back_exact S T m _ (sign x) r g HS HT Wr Fr Wg Fg Vr Vg) as [h [lost [E'' B]]].
  - intro H. apply Sr. congruence.
  - intro H. rewrite Sg by congruence. exact Sx.
  - exists x', y', OK, r, OK, g, OK, h, lost. repeat (split; [assumption|]). tauto.
Qed.

(** ** The formats of the crate *)

(** the conditions of all six operations *)
Definition qualifies (T S : Semantics) : Prop :=
  wider T S /\ 2 * PRECISION S + 1 <= PRECISION T /\ emin T <= 2 * emin S /\ emin T <= emin S - PRECISION S - 2.
Theorem qualifying_formats : qualifies SingleS HalfS /\ qualifies DoubleS SingleS /\ qualifies QuadS DoubleS /\
  qualifies HalfS Float8E4M3FNS /\ qualifies SingleS Float8E5M2S /\ qualifies DoubleS BFloatS /\ qualifies DoubleS HalfS.
Proof. vm_compute. repeat split; discriminate. Qed.

Definition d_one : Float := mkFloat (2 ^ 52) 0 Normal false.
Definition d_above_half_ulp : Float := mkFloat (2 ^ 52 + 2 ^ 40) (-53) Normal false.
Theorem x87_through_refuted : exists x y, wf DoubleS x /\ wf DoubleS y /\ finite x /\ finite y /\ wider X87DoubleExtendedS DoubleS /\
  ~ same_through X87DoubleExtendedS DoubleS (fun F a b => add_r F a b NearestTiesToEven) NearestTiesToEven x y.
Proof.
  exists d_one, d_above_half_ulp.
  split. { vm_compute. repeat split; try discriminate; try (right; discriminate). }
  split. { vm_compute. repeat split; try discriminate; try (right; discriminate). }
  split; [left; reflexivity|]. split; [left; reflexivity|].
  split. { vm_compute. repeat split; discriminate. }
  intros [x' [y' [st [f [st' [g [st'' [h [lost [E1 [E2 [E3 [E4 [E5 [B _]]]]]]]]]]]]]]].
  assert (convert_r DoubleS X87DoubleExtendedS d_one NearestTiesToEven = Ret (OK, mkFloat (2 ^ 63) 0 Normal false, false)) as Q1 by (vm_compute; reflexivity).
  assert (convert_r DoubleS X87DoubleExtendedS d_above_half_ulp NearestTiesToEven = Ret (OK, mkFloat (2 ^ 63 + 2 ^ 51) (-53) Normal false, false)) as Q2 by (vm_compute; reflexivity).
  assert (x' = mkFloat (2 ^ 63) 0 Normal false) as -> by congruence.
  assert (y' = mkFloat (2 ^ 63 + 2 ^ 51) (-53) Normal false) as -> by congruence.
  assert (add_r DoubleS d_one d_above_half_ulp NearestTiesToEven = Ret (INEXACT, mkFloat (2 ^ 52 + 1) 0 Normal false)) as Q3 by (vm_compute; reflexivity).
  assert (f = mkFloat (2 ^ 52 + 1) 0 Normal false) as -> by congruence.
  assert (add_r X87DoubleExtendedS (mkFloat (2 ^ 63) 0 Normal false) (mkFloat (2 ^ 63 + 2 ^ 51) (-53) Normal false) NearestTiesToEven
    = Ret (INEXACT, mkFloat (2 ^ 63 + 2 ^ 10) 0 Normal false)) as Q4 by (vm_compute; reflexivity).
  assert (g = mkFloat (2 ^ 63 + 2 ^ 10) 0 Normal false) as -> by congruence.
  assert (convert_r X87DoubleExtendedS DoubleS (mkFloat (2 ^ 63 + 2 ^ 10) 0 Normal false) NearestTiesToEven
    = Ret (INEXACT, mkFloat (2 ^ 52) 0 Normal false, true)) as Q5 by (vm_compute; reflexivity).
  assert (h = mkFloat (2 ^ 52) 0 Normal false) as -> by congruence. vm_compute in B. discriminate B.
Qed.
