(** * Bisect.v -- a client that bisects an interval until its ends are neighbours *)
From Coq Require Import ZArith Reals List Bool Lia Lra.
From Flocq Require Import Core Plus_error.
From Verif Require Import Machine Ieee Spec Norm Arith Order Rem Special Int Algebra Laws Total Reach Eft Flocq754 SpecPrograms SpecExpr Expr Samples Loops.
Import ListNotations.
Local Open Scope Z_scope.
Ltac Zify.zify_post_hook ::= idtac.

(** the end where [p] holds and the one where it does not move to c = (a + b) * 0.5 as long as a < c < b;
    src/ieee.rs:1009 [add_r], src/ieee.rs:1080 [mul_r]; the fuel bounds the number of tests *)
Fixpoint c_bisect (S : Semantics) (m : Round) (half : Float) (p : Float -> bool) (fuel : nat) (a b : Float) : outcome (Float * Float) :=
  match fuel with
  | O => Diverge
  | Datatypes.S fuel =>
    let! '(_, s) := add_r S a b m in
    let! '(_, c) := mul_r S s half m in
    let! above := lt_f a c in
    let! below := lt_f c b in
    if above && below then
      if p c then c_bisect S m half p fuel a c else c_bisect S m half p fuel c b
    else Ret (a, b)
  end.
(** ** What is claimed *)
(** no number of the format lies strictly between *)
Definition neighbours (S : Semantics) (x y : R) : Prop := forall z, generic_format r2 (fexp S) z -> ~ (x < z < y)%R.

Section Bisect.
Variable S : Semantics.
Hypothesis HS : sem_ok S.
Variable m : Round.
Hypothesis NM : nearest m.
Notation F := (generic_format r2 (fexp S)).
Local Instance valid_here : Valid_exp (fexp S) := fexp_valid S HS.
Lemma nearest_best : forall x z, F z -> (Rabs (rounded S m x - x) <= Rabs (z - x))%R.
Proof.
  intros x z Fz. unfold rounded. destruct NM as [->| ->]; cbn [rnd_of]; apply (round_N_pt r2 (fexp S)); exact Fz.
Qed.
Lemma rounded_F : forall x, F (rounded S m x).
Proof. intros x. unfold rounded. apply generic_format_round; [exact valid_here|apply valid_rnd_of]. Qed.
(** halving the rounded sum rounds the midpoint *)
Lemma midpoint : forall x y, F x -> F y -> rounded S m (rounded S m (x + y) * / 2) = rounded S m ((x + y) * / 2).
Proof.
  intros x y Fx Fy. assert (PG : Prec_gt_0 (PRECISION S)) by (unfold Prec_gt_0; destruct (ok_prec S HS); lia).
  destruct (Rle_lt_dec (Rabs (x + y)) (bpow r2 (PRECISION S + (MIN_EXP S - (PRECISION S - 1))))) as [L|L].
  - rewrite (rounded_format S m (x + y)); [reflexivity|]. apply FLT_format_plus_small; assumption.
  - set (v := (x + y)%R) in *. assert (V0 : v <> 0%R) by (intros E; rewrite E, Rabs_R0 in L; pose proof (bpow_gt_0 r2 (PRECISION S + (MIN_EXP S - (PRECISION S - 1)))); lra).
    assert (H2 : bpow r2 (-1) = (/ 2)%R) by reflexivity.
    assert (MG : Raux.mag r2 (v * / 2) = (Raux.mag r2 v - 1)%Z :> Z) by (rewrite <- H2, mag_mult_bpow by exact V0; lia).
    assert (MV : PRECISION S + (MIN_EXP S - (PRECISION S - 1)) + 1 <= Raux.mag r2 v) by (apply mag_ge_bpow; replace (PRECISION S + (MIN_EXP S - (PRECISION S - 1)) + 1 - 1) with (PRECISION S + (MIN_EXP S - (PRECISION S - 1))) by lia; lra).
    assert (CE : cexp r2 (fexp S) v = cexp r2 (fexp S) (v * / 2) + 1) by (unfold cexp; rewrite MG; unfold fexp, FLT_exp; lia).
    assert (E : (rounded S m v * / 2 = rounded S m (v * / 2))%R).
    { unfold rounded, round, scaled_mantissa. rewrite CE. unfold F2R. cbn [Fnum Fexp]. set (c := cexp r2 (fexp S) (v * / 2)).
      replace (v * / 2 * bpow r2 (- c))%R with (v * bpow r2 (- (c + 1)))%R.
      2:{ rewrite Rmult_assoc, <- H2, <- bpow_plus. f_equal. f_equal. lia. }
      rewrite Rmult_assoc, <- H2, <- bpow_plus. f_equal. f_equal. lia. }
    rewrite E. apply rounded_format. apply rounded_F.
Qed.
Lemma mid_inside : forall x y z, F z -> (x < z < y)%R -> (x < rounded S m ((x + y) * / 2) < y)%R.
Proof.
  intros x y z Fz H. pose proof (nearest_best ((x + y) * / 2) z Fz) as B. set (c := rounded S m ((x + y) * / 2)) in *.
  assert (Rabs (z - (x + y) * / 2) < (y - x) / 2)%R by (apply Rabs_def1; lra). assert (K : (Rabs (c - (x + y) * / 2) < (y - x) / 2)%R) by lra.
  apply Rabs_def2 in K. lra.
Qed.
(** gaps at most double from one to the next *)
Lemma gap_up : forall d, F d -> (0 <= d)%R -> (succ r2 (fexp S) d - d <= 2 * (d - pred r2 (fexp S) d))%R.
Proof.
  intros d Fd P. rewrite succ_eq_pos by exact P. replace (d + ulp r2 (fexp S) d - d)%R with (ulp r2 (fexp S) d) by ring.
  destruct (Req_dec d 0) as [Z0|NZ].
  - rewrite Z0, pred_0. pose proof (ulp_ge_0 r2 (fexp S) 0). lra.
  - rewrite pred_eq_pos by exact P. unfold pred_pos. assert (PU : (0 <= ulp r2 (fexp S) d)%R) by apply ulp_ge_0.
    destruct (Req_bool_spec d (bpow r2 (Raux.mag r2 d - 1))) as [E|E]; [|lra].
    rewrite ulp_neq_0 by exact NZ. unfold cexp. set (e := Raux.mag r2 d : Z) in *.
    assert (bpow r2 (fexp S e) <= 2 * bpow r2 (fexp S (e - 1)))%R; [|lra].
    change 2%R with (IZR (radix_val r2)). rewrite <- bpow_plus_1. apply bpow_le. unfold fexp, FLT_exp. lia.
Qed.
Lemma gap_down : forall d, F d -> (d <= 0)%R -> (succ r2 (fexp S) d - d <= 2 * (d - pred r2 (fexp S) d))%R.
Proof.
  intros d Fd P. assert (E : (pred r2 (fexp S) d = d - ulp r2 (fexp S) d)%R).
  { unfold pred. rewrite succ_eq_pos by lra. rewrite ulp_opp. ring. }
  assert (U : (succ r2 (fexp S) d <= d + ulp r2 (fexp S) d)%R) by (apply succ_le_plus_ulp; apply FLT_exp_monotone). pose proof (ulp_ge_0 r2 (fexp S) d). rewrite E. lra.
Qed.
Lemma gaps : forall d, F d -> (succ r2 (fexp S) d - d <= 2 * (d - pred r2 (fexp S) d))%R.
Proof. intros d Fd. destruct (Rle_or_lt 0 d) as [P|P]; [apply gap_up|apply gap_down]; lra || assumption. Qed.
Lemma gaps_back : forall d, F d -> (d - pred r2 (fexp S) d <= 2 * (succ r2 (fexp S) d - d))%R.
Proof.
  intros d Fd. pose proof (gaps (- d) (generic_format_opp r2 (fexp S) d Fd)) as G. rewrite succ_opp, pred_opp in G. lra.
Qed.
Lemma pred_less : forall c, (pred r2 (fexp S) c < c)%R.
Proof.
  intros c. destruct (Req_dec c 0) as [Z0|NZ]; [|apply pred_lt_id; exact NZ].
  assert (PG : Prec_gt_0 (PRECISION S)) by (unfold Prec_gt_0; destruct (ok_prec S HS); lia).
  rewrite Z0, pred_0. unfold fexp. rewrite (ulp_FLT_0 r2 _ _). pose proof (bpow_gt_0 r2 (MIN_EXP S - (PRECISION S - 1))). lra.
Qed.
Lemma succ_more : forall c, (c < succ r2 (fexp S) c)%R.
Proof. intros c. pose proof (pred_less (- c)) as P. rewrite pred_opp in P. lra. Qed.
(** the interval shrinks by a quarter at least, or its ends are neighbours *)
Lemma shrink_low : forall x y, F x -> let c := rounded S m ((x + y) * / 2) in (x < c < y)%R ->
  neighbours S x c \/ (4 * (c - x) <= 3 * (y - x))%R.
Proof.
  intros x y Fx c H. assert (Fc : F c) by apply rounded_F. set (v := ((x + y) * / 2)%R) in *.
  destruct (Rle_or_lt c v) as [L|L]; [right; unfold v in L; lra|].
  set (d := pred r2 (fexp S) c). assert (Fd : F d) by (apply generic_format_pred; [exact valid_here|exact Fc]).
  assert (XD : (x <= d)%R) by (apply pred_ge_gt; [exact valid_here|exact Fx|exact Fc|lra]).
  assert (DC : forall z, F z -> (z < c)%R -> (z <= d)%R) by (intros z Fz B; apply pred_ge_gt; [exact valid_here|exact Fz|exact Fc|exact B]).
  destruct XD as [XD|XD].
  - right. pose proof (gaps d Fd) as G. unfold d in G at 1 2. rewrite succ_pred in G; [|exact valid_here|exact Fc]. fold d in G.
    assert (XP : (x <= pred r2 (fexp S) d)%R) by (apply pred_ge_gt; [exact valid_here|exact Fx|exact Fd|exact XD]).
    assert (DL : (d <= c)%R) by (apply pred_le_id). pose proof (nearest_best v d Fd) as B. fold c in B. rewrite (Rabs_pos_eq (c - v)) in B by lra.
    assert (DV : (c - v <= v - d)%R).
    { destruct (Rle_or_lt d v) as [K|K]; [rewrite Rabs_left1 in B by lra; lra|]. rewrite Rabs_pos_eq in B by lra.
      pose proof (pred_less c) as PL. fold d in PL. lra. }
    unfold v in *. lra.
  - left. intros z Fz B. pose proof (DC z Fz (proj2 B)). lra.
Qed.
Lemma shrink_high : forall x y, F y -> let c := rounded S m ((x + y) * / 2) in (x < c < y)%R ->
  neighbours S c y \/ (4 * (y - c) <= 3 * (y - x))%R.
Proof.
  intros x y Fy c H. assert (Fc : F c) by apply rounded_F. set (v := ((x + y) * / 2)%R) in *.
  destruct (Rle_or_lt v c) as [L|L]; [right; unfold v in L; lra|].
  set (d := succ r2 (fexp S) c). assert (Fd : F d) by (apply generic_format_succ; [exact valid_here|exact Fc]).
  assert (XD : (d <= y)%R) by (apply succ_le_lt; [exact valid_here|exact Fc|exact Fy|lra]).
  assert (DC : forall z, F z -> (c < z)%R -> (d <= z)%R) by (intros z Fz B; apply succ_le_lt; [exact valid_here|exact Fc|exact Fz|exact B]).
  destruct XD as [XD|XD].
  - right. pose proof (gaps_back d Fd) as G. unfold d in G at 1 2. rewrite pred_succ in G; [|exact valid_here|exact Fc]. fold d in G.
    assert (XP : (succ r2 (fexp S) d <= y)%R) by (apply succ_le_lt; [exact valid_here|exact Fd|exact Fy|exact XD]).
    pose proof (succ_more c) as SM. fold d in SM. pose proof (nearest_best v d Fd) as B. fold c in B. rewrite (Rabs_left1 (c - v)) in B by lra.
    assert (DV : (v - c <= d - v)%R).
    { destruct (Rle_or_lt v d) as [K|K]; [rewrite Rabs_pos_eq in B by lra; lra|]. rewrite Rabs_left1 in B by lra. lra. }
    unfold v in *. lra.
  - left. intros z Fz B. pose proof (DC z Fz (proj1 B)). lra.
Qed.
(** ** One step *)
Lemma less_test : forall x y, wf S x -> wf S y -> finite x -> finite y -> lt_f x y = Ret (Rlt_bool (value S x) (value S y)).
Proof.
  intros x y Wx Wy Fx Fy. unfold lt_f. rewrite (partial_cmp_finite S x y HS Wx Wy Fx Fy). cbn [bind]. unfold Rlt_bool.
  destruct (Rcompare (value S x) (value S y)); reflexivity.
Qed.
Variable half : Float.
Hypothesis HW : wf S half.
Hypothesis HF : finite half.
Hypothesis HV : value S half = (/ 2)%R.
Lemma step : forall a b, wf S a -> wf S b -> finite a -> finite b ->
  (Rabs (value S a) <= bpow r2 (MAX_EXP S - 1))%R -> (Rabs (value S b) <= bpow r2 (MAX_EXP S - 1))%R ->
  exists st s st' c, add_r S a b m = Ret (st, s) /\ mul_r S s half m = Ret (st', c) /\ wf S c /\ finite c /\
    value S c = rounded S m ((value S a + value S b) * / 2).
Proof.
  intros a b Wa Wb Fa Fb La Lb.
  assert (B2 : (bpow r2 (MAX_EXP S) = 2 * bpow r2 (MAX_EXP S - 1))%R).
  { replace (MAX_EXP S) with (MAX_EXP S - 1 + 1) at 1 by lia. apply bpow_plus_1. }
  assert (BM : forall v, (Rabs v <= bpow r2 (MAX_EXP S))%R -> (Rabs (rounded S m v) <= bpow r2 (MAX_EXP S))%R).
  { intros v Lv. apply abs_round_le_generic; [exact valid_here|apply valid_rnd_of| |exact Lv]. apply generic_format_bpow.
    pose proof HS as [Hp Hmin Hmax _]. unfold fexp, FLT_exp. lia. }
  assert (MX : (bpow r2 (MAX_EXP S) <= max_finite S)%R) by (replace (MAX_EXP S) with (MAX_EXP S - 0) by lia; apply bpow_max; [exact HS|lia]).
  assert (LS : (Rabs (value S a + value S b) <= bpow r2 (MAX_EXP S))%R) by (eapply Rle_trans; [apply Rabs_triang|]; lra).
  pose proof (BM _ LS) as RS.
  destruct (Eft.in_range S m _ _ _ (add_r_crate S a b m HS Wa Wb Fa Fb)) as [st [s [E1 [Ws [Fs Vs]]]]]; [lra|].
  assert (LC : (Rabs (value S s * value S half) <= bpow r2 (MAX_EXP S))%R).
  { rewrite Vs, HV, Rabs_mult, (Rabs_pos_eq (/ 2)) by lra. pose proof (Rabs_pos (rounded S m (value S a + value S b))). lra. }
  destruct (Eft.in_range S m _ _ _ (mul_r_crate S s half m HS Ws HW Fs HF)) as [st' [c [E2 [Wc [Fc Vc]]]]]; [pose proof (BM _ LC); lra|].
  exists st, s, st', c. split; [exact E1|]. split; [exact E2|]. split; [exact Wc|]. split; [exact Fc|].
  rewrite Vc, Vs, HV. apply midpoint; apply value_format; assumption.
Qed.
Variable p : Float -> bool.
Definition found (a b : Float) (o : outcome (Float * Float)) : Prop :=
  exists a' b', o = Ret (a', b') /\ wf S a' /\ wf S b' /\ finite a' /\ finite b' /\
    (value S a <= value S a' < value S b')%R /\ (value S b' <= value S b)%R /\
    neighbours S (value S a') (value S b') /\ p a' = p a /\ p b' = p b.
Lemma bisect_step : forall fuel a b, c_bisect S m half p (Datatypes.S fuel) a b =
  let! '(_, s) := add_r S a b m in
  let! '(_, c) := mul_r S s half m in
  let! above := lt_f a c in
  let! below := lt_f c b in
  if above && below then
    if p c then c_bisect S m half p fuel a c else c_bisect S m half p fuel c b
  else Ret (a, b).
Proof. reflexivity. Qed.
Lemma bisect : forall fuel a b, wf S a -> wf S b -> finite a -> finite b ->
  (Rabs (value S a) <= bpow r2 (MAX_EXP S - 1))%R -> (Rabs (value S b) <= bpow r2 (MAX_EXP S - 1))%R -> (value S a < value S b)%R ->
  p a = false -> p b = true ->
  neighbours S (value S a) (value S b) \/ (3 ^ fuel * (value S b - value S a) <= 4 ^ fuel * min_positive S)%R ->
  found a b (c_bisect S m half p (Datatypes.S fuel) a b).
Proof.
  induction fuel as [|fuel IH]; intros a b Wa Wb Fa Fb La Lb L Pa Pb K.
  all: destruct (step a b Wa Wb Fa Fb La Lb) as [st [s [st' [c [E1 [E2 [Wc [Fc Vc]]]]]]]].
  all: rewrite bisect_step, E1; cbn [bind]; rewrite E2; cbn [bind]; rewrite !less_test by assumption; cbn [bind].
  all: pose proof (value_format S a HS Wa) as Ga; pose proof (value_format S b HS Wb) as Gb; pose proof (value_format S c HS Wc) as Gc.
  all: assert (DONE : ~ (value S a < value S c < value S b)%R -> found a b (Ret (a, b))) by
    (intros N; exists a, b; repeat (split; [first [assumption|reflexivity|lra]|]); split; [|split; reflexivity];
     intros z Fz B; apply N; rewrite Vc; apply (mid_inside _ _ z Fz B)).
  all: destruct (Rlt_bool_spec (value S a) (value S c)) as [A1|A1]; [|apply DONE; lra].
  all: destruct (Rlt_bool_spec (value S c) (value S b)) as [A2|A2]; [|apply DONE; lra].
  all: cbn [andb].
  - exfalso. destruct K as [K|K]; [exact (K _ Gc (conj A1 A2))|]. cbn [pow] in K.
    destruct (units_exist S HS a Wa) as [ka [Ua _]]. destruct (units_exist S HS b Wb) as [kb [Ub _]]. destruct (units_exist S HS c Wc) as [kc [Uc _]].
    unfold units in *. pose proof (min_positive_pos S) as MP. rewrite Ua, Ub, Uc in *.
    apply Rmult_lt_reg_r in A1; [|exact MP]. apply Rmult_lt_reg_r in A2; [|exact MP]. apply lt_IZR in A1, A2.
    assert (K2 : (IZR (kb - ka) * min_positive S <= 1 * min_positive S)%R) by (rewrite minus_IZR; lra). apply Rmult_le_reg_r in K2; [|exact MP]. apply le_IZR in K2. lia.
  - assert (LC : (Rabs (value S c) <= bpow r2 (MAX_EXP S - 1))%R).
    { apply Rabs_le. apply Rabs_le_inv in La. apply Rabs_le_inv in Lb. lra. }
    assert (P3 : (0 < 3 ^ fuel)%R) by (apply pow_lt; lra). cbn [pow] in K.
    assert (K2 : (3 * 3 ^ fuel * (value S b - value S a) <= 4 * 4 ^ fuel * min_positive S)%R).
    { destruct K as [K|K]; [destruct (K _ Gc (conj A1 A2))|exact K]. }
    destruct (p c) eqn:Pc.
    + destruct (IH a c Wa Wc Fa Fc La LC A1 Pa Pc) as [a' [b' [E [W1 [W2 [F1 [F2 [V1 [V2 [N [P1 P2]]]]]]]]]]].
      { pose proof (shrink_low (value S a) (value S b) Ga) as SH. cbv zeta in SH. rewrite <- Vc in SH.
        destruct (SH (conj A1 A2)) as [Q|Q]; [left; exact Q|right].
        assert (3 ^ fuel * (4 * (value S c - value S a)) <= 3 ^ fuel * (3 * (value S b - value S a)))%R by (apply Rmult_le_compat_l; lra). lra. }
      exists a', b'. rewrite E. rewrite Pb, <- Pc. repeat (split; [first [assumption|reflexivity|lra]|]). exact P2.
    + destruct (IH c b Wc Wb Fc Fb LC Lb A2 Pc Pb) as [a' [b' [E [W1 [W2 [F1 [F2 [V1 [V2 [N [P1 P2]]]]]]]]]]].
      { pose proof (shrink_high (value S a) (value S b) Gb) as SH. cbv zeta in SH. rewrite <- Vc in SH.
        destruct (SH (conj A1 A2)) as [Q|Q]; [left; exact Q|right].
        assert (3 ^ fuel * (4 * (value S b - value S c)) <= 3 ^ fuel * (3 * (value S b - value S a)))%R by (apply Rmult_le_compat_l; lra). lra. }
      exists a', b'. rewrite E. rewrite Pa, <- Pc. repeat (split; [first [assumption|reflexivity|lra]|]). exact P2.
Qed.
Theorem bisect_ends : forall fuel a b, wf S a -> wf S b -> finite a -> finite b ->
  (Rabs (value S a) <= bpow r2 (MAX_EXP S - 1))%R -> (Rabs (value S b) <= bpow r2 (MAX_EXP S - 1))%R -> (value S a < value S b)%R ->
  p a = false -> p b = true -> 3 * (MAX_EXP S - MIN_EXP S + PRECISION S - 1) < Z.of_nat fuel ->
  found a b (c_bisect S m half p fuel a b).
Proof.
  intros fuel a b Wa Wb Fa Fb La Lb L Pa Pb H. pose proof HS as [Hp Hmin Hmax _].
  destruct fuel as [|fuel]; [lia|]. apply bisect; try assumption. right.
  set (k := Z.to_nat (MAX_EXP S - MIN_EXP S + PRECISION S - 1)).
  assert (FK : fuel = (3 * k + (fuel - 3 * k))%nat) by lia. set (j := (fuel - 3 * k)%nat) in *.
  assert (D : (value S b - value S a <= 2 ^ k * min_positive S)%R).
  { assert (P2 : (2 ^ k = bpow r2 (Z.of_nat k))%R) by (rewrite <- IZR_pow2 by lia; rewrite pow_IZR; f_equal; rewrite Zpower_nat_Z; reflexivity). rewrite P2. unfold min_positive. rewrite <- bpow_plus.
    replace (Z.of_nat k + (MIN_EXP S - (PRECISION S - 1))) with (MAX_EXP S - 1 + 1) by lia. rewrite bpow_plus_1. change (IZR r2) with 2%R.
    apply Rabs_le_inv in La. apply Rabs_le_inv in Lb. lra. }
  rewrite FK, !pow_add, !pow_mult. pose proof (min_positive_pos S) as MP.
  assert (J : (3 ^ j <= 4 ^ j)%R) by (apply pow_incr; lra). assert (J0 : (0 < 3 ^ j)%R) by (apply pow_lt; lra).
  assert (Q : ((3 ^ 3) ^ k * 2 ^ k <= (4 ^ 3) ^ k)%R) by (rewrite <- Rpow_mult_distr; apply pow_incr; lra).
  assert (T0 : (0 < (3 ^ 3) ^ k)%R) by (apply pow_lt; lra).
  apply Rle_trans with ((3 ^ 3) ^ k * 3 ^ j * (2 ^ k * min_positive S))%R.
  { apply Rmult_le_compat_l; [|exact D]. left. apply Rmult_lt_0_compat; assumption. }
  replace ((3 ^ 3) ^ k * 3 ^ j * (2 ^ k * min_positive S))%R with ((3 ^ 3) ^ k * 2 ^ k * 3 ^ j * min_positive S)%R by ring.
  apply Rmult_le_compat_r; [lra|]. apply Rmult_le_compat; [|lra|exact Q|exact J]. left. apply Rmult_lt_0_compat; [exact T0|apply pow_lt; lra].
Qed.
End Bisect.
Lemma midpoint_inside : forall S, sem_ok S -> forall m, nearest m -> forall half, wf S half -> finite half -> value S half = (/ 2)%R ->
  forall a b, wf S a -> wf S b -> finite a -> finite b ->
  (Rabs (value S a) <= bpow r2 (MAX_EXP S - 1))%R -> (Rabs (value S b) <= bpow r2 (MAX_EXP S - 1))%R ->
  exists st s st' c, add_r S a b m = Ret (st, s) /\ mul_r S s half m = Ret (st', c) /\ wf S c /\ finite c /\
    value S c = rounded S m ((value S a + value S b) / 2) /\
    (forall z, generic_format r2 (fexp S) z -> (value S a < z < value S b)%R -> (value S a < value S c < value S b)%R).
Proof.
  intros S HS m NM half HW HF HV a b Wa Wb Fa Fb La Lb.
  destruct (step S HS m half HW HF HV a b Wa Wb Fa Fb La Lb) as [st [s [st' [c [E1 [E2 [Wc [Fc Vc]]]]]]]].
  exists st, s, st', c. split; [exact E1|]. split; [exact E2|]. split; [exact Wc|]. split; [exact Fc|]. split; [exact Vc|].
  intros z Fz H. rewrite Vc. exact (mid_inside S HS m NM _ _ z Fz H).
Qed.
Definition h_half : Float := mkFloat 1024 (-1) Normal false.
Lemma upward_refuted : exists a b c, wf HalfS a /\ wf HalfS b /\ wf HalfS c /\
  (value HalfS a < value HalfS c < value HalfS b)%R /\
  forall p fuel, c_bisect HalfS TowardPositive h_half p (Datatypes.S fuel) a b = Ret (a, b).
Proof.
  exists (mkFloat 2047 (-1) Normal false), h_one_ulp, h_one. split; [sample_wf|]. split; [exact h_one_ulp_wf|]. split; [exact h_one_wf|].
  split; [unfold value; cbn; lra|]. intros p fuel. vm_compute. reflexivity.
Qed.
