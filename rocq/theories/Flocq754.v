(** * Flocq754.v -- agreement with Flocq's executable IEEE 754 arithmetic *)
From Coq Require Import ZArith Reals List Bool Lia Lra Psatz SpecFloat.
From Flocq Require Import Core.
From Flocq Require BinarySingleNaN.
From Verif Require Import Machine Sig SpecSig Ieee Spec Norm Order Int Next Convert Fma Algebra Laws Through Arith Special Formats FmaFull Integral Scale Samples.
Local Open Scope Z_scope.
Ltac Zify.zify_post_hook ::= idtac.

(** ** What is claimed

    Flocq defines the numbers of a format with precision [prec] and exponents
    below [emax] as an inductive type and computes with them on integers. *)
Notation bfloat S := (BinarySingleNaN.binary_float (PRECISION S) (MAX_EXP S + 1)).
(** the formats Flocq can describe: subnormals and exponent range as in IEEE 754 *)
Record ieee_format (S : Semantics) : Prop := {
  if_ok : sem_ok S;
  if_nonfinite : NONFINITE_BEHAVIOR S = IEEE754;
  if_min : MIN_EXP S = 1 - MAX_EXP S
}.
(** the number a float is *)
Definition view (S : Semantics) (x : Float) : spec_float :=
  match category x with
  | Zero => S754_zero (sign x)
  | Infinity => S754_infinity (sign x)
  | NaN => S754_nan
  | Normal => S754_finite (sign x) (Z.to_pos (sig x)) (exp x - (PRECISION S - 1))
  end.
Definition same (S : Semantics) (x : Float) (b : bfloat S) : Prop := wf S x /\ view S x = BinarySingleNaN.B2SF b.
Definition mode_of (m : Round) : BinarySingleNaN.mode :=
  match m with
  | NearestTiesToEven => BinarySingleNaN.mode_NE
  | NearestTiesToAway => BinarySingleNaN.mode_NA
  | TowardPositive => BinarySingleNaN.mode_UP
  | TowardNegative => BinarySingleNaN.mode_DN
  | TowardZero => BinarySingleNaN.mode_ZR
  end.

Section Format.
Variable S : Semantics.
Hypothesis HF : ieee_format S.
Let HS : sem_ok S := if_ok S HF.
Let NB : NONFINITE_BEHAVIOR S = IEEE754 := if_nonfinite S HF.
Let HE : MIN_EXP S = 1 - MAX_EXP S := if_min S HF.
Local Notation prec := (PRECISION S).
Local Notation emax := (MAX_EXP S + 1).
Lemma prec_pos : Prec_gt_0 prec.
Proof. unfold Prec_gt_0. destruct (ok_prec S HS). lia. Qed.
Lemma prec_below : BinarySingleNaN.Prec_lt_emax prec emax.
Proof. unfold BinarySingleNaN.Prec_lt_emax. destruct (ok_max S HS). lia. Qed.
Context {PG : Prec_gt_0 (PRECISION S)} {PL : BinarySingleNaN.Prec_lt_emax (PRECISION S) (MAX_EXP S + 1)}.

Lemma emin_same : SpecFloat.emin prec emax = MIN_EXP S - (PRECISION S - 1).
Proof. unfold SpecFloat.emin. lia. Qed.
Lemma fexp_same : SpecFloat.fexp prec emax = fexp S.
Proof. unfold SpecFloat.fexp, fexp, FLT_exp. rewrite emin_same. reflexivity. Qed.
Lemma rnd_same : forall m, BinarySingleNaN.round_mode (mode_of m) = rnd_of m.
Proof. intros []; reflexivity. Qed.

Lemma sig_bounds : forall x, wf S x -> category x = Normal -> 0 < sig x < 2 ^ PRECISION S /\ MIN_EXP S <= exp x <= MAX_EXP S /\
  (exp x = MIN_EXP S \/ 2 ^ (PRECISION S - 1) <= sig x).
Proof. intros x [_ [_ W]] C. rewrite C in W. destruct W as [A [B [C' _]]]. tauto. Qed.
Lemma view_valid : forall x, wf S x -> valid_binary prec emax (view S x) = true.
Proof.
  intros x W. unfold view. destruct (category x) eqn:C; try reflexivity.
  destruct (sig_bounds x W C) as [A [B D]]. unfold valid_binary, bounded. apply andb_true_intro. split.
  - unfold canonical_mantissa. rewrite fexp_same. apply Zeq_bool_true. rewrite Digits.Zpos_digits2_pos. rewrite Z2Pos.id by lia.
    unfold fexp, FLT_exp.
    assert (Zdigits r2 (sig x) <= PRECISION S). { apply Zdigits_le_Zpower. rewrite Z.abs_eq by lia. change (r2 : Z) with 2. lia. }
    destruct D as [D|D].
    + rewrite D. lia.
    + assert (PRECISION S - 1 < Zdigits r2 (sig x)). { apply Zdigits_gt_Zpower. rewrite Z.abs_eq by lia. change (r2 : Z) with 2. lia. }
      lia.
  - apply Zle_bool_true. lia.
Qed.
Definition to_b (x : Float) (W : wf S x) : bfloat S := BinarySingleNaN.SF2B _ (view_valid x W).
Lemma same_to_b : forall x W, same S x (to_b x W).
Proof. intros x W. split; [exact W|]. unfold to_b. symmetry. apply BinarySingleNaN.B2SF_SF2B. Qed.

(** every Flocq number is one of the crate's *)
Definition of_b (b : bfloat S) : Float :=
  match b with
  | BinarySingleNaN.B754_zero s => mkFloat 0 (MIN_EXP S - 1) Zero s
  | BinarySingleNaN.B754_infinity s => mkFloat 0 (MAX_EXP S + 1) Infinity s
  | BinarySingleNaN.B754_nan => mkFloat (2 ^ (PRECISION S - 2)) (MAX_EXP S + 1) NaN false
  | BinarySingleNaN.B754_finite s m e _ => mkFloat (Zpos m) (e + (PRECISION S - 1)) Normal s
  end.
Lemma same_of_b : forall b, same S (of_b b) b.
Proof.
  destruct (ok_prec S HS) as [P1 P2]. destruct (ok_max S HS) as [M1 M2].
  assert (B20 : 2 ^ 20 = 1048576) by reflexivity. assert (B31 : 2 ^ 31 = 2147483648) by reflexivity.
  assert (L : forall k, 0 <= k <= 126 -> limb (2 ^ k)). { intros k K. split; [lia|]. apply Z.pow_lt_mono_r; lia. }
  assert (L0 : limb 0) by (split; [lia|reflexivity]).
  intros [s|s| |s m e B].
  - split; [|reflexivity]. split; [exact L0|]. split; [unfold i32; cbn [of_b exp]; lia|exact I].
  - split; [|reflexivity]. split; [exact L0|]. split; [unfold i32; cbn [of_b exp]; lia|exact NB].
  - split; [|reflexivity]. split; [apply L; lia|]. split; [unfold i32; cbn [of_b exp]; lia|].
    cbn [of_b category sig]. unfold nan_sig. rewrite NB. destruct (X87 S).
    + split; [split; [lia|apply Z.pow_lt_mono_r; lia]|]. intro E. apply Z.pow_inj_r in E; lia.
    + split; [lia|apply Z.pow_lt_mono_r; lia].
  - split; [|unfold view; cbn [of_b category sign sig exp BinarySingleNaN.B2SF]; f_equal; lia].
    pose proof B as B0. unfold bounded in B0. apply andb_prop in B0. destruct B0 as [B1 B2]. apply Zle_bool_imp_le in B2.
    unfold canonical_mantissa in B1. apply Zeq_bool_eq in B1.  rewrite fexp_same, Digits.Zpos_digits2_pos in B1.
    unfold fexp, FLT_exp in B1. set (d := Zdigits r2 (Z.pos m)) in *.
    assert (D1 : Z.pos m < 2 ^ d). { pose proof (Zdigits_correct r2 (Z.pos m)) as [_ Q]. fold d in Q. rewrite Z.abs_eq in Q by lia. exact Q. }
    assert (D2 : 2 ^ (d - 1) <= Z.pos m). { pose proof (Zdigits_correct r2 (Z.pos m)) as [Q _]. fold d in Q. rewrite Z.abs_eq in Q by lia. exact Q. }
    assert (D0 : 0 < d). { apply Zdigits_gt_0. lia. }
    assert (dP : d <= PRECISION S) by lia.
    assert (mP : Z.pos m < 2 ^ PRECISION S). { eapply Z.lt_le_trans; [exact D1|]. apply Z.pow_le_mono_r; lia. }
    cbn [of_b]. split; [|split].
    + cbn [sig]. split; [lia|]. eapply Z.lt_trans; [exact mP|]. apply Z.pow_lt_mono_r; lia.
    + cbn [exp]. unfold i32 in *. lia.
    + cbn [category sig exp]. split; [lia|]. split; [lia|]. split.
      * destruct (Z.eq_dec d (PRECISION S)) as [Ed|Nd]; [right; rewrite <- Ed; exact D2|left; lia].
      * intro X. congruence.
Qed.

(** ** Reading off a Flocq number *)
Lemma same_unique : forall x b b', same S x b -> same S x b' -> b = b'.
Proof. intros x b b' [_ E] [_ E']. apply BinarySingleNaN.B2SF_inj. congruence. Qed.
Lemma same_finite : forall x b, same S x b -> (BinarySingleNaN.is_finite b = true <-> finite x).
Proof.
  intros x b [_ E]. unfold view, finite in *. destruct (category x), b; try discriminate E; cbn; intuition discriminate.
Qed.
Lemma same_sign : forall x b, same S x b -> category x <> NaN -> BinarySingleNaN.Bsign b = sign x.
Proof. intros x b [_ E] N. unfold view in E. destruct (category x), b; try discriminate E; cbn in *; congruence. Qed.
Lemma same_value : forall x b, same S x b -> BinarySingleNaN.B2R b = value S x.
Proof.
  intros x b [W E]. rewrite <- BinarySingleNaN.SF2R_B2SF, <- E. unfold view, value. destruct (category x) eqn:C; try reflexivity.
  cbn [BinarySingleNaN.SF2R]. destruct (sig_bounds x W C) as [A _]. rewrite Z2Pos.id by lia. unfold F2R. cbn [Fnum Fexp].
  unfold signed, cond_Zopp. reflexivity.
Qed.

Lemma bpow_emax : (bpow r2 emax = max_finite S + bpow r2 (MAX_EXP S - (PRECISION S - 1)))%R.
Proof.
  unfold max_finite, max_sig. rewrite NB. destruct (ok_prec S HS) as [P1 P2]. rewrite minus_IZR.
  replace (IZR (2 ^ PRECISION S)) with (bpow r2 (PRECISION S)) by (rewrite <- IZR_Zpower by lia; reflexivity).
  rewrite Rmult_minus_distr_r, Rmult_1_l, <- bpow_plus. replace (PRECISION S + (MAX_EXP S - (PRECISION S - 1))) with emax by (lia). lra.
Qed.
Lemma in_range_same : forall m v, (Rabs (rounded S m v) <= max_finite S)%R <-> (Rabs (rounded S m v) < bpow r2 emax)%R.
Proof.
  intros m v. pose proof (fexp_valid S HS) as VE. pose proof bpow_emax as BE. pose proof (bpow_gt_0 r2 (MAX_EXP S - (PRECISION S - 1))) as G.
  split; [lra|]. intro L.
  assert (Gm : generic_format r2 (fexp S) (Rabs (rounded S m v))) by (apply generic_format_abs, generic_format_round; [exact VE|apply valid_rnd_of]).
  assert (Ge : generic_format r2 (fexp S) (bpow r2 emax)).
  { apply generic_format_bpow. unfold fexp, FLT_exp. destruct (ok_prec S HS), (ok_max S HS). lia. }
  pose proof (pred_ge_gt r2 (fexp S) _ _ Gm Ge L) as Q. rewrite pred_bpow in Q.
  replace (fexp S emax) with (MAX_EXP S - (PRECISION S - 1)) in Q; [lra|].
  unfold fexp, FLT_exp. destruct (ok_prec S HS), (ok_max S HS). lia.
Qed.

Lemma overflow_same : forall m s, BinarySingleNaN.overflow_to_inf (mode_of m) s = to_infinity m s.
Proof. intros [] s; reflexivity. Qed.

(** [b] is the exact result [v], rounded: Flocq's way of saying it *)
Definition flocq_rounded (m : Round) (v : R) (zs : bool) (b : bfloat S) : Prop :=
  if Rlt_bool (Rabs (rounded S m v)) (bpow r2 emax) then
    BinarySingleNaN.B2R b = rounded S m v /\ BinarySingleNaN.is_finite b = true /\
    (v = 0%R -> BinarySingleNaN.Bsign b = zs) /\ ((v < 0)%R -> BinarySingleNaN.Bsign b = true) /\ ((0 < v)%R -> BinarySingleNaN.Bsign b = false)
  else exists g, BinarySingleNaN.B2SF b = BinarySingleNaN.binary_overflow prec emax (mode_of m) g /\ ((v < 0)%R -> g = true) /\ ((0 < v)%R -> g = false).
(** a float that is the exact result, rounded, is the Flocq number that is *)
Lemma deliver_same : forall m v zs st r b, correctly_rounded S m v zs (st, r) -> flocq_rounded m v zs b -> same S r b.
Proof.
  intros m v zs st r b [W [[S1 [S2 S3]] [D1 D2]]] B. unfold flocq_rounded in B.
  destruct (Rlt_bool_spec (Rabs (rounded S m v)) (bpow r2 emax)) as [L|L].
  - destruct B as [BV [BF [B0 [Bn Bp]]]]. apply in_range_same in L. destruct (D1 L) as [F [V _]].
    pose proof (same_to_b r W) as T. assert (to_b r W = b) as <-; [|exact T].
    apply BinarySingleNaN.B2R_Bsign_inj.
    + apply (same_finite r); assumption.
    + exact BF.
    + rewrite (same_value r _ T), V, BV. reflexivity.
    + rewrite (same_sign r _ T) by (destruct F as [F|F]; rewrite F; discriminate).
      destruct (Rtotal_order v 0) as [H|[H|H]]; [rewrite Bn, S1 by exact H|rewrite B0, S3 by exact H|rewrite Bp, S2 by exact H]; reflexivity.
  - assert (O : (max_finite S < Rabs (rounded S m v))%R). { destruct (Rle_or_lt (Rabs (rounded S m v)) (max_finite S)) as [Q|Q]; [|exact Q]. apply in_range_same in Q. lra. }
    destruct B as [g [B [Gn Gp]]].
    specialize (D2 O). split; [exact W|]. rewrite B. unfold BinarySingleNaN.binary_overflow.
    assert (Nz : v <> 0%R). { intros ->. unfold rounded in O. rewrite round_0 in O by apply valid_rnd_of. rewrite Rabs_R0 in O. pose proof (max_finite_pos S HS). lra. }
    assert (E : g = sign r). { destruct (Rtotal_order v 0) as [H|[H|H]]; [rewrite Gn, S1 by exact H|contradiction|rewrite Gp, S2 by exact H]; reflexivity. }
    rewrite E, overflow_same. destruct (to_infinity m (sign r)).
    + destruct D2 as [_ C]. rewrite NB in C. unfold view. rewrite C. reflexivity.
    + destruct D2 as [_ [C V]]. unfold view. rewrite C.
      assert (sig r = 2 ^ PRECISION S - 1 /\ exp r = MAX_EXP S) as [-> ->].
      { destruct (sig_bounds r W C) as [Q1 [Q2 Q3]]. unfold value in V. rewrite C in V. rewrite Rabs_mult, (Rabs_pos_eq (bpow r2 _)) in V by apply bpow_ge_0.
        rewrite <- abs_IZR in V. replace (Z.abs (signed (sign r) (sig r))) with (sig r) in V by (unfold signed; destruct (sign r); lia).
        unfold max_finite, max_sig in V. rewrite NB in V.
        destruct (Z.eq_dec (exp r) (MAX_EXP S)) as [X|X].
        - rewrite X in V. apply Rmult_eq_reg_r in V; [apply eq_IZR in V; auto|]. pose proof (bpow_gt_0 r2 (MAX_EXP S - (PRECISION S - 1))). lra.
        - exfalso. assert (Lt : (IZR (sig r) * bpow r2 (exp r - (PRECISION S - 1)) < IZR (2 ^ PRECISION S - 1) * bpow r2 (MAX_EXP S - (PRECISION S - 1)))%R); [|lra].
          replace (MAX_EXP S - (PRECISION S - 1)) with ((MAX_EXP S - exp r) + (exp r - (PRECISION S - 1))) by lia. rewrite bpow_plus, <- Rmult_assoc.
          apply Rmult_lt_compat_r; [apply bpow_gt_0|]. rewrite <- IZR_Zpower by lia. rewrite <- mult_IZR. apply IZR_lt. change (r2 : Z) with 2.
          assert (2 ^ 1 <= 2 ^ (MAX_EXP S - exp r)) by (apply Z.pow_le_mono_r; lia).
          assert (2 ^ 2 <= 2 ^ PRECISION S) by (apply Z.pow_le_mono_r; [lia|]; destruct (ok_prec S HS); lia).
          change (2 ^ 1) with 2 in *. change (2 ^ 2) with 4 in *. nia. }
      f_equal. lia.
Qed.

(** ** Special numbers *)
Lemma same_nan : forall f, wf S f -> category f = NaN -> same S f BinarySingleNaN.B754_nan.
Proof. intros f W C. split; [exact W|]. unfold view. rewrite C. reflexivity. Qed.
Lemma same_inf : forall f g, is_special S Infinity g f -> same S f (BinarySingleNaN.B754_infinity g).
Proof. intros f g [W [C G]]. split; [exact W|]. unfold view. rewrite C, G. reflexivity. Qed.
Lemma same_zero : forall f g, is_special S Zero g f -> same S f (BinarySingleNaN.B754_zero g).
Proof. intros f g [W [C G]]. split; [exact W|]. unfold view. rewrite C, G. reflexivity. Qed.
Lemma same_default : forall f, default_nan S f -> same S f BinarySingleNaN.B754_nan.
Proof. intros f [W [C _]]. apply same_nan; assumption. Qed.
Lemma same_quieted : forall f, wf S f -> category f = NaN -> same S (quieted S f) BinarySingleNaN.B754_nan.
Proof. intros f W C. apply same_nan; [apply wf_quieted; assumption|exact C]. Qed.
Lemma same_cases : forall x b, same S x b ->
  match category x with
  | NaN => b = BinarySingleNaN.B754_nan
  | Infinity => b = BinarySingleNaN.B754_infinity (sign x)
  | Zero => b = BinarySingleNaN.B754_zero (sign x)
  | Normal => exists e H, b = BinarySingleNaN.B754_finite (sign x) (Z.to_pos (sig x)) e H
  end.
Proof.
  intros x b [W E]. unfold view in E. destruct (category x), b; try discriminate E; cbn in E; try congruence.
  assert (e = exp x - (PRECISION S - 1)) by congruence. assert (m = Z.to_pos (sig x)) by congruence. assert (s = sign x) by congruence.
  subst. eauto.
Qed.
Lemma finite_cases : forall x, finite x \/ category x = NaN \/ category x = Infinity.
Proof. intro x. unfold finite. destruct (category x); tauto. Qed.

(** ** Arithmetic *)
Lemma ret_pair : forall (res : Z * Float) (P : Float -> Prop), P (snd res) -> exists st r, Ret res = Ret (st, r) /\ P r.
Proof. intros [st r] P H. exists st, r. split; [reflexivity|exact H]. Qed.
(** signs of the two specifications *)
Lemma rcompare_sign : forall v zs (b : bool), b = match Rcompare v 0 with Eq => zs | Lt => true | Gt => false end ->
  (v = 0%R -> b = zs) /\ ((v < 0)%R -> b = true) /\ ((0 < v)%R -> b = false).
Proof. intros v zs b ->. split; [|split]; intro H; [rewrite Rcompare_Eq by exact H|rewrite Rcompare_Lt by exact H|rewrite Rcompare_Gt by exact H]; reflexivity. Qed.
Lemma sign_low : forall x a, same S x a -> finite x -> (BinarySingleNaN.Bsign a = true -> value S x <= 0)%R /\ (BinarySingleNaN.Bsign a = false -> 0 <= value S x)%R.
Proof.
  intros x a A F. assert (N : category x <> NaN) by (destruct F as [F|F]; rewrite F; discriminate). rewrite (same_sign x a A N).
  destruct (value_sign S x (sign x) (proj1 A) F (fun _ => eq_refl)) as [H1 [H2 H3]].
  split; intro G; destruct (Rtotal_order (value S x) 0) as [H|[H|H]]; try lra; [rewrite H2 in G by exact H|rewrite H1 in G by exact H]; discriminate.
Qed.
Lemma finite_b : forall x a, same S x a -> finite x -> BinarySingleNaN.is_finite a = true.
Proof. intros x a A. apply (same_finite x a A). Qed.
Lemma finite_sign : forall x a, same S x a -> finite x -> BinarySingleNaN.Bsign a = sign x.
Proof. intros x a A [F|F]; apply (same_sign x a A); rewrite F; discriminate. Qed.

Lemma rounded_overflow_nonzero : forall m v, (bpow r2 emax <= Rabs (rounded S m v))%R -> v <> 0%R.
Proof.
  intros m v O ->. unfold rounded in O. rewrite round_0 in O by apply valid_rnd_of. rewrite Rabs_R0 in O. pose proof (bpow_gt_0 r2 emax). lra.
Qed.
(** the sign of an exactly zero sum, in Flocq's words; [gy], [vy]: sign and value of the second summand *)
Lemma zero_sum_same : forall x y gy vy m, wf S x -> finite x -> finite y ->
  (category y = Normal -> (gy = true -> vy < 0)%R /\ (gy = false -> 0 < vy)%R) -> (category y = Zero -> vy = 0%R) ->
  (value S x + vy = 0)%R ->
  match mode_of m with BinarySingleNaN.mode_DN => (sign x || gy)%bool | _ => (sign x && gy)%bool end = sum_zero_sign x y gy m.
Proof.
  intros x y gy vy m W Fx Fy HN HZ E. unfold sum_zero_sign.
  destruct Fx as [Cx|Cx], Fy as [Cy|Cy]; rewrite Cx; try rewrite Cy.
  - destruct (HN Cy) as [N1 N2]. destruct (normal_sign S x W Cx) as [[_ P1] [_ P2]].
    destruct (sign x), gy; try (destruct m; reflexivity); exfalso; specialize (P1 eq_refl) || specialize (P2 eq_refl); specialize (N1 eq_refl) || specialize (N2 eq_refl); lra.
  - exfalso. rewrite (HZ Cy), Rplus_0_r in E. exact (normal_nonzero S x W Cx E).
  - exfalso. destruct (HN Cy) as [N1 N2]. assert (V : value S x = 0%R) by (unfold value; rewrite Cx; reflexivity). rewrite V, Rplus_0_l in E.
    destruct gy; [specialize (N1 eq_refl)|specialize (N2 eq_refl)]; lra.
  - destruct (sign x), gy, m; reflexivity.
Qed.
Lemma add_finite : forall x y a b m, same S x a -> same S y b -> finite x -> finite y ->
  exists st r, add_r S x y m = Ret (st, r) /\ same S r (BinarySingleNaN.Bplus (mode_of m) a b).
Proof.
  intros x y a b m A B Fx Fy. destruct (add_r_ieee S x y m HS NB (proj1 A) (proj1 B) Fx Fy) as [res [E D]]. rewrite E.
  apply ret_pair. destruct res as [st r]. eapply deliver_same; [exact D|]. cbn [snd].
  pose proof (BinarySingleNaN.Bplus_correct _ _ _ _ (mode_of m) a b (finite_b x a A Fx) (finite_b y b B Fy)) as C.
  rewrite fexp_same, rnd_same, (same_value x a A), (same_value y b B) in C. fold (rounded S m (value S x + value S y)) in C.
  unfold flocq_rounded. pose proof (sign_low x a A Fx) as [X1 X2]. pose proof (sign_low y b B Fy) as [Y1 Y2].
  destruct (Rlt_bool_spec (Rabs (rounded S m (value S x + value S y))) (bpow r2 emax)) as [L|L].
  - destruct C as [C1 [C2 C3]]. split; [exact C1|]. split; [exact C2|].
    destruct (rcompare_sign _ _ _ C3) as [Q1 Q2]. split; [|exact Q2]. intro Z. rewrite (Q1 Z), (finite_sign x a A Fx), (finite_sign y b B Fy).
    apply zero_sum_same with (vy := value S y); auto; [exact (proj1 A)| |intro Cy; unfold value; rewrite Cy; reflexivity].
    intro Cy. destruct (normal_sign S y (proj1 B) Cy) as [[_ P1] [_ P2]]. auto.
  - destruct C as [C1 C2]. exists (BinarySingleNaN.Bsign a). split; [exact C1|].
    pose proof (rounded_overflow_nonzero m _ L) as Nz. rewrite <- C2 in Y1, Y2.
    destruct (BinarySingleNaN.Bsign a); [specialize (X1 eq_refl); specialize (Y1 eq_refl)|specialize (X2 eq_refl); specialize (Y2 eq_refl)]; split; intro; try reflexivity; lra.
Qed.
Lemma sub_finite : forall x y a b m, same S x a -> same S y b -> finite x -> finite y ->
  exists st r, sub_r S x y m = Ret (st, r) /\ same S r (BinarySingleNaN.Bminus (mode_of m) a b).
Proof.
  intros x y a b m A B Fx Fy. destruct (sub_r_ieee S x y m HS NB (proj1 A) (proj1 B) Fx Fy) as [res [E D]]. rewrite E.
  apply ret_pair. destruct res as [st r]. eapply deliver_same; [exact D|]. cbn [snd].
  pose proof (BinarySingleNaN.Bminus_correct _ _ _ _ (mode_of m) a b (finite_b x a A Fx) (finite_b y b B Fy)) as C.
  rewrite fexp_same, rnd_same, (same_value x a A), (same_value y b B) in C. fold (rounded S m (value S x - value S y)) in C.
  unfold flocq_rounded. pose proof (sign_low x a A Fx) as [X1 X2]. pose proof (sign_low y b B Fy) as [Y1 Y2].
  destruct (Rlt_bool_spec (Rabs (rounded S m (value S x - value S y))) (bpow r2 emax)) as [L|L].
  - destruct C as [C1 [C2 C3]]. split; [exact C1|]. split; [exact C2|].
    destruct (rcompare_sign _ _ _ C3) as [Q1 Q2]. split; [|exact Q2]. intro Z. rewrite (Q1 Z), (finite_sign x a A Fx), (finite_sign y b B Fy).
    apply zero_sum_same with (vy := (- value S y)%R); auto; [exact (proj1 A)| |intro Cy; unfold value; rewrite Cy; apply Ropp_0].
    intro Cy. destruct (normal_sign S y (proj1 B) Cy) as [[_ P1] [_ P2]]. destruct (sign y); split; intro H; try discriminate H; [specialize (P1 eq_refl)|specialize (P2 eq_refl)]; lra.
  - destruct C as [C1 C2]. exists (BinarySingleNaN.Bsign a). split; [exact C1|].
    pose proof (rounded_overflow_nonzero m _ L) as Nz. rewrite C2 in X1, X2 |- *.
    destruct (BinarySingleNaN.Bsign b); cbn [negb] in *; [specialize (X2 eq_refl); specialize (Y1 eq_refl)|specialize (X1 eq_refl); specialize (Y2 eq_refl)]; split; intro; try reflexivity; lra.
Qed.
Lemma finite_not_nan : forall b : bfloat S, BinarySingleNaN.is_finite b = true -> BinarySingleNaN.is_nan b = false.
Proof. intros []; try reflexivity; discriminate. Qed.
Lemma mul_finite : forall x y a b m, same S x a -> same S y b -> finite x -> finite y ->
  exists st r, mul_r S x y m = Ret (st, r) /\ same S r (BinarySingleNaN.Bmult (mode_of m) a b).
Proof.
  intros x y a b m A B Fx Fy. destruct (mul_r_ieee S x y m HS NB (proj1 A) (proj1 B) Fx Fy) as [res [E D]]. rewrite E.
  apply ret_pair. destruct res as [st r]. eapply deliver_same; [exact D|]. cbn [snd].
  pose proof (BinarySingleNaN.Bmult_correct _ _ _ _ (mode_of m) a b) as C.
  rewrite fexp_same, rnd_same, (same_value x a A), (same_value y b B) in C. fold (rounded S m (value S x * value S y)) in C.
  unfold flocq_rounded. pose proof (sign_low x a A Fx) as [X1 X2]. pose proof (sign_low y b B Fy) as [Y1 Y2].
  assert (G : ((value S x * value S y < 0)%R -> xorb (BinarySingleNaN.Bsign a) (BinarySingleNaN.Bsign b) = true) /\
              ((0 < value S x * value S y)%R -> xorb (BinarySingleNaN.Bsign a) (BinarySingleNaN.Bsign b) = false)).
  { destruct (BinarySingleNaN.Bsign a), (BinarySingleNaN.Bsign b); cbn [xorb]; split; intro H; try reflexivity; exfalso;
      repeat match goal with Q : ?t = ?t -> _ |- _ => specialize (Q eq_refl) end; nra. }
  destruct (Rlt_bool_spec (Rabs (rounded S m (value S x * value S y))) (bpow r2 emax)) as [L|L].
  - destruct C as [C1 [C2 C3]]. rewrite (finite_b x a A Fx), (finite_b y b B Fy) in C2. specialize (C3 (finite_not_nan _ C2)).
    split; [exact C1|]. split; [exact C2|]. rewrite C3. split; [|exact G]. intros _. rewrite (finite_sign x a A Fx), (finite_sign y b B Fy). reflexivity.
  - eexists. split; [exact C|exact G].
Qed.
Lemma div_finite : forall x y a b m, same S x a -> same S y b -> finite x -> category y = Normal ->
  exists st r, div_r S x y m = Ret (st, r) /\ same S r (BinarySingleNaN.Bdiv (mode_of m) a b).
Proof.
  intros x y a b m A B Fx Cy. assert (Fy : finite y) by (left; exact Cy).
  destruct (div_r_ieee S x y m HS NB (proj1 A) (proj1 B) Fx Cy) as [res [E D]]. rewrite E.
  apply ret_pair. destruct res as [st r]. eapply deliver_same; [exact D|]. cbn [snd].
  pose proof (normal_nonzero S y (proj1 B) Cy) as Nz.
  pose proof (BinarySingleNaN.Bdiv_correct _ _ _ _ (mode_of m) a b) as C.
  rewrite fexp_same, rnd_same, (same_value x a A), (same_value y b B) in C. specialize (C Nz). fold (rounded S m (value S x / value S y)) in C.
  unfold flocq_rounded. pose proof (sign_low x a A Fx) as [X1 X2]. pose proof (sign_low y b B Fy) as [Y1 Y2].
  assert (IV : (0 < / (value S y * value S y))%R) by (apply Rinv_0_lt_compat; nra).
  assert (V : (value S x / value S y = value S x * value S y * / (value S y * value S y))%R) by (field; exact Nz).
  assert (G : ((value S x / value S y < 0)%R -> xorb (BinarySingleNaN.Bsign a) (BinarySingleNaN.Bsign b) = true) /\
              ((0 < value S x / value S y)%R -> xorb (BinarySingleNaN.Bsign a) (BinarySingleNaN.Bsign b) = false)).
  { rewrite V. set (p := (value S x * value S y)%R). set (q := (/ (value S y * value S y))%R) in *.
    assert (Pn : (p * q < 0 -> p < 0)%R) by (intro; nra). assert (Pp : (0 < p * q -> 0 < p)%R) by (intro; nra).
    destruct (BinarySingleNaN.Bsign a), (BinarySingleNaN.Bsign b); cbn [xorb]; split; intro H; try reflexivity; exfalso;
      repeat match goal with Q : ?t = ?t -> _ |- _ => specialize (Q eq_refl) end; (apply Pn in H || apply Pp in H); unfold p in H; nra. }
  destruct (Rlt_bool_spec (Rabs (rounded S m (value S x / value S y))) (bpow r2 emax)) as [L|L].
  - destruct C as [C1 [C2 C3]]. rewrite (finite_b x a A Fx) in C2. specialize (C3 (finite_not_nan _ C2)).
    split; [exact C1|]. split; [exact C2|]. rewrite C3. split; [|exact G]. intros _. rewrite (finite_sign x a A Fx), (finite_sign y b B Fy). reflexivity.
  - eexists. split; [exact C|exact G].
Qed.
Lemma fma_finite : forall x y z a b c m, same S x a -> same S y b -> same S z c -> finite x -> finite y -> finite z -> fma_safe S x y z ->
  exists st r, mul_add_r S x y z m = Ret (st, r) /\ same S r (BinarySingleNaN.Bfma (mode_of m) a b c).
Proof.
  intros x y z a b c m A B C0 Fx Fy Fz SF. destruct (mul_add_r_ieee S x y z m HS NB (proj1 A) (proj1 B) (proj1 C0) Fx Fy Fz SF) as [res [E D]]. rewrite E.
  apply ret_pair. destruct res as [st r]. eapply deliver_same; [exact D|]. cbn [snd].
  pose proof (BinarySingleNaN.Bfma_correct _ _ _ _ (mode_of m) a b c (finite_b x a A Fx) (finite_b y b B Fy) (finite_b z c C0 Fz)) as C. cbv zeta in C.
  rewrite fexp_same, rnd_same, (same_value x a A), (same_value y b B), (same_value z c C0) in C. fold (rounded S m (value S x * value S y + value S z)) in C.
  unfold flocq_rounded. set (v := (value S x * value S y + value S z)%R) in *.
  destruct (Rlt_bool_spec (Rabs (rounded S m v)) (bpow r2 emax)) as [L|L].
  - destruct C as [C1 [C2 C3]]. split; [exact C1|]. split; [exact C2|].
    destruct (rcompare_sign _ _ _ C3) as [Q1 Q2]. split; [|exact Q2]. intro Z. rewrite (Q1 Z). unfold BinarySingleNaN.Bfma_szero, fma_zero_sign.
    rewrite (finite_sign x a A Fx), (finite_sign y b B Fy), (finite_sign z c C0 Fz). destruct m; reflexivity.
  - exists (Rlt_bool v 0). split; [exact C|]. split; intro H; [apply Rlt_bool_true; exact H|apply Rlt_bool_false; lra].
Qed.

(** ** All operands *)
Ltac opened C := match type of C with ex _ => destruct C as [? [? ->]] | _ = _ => rewrite C end.
Ltac kill_cases Ca Cb := opened Ca; opened Cb.
Lemma add_same : forall x y a b m, same S x a -> same S y b ->
  exists st r, add_r S x y m = Ret (st, r) /\ same S r (BinarySingleNaN.Bplus (mode_of m) a b).
Proof.
  intros x y a b m A B. pose proof (proj1 A) as Wx. pose proof (proj1 B) as Wy.
  pose proof (same_cases x a A) as Ca. pose proof (same_cases y b B) as Cb.
  assert (HN : category x = NaN \/ category y = NaN -> exists st r, add_r S x y m = Ret (st, r) /\ same S r BinarySingleNaN.B754_nan).
  { intro H. rewrite add_r_nan by assumption. eexists _, _. split; [reflexivity|]. apply same_quieted; unfold first_nan; destruct (category x) eqn:E; intuition congruence. }
  pose proof (add_r_infinite S x y m HS Wx Wy) as HI. pose proof (add_finite x y a b m A B) as HFi. unfold finite in HFi.
  destruct (category x) eqn:Cx, (category y) eqn:Cy; try solve [apply HFi; auto]; clear HFi A B; kill_cases Ca Cb;
    cbn [BinarySingleNaN.Bplus]; try solve [apply HN; auto]; (destruct HI as [st [f [E D]]]; [discriminate|discriminate|auto|]);
    exists st, f; (split; [exact E|]); try (destruct D; apply same_inf; assumption).
  destruct (Bool.eqb (sign x) (sign y)); destruct D; [apply same_inf|apply same_default]; assumption.
Qed.
Lemma sub_same : forall x y a b m, same S x a -> same S y b ->
  exists st r, sub_r S x y m = Ret (st, r) /\ same S r (BinarySingleNaN.Bminus (mode_of m) a b).
Proof.
  intros x y a b m A B. pose proof (proj1 A) as Wx. pose proof (proj1 B) as Wy.
  pose proof (same_cases x a A) as Ca. pose proof (same_cases y b B) as Cb.
  assert (HN : category x = NaN \/ category y = NaN -> exists st r, sub_r S x y m = Ret (st, r) /\ same S r BinarySingleNaN.B754_nan).
  { intro H. rewrite sub_r_nan by assumption. eexists _, _. split; [reflexivity|]. apply same_quieted; unfold first_nan; destruct (category x) eqn:E; intuition congruence. }
  pose proof (sub_r_infinite S x y m HS Wx Wy) as HI. pose proof (sub_finite x y a b m A B) as HFi. unfold finite in HFi.
  destruct (category x) eqn:Cx, (category y) eqn:Cy; try solve [apply HFi; auto]; clear HFi A B; kill_cases Ca Cb;
    cbn [BinarySingleNaN.Bminus]; try solve [apply HN; auto]; (destruct HI as [st [f [E D]]]; [discriminate|discriminate|auto|]);
    exists st, f; (split; [exact E|]); try (destruct D; apply same_inf; assumption).
  destruct (sign x), (sign y); cbn [Bool.eqb negb] in *; destruct D; (apply same_inf; assumption) || (apply same_default; assumption).
Qed.
Lemma mul_same : forall x y a b m, same S x a -> same S y b ->
  exists st r, mul_r S x y m = Ret (st, r) /\ same S r (BinarySingleNaN.Bmult (mode_of m) a b).
Proof.
  intros x y a b m A B. pose proof (proj1 A) as Wx. pose proof (proj1 B) as Wy.
  pose proof (same_cases x a A) as Ca. pose proof (same_cases y b B) as Cb.
  assert (HN : category x = NaN \/ category y = NaN -> exists st r, mul_r S x y m = Ret (st, r) /\ same S r BinarySingleNaN.B754_nan).
  { intro H. rewrite mul_r_nan by assumption. eexists _, _. split; [reflexivity|]. apply same_quieted; unfold first_nan; destruct (category x) eqn:E; intuition congruence. }
  pose proof (mul_r_infinite S x y m HS Wx Wy) as HI. pose proof (mul_finite x y a b m A B) as HFi. unfold finite in HFi.
  destruct (category x) eqn:Cx, (category y) eqn:Cy; try solve [apply HFi; auto]; clear HFi A B; kill_cases Ca Cb;
    cbn [BinarySingleNaN.Bmult]; try solve [apply HN; auto]; (destruct HI as [st [f [E D]]]; [discriminate|discriminate|auto|]);
    exists st, f; (split; [exact E|]); destruct D; (apply same_inf; assumption) || (apply same_default; assumption).
Qed.
Lemma div_same : forall x y a b m, same S x a -> same S y b ->
  exists st r, div_r S x y m = Ret (st, r) /\ same S r (BinarySingleNaN.Bdiv (mode_of m) a b).
Proof.
  intros x y a b m A B. pose proof (proj1 A) as Wx. pose proof (proj1 B) as Wy.
  pose proof (same_cases x a A) as Ca. pose proof (same_cases y b B) as Cb.
  assert (HN : category x = NaN \/ category y = NaN -> exists st r, div_r S x y m = Ret (st, r) /\ same S r BinarySingleNaN.B754_nan).
  { intro H. rewrite div_r_nan by assumption. eexists _, _. split; [reflexivity|]. apply same_quieted; unfold first_nan; destruct (category x) eqn:E; intuition congruence. }
  pose proof (div_r_special S x y m HS Wx Wy) as HI. cbv zeta in HI. unfold infinity_of in HI. rewrite NB in HI.
  pose proof (div_finite x y a b m A B) as HFi. unfold finite in HFi.
  destruct (category x) eqn:Cx, (category y) eqn:Cy; try solve [apply HFi; auto]; clear HFi A B; kill_cases Ca Cb;
    cbn [BinarySingleNaN.Bdiv]; try solve [apply HN; auto]; (destruct HI as [st [f [E D]]]; [discriminate|discriminate|auto|]);
    exists st, f; (split; [exact E|]); destruct D; (apply same_inf; assumption) || (apply same_default; assumption) || (apply same_zero; assumption).
Qed.
Lemma fma_same : forall x y z a b c m, same S x a -> same S y b -> same S z c -> (finite x -> finite y -> finite z -> fma_safe S x y z) ->
  exists st r, mul_add_r S x y z m = Ret (st, r) /\ same S r (BinarySingleNaN.Bfma (mode_of m) a b c).
Proof.
  intros x y z a b c m A B C SF. pose proof (proj1 A) as Wx. pose proof (proj1 B) as Wy. pose proof (proj1 C) as Wz.
  pose proof (same_cases x a A) as Ca. pose proof (same_cases y b B) as Cb. pose proof (same_cases z c C) as Cc.
  assert (HN : category x = NaN \/ category y = NaN \/ category z = NaN -> exists st r, mul_add_r S x y z m = Ret (st, r) /\ same S r BinarySingleNaN.B754_nan).
  { intro H. destruct (mul_add_r_nan S x y z m HS Wx Wy H) as [st [f [E D]]]. exists st, f. split; [exact E|].
    assert (Q1 : category x = NaN \/ category y = NaN -> same S (quieted S (first_nan x y)) BinarySingleNaN.B754_nan).
    { intro Q. apply same_quieted; unfold first_nan; destruct (category x) eqn:E1; intuition congruence. }
    assert (Q2 : category z = NaN -> same S (quieted S z) BinarySingleNaN.B754_nan) by (intro; apply same_quieted; assumption).
    destruct (category x) eqn:E1, (category y) eqn:E2; destruct D as [_ D]; try (apply same_default; exact D); rewrite D; (apply Q1; tauto) || (apply Q2; intuition discriminate). }
  pose proof (mul_add_r_infinite S x y z m HS Wx Wy Wz) as HI. cbv zeta in HI.
  assert (HFi : finite x -> finite y -> finite z -> exists st r, mul_add_r S x y z m = Ret (st, r) /\ same S r (BinarySingleNaN.Bfma (mode_of m) a b c)).
  { intros Fx Fy Fz. apply fma_finite with (1 := A) (2 := B) (3 := C); auto. }
  unfold finite in HFi. clear SF.
  destruct (category x) eqn:Cx, (category y) eqn:Cy, (category z) eqn:Cz; try solve [apply HFi; auto]; clear HFi A B C; kill_cases Ca Cb; opened Cc;
    cbn [BinarySingleNaN.Bfma]; try solve [apply HN; auto]; (destruct HI as [st [f [E D]]]; [discriminate|discriminate|discriminate|auto|]);
    exists st, f; (split; [exact E|]);
    try (destruct D; (apply same_inf; assumption) || (apply same_default; assumption));
    destruct (Bool.eqb (xorb (sign x) (sign y)) (sign z)) eqn:Eq; destruct D;
      try (apply same_default; assumption); apply Bool.eqb_prop in Eq; rewrite Eq in *; apply same_inf; assumption.
Qed.

(** ** Signs, comparisons *)
Lemma neg_same : forall x a, same S x a -> same S (neg x) (BinarySingleNaN.Bopp a).
Proof.
  intros x a A. pose proof (same_cases x a A) as C. destruct A as [W E]. split; [apply wf_neg; exact W|].
  unfold view, neg, is_negative in *. cbn [category sign sig exp]. destruct (category x); [rewrite C in *|rewrite C in *| |rewrite C in *]; try reflexivity.
  destruct C as [e [H ->]]. cbn [BinarySingleNaN.B2SF BinarySingleNaN.Bopp] in *. congruence.
Qed.
Lemma abs_same : forall x a, same S x a -> same S (abs x) (BinarySingleNaN.Babs a).
Proof.
  intros x a A. unfold abs, is_negative. pose proof (same_cases x a A) as C. destruct (sign x) eqn:G.
  - replace (BinarySingleNaN.Babs a) with (BinarySingleNaN.Bopp a); [apply neg_same; exact A|].
    destruct (category x); try (rewrite C; reflexivity). destruct C as [e [H ->]]. reflexivity.
  - replace (BinarySingleNaN.Babs a) with a; [exact A|].
    destruct (category x); try (rewrite C; reflexivity). destruct C as [e [H ->]]. reflexivity.
Qed.
Lemma cmp_same : forall x y a b, same S x a -> same S y b -> partial_cmp x y = Ret (BinarySingleNaN.Bcompare a b).
Proof.
  intros x y a b A B. destruct (partial_cmp_spec S x y HS (proj1 A) (proj1 B)) as [r [E D]]. rewrite E. f_equal. clear E.
  pose proof (same_cases x a A) as Ca. pose proof (same_cases y b B) as Cb.
  assert (HFi : finite x -> finite y -> r = BinarySingleNaN.Bcompare a b).
  { intros Fx Fy. rewrite BinarySingleNaN.Bcompare_correct by (eapply finite_b; eassumption). rewrite (same_value x a A), (same_value y b B).
    unfold ext_of in D. assert (X : forall f, finite f -> match category f with NaN => None | Infinity => Some (if sign f then NegInf else PosInf) | _ => Some (Fin (value S f)) end = Some (Fin (value S f))).
    { intros f [F|F]; rewrite F; reflexivity. }
    rewrite (X x Fx), (X y Fy) in D. destruct r as [[]|]; [| | |contradiction]; f_equal; symmetry; cbn in D.
    - apply Rcompare_Eq. congruence.
    - apply Rcompare_Lt. exact D.
    - apply Rcompare_Gt. exact D. }
  unfold finite in HFi. unfold ext_of in D.
  destruct (category x) eqn:Cx, (category y) eqn:Cy; try solve [apply HFi; auto]; clear HFi A B; kill_cases Ca Cb;
    unfold BinarySingleNaN.Bcompare; cbn [BinarySingleNaN.B2SF SFcompare]; destruct (sign x); try destruct (sign y); destruct r as [[]|]; cbn in D; try contradiction; try discriminate D; try reflexivity.
Qed.

(** ** Scaling, rounding to integers, neighbours *)
Lemma scalbn_same : forall x a n m, same S x a -> exists r, scalbn_r S x n m = Ret r /\ same S r (BinarySingleNaN.Bldexp (mode_of m) a n).
Proof.
  intros x a n m A. pose proof (same_cases x a A) as Ca.
  destruct (category x) eqn:Cx; try (destruct (scalbn_r_special S x n m HS (proj1 A)) as [f [E [W [C [G _]]]]]; [rewrite Cx; discriminate|];
    exists f; split; [exact E|]; rewrite Ca; cbn [BinarySingleNaN.Bldexp]; rewrite Cx in C; (apply same_inf || apply same_zero || apply same_nan); first [exact (conj W (conj C G))|exact W|exact C]).
  - destruct (scalbn_r_ieee S x n m HS NB (proj1 A) Cx) as [st [f [E D]]]. exists f. split; [exact E|].
    eapply deliver_same; [exact D|]. pose proof (BinarySingleNaN.Bldexp_correct _ _ _ _ (mode_of m) a n) as C.
    assert (F : finite x) by (left; exact Cx).
    rewrite fexp_same, rnd_same, (same_value x a A) in C. fold (rounded S m (value S x * bpow r2 n)) in C. unfold flocq_rounded.
    pose proof (sign_low x a A F) as [X1 X2]. pose proof (bpow_gt_0 r2 n) as P.
    assert (G : ((value S x * bpow r2 n < 0)%R -> BinarySingleNaN.Bsign a = true) /\ ((0 < value S x * bpow r2 n)%R -> BinarySingleNaN.Bsign a = false)).
    { destruct (BinarySingleNaN.Bsign a); split; intro H; try reflexivity; exfalso; [specialize (X1 eq_refl)|specialize (X2 eq_refl)]; nra. }
    destruct (Rlt_bool_spec (Rabs (rounded S m (value S x * bpow r2 n))) (bpow r2 emax)) as [L|L].
    + destruct C as [C1 [C2 C3]]. rewrite (finite_b x a A F) in C2. split; [exact C1|]. split; [exact C2|]. rewrite C3. split; [|exact G].
      intros _. apply (finite_sign x a A F).
    + eexists. split; [exact C|exact G].
Qed.
Lemma same_if : forall r b, wf S r -> finite r -> BinarySingleNaN.is_finite b = true -> value S r = BinarySingleNaN.B2R b -> BinarySingleNaN.Bsign b = sign r -> same S r b.
Proof.
  intros r b W F Fb V G. pose proof (same_to_b r W) as T. assert (to_b r W = b) as <-; [|exact T].
  apply BinarySingleNaN.B2R_Bsign_inj.
  - apply (finite_b r _ T F).
  - exact Fb.
  - rewrite (same_value r _ T). exact V.
  - rewrite (finite_sign r _ T F). symmetry. exact G.
Qed.
Lemma integral_same : forall x a m, same S x a -> exists st r, round_to_integral S x m = Ret (st, r) /\ same S r (BinarySingleNaN.Bnearbyint (mode_of m) a).
Proof.
  intros x a m A. destruct (finite_cases x) as [F|N].
  - destruct (round_to_integral_finite S x m HS (proj1 A) F) as [st [r [E [W [Fr [V [G _]]]]]]]. exists st, r. split; [exact E|].
    destruct (BinarySingleNaN.Bnearbyint_correct _ _ _ (mode_of m) a) as [C1 [C2 C3]]. rewrite (finite_b x a A F) in C2. specialize (C3 (finite_not_nan _ C2)).
    apply same_if; [exact W|exact Fr|exact C2| |].
    + rewrite V, C1, rnd_same, (same_value x a A). unfold round, F2R, scaled_mantissa, cexp, FIX_exp. cbn [Fnum Fexp]. rewrite Z.opp_0, !Rmult_1_r. reflexivity.
    + rewrite C3, G. apply (finite_sign x a A F).
  - pose proof (same_cases x a A) as Ca. rewrite round_to_integral_special; [|exact HS|unfold finite; destruct N as [N|N]; rewrite N; intros [H|H]; discriminate H].
    destruct N as [N|N]; rewrite N in *; eexists _, _; (split; [reflexivity|]); rewrite Ca; cbn [BinarySingleNaN.Bnearbyint].
    + apply same_quieted; [exact (proj1 A)|exact N].
    + apply same_inf. split; [exact (proj1 A)|]. split; [exact N|reflexivity].
Qed.
Lemma generic_value : forall x, wf S x -> finite x -> generic_format r2 (fexp S) (value S x).
Proof. intros x W F. apply (representable_value S x HS W). Qed.
Lemma bmax_value : BinarySingleNaN.B2R (BinarySingleNaN.Bmax_float : bfloat S) = max_finite S.
Proof.
  destruct (ok_prec S HS) as [P1 P2].
  rewrite <- BinarySingleNaN.SF2R_B2SF. unfold BinarySingleNaN.Bmax_float. rewrite BinarySingleNaN.B2SF_SF2B. cbn [BinarySingleNaN.SF2R cond_Zopp].
  assert (Q : Z.pos (shift_pos (Z.to_pos prec) 1) = 2 ^ PRECISION S).
  { rewrite shift_pos_correct, Z.mul_1_r, Z.pow_pos_fold, Z2Pos.id by lia. reflexivity. }
  assert (2 ^ 3 <= 2 ^ PRECISION S) by (apply Z.pow_le_mono_r; lia). change (2 ^ 3) with 8 in *.
  set (t := shift_pos (Z.to_pos prec) 1) in *. rewrite Pos2Z.inj_sub by lia. rewrite Q. unfold max_finite, max_sig. rewrite NB. unfold F2R. cbn [Fnum Fexp].
  f_equal. f_equal. lia.
Qed.
Lemma next_up_same : forall x a, same S x a -> exists st r, next_up S x = Ret (st, r) /\ same S r (BinarySingleNaN.Bsucc a).
Proof.
  intros x a A. pose proof (same_cases x a A) as Ca. pose proof (fexp_valid S HS) as VE.
  destruct (finite_cases x) as [F|[N|N]].
  - assert (X : ext_of S x = Some (Fin (value S x))) by (unfold ext_of; destruct F as [F|F]; rewrite F; reflexivity).
    destruct (next_up_spec S x _ HS (proj1 A) X) as [r [E [[W [L1 L2]] Z]]]. exists OK, r. split; [exact E|].
    pose proof (generic_value x (proj1 A) F) as Gx.
    pose proof (BinarySingleNaN.Bsucc_correct _ _ _ _ a (finite_b x a A F)) as C. rewrite fexp_same, (same_value x a A) in C.
    set (v := value S x) in *. assert (Vm : (- max_finite S <= v <= max_finite S)%R) by (apply Rabs_le_inv; apply (representable_value S x HS (proj1 A))).
    pose proof bpow_emax as BE. pose proof (bpow_gt_0 r2 (MAX_EXP S - (PRECISION S - 1))) as BG.
    pose proof (succ_gt_id r2 (fexp S) v) as SG. pose proof (generic_format_succ r2 (fexp S) v Gx) as GS.
    destruct (Rlt_bool_spec (succ r2 (fexp S) v) (bpow r2 emax)) as [L|L].
    + destruct C as [C1 [C2 C3]].
      assert (R : representable S (succ r2 (fexp S) v)).
      { split; [exact GS|]. apply Rabs_le. split.
        - destruct (Req_dec v 0) as [Zv|Nv]; [|pose proof (succ_ge_id r2 (fexp S) v); lra]. rewrite Zv in *. pose proof (succ_ge_id r2 (fexp S) 0). pose proof (max_finite_pos S HS). lra.
        - assert (Ge : generic_format r2 (fexp S) (bpow r2 emax)).
          { apply generic_format_bpow. unfold fexp, FLT_exp. destruct (ok_prec S HS), (ok_max S HS). lia. }
          pose proof (pred_ge_gt r2 (fexp S) _ _ GS Ge L) as Q. rewrite pred_bpow in Q.
          replace (fexp S emax) with (MAX_EXP S - (PRECISION S - 1)) in Q; [lra|].
          unfold fexp, FLT_exp. destruct (ok_prec S HS), (ok_max S HS). lia. }
      assert (Sv : (v < succ r2 (fexp S) v)%R).
      { destruct (Req_dec v 0) as [Zv|Nv]; [|exact (SG Nv)]. rewrite Zv, succ_0. unfold fexp. pose proof (ok_prec S HS). assert (Prec_gt_0 (PRECISION S)) by (unfold Prec_gt_0; lia). rewrite ulp_FLT_0 by assumption. apply bpow_gt_0. }
      destruct L1 as [Fr [Lr Mr]]; [exists (succ r2 (fexp S) v); split; [exact R|exact Sv]|]. cbn in Lr.
      assert (V : value S r = succ r2 (fexp S) v).
      { apply Rle_antisym; [apply Mr; [exact R|exact Sv]|]. apply succ_le_lt; [exact VE|exact Gx|apply generic_value; assumption|exact Lr]. }
      apply same_if; [exact W|exact Fr|exact C2|congruence|]. rewrite C3, (finite_sign x a A F).
      destruct (value_sign S r (sign r) W Fr (fun _ => eq_refl)) as [R1 [R2 _]].
      destruct F as [Cx|Cx]; rewrite Cx in Ca.
      * destruct Ca as [e [H Ca]]. rewrite Ca. cbn [BinarySingleNaN.is_finite_strict]. rewrite andb_true_r.
        destruct (normal_sign S x (proj1 A) Cx) as [[_ P1] [_ P2]]. fold v in P1, P2. destruct (sign x).
        -- specialize (P1 eq_refl). destruct (Req_dec (value S r) 0) as [Q|Q]; [rewrite Z by assumption; reflexivity|].
           assert (Rv : (value S r <= 0)%R) by (apply Mr; [split; [apply generic_format_0|rewrite Rabs_R0; pose proof (max_finite_pos S HS); lra]|exact P1]).
           rewrite R1 by lra. reflexivity.
        -- specialize (P2 eq_refl). rewrite R2 by lra. reflexivity.
      * rewrite Ca. cbn [BinarySingleNaN.is_finite_strict]. rewrite andb_false_r.
        assert (Zv : v = 0%R) by (unfold v, value; rewrite Cx; reflexivity). rewrite R2 by lra. reflexivity.
    + assert (NR : ~ exists y, representable S y /\ ext_lt (Fin v) (Fin y)).
      { intros [y [[Gy My] Ly]]. cbn in Ly. pose proof (succ_le_lt r2 (fexp S) v y Gx Gy Ly) as Q. apply Rabs_le_inv in My. lra. }
      destruct (L2 NR) as [Cr Gr]. unfold infinity_of in Cr. rewrite NB in Cr. split; [exact W|]. rewrite C. unfold view. rewrite Cr, Gr. reflexivity.
  - rewrite N in Ca. destruct (next_up_nan S x HS (proj1 A) N) as [r [E D]]. exists (invalid_if (signaling S x)), r. split; [exact E|]. rewrite Ca. cbn [BinarySingleNaN.Bsucc].
    destruct (signaling S x); rewrite D.
    + apply same_nan; unfold with_sign, negate_if, neg; destruct (xorb _ _); try reflexivity; try apply wf_neg; apply (NAN_default' S HS).
    + apply same_nan; [exact (proj1 A)|exact N].
  - rewrite N in Ca. assert (X : ext_of S x = Some (if sign x then NegInf else PosInf)) by (unfold ext_of; rewrite N; reflexivity).
    destruct (next_up_spec S x _ HS (proj1 A) X) as [r [E [[W [L1 L2]] Z]]]. exists OK, r. split; [exact E|]. rewrite Ca. cbn [BinarySingleNaN.Bsucc].
    pose proof (max_finite_pos S HS) as MP.
    destruct (sign x).
    + assert (RM : representable S (- max_finite S)).
      { pose proof (representable_value S (mkFloat (max_sig S) (MAX_EXP S) Normal true) HS (wf_largest S true HS)) as Q.
        replace (- max_finite S)%R with (value S (mkFloat (max_sig S) (MAX_EXP S) Normal true)); [exact Q|].
        unfold value, max_finite. cbn [category sign sig exp signed]. rewrite opp_IZR. ring. }
      destruct L1 as [Fr [_ Mr]]; [exists (- max_finite S)%R; split; [exact RM|exact I]|].
      assert (V : value S r = (- max_finite S)%R).
      { apply Rle_antisym; [apply Mr; [exact RM|exact I]|]. pose proof (representable_value S r HS W) as [_ Q]. apply Rabs_le_inv in Q. lra. }
      apply same_if; [exact W|exact Fr|reflexivity| |].
      * rewrite BinarySingleNaN.B2R_Bopp, bmax_value. exact V.
      * destruct (value_sign S r (sign r) W Fr (fun _ => eq_refl)) as [R1 _]. rewrite R1 by lra. reflexivity.
    + destruct L2 as [Cr Gr]; [intros [y [_ []]]|]. unfold infinity_of in Cr. rewrite NB in Cr. apply same_inf. split; [exact W|]. split; [exact Cr|exact Gr].
Qed.
Lemma next_down_same : forall x a, same S x a -> exists st r, next_down S x = Ret (st, r) /\ same S r (BinarySingleNaN.Bpred a).
Proof.
  intros x a A. destruct (next_up_same (neg x) _ (neg_same x a A)) as [st [r [E D]]]. exists st, (neg r). split.
  - unfold next_down. rewrite E. reflexivity.
  - unfold BinarySingleNaN.Bpred. apply neg_same. exact D.
Qed.
Lemma frexp_same : forall x a m, same S x a -> category x = Normal ->
  exists r e, frexp_r S x m = Ret (r, e) /\ same S r (fst (BinarySingleNaN.Bfrexp a)) /\ e = snd (BinarySingleNaN.Bfrexp a).
Proof.
  intros x a m A Cx. assert (F : finite x) by (left; exact Cx). pose proof (same_cases x a A) as Ca. rewrite Cx in Ca.
  destruct (frexp_r_normal S x m HS (proj1 A) Cx) as [f [e [E [W [Ff [V H]]]]]]. exists f, e. split; [exact E|].
  assert (St : BinarySingleNaN.is_finite_strict a = true) by (destruct Ca as [? [? ->]]; reflexivity).
  pose proof (BinarySingleNaN.Bfrexp_correct _ _ _ a St) as C. destruct (BinarySingleNaN.Bfrexp a) as [z k] eqn:Ez. cbn [fst snd].
  rewrite (same_value x a A) in C. destruct C as [C1 C2]. destruct C2 as [C2 C3]; [destruct (ok_prec S HS), (ok_max S HS); lia|].
  pose proof (normal_nonzero S x (proj1 A) Cx) as Nz.
  assert (K : e = k).
  { rewrite C3. symmetry. apply mag_unique. rewrite V, Rabs_mult, (Rabs_pos_eq (bpow r2 e)) by apply bpow_ge_0.
    replace (bpow r2 (e - 1)) with (/ 2 * bpow r2 e)%R by (unfold Zminus; rewrite bpow_plus; change (bpow r2 (-(1))) with (/ 2)%R; ring).
    pose proof (bpow_gt_0 r2 e). split; nra. }
  split; [|exact K]. rewrite <- K in C1.
  assert (Vz : value S f = BinarySingleNaN.B2R z). { rewrite V in C1. apply Rmult_eq_reg_r in C1; [exact C1|]. pose proof (bpow_gt_0 r2 e). lra. }
  assert (Fz : BinarySingleNaN.is_finite_strict z = true).
  { destruct z; try reflexivity; cbn in C2; rewrite Rabs_R0 in C2; lra. }
  apply same_if; [exact W|exact Ff|destruct z; try discriminate Fz; reflexivity|exact Vz|].
  destruct (value_sign S f (sign f) W Ff (fun _ => eq_refl)) as [R1 [R2 _]].
  rewrite Vz in *. destruct z as [| | |s mz ez Hz]; try discriminate Fz. cbn [BinarySingleNaN.Bsign BinarySingleNaN.B2R] in *.
  destruct s.
  - rewrite R1; [reflexivity|]. apply F2R_lt_0. reflexivity.
  - rewrite R2; [reflexivity|]. apply F2R_gt_0. reflexivity.
Qed.

(** ** Integers, other formats *)
Lemma normalize_rounded : forall m n e zs, flocq_rounded m (F2R (Defs.Float r2 n e)) zs (BinarySingleNaN.binary_normalize (PRECISION S) (MAX_EXP S + 1) PG PL (mode_of m) n e zs).
Proof.
  intros m n e zs. pose proof (BinarySingleNaN.binary_normalize_correct _ _ PG PL (mode_of m) n e zs) as C. cbv zeta in C.
  rewrite fexp_same, rnd_same in C. unfold flocq_rounded. set (v := F2R (Defs.Float r2 n e)) in *. fold (rounded S m v) in C.
  destruct (Rlt_bool_spec (Rabs (rounded S m v)) (bpow r2 emax)) as [L|L].
  - destruct C as [C1 [C2 C3]]. split; [exact C1|]. split; [exact C2|]. exact (rcompare_sign _ _ _ C3).
  - exists (Rlt_bool v 0). split; [exact C|]. split; intro H; [apply Rlt_bool_true; exact H|apply Rlt_bool_false; lra].
Qed.
Lemma from_u128_same : forall n m, 0 <= n < 2 ^ 128 ->
  exists st r, from_u128_r S n m = Ret (st, r) /\ same S r (BinarySingleNaN.binary_normalize (PRECISION S) (MAX_EXP S + 1) PG PL (mode_of m) n 0 false).
Proof.
  intros n m H. destruct (from_u128_r_spec S n m HS H) as [[st r] [E D]]. exists st, r. split; [exact E|].
  eapply deliver_same; [|apply normalize_rounded]. unfold F2R. cbn [Fnum Fexp]. rewrite Rmult_1_r. exact D.
Qed.
Lemma from_i128_same : forall n m, - 2 ^ 127 <= n < 2 ^ 127 ->
  exists st r, from_i128_r S n m = Ret (st, r) /\ same S r (BinarySingleNaN.binary_normalize (PRECISION S) (MAX_EXP S + 1) PG PL (mode_of m) n 0 false).
Proof.
  intros n m H. destruct (from_i128_r_spec S n m HS H) as [[st r] [E D]]. exists st, r. split; [exact E|].
  eapply deliver_same; [|apply normalize_rounded]. unfold F2R. cbn [Fnum Fexp]. rewrite Rmult_1_r. exact D.
Qed.
End Format.

(** conversion: Flocq's numbers read off and normalized in the other format *)
Definition b_convert {p e : Z} (T : Semantics) (PG : Prec_gt_0 (PRECISION T)) (PL : BinarySingleNaN.Prec_lt_emax (PRECISION T) (MAX_EXP T + 1))
  (m : BinarySingleNaN.mode) (b : BinarySingleNaN.binary_float p e) : bfloat T :=
  match b with
  | BinarySingleNaN.B754_zero s => BinarySingleNaN.B754_zero s
  | BinarySingleNaN.B754_infinity s => BinarySingleNaN.B754_infinity s
  | BinarySingleNaN.B754_nan => BinarySingleNaN.B754_nan
  | BinarySingleNaN.B754_finite s n k _ => BinarySingleNaN.binary_normalize (PRECISION T) (MAX_EXP T + 1) PG PL m (cond_Zopp s (Zpos n)) k s
  end.
Lemma convert_same : forall S T (HF : ieee_format S) (HT : ieee_format T) PG PL x a m, same S x a ->
  exists st r lost, convert_r S T x m = Ret (st, r, lost) /\ same T r (b_convert T PG PL (mode_of m) a).
Proof.
  intros S T HF HT PG PL x a m A. pose proof (if_ok S HF) as HS. pose proof (if_ok T HT) as OT. pose proof (if_nonfinite T HT) as NT.
  pose proof (same_cases S x a A) as Ca. pose proof (proj1 A) as W.
  assert (Nm : forall st r lost zs v, convert_r S T x m = Ret (st, r, lost) -> correctly_rounded T m v zs (st, r) -> flocq_rounded T m v zs (b_convert T PG PL (mode_of m) a) ->
    exists st r lost, convert_r S T x m = Ret (st, r, lost) /\ same T r (b_convert T PG PL (mode_of m) a)).
  { intros st r lost zs v E D F. exists st, r, lost. split; [exact E|]. exact (deliver_same T HT m v zs st r _ D F). }
  destruct (category x) eqn:Cx.
  - rewrite Ca. destruct (convert_r_infinite S T x m OT Cx) as [r [E D]]. rewrite E. eexists _, r, _. split; [reflexivity|].
    cbn [b_convert]. unfold infinity_of in D. rewrite NT in D. apply same_inf. exact D.
  - rewrite Ca. destruct (convert_r_nan S T x m HS OT W Cx) as [r [lost [E [D _]]]]. rewrite E. eexists _, r, _. split; [reflexivity|]. apply same_default. exact D.
  - destruct (convert_r_ieee S T x m HS OT NT W (or_introl Cx)) as [st [r [lost [E [D _]]]]].
    apply (Nm st r lost _ _ E D). pose proof (same_value S x a A) as V. destruct Ca as [k [H Ca]]. rewrite Ca in V |- *. cbn [b_convert].
    rewrite <- V. cbn [BinarySingleNaN.B2R]. apply normalize_rounded. exact HT.
  - destruct (convert_r_ieee S T x m HS OT NT W (or_intror Cx)) as [st [r [lost [E [D _]]]]].
    apply (Nm st r lost _ _ E D). rewrite Ca. cbn [b_convert].
    assert (V : value S x = 0%R) by (unfold value; rewrite Cx; reflexivity). rewrite V.
    unfold flocq_rounded, rounded. rewrite round_0 by apply valid_rnd_of. rewrite Rabs_R0. rewrite Rlt_bool_true by apply bpow_gt_0.
    split; [reflexivity|]. split; [reflexivity|]. split; [reflexivity|]. split; intro; lra.
Qed.
