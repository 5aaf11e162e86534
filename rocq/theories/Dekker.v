(** * Dekker.v -- splitting a number in two halves, and the error of a product
    without a fused multiply-add *)
From Coq Require Import ZArith Reals List Bool Lia Lra.
From Flocq Require Import Core Pff2Flocq.
From Verif Require Import Machine Sig SpecSig Ieee Spec Norm Order Int Convert Algebra Laws Arith Samples Eft.
From Verif Require IntExpr.
Local Open Scope Z_scope.
Ltac Zify.zify_post_hook ::= idtac.

(** [v] is a number of [k] bits *)
Definition has_bits (k : Z) (v : R) : Prop := exists n e, v = (IZR n * bpow r2 e)%R /\ Z.abs n < 2 ^ k.
(** the number of bits of the lower half *)
Definition cut (S : Semantics) : Z := PRECISION S - PRECISION S / 2.

(** Veltkamp, with the constant c = 2^s + 1: g = x * c, h = (x - g) + g, t = x - h;
    clients of src/ieee.rs:1009 [add_r], src/ieee.rs:1070 [sub_r],
    src/ieee.rs:1080 [mul_r] *)
Definition split_half (S : Semantics) (c x : Float) (m : Round) : outcome (Float * Float) :=
  let! '(_, g) := mul_r S x c m in
  let! '(_, d) := sub_r S x g m in
  let! '(_, h) := add_r S d g m in
  let! '(_, t) := sub_r S x h m in
  Ret (h, t).
(** Dekker: the halves are multiplied, and the products taken from the rounded one *)
Definition dekker (S : Semantics) (x y : Float) (m : Round) : outcome (Float * Float) :=
  let! '(_, c) := from_i128_r S (2 ^ cut S + 1) m in
  let! '(hx, tx) := split_half S c x m in
  let! '(hy, ty) := split_half S c y m in
  let! '(_, r) := mul_r S x y m in
  let! '(_, p1) := mul_r S hx hy m in
  let! '(_, p2) := mul_r S hx ty m in
  let! '(_, p3) := mul_r S tx hy m in
  let! '(_, p4) := mul_r S tx ty m in
  let! '(_, t1) := add_r S (neg r) p1 m in
  let! '(_, t2) := add_r S t1 p2 m in
  let! '(_, t3) := add_r S t2 p3 m in
  let! '(_, t4) := add_r S t3 p4 m in
  Ret (r, t4).

Section Halves.
Variable S : Semantics.
Hypothesis HS : sem_ok S.
Variable m : Round.
Hypothesis Hm : nearest m.
Hypothesis P4 : 4 <= PRECISION S.
Local Notation p := (PRECISION S).
Local Notation emin := (MIN_EXP S - (PRECISION S - 1)).
Local Notation s := (cut S).
Local Notation R := (rounded S m).

Lemma cut_range : 2 <= s <= p - 2.
Proof. unfold cut. pose proof (Z.div_mod p 2 ltac:(lia)). pose proof (Z.mod_pos_bound p 2 ltac:(lia)). lia. Qed.
Lemma cut_div2 : p - Z.div2 p = s.
Proof. unfold cut. rewrite Z.div2_div. reflexivity. Qed.
Lemma rounded_pow : forall v e, emin <= e -> (Rabs v <= bpow r2 e)%R -> (Rabs (R v) <= bpow r2 e)%R.
Proof.
  intros v e He H. pose proof (ok_prec S HS). unfold rounded. apply abs_round_le_generic; [apply fexp_valid; exact HS|apply valid_rnd_of| |exact H].
  apply generic_format_bpow. unfold fexp, FLT_exp. lia.
Qed.
Lemma pow_max : forall e, e <= MAX_EXP S -> (bpow r2 e <= max_finite S)%R.
Proof. intros e He. replace e with (MAX_EXP S - (MAX_EXP S - e)) by lia. apply bpow_max; [exact HS|lia]. Qed.
Lemma sub_tri : forall u v, (Rabs (u - v) <= Rabs u + Rabs v)%R.
Proof. intros u v. unfold Rminus. pose proof (Rabs_triang u (- v)). rewrite Rabs_Ropp in *. lra. Qed.
Lemma sum_pow : forall u v e, (Rabs u <= bpow r2 e)%R -> (Rabs v <= bpow r2 e)%R -> (Rabs (u + v) <= bpow r2 (e + 1))%R /\ (Rabs (u - v) <= bpow r2 (e + 1))%R.
Proof. intros u v e Hu Hv. rewrite bpow_plus_1. change (IZR r2) with 2%R. pose proof (Rabs_triang u v). pose proof (sub_tri u v). lra. Qed.
Lemma weaken_pow : forall u e f, (Rabs u <= bpow r2 e)%R -> e <= f -> (Rabs u <= bpow r2 f)%R.
Proof. intros u e f H L. apply Rle_trans with (1 := H), bpow_le, L. Qed.
Lemma product_pow : forall u v a b, (Rabs u <= bpow r2 a)%R -> (Rabs v <= bpow r2 b)%R -> (Rabs (u * v) <= bpow r2 (a + b))%R.
Proof. intros u v a b Hu Hv. rewrite Rabs_mult, bpow_plus. apply Rmult_le_compat; try apply Rabs_pos; assumption. Qed.

(** one call of the crate *)
Lemma add_step : forall x y e, wf S x -> wf S y -> finite x -> finite y -> (Rabs (value S x + value S y) <= bpow r2 e)%R -> emin <= e <= MAX_EXP S ->
  exists st r, add_r S x y m = Ret (st, r) /\ wf S r /\ finite r /\ value S r = R (value S x + value S y) /\ (Rabs (value S r) <= bpow r2 e)%R.
Proof.
  intros x y e Wx Wy Fx Fy B He. pose proof (rounded_pow _ e (proj1 He) B) as B'.
  destruct (in_range S m _ _ _ (add_r_crate S x y m HS Wx Wy Fx Fy)) as [st [r [E [Wr [Fr Vr]]]]]; [apply Rle_trans with (1 := B'), pow_max, He|].
  exists st, r. rewrite Vr. auto.
Qed.
Lemma sub_step : forall x y e, wf S x -> wf S y -> finite x -> finite y -> (Rabs (value S x - value S y) <= bpow r2 e)%R -> emin <= e <= MAX_EXP S ->
  exists st r, sub_r S x y m = Ret (st, r) /\ wf S r /\ finite r /\ value S r = R (value S x - value S y) /\ (Rabs (value S r) <= bpow r2 e)%R.
Proof.
  intros x y e Wx Wy Fx Fy B He. pose proof (rounded_pow _ e (proj1 He) B) as B'.
  destruct (in_range S m _ _ _ (sub_r_crate S x y m HS Wx Wy Fx Fy)) as [st [r [E [Wr [Fr Vr]]]]]; [apply Rle_trans with (1 := B'), pow_max, He|].
  exists st, r. rewrite Vr. auto.
Qed.
Lemma mul_step : forall x y e, wf S x -> wf S y -> finite x -> finite y -> (Rabs (value S x * value S y) <= bpow r2 e)%R -> emin <= e <= MAX_EXP S ->
  exists st r, mul_r S x y m = Ret (st, r) /\ wf S r /\ finite r /\ value S r = R (value S x * value S y) /\ (Rabs (value S r) <= bpow r2 e)%R.
Proof.
  intros x y e Wx Wy Fx Fy B He. pose proof (rounded_pow _ e (proj1 He) B) as B'.
  destruct (in_range S m _ _ _ (mul_r_crate S x y m HS Wx Wy Fx Fy)) as [st [r [E [Wr [Fr Vr]]]]]; [apply Rle_trans with (1 := B'), pow_max, He|].
  exists st, r. rewrite Vr. auto.
Qed.
Lemma bits_of : forall k v, 0 < k -> generic_format r2 (FLT_exp emin k) v -> has_bits k v.
Proof.
  intros k v Hk G. assert (Prec_gt_0 k) by exact Hk. apply FLT_format_generic in G; [|assumption]. destruct G as [[n e] E1 E2 E3]. exists n, e. split; [exact E1|exact E2].
Qed.
Theorem split_half_spec : forall c x a, wf S c -> finite c -> value S c = (bpow r2 s + 1)%R -> wf S x -> finite x ->
  (Rabs (value S x) <= bpow r2 a)%R -> emin <= a -> a + s + 3 <= MAX_EXP S ->
  exists h t, split_half S c x m = Ret (h, t) /\ wf S h /\ wf S t /\ finite h /\ finite t /\
    value S x = (value S h + value S t)%R /\ has_bits (p - s) (value S h) /\ has_bits s (value S t) /\
    (Rabs (value S h) <= bpow r2 a)%R /\ (Rabs (value S t) <= bpow r2 (a + 1))%R /\
    value S h = R (R (value S x - R (value S x * (bpow r2 s + 1))) + R (value S x * (bpow r2 s + 1))) /\
    value S t = R (value S x - value S h).
Proof.
  intros c x a Wc Fc Vc Wx Fx B Ha Hb. pose proof cut_range as K. pose proof (ok_prec S HS) as Kp. pose proof (emin_neg S HS) as Ke.
  assert (Bc : (Rabs (bpow r2 s + 1) <= bpow r2 (s + 1))%R).
  { rewrite bpow_plus_1. change (IZR r2) with 2%R. rewrite Rabs_pos_eq by (pose proof (bpow_gt_0 r2 s); lra). assert (1 <= bpow r2 s)%R by (change 1%R with (bpow r2 0); apply bpow_le; lia). lra. }
  unfold split_half.
  destruct (mul_step x c (a + (s + 1)) Wx Wc Fx Fc ltac:(rewrite Vc; apply product_pow; assumption) ltac:(lia)) as [st1 [g [E1 [Wg [Fg [Vg Bg]]]]]]. rewrite E1. cbn [bind]. clear E1. rewrite Vc in Vg.
  destruct (sub_step x g (a + (s + 1) + 1) Wx Wg Fx Fg ltac:(apply sum_pow; [apply weaken_pow with a; [exact B|lia]|exact Bg]) ltac:(lia)) as [st2 [d [E2 [Wd [Fd [Vd Bd]]]]]]. rewrite E2. cbn [bind]. clear E2.
  destruct (add_step d g (a + (s + 1) + 1 + 1) Wd Wg Fd Fg ltac:(apply sum_pow; [exact Bd|apply weaken_pow with (1 := Bg); lia]) ltac:(lia)) as [st3 [h [E3 [Wh [Fh [Vh _]]]]]]. rewrite E3. cbn [bind]. clear E3.
  pose proof (value_format S x HS Wx) as Gx. destruct (nearest_choice m Hm) as [ch [Hc _]].
  rewrite Vd, Vg in Vh.
  assert (PP : Prec_gt_0 (p - s)) by (unfold Prec_gt_0; lia).
  assert (Vel : exists c', value S h = round r2 (FLT_exp emin (p - s)) (Znearest c') (value S x)).
  { destruct (Veltkamp r2 emin p ch s ltac:(lia) Ke ltac:(lia) ltac:(lia) _ Gx) as [c' V]. exists c'. rewrite <- V, Vh. unfold rounded. rewrite Hc. reflexivity. }
  assert (Bh : (Rabs (value S h) <= bpow r2 a)%R).
  { destruct Vel as [c' ->]. apply abs_round_le_generic; [apply FLT_exp_valid; exact PP|apply valid_rnd_N| |exact B]. apply generic_format_bpow. unfold FLT_exp. lia. }
  destruct (sub_step x h (a + 1) Wx Wh Fx Fh ltac:(apply sum_pow; assumption) ltac:(lia)) as [st4 [t [E4 [Wt [Ft [Vt Bt]]]]]]. rewrite E4. cbn [bind]. clear E4.
  exists h, t. split; [reflexivity|]. repeat (split; [assumption|]).
  pose proof (Veltkamp_tail r2 emin p ch s ltac:(lia) Ke ltac:(lia) ltac:(lia) _ Gx) as T. cbv zeta in T. rewrite <- Hc in T.
  pose (x0 := value S x). pose (hh := R (R (x0 - R (x0 * (bpow r2 s + 1))) + R (x0 * (bpow r2 s + 1)))).
  change (x0 = hh + R (x0 - hh) /\ generic_format r2 (FLT_exp emin s) (R (x0 - hh)))%R in T. unfold hh, x0 in T. rewrite <- Vh, <- Vt in T.
  split; [apply T|]. split; [|split; [apply bits_of; [lia|apply T]|]].
  - destruct Vel as [c' ->]. apply bits_of; [lia|]. apply generic_format_round; [apply FLT_exp_valid; exact PP|apply valid_rnd_N].
  - split; [exact Bh|]. split; [exact Bt|]. split; [exact Vh|exact Vt].
Qed.

Theorem split_half_exact : forall c x a, wf S c -> finite c -> value S c = (bpow r2 s + 1)%R -> wf S x -> finite x ->
  (Rabs (value S x) <= bpow r2 a)%R -> emin <= a -> a + s + 3 <= MAX_EXP S ->
  exists h t, split_half S c x m = Ret (h, t) /\ wf S h /\ wf S t /\ finite h /\ finite t /\
    value S x = (value S h + value S t)%R /\ has_bits (p - s) (value S h) /\ has_bits s (value S t).
Proof.
  intros c x a Wc Fc Vc Wx Fx B Ha Hb. destruct (split_half_spec c x a Wc Fc Vc Wx Fx B Ha Hb) as [h [t [E [A1 [A2 [A3 [A4 [A5 [A6 [A7 _]]]]]]]]]].
  exists h, t. repeat (split; [assumption|]). assumption.
Qed.
Theorem dekker_spec : forall x y a b, wf S x -> wf S y -> finite x -> finite y ->
  (Rabs (value S x) <= bpow r2 a)%R -> (Rabs (value S y) <= bpow r2 b)%R -> emin <= a -> emin <= b ->
  a + s + 3 <= MAX_EXP S -> b + s + 3 <= MAX_EXP S -> emin <= a + b <= MAX_EXP S - 5 ->
  exists r t, dekker S x y m = Ret (r, t) /\ wf S r /\ wf S t /\ finite r /\ finite t /\ value S r = R (value S x * value S y) /\
    ((value S x * value S y = 0)%R \/ (bpow r2 (MIN_EXP S + PRECISION S) <= Rabs (value S x * value S y))%R -> (value S r + value S t = value S x * value S y)%R) /\
    (Rabs (value S x * value S y - (value S r + value S t)) <= 7 / 2 * min_positive S)%R.
Proof.
  intros x y a b Wx Wy Fx Fy Bx By Ha Hb Ma Mb Mab. pose proof cut_range as K. pose proof (ok_prec S HS) as Kp. pose proof (ok_min S HS) as Km. pose proof (emin_neg S HS) as Ke.
  unfold dekker.
  assert (C : exists st c, from_i128_r S (2 ^ s + 1) m = Ret (st, c) /\ wf S c /\ finite c /\ value S c = (bpow r2 s + 1)%R).
  { assert (Q : 0 < 2 ^ s) by (apply Z.pow_pos_nonneg; lia). assert (Q1 : 2 ^ s * 2 <= 2 ^ p) by (replace (2 ^ s * 2) with (2 ^ (s + 1)) by (rewrite Z.pow_add_r by lia; reflexivity); apply Z.pow_le_mono_r; lia).
    assert (Q2 : 2 ^ p <= 2 ^ 126) by (apply Z.pow_le_mono_r; lia). assert (Q3 : 2 ^ 126 < 2 ^ 127) by reflexivity.
    destruct (from_i128_r_spec S (2 ^ s + 1) m HS ltac:(lia)) as [[st c] [E D]]. exists st, c. split; [exact E|].
    assert (Rp : representable S (IZR (2 ^ s + 1))) by (apply IntExpr.int_representable; [exact HS|lia]).
    destruct (cr_representable S m _ _ st c HS Rp D) as [_ [Fc Vc]]. split; [apply D|]. split; [exact Fc|]. rewrite Vc, plus_IZR, IZR_pow2 by lia. reflexivity. }
  destruct C as [st0 [c [E0 [Wc [Fc Vc]]]]]. rewrite E0. cbn [bind]. clear E0.
  destruct (split_half_spec c x a Wc Fc Vc Wx Fx Bx Ha Ma) as [hx [tx [E1 [Whx [Wtx [Fhx [Ftx [Sx [_ [_ [Bhx [Btx [Vhx Vtx]]]]]]]]]]]]]. rewrite E1. cbn [bind]. clear E1.
  destruct (split_half_spec c y b Wc Fc Vc Wy Fy By Hb Mb) as [hy [ty [E2 [Why [Wty [Fhy [Fty [Sy [_ [_ [Bhy [Bty [Vhy Vty]]]]]]]]]]]]]. rewrite E2. cbn [bind]. clear E2.
  destruct (mul_step x y (a + b) Wx Wy Fx Fy ltac:(apply product_pow; assumption) ltac:(lia)) as [st1 [r [E1 [Wr [Fr [Vr Br]]]]]]. rewrite E1. cbn [bind]. clear E1.
  destruct (mul_step hx hy (a + b) Whx Why Fhx Fhy ltac:(apply product_pow; assumption) ltac:(lia)) as [st2 [p1 [E1 [W1 [F1 [V1 B1]]]]]]. rewrite E1. cbn [bind]. clear E1.
  destruct (mul_step hx ty (a + (b + 1)) Whx Wty Fhx Fty ltac:(apply product_pow; assumption) ltac:(lia)) as [st3 [p2 [E1 [W2 [F2 [V2 B2]]]]]]. rewrite E1. cbn [bind]. clear E1.
  destruct (mul_step tx hy (a + 1 + b) Wtx Why Ftx Fhy ltac:(apply product_pow; assumption) ltac:(lia)) as [st4 [p3 [E1 [W3 [F3 [V3 B3]]]]]]. rewrite E1. cbn [bind]. clear E1.
  destruct (mul_step tx ty (a + 1 + (b + 1)) Wtx Wty Ftx Fty ltac:(apply product_pow; assumption) ltac:(lia)) as [st5 [p4 [E1 [W4 [F4 [V4 B4]]]]]]. rewrite E1. cbn [bind]. clear E1.
  pose proof (wf_neg S r Wr) as Wn. assert (Fn : finite (neg r)) by (unfold finite, neg; cbn; exact Fr). assert (Vn : value S (neg r) = (- value S r)%R) by apply value_neg.
  destruct (add_step (neg r) p1 (a + b + 1) Wn W1 Fn F1 ltac:(rewrite Vn; apply sum_pow; [rewrite Rabs_Ropp; exact Br|exact B1]) ltac:(lia)) as [st6 [t1 [E1 [X1 [G1 [T1 D1]]]]]]. rewrite E1. cbn [bind]. clear E1.
  destruct (add_step t1 p2 (a + b + 2) X1 W2 G1 F2 ltac:(replace (a + b + 2) with (a + b + 1 + 1) by lia; apply sum_pow; [exact D1|replace (a + b + 1) with (a + (b + 1)) by lia; exact B2]) ltac:(lia)) as [st7 [t2 [E1 [X2 [G2 [T2 D2]]]]]]. rewrite E1. cbn [bind]. clear E1.
  destruct (add_step t2 p3 (a + b + 3) X2 W3 G2 F3 ltac:(replace (a + b + 3) with (a + b + 2 + 1) by lia; apply sum_pow; [exact D2|apply weaken_pow with (1 := B3); lia]) ltac:(lia)) as [st8 [t3 [E1 [X3 [G3 [T3 D3]]]]]]. rewrite E1. cbn [bind]. clear E1.
  destruct (add_step t3 p4 (a + b + 4) X3 W4 G3 F4 ltac:(replace (a + b + 4) with (a + b + 3 + 1) by lia; apply sum_pow; [exact D3|apply weaken_pow with (1 := B4); lia]) ltac:(lia)) as [st9 [t4 [E1 [X4 [G4 [T4 D4]]]]]]. rewrite E1. cbn [bind]. clear E1.
  exists r, t4. split; [reflexivity|]. split; [exact Wr|]. split; [exact X4|]. split; [exact Fr|]. split; [exact G4|]. split; [exact Vr|].
  destruct (nearest_choice m Hm) as [ch [Hc _]].
  pose proof (Dekker r2 emin p ch P4 ltac:(lia) _ _ (value_format S x HS Wx) (value_format S y HS Wy) (or_introl eq_refl)) as T. rewrite <- Hc, cut_div2 in T.
  rewrite Vn, Vr in T1. rewrite Vtx, Vhx in *. rewrite Vty, Vhy in *.
  pose (x0 := value S x). pose (y0 := value S y). pose (c0 := (bpow r2 s + 1)%R).
  pose (hx0 := R (R (x0 - R (x0 * c0)) + R (x0 * c0))). pose (hy0 := R (R (y0 - R (y0 * c0)) + R (y0 * c0))).
  pose (tx0 := R (x0 - hx0)). pose (ty0 := R (y0 - hy0)).
  pose (e0 := R (R (R (R (- R (x0 * y0) + R (hx0 * hy0)) + R (hx0 * ty0)) + R (tx0 * hy0)) + R (tx0 * ty0))).
  change ((x0 * y0 = 0 \/ bpow r2 (emin + 2 * p - 1) <= Rabs (x0 * y0) -> x0 * y0 = R (x0 * y0) + e0) /\ Rabs (x0 * y0 - (R (x0 * y0) + e0)) <= 7 / 2 * bpow r2 emin)%R in T.
  replace e0 with (value S t4) in T by (rewrite T4, T3, T2, T1, V1, V2, V3, V4; reflexivity).
  fold x0 y0 in Vr. rewrite <- Vr in T. destruct T as [Ta Tb]. split; [|exact Tb]. intro H. symmetry. apply Ta.
  replace (emin + 2 * p - 1) with (MIN_EXP S + p) by lia. exact H.
Qed.
End Halves.

(** ** Outside *)
Definition h_1283 : Float := mkFloat 1283 0 Normal false.
Lemma h_1283_wf : wf HalfS h_1283. Proof. sample_wf. Qed.
Theorem dekker_directed_refuted : exists x r t, wf HalfS x /\ finite x /\ (Rabs (value HalfS x) <= bpow r2 1)%R /\
  dekker HalfS x x TowardPositive = Ret (r, t) /\ finite r /\ finite t /\ (value HalfS r + value HalfS t <> value HalfS x * value HalfS x)%R.
Proof.
  exists h_1283. do 2 eexists. split; [exact h_1283_wf|]. split; [left; reflexivity|]. split; [unfold value; cbn; rewrite Rabs_pos_eq; lra|].
  split; [vm_compute; reflexivity|]. split; [left; reflexivity|]. split; [left; reflexivity|]. unfold value; cbn. lra.
Qed.
(** the product is in range, the split is not *)
Theorem dekker_overflow_refuted : exists x y r t, wf HalfS x /\ finite x /\ wf HalfS y /\ finite y /\
  mul_r HalfS x y NearestTiesToEven = Ret (INEXACT, r) /\ finite r /\ dekker HalfS x y NearestTiesToEven = Ret (r, t) /\ category t = NaN.
Proof.
  exists h_1299, h_one_ulp. do 2 eexists. split; [exact h_1299_wf|]. split; [left; reflexivity|]. split; [exact h_one_ulp_wf|]. split; [left; reflexivity|].
  split; [vm_compute; reflexivity|]. split; [left; reflexivity|]. split; [vm_compute; reflexivity|reflexivity].
Qed.
Lemma dekker_sample : sem_ok HalfS /\ nearest NearestTiesToAway /\ 4 <= PRECISION HalfS /\ wf HalfS h_1283 /\ finite h_1283 /\ (Rabs (value HalfS h_1283) <= bpow r2 1)%R /\
  (1 + cut HalfS + 3 <= MAX_EXP HalfS) /\ (MIN_EXP HalfS - (PRECISION HalfS - 1) <= 1 + 1 <= MAX_EXP HalfS - 5) /\
  (bpow r2 (MIN_EXP HalfS + PRECISION HalfS) <= Rabs (value HalfS h_1283 * value HalfS h_1283))%R /\
  wf HalfS (mkFloat 1040 6 Normal false) /\ finite (mkFloat 1040 6 Normal false) /\ value HalfS (mkFloat 1040 6 Normal false) = (bpow r2 (cut HalfS) + 1)%R.
Proof.
  split; [exact half_ok|]. split; [right; reflexivity|]. split; [cbn; lia|]. split; [exact h_1283_wf|]. split; [left; reflexivity|].
  split; [unfold value; cbn; rewrite Rabs_pos_eq; lra|]. split; [vm_compute; discriminate|]. split; [vm_compute; split; discriminate|].
  split; [unfold value; cbn; rewrite Rabs_pos_eq; lra|]. split; [sample_wf|]. split; [left; reflexivity|]. unfold value; cbn; lra.
Qed.
