(** * PairInt.v -- pairs as fixed-point numbers and integers *)
From Coq Require Import ZArith Reals List Bool Lia Lra.
From Flocq Require Import Core.
From Verif Require Import Machine Sig SpecSig Ieee Ppc Spec Norm Order Int Algebra SpecPair Pair PairOps PairBase PairMore PairRest PairSamples TwoSum PairAdd PairMul Samples SpecInteger.
From Verif Require IntExpr Arith Eft.
Local Open Scope Z_scope.
Ltac Zify.zify_post_hook ::= idtac.

(** [v] is a multiple of 2^e *)
Definition multiple (e : Z) (v : R) : Prop := exists n, v = (IZR n * bpow r2 e)%R.
Lemma multiple_plus : forall e x y, multiple e x -> multiple e y -> multiple e (x + y).
Proof. intros e x y [a ->] [b ->]. exists (a + b). rewrite plus_IZR. ring. Qed.
Lemma multiple_minus : forall e x y, multiple e x -> multiple e y -> multiple e (x - y).
Proof. intros e x y [a ->] [b ->]. exists (a - b). rewrite minus_IZR. ring. Qed.
Lemma multiple_opp : forall e x, multiple e x -> multiple e (- x).
Proof. intros e x [a ->]. exists (- a). rewrite opp_IZR. ring. Qed.
Lemma multiple_mult : forall e f x y, multiple e x -> multiple f y -> multiple (e + f) (x * y).
Proof. intros e f x y [a ->] [b ->]. exists (a * b). rewrite mult_IZR, bpow_plus. ring. Qed.
Lemma multiple_close : forall e x y, multiple e x -> multiple e y -> (Rabs (x - y) < bpow r2 e)%R -> x = y.
Proof.
  intros e x y [a ->] [b ->] H. rewrite <- Rmult_minus_distr_r, <- minus_IZR, Rabs_mult, <- abs_IZR, (Rabs_pos_eq (bpow r2 e)) in H by apply bpow_ge_0.
  rewrite <- (Rmult_1_l (bpow r2 e)) in H at 2. apply Rmult_lt_reg_r in H; [|apply bpow_gt_0]. apply lt_IZR in H. assert (a = b) as -> by lia. reflexivity.
Qed.
Lemma multiple_big : forall e x, multiple e x -> x <> 0%R -> (bpow r2 e <= Rabs x)%R.
Proof.
  intros e x [a ->] H. rewrite Rabs_mult, <- abs_IZR, (Rabs_pos_eq (bpow r2 e)) by apply bpow_ge_0. rewrite <- (Rmult_1_l (bpow r2 e)) at 1.
  apply Rmult_le_compat_r; [apply bpow_ge_0|]. apply IZR_le. assert (a <> 0) by (intros ->; apply H; ring). lia.
Qed.
Lemma round_multiple : forall S m e x, sem_ok S -> multiple e x -> multiple e (rounded S m x).
Proof.
  intros S m e x HS [n E]. pose proof (fexp_valid S HS) as V. pose proof (valid_rnd_of m) as VR. unfold rounded.
  destruct (Z_le_gt_dec e (cexp r2 (fexp S) x)) as [L|L].
  - unfold round, F2R. cbn [Fnum Fexp]. set (k := rnd_of m _). exists (k * 2 ^ (cexp r2 (fexp S) x - e)).
    rewrite mult_IZR, IZR_pow2 by lia. rewrite Rmult_assoc, <- bpow_plus. f_equal. f_equal. lia.
  - assert (G : generic_format r2 (fexp S) x).
    { rewrite E. replace (IZR n * bpow r2 e)%R with (F2R (Defs.Float r2 n e)) by reflexivity. apply generic_format_F2R. intros _.
      replace (F2R (Defs.Float r2 n e)) with x by exact E. lia. }
    rewrite round_generic by assumption. exists n. exact E.
Qed.

Section Fixed.
Variable F : Semantics.
Hypothesis HF : pair_ok F.
Hypothesis P4 : 4 <= PRECISION F.
Variable m : Round.
Hypothesis Hm : m = NearestTiesToEven \/ m = NearestTiesToAway.
Local Notation p := (PRECISION F).
Local Notation W := (FallbackS F).
Let FO := F_ok F HF.
Let WO := W_ok F HF.

Lemma halves : forall e x, canonical_pair F x -> multiple e (pair_value F x) -> multiple e (value F (d0 x)) /\ multiple e (value F (d1 x)).
Proof.
  intros e x [_ [_ V]] H. assert (A : multiple e (value F (d0 x))) by (rewrite V; apply round_multiple; assumption). split; [exact A|].
  replace (value F (d1 x)) with (pair_value F x - value F (d0 x))%R by (unfold pair_value; ring). apply multiple_minus; assumption.
Qed.
(** a sum of multiples of 2^e has no error if the operands are below 2^(2p-2+e) *)
Theorem dd_add_fixed : forall e x y, canonical_pair F x -> canonical_pair F y -> multiple e (pair_value F x) -> multiple e (pair_value F y) ->
  (Rabs (value F (d0 x)) + Rabs (value F (d0 y)) <= bpow r2 (MAX_EXP F - 4))%R ->
  (Rabs (value F (d0 x)) + Rabs (value F (d0 y)) < bpow r2 (2 * p - 2 + e))%R ->
  exists st r, dd_add_r F x y m = Ret (st, r) /\ pair_wf F r /\ pair_finite r /\ (m = NearestTiesToEven -> canonical_pair F r) /\
    pair_value F r = (pair_value F x + pair_value F y)%R.
Proof.
  intros e x y Hx Hy Mx My B L. destruct (dd_add_accurate F HF P4 m Hm x y Hx Hy B) as [st [r [E [Wr [Fr [Cr [_ Er]]]]]]].
  exists st, r. split; [exact E|]. split; [exact Wr|]. split; [exact Fr|]. split; [exact Cr|].
  apply (multiple_close e); [|apply multiple_plus; assumption|].
  - destruct (halves e x Hx Mx) as [Ma Maa]. destruct (halves e y Hy My) as [Mc Mcc].
    unfold dd_add_r, dd_category in E. pose proof Hx as [Wx [Fx _]]. pose proof Hy as [Wy [Fy _]].
    assert (category (d0 x) = Normal \/ category (d0 x) = Zero) as [Cx|Cx] by (destruct Fx as [[C|C] _]; auto);
    assert (category (d0 y) = Normal \/ category (d0 y) = Zero) as [Cy|Cy] by (destruct Fy as [[C|C] _]; auto); rewrite Cx, Cy in E.
    2, 4: assert (r = x) as -> by congruence; exact Mx.
    2: assert (r = y) as -> by congruence; exact My.
    destruct (dd_add_normal_spec F HF P4 m Hm x y Wx Wy Fx Fy (canonical_low F HF P4 x Hx) (canonical_low F HF P4 y Hy) B) as [st' [r' [E' [_ [_ [_ V]]]]]].
    assert (r = r') as -> by congruence. rewrite V. apply multiple_plus; [apply round_multiple; [exact FO|apply multiple_plus; assumption]|].
    apply round_multiple; [exact FO|]. apply multiple_plus; [|assumption]. apply round_multiple; [exact FO|]. apply multiple_plus; [|assumption].
    apply multiple_minus; [apply multiple_plus; assumption|]. apply round_multiple; [exact FO|apply multiple_plus; assumption].
  - apply Rle_lt_trans with (1 := Er). unfold add_bound. replace e with (2 - 2 * p + (2 * p - 2 + e)) at 1 by lia. rewrite (bpow_plus r2 (2 - 2 * p) (2 * p - 2 + e)).
    apply Rmult_lt_compat_l; [apply bpow_gt_0|exact L].
Qed.
Theorem dd_sub_fixed : forall e x y, canonical_pair F x -> canonical_pair F y -> multiple e (pair_value F x) -> multiple e (pair_value F y) ->
  (Rabs (value F (d0 x)) + Rabs (value F (d0 y)) <= bpow r2 (MAX_EXP F - 4))%R ->
  (Rabs (value F (d0 x)) + Rabs (value F (d0 y)) < bpow r2 (2 * p - 2 + e))%R ->
  exists st r, dd_sub_r F x y m = Ret (st, r) /\ pair_wf F r /\ pair_finite r /\ (m = NearestTiesToEven -> canonical_pair F r) /\
    pair_value F r = (pair_value F x - pair_value F y)%R.
Proof.
  intros e x y Hx Hy Mx My B L. destruct (dd_neg_value F y Hy) as [V A].
  destruct (dd_add_fixed e x (dd_neg y) Hx (dd_neg_canonical F y Hy) Mx ltac:(rewrite V; apply multiple_opp; exact My) ltac:(rewrite A; exact B) ltac:(rewrite A; exact L)) as [st [r [E [Wr [Fr [Cr Vr]]]]]].
  exists st, r. split; [exact E|]. split; [exact Wr|]. split; [exact Fr|]. split; [exact Cr|]. rewrite Vr, V. ring.
Qed.
(** a product of a multiple of 2^e and one of 2^f has no error below 2^(2p-3+e+f) *)
Theorem dd_mul_fixed : forall e f x y, canonical_pair F x -> canonical_pair F y -> multiple e (pair_value F x) -> multiple f (pair_value F y) ->
  MIN_EXP F + 2 * p + 1 <= e + f ->
  (Rabs (value F (d0 x) * value F (d0 y)) <= bpow r2 (MAX_EXP F - 4))%R ->
  (Rabs (value F (d0 x) * value F (d0 y)) < bpow r2 (2 * p - 3 + e + f))%R ->
  exists st r, dd_mul_r F x y m = Ret (st, r) /\ pair_wf F r /\ pair_finite r /\ (m = NearestTiesToEven -> canonical_pair F r) /\
    pair_value F r = (pair_value F x * pair_value F y)%R.
Proof.
  intros e f x y Hx Hy Mx My K B L. destruct (halves e x Hx Mx) as [Ma Mb]. destruct (halves f y Hy My) as [Mc Md].
  pose proof Hx as [Wx [Fx _]]. pose proof Hy as [Wy [Fy _]].
  destruct (Req_dec (value F (d0 x) * value F (d0 y)) 0) as [Z|Z].
  - assert (category (d0 x) = Zero \/ category (d0 x) = Normal /\ category (d0 y) = Zero) as [C|[Cx C]].
    { destruct Fx as [[C|C] _]; [|left; exact C]. right. split; [exact C|]. destruct Fy as [[C'|C'] _]; [exfalso|exact C'].
      apply Rmult_integral in Z. destruct Z as [Z|Z]; [exact (normal_nonzero F (d0 x) (proj1 Wx) C Z)|exact (normal_nonzero F (d0 y) (proj1 Wy) C' Z)]. }
    + assert (dd_mul_r F x y m = Ret (OK, x)) as ->.
      { unfold dd_mul_r, dd_category. rewrite C. destruct Fy as [[D|D] _]; rewrite D; reflexivity. }
      exists OK, x. split; [reflexivity|]. split; [exact Wx|]. split; [exact Fx|]. split; [intros _; exact Hx|]. rewrite (canonical_zero F HF P4 x Hx C). ring.
    + assert (dd_mul_r F x y m = Ret (OK, y)) as ->.
      { unfold dd_mul_r, dd_category. rewrite C, Cx. reflexivity. }
      exists OK, y. split; [reflexivity|]. split; [exact Wy|]. split; [exact Fy|]. split; [intros _; exact Hy|]. rewrite (canonical_zero F HF P4 y Hy C). ring.
  - pose proof (multiple_mult e f _ _ Ma Mc) as Mac. pose proof (multiple_big _ _ Mac Z) as Lo.
    assert (Lo' : (bpow r2 (MIN_EXP F + 2 * p + 1) <= Rabs (value F (d0 x) * value F (d0 y)))%R) by (apply Rle_trans with (2 := Lo); apply bpow_le; exact K).
    destruct (dd_mul_spec F HF P4 m Hm x y Hx Hy (conj Lo' B)) as [st [r [E [Wr [Fr [V0 [V [_ Er]]]]]]]].
    exists st, r. split; [exact E|]. split; [exact Wr|]. split; [exact Fr|]. split; [intro Em; rewrite Em in V0; split; [exact Wr|split; [exact Fr|exact V0]]|].
    apply (multiple_close (e + f)).
    + rewrite V. apply multiple_plus; [apply round_multiple; assumption|]. apply round_multiple; [exact FO|].
      apply multiple_plus; [apply multiple_minus; [exact Mac|apply round_multiple; assumption]|]. apply round_multiple; [exact FO|].
      apply multiple_plus; (apply round_multiple; [exact FO|apply multiple_mult; assumption]).
    + apply multiple_mult; assumption.
    + rewrite V. unfold pair_value. apply Rle_lt_trans with (1 := Er).
      replace (8 * (bpow r2 (- p) * bpow r2 (- p)))%R with (bpow r2 (3 - 2 * p)).
      2: { rewrite <- bpow_plus. change 8%R with (bpow r2 3). rewrite <- bpow_plus. f_equal. ring. }
      replace (e + f) with (3 - 2 * p + (2 * p - 3 + e + f)) by lia. rewrite bpow_plus. apply Rmult_lt_compat_l; [apply bpow_gt_0|exact L].
Qed.
End Fixed.

(** ** Integers *)
(** the client of IntExpr.v with pairs (src/ppc.rs:348 [div_r], src/ppc.rs:360
    [round_to_integral], src/ppc.rs:188 [add_r], src/ppc.rs:276 [mul_r]).  Sums
    and products of pairs are rounded to nearest, ties to even. *)
Definition dd_quotient (F : Semantics) (x y : DFloat) (m : Round) : outcome (Z * DFloat) :=
  let! '(st1, q) := dd_div_r F x y m in
  let! '(st2, r) := dd_round_to_integral F q m in
  Ret (Z.lor st1 st2, r).
Definition dd_run_op (F : Semantics) (o : iop) (x y : DFloat) : outcome (Z * DFloat) :=
  match o with
  | IAdd => dd_add_r F x y NearestTiesToEven
  | ISub => dd_sub_r F x y NearestTiesToEven
  | IMul => dd_mul_r F x y NearestTiesToEven
  | IQuot => dd_quotient F x y TowardZero
  | IFloor => dd_quotient F x y TowardNegative
  | ICeil => dd_quotient F x y TowardPositive
  | IRem => dd_c_fmod F x y
  end.
Fixpoint dd_run (F : Semantics) (e : iexpr) : outcome DFloat :=
  match e with
  | INum n => let! '(_, x) := dd_from_i128_r F n NearestTiesToEven in Ret x
  | INeg e => let! x := dd_run F e in Ret (dd_neg x)
  | IOp o a b =>
    let! x := dd_run F a in
    let! y := dd_run F b in
    let! '(_, r) := dd_run_op F o x y in
    Ret r
  end.
(** the exponent range holds the integers below 2^(2p), and their products do not
    underflow inside *)
Definition integers_fit (F : Semantics) : Prop := MIN_EXP F + 2 * PRECISION F + 1 <= 0 /\ 2 * PRECISION F + 1 <= MAX_EXP F.

Section Integers.
Variable F : Semantics.
Hypothesis HF : pair_ok F.
Hypothesis P4 : 4 <= PRECISION F.
Hypothesis HI : integers_fit F.
Local Notation p := (PRECISION F).
Local Notation W := (FallbackS F).
Local Notation M := (2 ^ (2 * PRECISION F - 4)).
Let FO := F_ok F HF.
Let WO := W_ok F HF.
Definition pair_holds (x : DFloat) (n : Z) : Prop := canonical_pair F x /\ pair_value F x = IZR n.
Lemma M_pos : 0 < M. Proof. apply Z.pow_pos_nonneg; lia. Qed.
Lemma M_wide : M <= 2 ^ PRECISION W.
Proof. rewrite (W_prec F). apply Z.pow_le_mono_r; lia. Qed.
Lemma M_range : (IZR M <= max_finite F)%R.
Proof.
  rewrite IZR_pow2 by lia. destruct HI as [_ K]. replace (2 * p - 4) with (MAX_EXP F - (MAX_EXP F - (2 * p - 4))) by lia. apply Eft.bpow_max; [exact FO|lia].
Qed.
Lemma holds_operand : forall x n, pair_holds x n -> Z.abs n <= M -> operand F x = IZR n.
Proof.
  intros x n [H V] L. pose proof (valid_rnd_of NearestTiesToEven). unfold operand, rounded. rewrite V. apply round_generic; [assumption|].
  apply IntExpr.int_format; [exact WO|]. pose proof M_wide. lia.
Qed.
Lemma holds_multiple : forall x n, pair_holds x n -> multiple 0 (pair_value F x).
Proof. intros x n [_ V]. exists n. rewrite V. cbn. ring. Qed.
Lemma holds_high : forall x n, pair_holds x n -> Z.abs n <= M -> (Rabs (value F (d0 x)) <= bpow r2 (2 * p - 4))%R.
Proof.
  intros x n [[_ [_ V]] E] L. rewrite V, E. pose proof (fexp_valid F FO). pose proof (valid_rnd_of NearestTiesToEven). pose proof (ok_min F FO) as Km. unfold rounded.
  apply abs_round_le_generic; [assumption|assumption|apply generic_format_bpow; unfold fexp, FLT_exp; lia|].
  rewrite <- abs_IZR, <- IZR_pow2 by lia. apply IZR_le. exact L.
Qed.
(** a result of the double width in the range of the halves *)
Lemma wide_result : forall spec o v, via_wide F spec o -> (forall st f, wf W f -> spec st f -> finite f /\ value W f = v) -> (Rabs v <= max_finite F)%R ->
  exists st r, o = Ret (st, r) /\ canonical_pair F r /\ pair_value F r = v.
Proof.
  intros spec o v [st [f [Wf [Sp [A _]]]]] H B. destruct (H st f Wf Sp) as [Ff Vf].
  destruct (A (splittable_small F HF f Ff ltac:(rewrite Vf; exact B))) as [r [E [_ R]]]. exists st, r. split; [exact E|]. rewrite <- Vf. destruct Ff as [C|C]; rewrite C in R; exact R.
Qed.
Lemma wide_rounded : forall m v zs o, via_wide F (fun st f => correctly_rounded W m v zs (st, f)) o -> (Rabs v <= max_finite F)%R -> (Rabs (rounded W m v) <= max_finite F)%R ->
  exists st r, o = Ret (st, r) /\ canonical_pair F r /\ pair_value F r = rounded W m v.
Proof.
  intros m v zs o H B B'. apply (wide_result _ o _ H); [|exact B']. intros st f _ [_ [_ [D _]]].
  destruct (D ltac:(apply rounded_le_max; [exact WO|]; apply Rle_trans with (1 := B); apply Rlt_le, max_F_W; exact HF)) as [Ff [Vf _]]. exact (conj Ff Vf).
Qed.
Lemma small_range : forall v, (Rabs v <= IZR M)%R -> (Rabs v <= max_finite F)%R /\ forall m, (Rabs (rounded W m v) <= max_finite F)%R.
Proof.
  intros v H. split; [apply Rle_trans with (1 := H), M_range|]. intro m. apply Rle_trans with (2 := M_range). pose proof (fexp_valid W WO). pose proof (valid_rnd_of m). unfold rounded.
  apply abs_round_le_generic; [assumption|assumption| |exact H]. apply IntExpr.int_format; [exact WO|]. pose proof M_wide. pose proof M_pos. lia.
Qed.
Lemma num_holds : forall n m, Z.abs n <= M -> exists st r, dd_from_i128_r F n m = Ret (st, r) /\ pair_holds r n.
Proof.
  intros n m L. pose proof (pok_prec F HF) as K. assert (M <= 2 ^ 126) by (apply Z.pow_le_mono_r; lia). assert (2 ^ 126 < 2 ^ 127) by reflexivity.
  destruct (small_range (IZR n) ltac:(rewrite <- abs_IZR; apply IZR_le; exact L)) as [B B'].
  destruct (wide_rounded m (IZR n) false _ (dd_from_i128_r_spec F HF n m ltac:(lia)) B (B' m)) as [st [r [E [C V]]]]. exists st, r. split; [exact E|]. split; [exact C|].
  rewrite V. pose proof (valid_rnd_of m). unfold rounded. apply round_generic; [assumption|]. apply IntExpr.int_format; [exact WO|]. pose proof M_wide. lia.
Qed.
Lemma neg_holds : forall x n, pair_holds x n -> pair_holds (dd_neg x) (- n).
Proof. intros x n [H V]. split; [apply dd_neg_canonical; exact H|]. rewrite (proj1 (dd_neg_value F x H)), V, opp_IZR. reflexivity. Qed.
Lemma dd_quotient_holds : forall x y a b m, pair_holds x a -> pair_holds y b -> IntExpr.directed m -> b <> 0 -> Z.abs a <= M -> Z.abs b <= M ->
  exists st r, dd_quotient F x y m = Ret (st, r) /\ pair_holds r (IntExpr.directed_quotient m a b).
Proof.
  intros x y a b m Hx Hy Hm Hb La Lb. pose proof (holds_operand x a Hx La) as Ox. pose proof (holds_operand y b Hy Lb) as Oy. pose proof M_wide as MW.
  pose proof (dd_div_r_finite F HF x y m (proj1 Hx) (proj1 Hy) ltac:(rewrite Oy; apply IZR_neq; exact Hb)) as D. rewrite Ox, Oy in D.
  destruct (small_range _ (IntExpr.quotient_range M a b Hb La)) as [B B'].
  destruct (wide_rounded m _ _ _ D B (B' m)) as [st1 [q [E1 [Cq Vq]]]].
  assert (Oq : operand F q = rounded W m (IZR a / IZR b)).
  { unfold operand. rewrite Vq. unfold rounded. pose proof (fexp_valid W WO). pose proof (valid_rnd_of m). pose proof (valid_rnd_of NearestTiesToEven).
    apply round_generic; [assumption|]. apply generic_format_round; assumption. }
  pose proof (dd_round_to_integral_finite F HF q m Cq) as D2. rewrite Oq, (IntExpr.rounds_twice W m a b WO Hm Hb ltac:(lia)) in D2.
  pose proof (IntExpr.quotient_small m a b Hm Hb) as Ls.
  destruct (small_range (IZR (IntExpr.directed_quotient m a b)) ltac:(rewrite <- abs_IZR; apply IZR_le; lia)) as [B2 _].
  destruct (wide_result _ _ _ D2 ltac:(intros st f _ [Ff [Vf _]]; exact (conj Ff Vf)) B2) as [st2 [r [E2 [Cr Vr]]]].
  exists (Z.lor st1 st2), r. split; [unfold dd_quotient; rewrite E1; cbn [bind]; rewrite E2; reflexivity|]. exact (conj Cr Vr).
Qed.
Lemma dd_op_holds : forall o x y a b, pair_holds x a -> pair_holds y b -> Z.abs a <= M -> Z.abs b <= M -> Z.abs (int_op o a b) <= M -> (divides o = true -> b <> 0) ->
  exists st r, dd_run_op F o x y = Ret (st, r) /\ pair_holds r (int_op o a b).
Proof.
  intros o x y a b Hx Hy La Lb Lr Hd. pose proof (holds_high x a Hx La) as Bx. pose proof (holds_high y b Hy Lb) as By.
  pose proof (holds_multiple x a Hx) as Mx. pose proof (holds_multiple y b Hy) as My. destruct HI as [K1 K2].
  assert (E1 : (2 * bpow r2 (2 * p - 4) = bpow r2 (2 * p - 3))%R) by (change 2%R with (bpow r2 1); rewrite <- bpow_plus; f_equal; lia).
  assert (B1 : (bpow r2 (2 * p - 3) <= bpow r2 (MAX_EXP F - 4))%R) by (apply bpow_le; lia).
  assert (B2 : (bpow r2 (2 * p - 3) < bpow r2 (2 * p - 2 + 0))%R) by (apply bpow_lt; lia).
  destruct o; cbn [dd_run_op int_op divides] in *.
  - destruct (dd_add_fixed F HF P4 NearestTiesToEven (or_introl eq_refl) 0 x y (proj1 Hx) (proj1 Hy) Mx My ltac:(lra) ltac:(lra)) as [st [r [E [_ [_ [C V]]]]]].
    exists st, r. split; [exact E|]. split; [apply C; reflexivity|]. rewrite V, (proj2 Hx), (proj2 Hy), plus_IZR. reflexivity.
  - destruct (dd_sub_fixed F HF P4 NearestTiesToEven (or_introl eq_refl) 0 x y (proj1 Hx) (proj1 Hy) Mx My ltac:(lra) ltac:(lra)) as [st [r [E [_ [_ [C V]]]]]].
    exists st, r. split; [exact E|]. split; [apply C; reflexivity|]. rewrite V, (proj2 Hx), (proj2 Hy), minus_IZR. reflexivity.
  - (* the product of the high halves *)
    assert (Q : (Rabs (value F (d0 x) * value F (d0 y)) < bpow r2 (2 * p - 3))%R).
    { pose proof (canonical_low F HF P4 x (proj1 Hx)) as Lx. pose proof (canonical_low F HF P4 y (proj1 Hy)) as Ly. pose proof (u_le_1 F P4) as [U0 U1].
      assert (N : forall z n, pair_holds z n -> (Rabs (value F (d1 z)) <= bpow r2 (- p) * Rabs (value F (d0 z)))%R -> (Rabs (value F (d0 z)) <= 16 / 15 * Rabs (IZR n))%R).
      { intros z n [_ V] Lz. rewrite <- V. unfold pair_value. pose proof (Rabs_pos (value F (d0 z))).
        assert (Rabs (value F (d0 z)) <= Rabs (value F (d0 z) + value F (d1 z)) + Rabs (value F (d1 z)))%R.
        { replace (value F (d0 z)) with (value F (d0 z) + value F (d1 z) - value F (d1 z))%R at 1 by ring. unfold Rminus. eapply Rle_trans; [apply Rabs_triang|]. rewrite Rabs_Ropp. lra. }
        assert (bpow r2 (- p) * Rabs (value F (d0 z)) <= / 16 * Rabs (value F (d0 z)))%R by (apply Rmult_le_compat_r; lra). lra. }
      pose proof (N x a Hx Lx) as Nx. pose proof (N y b Hy Ly) as Ny. rewrite Rabs_mult.
      assert (T : (Rabs (value F (d0 x)) * Rabs (value F (d0 y)) <= (16 / 15 * Rabs (IZR a)) * (16 / 15 * Rabs (IZR b)))%R) by (apply Rmult_le_compat; try apply Rabs_pos; assumption).
      assert (T2 : (Rabs (IZR a) * Rabs (IZR b) <= bpow r2 (2 * p - 4))%R) by (rewrite <- Rabs_mult, <- mult_IZR, <- abs_IZR, <- IZR_pow2 by lia; apply IZR_le; exact Lr).
      pose proof (bpow_gt_0 r2 (2 * p - 4)). lra. }
    destruct (dd_mul_fixed F HF P4 NearestTiesToEven (or_introl eq_refl) 0 0 x y (proj1 Hx) (proj1 Hy) Mx My ltac:(lia) ltac:(lra)
      ltac:(replace (2 * p - 3 + 0 + 0) with (2 * p - 3) by lia; exact Q)) as [st [r [E [_ [_ [C V]]]]]].
    exists st, r. split; [exact E|]. split; [apply C; reflexivity|]. rewrite V, (proj2 Hx), (proj2 Hy), mult_IZR. reflexivity.
  - exact (dd_quotient_holds x y a b TowardZero Hx Hy (or_introl eq_refl) (Hd eq_refl) La Lb).
  - exact (dd_quotient_holds x y a b TowardNegative Hx Hy (or_intror (or_introl eq_refl)) (Hd eq_refl) La Lb).
  - exact (dd_quotient_holds x y a b TowardPositive Hx Hy (or_intror (or_intror eq_refl)) (Hd eq_refl) La Lb).
  - pose proof (holds_operand x a Hx La) as Ox. pose proof (holds_operand y b Hy Lb) as Oy.
    pose proof (dd_c_fmod_finite F HF x y (proj1 Hx) (proj1 Hy) ltac:(rewrite Oy; apply IZR_neq; exact (Hd eq_refl))) as D.
    destruct (small_range (IZR (Z.rem a b)) ltac:(rewrite <- abs_IZR; apply IZR_le; exact Lr)) as [B _].
    destruct (wide_result _ _ (IZR (Z.rem a b)) D) as [st [r [E [C V]]]]; [|exact B|exists st, r; split; [exact E|exact (conj C V)]].
    intros st f _ [_ [Ff [_ [Vf _]]]]. split; [exact Ff|]. rewrite Vf, Ox, Oy, Ztrunc_div by exact (Hd eq_refl). rewrite <- mult_IZR, <- minus_IZR. f_equal.
    pose proof (Z.quot_rem' a b). lia.
Qed.
Theorem dd_run_holds : forall e, fits M e -> exists r, dd_run F e = Ret r /\ pair_holds r (denotes e).
Proof.
  induction e as [n|e IH|o a IHa b IHb]; cbn [fits]; intros [L H].
  - cbn [denotes dd_run] in *. destruct (num_holds n NearestTiesToEven L) as [st [r [E Hr]]]. rewrite E. cbn [bind]. exists r. split; [reflexivity|exact Hr].
  - destruct (IH H) as [r [E Hr]]. cbn [dd_run denotes]. rewrite E. cbn [bind]. exists (dd_neg r). split; [reflexivity|apply neg_holds; exact Hr].
  - destruct H as [Ha [Hb Hd]]. destruct (IHa Ha) as [x [E1 Hx]]. destruct (IHb Hb) as [y [E2 Hy]].
    assert (La : Z.abs (denotes a) <= M) by (destruct a; apply Ha). assert (Lb : Z.abs (denotes b) <= M) by (destruct b; apply Hb).
    destruct (dd_op_holds o x y _ _ Hx Hy La Lb L Hd) as [st [r [E3 Hr]]]. cbn [dd_run denotes]. rewrite E1. cbn [bind]. rewrite E2. cbn [bind]. rewrite E3. cbn [bind].
    exists r. split; [reflexivity|exact Hr].
Qed.
Lemma to_int_holds : forall x n m, pair_holds x n -> Z.abs n <= M -> dd_to_i128_r F x 128 m = Ret (OK, n, true).
Proof.
  intros x n m Hx L. pose proof (holds_operand x n Hx L) as O. pose proof (pok_prec F HF) as K. assert (M <= 2 ^ 126) by (apply Z.pow_le_mono_r; lia). assert (2 ^ 126 < 2 ^ 127) by reflexivity.
  destruct (dd_to_i128_r_all F HF x 128 m (canonical_readable F x (proj1 Hx)) ltac:(destruct (sign (d0 x)); lia)) as [st [k [ex [E [T X]]]]].
  assert (Q : st = OK /\ k = n).
  { unfold pair_to_int in T. rewrite O in T. destruct (valid_rnd_of m) as [_ Vi]. rewrite Vi in T. destruct (proj1 Hx) as [_ [[F0 _] _]].
    assert (A : - 2 ^ (128 - 1) <= n <= 2 ^ (128 - 1) - 1) by (change (128 - 1) with 127; lia).
    destruct F0 as [C|C]; rewrite C in T; destruct T as [_ [_ T]]; destruct (T A) as [-> [T2 _]]; (split; [apply T2; reflexivity|reflexivity]). }
  destruct Q as [-> ->]. rewrite E. f_equal. f_equal. apply X. split; [discriminate|]. symmetry. exact O.
Qed.
Theorem dd_run_integer : forall e, fits M e -> exists r, dd_run F e = Ret r /\ canonical_pair F r /\ pair_value F r = IZR (denotes e) /\
  forall m, dd_to_i128_r F r 128 m = Ret (OK, denotes e, true).
Proof.
  intros e He. destruct (dd_run_holds e He) as [r [E Hr]]. exists r. split; [exact E|]. split; [apply Hr|]. split; [apply Hr|].
  intro m. apply to_int_holds; [exact Hr|]. destruct e; apply He.
Qed.
End Integers.

Lemma fixed_sample : canonical_pair DoubleS p_above /\ canonical_pair DoubleS p_below /\ canonical_pair DoubleS p_three /\
  multiple (-60) (pair_value DoubleS p_above) /\ multiple (-60) (pair_value DoubleS p_below) /\ multiple 0 (pair_value DoubleS p_three) /\
  (Rabs (value DoubleS (d0 p_above)) + Rabs (value DoubleS (d0 p_below)) < bpow r2 (2 * PRECISION DoubleS - 2 + -60))%R /\
  (Rabs (value DoubleS (d0 p_above) * value DoubleS (d0 p_three)) < bpow r2 (2 * PRECISION DoubleS - 3 + -60 + 0))%R /\
  (bpow r2 (2 * PRECISION DoubleS) <= bpow r2 (MAX_EXP DoubleS - 4))%R /\ MIN_EXP DoubleS + 2 * PRECISION DoubleS + 1 <= -60 + 0.
Proof.
  assert (V1 : value DoubleS (d0 p_above) = 1%R) by (unfold value; cbn; lra).
  assert (V2 : value DoubleS (d0 p_below) = 1%R) by (unfold value; cbn; lra).
  assert (V3 : value DoubleS (d0 p_three) = 3%R) by (unfold value; cbn; lra).
  split; [exact p_above_canonical|]. split; [exact p_below_canonical|]. split; [exact p_three_canonical|].
  split; [exists (2 ^ 60 + 1); unfold pair_value, value; cbn; lra|]. split; [exists (2 ^ 60 - 1); unfold pair_value, value; cbn; lra|]. split; [exists 3; unfold pair_value, value; cbn; lra|].
  rewrite V1, V2, V3. split; [rewrite !Rabs_pos_eq by lra; cbn; lra|]. split; [rewrite Rabs_pos_eq by lra; cbn; lra|].
  split; [apply bpow_le; cbn; lia|cbn; lia].
Qed.
