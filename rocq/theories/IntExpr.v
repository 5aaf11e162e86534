(** * IntExpr.v -- clients that compute with integers held in floats *)
From Coq Require Import ZArith Reals List Bool Lia Lra.
From Flocq Require Import Core.
From Verif Require Import Machine Sig SpecSig Ieee Spec Norm Order Int Integral Rem Algebra Laws Arith Samples SpecInteger.
From Verif Require Eft.
Local Open Scope Z_scope.
Ltac Zify.zify_post_hook ::= idtac.

(** The client: every operation of the expression is one call of the crate, a
    quotient two (src/lib.rs:310 [div_r], src/lib.rs:315 [round_to_integral] in the same mode);
    [m] is the mode of the other operations.  The statuses are collected. *)
Definition quotient (S : Semantics) (x y : Float) (m : Round) : outcome (Z * Float) :=
  let! '(st1, q) := div_r S x y m in
  let! '(st2, r) := round_to_integral S q m in
  Ret (Z.lor st1 st2, r).
Definition run_op (S : Semantics) (m : Round) (o : iop) (x y : Float) : outcome (Z * Float) :=
  match o with
  | IAdd => add_r S x y m
  | ISub => sub_r S x y m
  | IMul => mul_r S x y m
  | IQuot => quotient S x y TowardZero
  | IFloor => quotient S x y TowardNegative
  | ICeil => quotient S x y TowardPositive
  | IRem => c_fmod S x y
  end.
Fixpoint run (S : Semantics) (m : Round) (e : iexpr) : outcome (Z * Float) :=
  match e with
  | INum n => from_i128_r S n m
  | INeg e => let! '(st, x) := run S m e in Ret (st, neg x)
  | IOp o a b =>
    let! '(st1, x) := run S m a in
    let! '(st2, y) := run S m b in
    let! '(st3, r) := run_op S m o x y in
    Ret (Z.lor (Z.lor st1 st2) st3, r)
  end.

(** ** Real numbers *)
Lemma int_format : forall S n, sem_ok S -> Z.abs n <= 2 ^ PRECISION S -> generic_format r2 (fexp S) (IZR n).
Proof.
  intros S n HS Hn. pose proof (ok_prec S HS) as K. pose proof (ok_min S HS) as K1. destruct (Z.eq_dec (Z.abs n) (2 ^ PRECISION S)) as [E|E].
  - assert (G : generic_format r2 (fexp S) (bpow r2 (PRECISION S))) by (apply generic_format_bpow; unfold fexp, FLT_exp; lia).
    rewrite <- (IZR_pow2 (PRECISION S)) in G by lia. destruct (Z.abs_spec n) as [[_ A]|[_ A]]; rewrite A in E.
    + rewrite E. exact G.
    + replace n with (- 2 ^ PRECISION S) by lia. rewrite opp_IZR. apply generic_format_opp. exact G.
  - apply generic_format_FLT. exists (Defs.Float r2 n 0); [unfold F2R; cbn; ring| cbn [Fnum]; change (Zpower r2 (PRECISION S)) with (2 ^ PRECISION S); lia | cbn [Fexp]; lia].
Qed.
Lemma int_representable : forall S n, sem_ok S -> Z.abs n <= 2 ^ PRECISION S -> representable S (IZR n).
Proof.
  intros S n HS Hn. split; [apply int_format; assumption|]. pose proof (ok_max S HS) as K. pose proof (ok_prec S HS) as K0.
  rewrite <- abs_IZR. apply Rle_trans with (IZR (2 ^ PRECISION S)); [apply IZR_le; exact Hn|]. rewrite IZR_pow2 by lia.
  replace (PRECISION S) with (MAX_EXP S - (MAX_EXP S - PRECISION S)) by lia. apply Eft.bpow_max; [exact HS|lia].
Qed.
(** rounding to the format and then to an integer, in the same direction *)
Lemma floor_twice : forall (fexp : Z -> Z) {V : Valid_exp fexp} x, generic_format r2 fexp (IZR (Zfloor x)) -> Zfloor (round r2 fexp Zfloor x) = Zfloor x.
Proof.
  intros fexp V x G. pose proof (round_DN_pt r2 fexp x) as [_ [L U]]. apply Z.le_antisymm.
  - apply Zfloor_le. exact L.
  - apply Zfloor_lub. apply U; [exact G|apply Zfloor_lb].
Qed.
Lemma ceil_twice : forall (fexp : Z -> Z) {V : Valid_exp fexp} x, generic_format r2 fexp (IZR (Zceil x)) -> Zceil (round r2 fexp Zceil x) = Zceil x.
Proof.
  intros fexp V x G. pose proof (round_UP_pt r2 fexp x) as [_ [L U]]. apply Z.le_antisymm.
  - apply Zceil_glb. apply U; [exact G|apply Zceil_ub].
  - apply Zceil_le. exact L.
Qed.
Lemma trunc_twice : forall (fexp : Z -> Z) {V : Valid_exp fexp} x, generic_format r2 fexp (IZR (Ztrunc x)) -> Ztrunc (round r2 fexp Ztrunc x) = Ztrunc x.
Proof.
  intros fexp V x G. destruct (Rle_or_lt 0 x) as [P|P].
  - rewrite round_ZR_DN by exact P. assert (0 <= round r2 fexp Zfloor x)%R.
    { rewrite <- (round_0 r2 fexp Zfloor). apply round_le; [exact V|typeclasses eauto|exact P]. }
    rewrite !Ztrunc_floor by assumption. apply floor_twice; [exact V|]. rewrite <- Ztrunc_floor by exact P. exact G.
  - rewrite round_ZR_UP by lra. assert (round r2 fexp Zceil x <= 0)%R.
    { rewrite <- (round_0 r2 fexp Zceil). apply round_le; [exact V|typeclasses eauto|lra]. }
    rewrite !Ztrunc_ceil by lra. apply ceil_twice; [exact V|]. rewrite <- Ztrunc_ceil by lra. exact G.
Qed.
Definition directed_quotient (m : Round) (a b : Z) : Z :=
  match m with TowardNegative => a / b | TowardPositive => - (- a / b) | _ => Z.quot a b end.
Definition directed (m : Round) : Prop := m = TowardZero \/ m = TowardNegative \/ m = TowardPositive.
Lemma quotient_rounds : forall m a b, directed m -> b <> 0 -> rnd_of m (IZR a / IZR b) = directed_quotient m a b.
Proof.
  intros m a b [-> |[-> | ->]] Hb; cbn [rnd_of directed_quotient].
  - apply Ztrunc_div. exact Hb.
  - apply Zfloor_div. exact Hb.
  - unfold Zceil. replace (- (IZR a / IZR b))%R with (IZR (- a) / IZR b)%R by (rewrite opp_IZR; unfold Rdiv; ring). rewrite Zfloor_div by exact Hb. reflexivity.
Qed.
Lemma quotient_small : forall m a b, directed m -> b <> 0 -> Z.abs (directed_quotient m a b) <= Z.abs a.
Proof.
  intros m a b Hm Hb. rewrite <- (quotient_rounds m a b Hm Hb).
  assert (L : (Rabs (IZR a / IZR b) <= IZR (Z.abs a))%R).
  { unfold Rdiv. rewrite Rabs_mult, <- abs_IZR, Rabs_inv, <- abs_IZR by (apply IZR_neq; exact Hb).
    assert (1 <= IZR (Z.abs b))%R by (apply IZR_le; lia). assert (0 <= IZR (Z.abs a))%R by (apply IZR_le; lia).
    rewrite <- (Rmult_1_r (IZR (Z.abs a))) at 2. apply Rmult_le_compat_l; [assumption|]. rewrite <- Rinv_1. apply Rinv_le; lra. }
  apply Rabs_le_inv in L. rewrite <- opp_IZR in L. pose proof (valid_rnd_of m) as V.
  destruct L as [L1 L2]. destruct V as [Vle Vi]. apply Vle in L1. apply Vle in L2. rewrite Vi in L1, L2. lia.
Qed.
Lemma rounds_twice : forall S m a b, sem_ok S -> directed m -> b <> 0 -> Z.abs a <= 2 ^ PRECISION S ->
  rnd_of m (rounded S m (IZR a / IZR b)) = directed_quotient m a b.
Proof.
  intros S m a b HS Hm Hb Ha. pose proof (fexp_valid S HS) as V. pose proof (quotient_small m a b Hm Hb) as L. pose proof (quotient_rounds m a b Hm Hb) as E.
  assert (G : generic_format r2 (fexp S) (IZR (rnd_of m (IZR a / IZR b)))) by (rewrite E; apply int_format; [exact HS|lia]).
  unfold rounded. rewrite <- E. destruct Hm as [-> |[-> | ->]]; cbn [rnd_of] in *.
  - apply trunc_twice; assumption.
  - apply floor_twice; assumption.
  - apply ceil_twice; assumption.
Qed.
Lemma quotient_range : forall M a b, b <> 0 -> Z.abs a <= M -> (Rabs (IZR a / IZR b) <= IZR M)%R.
Proof.
  intros M a b Hb Ha. unfold Rdiv. rewrite Rabs_mult, <- abs_IZR, Rabs_inv, <- abs_IZR.
  assert (1 <= IZR (Z.abs b))%R by (apply IZR_le; lia). assert (0 <= IZR (Z.abs a) <= IZR M)%R by (split; apply IZR_le; lia).
  apply Rle_trans with (IZR (Z.abs a) * 1)%R; [|lra]. apply Rmult_le_compat_l; [lra|]. rewrite <- Rinv_1. apply Rinv_le; lra.
Qed.
Lemma exact_quotient : forall m a b, directed m -> b <> 0 -> Z.rem a b = 0 -> (IZR a / IZR b = IZR (directed_quotient m a b))%R.
Proof.
  intros m a b Hm Hb R. pose proof (Z.quot_rem' a b) as Q. rewrite R, Z.add_0_r in Q.
  assert (E : (IZR a / IZR b = IZR (Z.quot a b))%R) by (rewrite Q at 1; rewrite mult_IZR; field; apply IZR_neq; exact Hb).
  rewrite <- (quotient_rounds m a b Hm Hb), E. destruct (valid_rnd_of m) as [_ Vi]. rewrite Vi. reflexivity.
Qed.

(** ** Floats *)
Section Floats.
Variable S : Semantics.
Hypothesis HS : sem_ok S.
Local Notation M := (2 ^ PRECISION S).
Definition holds (x : Float) (n : Z) : Prop := wf S x /\ finite x /\ value S x = IZR n.
Lemma holds_normal : forall x n, holds x n -> n <> 0 -> category x = Normal.
Proof.
  intros x n [_ [F V]] Hn. destruct F as [C|C]; [exact C|exfalso]. apply Hn. apply eq_IZR. rewrite <- V. unfold value. rewrite C. reflexivity.
Qed.
Lemma quotient_holds : forall x y a b m, holds x a -> holds y b -> directed m -> b <> 0 -> Z.abs a <= M ->
  exists st r, quotient S x y m = Ret (st, r) /\ holds r (directed_quotient m a b) /\ (Z.rem a b = 0 -> st = OK).
Proof.
  intros x y a b m Hx Hy Hm Hb Ha. pose proof (holds_normal y b Hy Hb) as Cy. destruct Hx as [Wx [Fx Vx]]. destruct Hy as [Wy [Fy Vy]].
  pose proof (ok_max S HS) as K. pose proof (ok_prec S HS) as K0.
  assert (L : (Rabs (IZR a / IZR b) <= max_finite S)%R).
  { apply Rle_trans with (1 := quotient_range M a b Hb Ha). apply Rle_trans with (2 := proj2 (int_representable S M HS ltac:(rewrite Z.abs_eq; [lia|apply Z.pow_nonneg; lia]))).
    apply Rle_abs. }
  destruct (div_r_crate S x y m HS Wx Wy Fx Cy) as [[st1 q] [E1 D]]. rewrite Vx, Vy in D.
  assert (O1 : Z.rem a b = 0 -> st1 = OK).
  { intro R. destruct D as [_ [_ [D _]]]. destruct (D (rounded_le_max S m _ HS L)) as [_ [_ [D2 _]]]. apply D2.
    rewrite (exact_quotient m a b Hm Hb R). unfold rounded. pose proof (valid_rnd_of m). apply round_generic; [assumption|].
    apply int_format; [exact HS|]. pose proof (quotient_small m a b Hm Hb). lia. }
  destruct D as [Wq [_ [D _]]]. destruct (D (rounded_le_max S m _ HS L)) as [Fq [Vq _]]. clear D.
  destruct (round_to_integral_finite S q m HS Wq Fq) as [st2 [r [E2 [Wr [Fr [Vr [_ [O2 _]]]]]]]].
  rewrite Vq, (rounds_twice S m a b HS Hm Hb Ha) in Vr.
  exists (Z.lor st1 st2), r. split; [unfold quotient; rewrite E1; cbn [bind]; rewrite E2; reflexivity|]. split; [exact (conj Wr (conj Fr Vr))|].
  intro R. rewrite (O1 R), O2; [reflexivity|]. rewrite Vr, Vq, (exact_quotient m a b Hm Hb R). unfold rounded. pose proof (valid_rnd_of m).
  symmetry. apply round_generic; [assumption|]. apply int_format; [exact HS|]. pose proof (quotient_small m a b Hm Hb). lia.
Qed.
Lemma op_holds : forall m o x y a b, holds x a -> holds y b -> Z.abs a <= M -> Z.abs b <= M -> Z.abs (int_op o a b) <= M -> (divides o = true -> b <> 0) ->
  exists st r, run_op S m o x y = Ret (st, r) /\ holds r (int_op o a b) /\
    (match o with IQuot | IFloor | ICeil => Z.rem a b = 0 | _ => True end -> st = OK).
Proof.
  intros m o x y a b Hx Hy Ha Hb Hr Hd. pose proof Hx as [Wx [Fx Vx]]. pose proof Hy as [Wy [Fy Vy]].
  assert (K : forall v o' zs, (v = IZR (int_op o a b))%R -> (exists res, o' = Ret res /\ crate_rounded S m v zs res) ->
    exists st r, o' = Ret (st, r) /\ holds r (int_op o a b) /\ st = OK).
  { intros v o' zs -> X. destruct (Eft.exactly S m _ zs o' HS (int_representable S _ HS Hr) X) as [r [E [W [F V]]]]. exists OK, r. split; [exact E|]. split; [exact (conj W (conj F V))|reflexivity]. }
  destruct o; cbn [run_op int_op divides] in *.
  - destruct (K (value S x + value S y)%R _ _ ltac:(rewrite Vx, Vy, plus_IZR; reflexivity) (add_r_crate S x y m HS Wx Wy Fx Fy)) as [st [r [E [H O]]]]. exists st, r. auto.
  - destruct (K (value S x - value S y)%R _ _ ltac:(rewrite Vx, Vy, minus_IZR; reflexivity) (sub_r_crate S x y m HS Wx Wy Fx Fy)) as [st [r [E [H O]]]]. exists st, r. auto.
  - destruct (K (value S x * value S y)%R _ _ ltac:(rewrite Vx, Vy, mult_IZR; reflexivity) (mul_r_crate S x y m HS Wx Wy Fx Fy)) as [st [r [E [H O]]]]. exists st, r. auto.
  - exact (quotient_holds x y a b TowardZero Hx Hy (or_introl eq_refl) (Hd eq_refl) Ha).
  - exact (quotient_holds x y a b TowardNegative Hx Hy (or_intror (or_introl eq_refl)) (Hd eq_refl) Ha).
  - exact (quotient_holds x y a b TowardPositive Hx Hy (or_intror (or_intror eq_refl)) (Hd eq_refl) Ha).
  - destruct (c_fmod_finite S x y HS Wx Wy Fx (holds_normal y b Hy (Hd eq_refl))) as [r [E [Wr [Fr [Vr _]]]]]. exists OK, r. split; [exact E|].
    split; [|reflexivity]. split; [exact Wr|]. split; [exact Fr|]. rewrite Vr, Vx, Vy, Ztrunc_div by exact (Hd eq_refl). rewrite <- mult_IZR, <- minus_IZR. f_equal.
    pose proof (Z.quot_rem' a b). lia.
Qed.
Theorem run_holds : forall m e, fits M e -> exists st r, run S m e = Ret (st, r) /\ holds r (denotes e) /\ (divisible e -> st = OK).
Proof.
  intros m. pose proof (ok_prec S HS) as K0. assert (BM : M <= 2 ^ 126) by (apply Z.pow_le_mono_r; lia). assert (BM2 : 2 ^ 126 < 2 ^ 127) by reflexivity.
  induction e as [n|e IH|o a IHa b IHb]; cbn [fits]; intros [L H].
  - cbn [denotes run] in *. destruct (from_i128_r_spec S n m HS ltac:(lia)) as [[st r] [E D]]. exists st, r. split; [exact E|].
    destruct (int_representable S n HS L) as [G B]. assert (X : rounded S m (IZR n) = IZR n) by (unfold rounded; pose proof (valid_rnd_of m); apply round_generic; assumption).
    destruct D as [W [_ [D _]]]. rewrite X in D. destruct (D B) as [F [V [O _]]]. split; [exact (conj W (conj F V))|]. intros _. apply O. reflexivity.
  - destruct (IH H) as [st [r [E [[W [F V]] O]]]]. cbn [run denotes divisible]. rewrite E. cbn [bind]. exists st, (neg r). split; [reflexivity|]. split; [|exact O].
    split; [apply wf_neg; exact W|]. split; [apply finite_neg; exact F|]. rewrite value_neg, V, opp_IZR. reflexivity.
  - destruct H as [Ha [Hb Hd]]. destruct (IHa Ha) as [st1 [x [E1 [Hx O1]]]]. destruct (IHb Hb) as [st2 [y [E2 [Hy O2]]]].
    assert (La : Z.abs (denotes a) <= M) by (destruct a; apply Ha). assert (Lb : Z.abs (denotes b) <= M) by (destruct b; apply Hb).
    destruct (op_holds m o x y _ _ Hx Hy La Lb L Hd) as [st3 [r [E3 [Hr O3]]]]. cbn [run denotes divisible]. rewrite E1. cbn [bind]. rewrite E2. cbn [bind]. rewrite E3. cbn [bind].
    exists (Z.lor (Z.lor st1 st2) st3), r. split; [reflexivity|]. split; [exact Hr|]. intros [D1 [D2 D3]]. rewrite (O1 D1), (O2 D2), (O3 D3). reflexivity.
Qed.
Theorem run_integer : forall m e, fits M e -> exists st r, run S m e = Ret (st, r) /\ wf S r /\ finite r /\ value S r = IZR (denotes e) /\
  (divisible e -> st = OK) /\ forall m', to_i128_r S r 128 m' = Ret (OK, denotes e, true).
Proof.
  intros m e He. destruct (run_holds m e He) as [st [r [E [[W [F V]] O]]]]. exists st, r. split; [exact E|]. split; [exact W|]. split; [exact F|]. split; [exact V|]. split; [exact O|].
  intro m'. pose proof (ok_prec S HS) as K0. assert (BM : M <= 2 ^ 126) by (apply Z.pow_le_mono_r; lia). assert (BM2 : 2 ^ 126 < 2 ^ 127) by reflexivity.
  assert (L : Z.abs (denotes e) <= M) by (destruct e; apply He).
  destruct (float_int_float S r (denotes e) 128 m' m HS W F ltac:(lia) V ltac:(change (128 - 1) with 127; lia)) as [ex [f [T [-> _]]]]. exact T.
Qed.
End Floats.

Theorem run_integer_all : forall S m e, sem_ok S -> fits (2 ^ PRECISION S) e ->
  exists st r, run S m e = Ret (st, r) /\ wf S r /\ finite r /\ value S r = IZR (denotes e) /\ (divisible e -> st = OK) /\
    forall m', to_i128_r S r 128 m' = Ret (OK, denotes e, true).
Proof. intros S m e HS. exact (run_integer S HS m e). Qed.
(** 2^PRECISION + 1 has one bit too many *)
Lemma next_integer : forall S, sem_ok S -> ~ generic_format r2 (fexp S) (IZR (2 ^ PRECISION S + 1)).
Proof.
  intros S HS G. pose proof (ok_prec S HS) as K. pose proof (ok_min S HS) as K1. pose proof (fexp_valid S HS).
  assert (P : 0 < 2 ^ PRECISION S) by (apply Z.pow_pos_nonneg; lia). assert (P2 : 2 ^ PRECISION S = 2 * 2 ^ (PRECISION S - 1)) by (rewrite <- Z.pow_succ_r by lia; f_equal; lia).
  assert (P3 : 0 < 2 ^ (PRECISION S - 1)) by (apply Z.pow_pos_nonneg; lia).
  assert (M : Raux.mag r2 (IZR (2 ^ PRECISION S + 1)) = PRECISION S + 1 :> Z).
  { apply mag_unique_pos. replace (PRECISION S + 1 - 1) with (PRECISION S) by lia. rewrite <- !IZR_pow2 by lia. split; [apply IZR_le; lia|]. apply IZR_lt. rewrite Z.pow_add_r by lia. lia. }
  assert (E : IZR (2 ^ PRECISION S + 1) = F2R (Defs.Float r2 (Ztrunc (scaled_mantissa r2 (fexp S) (IZR (2 ^ PRECISION S + 1)))) 1)).
  { unfold generic_format, cexp in G. rewrite M in G. unfold fexp, FLT_exp in G. rewrite Z.max_l in G by lia. replace (PRECISION S + 1 - PRECISION S) with 1 in G by lia. exact G. }
  unfold F2R in E. cbn [Fnum Fexp] in E. change (bpow r2 1) with (IZR 2) in E. rewrite <- mult_IZR in E. apply eq_IZR in E. lia.
Qed.
Theorem run_sharp : forall S r, sem_ok S -> wf S r -> finite r -> value S r <> IZR (2 ^ PRECISION S + 1).
Proof. intros S r HS Wr Fr V. apply (next_integer S HS). rewrite <- V. apply Arith.value_format; assumption. Qed.
