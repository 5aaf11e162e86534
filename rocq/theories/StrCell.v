(** * StrCell.v -- when an approximation rounds like the number it approximates *)
From Coq Require Import ZArith Reals List Bool Lia Lra ZifyBool.
From Flocq Require Import Core Bracket Round.
From Verif Require Import Machine Sig SpecSig Limbs SigProofs SigProofs2 SigProofs3 SigProofs4 Ieee Spec Norm Arith StrNum StrAtt.
Import ListNotations.
Local Open Scope Z_scope.
Ltac Zify.zify_post_hook ::= idtac.
Local Notation length := List.length.

(** [G] and [e] name the interval between two neighbouring representable
    numbers: [G] units of the last place, the next one up *)
Record cell (S : Semantics) (G e : Z) : Prop := {
  cell_sig : 0 <= G < 2 ^ PRECISION S;
  cell_exp : MIN_EXP S <= e;
  cell_norm : e = MIN_EXP S \/ 2 ^ (PRECISION S - 1) <= G }.
Definition unit_of (S : Semantics) (e : Z) : R := bpow r2 (e - (PRECISION S - 1)).

Lemma unit_pos : forall S e, (0 < unit_of S e)%R.
Proof. intros. apply bpow_gt_0. Qed.
Lemma cell_cexp : forall S G e v l, sem_ok S -> cell S G e -> (0 < v)%R -> between G (e - (PRECISION S - 1)) v l ->
  cexp r2 (fexp S) v = e - (PRECISION S - 1).
Proof. intros S G e v l HS [H1 H2 H3] Hv Hb. apply cexp_between with (mm := G) (l := l); assumption. Qed.
Lemma cell_ulp : forall S G e, sem_ok S -> cell S G e -> ulp r2 (fexp S) (IZR G * unit_of S e) = unit_of S e.
Proof.
  intros S G e HS C. destruct (Z.eq_dec G 0) as [->|N].
  - rewrite Rmult_0_l. unfold fexp. rewrite ulp_FLT_0 by (pose proof (ok_prec S HS); unfold Prec_gt_0; lia).
    unfold unit_of. f_equal. destruct C as [H1 H2 [H3|H3]]; [lia|]. exfalso.
    pose proof (ok_prec S HS). pose proof (Z.pow_pos_nonneg 2 (PRECISION S - 1) ltac:(lia) ltac:(lia)). lia.
  - assert (0 < IZR G * unit_of S e)%R as Hp by (apply Rmult_lt_0_compat; [apply IZR_lt; destruct C; lia|apply unit_pos]).
    rewrite ulp_neq_0 by lra. unfold unit_of at 2. f_equal.
    apply cell_cexp with (G := G) (l := ExactlyZero); try assumption. apply between_exact. reflexivity.
Qed.
Lemma cell_format : forall S G e, sem_ok S -> cell S G e -> generic_format r2 (fexp S) (IZR G * unit_of S e).
Proof.
  intros S G e HS C. unfold fexp. pose proof (ok_prec S HS). apply generic_format_FLT.
  exists (Defs.Float r2 G (e - (PRECISION S - 1))); [reflexivity| |]; cbn [Fnum Fexp].
  - rewrite Z.abs_eq by (destruct C; lia). change (Zpower r2 ?k) with (2 ^ k). destruct C; lia.
  - destruct C; lia.
Qed.
Lemma cell_succ : forall S G e, sem_ok S -> cell S G e ->
  succ r2 (fexp S) (IZR G * unit_of S e) = (IZR (G + 1) * unit_of S e)%R.
Proof.
  intros S G e HS C. rewrite succ_eq_pos.
  - rewrite cell_ulp by assumption. rewrite plus_IZR. ring.
  - apply Rmult_le_pos; [apply IZR_le; destruct C; lia|apply Rlt_le, unit_pos].
Qed.
Lemma pred_half : forall S x, sem_ok S -> (0 < x)%R -> generic_format r2 (fexp S) x ->
  (pred r2 (fexp S) x <= x - ulp r2 (fexp S) x / 2)%R.
Proof.
  intros S x HS Hx F. rewrite pred_eq_pos by lra. unfold pred_pos. 
  pose proof (ulp_ge_0 r2 (fexp S) x).
  case Req_bool_spec; intro E; [|lra].
  rewrite ulp_neq_0 by lra. unfold cexp.
  assert (bpow r2 (fexp S (mag r2 x)) / 2 = bpow r2 (fexp S (mag r2 x) - 1))%R as ->.
  { unfold Z.sub. rewrite bpow_plus. change (bpow r2 (- (1))) with (/ 2)%R. reflexivity. }
  apply Rplus_le_compat_l, Ropp_le_contravar, bpow_le. unfold fexp, FLT_exp. lia.
Qed.

(** [m] is one of the two round-to-nearest modes *)
Lemma rounded_nearest : forall S m, nearest m = true -> exists choice, forall x, rounded S m x = round r2 (fexp S) (Znearest choice) x.
Proof.
  intros S m Hm. destruct m; try discriminate Hm; eexists; intro x; reflexivity.
Qed.

Lemma cell_low : forall S m G e y, sem_ok S -> cell S G e -> nearest m = true -> (0 <= y)%R ->
  (IZR G * unit_of S e - unit_of S e / 4 < y < IZR G * unit_of S e + unit_of S e / 2)%R ->
  rounded S m y = (IZR G * unit_of S e)%R.
Proof.
  intros S m G e y HS C Hm Hy [H1 H2]. destruct (rounded_nearest S m Hm) as [ch E]. rewrite E.
  pose proof (fexp_valid S HS) as Vf. pose proof (unit_pos S e) as Up.
  pose proof (cell_format S G e HS C) as F. pose proof (cell_succ S G e HS C) as Sc. pose proof (cell_ulp S G e HS C) as U.
  set (g := (IZR G * unit_of S e)%R) in *.
  apply Rle_antisym.
  - apply round_N_le_midp; [assumption|assumption|]. rewrite Sc, plus_IZR, Rmult_plus_distr_r, Rmult_1_l. fold g. lra.
  - destruct (Z.eq_dec G 0) as [->|N].
    + unfold g. rewrite Rmult_0_l. rewrite <- (round_0 r2 (fexp S) (Znearest ch)). apply round_le; [assumption|apply valid_rnd_N|assumption].
    + assert (0 < g)%R as Hg by (apply Rmult_lt_0_compat; [apply IZR_lt; destruct C; lia|assumption]).
      apply round_N_ge_midp; [assumption|assumption|]. pose proof (pred_half S g HS Hg F). rewrite U in H. lra.
Qed.
Lemma cell_high : forall S m G e y, sem_ok S -> cell S G e -> nearest m = true ->
  (IZR G * unit_of S e + unit_of S e / 2 < y < IZR G * unit_of S e + 5 / 4 * unit_of S e)%R ->
  rounded S m y = (IZR (G + 1) * unit_of S e)%R.
Proof.
  intros S m G e y HS C Hm [H1 H2]. destruct (rounded_nearest S m Hm) as [ch E]. rewrite E.
  pose proof (fexp_valid S HS) as Vf. pose proof (unit_pos S e) as Up.
  pose proof (cell_format S G e HS C) as F. pose proof (cell_succ S G e HS C) as Sc. pose proof (cell_ulp S G e HS C) as U.
  rewrite <- Sc. set (g := (IZR G * unit_of S e)%R) in *.
  assert (0 <= g)%R as Hg by (apply Rmult_le_pos; [apply IZR_le; destruct C; lia|lra]).
  assert (succ r2 (fexp S) g = g + unit_of S e)%R as Sg by (rewrite succ_eq_pos by assumption; rewrite U; reflexivity).
  pose proof (generic_format_succ r2 (fexp S) g F) as F'.
  apply Rle_antisym.
  - apply round_N_le_midp; [assumption|assumption|].
    assert (succ r2 (fexp S) g + unit_of S e <= succ r2 (fexp S) (succ r2 (fexp S) g))%R; [|lra].
    rewrite (succ_eq_pos r2 (fexp S) (succ r2 (fexp S) g)) by lra. apply Rplus_le_compat_l. rewrite <- U at 1.
    apply ulp_le_pos; [assumption| |assumption|lra]. apply FLT_exp_monotone.
  - apply round_N_ge_midp; [assumption|assumption|]. rewrite pred_succ by assumption. lra.
Qed.

(** two numbers inside the same interval, in a directed mode *)
Lemma cell_directed : forall S m G e x y, sem_ok S -> cell S G e -> nearest m = false ->
  (IZR G * unit_of S e < x < IZR (G + 1) * unit_of S e)%R -> (IZR G * unit_of S e < y < IZR (G + 1) * unit_of S e)%R ->
  rounded S m x = rounded S m y /\ rounded S m x <> x /\ rounded S m y <> y.
Proof.
  intros S m G e x y HS C Hm Hx Hy.
  assert (K : forall z, (IZR G * unit_of S e < z < IZR (G + 1) * unit_of S e)%R ->
    rounded S m z = (IZR (cond_incr (match m with TowardPositive => true | _ => false end) G) * unit_of S e)%R /\ rounded S m z <> z).
  { intros z Hz.
    assert (0 < z)%R as Z0.
    { apply Rle_lt_trans with (2 := proj1 Hz). apply Rmult_le_pos; [apply IZR_le; destruct C; lia|apply Rlt_le, unit_pos]. }
    assert (exists l, l <> ExactlyZero /\ between G (e - (PRECISION S - 1)) z l) as [l [Hl Hb]].
    { unfold between, inbetween_float. unfold unit_of in Hz. set (a := bpow r2 (e - (PRECISION S - 1))) in *.
      destruct (Rcompare_spec z ((IZR G * a + IZR (G + 1) * a) / 2)) as [H|H|H].
      - exists LessThanHalf. split; [discriminate|]. constructor; [exact Hz|]. apply Rcompare_Lt. exact H.
      - exists ExactlyHalf. split; [discriminate|]. constructor; [exact Hz|]. apply Rcompare_Eq. exact H.
      - exists MoreThanHalf. split; [discriminate|]. constructor; [exact Hz|]. apply Rcompare_Gt. exact H. }
    pose proof (cell_cexp S G e z l HS C Z0 Hb) as Ce.
    pose proof (rounded_between S m false z G _ l Z0 Ce Hb) as R. cbn [sgnr] in R.
    pose proof (rounded_exact_iff S m false z G _ l Z0 Ce Hb) as I. cbn [sgnr] in I.
    split; [|intro A; apply Hl, I, A]. rewrite R. unfold unit_of. f_equal. f_equal. f_equal.
    destruct m, l; try discriminate Hm; try reflexivity; exfalso; apply Hl; reflexivity. }
  destruct (K x Hx) as [X1 X2]. destruct (K y Hy) as [Y1 Y2]. split; [congruence|]. split; assumption.
Qed.

(** a result that is right for [v] is right for [x] too *)
Lemma cr_transfer : forall S m v x st f, (0 < v)%R -> (0 < x)%R -> rounded S m x = rounded S m v ->
  correctly_rounded S m v false (st, f) -> exists st', correctly_rounded S m x false (st', f).
Proof.
  intros S m v x st f Hv Hx E [H1 [[A [B C]] [H3 H4]]].
  assert (has_sign x false f) as Hs by (split; [lra|]; split; [intros _; apply B; assumption|lra]).
  set (r := rounded S m x) in *.
  destruct (Rle_lt_dec (Rabs r) (max_finite S)) as [L|L].
  - rewrite <- E in H3, H4. specialize (H3 L). destruct H3 as [F1 [F2 _]].
    exists (if Req_EM_T r x then OK else if Rlt_dec (Rabs r) (min_normal S) then Z.lor UNDERFLOW INEXACT else INEXACT).
    split; [assumption|]. split; [assumption|]. split; [|fold r; lra]. intros _. split; [assumption|]. split; [exact F2|]. fold r.
    destruct (Req_EM_T r x) as [Q|Q]; [split; [reflexivity|split; intro; contradiction]|].
    split; [intro; contradiction|]. destruct (Rlt_dec (Rabs r) (min_normal S)); split; intros _ ?; try reflexivity; lra.
  - exists st. split; [assumption|]. split; [assumption|]. fold r. split; [lra|]. rewrite <- E in H4. exact H4.
Qed.
Lemma cr_transfer_inexact : forall S m v x res, (0 < v)%R -> (0 < x)%R -> rounded S m x = rounded S m v ->
  rounded S m x <> x -> rounded S m v <> v ->
  correctly_rounded S m v false res -> correctly_rounded S m x false res.
Proof.
  intros S m v x [st f] Hv Hx E Nx Nv [H1 [[A [B C]] [H3 H4]]].
  split; [assumption|]. split; [split; [lra|]; split; [intros _; apply B; assumption|lra]|].
  rewrite E. split; [|exact H4]. intro L. destruct (H3 L) as [F1 [F2 [F3 [F4 F5]]]].
  split; [assumption|]. split; [assumption|]. split; [intro; congruence|]. split; intros _ Q; [apply F4|apply F5]; assumption.
Qed.
