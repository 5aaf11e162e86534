(** * Sum.v -- the error of a sum of many numbers, added one after the other *)
From Coq Require Import ZArith Reals List Bool Lia Lra Psatz.
From Flocq Require Import Core Plus_error Relative.
From Verif Require Import Machine Ieee Spec Norm Arith Special Int Algebra Laws Total Reach Eft Flocq754 SpecPrograms SpecExpr Expr.
Import ListNotations.
Local Open Scope Z_scope.
Ltac Zify.zify_post_hook ::= idtac.

(** a client of src/ieee.rs:1009 [add_r]: ((x0 + x1) + x2) + ..., the statuses ored *)
Fixpoint c_sum (S : Semantics) (m : Round) (acc : Float) (xs : list Float) : outcome (Z * Float) :=
  match xs with
  | [] => Ret (OK, acc)
  | x :: xs =>
    let! '(s, a) := add_r S acc x m in
    let! '(t, r) := c_sum S m a xs in
    Ret (Z.lor s t, r)
  end.
(** ** What is claimed *)
Fixpoint total (S : Semantics) (xs : list Float) : R := match xs with [] => 0%R | x :: xs => (value S x + total S xs)%R end.
Fixpoint total_abs (S : Semantics) (xs : list Float) : R := match xs with [] => 0%R | x :: xs => (Rabs (value S x) + total_abs S xs)%R end.

Section Sum.
Variable S : Semantics.
Hypothesis HS : sem_ok S.
Lemma roundoff_pos : forall m, (0 < roundoff S m)%R.
Proof. intros []; apply bpow_gt_0. Qed.
Lemma sum_error : forall m x y, generic_format r2 (fexp S) x -> generic_format r2 (fexp S) y ->
  (Rabs (rounded S m (x + y) - (x + y)) <= roundoff S m * Rabs (x + y))%R.
Proof.
  intros m x y Fx Fy. pose proof (roundoff_pos m) as RP. pose proof (Rabs_pos (x + y)) as AP.
  assert (PG : Prec_gt_0 (PRECISION S)) by (unfold Prec_gt_0; destruct (ok_prec S HS); lia).
  destruct (Rle_lt_dec (Rabs (x + y)) (bpow r2 (PRECISION S + (MIN_EXP S - (PRECISION S - 1))))) as [L|L].
  - rewrite (rounded_format S m (x + y)); [|apply FLT_format_plus_small; assumption].
    replace (x + y - (x + y))%R with 0%R by ring. rewrite Rabs_R0. nra.
  - assert (L' : (bpow r2 (MIN_EXP S - (PRECISION S - 1) + PRECISION S - 1) <= Rabs (x + y))%R).
    { left. eapply Rle_lt_trans; [|exact L]. apply bpow_le. lia. }
    assert (HALF : (/ 2 * bpow r2 (- PRECISION S + 1) = bpow r2 (- PRECISION S))%R).
    { rewrite bpow_plus_1. change (IZR r2) with 2%R. field. }
    unfold rounded, roundoff, rnd_of, fexp. destruct m.
    + rewrite <- HALF. apply relative_error_N_FLT; assumption.
    + left. replace (1 - PRECISION S) with (- PRECISION S + 1) by ring. apply relative_error_FLT; [exact PG|apply valid_rnd_UP|exact L'].
    + left. replace (1 - PRECISION S) with (- PRECISION S + 1) by ring. apply relative_error_FLT; [exact PG|apply valid_rnd_DN|exact L'].
    + left. replace (1 - PRECISION S) with (- PRECISION S + 1) by ring. apply relative_error_FLT; [exact PG|apply valid_rnd_ZR|exact L'].
    + rewrite <- HALF. apply relative_error_N_FLT; assumption.
Qed.

Lemma total_abs_pos : forall xs, (0 <= total_abs S xs)%R.
Proof. induction xs as [|x xs IH]; cbn [total_abs]; [lra|]. pose proof (Rabs_pos (value S x)). lra. Qed.
Lemma growth_ge_1 : forall m n, (1 <= (1 + roundoff S m) ^ n)%R.
Proof. intros m n. pose proof (roundoff_pos m). apply pow_R1_Rle. lra. Qed.
(** the bound is inductive: one more operation, one more factor *)
Lemma bound_step : forall u n a r s b x t, (0 < u)%R -> (1 <= n)%R ->
  (* r: rounded a + x *) (Rabs (r - (a + x)) <= u * Rabs (a + x))%R ->
  (* what the rest does with r *) (Rabs (s - (r + t)) <= (n - 1) * (Rabs r + b))%R -> (0 <= b)%R ->
  (Rabs (s - (a + (x + t))) <= ((1 + u) * n - 1) * (Rabs a + (Rabs x + b)))%R.
Proof.
  intros u n a r s b x t U N H K B.
  pose proof (Rabs_triang a x) as T1. set (A := Rabs a) in *. set (X := Rabs x) in *.
  assert (T2 : (Rabs r <= (1 + u) * (A + X))%R).
  { replace r with ((r - (a + x)) + (a + x))%R by ring. eapply Rle_trans; [apply Rabs_triang|]. nra. }
  assert (T3 : (Rabs (s - (a + (x + t))) <= Rabs (s - (r + t)) + Rabs (r - (a + x)))%R).
  { replace (s - (a + (x + t)))%R with ((s - (r + t)) + (r - (a + x)))%R by ring. apply Rabs_triang. }
  assert (P1 : (0 <= A)%R) by apply Rabs_pos. assert (P2 : (0 <= X)%R) by apply Rabs_pos.
  assert (T4 : (u * Rabs (a + x) <= u * (A + X))%R) by nra.
  assert (T5 : ((n - 1) * (Rabs r + b) <= (n - 1) * ((1 + u) * (A + X) + b))%R) by nra.
  assert (T6 : ((n - 1) * ((1 + u) * (A + X) + b) + u * (A + X) <= ((1 + u) * n - 1) * (A + (X + b)))%R).
  { assert (0 <= u * n * b)%R by (apply Rmult_le_pos; [apply Rmult_le_pos|]; lra). nra. }
  lra.
Qed.

Definition numbers (xs : list Float) : Prop := forall x, In x xs -> wf S x /\ finite x.
(** sums that cannot overflow, in any mode *)
Lemma sum_bounded : forall m xs acc, wf S acc -> finite acc -> numbers xs ->
  ((1 + roundoff S m) ^ length xs * (Rabs (value S acc) + total_abs S xs) <= max_finite S)%R ->
  exists st r, c_sum S m acc xs = Ret (st, r) /\ wf S r /\ finite r /\ ~ trouble st /\
    (Rabs (value S r - (value S acc + total S xs)) <= ((1 + roundoff S m) ^ length xs - 1) * (Rabs (value S acc) + total_abs S xs))%R.
Proof.
  intros m. pose proof (roundoff_pos m) as RP. induction xs as [|x xs IH]; intros acc Wa Fa H B; cbn [c_sum total total_abs length pow] in *.
  - exists OK, acc. split; [reflexivity|]. split; [exact Wa|]. split; [exact Fa|].
    split; [unfold trouble, raised, OK; rewrite !Z.land_0_l; tauto|]. replace (value S acc - (value S acc + 0))%R with 0%R by ring. rewrite Rabs_R0. lra.
  - destruct (H x (or_introl eq_refl)) as [Wx Fx]. pose proof (total_abs_pos xs) as TP. pose proof (growth_ge_1 m (length xs)) as G.
    pose proof (sum_error m (value S acc) (value S x) (value_format S acc HS Wa) (value_format S x HS Wx)) as SE.
    set (v := (value S acc + value S x)%R) in *. pose proof (Rabs_triang (value S acc) (value S x)) as T1. fold v in T1.
    assert (T2 : (Rabs (rounded S m v) <= (1 + roundoff S m) * (Rabs (value S acc) + Rabs (value S x)))%R).
    { replace (rounded S m v) with ((rounded S m v - v) + v)%R by ring. eapply Rle_trans; [apply Rabs_triang|]. nra. }
    set (u := roundoff S m) in *. set (g := ((1 + u) ^ length xs)%R) in *.
    set (A := Rabs (value S acc)) in *. set (X := Rabs (value S x)) in *. assert (PA : (0 <= A)%R) by apply Rabs_pos. assert (PX : (0 <= X)%R) by apply Rabs_pos.
    assert (SM : (Rabs (rounded S m v) <= max_finite S)%R).
    { eapply Rle_trans; [exact T2|]. eapply Rle_trans; [|exact B].
      assert (0 <= (1 + u) * (A + X) * (g - 1))%R by (apply Rmult_le_pos; [apply Rmult_le_pos|]; lra). assert (0 <= (1 + u) * g * total_abs S xs)%R by (apply Rmult_le_pos; [apply Rmult_le_pos|]; lra). lra. }
    destruct (add_r_spec S acc x m HS Wa Wx Fa Fx) as [[s1 a] [E D]]. fold v in D. rewrite E. cbn [bind].
    destruct (add_r_flags S acc x m HS Wa Wx Fa Fx) as [s1' [a' [E' K]]]. assert (Q : s1' = s1 /\ a' = a) by (split; congruence). destruct Q as [-> ->]. clear E'.
    destruct D as [Wr [_ [D _]]]. destruct (D SM) as [Fr [Vr _]].
    destruct (IH a Wr Fr) as [st [r [E2 [W2 [F2 [N2 B2]]]]]].
    { intros y I. apply H. right. exact I. }
    { rewrite Vr. eapply Rle_trans; [|exact B]. assert (g * (Rabs (rounded S m v) + total_abs S xs) <= g * ((1 + u) * (A + X) + total_abs S xs))%R by (apply Rmult_le_compat_l; lra).
      assert (0 <= u * g * total_abs S xs)%R by (apply Rmult_le_pos; [apply Rmult_le_pos|]; lra). lra. }
    rewrite E2. cbn [bind]. exists (Z.lor s1 st), r. split; [reflexivity|]. split; [exact W2|]. split; [exact F2|]. split.
    + rewrite trouble_lor. intros [T|T]; [|exact (N2 T)]. destruct K as [_ [_ [_ [K4 [_ [K5 K6]]]]]]. destruct T as [T|[T|T]]; [|exact (K5 T)|exact (K6 T)].
      apply K4 in T. exact (T Fr).
    + rewrite Vr in B2. eapply (bound_step u g); eassumption.
Qed.
(** sums in the nearest modes that did not report an overflow *)
Lemma sum_reported : forall m xs acc, nearest m -> wf S acc -> finite acc -> numbers xs ->
  exists st r, c_sum S m acc xs = Ret (st, r) /\ wf S r /\
    (~ raised OVERFLOW st -> finite r /\
      (Rabs (value S r - (value S acc + total S xs)) <= ((1 + roundoff S m) ^ length xs - 1) * (Rabs (value S acc) + total_abs S xs))%R).
Proof.
  intros m xs acc NM. revert acc. pose proof (roundoff_pos m) as RP.
  assert (ANY : forall xs acc, wf S acc -> numbers xs -> exists st r, c_sum S m acc xs = Ret (st, r) /\ wf S r).
  { induction xs0 as [|x xs0 IH]; intros acc Wa H; cbn [c_sum].
    - exists OK, acc. exact (conj eq_refl Wa).
    - destruct (H x (or_introl eq_refl)) as [Wx _]. destruct (op_total Add S m acc x HS Wa Wx) as [s [a [E W]]]. cbn [op_r] in E. rewrite E. cbn [bind].
      destruct (IH a W) as [t [r [-> Wr]]]; [intros y I; apply H; right; exact I|]. cbn [bind]. exists (Z.lor s t), r. exact (conj eq_refl Wr). }
  induction xs as [|x xs IH]; intros acc Wa Fa H; cbn [c_sum total total_abs length pow].
  - exists OK, acc. split; [reflexivity|]. split; [exact Wa|]. intros _. split; [exact Fa|].
    replace (value S acc - (value S acc + 0))%R with 0%R by ring. rewrite Rabs_R0. lra.
  - destruct (H x (or_introl eq_refl)) as [Wx Fx]. pose proof (total_abs_pos xs) as TP. pose proof (growth_ge_1 m (length xs)) as G.
    assert (H' : numbers xs) by (intros y I; apply H; right; exact I).
    pose proof (sum_error m (value S acc) (value S x) (value_format S acc HS Wa) (value_format S x HS Wx)) as SE.
    set (v := (value S acc + value S x)%R) in *.
    destruct (add_r_spec S acc x m HS Wa Wx Fa Fx) as [[s1 a] [E D]]. fold v in D. rewrite E. cbn [bind].
    destruct D as [Wr [_ [D1 D2]]].
    destruct (Rle_lt_dec (Rabs (rounded S m v)) (max_finite S)) as [L|L].
    + destruct (D1 L) as [Fr [Vr _]]. destruct (IH a Wr Fr H') as [st [r [E2 [W2 P]]]]. rewrite E2. cbn [bind].
      exists (Z.lor s1 st), r. split; [reflexivity|]. split; [exact W2|]. rewrite raised_lor. intros NO. destruct (P ltac:(tauto)) as [Fr2 B2].
      split; [exact Fr2|]. rewrite Vr in B2. eapply bound_step; eassumption.
    + destruct (ANY xs a Wr H') as [st [r [-> W2]]]. cbn [bind]. exists (Z.lor s1 st), r. split; [reflexivity|]. split; [exact W2|].
      intros NO. exfalso. apply NO. rewrite raised_lor. left. specialize (D2 L).
      assert (Q : crate_to_infinity S m v (sign a) = true) by (unfold crate_to_infinity, wrong_side; destruct NM as [-> | ->]; destruct (NONFINITE_BEHAVIOR S); reflexivity).
      rewrite Q in D2. destruct D2 as [-> _]. unfold raised. vm_compute. discriminate.
Qed.
End Sum.
