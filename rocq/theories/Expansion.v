(** * Expansion.v -- clients that keep a sum exactly, as a list of numbers *)
From Coq Require Import ZArith Reals List Bool Lia Lra.
From Flocq Require Import Core.
From Verif Require Import Machine Ieee Spec Norm Arith Special Int Fma Algebra Laws Total Eft SpecPrograms SpecExpr Expr Sum Orderx ExprError Samples.
From Verif Require Import Interval Compensated.
Import ListNotations.
Local Open Scope Z_scope.
Ltac Zify.zify_post_hook ::= idtac.

(** a number added to an expansion (Shewchuk): the error of every addition becomes a component, the sum goes on to the next;
    src/ieee.rs:1009 [add_r], src/ieee.rs:1070 [sub_r] through [two_sum] *)
Fixpoint c_grow (S : Semantics) (m : Round) (q : Float) (es : list Float) : outcome (list Float) :=
  match es with
  | [] => Ret [q]
  | e :: es =>
    let! '(s, t) := two_sum S q e m in
    let! r := c_grow S m s es in
    Ret (t :: r)
  end.
Fixpoint c_expand (S : Semantics) (m : Round) (es xs : list Float) : outcome (list Float) :=
  match xs with
  | [] => Ret es
  | x :: xs => let! es' := c_grow S m x es in c_expand S m es' xs
  end.
(** the sign of the last component that is not zero *)
Fixpoint leading (es : list Float) : comparison :=
  match es with
  | [] => Eq
  | e :: es => match leading es with Eq => if is_zero e then Eq else if sign e then Lt else Gt | c => c end
  end.
Definition c_sum_sign (S : Semantics) (m : Round) (xs : list Float) : outcome comparison :=
  let! es := c_expand S m [] xs in Ret (leading es).
(** the sign of a dot product; src/ieee.rs:1080 [mul_r], src/ieee.rs:1113 [mul_add_r] through [c_products] *)
Definition c_dot_sign (S : Semantics) (m : Round) (xs : list (Float * Float)) : outcome comparison :=
  let! ps := c_products S m xs in c_sum_sign S m ps.
(** on which side of the line from (ax, ay) to (bx, by) is (cx, cy)? *)
Definition c_orient (S : Semantics) (m : Round) (ax ay bx by' cx cy : Float) : outcome comparison :=
  c_dot_sign S m [(ax, by'); (neg ax, cy); (bx, cy); (neg bx, ay); (cx, ay); (neg cx, by')].

(** ** What is claimed *)
Definition multiple (k : Z) (v : R) : Prop := exists n : Z, v = (IZR n * bpow r2 k)%R.
(** components, the smallest first, that do not overlap: a component is at most half a power of two of which all later ones are multiples *)
Fixpoint separated (vs : list R) : Prop :=
  match vs with
  | [] => True
  | v :: vs => (exists k, (2 * Rabs v <= bpow r2 k)%R /\ (forall w, In w vs -> multiple k w)) /\ separated vs
  end.

Lemma multiple_less : forall k j v, multiple k v -> j <= k -> multiple j v.
Proof.
  intros k j v [n ->] H. exists (n * 2 ^ (k - j)). rewrite mult_IZR, IZR_pow2 by lia. rewrite Rmult_assoc, <- bpow_plus. do 2 f_equal. lia.
Qed.
Lemma multiple_0 : forall k, multiple k 0.
Proof. intros k. exists 0. ring. Qed.
Lemma multiple_plus : forall k v w, multiple k v -> multiple k w -> multiple k (v + w).
Proof. intros k v w [n ->] [l ->]. exists (n + l). rewrite plus_IZR. ring. Qed.
Lemma multiple_minus : forall k v w, multiple k v -> multiple k w -> multiple k (v - w).
Proof. intros k v w [n ->] [l ->]. exists (n - l). rewrite minus_IZR. ring. Qed.
Lemma multiple_large : forall k v, multiple k v -> v <> 0%R -> (bpow r2 k <= Rabs v)%R.
Proof.
  intros k v [n ->] H. assert (n <> 0) by (intros ->; apply H; ring). rewrite Rabs_mult, (Rabs_pos_eq (bpow _ _)) by apply bpow_ge_0.
  rewrite <- abs_IZR. rewrite <- (Rmult_1_l (bpow r2 k)) at 1. apply Rmult_le_compat_r; [apply bpow_ge_0|]. apply IZR_le. lia.
Qed.

Section Expansion.
Variable S : Semantics.
Hypothesis HS : sem_ok S.
Variable m : Round.
Hypothesis NM : nearest m.
Local Instance valid_here : Valid_exp (fexp S) := fexp_valid S HS.
Let u := roundoff S m.
Let g := (1 + 2 * u)%R.

Lemma rounded_multiple : forall k v, multiple k v -> multiple k (rounded S m v).
Proof.
  intros k v [n E]. destruct (Z_le_gt_dec k (cexp r2 (fexp S) v)) as [L|L].
  - apply multiple_less with (2 := L). exists (rnd_of m (scaled_mantissa r2 (fexp S) v)). reflexivity.
  - rewrite rounded_format; [exists n; exact E|]. rewrite E. change (IZR n * bpow r2 k)%R with (F2R (Defs.Float r2 n k)). apply generic_format_F2R.
    intros _. change (F2R (Defs.Float r2 n k)) with (IZR n * bpow r2 k)%R. rewrite <- E. lia.
Qed.
Lemma rounded_unit : forall v, exists k, multiple k (rounded S m v) /\ (2 * Rabs (rounded S m v - v) <= bpow r2 k)%R.
Proof.
  intros v. exists (cexp r2 (fexp S) v). split; [exists (rnd_of m (scaled_mantissa r2 (fexp S) v)); reflexivity|].
  destruct (nearest_choice m NM) as [c [C _]]. destruct (Req_dec v 0) as [->|N].
  - rewrite (rounded_format S m 0 (generic_format_0 _ _)), Rminus_0_r, Rabs_R0, Rmult_0_r. apply bpow_ge_0.
  - pose proof (error_le_half_ulp r2 (fexp S) c v) as H. rewrite ulp_neq_0 in H by exact N. unfold rounded. rewrite C. lra.
Qed.
Lemma rounded_near : forall v w, generic_format r2 (fexp S) w -> (Rabs (rounded S m v - v) <= Rabs (w - v))%R.
Proof.
  intros v w F. destruct (nearest_choice m NM) as [c [C _]]. unfold rounded. rewrite C. exact (proj2 (round_N_pt r2 (fexp S) c v) w F).
Qed.
Lemma u_small : (0 < u)%R. Proof. apply roundoff_pos. Qed.
Lemma g_pow : forall n, (1 <= g ^ n)%R.
Proof. intros n. apply pow_R1_Rle. unfold g. pose proof u_small. lra. Qed.
Lemma g_pow_le : forall n k, (n <= k)%nat -> (g ^ n <= g ^ k)%R.
Proof. intros n k L. apply Rle_pow; [|exact L]. unfold g. pose proof u_small. lra. Qed.

Lemma grow_spec : forall es q, wf S q -> finite q -> numbers S es -> (g ^ length es * (Rabs (value S q) + total_abs S es) <= bpow r2 (MAX_EXP S - 4))%R ->
  exists r, c_grow S m q es = Ret r /\ numbers S r /\ length r = Datatypes.S (length es) /\ total S r = (value S q + total S es)%R /\
    (total_abs S r <= g ^ length es * (Rabs (value S q) + total_abs S es))%R /\
    (forall k, multiple k (value S q) -> (forall w, In w (map (value S) es) -> multiple k w) -> forall w, In w (map (value S) r) -> multiple k w) /\
    (separated (map (value S) es) -> separated (map (value S) r)).
Proof.
  pose proof u_small as U. induction es as [|e es IH]; intros q Wq Fq H L; cbn [c_grow length total total_abs map pow] in *.
  - exists [q]. split; [reflexivity|]. split; [intros x [<-|[]]; split; assumption|]. split; [reflexivity|]. cbn [total total_abs map separated].
    split; [ring|]. split; [lra|]. split; [intros k Mq _ w [<-|[]]; exact Mq|]. intros _. split; [|exact I].
    exists (mag r2 (2 * value S q)). split; [|intros w []].
    pose proof (bpow_mag_gt r2 (2 * value S q)) as B. rewrite Rabs_mult, (Rabs_pos_eq 2) in B by lra. lra.
  - destruct (H e (or_introl eq_refl)) as [We Fe]. assert (H' : numbers S es) by (intros y I; apply H; right; exact I).
    pose proof (total_abs_pos S es) as TP. pose proof (g_pow (length es)) as GN. set (gn := (g ^ length es)%R) in *.
    set (A := Rabs (value S q)) in *. set (E := Rabs (value S e)) in *. set (T := total_abs S es) in *.
    assert (PA : (0 <= A)%R) by apply Rabs_pos. assert (PE : (0 <= E)%R) by apply Rabs_pos.
    assert (G1 : (1 < g)%R) by (unfold g; lra).
    destruct (two_sum_exact S q e m HS NM Wq We Fq Fe) as [s [t [E1 [Ws [Wt [Fs [Ft [Vs Vt]]]]]]]].
    { fold A E. eapply Rle_trans; [|exact L]. assert (1 <= g * gn)%R by nra. assert (0 <= (g * gn - 1) * (A + (E + T)))%R by (apply Rmult_le_pos; lra). lra. }
    pose proof (sum_error S HS m (value S q) (value S e) (value_format S q HS Wq) (value_format S e HS We)) as SE. fold u in SE. rewrite <- Vs in SE.
    replace (value S s - (value S q + value S e))%R with (- value S t)%R in SE by lra. rewrite Rabs_Ropp in SE.
    pose proof (Rabs_triang (value S q) (value S e)) as T1. fold A E in T1.
    set (B := Rabs (value S t)) in *. assert (PB : (0 <= B)%R) by apply Rabs_pos.
    assert (ET : (B <= u * (A + E))%R) by (eapply Rle_trans; [exact SE|]; apply Rmult_le_compat_l; lra).
    assert (ES : (Rabs (value S s) + B <= g * (A + E))%R).
    { replace (value S s) with ((value S q + value S e) + - value S t)%R by lra. pose proof (Rabs_triang (value S q + value S e) (- value S t)) as T2. rewrite Rabs_Ropp in T2. fold B in T2. unfold g. lra. }
    assert (K : (gn * (Rabs (value S s) + B + T) <= g * gn * (A + (E + T)))%R).
    { rewrite (Rmult_comm g gn), Rmult_assoc. apply Rmult_le_compat_l; [lra|]. assert (T <= g * T)%R by nra. lra. }
    assert (K' : (B + gn * (Rabs (value S s) + T) <= gn * (Rabs (value S s) + B + T))%R) by nra.
    assert (K2 : (0 <= gn * (Rabs (value S s) + T))%R) by (apply Rmult_le_pos; [lra|pose proof (Rabs_pos (value S s)); lra]).
    destruct (IH s Ws Fs H') as [r [Er [Nr [Lr [Vr [Ar [Mr Sr]]]]]]]; [fold T; lra|].
    rewrite E1. cbn [bind]. rewrite Er. cbn [bind]. exists (t :: r). split; [reflexivity|]. split; [intros x [<-|I]; [split; assumption|exact (Nr x I)]|].
    split; [cbn [length]; rewrite Lr; reflexivity|]. cbn [total total_abs map]. split; [rewrite Vr; lra|]. split; [fold B; fold T in Ar; lra|]. split.
    + intros k Mq Me. assert (Ms : multiple k (value S s)) by (rewrite Vs; apply rounded_multiple, multiple_plus; [exact Mq|apply Me; left; reflexivity]).
      intros w [<-|I].
      * replace (value S t) with ((value S q + value S e) - value S s)%R by lra. apply multiple_minus; [|exact Ms]. apply multiple_plus; [exact Mq|apply Me; left; reflexivity].
      * apply (Mr k Ms); [|exact I]. intros w' I'. apply Me. right. exact I'.
    + intros [[k0 [B0 M0]] Se]. cbn [separated]. split; [|exact (Sr Se)].
      destruct (rounded_unit (value S q + value S e)) as [k1 [M1 B1]]. pose proof (rounded_near (value S q + value S e) (value S q) (value_format S q HS Wq)) as B2.
      rewrite <- Vs in M1, B1, B2. replace (value S s - (value S q + value S e))%R with (- value S t)%R in B1, B2 by lra. rewrite Rabs_Ropp in B1, B2. fold B in B1, B2.
      replace (value S q - (value S q + value S e))%R with (- value S e)%R in B2 by ring. rewrite Rabs_Ropp in B2. fold E in B0, B2.
      exists (Z.min k0 k1). split.
      * fold B. destruct (Z.min_spec k0 k1) as [[_ ->]|[_ ->]]; lra.
      * apply Mr; [apply multiple_less with (1 := M1); lia|]. intros w I. apply multiple_less with (1 := M0 w I). lia.
Qed.

Lemma expand_spec : forall xs es, numbers S xs -> numbers S es -> separated (map (value S) es) ->
  (g ^ (length xs * (length es + length xs)) * (total_abs S es + total_abs S xs) <= bpow r2 (MAX_EXP S - 4))%R ->
  exists r, c_expand S m es xs = Ret r /\ numbers S r /\ length r = (length es + length xs)%nat /\ total S r = (total S es + total S xs)%R /\ separated (map (value S) r) /\
    (total_abs S r <= g ^ (length xs * (length es + length xs)) * (total_abs S es + total_abs S xs))%R.
Proof.
  induction xs as [|x xs IH]; intros es Nx Ne Se L; cbn [c_expand total total_abs length] in *.
  - exists es. split; [reflexivity|]. split; [exact Ne|]. split; [lia|]. split; [ring|]. split; [exact Se|]. cbn [Nat.mul pow]. lra.
  - destruct (Nx x (or_introl eq_refl)) as [Wx Fx]. assert (Nx' : numbers S xs) by (intros y I; apply Nx; right; exact I).
    pose proof (total_abs_pos S es) as P1. pose proof (total_abs_pos S xs) as P2. pose proof (Rabs_pos (value S x)) as P3.
    set (a := total_abs S es) in *. set (b := total_abs S xs) in *. set (c := Rabs (value S x)) in *. set (l := length es) in *. set (n := length xs) in *.
    pose proof (g_pow l) as G1. pose proof (g_pow (n * (l + 1 + n))) as G2.
    assert (GL : (g ^ l <= g ^ (Datatypes.S n * (l + Datatypes.S n)))%R) by (apply g_pow_le; nia).
    assert (GM : (g ^ (n * (l + 1 + n)) * g ^ l <= g ^ (Datatypes.S n * (l + Datatypes.S n)))%R) by (rewrite <- pow_add; apply g_pow_le; nia).
    destruct (grow_spec es x Wx Fx Ne) as [r [Er [Nr [Lr [Vr [Ar [_ Sr]]]]]]].
    { fold a c l. eapply Rle_trans; [|exact L]. apply Rmult_le_compat; lra. }
    rewrite Er. cbn [bind]. fold a c l in Ar. fold l in Lr.
    assert (KB : (g ^ (n * (l + 1 + n)) * (total_abs S r + b) <= g ^ (Datatypes.S n * (l + Datatypes.S n)) * (a + (c + b)))%R).
    { apply Rle_trans with (g ^ (n * (l + 1 + n)) * (g ^ l * (a + (c + b))))%R.
      - apply Rmult_le_compat_l; [lra|]. assert (b <= g ^ l * b)%R by nra. lra.
      - rewrite <- Rmult_assoc. apply Rmult_le_compat_r; [lra|exact GM]. }
    destruct (IH r Nx' Nr (Sr Se)) as [r' [Er' [Nr' [Lr' [Vr' [Sr' Ar']]]]]].
    { fold b n. rewrite Lr. replace (n * (Datatypes.S l + n))%nat with (n * (l + 1 + n))%nat by lia. eapply Rle_trans; [exact KB|exact L]. }
    exists r'. split; [exact Er'|]. split; [exact Nr'|]. split; [rewrite Lr', Lr; lia|]. split; [rewrite Vr', Vr; ring|]. split; [exact Sr'|].
    fold b n in Ar'. rewrite Lr in Ar'. replace (n * (Datatypes.S l + n))%nat with (n * (l + 1 + n))%nat in Ar' by lia. lra.
Qed.
Theorem expand_exact : forall xs, numbers S xs -> (g ^ (length xs * length xs) * total_abs S xs <= bpow r2 (MAX_EXP S - 4))%R ->
  exists r, c_expand S m [] xs = Ret r /\ numbers S r /\ length r = length xs /\ total S r = total S xs /\ separated (map (value S) r).
Proof.
  intros xs N L. destruct (expand_spec xs [] N) as [r [E [Nr [Lr [Vr [Sr _]]]]]]; [intros x []|exact I|cbn [length total_abs Nat.add]; rewrite Rplus_0_l; exact L|].
  exists r. split; [exact E|]. split; [exact Nr|]. split; [exact Lr|]. split; [cbn [total] in Vr; lra|exact Sr].
Qed.

Lemma total_multiple : forall k es, (forall w, In w (map (value S) es) -> multiple k w) -> multiple k (total S es).
Proof.
  intros k es. induction es as [|e es IH]; intros H; cbn [total]; [apply multiple_0|]. apply multiple_plus; [apply H; left; reflexivity|]. apply IH. intros w I. apply H. right. exact I.
Qed.
Lemma leading_spec : forall es, numbers S es -> separated (map (value S) es) -> leading es = Rcompare (total S es) 0.
Proof.
  induction es as [|e es IH]; intros N H; cbn [leading total map separated] in *; [symmetry; apply Rcompare_Eq; reflexivity|].
  destruct H as [[k [B M]] H]. destruct (N e (or_introl eq_refl)) as [We Fe]. rewrite IH; [|intros y I; apply N; right; exact I|exact H].
  pose proof (total_multiple k es M) as MT. pose proof (Rabs_pos (value S e)) as P. pose proof (Rle_abs (value S e)) as P1. pose proof (Rle_abs (- value S e)) as P2. rewrite Rabs_Ropp in P2.
  pose proof (bpow_gt_0 r2 k) as Pk. destruct (Rcompare_spec (total S es) 0) as [C|C|C].
  - pose proof (multiple_large k _ MT ltac:(lra)) as Q. rewrite Rabs_left in Q by lra. symmetry. apply Rcompare_Lt. lra.
  - rewrite C, Rplus_0_r. unfold is_zero. destruct Fe as [Ce|Ce]; rewrite Ce; cbn [category_eqb].
    + pose proof (normal_sign S e We Ce) as Q. destruct (sign e); symmetry; [apply Rcompare_Lt|apply Rcompare_Gt]; exact Q.
    + unfold value. rewrite Ce. symmetry. apply Rcompare_Eq. reflexivity.
  - pose proof (multiple_large k _ MT ltac:(lra)) as Q. rewrite Rabs_pos_eq in Q by lra. symmetry. apply Rcompare_Gt. lra.
Qed.
Theorem sum_sign : forall xs, numbers S xs -> (g ^ (length xs * length xs) * total_abs S xs <= bpow r2 (MAX_EXP S - 4))%R ->
  c_sum_sign S m xs = Ret (Rcompare (total S xs) 0).
Proof.
  intros xs N L. destruct (expand_exact xs N L) as [r [E [Nr [_ [Vr Sr]]]]]. unfold c_sum_sign. rewrite E. cbn [bind]. rewrite (leading_spec r Nr Sr), Vr. reflexivity.
Qed.

Theorem dot_sign : forall xs, factors S xs -> (g ^ (4 * (length xs * length xs) + 1) * inner_abs S xs <= bpow r2 (MAX_EXP S - 4))%R ->
  c_dot_sign S m xs = Ret (Rcompare (inner S xs) 0).
Proof.
  intros xs H L. pose proof u_small as U.
  assert (T0 : (0 <= inner_abs S xs)%R).
  { clear. induction xs as [|[x y] xs IH]; cbn [inner_abs]; [lra|]. pose proof (Rabs_pos (value S x * value S y)). lra. }
  rewrite pow_add, pow_1 in L. pose proof (g_pow (4 * (length xs * length xs))) as G. set (gn := (g ^ (4 * (length xs * length xs)))%R) in *.
  assert (T1 : (g * inner_abs S xs <= bpow r2 (MAX_EXP S - 4))%R).
  { eapply Rle_trans; [|exact L]. rewrite Rmult_assoc. assert (0 <= g * inner_abs S xs)%R by (apply Rmult_le_pos; [unfold g; lra|exact T0]).
    assert (0 <= (gn - 1) * (g * inner_abs S xs))%R by (apply Rmult_le_pos; lra). lra. }
  destruct (products_kept S HS m xs H) as [ps [E [N [LN [T A]]]]].
  { eapply Rle_trans; [|exact T1]. apply Rmult_le_compat_r; [exact T0|]. unfold g. fold u. lra. }
  unfold c_dot_sign. rewrite E. cbn [bind]. rewrite <- T. apply sum_sign; [exact N|]. rewrite LN.
  replace (2 * length xs * (2 * length xs))%nat with (4 * (length xs * length xs))%nat by lia. fold gn. eapply Rle_trans; [|exact L].
  rewrite Rmult_assoc. apply Rmult_le_compat_l; [lra|]. exact A.
Qed.
Theorem orient_sign : forall ax ay bx by' cx cy,
  factors S [(ax, by'); (neg ax, cy); (bx, cy); (neg bx, ay); (cx, ay); (neg cx, by')] ->
  (g ^ 145 * inner_abs S [(ax, by'); (neg ax, cy); (bx, cy); (neg bx, ay); (cx, ay); (neg cx, by')] <= bpow r2 (MAX_EXP S - 4))%R ->
  c_orient S m ax ay bx by' cx cy = Ret (Rcompare ((value S bx - value S ax) * (value S cy - value S ay) - (value S by' - value S ay) * (value S cx - value S ax)) 0).
Proof.
  intros ax ay bx by' cx cy H L. unfold c_orient. rewrite (dot_sign _ H L). do 2 f_equal. cbn [inner]. rewrite !value_neg. ring.
Qed.
End Expansion.

(** neither a plain sum nor the directed modes can do this *)
Definition h_m22 : Float := mkFloat 4 (-14) Normal true.
Lemma directed_sign_refuted : exists xs, numbers HalfS xs /\ (total HalfS xs < 0)%R /\ (total_abs HalfS xs <= 3)%R /\ c_sum_sign HalfS TowardPositive xs = Ret Gt.
Proof.
  exists [h_one; h_min; neg h_one; h_m22]. split; [|split; [|split]].
  - intros x [<-|[<-|[<-|[<-|[]]]]]; split; try (left; reflexivity); [exact h_one_wf|unfold h_min; sample_wf|unfold h_one; cbn; sample_wf|unfold h_m22; sample_wf].
  - unfold total, value; cbn; lra.
  - unfold total_abs, value; cbn. rewrite !Rabs_pos_eq, !Rabs_left by lra. lra.
  - vm_compute. reflexivity.
Qed.
