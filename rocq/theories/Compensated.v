(** * Compensated.v -- compensated sums: the errors of the additions are added up as well *)
From Coq Require Import ZArith Reals List Bool Lia Lra Psatz.
From Flocq Require Import Core.
From Verif Require Import Machine Ieee Spec Norm Arith Special Int Fma Algebra Laws Total Eft SpecPrograms SpecExpr Expr Sum Orderx ExprError.
Import ListNotations.
Local Open Scope Z_scope.
Ltac Zify.zify_post_hook ::= idtac.

(** a client of src/ieee.rs:1009 [add_r] and src/lib.rs:302 [sub_r] (Ogita, Rump, Oishi): the sum and,
    separately, the sum of the errors *)
Fixpoint c_errors (S : Semantics) (m : Round) (acc comp : Float) (xs : list Float) : outcome (Float * Float) :=
  match xs with
  | [] => Ret (acc, comp)
  | x :: xs =>
    let! '(s, t) := two_sum S acc x m in
    let! '(_, c) := add_r S comp t m in
    c_errors S m s c xs
  end.
Definition c_sum2 (S : Semantics) (m : Round) (acc : Float) (xs : list Float) : outcome Float :=
  let! '(s, c) := c_errors S m acc (ZERO S) xs in
  let! '(_, r) := add_r S s c m in
  Ret r.

Section Sum2.
Variable S : Semantics.
Hypothesis HS : sem_ok S.
Variable m : Round.
Hypothesis NM : nearest m.
Let u := roundoff S m.
Let g := (1 + u)%R.
Lemma u_pos : (0 < u)%R. Proof. apply roundoff_pos. Qed.
Lemma g_ge : (1 < g)%R. Proof. unfold g. pose proof u_pos. lra. Qed.
Lemma top_max : (bpow r2 (MAX_EXP S - 4) <= max_finite S)%R.
Proof. apply bpow_max; [exact HS|lia]. Qed.
Lemma add_near : forall x y, wf S x -> wf S y -> finite x -> finite y -> (g * (Rabs (value S x) + Rabs (value S y)) <= bpow r2 (MAX_EXP S - 4))%R ->
  exists st r, add_r S x y m = Ret (st, r) /\ wf S r /\ finite r /\
    (Rabs (value S r - (value S x + value S y)) <= u * Rabs (value S x + value S y))%R.
Proof.
  intros x y Wx Wy Fx Fy L. pose proof (sum_error S HS m (value S x) (value S y) (value_format S x HS Wx) (value_format S y HS Wy)) as E. fold u in E.
  destruct (Eft.in_range S m _ _ _ (add_r_crate S x y m HS Wx Wy Fx Fy)) as [st [r [E1 [Wr [Fr Vr]]]]].
  - set (v := (value S x + value S y)%R) in *. pose proof (Rabs_triang (rounded S m v - v) v) as T. replace (rounded S m v - v + v)%R with (rounded S m v) in T by ring.
    pose proof (Rabs_triang (value S x) (value S y)) as T2. fold v in T2. pose proof u_pos as U. pose proof top_max as M.
    assert (u * Rabs v <= u * (Rabs (value S x) + Rabs (value S y)))%R by (apply Rmult_le_compat_l; lra). unfold g in L. lra.
  - exists st, r. rewrite Vr. exact (conj E1 (conj Wr (conj Fr E))).
Qed.
(** what the loop does: [e] is the sum of the errors of the additions, [b] that of their absolute values *)
Lemma errors_kept : forall xs acc comp, wf S acc -> finite acc -> wf S comp -> finite comp -> numbers S xs ->
  let n := length xs in let t := (Rabs (value S acc) + total_abs S xs)%R in
  (g ^ n * t <= bpow r2 (MAX_EXP S - 4))%R -> (g ^ n * (Rabs (value S comp) + (g ^ n - 1) * t) <= bpow r2 (MAX_EXP S - 4))%R ->
  exists s c e b, c_errors S m acc comp xs = Ret (s, c) /\ wf S s /\ finite s /\ wf S c /\ finite c /\
    (value S s + e = value S acc + total S xs)%R /\ (Rabs (value S s) <= g ^ n * t)%R /\
    (Rabs e <= b)%R /\ (b <= (g ^ n - 1) * t)%R /\
    (Rabs (value S c - (value S comp + e)) <= (g ^ n - 1) * (Rabs (value S comp) + b))%R.
Proof.
  pose proof u_pos as U. pose proof g_ge as G.
  induction xs as [|x xs IH]; intros acc comp Wa Fa Wc Fc H; cbn [c_errors total total_abs length pow]; cbv zeta; intros L1 L2.
  - exists acc, comp, 0%R, 0%R. split; [reflexivity|]. split; [exact Wa|]. split; [exact Fa|]. split; [exact Wc|]. split; [exact Fc|].
    rewrite Rabs_R0. replace (value S comp - (value S comp + 0))%R with 0%R by ring. rewrite Rabs_R0. repeat split; lra.
  - destruct (H x (or_introl eq_refl)) as [Wx Fx]. assert (H' : numbers S xs) by (intros y I; apply H; right; exact I).
    pose proof (total_abs_pos S xs) as TP. pose proof (growth_ge_1 S m (length xs)) as GN. fold u g in GN.
    set (gn := (g ^ length xs)%R) in *. set (A := Rabs (value S acc)) in *. set (X := Rabs (value S x)) in *. set (T := total_abs S xs) in *. set (C := Rabs (value S comp)) in *.
    assert (PA : (0 <= A)%R) by apply Rabs_pos. assert (PX : (0 <= X)%R) by apply Rabs_pos. assert (PC : (0 <= C)%R) by apply Rabs_pos.
    assert (GG : (1 <= g * gn)%R) by nra.
    destruct (two_sum_exact S acc x m HS NM Wa Wx Fa Fx) as [s [t [E [Ws [Wt [Fs [Ft [Vs Vt]]]]]]]].
    { fold A X. eapply Rle_trans; [|exact L1]. assert (0 <= (g * gn - 1) * (A + (X + T)))%R by (apply Rmult_le_pos; lra). lra. }
    pose proof (sum_error S HS m (value S acc) (value S x) (value_format S acc HS Wa) (value_format S x HS Wx)) as SE. fold u in SE. rewrite <- Vs in SE.
    replace (value S s - (value S acc + value S x))%R with (- value S t)%R in SE by lra. rewrite Rabs_Ropp in SE.
    pose proof (Rabs_triang (value S acc) (value S x)) as T1. fold A X in T1.
    assert (ET : (Rabs (value S t) <= u * (A + X))%R) by (eapply Rle_trans; [exact SE|]; apply Rmult_le_compat_l; lra).
    assert (ES : (Rabs (value S s) <= g * (A + X))%R).
    { replace (value S s) with ((value S acc + value S x) + - value S t)%R by lra. eapply Rle_trans; [apply Rabs_triang|]. rewrite Rabs_Ropp. unfold g. lra. }
    set (E1 := Rabs (value S t)) in *. assert (PE : (0 <= E1)%R) by apply Rabs_pos.
    (* the errors so far and those to come *)
    assert (K : (E1 + (gn - 1) * (Rabs (value S s) + T) <= (g * gn - 1) * (A + (X + T)))%R).
    { assert ((gn - 1) * (Rabs (value S s) + T) <= (gn - 1) * (g * (A + X) + T))%R by (apply Rmult_le_compat_l; lra).
      assert (0 <= u * gn * T)%R by (apply Rmult_le_pos; [apply Rmult_le_pos; lra|lra]). unfold g in *. lra. }
    assert (PS : (0 <= (gn - 1) * (Rabs (value S s) + T))%R) by (apply Rmult_le_pos; [lra|pose proof (Rabs_pos (value S s)); lra]).
    assert (L3 : (gn * (g * (C + E1) + (gn - 1) * (Rabs (value S s) + T)) <= bpow r2 (MAX_EXP S - 4))%R).
    { eapply Rle_trans; [|exact L2]. rewrite (Rmult_comm g gn) at 1. rewrite Rmult_assoc. apply Rmult_le_compat_l; [lra|].
      assert ((gn - 1) * (Rabs (value S s) + T) <= g * ((gn - 1) * (Rabs (value S s) + T)))%R by nra.
      assert (g * (E1 + (gn - 1) * (Rabs (value S s) + T)) <= g * ((g * gn - 1) * (A + (X + T))))%R by (apply Rmult_le_compat_l; lra). lra. }
    destruct (add_near comp t Wc Wt Fc Ft) as [st [c [E2 [Wr [Fr Vr]]]]].
    { fold C E1. eapply Rle_trans; [|exact L3]. assert (0 <= (gn - 1) * (g * (C + E1)))%R by (apply Rmult_le_pos; [lra|apply Rmult_le_pos; lra]).
      assert (0 <= gn * ((gn - 1) * (Rabs (value S s) + T)))%R by (apply Rmult_le_pos; lra). lra. }
    rewrite E. cbn [bind]. rewrite E2. cbn [bind].
    assert (EC : (Rabs (value S c) <= g * (C + E1))%R).
    { pose proof (Rabs_triang (value S comp) (value S t)) as T2. fold C E1 in T2.
      replace (value S c) with ((value S c - (value S comp + value S t)) + (value S comp + value S t))%R by ring. eapply Rle_trans; [apply Rabs_triang|].
      assert (u * Rabs (value S comp + value S t) <= u * (C + E1))%R by (apply Rmult_le_compat_l; lra). unfold g. lra. }
    destruct (IH s c Ws Fs Wr Fr H') as [s' [c' [e [b [E3 [W1 [F1 [W2 [F2 [V1 [V2 [B1 [B2 B3]]]]]]]]]]]]].
    { fold gn T. eapply Rle_trans; [|exact L1]. assert (gn * (Rabs (value S s) + T) <= gn * (g * (A + X) + T))%R by (apply Rmult_le_compat_l; lra).
      assert (0 <= u * gn * T)%R by (apply Rmult_le_pos; [apply Rmult_le_pos; lra|lra]). unfold g in *. lra. }
    { fold gn T. eapply Rle_trans; [|exact L3]. apply Rmult_le_compat_l; lra. }
    fold gn T in B2, B3, V2. exists s', c', (value S t + e)%R, (E1 + b)%R. rewrite E3. split; [reflexivity|]. split; [exact W1|]. split; [exact F1|]. split; [exact W2|]. split; [exact F2|].
    split; [lra|]. split.
    { eapply Rle_trans; [exact V2|]. assert (gn * (Rabs (value S s) + T) <= gn * (g * (A + X) + T))%R by (apply Rmult_le_compat_l; lra).
      assert (0 <= u * gn * T)%R by (apply Rmult_le_pos; [apply Rmult_le_pos; lra|lra]). unfold g in *. lra. }
    split; [eapply Rle_trans; [apply Rabs_triang|]; fold E1; lra|]. split; [lra|].
    assert (PB : (0 <= b)%R) by (pose proof (Rabs_pos e); lra). unfold g. unfold C, E1. eapply bound_step; eassumption.
Qed.
Theorem sum2_error : forall xs acc, wf S acc -> finite acc -> numbers S xs ->
  let n := length xs in let t := (Rabs (value S acc) + total_abs S xs)%R in let v := (value S acc + total S xs)%R in
  (g ^ (2 * n + 1) * t <= bpow r2 (MAX_EXP S - 4))%R ->
  exists r, c_sum2 S m acc xs = Ret r /\ wf S r /\ finite r /\
    (Rabs (value S r - v) <= u * Rabs v + g * (g ^ n - 1) ^ 2 * t)%R.
Proof.
  intros xs acc Wa Fa H n t v L. pose proof u_pos as U. pose proof g_ge as G. pose proof (growth_ge_1 S m n) as GN. fold u g in GN.
  assert (T0 : (0 <= t)%R) by (unfold t; pose proof (Rabs_pos (value S acc)); pose proof (total_abs_pos S xs); lra).
  assert (P : (g ^ (2 * n + 1) = g * (g ^ n * g ^ n))%R) by (replace (2 * n + 1)%nat with (1 + n + n)%nat by lia; rewrite !pow_add; cbn [pow]; ring). rewrite P in L.
  set (gn := (g ^ n)%R) in *.
  assert (GG : (gn <= gn * gn)%R) by nra. assert (GGT : (gn * gn * t <= g * (gn * gn) * t)%R) by (apply Rmult_le_compat_r; nra).
  assert (GT : (gn * t <= gn * gn * t)%R) by (apply Rmult_le_compat_r; lra).
  assert (GP : (0 <= gn * t)%R) by (apply Rmult_le_pos; lra).
  assert (ZZ : wf S (ZERO S)) by (apply (constants_spec S HS)). assert (VZ : value S (ZERO S) = 0%R) by (apply value_zero; reflexivity).
  destruct (errors_kept xs acc (ZERO S) Wa Fa ZZ (or_intror eq_refl) H) as [s [c [e [b [E [Ws [Fs [Wc [Fc [V1 [V2 [B1 [B2 B3]]]]]]]]]]]]].
  { fold n t gn. lra. }
  { fold n t gn. rewrite VZ, Rabs_R0, Rplus_0_l. lra. }
  fold n t gn in V2, B2, B3. rewrite VZ, Rabs_R0, !Rplus_0_l in B3. fold v in V1.
  assert (B4 : (Rabs (value S c - e) <= (gn - 1) * ((gn - 1) * t))%R) by (eapply Rle_trans; [exact B3|]; apply Rmult_le_compat_l; lra).
  assert (B5 : (Rabs (value S c) <= gn * ((gn - 1) * t))%R).
  { replace (value S c) with ((value S c - e) + e)%R by ring. eapply Rle_trans; [apply Rabs_triang|]. lra. }
  destruct (add_near s c Ws Wc Fs Fc) as [st [r [E2 [Wr [Fr Vr]]]]].
  { eapply Rle_trans; [|exact L]. rewrite !Rmult_assoc. apply Rmult_le_compat_l; [lra|]. lra. }
  exists r. unfold c_sum2. rewrite E. cbn [bind]. rewrite E2. cbn [bind]. split; [reflexivity|]. split; [exact Wr|]. split; [exact Fr|].
  set (w := (value S s + value S c)%R) in *.
  assert (D : (Rabs (w - v) <= (gn - 1) * ((gn - 1) * t))%R) by (replace (w - v)%R with (value S c - e)%R by (unfold w; lra); exact B4).
  assert (D2 : (Rabs w <= Rabs v + (gn - 1) * ((gn - 1) * t))%R) by (replace w with (v + (w - v))%R by ring; eapply Rle_trans; [apply Rabs_triang|]; lra).
  replace (value S r - v)%R with ((value S r - w) + (w - v))%R by ring. eapply Rle_trans; [apply Rabs_triang|].
  assert (u * Rabs w <= u * (Rabs v + (gn - 1) * ((gn - 1) * t)))%R by (apply Rmult_le_compat_l; lra).
  unfold g in *. cbn [pow]. rewrite Rmult_1_r. lra.
Qed.
End Sum2.

(** ** Dot products *)
(** a client of src/ieee.rs:1080 [mul_r] and src/ieee.rs:1113 [mul_add_r]: the products and their errors *)
Fixpoint c_products (S : Semantics) (m : Round) (xs : list (Float * Float)) : outcome (list Float) :=
  match xs with
  | [] => Ret []
  | (x, y) :: xs =>
    let! '(_, p) := mul_r S x y m in
    let! '(_, e) := mul_add_r S x y (neg p) m in
    let! ps := c_products S m xs in
    Ret (p :: e :: ps)
  end.
Definition c_dot2 (S : Semantics) (m : Round) (xs : list (Float * Float)) : outcome Float :=
  let! ps := c_products S m xs in
  c_sum2 S m (ZERO S) ps.
(** what is claimed: the exact dot product, and that of the absolute values *)
Fixpoint inner (S : Semantics) (xs : list (Float * Float)) : R :=
  match xs with [] => 0%R | (x, y) :: xs => (value S x * value S y + inner S xs)%R end.
Fixpoint inner_abs (S : Semantics) (xs : list (Float * Float)) : R :=
  match xs with [] => 0%R | (x, y) :: xs => (Rabs (value S x * value S y) + inner_abs S xs)%R end.
(** operands are finite and products do not underflow *)
Definition factors (S : Semantics) (xs : list (Float * Float)) : Prop :=
  forall x y, In (x, y) xs -> wf S x /\ wf S y /\ finite x /\ finite y /\
    (value S x * value S y = 0 \/ bpow r2 (MIN_EXP S + PRECISION S) <= Rabs (value S x * value S y))%R.

Section Dot2.
Variable S : Semantics.
Hypothesis HS : sem_ok S.
Variable m : Round.
Hypothesis NM : nearest m.
Let u := roundoff S m.
Let g := (1 + u)%R.
Lemma product_parts : forall x y, wf S x -> wf S y -> finite x -> finite y ->
  (value S x * value S y = 0 \/ bpow r2 (MIN_EXP S + PRECISION S) <= Rabs (value S x * value S y))%R ->
  (g * Rabs (value S x * value S y) <= bpow r2 (MAX_EXP S - 4))%R ->
  exists st p st' e, mul_r S x y m = Ret (st, p) /\ mul_add_r S x y (neg p) m = Ret (st', e) /\
    wf S p /\ finite p /\ wf S e /\ finite e /\ (value S p + value S e = value S x * value S y)%R /\
    (Rabs (value S p) + Rabs (value S e) <= (1 + 2 * u) * Rabs (value S x * value S y))%R.
Proof.
  intros x y Wx Wy Fx Fy C L. pose proof (u_pos S m) as U. fold u in U. set (v := (value S x * value S y)%R) in *.
  assert (RE : (Rabs (rounded S m v - v) <= u * Rabs v)%R).
  { destruct C as [C|C].
    - rewrite C, rounded_0, Rabs_R0. replace (0 - 0)%R with 0%R by ring. rewrite Rabs_R0. lra.
    - apply normal_error; [exact HS|]. eapply Rle_trans; [|exact C]. unfold min_normal. apply bpow_le. pose proof (ok_prec S HS). lia. }
  assert (RM : (Rabs (rounded S m v) <= g * Rabs v)%R).
  { replace (rounded S m v) with ((rounded S m v - v) + v)%R by ring. eapply Rle_trans; [apply Rabs_triang|]. unfold g. lra. }
  assert (MX : (Rabs (rounded S m v) <= max_finite S)%R) by (pose proof (top_max S HS); lra).
  destruct (Eft.in_range S m _ _ _ (mul_r_crate S x y m HS Wx Wy Fx Fy) MX) as [st [p [E [Wp [Fp Vp]]]]]. fold v in Vp.
  assert (K : exists e, mul_add_r S x y (neg p) m = Ret (OK, e) /\ wf S e /\ finite e /\ (value S p + value S e = v)%R).
  { destruct C as [C|C].
    - assert (V0 : value S p = 0%R) by (rewrite Vp, C; apply rounded_0).
      assert (CZ : category (neg p) = Zero).
      { destruct Fp as [N|Z0]; [|exact Z0]. exfalso. apply (Algebra.normal_nonzero S p Wp N). exact V0. }
      destruct (exactly S m (value S x * value S y + value S (neg p)) (fma_zero_sign (xorb (sign x) (sign y)) (neg p) m) (mul_add_r S x y (neg p) m) HS)
        as [e [Ee [We [Fe Ve]]]].
      + fold v. rewrite value_neg, V0, C. replace (0 + - 0)%R with 0%R by ring. split; [apply generic_format_0|]. rewrite Rabs_R0. pose proof (max_finite_pos S HS). lra.
      + apply mul_add_r_crate; try assumption; try (apply wf_neg; exact Wp); try (apply finite_neg; exact Fp). right. left. exact CZ.
      + exists e. rewrite Ve, value_neg. fold v. split; [exact Ee|]. split; [exact We|]. split; [exact Fe|]. ring.
    - destruct (two_product S x y m m HS Wx Wy Fx Fy C MX) as [st2 [p2 [e [E2 [_ [_ [E3 [We [Fe V]]]]]]]]].
      rewrite E in E2. inversion E2; subst. exists e. auto. }
  destruct K as [e [Ee [We [Fe V]]]]. exists st, p, OK, e. repeat (split; [assumption|]).
  replace (value S e) with (- (rounded S m v - v))%R by lra. rewrite Rabs_Ropp, Vp. unfold g in *. lra.
Qed.
Lemma products_kept : forall xs, factors S xs -> (g * inner_abs S xs <= bpow r2 (MAX_EXP S - 4))%R ->
  exists ps, c_products S m xs = Ret ps /\ numbers S ps /\ length ps = (2 * length xs)%nat /\ total S ps = inner S xs /\
    (total_abs S ps <= (1 + 2 * u) * inner_abs S xs)%R.
Proof.
  pose proof (u_pos S m) as U. fold u in U. assert (G : (1 < g)%R) by (unfold g; lra).
  assert (DP : forall xs, (0 <= inner_abs S xs)%R).
  { induction xs as [|[x y] xs IH]; cbn [inner_abs]; [lra|]. pose proof (Rabs_pos (value S x * value S y)). lra. }
  induction xs as [|[x y] xs IH]; intros H L; cbn [c_products inner inner_abs length].
  - exists []. split; [reflexivity|]. split; [intros ? []|]. split; [reflexivity|]. split; [reflexivity|]. cbn. lra.
  - cbn [inner_abs] in L. pose proof (DP xs) as D. pose proof (Rabs_pos (value S x * value S y)) as D2.
    destruct (H x y (or_introl eq_refl)) as [Wx [Wy [Fx [Fy C]]]].
    destruct (product_parts x y Wx Wy Fx Fy C) as [st [p [st' [e [E1 [E2 [Wp [Fp [We [Fe [V B]]]]]]]]]]]; [nra|].
    destruct IH as [ps [E3 [N [LN [T A]]]]]; [intros a b I; apply H; right; exact I|nra|].
    rewrite E1. cbn [bind]. rewrite E2. cbn [bind]. rewrite E3. cbn [bind]. exists (p :: e :: ps). split; [reflexivity|].
    split; [intros z [<-|[<-|I]]; [auto|auto|apply N; exact I]|]. split; [cbn [length]; lia|]. split; [cbn [total]; lra|]. cbn [total_abs]. lra.
Qed.
Theorem dot2_error : forall xs, factors S xs ->
  let n := length xs in let t := ((1 + 2 * u) * inner_abs S xs)%R in
  (g ^ (4 * n + 1) * t <= bpow r2 (MAX_EXP S - 4))%R ->
  exists r, c_dot2 S m xs = Ret r /\ wf S r /\ finite r /\
    (Rabs (value S r - inner S xs) <= u * Rabs (inner S xs) + g * (g ^ (2 * n) - 1) ^ 2 * t)%R.
Proof.
  intros xs H n t L. pose proof (u_pos S m) as U. fold u in U. assert (G : (1 < g)%R) by (unfold g; lra).
  assert (T0 : (0 <= inner_abs S xs)%R).
  { clear. induction xs as [|[x y] xs IH]; cbn [inner_abs]; [lra|]. pose proof (Rabs_pos (value S x * value S y)). lra. }
  pose proof (growth_ge_1 S m (4 * n)) as G4. fold u g in G4.
  destruct (products_kept xs H) as [ps [E [N [LN [T A]]]]].
  { eapply Rle_trans; [|exact L]. unfold t. rewrite pow_add, pow_1. set (g4 := (g ^ (4 * n))%R) in *.
    assert (0 <= (g4 - 1) * (g * inner_abs S xs))%R by (apply Rmult_le_pos; [lra|apply Rmult_le_pos; lra]).
    assert (0 <= g4 * g * (2 * u * inner_abs S xs))%R by (apply Rmult_le_pos; [apply Rmult_le_pos; lra|apply Rmult_le_pos; lra]). lra. }
  assert (VZ : value S (ZERO S) = 0%R) by (apply value_zero; reflexivity).
  fold t in A. fold n in LN.
  destruct (sum2_error S HS m NM ps (ZERO S)) as [r [E2 [Wr [Fr V]]]].
  - apply (constants_spec S HS).
  - right. reflexivity.
  - exact N.
  - rewrite VZ, Rabs_R0, Rplus_0_l, LN. fold u g. replace (2 * (2 * n) + 1)%nat with (4 * n + 1)%nat by lia. eapply Rle_trans; [|exact L].
    apply Rmult_le_compat_l; [apply pow_le; lra|exact A].
  - exists r. unfold c_dot2. rewrite E. cbn [bind]. split; [exact E2|]. split; [exact Wr|]. split; [exact Fr|].
    rewrite VZ, Rabs_R0, !Rplus_0_l, LN, T in V. fold u g in V. eapply Rle_trans; [exact V|]. apply Rplus_le_compat_l. apply Rmult_le_compat_l; [|exact A].
    apply Rmult_le_pos; [lra|]. apply pow2_ge_0.
Qed.
End Dot2.
