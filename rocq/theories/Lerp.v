(** * Lerp.v -- clients that interpolate between two numbers *)
From Coq Require Import ZArith Reals List Bool Lia Lra.
From Flocq Require Import Core.
From Verif Require Import Machine Ieee Spec Norm Arith Int Algebra Laws Total Eft Order Orderx Samples.
Import ListNotations.
Local Open Scope Z_scope.
Ltac Zify.zify_post_hook ::= idtac.

(** a + t * (b - a); src/ieee.rs:1009 [add_r], src/ieee.rs:1070 [sub_r], src/ieee.rs:1080 [mul_r] *)
Definition c_lerp (S : Semantics) (m : Round) (a b t : Float) : outcome Float :=
  let! '(_, d) := sub_r S b a m in
  let! '(_, p) := mul_r S t d m in
  let! '(_, r) := add_r S a p m in
  Ret r.
(** (1 - t) * a + t * b, the same operations; [one] is the number 1 *)
Definition c_blend (S : Semantics) (m : Round) (one a b t : Float) : outcome Float :=
  let! '(_, u) := sub_r S one t m in
  let! '(_, p) := mul_r S u a m in
  let! '(_, q) := mul_r S t b m in
  let! '(_, r) := add_r S p q m in
  Ret r.

Section Lerp.
Variable S : Semantics.
Hypothesis HS : sem_ok S.
Variable m : Round.
Local Notation top := (bpow r2 (MAX_EXP S - 2)).
Local Notation R := (rounded S m).

Lemma rounded_pow : forall v e, MIN_EXP S - (PRECISION S - 1) <= e -> (Rabs v <= bpow r2 e)%R -> (Rabs (R v) <= bpow r2 e)%R.
Proof.
  intros v e He H. pose proof (ok_prec S HS). unfold rounded. apply abs_round_le_generic; [apply fexp_valid; exact HS|apply valid_rnd_of| |exact H].
  apply generic_format_bpow. unfold fexp, FLT_exp. lia.
Qed.
Lemma double_top : bpow r2 (MAX_EXP S - 1) = (2 * top)%R.
Proof. replace (MAX_EXP S - 1) with (MAX_EXP S - 2 + 1) by lia. rewrite bpow_plus. change (bpow r2 1) with 2%R. ring. Qed.
Lemma top_max : (4 * top <= max_finite S)%R.
Proof.
  apply Rle_trans with (bpow r2 (MAX_EXP S - 0)); [|apply bpow_max; [exact HS|lia]].
  replace (MAX_EXP S - 0) with (MAX_EXP S - 2 + 2) by lia. rewrite bpow_plus. change (bpow r2 2) with 4%R. lra.
Qed.
Lemma low_exp : MIN_EXP S - (PRECISION S - 1) <= MAX_EXP S - 1.
Proof. pose proof (ok_prec S HS). pose proof (ok_min S HS). pose proof (ok_max S HS). lia. Qed.

(** what the first client computes *)
Lemma lerp_value : forall a b t, wf S a -> wf S b -> wf S t -> finite a -> finite b -> finite t ->
  (Rabs (value S a) <= top)%R -> (Rabs (value S b) <= top)%R -> (0 <= value S t <= 1)%R ->
  exists r, c_lerp S m a b t = Ret r /\ wf S r /\ finite r /\
    value S r = R (value S a + R (value S t * R (value S b - value S a))).
Proof.
  intros a b t Wa Wb Wt Fa Fb Ft Ba Bb Bt. pose proof top_max as TM. pose proof double_top as D2. pose proof (bpow_gt_0 r2 (MAX_EXP S - 2)) as T0. pose proof low_exp as LE.
  assert (B1 : (Rabs (value S b - value S a) <= bpow r2 (MAX_EXP S - 1))%R).
  { pose proof (Rabs_triang (value S b) (- value S a)). rewrite Rabs_Ropp in H. unfold Rminus. lra. }
  pose proof (rounded_pow _ _ LE B1) as B2. set (d' := R (value S b - value S a)) in *.
  assert (B3 : (Rabs (value S t * d') <= bpow r2 (MAX_EXP S - 1))%R).
  { rewrite Rabs_mult, (Rabs_pos_eq (value S t)) by lra. pose proof (Rabs_pos d'). apply Rle_trans with (1 * Rabs d')%R; [apply Rmult_le_compat_r; lra|lra]. }
  pose proof (rounded_pow _ _ LE B3) as B4. set (p' := R (value S t * d')) in *.
  unfold c_lerp.
  pose proof (sub_r_crate S b a m HS Wb Wa Fb Fa) as C1. apply Eft.in_range in C1; [|fold d'; lra]. destruct C1 as [s1 [d [-> [Wd [Fd Vd]]]]]. cbn [bind]. fold d' in Vd.
  pose proof (mul_r_crate S t d m HS Wt Wd Ft Fd) as C2. rewrite Vd in C2. apply Eft.in_range in C2; [|fold p'; lra]. destruct C2 as [s2 [p [-> [Wp [Fp Vp]]]]]. cbn [bind]. fold p' in Vp.
  pose proof (add_r_crate S a p m HS Wa Wp Fa Fp) as C3. rewrite Vp in C3. apply Eft.in_range in C3.
  - destruct C3 as [s3 [r [-> [Wr [Fr Vr]]]]]. cbn [bind]. exists r. auto.
  - apply rounded_le_max; [exact HS|]. pose proof (Rabs_triang (value S a) p'). lra.
Qed.

(** it starts at a, and moves toward b without ever turning back *)
Theorem lerp_monotone : forall a b t u, wf S a -> wf S b -> wf S t -> wf S u -> finite a -> finite b -> finite t -> finite u ->
  (Rabs (value S a) <= top)%R -> (Rabs (value S b) <= top)%R -> (0 <= value S t)%R -> (value S t <= value S u <= 1)%R ->
  exists r q, c_lerp S m a b t = Ret r /\ c_lerp S m a b u = Ret q /\ wf S r /\ finite r /\ wf S q /\ finite q /\
    (value S t = 0%R -> value S r = value S a) /\ (value S a = value S b -> value S r = value S a) /\
    ((value S a <= value S b)%R -> (value S a <= value S r <= value S q)%R) /\
    ((value S b <= value S a)%R -> (value S q <= value S r <= value S a)%R).
Proof.
  intros a b t u Wa Wb Wt Wu Fa Fb Ft Fu Ba Bb T0 TU.
  destruct (lerp_value a b t Wa Wb Wt Fa Fb Ft Ba Bb) as [r [Er [Wr [Fr Vr]]]]; [lra|].
  destruct (lerp_value a b u Wa Wb Wu Fa Fb Fu Ba Bb) as [q [Eq [Wq [Fq Vq]]]]; [lra|].
  exists r, q. do 6 (split; [assumption|]). set (d := R (value S b - value S a)) in *.
  assert (A : R (value S a) = value S a) by (apply rounded_format, value_format; assumption). assert (Z : R 0 = 0%R) by apply rounded_0.
  split; [|split; [|split]].
  - intros E. rewrite Vr, E, Rmult_0_l, Z, Rplus_0_r. exact A.
  - intros E. assert (D0 : d = 0%R) by (unfold d; rewrite E, Rminus_diag_eq by reflexivity; exact Z). rewrite Vr, D0, Rmult_0_r, Z, Rplus_0_r. exact A.
  - intros L. assert (D : (0 <= d)%R) by (rewrite <- Z; apply rounded_mono; [exact HS|lra]).
    assert (P : (0 <= R (value S t * d))%R) by (rewrite <- Z; apply rounded_mono; [exact HS|apply Rmult_le_pos; lra]).
    assert (Q : (R (value S t * d) <= R (value S u * d))%R) by (apply rounded_mono; [exact HS|apply Rmult_le_compat_r; lra]).
    rewrite Vr, Vq. split; [rewrite <- A at 1|]; apply rounded_mono; try exact HS; lra.
  - intros L. assert (D : (d <= 0)%R) by (rewrite <- Z; apply rounded_mono; [exact HS|lra]).
    assert (P : (R (value S t * d) <= 0)%R).
    { rewrite <- Z. apply rounded_mono; [exact HS|]. assert (0 <= value S t * - d)%R by (apply Rmult_le_pos; lra). lra. }
    assert (Q : (R (value S u * d) <= R (value S t * d))%R).
    { apply rounded_mono; [exact HS|]. assert (value S t * - d <= value S u * - d)%R by (apply Rmult_le_compat_r; lra). lra. }
    rewrite Vr, Vq. split; [|rewrite <- A at 2]; apply rounded_mono; try exact HS; lra.
Qed.
(** it ends at b if the difference is a number of the format *)
Theorem lerp_end : forall a b t, wf S a -> wf S b -> wf S t -> finite a -> finite b -> finite t ->
  (Rabs (value S a) <= top)%R -> (Rabs (value S b) <= top)%R -> value S t = 1%R -> representable S (value S b - value S a) ->
  exists r, c_lerp S m a b t = Ret r /\ wf S r /\ finite r /\ value S r = value S b.
Proof.
  intros a b t Wa Wb Wt Fa Fb Ft Ba Bb T1 [G _]. destruct (lerp_value a b t Wa Wb Wt Fa Fb Ft Ba Bb) as [r [Er [Wr [Fr Vr]]]]; [lra|].
  exists r. do 3 (split; [assumption|]). rewrite Vr, T1, Rmult_1_l, (rounded_format S m _ G), (rounded_format S m _ G).
  replace (value S a + (value S b - value S a))%R with (value S b) by ring. apply rounded_format, value_format; assumption.
Qed.

(** the second client is exact at both ends, for all numbers *)
Theorem blend_ends : forall one a b t, wf S one -> wf S a -> wf S b -> wf S t -> finite one -> finite a -> finite b -> finite t -> value S one = 1%R ->
  (value S t = 0%R -> exists r, c_blend S m one a b t = Ret r /\ wf S r /\ finite r /\ value S r = value S a) /\
  (value S t = 1%R -> exists r, c_blend S m one a b t = Ret r /\ wf S r /\ finite r /\ value S r = value S b).
Proof.
  intros one a b t W1 Wa Wb Wt F1 Fa Fb Ft V1.
  assert (RP : forall x, wf S x -> representable S (value S x)) by (intros x W; split; [apply value_format; assumption|apply value_le_max; assumption]).
  assert (R0 : representable S 0%R).
  { split; [apply generic_format_0|]. rewrite Rabs_R0. pose proof (value_le_max S one HS W1). pose proof (Rabs_pos (value S one)). lra. }
  assert (R1 : representable S 1%R) by (rewrite <- V1; apply RP, W1).
  assert (GO : forall u' p' q', (u' = 1 - value S t)%R -> (p' = u' * value S a)%R -> (q' = value S t * value S b)%R -> representable S u' -> representable S p' -> representable S q' -> representable S (p' + q') ->
    exists r, c_blend S m one a b t = Ret r /\ wf S r /\ finite r /\ value S r = (p' + q')%R).
  { intros u' p' q' Eu Ep Eq Ru Rp Rq Rr. unfold c_blend.
    pose proof (sub_r_crate S one t m HS W1 Wt F1 Ft) as C1. rewrite V1, <- Eu in C1. destruct (Eft.exactly _ _ _ _ _ HS Ru C1) as [u [-> [Wu [Fu Vu]]]]. cbn [bind].
    pose proof (mul_r_crate S u a m HS Wu Wa Fu Fa) as C2. rewrite Vu, <- Ep in C2. destruct (Eft.exactly _ _ _ _ _ HS Rp C2) as [p [-> [Wp [Fp Vp]]]]. cbn [bind].
    pose proof (mul_r_crate S t b m HS Wt Wb Ft Fb) as C3. rewrite <- Eq in C3. destruct (Eft.exactly _ _ _ _ _ HS Rq C3) as [q [-> [Wq [Fq Vq]]]]. cbn [bind].
    pose proof (add_r_crate S p q m HS Wp Wq Fp Fq) as C4. rewrite Vp, Vq in C4. destruct (Eft.exactly _ _ _ _ _ HS Rr C4) as [r [-> [Wr [Fr Vr]]]]. cbn [bind].
    exists r. auto. }
  split; intros T.
  - destruct (GO 1%R (value S a) 0%R) as [r [E [W [F V]]]]; try (rewrite T; ring); try ring; try assumption; try (apply RP; assumption); [rewrite Rplus_0_r; apply RP, Wa|].
    exists r. rewrite V, Rplus_0_r. auto.
  - destruct (GO 0%R 0%R (value S b)) as [r [E [W [F V]]]]; try (rewrite T; ring); try ring; try assumption; try (apply RP; assumption); [rewrite Rplus_0_l; apply RP, Wb|].
    exists r. rewrite V, Rplus_0_l. auto.
Qed.
End Lerp.

(** from -2048 to -1/2 the first client ends at 0, beyond b *)
Definition h_far : Float := mkFloat 1024 11 Normal true.
Definition h_near : Float := mkFloat 1024 (-1) Normal true.
Theorem lerp_end_refuted : exists a b t r, wf HalfS a /\ wf HalfS b /\ wf HalfS t /\ finite a /\ finite b /\ finite t /\
  (Rabs (value HalfS a) <= bpow r2 (MAX_EXP HalfS - 2))%R /\ (Rabs (value HalfS b) <= bpow r2 (MAX_EXP HalfS - 2))%R /\ value HalfS t = 1%R /\
  (value HalfS a < value HalfS b)%R /\ c_lerp HalfS NearestTiesToEven a b t = Ret r /\ (value HalfS b < value HalfS r)%R.
Proof.
  exists h_far, h_near, h_one, h_zero. assert (A : value HalfS h_far = (-2048)%R) by (unfold value; cbn; lra). assert (B : value HalfS h_near = (- (1 / 2))%R) by (unfold value; cbn; lra).
  split; [unfold h_far; sample_wf|]. split; [unfold h_near; sample_wf|]. split; [exact h_one_wf|]. do 3 (split; [left; reflexivity|]).
  rewrite A, B. split; [rewrite Rabs_left by lra; cbn; lra|]. split; [rewrite Rabs_left by lra; cbn; lra|]. split; [exact h_one_value|]. split; [lra|].
  split; [vm_compute; reflexivity|]. unfold value. cbn. lra.
Qed.
(** the second one turns back, and does not stay at a if b is the same *)
Definition h_1365 : Float := mkFloat 1365 0 Normal false.
Definition h_1366 : Float := mkFloat 1366 0 Normal false.
Definition h_t1 : Float := mkFloat 1025 (-2) Normal false.
Definition h_t2 : Float := mkFloat 1026 (-2) Normal false.
Theorem blend_monotone_refuted : exists a b t u r q, wf HalfS a /\ wf HalfS b /\ wf HalfS t /\ wf HalfS u /\ finite a /\ finite b /\ finite t /\ finite u /\
  (value HalfS a < value HalfS b)%R /\ (0 < value HalfS t)%R /\ (value HalfS t < value HalfS u < 1)%R /\
  c_blend HalfS NearestTiesToEven h_one a b t = Ret r /\ c_blend HalfS NearestTiesToEven h_one a b u = Ret q /\ (value HalfS q < value HalfS r)%R.
Proof.
  exists h_1365, h_1366, h_t1, h_t2, h_1366, h_1365.
  do 4 (split; [unfold h_1365, h_1366, h_t1, h_t2; sample_wf|]). do 4 (split; [left; reflexivity|]).
  split; [unfold value; cbn; lra|]. split; [unfold value; cbn; lra|]. split; [unfold value; cbn; lra|]. split; [vm_compute; reflexivity|]. split; [vm_compute; reflexivity|]. unfold value; cbn; lra.
Qed.
Theorem blend_same_refuted : exists a t r, wf HalfS a /\ wf HalfS t /\ finite a /\ finite t /\ (0 < value HalfS t < 1)%R /\
  c_blend HalfS NearestTiesToEven h_one a a t = Ret r /\ value HalfS r <> value HalfS a.
Proof.
  exists h_1365, h_t1, h_1366. do 2 (split; [unfold h_1365, h_t1; sample_wf|]). do 2 (split; [left; reflexivity|]).
  split; [unfold value; cbn; lra|]. split; [vm_compute; reflexivity|]. unfold value; cbn; lra.
Qed.
