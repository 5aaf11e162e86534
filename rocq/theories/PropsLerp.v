(** * PropsLerp.v -- interpolation (C93) *)
From Coq Require Import ZArith Reals List Bool Lra Lia.
From Flocq Require Import Core.
From Verif Require Import Machine Ieee Spec Samples Lerp.
Local Open Scope Z_scope.

(** ** C93: a + t (b - a) never turns back, (1 - t) a + t b meets both ends *)
Theorem C93_lerp_value : forall S, sem_ok S -> forall m : Round, forall a b t, wf S a -> wf S b -> wf S t -> finite a -> finite b -> finite t ->
  (Rabs (value S a) <= bpow r2 (MAX_EXP S - 2))%R -> (Rabs (value S b) <= bpow r2 (MAX_EXP S - 2))%R -> (0 <= value S t <= 1)%R ->
  exists r, c_lerp S m a b t = Ret r /\ wf S r /\ finite r /\
    value S r = rounded S m (value S a + rounded S m (value S t * rounded S m (value S b - value S a))).
Proof. exact lerp_value. Qed.
Print Assumptions C93_lerp_value.
Theorem C93_lerp : forall S, sem_ok S -> forall m : Round, forall a b t u, wf S a -> wf S b -> wf S t -> wf S u -> finite a -> finite b -> finite t -> finite u ->
  (Rabs (value S a) <= bpow r2 (MAX_EXP S - 2))%R -> (Rabs (value S b) <= bpow r2 (MAX_EXP S - 2))%R -> (0 <= value S t)%R -> (value S t <= value S u <= 1)%R ->
  exists r q, c_lerp S m a b t = Ret r /\ c_lerp S m a b u = Ret q /\ wf S r /\ finite r /\ wf S q /\ finite q /\
    (value S t = 0%R -> value S r = value S a) /\ (value S a = value S b -> value S r = value S a) /\
    ((value S a <= value S b)%R -> (value S a <= value S r <= value S q)%R) /\
    ((value S b <= value S a)%R -> (value S q <= value S r <= value S a)%R).
Proof. exact lerp_monotone. Qed.
Print Assumptions C93_lerp.
Theorem C93_lerp_end : forall S, sem_ok S -> forall m : Round, forall a b t, wf S a -> wf S b -> wf S t -> finite a -> finite b -> finite t ->
  (Rabs (value S a) <= bpow r2 (MAX_EXP S - 2))%R -> (Rabs (value S b) <= bpow r2 (MAX_EXP S - 2))%R -> value S t = 1%R -> representable S (value S b - value S a) ->
  exists r, c_lerp S m a b t = Ret r /\ wf S r /\ finite r /\ value S r = value S b.
Proof. exact lerp_end. Qed.
Print Assumptions C93_lerp_end.
Theorem C93_lerp_end_refuted : exists a b t r, wf HalfS a /\ wf HalfS b /\ wf HalfS t /\ finite a /\ finite b /\ finite t /\
  (Rabs (value HalfS a) <= bpow r2 (MAX_EXP HalfS - 2))%R /\ (Rabs (value HalfS b) <= bpow r2 (MAX_EXP HalfS - 2))%R /\ value HalfS t = 1%R /\
  (value HalfS a < value HalfS b)%R /\ c_lerp HalfS NearestTiesToEven a b t = Ret r /\ (value HalfS b < value HalfS r)%R.
Proof. exact lerp_end_refuted. Qed.
Print Assumptions C93_lerp_end_refuted.
(** the other formula *)
Theorem C93_blend_ends : forall S, sem_ok S -> forall m : Round, forall one a b t, wf S one -> wf S a -> wf S b -> wf S t -> finite one -> finite a -> finite b -> finite t -> value S one = 1%R ->
  (value S t = 0%R -> exists r, c_blend S m one a b t = Ret r /\ wf S r /\ finite r /\ value S r = value S a) /\
  (value S t = 1%R -> exists r, c_blend S m one a b t = Ret r /\ wf S r /\ finite r /\ value S r = value S b).
Proof. exact blend_ends. Qed.
Print Assumptions C93_blend_ends.
Theorem C93_blend_monotone_refuted : exists a b t u r q, wf HalfS a /\ wf HalfS b /\ wf HalfS t /\ wf HalfS u /\ finite a /\ finite b /\ finite t /\ finite u /\
  (value HalfS a < value HalfS b)%R /\ (0 < value HalfS t)%R /\ (value HalfS t < value HalfS u < 1)%R /\
  c_blend HalfS NearestTiesToEven h_one a b t = Ret r /\ c_blend HalfS NearestTiesToEven h_one a b u = Ret q /\ (value HalfS q < value HalfS r)%R.
Proof. exact blend_monotone_refuted. Qed.
Print Assumptions C93_blend_monotone_refuted.
Theorem C93_blend_same_refuted : exists a t r, wf HalfS a /\ wf HalfS t /\ finite a /\ finite t /\ (0 < value HalfS t < 1)%R /\
  c_blend HalfS NearestTiesToEven h_one a a t = Ret r /\ value HalfS r <> value HalfS a.
Proof. exact blend_same_refuted. Qed.
Print Assumptions C93_blend_same_refuted.

(** from 1 to 10: a quarter of the way and a half *)
Definition h_quarter : Float := mkFloat 1024 (-2) Normal false.
Definition h_mid : Float := mkFloat 1024 (-1) Normal false.
Example C93_example : wf HalfS h_one /\ wf HalfS h_ten /\ wf HalfS h_quarter /\ wf HalfS h_mid /\ finite h_quarter /\
  (Rabs (value HalfS h_ten) <= bpow r2 (MAX_EXP HalfS - 2))%R /\ (0 <= value HalfS h_quarter)%R /\ (value HalfS h_quarter <= value HalfS h_mid <= 1)%R /\ value HalfS h_one = 1%R /\
  c_lerp HalfS NearestTiesToEven h_one h_ten h_quarter = Ret (mkFloat 1664 1 Normal false) /\
  c_lerp HalfS NearestTiesToEven h_one h_ten h_mid = Ret (mkFloat 1408 2 Normal false) /\
  c_lerp HalfS NearestTiesToEven h_one h_ten h_one = Ret h_ten /\
  c_blend HalfS NearestTiesToEven h_one h_ten h_max h_zero = Ret h_ten /\ c_blend HalfS TowardZero h_one h_ten h_max h_one = Ret h_max.
Proof.
  split; [exact h_one_wf|]. split; [exact h_ten_wf|]. do 2 (split; [unfold h_quarter, h_mid; sample_wf|]). split; [left; reflexivity|].
  split; [rewrite h_ten_value, Rabs_pos_eq by lra; cbn; lra|]. split; [unfold value; cbn; lra|]. split; [unfold value; cbn; lra|]. split; [exact h_one_value|]. vm_compute. repeat split.
Qed.
