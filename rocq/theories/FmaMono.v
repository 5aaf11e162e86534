(** * FmaMono.v -- is mul_add monotone? *)
From Coq Require Import ZArith Reals Bool Lia Lra.
From Flocq Require Import Core.
From Verif Require Import Machine Ieee Spec Arith Fma Laws Samples.
Local Open Scope Z_scope.
Ltac Zify.zify_post_hook ::= idtac.

Theorem mul_add_r_monotone : forall S x y z x' y' z' m, sem_ok S -> wf S x -> wf S y -> wf S z -> wf S x' -> wf S y' -> wf S z' ->
  finite x -> finite y -> finite z -> finite x' -> finite y' -> finite z' -> fma_safe S x y z -> fma_safe S x' y' z' ->
  (value S x * value S y + value S z <= value S x' * value S y' + value S z')%R ->
  ordered S (mul_add_r S x y z m) (mul_add_r S x' y' z' m).
Proof.
  intros S x y z x' y' z' m HS Wx Wy Wz Wx' Wy' Wz' Fx Fy Fz Fx' Fy' Fz' K K' L.
  destruct (mul_add_r_crate S x y z m HS Wx Wy Wz Fx Fy Fz K) as [[st f] [E D]].
  destruct (mul_add_r_crate S x' y' z' m HS Wx' Wy' Wz' Fx' Fy' Fz' K') as [[st' f'] [E' D']].
  eapply ordered_crate; [exact HS|exact E|exact E'|exact D|exact D'|exact L].
Qed.

Definition fm_x : Float := mkFloat 1054 (-10) Normal false.
Definition fm_x' : Float := mkFloat 1055 (-10) Normal false.
Definition fm_y : Float := mkFloat 1990 (-14) Normal false.
Definition fm_z : Float := mkFloat 2 (-14) Normal true.
Lemma fm_results : mul_add_r HalfS fm_x fm_y fm_z NearestTiesToEven = Ret (24, mkFloat 1 (-14) Normal false) /\
  mul_add_r HalfS fm_x' fm_y fm_z NearestTiesToEven = Ret (24, mkFloat 0 (-15) Zero false).
Proof. split; vm_compute; reflexivity. Qed.
Theorem mul_add_r_monotone_refuted : exists S x x' y z m, sem_ok S /\ wf S x /\ wf S x' /\ wf S y /\ wf S z /\
  finite x /\ finite x' /\ finite y /\ finite z /\ (value S x <= value S x')%R /\ (0 < value S y)%R /\
  ~ ordered S (mul_add_r S x y z m) (mul_add_r S x' y z m).
Proof.
  exists HalfS, fm_x, fm_x', fm_y, fm_z, NearestTiesToEven. split; [exact half_ok|].
  split; [sample_wf|]. split; [sample_wf|]. split; [sample_wf|]. split; [sample_wf|].
  split; [left; reflexivity|]. split; [left; reflexivity|]. split; [left; reflexivity|]. split; [left; reflexivity|].
  split; [unfold value; cbn; lra|]. split; [unfold value; cbn; lra|].
  intros [st [f [st' [f' [E [E' H]]]]]]. destruct fm_results as [R R']. rewrite R in E. rewrite R' in E'.
  assert (f = mkFloat 1 (-14) Normal false) as -> by congruence. assert (f' = mkFloat 0 (-15) Zero false) as -> by congruence.
  destruct H as [a [b [A [B L]]]]; [discriminate|discriminate|]. unfold ext_of in A, B. cbn [category] in A, B.
  assert (a = Fin (value HalfS (mkFloat 1 (-14) Normal false))) as -> by congruence.
  assert (b = Fin (value HalfS (mkFloat 0 (-15) Zero false))) as -> by congruence.
  assert (value HalfS (mkFloat 1 (-14) Normal false) > value HalfS (mkFloat 0 (-15) Zero false))%R as G by (unfold value; cbn; lra).
  destruct L as [L|L]; [cbn [ext_lt] in L; lra|]. assert (value HalfS (mkFloat 1 (-14) Normal false) = value HalfS (mkFloat 0 (-15) Zero false)) by congruence. lra.
Qed.
