(** * PropsScale.v -- scalbn, ilogb, frexp (C22, C23) *)
From Coq Require Import ZArith Reals List Bool.
From Flocq Require Import Core.
From Verif Require Import Machine Ieee Spec Scale Laws Samples Refute.
Import ListNotations.
Local Open Scope Z_scope.

(** every format with infinities *)
Theorem C22_scalbn : forall S x n m, sem_ok S -> NONFINITE_BEHAVIOR S = IEEE754 -> wf S x -> category x = Normal ->
  exists st f, scalbn_r S x n m = Ret f /\ correctly_rounded S m (value S x * bpow r2 n) (sign x) (st, f).
Proof. exact scalbn_r_ieee. Qed.
Print Assumptions C22_scalbn.
(** every format.  Missing: negative values overflowing in a directed mode of a
    NaN-only format *)
Theorem C22_scalbn_partial : forall S x n m, sem_ok S -> wf S x -> category x = Normal ->
  overflow_side_ok S m (value S x * bpow r2 n) ->
  exists st f, scalbn_r S x n m = Ret f /\ correctly_rounded S m (value S x * bpow r2 n) (sign x) (st, f).
Proof. exact scalbn_r_normal. Qed.
Print Assumptions C22_scalbn_partial.
(** the crate's own overflow rule, every case *)
Theorem C22_scalbn_crate : forall S x n m, sem_ok S -> wf S x -> category x = Normal ->
  exists st f, scalbn_r S x n m = Ret f /\ crate_rounded S m (value S x * bpow r2 n) (sign x) (st, f).
Proof. exact scalbn_r_crate. Qed.
Print Assumptions C22_scalbn_crate.
Theorem C22_scalbn_special : forall S x n m, sem_ok S -> wf S x -> category x <> Normal ->
  exists f, scalbn_r S x n m = Ret f /\ wf S f /\ category f = category x /\ sign f = sign x /\
    (category x = NaN -> sig f = sig (quieted S x)).
Proof. exact scalbn_r_special. Qed.
Print Assumptions C22_scalbn_special.
Theorem C22_scalbn_refuted : exists S x n m f, sem_ok S /\ wf S x /\ category x = Normal /\
  scalbn_r S x n m = Ret f /\ forall st zs, ~ correctly_rounded S m (value S x * bpow r2 n) zs (st, f).
Proof. exact scalbn_r_refuted. Qed.
Print Assumptions C22_scalbn_refuted.
Example C22_example : wf HalfS h_neg /\ category h_neg = Normal /\
  scalbn_r HalfS h_neg (- 2 ^ 31) TowardNegative = Ret (neg h_min) /\
  scalbn_r HalfS h_neg (2 ^ 31 - 1) TowardZero = Ret (neg h_max) /\
  scalbn_r HalfS h_neg (-24) NearestTiesToEven = Ret (mkFloat 2 (-14) Normal true).
Proof. split; [exact h_neg_wf|]. vm_compute. repeat split. Qed.

Theorem C23_ilogb_normal : forall S x, sem_ok S -> wf S x -> category x = Normal ->
  exists e, ilogb S x = Ret e /\ (bpow r2 e <= Rabs (value S x) < bpow r2 (e + 1))%R /\
    MIN_EXP S - (PRECISION S - 1) <= e <= MAX_EXP S.
Proof. exact ilogb_normal. Qed.
Print Assumptions C23_ilogb_normal.
Theorem C23_ilogb_special : forall S x,
  (category x = NaN -> ilogb S x = Ret (- 2 ^ 31)) /\
  (category x = Zero -> ilogb S x = Ret (- 2 ^ 31 + 1)) /\
  (category x = Infinity -> ilogb S x = Ret (2 ^ 31 - 1)).
Proof. exact ilogb_special. Qed.
Print Assumptions C23_ilogb_special.
Theorem C23_frexp_r_normal : forall S x m, sem_ok S -> wf S x -> category x = Normal ->
  exists f e, frexp_r S x m = Ret (f, e) /\ wf S f /\ finite f /\
    value S x = (value S f * bpow r2 e)%R /\ (/ 2 <= Rabs (value S f) < 1)%R.
Proof. exact frexp_r_normal. Qed.
Print Assumptions C23_frexp_r_normal.
Theorem C23_frexp_r_special : forall S x m, sem_ok S -> wf S x -> category x <> Normal ->
  exists f e, frexp_r S x m = Ret (f, e) /\ wf S f /\ category f = category x /\ sign f = sign x /\
    match category x with
    | NaN => e = - 2 ^ 31 /\ sig f = sig (quieted S x)
    | Infinity => e = 2 ^ 31 - 1
    | _ => e = 0
    end.
Proof. exact frexp_r_special. Qed.
Print Assumptions C23_frexp_r_special.
Example C23_example : ilogb HalfS h_min = Ret (-24) /\ ilogb HalfS h_ten = Ret 3 /\
  frexp_r HalfS h_min NearestTiesToEven = Ret (mkFloat 1024 (-1) Normal false, -23) /\
  frexp_r HalfS h_ten NearestTiesToEven = Ret (mkFloat 1280 (-1) Normal false, 4).
Proof. vm_compute. repeat split. Qed.
