(** * PropsExpansion.v -- sums kept exactly (C91) *)
From Coq Require Import ZArith Reals List Bool Lra Lia.
From Flocq Require Import Core.
From Verif Require Import Machine Ieee Spec SpecExpr Eft Sum Compensated Samples Expansion Fsum.
Import ListNotations.
Local Open Scope Z_scope.

(** ** C91: a sum is kept exactly as an expansion, and its sign is found *)
Theorem C91_expansion : forall S, sem_ok S -> forall m, nearest m -> let g := (1 + 2 * roundoff S m)%R in
  forall xs, numbers S xs -> (g ^ (length xs * length xs) * total_abs S xs <= bpow r2 (MAX_EXP S - 4))%R ->
  exists r, c_expand S m [] xs = Ret r /\ numbers S r /\ length r = length xs /\ total S r = total S xs /\ separated (map (value S) r).
Proof. exact expand_exact. Qed.
Print Assumptions C91_expansion.
Theorem C91_sum_sign : forall S, sem_ok S -> forall m, nearest m -> let g := (1 + 2 * roundoff S m)%R in
  forall xs, numbers S xs -> (g ^ (length xs * length xs) * total_abs S xs <= bpow r2 (MAX_EXP S - 4))%R ->
  c_sum_sign S m xs = Ret (Rcompare (total S xs) 0).
Proof. exact sum_sign. Qed.
Print Assumptions C91_sum_sign.
Theorem C91_dot_sign : forall S, sem_ok S -> forall m, nearest m -> let g := (1 + 2 * roundoff S m)%R in
  forall xs, factors S xs -> (g ^ (4 * (length xs * length xs) + 1) * inner_abs S xs <= bpow r2 (MAX_EXP S - 4))%R ->
  c_dot_sign S m xs = Ret (Rcompare (inner S xs) 0).
Proof. exact dot_sign. Qed.
Print Assumptions C91_dot_sign.
(** the side of a line on which a point lies is decided without error *)
Theorem C91_orient : forall S, sem_ok S -> forall m, nearest m -> let g := (1 + 2 * roundoff S m)%R in
  forall ax ay bx by' cx cy,
  factors S [(ax, by'); (neg ax, cy); (bx, cy); (neg bx, ay); (cx, ay); (neg cx, by')] ->
  (g ^ 145 * inner_abs S [(ax, by'); (neg ax, cy); (bx, cy); (neg bx, ay); (cx, ay); (neg cx, by')] <= bpow r2 (MAX_EXP S - 4))%R ->
  c_orient S m ax ay bx by' cx cy = Ret (Rcompare ((value S bx - value S ax) * (value S cy - value S ay) - (value S by' - value S ay) * (value S cx - value S ax)) 0).
Proof. exact orient_sign. Qed.
Print Assumptions C91_orient.
(** from the components the sum is rounded once, however many numbers there are and however much they cancel *)
Theorem C91_fsum : forall S, sem_ok S -> forall m, nearest m -> let g := (1 + 2 * roundoff S m)%R in
  forall xs, numbers S xs -> (g ^ (length xs * length xs) * total_abs S xs <= bpow r2 (MAX_EXP S - 4))%R ->
  exists r, c_fsum S m xs = Ret r /\ wf S r /\ finite r /\ value S r = rounded S m (total S xs).
Proof. exact fsum_rounded. Qed.
Print Assumptions C91_fsum.
Theorem C91_fdot : forall S, sem_ok S -> forall m, nearest m -> let g := (1 + 2 * roundoff S m)%R in
  forall xs, factors S xs -> (g ^ (4 * (length xs * length xs) + 1) * inner_abs S xs <= bpow r2 (MAX_EXP S - 4))%R ->
  exists r, c_fdot S m xs = Ret r /\ wf S r /\ finite r /\ value S r = rounded S m (inner S xs).
Proof. exact fdot_rounded. Qed.
Print Assumptions C91_fdot.
(** the components, found in a nearest mode, also give the sum rounded in any directed mode *)
Theorem C91_fsum_directed : forall S, sem_ok S -> forall m, nearest m -> let g := (1 + 2 * roundoff S m)%R in
  forall n xs, ~ nearest n -> numbers S xs -> (g ^ (length xs * length xs) * total_abs S xs <= bpow r2 (MAX_EXP S - 4))%R ->
  exists r, c_fsum_directed S m n xs = Ret r /\ wf S r /\ finite r /\ value S r = rounded S n (total S xs).
Proof. exact fsum_directed. Qed.
Print Assumptions C91_fsum_directed.
Theorem C91_fdot_directed : forall S, sem_ok S -> forall m, nearest m -> let g := (1 + 2 * roundoff S m)%R in
  forall n xs, ~ nearest n -> factors S xs -> (g ^ (4 * (length xs * length xs) + 1) * inner_abs S xs <= bpow r2 (MAX_EXP S - 4))%R ->
  exists r, c_fdot_directed S m n xs = Ret r /\ wf S r /\ finite r /\ value S r = rounded S n (inner S xs).
Proof. exact fdot_directed. Qed.
Print Assumptions C91_fdot_directed.
(** when the components are computed in a directed mode the sign can be wrong *)
Theorem C91_directed_refuted : exists xs, numbers HalfS xs /\ (total HalfS xs < 0)%R /\ (total_abs HalfS xs <= 3)%R /\ c_sum_sign HalfS TowardPositive xs = Ret Gt.
Proof. exact directed_sign_refuted. Qed.
Print Assumptions C91_directed_refuted.

(** 512 + 3/2048 - 512 has two zero components and one that is 3/2048; a plain sum loses it *)
Definition h_512' : Float := mkFloat 1024 9 Normal false.
Example C91_example : let xs := [h_512'; h_small; neg h_512'] in
  nearest NearestTiesToEven /\ numbers HalfS xs /\
  ((1 + 2 * roundoff HalfS NearestTiesToEven) ^ 9 * total_abs HalfS xs <= bpow r2 (MAX_EXP HalfS - 4))%R /\
  c_expand HalfS NearestTiesToEven [] xs = Ret [h_small; h_zero; h_zero] /\
  c_sum_sign HalfS NearestTiesToEven xs = Ret Gt /\ c_sum HalfS NearestTiesToEven h_512' [h_small; neg h_512'] = Ret (INEXACT, h_zero).
Proof.
  cbv zeta. split; [left; reflexivity|]. split; [|split].
  - intros x [<-|[<-|[<-|[]]]]; split; try (left; reflexivity); [unfold h_512'; sample_wf|exact h_small_wf|unfold h_512'; cbn; sample_wf].
  - replace (roundoff HalfS NearestTiesToEven) with (/ 2048)%R by (cbn; lra). unfold total_abs. replace (value HalfS h_512') with 512%R by (unfold value; cbn; lra).
    replace (value HalfS h_small) with (3 / 2048)%R by (unfold value; cbn; lra). replace (value HalfS (neg h_512')) with (-512)%R by (unfold value; cbn; lra).
    rewrite (Rabs_left (-512)), !Rabs_pos_eq by lra. cbn; lra.
  - vm_compute. repeat split.
Qed.
(** the point (5/4, 5/4 + 2^-10) lies to the left of the line through (1, 1) and (3/2, 3/2) *)
Definition h_54 : Float := mkFloat 1280 0 Normal false.
Definition h_54_ulp : Float := mkFloat 1281 0 Normal false.
Definition h_32 : Float := mkFloat 1536 0 Normal false.
Example C91_orient_example :
  let ps := [(h_one, h_32); (neg h_one, h_54_ulp); (h_32, h_54_ulp); (neg h_32, h_one); (h_54, h_one); (neg h_54, h_32)] in
  factors HalfS ps /\ ((1 + 2 * roundoff HalfS NearestTiesToEven) ^ 145 * inner_abs HalfS ps <= bpow r2 (MAX_EXP HalfS - 4))%R /\
  c_orient HalfS NearestTiesToEven h_one h_one h_32 h_32 h_54 h_54_ulp = Ret Gt /\ c_orient HalfS NearestTiesToEven h_one h_one h_32 h_32 h_54 h_54 = Ret Eq /\
  c_fdot HalfS NearestTiesToEven ps = Ret (mkFloat 1024 (-11) Normal false) /\ c_fdot_directed HalfS NearestTiesToEven TowardZero ps = Ret (mkFloat 1024 (-11) Normal false).
Proof.
  assert (V1 : value HalfS h_one = 1%R) by (unfold value; cbn; lra). assert (V2 : value HalfS h_32 = (3 / 2)%R) by (unfold value; cbn; lra).
  assert (V3 : value HalfS h_54 = (5 / 4)%R) by (unfold value; cbn; lra). assert (V4 : value HalfS h_54_ulp = (1281 / 1024)%R) by (unfold value; cbn; lra).
  assert (V5 : value HalfS (neg h_one) = (-1)%R) by (unfold value; cbn; lra). assert (V6 : value HalfS (neg h_32) = (- (3 / 2))%R) by (unfold value; cbn; lra).
  assert (V7 : value HalfS (neg h_54) = (- (5 / 4))%R) by (unfold value; cbn; lra).
  assert (W : forall x, In x [h_one; h_32; h_54; h_54_ulp; neg h_one; neg h_32; neg h_54] -> wf HalfS x /\ finite x).
  { intros x I. repeat (destruct I as [<-|I]; [split; [unfold h_one, h_32, h_54, h_54_ulp, neg; cbn; sample_wf|left; reflexivity]|]). destruct I. }
  assert (L : (bpow r2 (MIN_EXP HalfS + PRECISION HalfS) <= 1)%R) by (cbn; lra).
  cbv zeta. split; [|split].
  - intros x y I. cbn [In] in I. repeat (destruct I as [E|I]; [pose proof (f_equal fst E) as E1; pose proof (f_equal snd E) as E2; cbn [fst snd] in E1, E2; clear E; rewrite <- E1, <- E2; clear E1 E2|]); try destruct I;
      (split; [apply W; cbn [In]; tauto|]); (split; [apply W; cbn [In]; tauto|]); (split; [apply W; cbn [In]; tauto|]); (split; [apply W; cbn [In]; tauto|]); right;
      rewrite ?V1, ?V2, ?V3, ?V4, ?V5, ?V6, ?V7; first [rewrite Rabs_pos_eq by lra|rewrite Rabs_left by lra]; lra.
  - replace (roundoff HalfS NearestTiesToEven) with (/ 2048)%R by (cbn; lra). cbn [inner_abs]. rewrite ?V1, ?V2, ?V3, ?V4, ?V5, ?V6, ?V7.
    repeat first [rewrite Rabs_pos_eq by lra|rewrite Rabs_left by lra].
    apply Rle_trans with (2 ^ 1 * 20)%R; [|cbn; lra]. apply Rmult_le_compat; lra.
  - vm_compute. repeat split.
Qed.
(** 1 + 2^-11 is a tie, 2^-24 more decides it; compensated sums get this wrong *)
Definition h_tie : Float := mkFloat 1024 (-11) Normal false.
Example C91_fsum_example : let xs := [h_one; h_tie; h_min] in numbers HalfS xs /\
  ((1 + 2 * roundoff HalfS NearestTiesToEven) ^ 9 * total_abs HalfS xs <= bpow r2 (MAX_EXP HalfS - 4))%R /\
  c_fsum HalfS NearestTiesToEven xs = Ret h_one_ulp /\ c_sum2 HalfS NearestTiesToEven h_zero xs = Ret h_one /\
  c_fsum HalfS NearestTiesToEven [h_one; h_tie; neg h_min] = Ret h_one /\
  ~ nearest TowardPositive /\ ~ nearest TowardZero /\ c_fsum_directed HalfS NearestTiesToEven TowardPositive xs = Ret h_one_ulp /\
  c_fsum_directed HalfS NearestTiesToEven TowardZero xs = Ret h_one.
Proof.
  cbv zeta. split; [|split].
  - intros x [<-|[<-|[<-|[]]]]; split; try (left; reflexivity); [exact h_one_wf|unfold h_tie; sample_wf|unfold h_min; sample_wf].
  - replace (roundoff HalfS NearestTiesToEven) with (/ 2048)%R by (cbn; lra). unfold total_abs. replace (value HalfS h_one) with 1%R by (unfold value; cbn; lra).
    replace (value HalfS h_tie) with (/ 2048)%R by (unfold value; cbn; lra). replace (value HalfS h_min) with (/ 16777216)%R by (unfold value; cbn; lra).
    rewrite !Rabs_pos_eq by lra. cbn; lra.
  - assert (N : forall n, n = TowardPositive \/ n = TowardZero -> ~ nearest n) by (intros n [->| ->] [H|H]; discriminate H).
    repeat split; try (apply N; auto; fail); vm_compute; reflexivity.
Qed.
