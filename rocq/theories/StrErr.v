(** * StrErr.v -- how far an approximate product or quotient is from the exact one *)
From Coq Require Import ZArith Reals List Bool Lia Lra ZifyBool.
From Flocq Require Import Core Bracket Round.
From Verif Require Import Machine Sig SpecSig Limbs SigProofs SigProofs2 SigProofs3 SigProofs4 Ieee Spec Norm Arith StrNum StrAtt StrCell.
Import ListNotations.
Local Open Scope Z_scope.
Ltac Zify.zify_post_hook ::= idtac.
Local Notation length := List.length.

Lemma IZR_pow2 : forall k, 0 <= k -> IZR (2 ^ k) = bpow r2 k.
Proof. intros k Hk. rewrite <- IZR_Zpower by assumption. reflexivity. Qed.

(** the rounding error of [near], in units of the last place *)
Lemma near_err : forall cp x V f, 0 < cp -> 2 ^ (cp - 1) <= V < 2 ^ cp -> (IZR V * bpow r2 f = near cp x)%R ->
  exists th, (Rabs th <= / 2)%R /\ (x = (IZR V + th) * bpow r2 f)%R /\ (near cp x = x -> th = 0%R).
Proof.
  intros cp x V f Hcp HV E. assert (Prec_gt_0 cp) by exact Hcp. exists (x * bpow r2 (- f) - IZR V)%R.
  assert (bpow r2 (- f) * bpow r2 f = 1)%R as I by (rewrite <- bpow_plus; replace (- f + f) with 0 by lia; reflexivity).
  pose proof (bpow_gt_0 r2 f) as P. pose proof (bpow_gt_0 r2 (- f)) as P'.
  assert (0 < 2 ^ (cp - 1)) by (apply Z.pow_pos_nonneg; lia).
  split; [|split].
  - pose proof (error_le_half_ulp_round r2 (FLX_exp cp) (fun z => negb (Z.even z)) x) as X. fold (near cp x) in X.
    replace (ulp r2 (FLX_exp cp) (near cp x)) with (bpow r2 f) in X.
    + rewrite <- E in X. replace (x * bpow r2 (- f) - IZR V)%R with ((x - IZR V * bpow r2 f) * bpow r2 (- f))%R.
      2:{ transitivity (x * bpow r2 (- f) - IZR V * (bpow r2 (- f) * bpow r2 f))%R; [ring|rewrite I; ring]. }
      rewrite Rabs_mult, (Rabs_pos_eq (bpow r2 (- f))) by lra. rewrite Rabs_minus_sym in X.
      apply Rle_trans with (/ 2 * bpow r2 f * bpow r2 (- f))%R; [apply Rmult_le_compat_r; lra|].
      rewrite Rmult_assoc, (Rmult_comm (bpow r2 f)), I. lra.
    + assert (0 < IZR V * bpow r2 f)%R by (apply Rmult_lt_0_compat; [apply IZR_lt; lia|assumption]).
      rewrite <- E, ulp_neq_0 by lra. f_equal. unfold cexp, FLX_exp.
      rewrite (mag_mult_bpow r2 (IZR V) f) by (apply not_eq_sym, Rlt_not_eq, IZR_lt; lia).
      rewrite mag_bitlen by lia. rewrite (bitlen_unique V cp) by lia. lia.
  - transitivity (x * (bpow r2 (- f) * bpow r2 f))%R; [rewrite I; ring|ring].
  - intro Q. rewrite <- Q, <- E, Rmult_assoc, (Rmult_comm (bpow r2 f)), I. ring.
Qed.

Lemma near_scale : forall cp x k, x <> 0%R -> near cp (x * bpow r2 k) = (near cp x * bpow r2 k)%R.
Proof.
  intros cp x k Hx. unfold near, round, F2R. cbn [Fnum Fexp].
  assert (cexp r2 (FLX_exp cp) (x * bpow r2 k) = cexp r2 (FLX_exp cp) x + k) as Ec.
  { unfold cexp, FLX_exp. rewrite mag_mult_bpow by assumption. lia. }
  unfold scaled_mantissa. rewrite Ec.
  replace (x * bpow r2 k * bpow r2 (- (cexp r2 (FLX_exp cp) x + k)))%R with (x * bpow r2 (- cexp r2 (FLX_exp cp) x))%R.
  - rewrite bpow_plus. ring.
  - rewrite Rmult_assoc, <- bpow_plus. f_equal. f_equal. lia.
Qed.
Lemma near_le : forall cp x y, 0 < cp -> (x <= y)%R -> (near cp x <= near cp y)%R.
Proof. intros cp x y Hcp H. assert (Prec_gt_0 cp) by exact Hcp. apply round_le; [apply FLX_exp_valid; assumption|apply valid_rnd_N|assumption]. Qed.

(** [H], counted in half units of the last place, bounds the distance from
    [V] to the number it stands for, when doubled up to a whole number [D] *)
Definition bounded_by (H : Z) (V : Z) (X : R) : Prop :=
  (H = 0 -> X = IZR V) /\ (forall D, 0 < H <= 2 * D -> (Rabs (X - IZR V) < IZR D)%R).

Definition half_ulps (i1 i2 : Z) (l : Loss) : Z :=
  let inexact := b2z (negb (loss_eqb l ExactlyZero)) in
  if i1 + i2 =? 0 then inexact * 2 else inexact + 2 * (i1 + i2).

Lemma floor_frac : forall n d, 0 < d -> exists r, (0 <= r < 1)%R /\ (IZR n / IZR d = IZR (n / d) + r)%R /\ (n mod d = 0 -> r = 0%R).
Proof.
  intros n d Hd. exists (IZR (n mod d) / IZR d)%R.
  pose proof (Z.mod_pos_bound n d Hd) as [A B]. assert (0 < IZR d)%R as Pd by (apply IZR_lt; assumption).
  split; [split|split].
  - apply Rmult_le_pos; [apply IZR_le; assumption|apply Rlt_le, Rinv_0_lt_compat; assumption].
  - apply Rmult_lt_reg_r with (IZR d); [assumption|]. unfold Rdiv. rewrite Rmult_assoc, Rinv_l by lra.
    rewrite Rmult_1_l, Rmult_1_r. apply IZR_lt. assumption.
  - rewrite (Z.div_mod n d) at 1 by lia. rewrite plus_IZR, mult_IZR. field. lra.
  - intros ->. unfold Rdiv. apply Rmult_0_l.
Qed.
Lemma loss_zero : forall n d, 0 < d -> loss_of (n mod d) d = ExactlyZero <-> n mod d = 0.
Proof.
  intros n d Hd. unfold loss_of. pose proof (Z.mod_pos_bound n d Hd).
  destruct (Z.eqb_spec (n mod d) 0); [tauto|]. split; [|intro; contradiction].
  destruct (2 * (n mod d) ?= d); discriminate.
Qed.
Lemma loss_bit : forall n d, 0 < d -> b2z (negb (loss_eqb (loss_of (n mod d) d) ExactlyZero)) = if n mod d =? 0 then 0 else 1.
Proof.
  intros n d Hd. destruct (Z.eqb_spec (n mod d) 0) as [E|E].
  - apply loss_zero in E; [|assumption]. rewrite E. reflexivity.
  - destruct (loss_eqb (loss_of (n mod d) d) ExactlyZero) eqn:L; [|reflexivity]. apply loss_eqb_exact in L. apply loss_zero in L; [contradiction|assumption].
Qed.

Lemma to_D : forall D k (r : R), (r < IZR k)%R -> k <= D -> (r < IZR D)%R.
Proof. intros D k r H1 H2. apply Rlt_le_trans with (1 := H1). apply IZR_le. assumption. Qed.

Lemma mul_core : forall A B P T th1 th2 : R, (1 <= P)%R -> (P <= A <= 2 * P - 1)%R -> (P <= B <= 2 * P - 1)%R ->
  (T = P /\ A * B < 2 * P * P \/ T = 2 * P)%R -> (Rabs th1 <= / 2)%R -> (Rabs th2 <= / 2)%R ->
  let X := ((A + th1) * (B + th2) / T)%R in
  (Rabs (X - A * B / T) < 2)%R /\ (th1 = 0 \/ th2 = 0 -> Rabs (X - A * B / T) < 1)%R.
Proof.
  intros A B P T th1 th2 HP HA HB HT H1 H2 X.
  assert (0 < T)%R as PT by (destruct HT as [[-> _]| ->]; lra).
  assert (X - A * B / T = (th1 * B + th2 * A + th1 * th2) / T)%R as -> by (unfold X; field; lra).
  assert (Rabs (th1 * th2) <= / 4)%R as H12.
  { rewrite Rabs_mult. replace (/ 4)%R with (/ 2 * / 2)%R by lra. apply Rmult_le_compat; try apply Rabs_pos; assumption. }
  assert (Rabs (th1 * B) <= / 2 * B)%R as HB1 by (rewrite Rabs_mult, (Rabs_pos_eq B) by lra; apply Rmult_le_compat_r; lra).
  assert (Rabs (th2 * A) <= / 2 * A)%R as HA1 by (rewrite Rabs_mult, (Rabs_pos_eq A) by lra; apply Rmult_le_compat_r; lra).
  unfold Rdiv. rewrite Rabs_mult, (Rabs_pos_eq (/ T)) by (apply Rlt_le, Rinv_0_lt_compat; assumption).
  assert (Div : forall u c, (u < c * T)%R -> (u * / T < c)%R).
  { intros u c H. apply Rmult_lt_reg_r with T; [assumption|]. rewrite Rmult_assoc, Rinv_l by lra. lra. }
  pose proof (Rabs_triang (th1 * B + th2 * A) (th1 * th2)) as Tr1. pose proof (Rabs_triang (th1 * B) (th2 * A)) as Tr2.
  split.
  - apply Div. destruct HT as [[-> HAB]| ->]; [|lra].
    assert (A + B < 3 * P)%R; [|lra].
    assert (0 <= (A - P) * (B - P))%R as Q by (apply Rmult_le_pos; lra). nra.
  - intro Hz. apply Div. destruct Hz as [-> | ->].
    + rewrite !Rmult_0_l, Rplus_0_l, Rplus_0_r. destruct HT as [[-> HAB]| ->]; lra.
    + rewrite Rmult_0_l, Rmult_0_r, !Rplus_0_r. destruct HT as [[-> HAB]| ->]; lra.
Qed.

Lemma div_core : forall A B P T th1 th2 : R, (2 <= P)%R -> (P <= A)%R -> (P <= B)%R -> (0 < T)%R ->
  (A * T < 2 * P * B)%R -> (Rabs th1 <= / 2)%R -> (Rabs th2 <= / 2)%R ->
  let X := ((A + th1) * T / (B + th2))%R in
  (Rabs (X - A * T / B) < 3)%R /\ (th1 = 0 -> Rabs (X - A * T / B) < 2)%R /\ (th2 = 0 -> Rabs (X - A * T / B) < 1)%R.
Proof.
  intros A B P T th1 th2 HP HA HB HT HQ H1 H2 X.
  assert (/ 2 <= B + th2 <= B + / 2)%R as HB2 by (apply Rabs_le_inv in H2; lra).
  assert (B - / 2 <= B + th2)%R as HB3 by (apply Rabs_le_inv in H2; lra).
  assert (T < 2 * B)%R as HTB by nra.
  set (Q := (A * T / B)%R) in *. assert (Q * B = A * T)%R as EQ by (unfold Q; field; lra).
  assert (0 < Q)%R as PQ. { unfold Q. apply Rmult_lt_0_compat; [apply Rmult_lt_0_compat; lra|apply Rinv_0_lt_compat; lra]. }
  assert (Q < 2 * P)%R as HQ2 by (apply Rmult_lt_reg_r with B; lra).
  assert (X - Q = (th1 * T - th2 * Q) / (B + th2))%R as ->.
  { unfold X. apply Rmult_eq_reg_r with (B + th2)%R; [|lra]. 
    replace (((A + th1) * T / (B + th2) - Q) * (B + th2))%R with ((A + th1) * T - Q * B - Q * th2)%R by (field; lra).
    rewrite EQ. field. lra. }
  unfold Rdiv. rewrite Rabs_mult, (Rabs_pos_eq (/ (B + th2))) by (apply Rlt_le, Rinv_0_lt_compat; lra).
  assert (Div : forall u c, (u < c * (B + th2))%R -> (u * / (B + th2) < c)%R).
  { intros u c H. apply Rmult_lt_reg_r with (B + th2)%R; [lra|]. rewrite Rmult_assoc, Rinv_l by lra. lra. }
  assert (Rabs (th1 * T) <= / 2 * T)%R as HB1 by (rewrite Rabs_mult, (Rabs_pos_eq T) by lra; apply Rmult_le_compat_r; lra).
  assert (Rabs (th2 * Q) <= / 2 * Q)%R as HA1 by (rewrite Rabs_mult, (Rabs_pos_eq Q) by lra; apply Rmult_le_compat_r; lra).
  assert (Rabs (th1 * T - th2 * Q) <= Rabs (th1 * T) + Rabs (th2 * Q))%R as Tr.
  { unfold Rminus. rewrite <- (Rabs_Ropp (th2 * Q)). apply Rabs_triang. }
  split; [apply Div; lra|]. split; intro E; subst; apply Div.
  - rewrite Rmult_0_l in *. rewrite Rabs_R0 in Tr. lra.
  - rewrite (Rmult_0_l Q) in *. rewrite Rabs_R0 in Tr. lra.
Qed.

(** an approximate product, truncated *)
Lemma mul_bounded : forall cp a b th1 th2 i1 i2, 1 <= cp -> 2 ^ (cp - 1) <= a < 2 ^ cp -> 2 ^ (cp - 1) <= b < 2 ^ cp ->
  (Rabs th1 <= / 2)%R -> (Rabs th2 <= / 2)%R ->
  (i1 = 0 /\ th1 = 0%R \/ i1 = 1) -> (i2 = 0 /\ th2 = 0%R \/ i2 = 1) ->
  let sh := bitlen (a * b) - cp in
  0 <= sh <= cp /\ 2 ^ (cp - 1) <= a * b / 2 ^ sh < 2 ^ cp /\
  bounded_by (half_ulps i1 i2 (loss_of ((a * b) mod 2 ^ sh) (2 ^ sh))) (a * b / 2 ^ sh)
    ((IZR a + th1) * (IZR b + th2) / IZR (2 ^ sh)).
Proof.
  intros cp a b th1 th2 i1 i2 Hcp Ha Hb H1 H2 I1 I2 sh.
  assert (0 < 2 ^ (cp - 1)) as P0 by (apply Z.pow_pos_nonneg; lia).
  assert (2 ^ cp = 2 * 2 ^ (cp - 1)) as P2 by (rewrite <- Z.pow_succ_r by lia; f_equal; lia).
  set (P := 2 ^ (cp - 1)) in *.
  assert (0 < a * b) as Pab by nia.
  assert (P * P = 2 ^ (2 * cp - 2)) as EP by (unfold P; rewrite <- Z.pow_add_r by lia; f_equal; lia).
  pose proof (bitlen_spec (a * b) Pab) as [B1 B2].
  assert (bitlen (a * b) = 2 * cp - 1 /\ a * b < 2 * P * P \/ bitlen (a * b) = 2 * cp) as HB.
  { destruct (Z_lt_le_dec (a * b) (2 * P * P)) as [L|L].
    - left. split; [|assumption]. apply bitlen_unique; [lia|]. replace (2 * cp - 1 - 1) with (2 * cp - 2) by lia. rewrite <- EP.
      replace (2 * cp - 1) with (Z.succ (2 * cp - 2)) by lia. rewrite Z.pow_succ_r, <- EP by lia. nia.
    - right. apply bitlen_unique; [lia|]. replace (2 * cp - 1) with (Z.succ (2 * cp - 2)) by lia. rewrite Z.pow_succ_r, <- EP by lia.
      replace (2 * cp) with (Z.succ (Z.succ (2 * cp - 2))) by lia. rewrite !Z.pow_succ_r, <- EP by lia. nia. }
  assert (0 <= sh <= cp) as Hsh by lia. split; [assumption|].
  set (T := 2 ^ sh). assert (0 < T) as PT by (apply Z.pow_pos_nonneg; lia).
  split.
  { pose proof (bitlen_shiftr (a * b) sh ltac:(lia) ltac:(lia)) as Y. fold T in Y. replace (Z.max 0 (bitlen (a * b) - sh)) with cp in Y by lia.
    apply omsb_of_bitlen in Y; [|lia|apply Z.div_pos; lia]. exact Y. }
  assert (IZR T = IZR P /\ IZR a * IZR b < 2 * IZR P * IZR P \/ IZR T = 2 * IZR P)%R as HT.
  { destruct HB as [[E L]|E].
    - left. split; [f_equal; unfold T, P; f_equal; lia|]. rewrite <- !mult_IZR. apply IZR_lt. assumption.
    - right. rewrite <- mult_IZR. f_equal. unfold T. replace sh with cp by lia. assumption. }
  assert (RP : (1 <= IZR P)%R) by (apply IZR_le; lia).
  assert (RA : (IZR P <= IZR a <= 2 * IZR P - 1)%R) by (rewrite <- mult_IZR, <- minus_IZR; split; apply IZR_le; lia).
  assert (RB : (IZR P <= IZR b <= 2 * IZR P - 1)%R) by (rewrite <- mult_IZR, <- minus_IZR; split; apply IZR_le; lia).
  destruct (mul_core _ _ _ _ th1 th2 RP RA RB HT H1 H2) as [C2 C1].
  destruct (floor_frac (a * b) T PT) as [r [Hr [Er Ez]]]. rewrite mult_IZR in Er.
  set (X := ((IZR a + th1) * (IZR b + th2) / IZR T)%R) in *. set (V := a * b / T) in *.
  set (E := (X - IZR a * IZR b / IZR T)%R) in *. assert (EX : (X - IZR V = E + r)%R) by (unfold E; lra).
  assert (Rt : (0 < IZR T)%R) by (apply IZR_lt; assumption).
  unfold bounded_by. set (h := half_ulps _ _ _).
  assert (Hh : h = if i1 + i2 =? 0 then (if (a * b) mod T =? 0 then 0 else 1) * 2 else (if (a * b) mod T =? 0 then 0 else 1) + 2 * (i1 + i2))
    by (unfold h, half_ulps; rewrite loss_bit by assumption; reflexivity). clearbody h.
  assert (Z12 : th1 = 0%R -> th2 = 0%R -> E = 0%R).
  { intros -> ->. unfold E, X. rewrite !Rplus_0_r. lra. }
  clearbody E V.
  destruct I1 as [[-> T1]| ->]; destruct I2 as [[-> T2]| ->]; cbn [Z.add Z.eqb] in Hh.
  - specialize (Z12 T1 T2). destruct (Z.eqb_spec ((a * b) mod T) 0) as [L|L]; cbn in Hh.
    + specialize (Ez L). split; [intros _; lra|intros; lia].
    + split; [lia|]. intros D HD. apply to_D with 1; [|lia]. rewrite EX. apply Rabs_def1; lra.
  - specialize (C1 (or_introl T1)). apply Rabs_def2 in C1. destruct (Z.eqb_spec ((a * b) mod T) 0) as [L|L]; cbn in Hh; (split; [lia|]); intros D HD.
    + specialize (Ez L). apply to_D with 1; [|lia]. rewrite EX. apply Rabs_def1; lra.
    + apply to_D with 2; [|lia]. rewrite EX. apply Rabs_def1; lra.
  - specialize (C1 (or_intror T2)). apply Rabs_def2 in C1. destruct (Z.eqb_spec ((a * b) mod T) 0) as [L|L]; cbn in Hh; (split; [lia|]); intros D HD.
    + specialize (Ez L). apply to_D with 1; [|lia]. rewrite EX. apply Rabs_def1; lra.
    + apply to_D with 2; [|lia]. rewrite EX. apply Rabs_def1; lra.
  - apply Rabs_def2 in C2. destruct (Z.eqb_spec ((a * b) mod T) 0) as [L|L]; cbn in Hh; (split; [lia|]); intros D HD.
    + specialize (Ez L). apply to_D with 2; [|lia]. rewrite EX. apply Rabs_def1; lra.
    + apply to_D with 3; [|lia]. rewrite EX. apply Rabs_def1; lra.
Qed.

(** an approximate quotient, truncated; [j] says whether the divisor was rounded *)
Lemma div_bounded : forall cp a b s th1 th2 i1 j, 2 <= cp -> 2 ^ (cp - 1) <= a < 2 ^ cp -> 2 ^ (cp - 1) <= b < 2 ^ cp ->
  0 <= s -> a * 2 ^ s / b < 2 ^ cp ->
  (Rabs th1 <= / 2)%R -> (Rabs th2 <= / 2)%R ->
  (i1 = 0 /\ th1 = 0%R \/ i1 = 1) -> (j = false -> th2 = 0%R) ->
  let l := loss_of ((a * 2 ^ s) mod b) b in
  bounded_by (half_ulps i1 (2 * b2z (j || negb (loss_eqb l ExactlyZero))) l) (a * 2 ^ s / b)
    ((IZR a + th1) * IZR (2 ^ s) / (IZR b + th2)).
Proof.
  intros cp a b s th1 th2 i1 j Hcp Ha Hb Hs HV H1 H2 I1 J l.
  assert (0 < 2 ^ (cp - 1)) as P0 by (apply Z.pow_pos_nonneg; lia).
  assert (2 ^ cp = 2 * 2 ^ (cp - 1)) as P2 by (rewrite <- Z.pow_succ_r by lia; f_equal; lia).
  assert (2 <= 2 ^ (cp - 1)) as P3 by (apply (Z.pow_le_mono_r 2 1 (cp - 1)); lia).
  set (P := 2 ^ (cp - 1)) in *. set (T := 2 ^ s) in *. assert (0 < T) as PT by (apply Z.pow_pos_nonneg; lia).
  assert (a * T < 2 * P * b) as HQ.
  { rewrite P2 in HV. 
    pose proof (Z.div_mod (a * T) b ltac:(lia)). pose proof (Z.mod_pos_bound (a * T) b ltac:(lia)). nia. }
  assert (RP : (2 <= IZR P)%R) by (apply IZR_le; lia).
  assert (RA : (IZR P <= IZR a)%R) by (apply IZR_le; lia).
  assert (RB : (IZR P <= IZR b)%R) by (apply IZR_le; lia).
  assert (Rt : (0 < IZR T)%R) by (apply IZR_lt; assumption).
  assert (RQ : (IZR a * IZR T < 2 * IZR P * IZR b)%R) by (rewrite <- !mult_IZR; apply IZR_lt; assumption).
  destruct (div_core _ _ _ _ th1 th2 RP RA RB Rt RQ H1 H2) as [C3 [C2 C1]].
  destruct (floor_frac (a * T) b ltac:(lia)) as [r [Hr [Er Ez]]]. rewrite mult_IZR in Er.
  set (X := ((IZR a + th1) * IZR T / (IZR b + th2))%R) in *. set (V := a * T / b) in *.
  set (E := (X - IZR a * IZR T / IZR b)%R) in *. assert (EX : (X - IZR V = E + r)%R) by (unfold E; lra).
  unfold bounded_by. set (h := half_ulps _ _ _).
  assert (Hh : h = let inexact := b2z (negb (loss_eqb l ExactlyZero)) in let i2 := 2 * b2z (j || negb (loss_eqb l ExactlyZero)) in
    if i1 + i2 =? 0 then inexact * 2 else inexact + 2 * (i1 + i2)) by reflexivity. clearbody h.
  assert (Hl : (loss_eqb l ExactlyZero = true /\ r = 0%R) \/ loss_eqb l ExactlyZero = false).
  { destruct (loss_eqb l ExactlyZero) eqn:L; [left|right; reflexivity]. split; [reflexivity|]. apply Ez.
    apply loss_eqb_exact in L. apply loss_zero in L; [assumption|lia]. }
  assert (Z12 : th1 = 0%R -> th2 = 0%R -> E = 0%R).
  { intros -> ->. unfold E, X. rewrite !Rplus_0_r. lra. }
  clearbody E V l. apply Rabs_def2 in C3.
  destruct I1 as [[-> T1]| ->]; destruct j; destruct Hl as [[Hz R0]|Hz]; rewrite Hz in Hh; cbn in Hh;
    (split; [try lia|intros D HD]); try lia.
  - specialize (C2 T1). apply Rabs_def2 in C2. apply to_D with 2; [|lia]. rewrite EX. apply Rabs_def1; lra.
  - specialize (C2 T1). apply Rabs_def2 in C2. apply to_D with 3; [|lia]. rewrite EX. apply Rabs_def1; lra.
  - intros _. specialize (Z12 T1 (J eq_refl)). lra.
  - specialize (Z12 T1 (J eq_refl)). apply to_D with 1; [|lia]. rewrite EX. apply Rabs_def1; lra.
  - apply to_D with 3; [|lia]. rewrite EX. apply Rabs_def1; lra.
  - apply to_D with 4; [|lia]. rewrite EX. apply Rabs_def1; lra.
  - specialize (C1 (J eq_refl)). apply Rabs_def2 in C1. apply to_D with 1; [|lia]. rewrite EX. apply Rabs_def1; lra.
  - specialize (C1 (J eq_refl)). apply Rabs_def2 in C1. apply to_D with 2; [|lia]. rewrite EX. apply Rabs_def1; lra.
Qed.
