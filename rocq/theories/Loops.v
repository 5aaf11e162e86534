(** * Loops.v -- loops of clients that end: Euclid's algorithm, walking from number to number *)
From Coq Require Import ZArith Reals List Bool Lia Lra Znumtheory.
From Flocq Require Import Core.
From Verif Require Import Machine Ieee Spec Norm Arith Order Bits Next Laws Formats BitOrder Rem Special Int Algebra Reach Flocq754.
Import ListNotations.
Local Open Scope Z_scope.
Ltac Zify.zify_post_hook ::= idtac.

(** ** The clients *)
(** while b is not zero, (a, b) becomes (b, a rem b); src/ieee.rs:1268 [ieee_rem], 1371 [c_fmod];
    the fuel bounds the number of tests of b *)
Fixpoint c_gcd (S : Semantics) (nearest : bool) (fuel : nat) (a b : Float) : outcome Float :=
  match fuel with
  | O => Diverge
  | Datatypes.S fuel =>
    if is_zero b then Ret a
    else
      let! '(_, r) := if nearest then ieee_rem S a b else c_fmod S a b in
      c_gcd S nearest fuel b r
  end.
(** while x < y, x becomes its upper neighbour; src/ieee.rs:1462 [next_up] *)
Fixpoint c_walk (S : Semantics) (fuel : nat) (x y : Float) (count : Z) : outcome (Z * Float) :=
  match fuel with
  | O => Diverge
  | Datatypes.S fuel =>
    let! less := lt_f x y in
    if less then
      let! '(_, x) := next_up S x in
      c_walk S fuel x y (count + 1)
    else Ret (count, x)
  end.
(** while x < x + 1, x becomes x + 1; src/ieee.rs:1009 [add_r] *)
Fixpoint c_count (S : Semantics) (one : Float) (fuel : nat) (x : Float) (count : Z) : outcome (Z * Float) :=
  match fuel with
  | O => Diverge
  | Datatypes.S fuel =>
    let! '(_, y) := add_r S x one NearestTiesToEven in
    let! less := lt_f x y in
    if less then c_count S one fuel y (count + 1) else Ret (count, x)
  end.

(** ** What is claimed *)
(** the number is k times the smallest positive one *)
Definition units (S : Semantics) (x : Float) (k : Z) : Prop := value S x = (IZR k * min_positive S)%R.

(** ** Euclid's algorithm *)
Section Gcd.
Variable S : Semantics.
Hypothesis HS : sem_ok S.
Lemma min_positive_pos : (0 < min_positive S)%R.
Proof. apply bpow_gt_0. Qed.
Lemma units_unique : forall x k k', units S x k -> units S x k' -> k = k'.
Proof.
  intros x k k' H H'. unfold units in *. rewrite H in H'. apply Rmult_eq_reg_r in H'; [|apply Rgt_not_eq, min_positive_pos]. apply eq_IZR. exact H'.
Qed.
Lemma units_zero : forall x k, wf S x -> finite x -> units S x k -> (category x = Zero <-> k = 0).
Proof.
  intros x k W F U. unfold units in U. split.
  - intros C. assert (V : value S x = 0%R) by (unfold value; rewrite C; reflexivity). rewrite V in U. symmetry in U. apply Rmult_integral in U.
    destruct U as [U|U]; [apply eq_IZR; exact U|]. pose proof min_positive_pos. lra.
  - intros ->. rewrite Rmult_0_l in U. destruct F as [C|C]; [exfalso|exact C]. exact (normal_nonzero S x W C U).
Qed.
Lemma units_exist : forall x, wf S x -> exists k, units S x k /\ Z.abs k < 2 ^ (MAX_EXP S - MIN_EXP S + PRECISION S).
Proof.
  intros x W. assert (PG : Prec_gt_0 (PRECISION S)) by (unfold Prec_gt_0; destruct HS; lia).
  pose proof (value_format S x HS W) as G. apply FLT_format_generic in G; [|exact PG]. destruct G as [[n e] H1 _ H3]. cbn [Fnum Fexp] in H3.
  pose proof HS as [Hp Hmin Hmax _]. set (emin := MIN_EXP S - (PRECISION S - 1)) in *.
  assert (U : units S x (n * 2 ^ (e - emin))).
  { unfold units, min_positive. fold emin. rewrite H1. unfold F2R. cbn [Fnum Fexp]. rewrite mult_IZR, IZR_pow2 by lia.
    rewrite Rmult_assoc, <- bpow_plus. replace (e - emin + emin) with e by ring. reflexivity. }
  exists (n * 2 ^ (e - emin)). split; [exact U|]. set (k := n * 2 ^ (e - emin)) in *.
  pose proof (value_le_max S x HS W) as M. unfold units in U. rewrite U, Rabs_mult, <- abs_IZR, (Rabs_pos_eq (min_positive S)) in M by (left; apply min_positive_pos).
  assert (MX : (max_finite S < bpow r2 (MAX_EXP S + 1))%R).
  { unfold max_finite. replace (MAX_EXP S + 1) with (PRECISION S + (MAX_EXP S - (PRECISION S - 1))) by ring. rewrite bpow_plus.
    apply Rmult_lt_compat_r; [apply bpow_gt_0|]. rewrite <- IZR_pow2 by lia. apply IZR_lt. unfold max_sig. destruct (NONFINITE_BEHAVIOR S); lia. }
  apply lt_IZR. rewrite IZR_pow2 by lia. apply Rmult_lt_reg_r with (1 := min_positive_pos). eapply Rle_lt_trans; [exact M|].
  unfold min_positive. rewrite <- bpow_plus. replace (MAX_EXP S - MIN_EXP S + PRECISION S + (MIN_EXP S - (PRECISION S - 1))) with (MAX_EXP S + 1) by ring. exact MX.
Qed.
Lemma gcd_step : forall a b n, Z.gcd b (a - n * b) = Z.gcd a b.
Proof. intros a b n. replace (a - n * b) with (a + (- n) * b) by ring. rewrite Z.gcd_comm, Z.gcd_comm with (n := a). rewrite Z.gcd_comm, Z.gcd_add_mult_diag_r. reflexivity. Qed.
(** one division *)
Lemma rem_step : forall (nearest : bool) a b ka kb, wf S a -> wf S b -> finite a -> finite b -> units S a ka -> units S b kb -> kb <> 0 ->
  exists r kr, (if nearest then ieee_rem S a b else c_fmod S a b) = Ret (OK, r) /\ wf S r /\ finite r /\ units S r kr /\
    Z.gcd kb kr = Z.gcd ka kb /\ Z.abs kr < Z.abs kb /\ (if nearest then 2 * Z.abs kr <= Z.abs kb else kr = Z.rem ka kb).
Proof.
  intros nearest a b ka kb Wa Wb Fa Fb Ua Ub N0.
  assert (Nb : category b = Normal).
  { destruct Fb as [C|C]; [exact C|]. exfalso. apply N0. apply (units_zero b kb Wb); [right; exact C|exact Ub|exact C]. }
  pose proof min_positive_pos as MP.
  assert (UN : forall r n, value S r = (value S a - IZR n * value S b)%R -> units S r (ka - n * kb)).
  { intros r n V. unfold units in *. rewrite V, Ua, Ub, minus_IZR, mult_IZR. ring. }
  assert (AB : forall r k, units S r k -> Rabs (value S r) = (IZR (Z.abs k) * min_positive S)%R).
  { intros r k U. rewrite U, Rabs_mult, abs_IZR, (Rabs_pos_eq (min_positive S)) by lra. reflexivity. }
  destruct nearest.
  - destruct (ieee_rem_finite S a b HS Wa Wb Fa Nb) as [r [n [E [Wr [Fr [V [L _]]]]]]]. exists r, (ka - n * kb).
    pose proof (UN r n V) as U. split; [exact E|]. split; [exact Wr|]. split; [exact Fr|]. split; [exact U|]. split; [apply gcd_step|].
    rewrite (AB _ _ U), (AB _ _ Ub) in L. assert (L' : 2 * Z.abs (ka - n * kb) <= Z.abs kb).
    { apply le_IZR. rewrite mult_IZR. apply Rmult_le_reg_r with (1 := MP). lra. }
    split; [lia|exact L'].
  - destruct (c_fmod_finite S a b HS Wa Wb Fa Nb) as [r [E [Wr [Fr [V [_ L]]]]]]. exists r, (ka - Ztrunc (value S a / value S b) * kb).
    pose proof (UN r _ V) as U. split; [exact E|]. split; [exact Wr|]. split; [exact Fr|]. split; [exact U|]. split; [apply gcd_step|].
    rewrite (AB _ _ U), (AB _ _ Ub) in L. split; [apply lt_IZR; apply Rmult_lt_reg_r with (1 := MP); exact L|].
    assert (Q : (value S a / value S b = IZR ka / IZR kb)%R).
    { rewrite Ua, Ub. field. split; [apply IZR_neq; exact N0|lra]. }
    rewrite Q, Ztrunc_div by exact N0. pose proof (Z.quot_rem ka kb N0). lia.
Qed.
(** the remainder after the next is less than half *)
Lemma half_step : forall kb kr, Z.abs kr < Z.abs kb -> kr <> 0 -> 2 * Z.abs (Z.rem kb kr) < Z.abs kb.
Proof.
  intros kb kr L N. rewrite <- Z.rem_abs by exact N. rewrite Z.rem_mod_nonneg by lia.
  pose proof (Z.mod_pos_bound (Z.abs kb) (Z.abs kr) ltac:(lia)) as B. pose proof (Z.div_mod (Z.abs kb) (Z.abs kr) ltac:(lia)) as D.
  assert (1 <= Z.abs kb / Z.abs kr) by (apply Z.div_le_lower_bound; lia). nia.
Qed.
Lemma zero_test : forall b kb, wf S b -> finite b -> units S b kb -> is_zero b = (kb =? 0).
Proof.
  intros b kb Wb Fb Ub. pose proof (units_zero b kb Wb Fb Ub) as Z0. unfold is_zero. destruct (Z.eqb_spec kb 0) as [E|E].
  - rewrite (proj2 Z0 E). reflexivity.
  - destruct Fb as [C|C]; rewrite C; [reflexivity|]. destruct (E (proj1 Z0 C)).
Qed.
Definition gcd_found (ka kb : Z) (o : outcome Float) : Prop :=
  exists g kg, o = Ret g /\ wf S g /\ finite g /\ units S g kg /\ Z.abs kg = Z.gcd ka kb.
Lemma gcd_done : forall nearest fuel a b ka, wf S a -> finite a -> wf S b -> finite b -> units S a ka -> units S b 0 ->
  gcd_found ka 0 (c_gcd S nearest (Datatypes.S fuel) a b).
Proof.
  intros nearest fuel a b ka Wa Fa Wb Fb Ua Ub. cbn [c_gcd]. rewrite (zero_test b 0 Wb Fb Ub). cbn [Z.eqb].
  exists a, ka. rewrite Z.gcd_0_r. exact (conj eq_refl (conj Wa (conj Fa (conj Ua eq_refl)))).
Qed.
Lemma gcd_nearest : forall n fuel a b ka kb, wf S a -> wf S b -> finite a -> finite b -> units S a ka -> units S b kb ->
  Z.abs kb < 2 ^ Z.of_nat n -> (n < fuel)%nat -> gcd_found ka kb (c_gcd S true fuel a b).
Proof.
  induction n as [|n IH]; intros fuel a b ka kb Wa Wb Fa Fb Ua Ub L H; (destruct fuel as [|fuel]; [lia|]).
  - assert (kb = 0) as -> by (change (2 ^ Z.of_nat 0) with 1 in L; lia). apply gcd_done; assumption.
  - destruct (Z.eq_dec kb 0) as [->|N0]; [apply gcd_done; assumption|]. cbn [c_gcd]. rewrite (zero_test b kb Wb Fb Ub), (proj2 (Z.eqb_neq kb 0) N0).
    destruct (rem_step true a b ka kb Wa Wb Fa Fb Ua Ub N0) as [r [kr [E [Wr [Fr [Ur [G [_ K]]]]]]]]. rewrite E. cbn [bind].
    rewrite Nat2Z.inj_succ, Z.pow_succ_r in L by lia.
    destruct (IH fuel b r kb kr Wb Wr Fb Fr Ub Ur ltac:(lia) ltac:(lia)) as [g [kg [E' [Wg [Fg [Ug A]]]]]].
    exists g, kg. rewrite G in A. exact (conj E' (conj Wg (conj Fg (conj Ug A)))).
Qed.
Lemma gcd_truncated : forall n fuel a b ka kb, wf S a -> wf S b -> finite a -> finite b -> units S a ka -> units S b kb ->
  Z.abs kb < 2 ^ Z.of_nat n -> (2 * n < fuel)%nat -> gcd_found ka kb (c_gcd S false fuel a b).
Proof.
  induction n as [|n IH]; intros fuel a b ka kb Wa Wb Fa Fb Ua Ub L H; (destruct fuel as [|fuel]; [lia|]).
  - assert (kb = 0) as -> by (change (2 ^ Z.of_nat 0) with 1 in L; lia). apply gcd_done; assumption.
  - destruct (Z.eq_dec kb 0) as [->|N0]; [apply gcd_done; assumption|].
    change (c_gcd S false (Datatypes.S fuel) a b) with (if is_zero b then Ret a else let! '(_, r) := c_fmod S a b in c_gcd S false fuel b r).
    rewrite (zero_test b kb Wb Fb Ub), (proj2 (Z.eqb_neq kb 0) N0).
    destruct (rem_step false a b ka kb Wa Wb Fa Fb Ua Ub N0) as [r [kr [E [Wr [Fr [Ur [G [Lr K]]]]]]]]. rewrite E. cbn [bind].
    rewrite Nat2Z.inj_succ, Z.pow_succ_r in L by lia. destruct fuel as [|fuel]; [lia|].
    destruct (Z.eq_dec kr 0) as [->|N1].
    { destruct (gcd_done false fuel b r kb Wb Fb Wr Fr Ub Ur) as [g [kg [E1 [Wg [Fg [Ug A]]]]]]. exists g, kg. rewrite G in A. exact (conj E1 (conj Wg (conj Fg (conj Ug A)))). }
    change (c_gcd S false (Datatypes.S fuel) b r) with (if is_zero r then Ret b else let! '(_, q) := c_fmod S b r in c_gcd S false fuel r q).
    rewrite (zero_test r kr Wr Fr Ur), (proj2 (Z.eqb_neq kr 0) N1).
    destruct (rem_step false b r kb kr Wb Wr Fb Fr Ub Ur N1) as [q [kq [E2 [Wq [Fq [Uq [G2 [_ K2]]]]]]]]. rewrite E2. cbn [bind].
    pose proof (half_step kb kr Lr N1) as HS2. rewrite <- K2 in HS2.
    destruct (IH fuel r q kr kq Wr Wq Fr Fq Ur Uq ltac:(lia) ltac:(lia)) as [g [kg [E' [Wg [Fg [Ug A]]]]]].
    exists g, kg. rewrite G2, G in A. exact (conj E' (conj Wg (conj Fg (conj Ug A)))).
Qed.
Lemma gcd_ends : forall (nearest : bool) fuel a b ka kb, wf S a -> wf S b -> finite a -> finite b -> units S a ka -> units S b kb ->
  (if nearest then 1 else 2) * (MAX_EXP S - MIN_EXP S + PRECISION S) < Z.of_nat fuel ->
  exists g kg, c_gcd S nearest fuel a b = Ret g /\ wf S g /\ finite g /\ units S g kg /\ Z.abs kg = Z.gcd ka kb.
Proof.
  intros nearest fuel a b ka kb Wa Wb Fa Fb Ua Ub H. destruct (units_exist b Wb) as [k [U L]]. rewrite (units_unique b k kb U Ub) in L.
  pose proof HS as [Hp Hmin Hmax _]. set (n := MAX_EXP S - MIN_EXP S + PRECISION S) in *. rewrite <- (Z2Nat.id n) in L by lia.
  destruct nearest; [apply (gcd_nearest (Z.to_nat n))|apply (gcd_truncated (Z.to_nat n))]; try assumption; lia.
Qed.
End Gcd.

(** ** Walking *)
Section Walk.
Variables (bits eb : Z) (nf : NonfiniteBehavior).
Hypothesis HI : In (bits, eb, nf) interchange_formats.
Let S := ieee_semantics bits eb nf.
Lemma walk_ends : forall n fuel x y b c count, wf S x -> wf S y -> category x <> NaN -> category y <> NaN ->
  to_bits S x = Ret b -> to_bits S y = Ret c -> rank bits c - rank bits b = Z.of_nat n -> (n < fuel)%nat ->
  exists r, c_walk S fuel x y count = Ret (count + Z.of_nat n, r) /\ wf S r /\ partial_cmp r y = Ret (Some Eq).
Proof.
  destruct (interchange_ok bits eb nf HI) as [HS HB]. fold S in HS.
  induction n as [|n IH]; intros fuel x y b c count Wx Wy Nx Ny Bx By D L; (destruct fuel as [|fuel]; [lia|]); cbn [c_walk];
    pose proof (encoding_order bits eb nf HS HB x y b c Wx Wy Nx Ny Bx By) as O; unfold lt_f; rewrite O; cbn [bind].
  - assert (Q : rank bits b = rank bits c) by lia. rewrite Q, Z.compare_refl in O |- *. exists x. rewrite Z.add_0_r. exact (conj eq_refl (conj Wx O)).
  - rewrite (proj2 (Z.compare_lt_iff _ _)) by lia.
    destruct (rank_ikey bits eb nf HS HB x b Wx Bx) as [Rx _]. destruct (rank_ikey bits eb nf HS HB y c Wy By) as [Ry _].
    pose proof (not_nan_top bits eb nf HS HB x Wx Nx) as Tx. pose proof (not_nan_top bits eb nf HS HB y Wy Ny) as Ty.
    assert (NI : ~ (category x = Infinity /\ sign x = false)).
    { intros [Cx Sx]. assert (IE : nf = IEEE754) by (destruct Wx as [_ [_ Wx]]; rewrite Cx in Wx; exact Wx).
      assert (IK : ikey bits eb nf x = itop bits eb nf) by (unfold ikey, itop, encode_exp, encode_frac; rewrite Cx, IE; lia).
      rewrite IK, Sx in Rx. unfold signed in Rx, Ry. destruct (sign y); lia. }
    destruct (next_up_encoding bits eb nf HS HB x b Wx Nx NI Bx) as [r [d [E [Br Rr]]]]. fold S in E, Br. rewrite E. cbn [bind].
    assert (Wr : wf S r).
    { destruct (not_nan_ext bits eb nf x Nx) as [a A]. destruct (next_up_spec S x a HS Wx A) as [r' [E' [[Wr _] _]]]. assert (r' = r) by congruence. subst r'. exact Wr. }
    assert (Nr : category r <> NaN).
    { intros C. apply (ikey_nan bits eb nf HS HB r Wr) in C. destruct (rank_ikey bits eb nf HS HB r d Wr Br) as [Rr' _].
      rewrite Rr, Rx in Rr'. unfold signed in *. destruct (sign r), (sign x), (sign y); lia. }
    destruct (IH fuel r y d c (count + 1) Wr Wy Nr Ny Br By ltac:(lia) ltac:(lia)) as [z [E2 [Wz C]]]. exists z. split; [|exact (conj Wz C)].
    rewrite E2. f_equal. f_equal. lia.
Qed.
End Walk.
Lemma walk_ends_crate : forall bits eb nf, In (bits, eb, nf) interchange_formats -> let S := ieee_semantics bits eb nf in
  forall fuel x y b c, wf S x -> wf S y -> category x <> NaN -> category y <> NaN ->
  to_bits S x = Ret b -> to_bits S y = Ret c -> 0 <= rank bits c - rank bits b < Z.of_nat fuel ->
  exists r, c_walk S fuel x y 0 = Ret (rank bits c - rank bits b, r) /\ wf S r /\ partial_cmp r y = Ret (Some Eq).
Proof.
  intros bits eb nf HI S fuel x y b c Wx Wy Nx Ny Bx By L.
  destruct (walk_ends bits eb nf HI (Z.to_nat (rank bits c - rank bits b)) fuel x y b c 0 Wx Wy Nx Ny Bx By ltac:(lia) ltac:(lia)) as [r [E K]].
  exists r. fold S in E. rewrite Z.add_0_l, Z2Nat.id in E by lia. exact (conj E K).
Qed.

(** ** Counting *)
Section Count.
Variable S : Semantics.
Hypothesis HS : sem_ok S.
Local Notation p := (PRECISION S).
Lemma lt_f_finite : forall x y, wf S x -> wf S y -> finite x -> finite y -> lt_f x y = Ret (Rlt_bool (value S x) (value S y)).
Proof.
  intros x y Wx Wy Fx Fy. destruct (lt_f_spec S x y HS Wx Wy) as [b [-> H]]. f_equal.
  rewrite (ext_of_finite S x Fx), (ext_of_finite S y Fy) in H. destruct (Rlt_bool_spec (value S x) (value S y)) as [L|L].
  - apply H. exists (Fin (value S x)), (Fin (value S y)). exact (conj eq_refl (conj eq_refl L)).
  - destruct b; [exfalso|reflexivity]. destruct (proj1 H eq_refl) as [a [c [A [C D]]]].
    assert (a = Fin (value S x)) by congruence. assert (c = Fin (value S y)) by congruence. subst a c. cbn in D. lra.
Qed.
Lemma integer_representable : forall k, 0 <= k <= 2 ^ p -> representable S (IZR k).
Proof.
  pose proof HS as [Hp Hmin Hmax _]. assert (PG : Prec_gt_0 p) by (unfold Prec_gt_0; lia).
  assert (P2 : 2 ^ p = 2 * 2 ^ (p - 1)) by (rewrite <- Z.pow_succ_r by lia; f_equal; lia). assert (P4 : 4 <= 2 ^ (p - 1)) by (change 4 with (2 ^ 2); apply Z.pow_le_mono_r; lia).
  intros k H. split.
  - destruct (Z.eq_dec k (2 ^ p)) as [->|N].
    + rewrite IZR_pow2 by lia. apply generic_format_bpow'; [unfold fexp; apply FLT_exp_valid; exact PG|]. unfold fexp, FLT_exp. lia.
    + apply generic_format_FLT. exists (Defs.Float r2 k 0); cbn [Fnum Fexp].
      * unfold F2R. cbn. ring.
      * rewrite Z.abs_eq by lia. change (k < 2 ^ p). lia.
      * lia.
  - rewrite <- abs_IZR, Z.abs_eq by lia. apply Rle_trans with (IZR (2 ^ p)); [apply IZR_le; lia|]. unfold max_finite.
    apply Rle_trans with (IZR (2 ^ p - 2) * bpow r2 1)%R.
    + change (bpow r2 1) with (IZR 2). rewrite <- mult_IZR. apply IZR_le. lia.
    + apply Rmult_le_compat; [apply IZR_le; lia|apply bpow_ge_0|apply IZR_le; unfold max_sig; destruct (NONFINITE_BEHAVIOR S); lia|apply bpow_le; lia].
Qed.
(** the first integer that is not representable goes back to the even one *)
Lemma stuck : rounded S NearestTiesToEven (IZR (2 ^ p) + 1) = IZR (2 ^ p).
Proof.
  pose proof HS as [Hp Hmin Hmax _].
  assert (P2 : 2 ^ p = 2 * 2 ^ (p - 1)) by (rewrite <- Z.pow_succ_r by lia; f_equal; lia). assert (P4 : 4 <= 2 ^ (p - 1)) by (change 4 with (2 ^ 2); apply Z.pow_le_mono_r; lia).
  unfold rounded, round, scaled_mantissa, cexp. rewrite <- plus_IZR.
  assert (M : Raux.mag_val r2 _ (Raux.mag r2 (IZR (2 ^ p + 1))) = p + 1).
  { apply mag_unique. rewrite <- abs_IZR, Z.abs_eq by lia. replace (p + 1 - 1) with p by ring. rewrite <- !IZR_pow2 by lia. split; [apply IZR_le; lia|].
    apply IZR_lt. rewrite Z.pow_add_r by lia. lia. }
  rewrite M. assert (E : fexp S (p + 1) = 1) by (unfold fexp, FLT_exp; lia). rewrite E. change (bpow r2 (- (1))) with (/ 2)%R.
  assert (X : (IZR (2 ^ p + 1) * / 2 = IZR (2 ^ (p - 1)) + / 2)%R) by (rewrite plus_IZR, P2, mult_IZR; lra). rewrite X.
  assert (Fl : Zfloor (IZR (2 ^ (p - 1)) + / 2) = 2 ^ (p - 1)) by (apply Zfloor_imp; rewrite plus_IZR; lra).
  assert (ZN : rnd_of NearestTiesToEven (IZR (2 ^ (p - 1)) + / 2)%R = 2 ^ (p - 1)).
  { cbn [rnd_of]. unfold Znearest. rewrite Fl. replace (IZR (2 ^ (p - 1)) + / 2 - IZR (2 ^ (p - 1)))%R with (/ 2)%R by ring. rewrite Rcompare_Eq by reflexivity.
    assert (EV : Z.even (2 ^ (p - 1)) = true) by (apply Z.even_pow; lia). rewrite EV. reflexivity. }
  rewrite ZN. unfold F2R. cbn [Fnum Fexp]. change (bpow r2 1) with 2%R. rewrite P2, mult_IZR. ring.
Qed.
Variable one : Float.
Hypothesis W1 : wf S one.
Hypothesis F1 : finite one.
Hypothesis V1 : value S one = 1%R.
Lemma count_ends : forall n fuel x count, wf S x -> finite x -> value S x = IZR (2 ^ p - Z.of_nat n) -> Z.of_nat n <= 2 ^ p -> (n < fuel)%nat ->
  exists r, c_count S one fuel x count = Ret (count + Z.of_nat n, r) /\ wf S r /\ finite r /\ value S r = IZR (2 ^ p).
Proof.
  assert (P0 : 0 < 2 ^ p) by (apply Z.pow_pos_nonneg; destruct HS; lia).
  induction n as [|n IH]; intros fuel x count Wx Fx Vx L H; (destruct fuel as [|fuel]; [lia|]); cbn [c_count].
  - rewrite Z.sub_0_r in Vx. destruct (add_r_spec S x one NearestTiesToEven HS Wx W1 Fx F1) as [[st y] [E [Wy [_ [D _]]]]].
    rewrite Vx, V1, stuck in D. destruct (D (proj2 (integer_representable (2 ^ p) ltac:(lia)))) as [Fy [Vy _]]. rewrite E. cbn [bind].
    rewrite (lt_f_finite x y Wx Wy Fx Fy), Vx, Vy, Rlt_bool_false by lra. cbn [bind]. exists x. rewrite Z.add_0_r. exact (conj eq_refl (conj Wx (conj Fx Vx))).
  - set (k := 2 ^ p - Z.of_nat (Datatypes.S n)) in *.
    destruct (add_r_spec S x one NearestTiesToEven HS Wx W1 Fx F1) as [[st y] [E [Wy [_ [D _]]]]].
    assert (K : (value S x + value S one = IZR (2 ^ p - Z.of_nat n))%R) by (rewrite Vx, V1, <- plus_IZR; f_equal; lia).
    destruct (integer_representable (2 ^ p - Z.of_nat n) ltac:(lia)) as [G B]. rewrite K, (rounded_format S _ _ G) in D. destruct (D B) as [Fy [Vy _]].
    rewrite E. cbn [bind]. rewrite (lt_f_finite x y Wx Wy Fx Fy), Vx, Vy, Rlt_bool_true by (apply IZR_lt; lia). cbn [bind].
    destruct (IH fuel y (count + 1) Wy Fy Vy ltac:(lia) ltac:(lia)) as [r [E2 R]]. exists r. rewrite E2. split; [|exact R]. f_equal. f_equal. lia.
Qed.
Lemma count_from : forall fuel x k, wf S x -> finite x -> value S x = IZR k -> 0 <= k <= 2 ^ p -> 2 ^ p - k < Z.of_nat fuel ->
  exists r, c_count S one fuel x 0 = Ret (2 ^ p - k, r) /\ wf S r /\ finite r /\ value S r = IZR (2 ^ p).
Proof.
  intros fuel x k Wx Fx Vx H L. destruct (count_ends (Z.to_nat (2 ^ p - k)) fuel x 0 Wx Fx) as [r [E R]].
  - rewrite Vx. f_equal. lia.
  - lia.
  - lia.
  - exists r. rewrite E, Z.add_0_l, Z2Nat.id by lia. exact (conj eq_refl R).
Qed.
End Count.
