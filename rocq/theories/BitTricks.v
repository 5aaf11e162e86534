(** * BitTricks.v -- what clients do with the bits of a number *)
From Coq Require Import ZArith Reals List Bool Lia Lra.
From Flocq Require Import Core.
From Verif Require Import Machine Ieee Spec Norm Arith Order Bits BitOrder Scale Special Int Integral Algebra Laws Total Reach Formats IntExpr Samples Eft Interval.
Import ListNotations.
Local Open Scope Z_scope.
Ltac Zify.zify_post_hook ::= idtac.

(** the pattern with exponent field for 2^e and fraction k *)
Definition pattern (bits eb e k : Z) : Z := (e + (2 ^ (eb - 1) - 1)) * 2 ^ (bits - 1 - eb) + k.
(** an integer put into the fraction of 2^e, and 2^e taken off again: with e = 0 a uniform number in [0, 1) from random bits,
    with e = t the integer itself; src/ieee.rs:1566 [from_bits], src/ieee.rs:1070 [sub_r] *)
Definition c_fraction (S : Semantics) (bits eb e k : Z) (m : Round) : outcome (Z * Float) :=
  let! y := from_bits S (pattern bits eb e k) in
  let! o := from_bits S (pattern bits eb e 0) in
  sub_r S y o m.
(** rounding to an integer by adding a large number and taking it off again; src/ieee.rs:1009 [add_r], src/ieee.rs:1070 [sub_r] *)
Definition c_magic (S : Semantics) (M x : Float) (m : Round) : outcome Float :=
  let! '(_, y) := add_r S x M m in
  let! '(_, z) := sub_r S y M m in
  Ret z.

Section Patterns.
Variables (bits eb : Z) (nf : NonfiniteBehavior).
Hypothesis HI : In (bits, eb, nf) interchange_formats.
Let S := ieee_semantics bits eb nf.
Let t := bits - 1 - eb.
Let HS : sem_ok S := proj1 (interchange_ok bits eb nf HI).
Let Hbits : bits <= 128 := proj2 (interchange_ok bits eb nf HI).

Lemma pattern_number : forall e k, MIN_EXP S <= e < MAX_EXP S -> 0 <= k < 2 ^ t ->
  exists y, from_bits S (pattern bits eb e k) = Ret y /\ wf S y /\ finite y /\ sign y = false /\ value S y = (bpow r2 e + IZR k * bpow r2 (e - t))%R.
Proof.
  intros e k He Hk. destruct (geometry bits eb nf HS) as [G1 [G2 [G3 [G4 [G5 [G6 [G7 G8]]]]]]]. fold S in G3, G4, G5, G6. fold t in G2, G3.
  assert (Pt : 0 < 2 ^ t) by (apply Z.pow_pos_nonneg; lia). set (E := e + (2 ^ (eb - 1) - 1)).
  assert (HE : 1 <= E < 2 ^ eb - 1).
  { unfold E. destruct nf; lia. }
  assert (B1 : pattern bits eb e k = E * 2 ^ t + k) by reflexivity.
  assert (B0 : 2 ^ (bits - 1) = 2 ^ eb * 2 ^ t) by (rewrite <- Z.pow_add_r by lia; f_equal; unfold t; lia).
  assert (B2 : 0 <= pattern bits eb e k < 2 ^ (bits - 1)) by (rewrite B1, B0; nia).
  assert (B3 : 2 ^ bits = 2 * 2 ^ (bits - 1)) by (rewrite <- Z.pow_succ_r by (unfold t in *; lia); f_equal; lia).
  assert (FE : field_exp bits eb (pattern bits eb e k) = E).
  { unfold field_exp. rewrite B1. fold t. rewrite Z.div_add_l by lia. rewrite (Z.div_small k) by lia. rewrite Z.add_0_r. apply Z.mod_small. lia. }
  assert (FF : field_frac bits eb (pattern bits eb e k) = k).
  { unfold field_frac. rewrite B1. fold t. rewrite Z.add_comm, Z.mod_add by lia. apply Z.mod_small. lia. }
  assert (FS : field_sign bits (pattern bits eb e k) = false) by (unfold field_sign; rewrite Z.div_small by lia; reflexivity).
  destruct (bits_roundtrip bits eb nf HS Hbits (pattern bits eb e k) ltac:(lia)) as [z [Ez [Wz _]]]. fold S in Ez, Wz.
  destruct (from_bits_denotes_crate bits eb nf HI (pattern bits eb e k) ltac:(lia)) as [y [Ey [Sy D]]]. fold S in Ey, D.
  rewrite Ez in Ey. injection Ey as ->. exists y. split; [exact Ez|]. split; [exact Wz|].
  unfold decoded in D. rewrite FE, FF, FS in D. destruct (Z.eqb_spec E (2 ^ eb - 1)); [lia|]. destruct (Z.eqb_spec E 0); [lia|].
  destruct D as [Fy Vy]. split; [exact Fy|]. split; [rewrite Sy; exact FS|]. rewrite Vy. fold t. unfold E.
  replace (e + (2 ^ (eb - 1) - 1) - (2 ^ (eb - 1) - 1) - t) with (e - t) by lia.
  rewrite plus_IZR, IZR_pow2 by lia. rewrite Rmult_1_l, Rmult_plus_distr_r, <- bpow_plus. replace (t + (e - t)) with e by lia. reflexivity.
Qed.

Theorem fraction_exact : forall e k m, MIN_EXP S <= e < MAX_EXP S -> 0 <= k < 2 ^ t ->
  exists r, c_fraction S bits eb e k m = Ret (OK, r) /\ wf S r /\ finite r /\ value S r = (IZR k * bpow r2 (e - t))%R.
Proof.
  intros e k m He Hk. destruct (geometry bits eb nf HS) as [G1 [G2 [G3 [G4 [G5 [G6 [G7 G8]]]]]]]. fold S in G3, G4, G5, G6. fold t in G2, G3.
  assert (Pt : 0 < 2 ^ t) by (apply Z.pow_pos_nonneg; lia).
  destruct (pattern_number e k He Hk) as [y [Ey [Wy [Fy [_ Vy]]]]]. destruct (pattern_number e 0 He ltac:(lia)) as [o [Eo [Wo [Fo [_ Vo]]]]].
  unfold c_fraction. rewrite Ey. cbn [bind]. rewrite Eo. cbn [bind].
  pose proof (sub_r_crate S y o m HS Wy Wo Fy Fo) as C.
  replace (value S y - value S o)%R with (IZR k * bpow r2 (e - t))%R in C by (rewrite Vy, Vo; ring).
  refine (exactly S m _ _ _ HS _ C). split.
  - apply generic_format_FLT. exists (Defs.Float r2 k (e - t)); cbn [Fnum Fexp]; [reflexivity| |].
    + rewrite G3. change (Z.pow r2 (t + 1)) with (2 ^ (t + 1)). rewrite Z.pow_add_r by lia. change (2 ^ 1) with 2. lia.
    + rewrite G3. lia.
  - apply Rle_trans with (bpow r2 e).
    + rewrite Rabs_mult, (Rabs_pos_eq (bpow _ _)) by apply bpow_ge_0. rewrite <- abs_IZR. replace (bpow r2 e) with (IZR (2 ^ t) * bpow r2 (e - t))%R
        by (rewrite IZR_pow2 by lia; rewrite <- bpow_plus; f_equal; lia).
      apply Rmult_le_compat_r; [apply bpow_ge_0|]. apply IZR_le. lia.
    + pose proof (value_le_max S o HS Wo) as L. rewrite Vo, Rmult_0_l, Rplus_0_r, Rabs_pos_eq in L by apply bpow_ge_0. exact L.
Qed.

Lemma normal_sig : forall x, wf S x -> finite x -> (min_normal S <= Rabs (value S x))%R ->
  category x = Normal /\ 2 ^ t <= sig x < 2 * 2 ^ t /\ MIN_EXP S <= exp x <= MAX_EXP S /\
  Rabs (value S x) = (IZR (sig x) * bpow r2 (exp x - t))%R /\ (bpow r2 (exp x) <= Rabs (value S x) < bpow r2 (exp x + 1))%R.
Proof.
  intros x Wx Fx N. destruct (geometry bits eb nf HS) as [G1 [G2 [G3 [G4 [G5 [G6 [G7 G8]]]]]]]. fold S in G3, G4, G5, G6. fold t in G2, G3.
  assert (P : (0 < min_normal S)%R) by apply bpow_gt_0.
  destruct Fx as [C|C]; [|exfalso; unfold value in N; rewrite C in N; rewrite Rabs_R0 in N; lra].
  split; [exact C|]. pose proof Wx as [_ [_ W]]. rewrite C in W. destruct W as [_ [W _]].
  destruct (ikey_normal bits eb nf HS x Wx C) as [_ [K1 [K2 K3]]]. fold t in K1, K3. fold S in K2, K3.
  assert (V : Rabs (value S x) = (IZR (sig x) * bpow r2 (exp x - t))%R).
  { rewrite value_mag by exact C. rewrite sgnr_abs by (apply Rlt_le, mag_pos; assumption). unfold mag. rewrite G3. do 3 f_equal. lia. }
  assert (B : forall z e, (IZR z * bpow r2 (e - t) < bpow r2 e)%R <-> z < 2 ^ t).
  { intros z e. replace (bpow r2 e) with (IZR (2 ^ t) * bpow r2 (e - t))%R by (rewrite IZR_pow2 by lia; rewrite <- bpow_plus; f_equal; lia).
    pose proof (bpow_gt_0 r2 (e - t)). split; intros H0.
    - apply lt_IZR. apply Rmult_lt_reg_r with (bpow r2 (e - t)); assumption.
    - apply Rmult_lt_compat_r; [assumption|]. apply IZR_lt. exact H0. }
  assert (L : 2 ^ t <= sig x).
  { destruct K3 as [K3|K3]; [|exact K3]. destruct (Z_le_gt_dec (2 ^ t) (sig x)) as [L|L]; [exact L|]. exfalso.
    assert (L' : sig x < 2 ^ t) by lia. apply (B (sig x) (exp x)) in L'. rewrite <- V, K3 in L'. unfold min_normal in N. lra. }
  split; [lia|]. split; [exact W|]. split; [exact V|]. rewrite V. split.
  - apply Rnot_lt_le. intros H0. apply B in H0. lia.
  - rewrite bpow_plus. change (bpow r2 1) with 2%R.
    replace (bpow r2 (exp x)) with (IZR (2 ^ t) * bpow r2 (exp x - t))%R by (rewrite IZR_pow2 by lia; rewrite <- bpow_plus; f_equal; lia).
    replace (IZR (2 ^ t) * bpow r2 (exp x - t) * 2)%R with (IZR (2 * 2 ^ t) * bpow r2 (exp x - t))%R by (rewrite mult_IZR; ring).
    apply Rmult_lt_compat_r; [apply bpow_gt_0|]. apply IZR_lt. lia.
Qed.
Lemma bits_normal : forall x, wf S x -> finite x -> (min_normal S <= Rabs (value S x))%R ->
  to_bits S x = Ret (b2z (sign x) * 2 ^ (bits - 1) + (exp x - MIN_EXP S + 1) * 2 ^ t + (sig x - 2 ^ t)).
Proof.
  intros x Wx Fx N. destruct (normal_sig x Wx Fx N) as [C _].
  destruct (ikey_normal bits eb nf HS x Wx C) as [K _]. fold t in K. fold S in K.
  unfold S in Wx |- *. rewrite (to_bits_fields bits eb nf HS Hbits x Wx). fold t. fold S. unfold ikey in K. fold t in K. f_equal. lia.
Qed.

Theorem scale_bits : forall x k m, wf S x -> finite x -> (min_normal S <= Rabs (value S x))%R ->
  (min_normal S <= Rabs (value S x) * bpow r2 k <= max_finite S)%R ->
  exists b r, to_bits S x = Ret b /\ scalbn_r S x k m = Ret r /\ to_bits S r = Ret (b + k * 2 ^ t).
Proof.
  intros x k m Wx Fx N [L H]. destruct (normal_sig x Wx Fx N) as [C [Sx [Ex [Vx Bx]]]].
  destruct (geometry bits eb nf HS) as [G1 [G2 [G3 [G4 [G5 [G6 [G7 G8]]]]]]]. fold S in G3, G4, G5, G6. fold t in G2, G3.
  assert (A : Rabs (value S x * bpow r2 k) = (Rabs (value S x) * bpow r2 k)%R) by (rewrite Rabs_mult, (Rabs_pos_eq (bpow _ _)) by apply bpow_ge_0; reflexivity).
  assert (Ek : MIN_EXP S <= exp x + k).
  { assert (MIN_EXP S < exp x + 1 + k); [|lia]. apply (lt_bpow r2). rewrite bpow_plus. apply Rle_lt_trans with (1 := L).
    apply Rmult_lt_compat_r; [apply bpow_gt_0|]. apply Bx. }
  assert (R : representable S (value S x * bpow r2 k)).
  { split; [|rewrite A; exact H]. apply generic_format_FLT. exists (Defs.Float r2 (signed (sign x) (sig x)) (exp x + k - t)); cbn [Fnum Fexp].
    - unfold value. rewrite C. unfold F2R. cbn [Fnum Fexp]. rewrite G3, Rmult_assoc, <- bpow_plus. do 2 f_equal. lia.
    - rewrite G3. change (Z.pow r2 (t + 1)) with (2 ^ (t + 1)). rewrite Z.pow_add_r by lia. change (2 ^ 1) with 2. unfold signed. destruct (sign x); lia.
    - rewrite G3. lia. }
  destruct (scalbn_r_crate S x k m HS Wx C) as [st [r [E D]]]. assert (W : wf S r) by apply D.
  destruct (cr_representable S m _ _ st r HS R D) as [_ [F V]].
  assert (Nr : (min_normal S <= Rabs (value S r))%R) by (rewrite V, A; exact L).
  destruct (normal_sig r W F Nr) as [Cr [Sr [Er [Vr Br]]]].
  do 2 eexists. split; [exact (bits_normal x Wx Fx N)|]. split; [exact E|]. rewrite (bits_normal r W F Nr).
  assert (Ee : exp r = exp x + k).
  { rewrite V, A in Br. apply Z.le_antisymm.
    - assert (exp r < exp x + 1 + k); [|lia]. apply (lt_bpow r2). rewrite (bpow_plus _ (exp x + 1)). apply Rle_lt_trans with (1 := proj1 Br).
      apply Rmult_lt_compat_r; [apply bpow_gt_0|]. apply Bx.
    - assert (exp x + k < exp r + 1); [|lia]. apply (lt_bpow r2). rewrite (bpow_plus _ (exp x)). apply Rle_lt_trans with (2 := proj2 Br).
      apply Rmult_le_compat_r; [apply bpow_ge_0|]. apply Bx. }
  assert (Es : sig r = sig x).
  { rewrite V, A, Vx, Ee, Rmult_assoc, <- bpow_plus in Vr. replace (exp x - t + k) with (exp x + k - t) in Vr by lia.
    apply Rmult_eq_reg_r in Vr; [|apply Rgt_not_eq, bpow_gt_0]. symmetry. apply eq_IZR. exact Vr. }
  assert (Eg : sign r = sign x).
  { pose proof (normal_sign S x Wx C) as Q1. pose proof (normal_sign S r W Cr) as Q2. rewrite V in Q2. pose proof (bpow_gt_0 r2 k).
    destruct (sign x), (sign r); try reflexivity; exfalso; nra. }
  rewrite Ee, Es, Eg. f_equal. ring.
Qed.

Theorem ilogb_bits : forall x b, wf S x -> finite x -> (min_normal S <= Rabs (value S x))%R -> to_bits S x = Ret b ->
  ilogb S x = Ret (field_exp bits eb b - (2 ^ (eb - 1) - 1)).
Proof.
  intros x b Wx Fx N Eb. destruct (normal_sig x Wx Fx N) as [C [Sx [Ex [Vx Bx]]]].
  destruct (geometry bits eb nf HS) as [G1 [G2 [G3 [G4 [G5 [G6 [G7 G8]]]]]]]. fold S in G3, G4, G5, G6. fold t in G2, G3.
  assert (Pt : 0 < 2 ^ t) by (apply Z.pow_pos_nonneg; lia).
  destruct (ilogb_normal S x HS Wx C) as [e [E [B _]]]. rewrite E. f_equal.
  assert (e = exp x).
  { apply Z.le_antisymm.
    - assert (e < exp x + 1); [|lia]. apply (lt_bpow r2). lra.
    - assert (exp x < e + 1); [|lia]. apply (lt_bpow r2). lra. }
  rewrite (bits_normal x Wx Fx N) in Eb.
  match type of Eb with Ret ?q = _ => assert (b = q) as -> by congruence end. unfold field_exp. fold t.
  replace (2 ^ (bits - 1)) with (2 ^ eb * 2 ^ t) by (rewrite <- Z.pow_add_r by lia; f_equal; unfold t; lia).
  replace (b2z (sign x) * (2 ^ eb * 2 ^ t) + (exp x - MIN_EXP S + 1) * 2 ^ t + (sig x - 2 ^ t)) with ((b2z (sign x) * 2 ^ eb + (exp x - MIN_EXP S + 1)) * 2 ^ t + (sig x - 2 ^ t)) by ring.
  rewrite Z.div_add_l by lia. rewrite (Z.div_small (sig x - 2 ^ t)) by lia.
  rewrite Z.add_0_r, Z.add_comm, Z.mod_add by lia. rewrite Z.mod_small by (destruct nf; lia). lia.
Qed.
End Patterns.

(** ** Rounding by a magic number *)
(** what the two operations do in each mode: x + M is positive, so TowardZero goes down and ties away from zero go up *)
Definition magic_rnd (m : Round) (v : R) : Z :=
  match m with
  | NearestTiesToEven => ZnearestE v
  | NearestTiesToAway => Zfloor (v + / 2)
  | TowardPositive => Zceil v
  | TowardNegative | TowardZero => Zfloor v
  end.
Lemma floor_shift : forall v n, Zfloor (v + IZR n) = Zfloor v + n.
Proof.
  intros v n. apply Zfloor_imp. pose proof (Zfloor_lb v). pose proof (Zfloor_ub v). rewrite !plus_IZR. lra.
Qed.
Lemma ceil_shift : forall v n, Zceil (v + IZR n) = Zceil v + n.
Proof.
  intros v n. unfold Zceil. rewrite Ropp_plus_distr, <- opp_IZR, floor_shift. lia.
Qed.
Lemma nearest_shift : forall c v n, Znearest c (v + IZR n) =
  match Rcompare (v - IZR (Zfloor v)) (/ 2) with
  | Lt => Zfloor v + n | Eq => if c (Zfloor v + n) then Zceil v + n else Zfloor v + n | Gt => Zceil v + n
  end.
Proof.
  intros c v n. unfold Znearest. rewrite floor_shift, ceil_shift, plus_IZR.
  replace (v + IZR n - (IZR (Zfloor v) + IZR n))%R with (v - IZR (Zfloor v))%R by ring. reflexivity.
Qed.
Lemma rnd_shift : forall m v n, Z.even n = true -> (0 <= v + IZR n)%R -> rnd_of m (v + IZR n) = magic_rnd m v + n.
Proof.
  intros m v n Hn Hv. destruct m; cbn [rnd_of magic_rnd].
  - rewrite nearest_shift. unfold Znearest. destruct (Rcompare _ _); [|reflexivity..]. rewrite Z.even_add, Hn.
    destruct (Z.even (Zfloor v)); cbn [Bool.eqb negb]; reflexivity.
  - apply ceil_shift.
  - apply floor_shift.
  - rewrite Ztrunc_floor by exact Hv. apply floor_shift.
  - rewrite nearest_shift.
    assert (Hf : 0 <= Zfloor v + n) by (rewrite <- floor_shift; apply Zfloor_lub; exact Hv).
    rewrite (Zle_bool_true _ _ Hf). pose proof (Zfloor_lb v) as L. pose proof (Zfloor_ub v) as U.
    destruct (Rcompare_spec (v - IZR (Zfloor v)) (/ 2)) as [Q|Q|Q].
    + rewrite (Zfloor_imp (Zfloor v) (v + / 2)); [reflexivity|]. rewrite plus_IZR. lra.
    + rewrite (Zfloor_imp (Zfloor v + 1) (v + / 2)) by (rewrite !plus_IZR; lra). rewrite Zceil_floor_neq by lra. reflexivity.
    + rewrite (Zfloor_imp (Zfloor v + 1) (v + / 2)) by (rewrite !plus_IZR; lra). rewrite Zceil_floor_neq by lra. reflexivity.
Qed.

Section Magic.
Variable S : Semantics.
Hypothesis HS : sem_ok S.
Local Instance valid_here : Valid_exp (fexp S) := fexp_valid S HS.
Notation p := (PRECISION S).

Lemma unit_round : forall m v, (bpow r2 (p - 1) <= v <= bpow r2 p)%R -> rounded S m v = IZR (rnd_of m v).
Proof.
  intros m v [L H]. pose proof (ok_prec S HS) as K. pose proof (ok_min S HS) as K1. destruct (Rle_lt_or_eq_dec _ _ H) as [B|B].
  - unfold rounded, round, scaled_mantissa, cexp. rewrite (mag_unique_pos r2 v p) by (split; assumption).
    replace (fexp S p) with 0 by (unfold fexp, FLT_exp; lia). unfold F2R. cbn [Fnum Fexp]. rewrite !Rmult_1_r. reflexivity.
  - rewrite B. rewrite <- IZR_pow2 by lia. rewrite rounded_format by (apply int_format; [exact HS|rewrite Z.abs_eq by (apply Z.pow_nonneg; lia); lia]).
    f_equal. destruct m; cbn [rnd_of]; symmetry; [apply Zrnd_IZR; apply valid_rnd_N|apply Zceil_IZR|apply Zfloor_IZR|apply Ztrunc_IZR|apply Zrnd_IZR; apply valid_rnd_N].
Qed.

Theorem magic_round : forall M x m, wf S M -> finite M -> value S M = (3 * bpow r2 (p - 2))%R ->
  wf S x -> finite x -> (Rabs (value S x) <= bpow r2 (p - 2))%R ->
  exists z, c_magic S M x m = Ret z /\ wf S z /\ finite z /\ value S z = IZR (magic_rnd m (value S x)).
Proof.
  intros M x m WM FM VM Wx Fx B. pose proof (ok_prec S HS) as K. pose proof (ok_max S HS) as K1.
  assert (P0 : (0 < bpow r2 (p - 2))%R) by apply bpow_gt_0.
  assert (P1 : bpow r2 (p - 1) = (2 * bpow r2 (p - 2))%R) by (change 2%R with (bpow r2 1); rewrite <- bpow_plus; f_equal; lia).
  assert (P2 : bpow r2 p = (4 * bpow r2 (p - 2))%R) by (change 4%R with (bpow r2 2); rewrite <- bpow_plus; f_equal; lia).
  assert (VM' : value S M = IZR (3 * 2 ^ (p - 2))) by (rewrite VM, mult_IZR, IZR_pow2 by lia; reflexivity).
  assert (I0 : 0 < 2 ^ (p - 2)) by (apply Z.pow_pos_nonneg; lia).
  assert (I2 : 2 ^ p = 4 * 2 ^ (p - 2)) by (change 4 with (2 ^ 2); rewrite <- Z.pow_add_r by lia; f_equal; lia).
  apply Rabs_le_inv in B. set (v := value S x) in *. set (n := 3 * 2 ^ (p - 2)) in *.
  assert (R1 : rounded S m (v + value S M) = IZR (magic_rnd m v + n)).
  { rewrite unit_round by (rewrite VM; lra). rewrite VM'. f_equal. apply rnd_shift.
    - unfold n. rewrite Z.even_mul. replace (p - 2) with (Z.succ (p - 3)) by lia. rewrite Z.pow_succ_r, Z.even_mul by lia. reflexivity.
    - rewrite <- VM', VM. lra. }
  assert (Q : - 2 ^ (p - 2) <= magic_rnd m v <= 2 ^ (p - 2)).
  { assert (- 2 ^ (p - 2) + n <= magic_rnd m v + n <= 2 ^ (p - 2) + n); [|lia].
    assert (FI : forall i, Z.abs i <= 2 ^ p -> rounded S m (IZR i) = IZR i) by (intros i Hi; apply rounded_format, int_format; assumption).
    split; apply le_IZR; rewrite <- R1.
    - rewrite <- (FI (- 2 ^ (p - 2) + n)) by (unfold n; lia). apply rounded_mono; [exact HS|]. rewrite VM', plus_IZR, opp_IZR, IZR_pow2 by lia. lra.
    - rewrite <- (FI (2 ^ (p - 2) + n)) by (unfold n; lia). apply rounded_mono; [exact HS|]. rewrite VM', plus_IZR, IZR_pow2 by lia. lra. }
  assert (RS : forall i, Z.abs i <= 2 ^ p -> (Rabs (IZR i) <= max_finite S)%R) by (intros i Hi; apply (int_representable S i HS Hi)).
  pose proof (add_r_crate S x M m HS Wx WM Fx FM) as C. fold v in C.
  apply in_range in C; [|rewrite R1; apply RS; unfold n; lia]. destruct C as [st [y [E [W [F V]]]]]. rewrite R1 in V.
  unfold c_magic. rewrite E. cbn [bind].
  pose proof (sub_r_crate S y M m HS W WM F FM) as C.
  replace (value S y - value S M)%R with (IZR (magic_rnd m v)) in C by (rewrite V, VM', plus_IZR; ring).
  destruct (exactly S m _ _ _ HS (int_representable S (magic_rnd m v) HS ltac:(lia)) C) as [z [Ez [Wz [Fz Vz]]]].
  rewrite Ez. cbn [bind]. exists z. auto.
Qed.
(** in three modes it is the rounding to an integer of the crate, up to the sign of zero *)
Corollary magic_integral : forall M x m, wf S M -> finite M -> value S M = (3 * bpow r2 (p - 2))%R ->
  wf S x -> finite x -> (Rabs (value S x) <= bpow r2 (p - 2))%R -> m <> TowardZero -> m <> NearestTiesToAway ->
  exists z st r, c_magic S M x m = Ret z /\ round_to_integral S x m = Ret (st, r) /\ finite z /\ value S z = value S r.
Proof.
  intros M x m WM FM VM Wx Fx B N1 N2. destruct (magic_round M x m WM FM VM Wx Fx B) as [z [E [_ [F V]]]].
  destruct (round_to_integral_finite S x m HS Wx Fx) as [st [r [E' [_ [_ [V' _]]]]]]. exists z, st, r.
  split; [exact E|]. split; [exact E'|]. split; [exact F|]. rewrite V, V'. f_equal. destruct m; solve [reflexivity|congruence].
Qed.
End Magic.

(** the other two modes, the sign of zero, and numbers beyond a quarter of the range *)
Definition h_magic : Float := mkFloat 1536 10 Normal false.
Lemma magic_toward_zero_refuted : exists x z st r, wf HalfS x /\ finite x /\ (Rabs (value HalfS x) <= bpow r2 9)%R /\
  c_magic HalfS h_magic x TowardZero = Ret z /\ round_to_integral HalfS x TowardZero = Ret (st, r) /\ value HalfS z <> value HalfS r.
Proof.
  exists (mkFloat 1536 0 Normal true), (mkFloat 1024 1 Normal true), INEXACT, (mkFloat 1024 0 Normal true).
  split; [sample_wf|]. split; [left; reflexivity|]. split; [unfold value; cbn; rewrite Rabs_left; lra|].
  split; [vm_compute; reflexivity|]. split; [vm_compute; reflexivity|]. unfold value; cbn; lra.
Qed.
Lemma magic_away_refuted : exists x z st r, wf HalfS x /\ finite x /\ (Rabs (value HalfS x) <= bpow r2 9)%R /\
  c_magic HalfS h_magic x NearestTiesToAway = Ret z /\ round_to_integral HalfS x NearestTiesToAway = Ret (st, r) /\ value HalfS z <> value HalfS r.
Proof.
  exists (mkFloat 1536 0 Normal true), (mkFloat 1024 0 Normal true), INEXACT, (mkFloat 1024 1 Normal true).
  split; [sample_wf|]. split; [left; reflexivity|]. split; [unfold value; cbn; rewrite Rabs_left; lra|].
  split; [vm_compute; reflexivity|]. split; [vm_compute; reflexivity|]. unfold value; cbn; lra.
Qed.
Lemma magic_zero_sign_refuted : exists x z st r, wf HalfS x /\ finite x /\ (Rabs (value HalfS x) <= bpow r2 9)%R /\
  c_magic HalfS h_magic x NearestTiesToEven = Ret z /\ round_to_integral HalfS x NearestTiesToEven = Ret (st, r) /\
  category z = Zero /\ category r = Zero /\ sign z = false /\ sign r = true.
Proof.
  exists (mkFloat 1024 (-2) Normal true), h_zero, INEXACT, h_nzero.
  split; [sample_wf|]. split; [left; reflexivity|]. split; [unfold value; cbn; rewrite Rabs_left; lra|].
  split; [vm_compute; reflexivity|]. split; [vm_compute; reflexivity|]. repeat split.
Qed.
Lemma magic_range_refuted : exists x z, wf HalfS x /\ finite x /\ value HalfS x = 515%R /\
  c_magic HalfS h_magic x NearestTiesToEven = Ret z /\ value HalfS z = 516%R.
Proof.
  exists (mkFloat 1030 9 Normal false), (mkFloat 1032 9 Normal false).
  split; [sample_wf|]. split; [left; reflexivity|]. split; [unfold value; cbn; lra|].
  split; [vm_compute; reflexivity|]. unfold value; cbn; lra.
Qed.
