(** * FlocqBits.v -- agreement with Flocq on bit patterns *)
From Coq Require Import ZArith Reals List Bool Lia Lra Psatz SpecFloat.
From Flocq Require Import Core.
From Flocq Require BinarySingleNaN Binary.
From Flocq Require IEEE754.Bits.
From Verif Require Import Machine Sig SpecSig Ieee Spec Norm Order Int Next Convert Fma Algebra Laws Through Arith Bits Special Formats FmaFull Integral Scale Samples Flocq754.
Local Open Scope Z_scope.
Ltac Zify.zify_post_hook ::= idtac.

(** the number a float is, with the sign and the payload of a NaN *)
Definition full (S : Semantics) (x : Float) : Binary.full_float :=
  match category x with
  | Zero => Binary.F754_zero (sign x)
  | Infinity => Binary.F754_infinity (sign x)
  | NaN => Binary.F754_nan (sign x) (Z.to_pos (sig x))
  | Normal => Binary.F754_finite (sign x) (Z.to_pos (sig x)) (exp x - (PRECISION S - 1))
  end.

Section Patterns.
Variables bits eb : Z.
Let S := ieee_semantics bits eb IEEE754.
Let t := bits - 1 - eb.
Hypothesis HS : sem_ok S.
Hypothesis Hbits : bits <= 128.
Hypothesis H1 : 0 < t.
Hypothesis H2 : 0 < eb.
Hypothesis H3 : t + 1 < 2 ^ (eb - 1).

Lemma split_same : forall b, 0 <= b < 2 ^ bits -> IEEE754.Bits.split_bits t eb b = (field_sign bits b, field_frac bits eb b, field_exp bits eb b).
Proof.
  intros b B. unfold IEEE754.Bits.split_bits, field_sign, field_frac, field_exp. fold t. f_equal. f_equal.
  rewrite <- Z.pow_add_r by lia. replace (t + eb) with (bits - 1) by (unfold t; lia).
  assert (P : 2 ^ bits = 2 * 2 ^ (bits - 1)). { rewrite <- Z.pow_succ_r by (unfold t in *; lia). f_equal. lia. }
  assert (0 < 2 ^ (bits - 1)) by (apply Z.pow_pos_nonneg; unfold t in *; lia).
  destruct (Z.leb_spec (2 ^ (bits - 1)) b) as [L|L].
  - replace (b / 2 ^ (bits - 1)) with 1; [reflexivity|]. apply Z.div_unique with (r := b - 2 ^ (bits - 1)); lia.
  - rewrite Z.div_small by lia. reflexivity.
Qed.
Lemma from_bits_full : forall b, 0 <= b < 2 ^ bits ->
  exists x, from_bits S b = Ret x /\ wf S x /\ full S x = Binary.B2FF _ _ (IEEE754.Bits.binary_float_of_bits t eb H1 H2 H3 b).
Proof.
  intros b B. destruct (geometry bits eb IEEE754 HS) as [G1 [G2 [G3 [G4 [G5 [G6 [G7 G8]]]]]]]. fold S t in G2, G3, G4, G5, G6.
  assert (W1 : 0 <= b < 2 ^ 128). { split; [lia|]. eapply Z.lt_le_trans; [apply B|]. apply Z.pow_le_mono_r; lia. }
  exists (decode_fields bits eb IEEE754 (field_sign bits b) (field_exp bits eb b) (field_frac bits eb b)).
  assert (RE : 0 <= field_exp bits eb b < 2 ^ eb) by (apply Z.mod_pos_bound, Z.pow_pos_nonneg; lia).
  assert (RF : 0 <= field_frac bits eb b < 2 ^ t) by (apply Z.mod_pos_bound, Z.pow_pos_nonneg; lia).
  split; [apply from_bits_fields; assumption|]. split; [apply decode_wf; assumption|].
  unfold IEEE754.Bits.binary_float_of_bits. rewrite Binary.B2FF_FF2B. unfold IEEE754.Bits.binary_float_of_bits_aux. rewrite split_same by exact B.
  set (s := field_sign bits b) in *. set (E := field_exp bits eb b) in *. set (F := field_frac bits eb b) in *.
  unfold decode_fields. fold S t. 
  assert (EM : SpecFloat.emin (t + 1) (2 ^ (eb - 1)) = MIN_EXP S - t) by (unfold SpecFloat.emin; lia). rewrite EM.
  destruct (Z.eqb_spec E 0) as [E0|E0].
  - rewrite Zeq_bool_true by exact E0. destruct (Z.eqb_spec F 0) as [F0|F0].
    + rewrite F0. reflexivity.
    + unfold full. cbn [category sign sig exp]. destruct F as [|f|f] eqn:EF; try lia. cbn [Z.to_pos]. f_equal. lia.
  - rewrite Zeq_bool_false by exact E0. destruct (Z.eqb_spec E (2 ^ eb - 1)) as [E1|E1].
    + rewrite Zeq_bool_true by exact E1. unfold full. cbn [category sign sig exp]. destruct (Z.eqb_spec F 0) as [F0|F0].
      * rewrite F0. reflexivity.
      * destruct F as [|f|f] eqn:EF; try lia. reflexivity.
    + rewrite Zeq_bool_false by exact E1. unfold full. cbn [category sign sig exp]. rewrite (Z.add_comm F).
      assert (0 < 2 ^ t) by lia. destruct (2 ^ t + F) as [|f|f] eqn:EF; try lia. cbn [Z.to_pos]. f_equal. lia.
Qed.
Lemma to_bits_full : forall x B, wf S x -> full S x = Binary.B2FF _ _ B -> to_bits S x = Ret (IEEE754.Bits.bits_of_binary_float t eb B).
Proof.
  intros x B W E. destruct (geometry bits eb IEEE754 HS) as [G1 [G2 [G3 [G4 [G5 [G6 [G7 G8]]]]]]]. fold S t in G2, G3, G4, G5, G6.
  pose proof (to_bits_fields bits eb IEEE754 HS Hbits x W) as T. fold S t in T. rewrite T. f_equal. clear T.
  assert (J : forall s m e, IEEE754.Bits.join_bits t eb s m e = b2z s * 2 ^ (bits - 1) + e * 2 ^ t + m).
  { intros s m e. unfold IEEE754.Bits.join_bits. rewrite Z.shiftl_mul_pow2 by lia. replace (bits - 1) with (eb + t) by (unfold t; lia).
    rewrite Z.pow_add_r by lia. destruct s; cbn [b2z]; ring. }
  assert (EM : SpecFloat.emin (t + 1) (2 ^ (eb - 1)) = MIN_EXP S - t) by (unfold SpecFloat.emin; lia).
  destruct W as [_ [_ W]].
  unfold full in E. unfold encode_exp, encode_frac. fold S t. unfold IEEE754.Bits.bits_of_binary_float. rewrite EM.
  destruct (category x), B; cbn [Binary.B2FF] in E; try discriminate E; rewrite !J.
  - assert (sign x = s) by congruence. subst s. ring.
  - unfold nan_sig in W. change (NONFINITE_BEHAVIOR S) with IEEE754 in W. change (X87 S) with false in W. cbv iota in W.
    assert (sign x = s) by congruence. assert (Z.to_pos (sig x) = pl) by congruence. subst s pl. rewrite Z2Pos.id by lia. ring.
  - destruct W as [W1 [W2 [W3 W4]]]. assert (sign x = s) by congruence. assert (Z.to_pos (sig x) = m) by congruence.
    assert (e = exp x - (PRECISION S - 1)) by congruence. subst s m e. rewrite Z2Pos.id by lia.
    destruct (Z.leb_spec 0 (sig x - 2 ^ t)) as [L|L]; rewrite ?J; destruct (Z.ltb_spec (sig x) (2 ^ t)); try lia.
  - assert (sign x = s) by congruence. subst s. ring.
Qed.
End Patterns.

(** ** The NaN of an invalid operation *)
Lemma rounded_not_nan : forall S m v zs st r, NONFINITE_BEHAVIOR S = IEEE754 -> correctly_rounded S m v zs (st, r) -> category r <> NaN.
Proof.
  intros S m v zs st r NB [W [_ [D1 D2]]]. destruct (Rle_or_lt (Rabs (rounded S m v)) (max_finite S)) as [L|L].
  - destruct (D1 L) as [[F|F] _]; rewrite F; discriminate.
  - specialize (D2 L). destruct (to_infinity m (sign r)); [destruct D2 as [_ D2]; rewrite NB in D2; rewrite D2; discriminate|destruct D2 as [_ [D2 _]]; rewrite D2; discriminate].
Qed.
Section Defaults.
Variable S : Semantics.
Hypothesis HF : ieee_format S.
Let HS : sem_ok S := if_ok S HF.
Let NB : NONFINITE_BEHAVIOR S = IEEE754 := if_nonfinite S HF.
Definition nan_is_default (o : outcome (Z * Float)) : Prop := forall st r, o = Ret (st, r) -> category r = NaN -> r = NAN S.
Lemma ret_default : forall st r, category r <> NaN \/ r = NAN S -> nan_is_default (Ret (st, r)).
Proof. intros st r H st' r' E C. assert (r' = r) by congruence. subst r'. destruct H; [contradiction|assumption]. Qed.
Lemma add_default : forall x y m, wf S x -> wf S y -> category x <> NaN -> category y <> NaN -> nan_is_default (add_r S x y m).
Proof.
  intros x y m Wx Wy Nx Ny.
  destruct (finite_cases x) as [Fx|[?|Cx]]; [|contradiction|]; destruct (finite_cases y) as [Fy|[?|Cy]]; try contradiction.
  - destruct (add_r_ieee S x y m HS NB Wx Wy Fx Fy) as [[st r] [-> D]]. apply ret_default. left. exact (rounded_not_nan _ _ _ _ _ _ NB D).
  - unfold add_r. rewrite Cy. destruct Fx as [Cx|Cx]; rewrite Cx; unfold is_zero; rewrite Cy; cbn [andb]; apply ret_default; left; rewrite Cy; discriminate.
  - unfold add_r. rewrite Cx. destruct Fy as [Cy|Cy]; rewrite Cy; unfold is_zero; rewrite Cx; cbn [andb]; apply ret_default; left; rewrite Cx; discriminate.
  - unfold add_r. rewrite Cx, Cy. destruct (xorb (is_negative x) (is_negative y)); unfold is_zero; [|rewrite Cx]; cbn [andb category NAN qnan]; apply ret_default; [right; reflexivity|left; rewrite Cx; discriminate].
Qed.
Lemma sub_default : forall x y m, wf S x -> wf S y -> category x <> NaN -> category y <> NaN -> nan_is_default (sub_r S x y m).
Proof.
  intros x y m Wx Wy Nx Ny. unfold sub_r. destruct (category x) eqn:Cx, (category y) eqn:Cy; try contradiction;
    apply add_default; try apply wf_neg; try assumption; try (rewrite Cx; discriminate); unfold neg; cbn [category]; rewrite Cy; discriminate.
Qed.
Lemma negated_category : forall x g, category (negate_if x g) = category x.
Proof. intros x []; reflexivity. Qed.
Lemma copy_sign_category : forall x y, category (copy_sign x y) = category x.
Proof. intros x y. unfold copy_sign. destruct (xorb _ _); reflexivity. Qed.
Lemma INFINITY_ieee : category (INFINITY S) = Infinity.
Proof. unfold INFINITY. rewrite NB. reflexivity. Qed.
Lemma mul_default : forall x y m, wf S x -> wf S y -> category x <> NaN -> category y <> NaN -> nan_is_default (mul_r S x y m).
Proof.
  intros x y m Wx Wy Nx Ny.
  destruct (finite_cases x) as [Fx|[?|Cx]]; [|contradiction|]; destruct (finite_cases y) as [Fy|[?|Cy]]; try contradiction.
  - destruct (mul_r_ieee S x y m HS NB Wx Wy Fx Fy) as [[st r] [-> D]]. apply ret_default. left. exact (rounded_not_nan _ _ _ _ _ _ NB D).
  - unfold mul_r. cbv zeta. rewrite negated_category, Cy. destruct Fx as [Cx|Cx]; rewrite Cx; apply ret_default; [left; rewrite copy_sign_category, INFINITY_ieee; discriminate|right; reflexivity].
  - unfold mul_r. cbv zeta. rewrite negated_category, Cx. destruct Fy as [Cy|Cy]; rewrite Cy; apply ret_default; [left; rewrite copy_sign_category, INFINITY_ieee; discriminate|right; reflexivity].
  - unfold mul_r. cbv zeta. rewrite negated_category, Cx, Cy. apply ret_default. left. rewrite copy_sign_category, INFINITY_ieee. discriminate.
Qed.
Lemma div_default : forall x y m, wf S x -> wf S y -> category x <> NaN -> category y <> NaN -> nan_is_default (div_r S x y m).
Proof.
  intros x y m Wx Wy Nx Ny.
  destruct (category y) eqn:Cy; try contradiction; destruct (category x) eqn:Cx; try contradiction;
    try (unfold div_r; cbv zeta; rewrite negated_category, Cx, Cy; apply ret_default;
         first [right; reflexivity|left; rewrite negated_category, Cx; discriminate|left; rewrite copy_sign_category, INFINITY_ieee; discriminate|left; rewrite copy_sign_category; discriminate]).
  destruct (div_r_ieee S x y m HS NB Wx Wy (or_introl Cx) Cy) as [[st r] [-> D]]. apply ret_default. left. exact (rounded_not_nan _ _ _ _ _ _ NB D).
Qed.

(** ** From numbers to numbers with payloads *)
Notation bfull := (Binary.binary_float (PRECISION S) (MAX_EXP S + 1)).
Context {PG : Prec_gt_0 (PRECISION S)} {PL : BinarySingleNaN.Prec_lt_emax (PRECISION S) (MAX_EXP S + 1)}.
Definition same_full (x : Float) (B : bfull) : Prop := wf S x /\ full S x = Binary.B2FF _ _ B.
Lemma full_same : forall x B, same_full x B -> same S x (Binary.B2BSN _ _ B).
Proof.
  intros x B [W E]. split; [exact W|]. rewrite Binary.B2SF_B2BSN. unfold full in E. unfold view. destruct (category x), B; cbn in E |- *; congruence.
Qed.
Lemma same_full_number : forall x B, same S x (Binary.B2BSN _ _ B) -> category x <> NaN -> same_full x B.
Proof.
  intros x B [W E] N. split; [exact W|]. rewrite Binary.B2SF_B2BSN in E. unfold full. unfold view in E. destruct (category x), B; cbn in E |- *; congruence.
Qed.
Lemma full_nan : forall x B, same_full x B -> Binary.is_nan _ _ B = true <-> category x = NaN.
Proof. intros x B [W E]. unfold full in E. destruct (category x), B; cbn in *; try congruence; split; congruence. Qed.
(** Flocq's choice of a NaN: the first NaN operand, or the default *)
Definition chooses (choice : bfull -> bfull -> { f : bfull | Binary.is_nan _ _ f = true }) : Prop := forall A B,
  Binary.B2FF _ _ (proj1_sig (choice A B)) =
    if Binary.is_nan _ _ A then Binary.B2FF _ _ A else if Binary.is_nan _ _ B then Binary.B2FF _ _ B else full S (NAN S).
Lemma quiet_same : forall x, wf S x -> category x = NaN -> signaling S x = false -> quieted S x = x.
Proof. intros x W C Q. apply quieted_of_quiet; assumption. Qed.
Lemma lift_binary : forall (op : Float -> Float -> outcome (Z * Float)) bop choice, chooses choice ->
  (forall x y a b, same S x a -> same S y b -> exists st r, op x y = Ret (st, r) /\ same S r (bop a b)) ->
  (forall x y, category x = NaN \/ category y = NaN -> op x y = Ret (invalid_if (signaling S x || signaling S y), quieted S (first_nan x y))) ->
  (forall x y, wf S x -> wf S y -> category x <> NaN -> category y <> NaN -> nan_is_default (op x y)) ->
  forall x y A B, same_full x A -> same_full y B -> signaling S x = false -> signaling S y = false ->
  exists st r, op x y = Ret (st, r) /\ same_full r (Binary.BSN2B _ _ (choice A B) (bop (Binary.B2BSN _ _ A) (Binary.B2BSN _ _ B))).
Proof.
  intros op bop choice HC Hop Hnan Hdef x y A B HA HB Qx Qy.
  destruct (Hop x y _ _ (full_same x A HA) (full_same y B HB)) as [st [r [E R]]]. exists st, r. split; [exact E|].
  set (b := bop (Binary.B2BSN _ _ A) (Binary.B2BSN _ _ B)) in *.
  assert (EB : Binary.B2BSN _ _ (Binary.BSN2B _ _ (choice A B) b) = b) by apply Binary.B2BSN_BSN2B.
  destruct (category r) eqn:Cr.
  1,3,4: (apply same_full_number; [rewrite EB; exact R|rewrite Cr; discriminate]).
  split; [exact (proj1 R)|].
  assert (Eb : b = BinarySingleNaN.B754_nan). { pose proof (same_cases S r b R) as Q. rewrite Cr in Q. exact Q. }
  rewrite Eb. cbn [Binary.BSN2B]. rewrite Binary.build_nan_correct, HC.
  pose proof (full_nan x A HA) as NA. pose proof (full_nan y B HB) as NB'.
  destruct (Binary.is_nan _ _ A) eqn:IA.
  - destruct NA as [NA _]. specialize (NA eq_refl). rewrite Hnan in E by (left; exact NA).
    unfold first_nan in E. rewrite NA in E. rewrite quiet_same in E; [|exact (proj1 HA)|exact NA|exact Qx]. assert (r = x) by congruence. subst r. exact (proj2 HA).
  - assert (CA : category x <> NaN) by (intro Q; apply NA in Q; discriminate).
    destruct (Binary.is_nan _ _ B) eqn:IB.
    + destruct NB' as [NB' _]. specialize (NB' eq_refl). rewrite Hnan in E by (right; exact NB').
      unfold first_nan in E. replace (match category x with NaN => x | _ => y end) with y in E by (destruct (category x); congruence).
      rewrite quiet_same in E; [|exact (proj1 HB)|exact NB'|exact Qy]. assert (r = y) by congruence. subst r. exact (proj2 HB).
    + assert (CB : category y <> NaN) by (intro Q; apply NB' in Q; discriminate).
      rewrite (Hdef x y (proj1 HA) (proj1 HB) CA CB st r E Cr). reflexivity.
Qed.
End Defaults.

(** ** Bit patterns in, bit patterns out *)

(** the pattern is not that of a signaling NaN *)
Definition quiet_pattern (bits eb b : Z) : Prop :=
  field_exp bits eb b = 2 ^ eb - 1 -> field_frac bits eb b <> 0 -> 2 ^ (bits - 2 - eb) <= field_frac bits eb b.
Lemma quiet_pattern_quiet : forall bits eb b x, sem_ok (ieee_semantics bits eb IEEE754) -> bits <= 128 -> 0 <= b < 2 ^ bits -> quiet_pattern bits eb b ->
  from_bits (ieee_semantics bits eb IEEE754) b = Ret x -> signaling (ieee_semantics bits eb IEEE754) x = false.
Proof.
  intros bits eb b x HS Hbits B Q E. destruct (geometry bits eb IEEE754 HS) as [G1 [G2 [G3 [G4 [G5 [G6 [G7 G8]]]]]]].
  assert (W1 : 0 <= b < 2 ^ 128). { split; [lia|]. eapply Z.lt_le_trans; [apply B|]. apply Z.pow_le_mono_r; lia. }
  rewrite (from_bits_fields bits eb IEEE754 HS Hbits b W1) in E. assert (Ex : x = decode_fields bits eb IEEE754 (field_sign bits b) (field_exp bits eb b) (field_frac bits eb b)) by congruence. clear E. subst x.
  assert (RF : 0 <= field_frac bits eb b < 2 ^ (bits - 1 - eb)) by (apply Z.mod_pos_bound, Z.pow_pos_nonneg; lia).
  unfold quiet_pattern in Q. set (s := field_sign bits b) in *. set (X := field_exp bits eb b) in *. set (F := field_frac bits eb b) in *.
  unfold signaling, decode_fields.
  destruct (X =? 0). { destruct (F =? 0); reflexivity. }
  destruct (Z.eqb_spec X (2 ^ eb - 1)) as [X1|X1]; [|reflexivity]. cbn [category sig]. destruct (Z.eqb_spec F 0) as [F0|F0]; [reflexivity|].
  specialize (Q X1 F0). change (NONFINITE_BEHAVIOR (ieee_semantics bits eb IEEE754)) with IEEE754. cbv iota.
  change (PRECISION (ieee_semantics bits eb IEEE754) - 2) with (bits - 1 - eb + 1 - 2). change (X87 (ieee_semantics bits eb IEEE754)) with false.
  replace (bits - 1 - eb + 1 - 2) with (bits - 2 - eb) by lia. rewrite testbit_odd by lia.
  assert (P : 2 ^ (bits - 1 - eb) = 2 * 2 ^ (bits - 2 - eb)). { rewrite <- Z.pow_succ_r by lia. f_equal. lia. }
  replace (F / 2 ^ (bits - 2 - eb)) with 1; [reflexivity|]. apply Z.div_unique with (r := F - 2 ^ (bits - 2 - eb)); lia.
Qed.

(** an operation on the numbers, carried to the patterns of binary32 and binary64 *)
Definition on_patterns (S : Semantics) (bits eb : Z) (op : Float -> Float -> outcome (Z * Float)) (bop : Z -> Z -> Z) : Prop :=
  forall a b, 0 <= a < 2 ^ bits -> 0 <= b < 2 ^ bits -> quiet_pattern bits eb a -> quiet_pattern bits eb b ->
  exists x y st r, from_bits S a = Ret x /\ from_bits S b = Ret y /\ op x y = Ret (st, r) /\ to_bits S r = Ret (bop a b).
Lemma double_format : ieee_format DoubleS.
Proof. split; [exact double_ok|reflexivity|reflexivity]. Qed.
Lemma single_format : ieee_format SingleS.
Proof. split; [exact single_ok|reflexivity|reflexivity]. Qed.
Lemma chooses64 : chooses DoubleS IEEE754.Bits.binop_nan_pl64.
Proof. intros A B. destruct A, B; reflexivity. Qed.
Lemma chooses32 : chooses SingleS IEEE754.Bits.binop_nan_pl32.
Proof. intros A B. destruct A, B; reflexivity. Qed.
Lemma lift64 : forall (op : Float -> Float -> outcome (Z * Float)) bop,
  (forall x y A B, same_full DoubleS x A -> same_full DoubleS y B -> signaling DoubleS x = false -> signaling DoubleS y = false ->
    exists st r, op x y = Ret (st, r) /\ same_full DoubleS r (bop A B)) ->
  on_patterns DoubleS 64 11 op (fun a b => IEEE754.Bits.bits_of_b64 (bop (IEEE754.Bits.b64_of_bits a) (IEEE754.Bits.b64_of_bits b))).
Proof.
  intros op bop H a b Ra Rb Qa Qb.
  destruct (from_bits_full 64 11 double_ok ltac:(discriminate) eq_refl eq_refl eq_refl a Ra) as [x [Ex [Wx Fx]]].
  destruct (from_bits_full 64 11 double_ok ltac:(discriminate) eq_refl eq_refl eq_refl b Rb) as [y [Ey [Wy Fy]]].
  pose proof (quiet_pattern_quiet 64 11 a x double_ok ltac:(discriminate) Ra Qa Ex) as Sx.
  pose proof (quiet_pattern_quiet 64 11 b y double_ok ltac:(discriminate) Rb Qb Ey) as Sy.
  destruct (H x y (IEEE754.Bits.b64_of_bits a) (IEEE754.Bits.b64_of_bits b) (conj Wx Fx) (conj Wy Fy) Sx Sy) as [st [r [E [W F]]]].
  exists x, y, st, r. split; [exact Ex|]. split; [exact Ey|]. split; [exact E|].
  exact (to_bits_full 64 11 double_ok ltac:(discriminate) eq_refl eq_refl r _ W F).
Qed.
Lemma lift32 : forall (op : Float -> Float -> outcome (Z * Float)) bop,
  (forall x y A B, same_full SingleS x A -> same_full SingleS y B -> signaling SingleS x = false -> signaling SingleS y = false ->
    exists st r, op x y = Ret (st, r) /\ same_full SingleS r (bop A B)) ->
  on_patterns SingleS 32 8 op (fun a b => IEEE754.Bits.bits_of_b32 (bop (IEEE754.Bits.b32_of_bits a) (IEEE754.Bits.b32_of_bits b))).
Proof.
  intros op bop H a b Ra Rb Qa Qb.
  destruct (from_bits_full 32 8 single_ok ltac:(discriminate) eq_refl eq_refl eq_refl a Ra) as [x [Ex [Wx Fx]]].
  destruct (from_bits_full 32 8 single_ok ltac:(discriminate) eq_refl eq_refl eq_refl b Rb) as [y [Ey [Wy Fy]]].
  pose proof (quiet_pattern_quiet 32 8 a x single_ok ltac:(discriminate) Ra Qa Ex) as Sx.
  pose proof (quiet_pattern_quiet 32 8 b y single_ok ltac:(discriminate) Rb Qb Ey) as Sy.
  destruct (H x y (IEEE754.Bits.b32_of_bits a) (IEEE754.Bits.b32_of_bits b) (conj Wx Fx) (conj Wy Fy) Sx Sy) as [st [r [E [W F]]]].
  exists x, y, st, r. split; [exact Ex|]. split; [exact Ey|]. split; [exact E|].
  exact (to_bits_full 32 8 single_ok ltac:(discriminate) eq_refl eq_refl r _ W F).
Qed.
Theorem b64_plus : forall m, on_patterns DoubleS 64 11 (fun x y => add_r DoubleS x y m)
  (fun a b => IEEE754.Bits.bits_of_b64 (IEEE754.Bits.b64_plus (mode_of m) (IEEE754.Bits.b64_of_bits a) (IEEE754.Bits.b64_of_bits b))).
Proof.
  intro m. apply lift64. refine (lift_binary DoubleS double_format (fun x y => add_r DoubleS x y m) (BinarySingleNaN.Bplus (mode_of m)) IEEE754.Bits.binop_nan_pl64 chooses64 _ _ _).
  - intros x y a b A B. exact (add_same DoubleS double_format x y a b m A B).
  - intros x y N. exact (add_r_nan DoubleS x y m double_ok N).
  - intros x y Wx Wy Nx Ny. exact (add_default DoubleS double_format x y m Wx Wy Nx Ny).
Qed.
Theorem b64_minus : forall m, on_patterns DoubleS 64 11 (fun x y => sub_r DoubleS x y m)
  (fun a b => IEEE754.Bits.bits_of_b64 (IEEE754.Bits.b64_minus (mode_of m) (IEEE754.Bits.b64_of_bits a) (IEEE754.Bits.b64_of_bits b))).
Proof.
  intro m. apply lift64. refine (lift_binary DoubleS double_format (fun x y => sub_r DoubleS x y m) (BinarySingleNaN.Bminus (mode_of m)) IEEE754.Bits.binop_nan_pl64 chooses64 _ _ _).
  - intros x y a b A B. exact (sub_same DoubleS double_format x y a b m A B).
  - intros x y N. exact (sub_r_nan DoubleS x y m double_ok N).
  - intros x y Wx Wy Nx Ny. exact (sub_default DoubleS double_format x y m Wx Wy Nx Ny).
Qed.
Theorem b64_mult : forall m, on_patterns DoubleS 64 11 (fun x y => mul_r DoubleS x y m)
  (fun a b => IEEE754.Bits.bits_of_b64 (IEEE754.Bits.b64_mult (mode_of m) (IEEE754.Bits.b64_of_bits a) (IEEE754.Bits.b64_of_bits b))).
Proof.
  intro m. apply lift64. refine (lift_binary DoubleS double_format (fun x y => mul_r DoubleS x y m) (BinarySingleNaN.Bmult (mode_of m)) IEEE754.Bits.binop_nan_pl64 chooses64 _ _ _).
  - intros x y a b A B. exact (mul_same DoubleS double_format x y a b m A B).
  - intros x y N. exact (mul_r_nan DoubleS x y m double_ok N).
  - intros x y Wx Wy Nx Ny. exact (mul_default DoubleS double_format x y m Wx Wy Nx Ny).
Qed.
Theorem b64_div : forall m, on_patterns DoubleS 64 11 (fun x y => div_r DoubleS x y m)
  (fun a b => IEEE754.Bits.bits_of_b64 (IEEE754.Bits.b64_div (mode_of m) (IEEE754.Bits.b64_of_bits a) (IEEE754.Bits.b64_of_bits b))).
Proof.
  intro m. apply lift64. refine (lift_binary DoubleS double_format (fun x y => div_r DoubleS x y m) (BinarySingleNaN.Bdiv (mode_of m)) IEEE754.Bits.binop_nan_pl64 chooses64 _ _ _).
  - intros x y a b A B. exact (div_same DoubleS double_format x y a b m A B).
  - intros x y N. exact (div_r_nan DoubleS x y m double_ok N).
  - intros x y Wx Wy Nx Ny. exact (div_default DoubleS double_format x y m Wx Wy Nx Ny).
Qed.
Theorem b32_plus : forall m, on_patterns SingleS 32 8 (fun x y => add_r SingleS x y m)
  (fun a b => IEEE754.Bits.bits_of_b32 (IEEE754.Bits.b32_plus (mode_of m) (IEEE754.Bits.b32_of_bits a) (IEEE754.Bits.b32_of_bits b))).
Proof.
  intro m. apply lift32. refine (lift_binary SingleS single_format (fun x y => add_r SingleS x y m) (BinarySingleNaN.Bplus (mode_of m)) IEEE754.Bits.binop_nan_pl32 chooses32 _ _ _).
  - intros x y a b A B. exact (add_same SingleS single_format x y a b m A B).
  - intros x y N. exact (add_r_nan SingleS x y m single_ok N).
  - intros x y Wx Wy Nx Ny. exact (add_default SingleS single_format x y m Wx Wy Nx Ny).
Qed.
Theorem b32_minus : forall m, on_patterns SingleS 32 8 (fun x y => sub_r SingleS x y m)
  (fun a b => IEEE754.Bits.bits_of_b32 (IEEE754.Bits.b32_minus (mode_of m) (IEEE754.Bits.b32_of_bits a) (IEEE754.Bits.b32_of_bits b))).
Proof.
  intro m. apply lift32. refine (lift_binary SingleS single_format (fun x y => sub_r SingleS x y m) (BinarySingleNaN.Bminus (mode_of m)) IEEE754.Bits.binop_nan_pl32 chooses32 _ _ _).
  - intros x y a b A B. exact (sub_same SingleS single_format x y a b m A B).
  - intros x y N. exact (sub_r_nan SingleS x y m single_ok N).
  - intros x y Wx Wy Nx Ny. exact (sub_default SingleS single_format x y m Wx Wy Nx Ny).
Qed.
Theorem b32_mult : forall m, on_patterns SingleS 32 8 (fun x y => mul_r SingleS x y m)
  (fun a b => IEEE754.Bits.bits_of_b32 (IEEE754.Bits.b32_mult (mode_of m) (IEEE754.Bits.b32_of_bits a) (IEEE754.Bits.b32_of_bits b))).
Proof.
  intro m. apply lift32. refine (lift_binary SingleS single_format (fun x y => mul_r SingleS x y m) (BinarySingleNaN.Bmult (mode_of m)) IEEE754.Bits.binop_nan_pl32 chooses32 _ _ _).
  - intros x y a b A B. exact (mul_same SingleS single_format x y a b m A B).
  - intros x y N. exact (mul_r_nan SingleS x y m single_ok N).
  - intros x y Wx Wy Nx Ny. exact (mul_default SingleS single_format x y m Wx Wy Nx Ny).
Qed.
Theorem b32_div : forall m, on_patterns SingleS 32 8 (fun x y => div_r SingleS x y m)
  (fun a b => IEEE754.Bits.bits_of_b32 (IEEE754.Bits.b32_div (mode_of m) (IEEE754.Bits.b32_of_bits a) (IEEE754.Bits.b32_of_bits b))).
Proof.
  intro m. apply lift32. refine (lift_binary SingleS single_format (fun x y => div_r SingleS x y m) (BinarySingleNaN.Bdiv (mode_of m)) IEEE754.Bits.binop_nan_pl32 chooses32 _ _ _).
  - intros x y a b A B. exact (div_same SingleS single_format x y a b m A B).
  - intros x y N. exact (div_r_nan SingleS x y m single_ok N).
  - intros x y Wx Wy Nx Ny. exact (div_default SingleS single_format x y m Wx Wy Nx Ny).
Qed.
Theorem b64_compare : forall a b, 0 <= a < 2 ^ 64 -> 0 <= b < 2 ^ 64 ->
  exists x y, from_bits DoubleS a = Ret x /\ from_bits DoubleS b = Ret y /\
    partial_cmp x y = Ret (IEEE754.Bits.b64_compare (IEEE754.Bits.b64_of_bits a) (IEEE754.Bits.b64_of_bits b)).
Proof.
  intros a b Ra Rb.
  destruct (from_bits_full 64 11 double_ok ltac:(discriminate) eq_refl eq_refl eq_refl a Ra) as [x [Ex [Wx Fx]]].
  destruct (from_bits_full 64 11 double_ok ltac:(discriminate) eq_refl eq_refl eq_refl b Rb) as [y [Ey [Wy Fy]]].
  exists x, y. split; [exact Ex|]. split; [exact Ey|].
  exact (cmp_same DoubleS double_format x y _ _ (full_same DoubleS x (IEEE754.Bits.b64_of_bits a) (conj Wx Fx)) (full_same DoubleS y (IEEE754.Bits.b64_of_bits b) (conj Wy Fy))).
Qed.
Theorem b64_fma : forall a b c m, 0 <= a < 2 ^ 64 -> 0 <= b < 2 ^ 64 -> 0 <= c < 2 ^ 64 ->
  exists x y z, from_bits DoubleS a = Ret x /\ from_bits DoubleS b = Ret y /\ from_bits DoubleS c = Ret z /\
    let f := IEEE754.Bits.b64_fma (mode_of m) (IEEE754.Bits.b64_of_bits a) (IEEE754.Bits.b64_of_bits b) (IEEE754.Bits.b64_of_bits c) in
    ((finite x -> finite y -> finite z -> fma_safe DoubleS x y z) ->
     exists st r, mul_add_r DoubleS x y z m = Ret (st, r) /\
       if Binary.is_nan _ _ f then category r = NaN else to_bits DoubleS r = Ret (IEEE754.Bits.bits_of_b64 f)).
Proof.
  intros a b c m Ra Rb Rc.
  destruct (from_bits_full 64 11 double_ok ltac:(discriminate) eq_refl eq_refl eq_refl a Ra) as [x [Ex [Wx Fx]]].
  destruct (from_bits_full 64 11 double_ok ltac:(discriminate) eq_refl eq_refl eq_refl b Rb) as [y [Ey [Wy Fy]]].
  destruct (from_bits_full 64 11 double_ok ltac:(discriminate) eq_refl eq_refl eq_refl c Rc) as [z [Ez [Wz Fz]]].
  exists x, y, z. split; [exact Ex|]. split; [exact Ey|]. split; [exact Ez|]. cbv zeta. intro SF.
  set (A := IEEE754.Bits.b64_of_bits a) in *. set (B := IEEE754.Bits.b64_of_bits b) in *. set (C := IEEE754.Bits.b64_of_bits c) in *.
  destruct (@fma_same DoubleS double_format eq_refl eq_refl x y z _ _ _ m (full_same DoubleS x A (conj Wx Fx)) (full_same DoubleS y B (conj Wy Fy)) (full_same DoubleS z C (conj Wz Fz)) SF) as [st [r [E R]]].
  exists st, r. split; [exact E|].
  set (f := IEEE754.Bits.b64_fma (mode_of m) A B C) in *.
  assert (Rf : same DoubleS r (Binary.B2BSN _ _ f)). { unfold f, IEEE754.Bits.b64_fma, Binary.Bfma. rewrite Binary.B2BSN_BSN2B. exact R. }
  pose proof (same_cases DoubleS r _ Rf) as K. destruct (category r) eqn:Cr.
  - replace (Binary.is_nan _ _ f) with false by (destruct f; try discriminate K; reflexivity).
    apply (to_bits_full 64 11 double_ok ltac:(discriminate) eq_refl eq_refl); [exact (proj1 Rf)|]. refine (proj2 (same_full_number DoubleS r f Rf _)). rewrite Cr. discriminate.
  - replace (Binary.is_nan _ _ f) with true by (destruct f; try discriminate K; reflexivity). reflexivity.
  - replace (Binary.is_nan _ _ f) with false by (destruct K as [? [? K]]; destruct f; try discriminate K; reflexivity).
    apply (to_bits_full 64 11 double_ok ltac:(discriminate) eq_refl eq_refl); [exact (proj1 Rf)|]. refine (proj2 (same_full_number DoubleS r f Rf _)). rewrite Cr. discriminate.
  - replace (Binary.is_nan _ _ f) with false by (destruct f; try discriminate K; reflexivity).
    apply (to_bits_full 64 11 double_ok ltac:(discriminate) eq_refl eq_refl); [exact (proj1 Rf)|]. refine (proj2 (same_full_number DoubleS r f Rf _)). rewrite Cr. discriminate.
Qed.
Theorem b32_compare : forall a b, 0 <= a < 2 ^ 32 -> 0 <= b < 2 ^ 32 ->
  exists x y, from_bits SingleS a = Ret x /\ from_bits SingleS b = Ret y /\
    partial_cmp x y = Ret (IEEE754.Bits.b32_compare (IEEE754.Bits.b32_of_bits a) (IEEE754.Bits.b32_of_bits b)).
Proof.
  intros a b Ra Rb.
  destruct (from_bits_full 32 8 single_ok ltac:(discriminate) eq_refl eq_refl eq_refl a Ra) as [x [Ex [Wx Fx]]].
  destruct (from_bits_full 32 8 single_ok ltac:(discriminate) eq_refl eq_refl eq_refl b Rb) as [y [Ey [Wy Fy]]].
  exists x, y. split; [exact Ex|]. split; [exact Ey|].
  exact (cmp_same SingleS single_format x y _ _ (full_same SingleS x (IEEE754.Bits.b32_of_bits a) (conj Wx Fx)) (full_same SingleS y (IEEE754.Bits.b32_of_bits b) (conj Wy Fy))).
Qed.
Theorem b32_fma : forall a b c m, 0 <= a < 2 ^ 32 -> 0 <= b < 2 ^ 32 -> 0 <= c < 2 ^ 32 ->
  exists x y z, from_bits SingleS a = Ret x /\ from_bits SingleS b = Ret y /\ from_bits SingleS c = Ret z /\
    let f := IEEE754.Bits.b32_fma (mode_of m) (IEEE754.Bits.b32_of_bits a) (IEEE754.Bits.b32_of_bits b) (IEEE754.Bits.b32_of_bits c) in
    ((finite x -> finite y -> finite z -> fma_safe SingleS x y z) ->
     exists st r, mul_add_r SingleS x y z m = Ret (st, r) /\
       if Binary.is_nan _ _ f then category r = NaN else to_bits SingleS r = Ret (IEEE754.Bits.bits_of_b32 f)).
Proof.
  intros a b c m Ra Rb Rc.
  destruct (from_bits_full 32 8 single_ok ltac:(discriminate) eq_refl eq_refl eq_refl a Ra) as [x [Ex [Wx Fx]]].
  destruct (from_bits_full 32 8 single_ok ltac:(discriminate) eq_refl eq_refl eq_refl b Rb) as [y [Ey [Wy Fy]]].
  destruct (from_bits_full 32 8 single_ok ltac:(discriminate) eq_refl eq_refl eq_refl c Rc) as [z [Ez [Wz Fz]]].
  exists x, y, z. split; [exact Ex|]. split; [exact Ey|]. split; [exact Ez|]. cbv zeta. intro SF.
  set (A := IEEE754.Bits.b32_of_bits a) in *. set (B := IEEE754.Bits.b32_of_bits b) in *. set (C := IEEE754.Bits.b32_of_bits c) in *.
  destruct (@fma_same SingleS single_format eq_refl eq_refl x y z _ _ _ m (full_same SingleS x A (conj Wx Fx)) (full_same SingleS y B (conj Wy Fy)) (full_same SingleS z C (conj Wz Fz)) SF) as [st [r [E R]]].
  exists st, r. split; [exact E|].
  set (f := IEEE754.Bits.b32_fma (mode_of m) A B C) in *.
  assert (Rf : same SingleS r (Binary.B2BSN _ _ f)). { unfold f, IEEE754.Bits.b32_fma, Binary.Bfma. rewrite Binary.B2BSN_BSN2B. exact R. }
  pose proof (same_cases SingleS r _ Rf) as K. destruct (category r) eqn:Cr.
  - replace (Binary.is_nan _ _ f) with false by (destruct f; try discriminate K; reflexivity).
    apply (to_bits_full 32 8 single_ok ltac:(discriminate) eq_refl eq_refl); [exact (proj1 Rf)|]. refine (proj2 (same_full_number SingleS r f Rf _)). rewrite Cr. discriminate.
  - replace (Binary.is_nan _ _ f) with true by (destruct f; try discriminate K; reflexivity). reflexivity.
  - replace (Binary.is_nan _ _ f) with false by (destruct K as [? [? K]]; destruct f; try discriminate K; reflexivity).
    apply (to_bits_full 32 8 single_ok ltac:(discriminate) eq_refl eq_refl); [exact (proj1 Rf)|]. refine (proj2 (same_full_number SingleS r f Rf _)). rewrite Cr. discriminate.
  - replace (Binary.is_nan _ _ f) with false by (destruct f; try discriminate K; reflexivity).
    apply (to_bits_full 32 8 single_ok ltac:(discriminate) eq_refl eq_refl); [exact (proj1 Rf)|]. refine (proj2 (same_full_number SingleS r f Rf _)). rewrite Cr. discriminate.
Qed.
