(** * Bits.v -- encodings *)
From Coq Require Import ZArith Reals List Bool Lia Lra ZifyBool.
From Flocq Require Import Core.
From Verif Require Import Machine Sig SpecSig Limbs SigProofs SigProofs2 SigProofs3 SigProofs4 SigProofs5 Ieee Spec Norm Arith Special Order.
Import ListNotations.
Local Open Scope Z_scope.

Ltac Zify.zify_post_hook ::= idtac.

(** ** Bit-field lemmas *)
Lemma not128_bits : forall x n, 0 <= x < 2 ^ 128 -> 0 <= n ->
  Z.testbit (not128 x) n = (n <? 128) && negb (Z.testbit x n).
Proof.
  intros x n Hx Hn. unfold not128, LIMB_MAX.
  replace (2 ^ 128 - 1 - x) with (Z.ldiff (Z.ones 128) x).
  - rewrite Z.ldiff_spec. f_equal. destruct (Z.ltb_spec n 128); [apply Z.ones_spec_low; lia|apply Z.ones_spec_high; lia].
  - rewrite <- Z.sub_nocarry_ldiff; [rewrite Z.ones_equiv; lia|].
    apply Z.bits_inj'. intros k Hk. rewrite Z.ldiff_spec, Z.bits_0.
    destruct (Z_lt_le_dec k 128).
    + rewrite Z.ones_spec_low by lia. apply andb_false_r.
    + destruct (Z.eq_dec x 0) as [->|]; [rewrite Z.bits_0; reflexivity|].
      rewrite Z.bits_above_log2; [reflexivity|lia|]. apply Z.lt_le_trans with 128; [|lia]. apply Z.log2_lt_pow2; lia.
Qed.

Lemma ones_bits : forall k n, 0 <= k -> 0 <= n -> Z.testbit (2 ^ k - 1) n = (n <? k).
Proof.
  intros k n Hk Hn. replace (2 ^ k - 1) with (Z.ones k) by (rewrite Z.ones_equiv; lia).
  destruct (Z.ltb_spec n k); [apply Z.ones_spec_low; lia|apply Z.ones_spec_high; lia].
Qed.

Lemma land_all : forall x, 0 <= x < 2 ^ 128 -> Z.land x (not128 0) = x.
Proof.
  intros x Hx. unfold not128, LIMB_MAX. rewrite Z.sub_0_r, land_ones_mod by lia. apply Z.mod_small. assumption.
Qed.

Lemma exponent_field : forall b g k eb, 0 <= b < 2 ^ 128 -> 0 <= k -> 0 <= eb -> k + eb <= 127 ->
  (g = 0 \/ g = 2 ^ (k + eb)) ->
  Z.land (Z.shiftr (Z.land b (not128 g)) k) (2 ^ eb - 1) = (b / 2 ^ k) mod 2 ^ eb.
Proof.
  intros b g k eb Hb Hk Heb Hs Hg. rewrite <- land_ones_mod by lia. rewrite <- Z.shiftr_div_pow2 by assumption.
  apply Z.bits_inj'. intros n Hn. rewrite !Z.land_spec, !Z.shiftr_spec, Z.land_spec, ones_bits by assumption.
  destruct (Z.ltb_spec n eb); [|rewrite !andb_false_r; reflexivity]. rewrite !andb_true_r.
  assert (0 <= g < 2 ^ 128) as Hg2.
  { destruct Hg as [-> | ->]; [lia|]. split; [apply Z.pow_nonneg; lia|apply Z.pow_lt_mono_r; lia]. }
  rewrite not128_bits by lia. destruct (Z.ltb_spec (n + k) 128); [|lia]. cbn [andb].
  replace (Z.testbit g (n + k)) with false; [apply andb_true_r|].
  destruct Hg as [-> | ->]; [symmetry; apply Z.bits_0|]. rewrite Z.pow2_bits_false by lia. reflexivity.
Qed.

Lemma testbit_odd : forall b k, 0 <= k -> Z.testbit b k = Z.odd (b / 2 ^ k).
Proof. intros b k Hk. rewrite <- Z.shiftr_div_pow2 by assumption. rewrite <- Z.bit0_odd, Z.shiftr_spec by lia. reflexivity. Qed.

Lemma sign_field : forall b k, 0 <= k -> negb (Z.land b (2 ^ k) =? 0) = Z.odd (b / 2 ^ k).
Proof.
  intros b k Hk. rewrite land_pow2, <- testbit_odd by assumption. pose proof (pow2_gt0 k Hk).
  destruct (Z.testbit b k); [|reflexivity]. destruct (Z.eqb_spec (2 ^ k) 0); [lia|reflexivity].
Qed.

Lemma lor_disjoint : forall a b k, 0 <= k -> 0 <= b < 2 ^ k -> Z.lor (a * 2 ^ k) b = a * 2 ^ k + b.
Proof.
  intros a b k Hk Hb. symmetry.
  assert (Z.land (a * 2 ^ k) b = 0) as E.
  { apply Z.bits_inj'. intros n Hn. rewrite Z.land_spec, Z.bits_0. destruct (Z_lt_le_dec n k).
    - rewrite Z.mul_pow2_bits_low by lia. reflexivity.
    - destruct (Z.eq_dec b 0) as [->|]; [rewrite Z.bits_0; apply andb_false_r|].
      rewrite (Z.bits_above_log2 b); [apply andb_false_r|lia|]. apply Z.lt_le_trans with k; [|lia]. apply Z.log2_lt_pow2; lia. }
  rewrite Z.add_nocarry_lxor by assumption. apply Z.lxor_lor. assumption.
Qed.

(** a pattern is its three fields *)
Lemma fields_split : forall bits eb b, 0 <= eb -> eb <= bits - 1 -> 0 <= b < 2 ^ bits ->
  b = b2z (field_sign bits b) * 2 ^ (bits - 1) + field_exp bits eb b * 2 ^ (bits - 1 - eb) + field_frac bits eb b.
Proof.
  intros bits eb b He Hle Hb. unfold field_sign, field_exp, field_frac.
  set (t := bits - 1 - eb). pose proof (pow2_gt0 t ltac:(lia)) as Ht. pose proof (pow2_gt0 eb ltac:(lia)) as Hp.
  assert (2 ^ (bits - 1) = 2 ^ t * 2 ^ eb) as E1 by (rewrite <- Z.pow_add_r by lia; f_equal; lia).
  assert (2 ^ bits = 2 ^ (bits - 1) * 2) as E2 by (replace bits with (bits - 1 + 1) at 1 by lia; rewrite Z.pow_add_r by lia; reflexivity).
  assert (b / 2 ^ (bits - 1) = b / 2 ^ t / 2 ^ eb) as E3 by (rewrite E1, Z.div_div by lia; reflexivity).
  assert (b2z (Z.odd (b / 2 ^ (bits - 1))) = b / 2 ^ (bits - 1)) as ->.
  { pose proof (pow2_gt0 (bits - 1) ltac:(lia)) as Hq.
    assert (0 <= b / 2 ^ (bits - 1) < 2) as H by (split; [apply Z.div_pos; lia|apply Z.div_lt_upper_bound; lia]).
    assert (b / 2 ^ (bits - 1) = 0 \/ b / 2 ^ (bits - 1) = 1) as [-> | ->] by lia; reflexivity. }
  rewrite E3, E1. pose proof (Z.div_mod b (2 ^ t) ltac:(lia)) as D1. pose proof (Z.div_mod (b / 2 ^ t) (2 ^ eb) ltac:(lia)) as D2.
  nia.
Qed.

Lemma fields_join : forall bits eb s E F, 0 <= eb -> eb <= bits - 1 ->
  0 <= E < 2 ^ eb -> 0 <= F < 2 ^ (bits - 1 - eb) ->
  let b := b2z s * 2 ^ (bits - 1) + E * 2 ^ (bits - 1 - eb) + F in
  0 <= b < 2 ^ bits /\ field_sign bits b = s /\ field_exp bits eb b = E /\ field_frac bits eb b = F.
Proof.
  intros bits eb s E F He Hle HE HF b. unfold field_sign, field_exp, field_frac.
  set (t := bits - 1 - eb) in *. pose proof (pow2_gt0 t ltac:(lia)) as Ht. pose proof (pow2_gt0 eb ltac:(lia)) as Hp.
  assert (2 ^ (bits - 1) = 2 ^ t * 2 ^ eb) as E1 by (rewrite <- Z.pow_add_r by lia; f_equal; lia).
  assert (2 ^ bits = 2 ^ (bits - 1) * 2) as E2 by (replace bits with (bits - 1 + 1) at 1 by lia; rewrite Z.pow_add_r by lia; reflexivity).
  assert (0 <= E * 2 ^ t + F < 2 ^ (bits - 1)) as HR by nia.
  assert (0 <= b2z s <= 1) as Hs by (destruct s; cbn; lia).
  split; [subst b; nia|].
  assert (b / 2 ^ (bits - 1) = b2z s) as -> by (symmetry; apply Z.div_unique with (E * 2 ^ t + F); [lia|subst b; ring]).
  assert (b / 2 ^ t = b2z s * 2 ^ eb + E) as -> by (symmetry; apply Z.div_unique with F; [lia|subst b; rewrite E1; ring]).
  split; [destruct s; reflexivity|]. split.
  - rewrite Z.add_comm, Z.mod_add by lia. apply Z.mod_small. assumption.
  - symmetry. apply Z.mod_unique with (b2z s * 2 ^ eb + E); [lia|subst b; rewrite E1; ring].
Qed.

(** ** The default encodings *)
Section Ieee.
Variables (bits eb : Z) (nf : NonfiniteBehavior).
Let S := ieee_semantics bits eb nf.
Hypothesis HS : sem_ok S.
Hypothesis Hbits : bits <= 128.

Let t := bits - 1 - eb.
Lemma geometry : 3 <= eb <= 21 /\ 2 <= t /\ PRECISION S = t + 1 /\ BITS S = bits /\
  MIN_EXP S = 2 - 2 ^ (eb - 1) /\
  MAX_EXP S = 2 ^ (eb - 1) - 1 + (match nf with IEEE754 => 0 | NanOnly => 1 end) /\ 2 ^ eb = 2 * 2 ^ (eb - 1) /\
  4 <= 2 ^ (eb - 1) <= 2 ^ 20.
Proof.
  destruct HS as [Hp Hmin Hmax _]. unfold S, ieee_semantics in *. cbn [PRECISION MIN_EXP MAX_EXP BITS] in *.
  assert (0 <= eb - 1) as H0.
  { destruct (Z_lt_le_dec (eb - 1) 0) as [H|H]; [rewrite (Z.pow_neg_r 2 (eb - 1) H) in *; lia|assumption]. }
  assert (3 <= eb) as H1.
  { destruct (Z_lt_le_dec eb 3) as [H|H]; [|assumption]. assert (2 ^ (eb - 1) <= 2 ^ 1) by (apply Z.pow_le_mono_r; lia). lia. }
  assert (eb <= 21) as H2.
  { destruct (Z_le_gt_dec eb 21) as [H|H]; [assumption|]. assert (2 ^ 21 <= 2 ^ (eb - 1)) by (apply Z.pow_le_mono_r; lia). lia. }
  assert (2 ^ eb = 2 * 2 ^ (eb - 1)) as H3 by (rewrite <- Z.pow_succ_r by lia; f_equal; lia).
  assert (4 <= 2 ^ (eb - 1) <= 2 ^ 20).
  { split; [change 4 with (2 ^ 2)|]; apply Z.pow_le_mono_r; lia. }
  unfold t. repeat split; lia.
Qed.

(** the decoded float, field by field *)
Definition decode_fields (s : bool) (E F : Z) : Float :=
  if E =? 0 then (if F =? 0 then mkFloat F (MIN_EXP S - 1) Zero s else mkFloat F (MIN_EXP S) Normal s)
  else
    match nf with
    | IEEE754 =>
      if E =? 2 ^ eb - 1 then mkFloat F (MAX_EXP S + 1) (if F =? 0 then Infinity else NaN) s
      else mkFloat (2 ^ t + F) (E + (MIN_EXP S - 1)) Normal s
    | NanOnly =>
      if (E =? 2 ^ eb - 1) && (F =? 2 ^ t - 1) then mkFloat F (MAX_EXP S) NaN s
      else mkFloat (2 ^ t + F) (E + (MIN_EXP S - 1)) Normal s
    end.

Lemma from_bits_fields : forall b, 0 <= b < 2 ^ 128 ->
  from_bits S b = Ret (decode_fields (field_sign bits b) (field_exp bits eb b) (field_frac bits eb b)).
Proof.
  intros b Hb. destruct geometry as [G1 [G2 [G3 [G4 [G5 [G6 [G7 G8]]]]]]].
  unfold from_bits. change (X87 S) with false. cbn [negb]. unfold from_bits_default.
  rewrite G3, G4. change (EXP_BITS S) with eb.
  destruct (Z.ltb_spec (t + 1) bits) as [_|]; [|lia]. cbn [assertb].
  replace (t + 1 - 1) with t by lia. fold t.
  set (g := Z.land b (2 ^ (bits - 1))).
  assert (g = 0 \/ g = 2 ^ (t + eb)) as Hg.
  { unfold g. rewrite land_pow2 by lia. replace (t + eb) with (bits - 1) by lia. destruct (Z.testbit _ _); auto. }
  rewrite (exponent_field b g t eb) by (try assumption; lia).
  change ((b / 2 ^ t) mod 2 ^ eb) with (field_exp bits eb b).
  rewrite land_ones_mod by lia. change (b mod 2 ^ t) with (field_frac bits eb b).
  unfold g. rewrite sign_field by lia. change (Z.odd (b / 2 ^ (bits - 1))) with (field_sign bits b).
  pose proof (pow2_gt0 t ltac:(lia)) as Ht.
  assert (0 <= field_exp bits eb b < 2 ^ eb) as HE by (apply Z.mod_pos_bound; lia).
  assert (0 <= field_frac bits eb b < 2 ^ t) as HF by (apply Z.mod_pos_bound; fold t; lia).
  assert (2 ^ t < 2 ^ 128) as Ht2 by (apply Z.pow_lt_mono_r; lia).
  set (E := field_exp bits eb b) in *. set (F := field_frac bits eb b) in *. set (s := field_sign bits b) in *. clearbody E F s.
  rewrite as_i32_id by lia. rewrite chk32_ret by lia. cbn [bind sig exp sign find_map].
  assert (Hcs : forall z g, is_negative (copy_sign z g) = sign g) by (intros; rewrite copy_sign_eq; reflexivity).
  assert (Hspec : forall z, try_category_from_special S (mkFloat F (E + (MIN_EXP S - 1)) Zero s) z =
    if (exp z =? E + (MIN_EXP S - 1)) &&
       (let mask := if category_eqb (category z) NaN then not128 (NAN_PAYLOAD_MASK S) else not128 0 in
        Z.land (sig z) mask =? Z.land F mask) then Some (category z) else None).
  { intro z. unfold try_category_from_special. rewrite copy_sign_eq. unfold is_negative, is_nan. cbn [sign sig exp category].
    rewrite eqb_reflx. reflexivity. }
  rewrite !Hspec. cbn [ZERO sig exp category category_eqb]. rewrite (Z.land_0_l), (land_all F) by lia.
  unfold decode_fields.
  (* zero *)
  destruct (Z.eqb_spec E 0) as [E0|E0].
  { subst E. destruct (Z.eqb_spec (MIN_EXP S - 1) (0 + (MIN_EXP S - 1))) as [_|]; [|lia]. cbn [andb].
    destruct (Z.eqb_spec F 0) as [->|F0]; [reflexivity|]. destruct (Z.eqb_spec 0 F) as [|_]; [lia|].
    assert (exp (INFINITY S) <> 0 + (MIN_EXP S - 1) /\ exp (NAN S) <> 0 + (MIN_EXP S - 1)) as [X1 X2].
    { unfold INFINITY, NAN, qnan. change (NONFINITE_BEHAVIOR S) with nf. destruct nf; cbn [exp]; lia. }
    apply Z.eqb_neq in X1, X2. rewrite X1, X2. cbn [andb].
    destruct (Z.eqb_spec (0 + (MIN_EXP S - 1)) (MIN_EXP S - 1)); [reflexivity|lia]. }
  destruct (Z.eqb_spec (MIN_EXP S - 1) (E + (MIN_EXP S - 1))); [lia|]. cbn [andb].
  assert (Hnormal : (if E + (MIN_EXP S - 1) =? MIN_EXP S - 1
     then Ret {| sig := F; exp := MIN_EXP S; category := Normal; sign := s |}
     else let! l := set_bit [F] t in let! s0 := get l 0 in
       Ret {| sig := s0; exp := E + (MIN_EXP S - 1); category := Normal; sign := s |}) =
     Ret (mkFloat (2 ^ t + F) (E + (MIN_EXP S - 1)) Normal s)).
  { destruct (Z.eqb_spec (E + (MIN_EXP S - 1)) (MIN_EXP S - 1)); [lia|].
    destruct (set_bit_spec [F] t ltac:(apply limb_1; unfold limb; lia)) as [d [D1 [D2 [D3 D4]]]]; [change (nbits [F]) with 128; lia|].
    rewrite D1. cbn [bind]. destruct (limbs1 d D3) as [d0 ->]. rewrite !lval_single in D4. subst d0.
    change (get [Z.lor F (2 ^ t)] 0) with (Ret (Z.lor F (2 ^ t))). cbn [bind].
    rewrite Z.lor_comm. replace (2 ^ t) with (1 * 2 ^ t) by lia. rewrite lor_disjoint by lia. reflexivity. }
  unfold INFINITY. change (NONFINITE_BEHAVIOR S) with nf. unfold S at 1 2 3 4. unfold NAN, qnan.
  change (NONFINITE_BEHAVIOR S) with nf. destruct nf eqn:Enf; cbn [exp sig category category_eqb].
  - (* IEEE *)
    rewrite Z.land_0_l, (land_all F) by lia. fold S.
    change (NAN_PAYLOAD_MASK S) with (2 ^ (bits - 1 - eb + 1 - 1) - 1). replace (bits - 1 - eb + 1 - 1) with t by lia.
    change (NAN_SIGNIFICAND_BASE S) with 0. change (QNAN_SIGNIFICAND S) with (2 ^ (bits - 1 - eb + 1 - 2)).
    replace (bits - 1 - eb + 1 - 2) with (t - 1) by lia.
    assert (forall x, 0 <= x < 2 ^ t -> Z.land x (not128 (2 ^ t - 1)) = 0) as Hm.
    { intros x Hx. apply Z.bits_inj'. intros i Hi. rewrite Z.land_spec, Z.bits_0, not128_bits, ones_bits by lia.
      destruct (Z.ltb_spec i t); cbn [negb]; [rewrite !andb_false_r; reflexivity|].
      destruct (Z.eq_dec x 0) as [->|]; [rewrite Z.bits_0; reflexivity|].
      rewrite (Z.bits_above_log2 x); [reflexivity|lia|]. apply Z.lt_le_trans with t; [|lia]. apply Z.log2_lt_pow2; lia. }
    rewrite Z.lor_0_l, Z.lor_0_r. rewrite !Hm by (try lia; split; [apply Z.pow_nonneg; lia|apply Z.pow_lt_mono_r; lia]).
    rewrite (Hm F HF). rewrite Z.eqb_refl, andb_true_r.
    destruct (Z.eqb_spec (MAX_EXP S + 1) (E + (MIN_EXP S - 1))) as [EE|EE].
    + destruct (Z.eqb_spec E (2 ^ eb - 1)) as [_|]; [|lia]. cbn [andb]. rewrite <- EE.
      rewrite (Z.eqb_sym 0 F). destruct (Z.eqb_spec F 0) as [->|]; reflexivity.
    + destruct (Z.eqb_spec E (2 ^ eb - 1)) as [|_]; [lia|]. cbn [andb]. exact Hnormal.
  - fold S. change (NONFINITE_BEHAVIOR S) with NanOnly. cbv iota. change (NAN_PAYLOAD_MASK S) with 0. rewrite (land_all F) by lia.
    change (NAN_SIGNIFICAND_BASE S) with (2 ^ (bits - 1 - eb + 1 - 1) - 1). replace (bits - 1 - eb + 1 - 1) with t by lia.
    change (QNAN_SIGNIFICAND S) with 0. rewrite !Z.lor_0_r. rewrite land_all by lia.
    rewrite (Z.eqb_sym (2 ^ t - 1) F).
    destruct (Z.eqb_spec (MAX_EXP S) (E + (MIN_EXP S - 1))) as [EE|EE].
    + destruct (Z.eqb_spec E (2 ^ eb - 1)) as [_|]; [|lia]. cbn [andb].
      destruct (Z.eqb_spec F (2 ^ t - 1)); [rewrite <- EE; reflexivity|exact Hnormal].
    + destruct (Z.eqb_spec E (2 ^ eb - 1)) as [|_]; [lia|]. cbn [andb]. exact Hnormal.
Qed.

(** the fields of a value *)
Definition encode_exp (x : Float) : Z :=
  match category x with
  | Normal => if sig x <? 2 ^ t then 0 else exp x - (MIN_EXP S - 1)
  | Zero => 0
  | _ => 2 ^ eb - 1
  end.
Definition encode_frac (x : Float) : Z :=
  match category x with
  | Normal => if sig x <? 2 ^ t then sig x else sig x - 2 ^ t
  | NaN => sig x
  | _ => 0
  end.

Lemma encode_ranges : forall x, wf S x -> 0 <= encode_exp x < 2 ^ eb /\ 0 <= encode_frac x < 2 ^ t.
Proof.
  intros x [_ [_ H]]. destruct geometry as [G1 [G2 [G3 [G4 [G5 [G6 [G7 G8]]]]]]]. pose proof (pow2_gt0 t ltac:(lia)) as Ht.
  unfold encode_exp, encode_frac, nan_sig in *. change (NONFINITE_BEHAVIOR S) with nf in *. change (X87 S) with false in *.
  destruct (category x); try lia.
  - destruct nf; rewrite G3 in H; replace (t + 1 - 1) with t in H by lia; lia.
  - destruct H as [H1 [H2 [H3 H4]]]. rewrite G3 in *. replace (t + 1 - 1) with t in H3 by lia.
    assert (2 ^ (t + 1) = 2 * 2 ^ t) as Hd by (rewrite Z.add_1_r; apply Z.pow_succ_r; lia).
    destruct (Z.ltb_spec (sig x) (2 ^ t)); [lia|]. split; [|lia]. destruct nf; lia.
Qed.

Lemma to_bits_fields : forall x, wf S x ->
  to_bits S x = Ret (b2z (sign x) * 2 ^ (bits - 1) + encode_exp x * 2 ^ t + encode_frac x).
Proof.
  intros x Hx. pose proof (encode_ranges x Hx) as [RE RF]. destruct geometry as [G1 [G2 [G3 [G4 [G5 [G6 [G7 G8]]]]]]].
  pose proof Hx as [HL [_ H]]. pose proof (pow2_gt0 t ltac:(lia)) as Ht.
  unfold to_bits. change (X87 S) with false. cbn [negb]. unfold to_bits_default. rewrite G3, G4.
  destruct (Z.ltb_spec (t + 1) bits) as [_|]; [|lia]. cbn [assertb]. replace (t + 1 - 1) with t by lia.
  rewrite get_bit_spec by (try (apply limb_1; assumption); change (nbits [sig x]) with 128; lia). rewrite lval_single. cbn [bind].
  rewrite land_ones_mod by lia.
  assert (Hgo : forall F E, F = encode_frac x -> E - (MIN_EXP S - 1) = encode_exp x ->
    (let! e := chk32 (E - (MIN_EXP S - 1)) in
     let! a := shl128 (b2z (is_negative x)) (bits - 1) in
     let! b := shl128 (wrap128 e) t in Ret (Z.lor (Z.lor a b) F)) =
    Ret (b2z (sign x) * 2 ^ (bits - 1) + encode_exp x * 2 ^ t + encode_frac x)).
  { intros F E -> ->. rewrite chk32_ret by lia. cbn [bind]. rewrite !shl128_ret by lia. cbn [bind]. f_equal.
    unfold is_negative, wrap128, LIMB_MOD. rewrite !Z.shiftl_mul_pow2 by lia.
    assert (2 ^ (bits - 1) = 2 ^ eb * 2 ^ t) as E1 by (rewrite <- Z.pow_add_r by lia; f_equal; lia).
    assert (2 ^ (bits - 1) * 2 <= 2 ^ 128) as E2.
    { change 2 with (2 ^ 1) at 2. rewrite <- Z.pow_add_r by lia. apply Z.pow_le_mono_r; lia. }
    rewrite (Z.mod_small (encode_exp x)) by lia.
    rewrite Z.mod_small by (destruct (sign x); cbn [b2z]; lia). rewrite Z.mod_small by nia.
    rewrite (lor_disjoint (b2z (sign x)) (encode_exp x * 2 ^ t) (bits - 1)) by first [lia | split; [nia|rewrite E1; nia]].
    rewrite E1. replace (b2z (sign x) * (2 ^ eb * 2 ^ t) + encode_exp x * 2 ^ t) with ((b2z (sign x) * 2 ^ eb + encode_exp x) * 2 ^ t) by ring.
    apply lor_disjoint; [lia|assumption]. }
  unfold encode_exp, encode_frac in *. destruct (category x) eqn:Cx.
  - unfold INFINITY. change (NONFINITE_BEHAVIOR S) with nf in *. rewrite H. cbn [sig exp bind].
    apply Hgo; [reflexivity|]. rewrite H in G6. lia.
  - cbn [bind]. unfold NAN, qnan. cbn [exp]. unfold nan_sig in H. change (NONFINITE_BEHAVIOR S) with nf in *. change (X87 S) with false in *.
    apply Hgo; [apply Z.mod_small; lia|]. destruct nf; lia.
  - destruct H as [H1 [H2 [H3 H4]]]. rewrite G3 in *. replace (t + 1 - 1) with t in H3 by lia.
    rewrite top_bit by lia. destruct (Z.leb_spec (2 ^ t) (sig x)) as [L|L]; destruct (Z.ltb_spec (sig x) (2 ^ t)) as [L2|L2]; try lia.
    + rewrite andb_false_r. cbn [bind]. apply Hgo; [|lia].
      assert (2 ^ (t + 1) = 2 * 2 ^ t) as Hd by (rewrite Z.add_1_r; apply Z.pow_succ_r; lia).
      symmetry. apply Z.mod_unique with 1; lia.
    + assert (exp x = MIN_EXP S) as -> by lia. rewrite Z.eqb_refl. cbn [andb negb].
      rewrite chk32_ret by lia. cbn [bind]. apply Hgo; [apply Z.mod_small; lia|lia].
  - cbn [ZERO sig exp bind]. apply Hgo; [reflexivity|lia].
Qed.

Local Ltac canon := unfold canonical_normal;
  match goal with G3 : PRECISION S = t + 1 |- _ => rewrite G3 end; replace (t + 1 - 1) with t by lia;
  (split; [lia|]); (split; [lia|]); (split; [lia|]); intros ? ?; try first [discriminate|lia].

Lemma decode_wf : forall s E F, 0 <= E < 2 ^ eb -> 0 <= F < 2 ^ t -> wf S (decode_fields s E F).
Proof.
  intros s E F HE HF. destruct geometry as [G1 [G2 [G3 [G4 [G5 [G6 [G7 G8]]]]]]]. pose proof (pow2_gt0 t ltac:(lia)) as Ht.
  assert (2 ^ (t + 1) = 2 * 2 ^ t) as Hd by (rewrite Z.add_1_r; apply Z.pow_succ_r; lia).
  assert (2 ^ (t + 1) < 2 ^ 128) as Ht2 by (apply Z.pow_lt_mono_r; lia).
  assert (0 <= match nf with IEEE754 => 0 | NanOnly => 1 end <= 1) as Hnf by (destruct nf; lia).
  unfold decode_fields. unfold wf, limb, i32. change (NONFINITE_BEHAVIOR S) with nf in *.
  destruct (Z.eqb_spec E 0).
  - destruct (Z.eqb_spec F 0); cbn [sig exp category]; (split; [lia|]); (split; [lia|]); [exact I|canon].
  - destruct nf eqn:Enf.
    + destruct (Z.eqb_spec E (2 ^ eb - 1)).
      * cbn [sig exp category]. split; [lia|]. split; [lia|]. destruct (Z.eqb_spec F 0); [reflexivity|].
        unfold nan_sig. change (NONFINITE_BEHAVIOR S) with IEEE754. change (X87 S) with false. cbv iota. rewrite G3.
        replace (t + 1 - 1) with t by lia. lia.
      * cbn [sig exp category]. split; [lia|]. split; [lia|]. canon.
    + destruct (Z.eqb_spec E (2 ^ eb - 1)); destruct (Z.eqb_spec F (2 ^ t - 1)); cbn [andb sig exp category];
        (split; [lia|]); (split; [lia|]); try canon.
      unfold nan_sig. change (NONFINITE_BEHAVIOR S) with NanOnly. cbv iota. rewrite G3. replace (t + 1 - 1) with t by lia. lia.
Qed.

Lemma encode_decode : forall s E F, 0 <= E < 2 ^ eb -> 0 <= F < 2 ^ t ->
  encode_exp (decode_fields s E F) = E /\ encode_frac (decode_fields s E F) = F /\ sign (decode_fields s E F) = s.
Proof.
  intros s E F HE HF. destruct geometry as [G1 [G2 [G3 [G4 [G5 [G6 [G7 G8]]]]]]]. pose proof (pow2_gt0 t ltac:(lia)) as Ht.
  unfold decode_fields, encode_exp, encode_frac.
  destruct (Z.eqb_spec E 0) as [->|].
  - destruct (Z.eqb_spec F 0) as [->|]; cbn [category sig exp sign]; [auto|].
    destruct (Z.ltb_spec F (2 ^ t)); [auto|lia].
  - destruct nf.
    + destruct (Z.eqb_spec E (2 ^ eb - 1)) as [->|]; cbn [category sig exp sign].
      * destruct (Z.eqb_spec F 0) as [->|]; auto.
      * destruct (Z.ltb_spec (2 ^ t + F) (2 ^ t)); [lia|]. repeat split; lia.
    + destruct (Z.eqb_spec E (2 ^ eb - 1)) as [EE|]; destruct (Z.eqb_spec F (2 ^ t - 1)) as [EF|]; cbn [andb category sig exp sign];
        try (destruct (Z.ltb_spec (2 ^ t + F) (2 ^ t)); [lia|]); repeat split; lia.
Qed.

(** C01 *)
Theorem bits_roundtrip : forall b, 0 <= b < 2 ^ bits ->
  exists x, from_bits S b = Ret x /\ wf S x /\ to_bits S x = Ret b.
Proof.
  intros b Hb. destruct geometry as [G1 [G2 _]].
  assert (2 ^ bits <= 2 ^ 128) as H128 by (apply Z.pow_le_mono_r; lia).
  assert (0 <= field_exp bits eb b < 2 ^ eb) as HE by (apply Z.mod_pos_bound; apply pow2_gt0; lia).
  assert (0 <= field_frac bits eb b < 2 ^ t) as HF by (apply Z.mod_pos_bound; apply pow2_gt0; fold t; lia).
  rewrite from_bits_fields by lia. eexists. split; [reflexivity|].
  pose proof (decode_wf (field_sign bits b) _ _ HE HF) as W. split; [exact W|].
  rewrite to_bits_fields by exact W.
  destruct (encode_decode (field_sign bits b) _ _ HE HF) as [-> [-> ->]]. f_equal. symmetry.
  unfold t. apply fields_split; lia.
Qed.

Theorem from_bits_high_bits : forall b, 0 <= b < 2 ^ 128 -> from_bits S b = from_bits S (b mod 2 ^ bits).
Proof.
  intros b Hb. destruct geometry as [G1 [G2 _]].
  assert (2 ^ bits <= 2 ^ 128) as H128 by (apply Z.pow_le_mono_r; lia).
  pose proof (pow2_gt0 bits ltac:(lia)) as Hp.
  pose proof (Z.mod_pos_bound b (2 ^ bits) Hp) as Hm.
  rewrite !from_bits_fields by lia. f_equal.
  pose proof (pow2_gt0 t ltac:(lia)) as Ht. pose proof (pow2_gt0 eb ltac:(lia)) as He.
  assert (2 ^ (bits - 1) = 2 ^ t * 2 ^ eb) as E1 by (rewrite <- Z.pow_add_r by lia; f_equal; lia).
  assert (2 ^ bits = 2 ^ (bits - 1) * 2) as E2 by (replace bits with (bits - 1 + 1) at 1 by lia; rewrite Z.pow_add_r by lia; reflexivity).
  assert (b = (b / 2 ^ bits) * 2 ^ bits + b mod 2 ^ bits) as Hdm by (pose proof (Z.div_mod b (2 ^ bits) ltac:(lia)); lia).
  unfold field_sign, field_exp, field_frac. fold t. set (r := b mod 2 ^ bits) in *. set (q := b / 2 ^ bits) in *. clearbody q r.
  subst b. f_equal.
  - rewrite E2. replace (q * (2 ^ (bits - 1) * 2) + r) with (r + q * 2 * 2 ^ (bits - 1)) by ring. rewrite Z.div_add by lia.
    rewrite Z.odd_add, Z.odd_mul. cbn [Z.odd]. rewrite andb_false_r. apply xorb_false_r.
  - rewrite E2, E1. replace (q * (2 ^ t * 2 ^ eb * 2) + r) with (r + q * 2 * 2 ^ eb * 2 ^ t) by ring. rewrite Z.div_add by lia.
    apply Z.mod_add. lia.
  - rewrite E2, E1. replace (q * (2 ^ t * 2 ^ eb * 2) + r) with (r + q * 2 * 2 ^ eb * 2 ^ t) by ring. apply Z.mod_add. lia.
Qed.

(** C02 *)
Lemma decode_encode : forall x, wf S x -> bitwise_eq x (decode_fields (sign x) (encode_exp x) (encode_frac x)) = true.
Proof.
  intros x Hx. destruct geometry as [G1 [G2 [G3 [G4 [G5 [G6 [G7 G8]]]]]]]. pose proof (pow2_gt0 t ltac:(lia)) as Ht.
  pose proof Hx as [_ [_ H]]. unfold decode_fields, encode_exp, encode_frac, bitwise_eq, is_negative. rewrite is_finite_non_zero_spec.
  unfold nan_sig in H. change (NONFINITE_BEHAVIOR S) with nf in *. change (X87 S) with false in *. rewrite ?G3 in H.
  replace (t + 1 - 1) with t in H by lia.
  destruct (category x) eqn:Cx.
  - destruct (Z.eqb_spec (2 ^ eb - 1) 0); [lia|]. destruct nf; [|discriminate]. rewrite Z.eqb_refl. cbn. rewrite eqb_reflx. reflexivity.
  - destruct (Z.eqb_spec (2 ^ eb - 1) 0); [lia|]. rewrite Z.eqb_refl.
    destruct nf.
    + destruct (Z.eqb_spec (sig x) 0); [lia|]. cbn. rewrite eqb_reflx, Z.eqb_refl. reflexivity.
    + rewrite H, Z.eqb_refl. cbn. rewrite eqb_reflx, ?H, Z.eqb_refl. reflexivity.
  - destruct H as [H1 [H2 [H3 H4]]]. rewrite G3 in *. replace (t + 1 - 1) with t in H3 by lia.
    destruct (Z.ltb_spec (sig x) (2 ^ t)) as [L|L].
    + cbn [Z.eqb]. destruct (Z.eqb_spec (sig x) 0); [lia|]. cbn [category category_eqb sign sig exp negb orb andb].
      rewrite eqb_reflx, Z.eqb_refl. cbn [negb]. destruct (Z.eqb_spec (exp x) (MIN_EXP S)); [reflexivity|lia].
    + destruct (Z.eqb_spec (exp x - (MIN_EXP S - 1)) 0); [lia|].
      replace (2 ^ t + (sig x - 2 ^ t)) with (sig x) by ring.
      replace (exp x - (MIN_EXP S - 1) + (MIN_EXP S - 1)) with (exp x) by ring.
      destruct nf.
      * destruct (Z.eqb_spec (exp x - (MIN_EXP S - 1)) (2 ^ eb - 1)); [lia|]. cbn. rewrite eqb_reflx, !Z.eqb_refl. reflexivity.
      * assert (2 ^ (t + 1) = 2 * 2 ^ t) as Hd by (rewrite Z.add_1_r; apply Z.pow_succ_r; lia).
        destruct (Z.eqb_spec (exp x - (MIN_EXP S - 1)) (2 ^ eb - 1)); destruct (Z.eqb_spec (sig x - 2 ^ t) (2 ^ t - 1)); cbn [andb];
          try (cbn; rewrite eqb_reflx, !Z.eqb_refl; reflexivity).
        exfalso. apply H4; [reflexivity|lia|lia].
  - cbn. rewrite eqb_reflx. reflexivity.
Qed.

Theorem value_roundtrip : forall x, wf S x ->
  exists b y, to_bits S x = Ret b /\ 0 <= b < 2 ^ bits /\ from_bits S b = Ret y /\ bitwise_eq x y = true.
Proof.
  intros x Hx. destruct geometry as [G1 [G2 _]]. destruct (encode_ranges x Hx) as [RE RF].
  assert (2 ^ bits <= 2 ^ 128) as H128 by (apply Z.pow_le_mono_r; lia).
  destruct (fields_join bits eb (sign x) (encode_exp x) (encode_frac x) ltac:(lia) ltac:(lia) RE RF) as [J1 [J2 [J3 J4]]]. fold t in J1, J2, J3, J4.
  do 2 eexists. split; [apply to_bits_fields; assumption|]. split; [exact J1|].
  rewrite from_bits_fields by lia. rewrite J2, J3, J4. split; [reflexivity|]. apply decode_encode. assumption.
Qed.

Theorem bitwise_eq_bits : forall x y, wf S x -> wf S y ->
  bitwise_eq x y = true <-> to_bits S x = to_bits S y.
Proof.
  intros x y Hx Hy. destruct geometry as [G1 [G2 _]].
  pose proof (encode_ranges x Hx) as [REx RFx]. pose proof (encode_ranges y Hy) as [REy RFy].
  rewrite (bitwise_eq_spec S) by assumption. rewrite !to_bits_fields by assumption. split.
  - intro K. pose proof (proj2 (bitwise_eq_spec S x y HS Hx Hy) K) as B. destruct K as [H1 [H2 [H3 _]]]. rewrite H2.
    assert (encode_exp x = encode_exp y /\ encode_frac x = encode_frac y) as [-> ->]; [|reflexivity].
    unfold encode_exp, encode_frac. rewrite <- H1. destruct (category x) eqn:Cx; auto.
    assert (sig x = sig y /\ exp x = exp y) as [-> ->]; [|auto].
    unfold bitwise_eq in B. rewrite is_finite_non_zero_spec, Cx, <- H1 in B. cbn [category_eqb negb orb andb] in B.
    unfold is_negative in B. rewrite H2, eqb_reflx in B. cbn [negb] in B.
    destruct (Z.eqb_spec (exp x) (exp y)); cbn [negb] in B; [|discriminate]. apply Z.eqb_eq in B. auto.
  - intro H. injection H as H.
    destruct (fields_join bits eb (sign x) (encode_exp x) (encode_frac x) ltac:(lia) ltac:(lia) REx RFx) as [_ [J2 [J3 J4]]].
    destruct (fields_join bits eb (sign y) (encode_exp y) (encode_frac y) ltac:(lia) ltac:(lia) REy RFy) as [_ [K2 [K3 K4]]].
    fold t in J2, J3, J4, K2, K3, K4. rewrite H in J2, J3, J4.
    assert (Hs : sign x = sign y) by congruence. assert (He : encode_exp x = encode_exp y) by congruence.
    assert (Hf : encode_frac x = encode_frac y) by congruence.
    pose proof (decode_encode x Hx) as Dx. pose proof (decode_encode y Hy) as Dy. rewrite Hs, He, Hf in Dx.
    pose proof (decode_wf (sign y) _ _ REy RFy) as W.
    apply (bitwise_eq_spec S) in Dx; [|assumption..]. apply (bitwise_eq_spec S) in Dy; [|assumption..].
    set (z := decode_fields (sign y) (encode_exp y) (encode_frac y)) in *.
    destruct Dx as [A1 [A2 [A3 A4]]]. destruct Dy as [B1 [B2 [B3 B4]]].
    split; [congruence|]. split; [congruence|]. split.
    + intro E. rewrite A3 by assumption. symmetry. apply B3. congruence.
    + intro E. rewrite A4 by assumption. symmetry. apply B4. congruence.
Qed.

(** C03 *)
Theorem from_bits_denotes : forall b, 0 <= b < 2 ^ bits ->
  exists x, from_bits S b = Ret x /\ sign x = field_sign bits b /\ denotes S x (decoded nf bits eb b).
Proof.
  intros b Hb. destruct geometry as [G1 [G2 [G3 [G4 [G5 [G6 [G7 G8]]]]]]].
  assert (2 ^ bits <= 2 ^ 128) as H128 by (apply Z.pow_le_mono_r; lia).
  assert (0 <= field_exp bits eb b < 2 ^ eb) as HE by (apply Z.mod_pos_bound; apply pow2_gt0; lia).
  assert (0 <= field_frac bits eb b < 2 ^ t) as HF by (apply Z.mod_pos_bound; apply pow2_gt0; fold t; lia).
  rewrite from_bits_fields by lia. eexists. split; [reflexivity|].
  split; [apply (encode_decode (field_sign bits b) _ _ HE HF)|].
  unfold decoded. fold t. set (E := field_exp bits eb b) in *. set (F := field_frac bits eb b) in *. set (s := field_sign bits b) in *. clearbody E F s.
  assert (Hs : forall z, ((if s then -1 else 1) * z = sgnr s z)%R) by (intro z; destruct s; cbn; ring).
  assert (Hn : denotes S (if E =? 0 then (if F =? 0 then mkFloat F (MIN_EXP S - 1) Zero s else mkFloat F (MIN_EXP S) Normal s)
     else mkFloat (2 ^ t + F) (E + (MIN_EXP S - 1)) Normal s)
    (if E =? 0 then MNumber ((if s then -1 else 1) * (IZR F * bpow r2 (1 - (2 ^ (eb - 1) - 1) - t)))
     else MNumber ((if s then -1 else 1) * (IZR (2 ^ t + F) * bpow r2 (E - (2 ^ (eb - 1) - 1) - t))))).
  { destruct (Z.eqb_spec E 0) as [_|_].
    - destruct (Z.eqb_spec F 0) as [->|]; cbn [denotes].
      + split; [right; reflexivity|]. rewrite value_zero by reflexivity. ring.
      + split; [left; reflexivity|]. rewrite value_normal by reflexivity. cbn [sign sig exp]. rewrite Hs. f_equal. f_equal. f_equal. lia.
    - cbn [denotes]. split; [left; reflexivity|]. rewrite value_normal by reflexivity. cbn [sign sig exp]. rewrite Hs. f_equal. f_equal. f_equal. lia. }
  unfold decode_fields. destruct nf.
  - destruct (Z.eqb_spec E (2 ^ eb - 1)) as [EE|EE]; [|exact Hn].
    destruct (Z.eqb_spec E 0); [lia|]. destruct (Z.eqb_spec F 0); cbn [denotes category sig]; auto.
  - destruct (Z.eqb_spec E (2 ^ eb - 1)) as [EE|EE]; [|exact Hn].
    destruct (Z.eqb_spec F (2 ^ t - 1)); [|exact Hn].
    destruct (Z.eqb_spec E 0); [lia|]. cbn [andb denotes category sig]; auto.
Qed.
End Ieee.

(** ** The x87 80-bit format *)
Section X87.
Let S := X87DoubleExtendedS.

Definition decode_x87 (s : bool) (E F : Z) : Float :=
  if E =? 0 then mkFloat F (if F =? 0 then -16383 else -16382) (if F =? 0 then Zero else Normal) s
  else if E =? 32767 then mkFloat F 16384 (if F =? 2 ^ 63 then Infinity else NaN) s
  else if F <? 2 ^ 63 then mkFloat F 16384 NaN s
  else mkFloat F (E - 16383) Normal s.

Lemma from_bits_x87_fields : forall b, 0 <= b < 2 ^ 128 ->
  from_bits S b = Ret (decode_x87 (field_sign 80 b) (field_exp 80 15 b) (field_frac 80 15 b)).
Proof.
  intros b Hb. unfold from_bits. change (X87 S) with true. cbv iota. unfold from_bits_x87.
  change (BITS S) with 80. change (EXP_BITS S) with 15. change (PRECISION S) with 64. change (MIN_EXP S) with (-16382). change (MAX_EXP S) with 16383.
  change (80 - 1 - 15) with 64. change (80 - 1) with 79. change (64 - 1) with 63.
  set (g := Z.land b (2 ^ 79)).
  assert (g = 0 \/ g = 2 ^ (64 + 15)) as Hg.
  { unfold g. rewrite land_pow2 by lia. destruct (Z.testbit _ _); auto. }
  rewrite (exponent_field b g 64 15) by (try assumption; lia).
  change ((b / 2 ^ 64) mod 2 ^ 15) with (field_exp 80 15 b).
  rewrite land_ones_mod by lia. change (b mod 2 ^ 64) with (field_frac 80 15 b).
  unfold g. rewrite sign_field by lia. change (Z.odd (b / 2 ^ 79)) with (field_sign 80 b).
  assert (0 <= field_exp 80 15 b < 32768) as HE by (apply Z.mod_pos_bound; lia).
  assert (0 <= field_frac 80 15 b < 2 ^ 64) as HF by (apply Z.mod_pos_bound; lia).
  set (E := field_exp 80 15 b) in *. set (F := field_frac 80 15 b) in *. set (s := field_sign 80 b) in *. clearbody E F s.
  rewrite as_i32_id by lia. rewrite chk32_ret by lia. cbn [bind].
  change (-16382 - 1) with (-16383). change (16383 + 1) with 16384.
  rewrite Z.shiftr_div_pow2 by lia.
  assert ((F / 2 ^ 63 =? 0) = (F <? 2 ^ 63)) as ->.
  { destruct (Z.ltb_spec F (2 ^ 63)); [rewrite Z.div_small by lia; reflexivity|].
    apply Z.eqb_neq. intro H0. apply Z.div_small_iff in H0; lia. }
  unfold decode_x87.
  destruct (Z.eqb_spec E 0) as [->|E0]; [|destruct (Z.eqb_spec E 32767) as [->|E1]].
  - change (0 + -16383 =? -16383) with true. change (0 + -16383 =? 16384) with false. change (0 + -16383) with (-16383). cbn [andb orb negb].
    destruct (Z.eqb_spec F 0); reflexivity.
  - change (32767 + -16383 =? -16383) with false. change (32767 + -16383 =? 16384) with true. change (32767 + -16383) with 16384. cbn [andb orb negb].
    destruct (Z.eqb_spec F (2 ^ 63)); reflexivity.
  - destruct (Z.eqb_spec (E + -16383) (-16383)); [lia|]. destruct (Z.eqb_spec (E + -16383) 16384); [lia|]. cbn [andb orb negb].
    destruct (Z.ltb_spec F (2 ^ 63)); [reflexivity|]. f_equal.
Qed.

Definition encode_exp_x87 (x : Float) : Z :=
  match category x with
  | Normal => if sig x <? 2 ^ 63 then 0 else exp x + 16383
  | Zero => 0
  | _ => 32767
  end.
Definition encode_frac_x87 (x : Float) : Z :=
  match category x with
  | Normal | NaN => sig x
  | Zero => 0
  | Infinity => 2 ^ 63
  end.

Lemma x87_normal : forall x, wf S x -> category x = Normal ->
  0 < sig x < 2 ^ 64 /\ -16382 <= exp x <= 16383 /\ (exp x = -16382 \/ 2 ^ 63 <= sig x).
Proof. intros x [_ [_ H]] C. rewrite C in H. destruct H as [H1 [H2 [H3 _]]]. exact (conj H1 (conj H2 H3)). Qed.

Lemma x87_nan : forall x, wf S x -> category x = NaN -> 0 <= sig x < 2 ^ 64 /\ sig x <> 2 ^ 63.
Proof. intros x [_ [_ H]] C. rewrite C in H. exact H. Qed.

Lemma encode_ranges_x87 : forall x, wf S x -> 0 <= encode_exp_x87 x < 2 ^ 15 /\ 0 <= encode_frac_x87 x < 2 ^ 64.
Proof.
  intros x Hx. unfold encode_exp_x87, encode_frac_x87. destruct (category x) eqn:C; try lia.
  - pose proof (x87_nan x Hx C). lia.
  - pose proof (x87_normal x Hx C). destruct (Z.ltb_spec (sig x) (2 ^ 63)); lia.
Qed.

Lemma to_bits_x87_fields : forall x, wf S x ->
  to_bits S x = Ret (b2z (sign x) * 2 ^ 79 + encode_exp_x87 x * 2 ^ 64 + encode_frac_x87 x).
Proof.
  intros x Hx. pose proof (encode_ranges_x87 x Hx) as [RE RF]. pose proof Hx as [HL _].
  unfold to_bits. change (X87 S) with true. cbv iota. unfold to_bits_x87.
  change (BITS S) with 80. change (PRECISION S) with 64. change (MIN_EXP S) with (-16382). change (MAX_EXP S) with 16383.
  change (80 - 1) with 79. change (64 - 1) with 63. change (-16382 - 1) with (-16383). change (16383 + 1) with 16384.
  rewrite get_bit_spec by (try (apply limb_1; assumption); change (nbits [sig x]) with 128; lia). rewrite lval_single. cbn [bind].
  rewrite land_ones_mod by lia.
  assert (Hgo : forall F E, F = encode_frac_x87 x -> E + 16383 = encode_exp_x87 x ->
    (let! e := chk32 (E - -16383) in
     let! a := shl128 (b2z (is_negative x)) 79 in
     let! b := shl128 (wrap128 e) 64 in Ret (Z.lor (Z.lor a b) F)) =
    Ret (b2z (sign x) * 2 ^ 79 + encode_exp_x87 x * 2 ^ 64 + encode_frac_x87 x)).
  { intros F E -> HE. replace (E - -16383) with (encode_exp_x87 x) by lia. rewrite chk32_ret by lia. cbn [bind]. rewrite !shl128_ret by lia. cbn [bind]. f_equal.
    unfold is_negative, wrap128, LIMB_MOD. rewrite !Z.shiftl_mul_pow2 by lia.
    rewrite (Z.mod_small (encode_exp_x87 x)) by lia.
    rewrite Z.mod_small by (destruct (sign x); cbn [b2z]; lia). rewrite Z.mod_small by lia.
    rewrite (lor_disjoint (b2z (sign x)) (encode_exp_x87 x * 2 ^ 64) 79) by lia.
    replace (b2z (sign x) * 2 ^ 79 + encode_exp_x87 x * 2 ^ 64) with ((b2z (sign x) * 2 ^ 15 + encode_exp_x87 x) * 2 ^ 64) by ring.
    apply lor_disjoint; [lia|assumption]. }
  unfold encode_exp_x87, encode_frac_x87 in *. destruct (category x) eqn:Cx.
  - apply Hgo; reflexivity.
  - pose proof (x87_nan x Hx Cx). apply Hgo; [apply Z.mod_small; lia|reflexivity].
  - pose proof (x87_normal x Hx Cx) as [H1 [H2 H3]].
    replace 63 with (64 - 1) by reflexivity. rewrite top_bit by lia. change (64 - 1) with 63.
    destruct (Z.leb_spec (2 ^ 63) (sig x)) as [L|L]; destruct (Z.ltb_spec (sig x) (2 ^ 63)) as [L2|L2]; try lia.
    + rewrite andb_false_r. apply Hgo; [apply Z.mod_small; lia|lia].
    + assert (exp x = -16382) as -> by lia. cbn [andb negb Z.eqb]. apply Hgo; [apply Z.mod_small; lia|reflexivity].
  - apply Hgo; reflexivity.
Qed.

Lemma decode_wf_x87 : forall s E F, 0 <= E < 2 ^ 15 -> 0 <= F < 2 ^ 64 -> wf S (decode_x87 s E F).
Proof.
  intros s E F HE HF. unfold decode_x87, wf, limb, i32.
  destruct (Z.eqb_spec E 0).
  - cbn [sig exp category]. split; [lia|]. destruct (Z.eqb_spec F 0); (split; [lia|]); [exact I|].
    split; [change (PRECISION S) with 64; lia|]. split; [change (MIN_EXP S) with (-16382); change (MAX_EXP S) with 16383; lia|].
    split; [left; reflexivity|discriminate].
  - destruct (Z.eqb_spec E 32767).
    + cbn [sig exp category]. split; [lia|]. split; [lia|]. destruct (Z.eqb_spec F (2 ^ 63)); [reflexivity|].
      unfold nan_sig. cbn [S X87DoubleExtendedS NONFINITE_BEHAVIOR X87 PRECISION]. change (64 - 1) with 63. split; assumption.
    + destruct (Z.ltb_spec F (2 ^ 63)); cbn [sig exp category]; (split; [lia|]); (split; [lia|]).
      * unfold nan_sig. cbn [S X87DoubleExtendedS NONFINITE_BEHAVIOR X87 PRECISION]. change (64 - 1) with 63. lia.
      * split; [change (PRECISION S) with 64; lia|]. split; [change (MIN_EXP S) with (-16382); change (MAX_EXP S) with 16383; lia|].
        split; [change (PRECISION S) with 64; change (64 - 1) with 63; lia|discriminate].
Qed.

(** the patterns the x87 itself produces: the explicit integer bit agrees
    with the exponent *)

Lemma encode_decode_x87 : forall s E F, 0 <= E < 2 ^ 15 -> 0 <= F < 2 ^ 64 ->
  encode_frac_x87 (decode_x87 s E F) = F /\ sign (decode_x87 s E F) = s /\
  encode_exp_x87 (decode_x87 s E F) =
    (if (E =? 0) && (2 ^ 63 <=? F) then 1 else if negb (E =? 0) && (F <? 2 ^ 63) then 32767 else E).
Proof.
  intros s E F HE HF. unfold decode_x87, encode_exp_x87, encode_frac_x87.
  destruct (Z.eqb_spec E 0) as [->|]; cbn [andb negb].
  - cbn [category sig exp sign]. destruct (Z.eqb_spec F 0) as [->|]; [repeat split; reflexivity|].
    destruct (Z.ltb_spec F (2 ^ 63)); destruct (Z.leb_spec (2 ^ 63) F); try lia; repeat split; reflexivity.
  - destruct (Z.eqb_spec E 32767) as [->|].
    + cbn [category sig exp sign]. destruct (Z.eqb_spec F (2 ^ 63)) as [->|]; [repeat split; reflexivity|].
      destruct (F <? 2 ^ 63); repeat split; reflexivity.
    + destruct (Z.ltb_spec F (2 ^ 63)) as [L|L]; cbn [category sig exp sign]; [repeat split; reflexivity|].
      destruct (Z.ltb_spec F (2 ^ 63)); [lia|]. repeat split; lia.
Qed.

(** [from_bits] then [to_bits] returns the pattern, except that a
    pseudo-denormal (exponent 0 with the integer bit set) becomes the equal
    normal number and an unnormal (nonzero exponent without the integer bit)
    becomes a NaN with the same significand *)
Theorem bits_roundtrip_x87 : forall b, 0 <= b < 2 ^ 80 ->
  exists x, from_bits S b = Ret x /\ wf S x /\
    to_bits S x = Ret (b2z (field_sign 80 b) * 2 ^ 79 +
      (if (field_exp 80 15 b =? 0) && (2 ^ 63 <=? field_frac 80 15 b) then 1
       else if negb (field_exp 80 15 b =? 0) && (field_frac 80 15 b <? 2 ^ 63) then 32767
       else field_exp 80 15 b) * 2 ^ 64 + field_frac 80 15 b).
Proof.
  intros b Hb.
  assert (0 <= field_exp 80 15 b < 2 ^ 15) as HE by (apply Z.mod_pos_bound; lia).
  assert (0 <= field_frac 80 15 b < 2 ^ 64) as HF by (apply Z.mod_pos_bound; lia).
  rewrite from_bits_x87_fields by lia. eexists. split; [reflexivity|].
  pose proof (decode_wf_x87 (field_sign 80 b) _ _ HE HF) as W. split; [exact W|].
  rewrite to_bits_x87_fields by exact W.
  destruct (encode_decode_x87 (field_sign 80 b) _ _ HE HF) as [-> [-> ->]]. reflexivity.
Qed.

Theorem bits_roundtrip_x87_canonical : forall b, 0 <= b < 2 ^ 80 -> x87_canonical_pattern b ->
  exists x, from_bits S b = Ret x /\ wf S x /\ to_bits S x = Ret b.
Proof.
  intros b Hb Hc. destruct (bits_roundtrip_x87 b Hb) as [x [E [W T]]]. exists x. split; [exact E|]. split; [exact W|].
  rewrite T. f_equal.
  etransitivity; [|symmetry; exact (fields_split 80 15 b ltac:(lia) ltac:(lia) Hb)].
  change (80 - 1 - 15) with 64. change (80 - 1) with 79. f_equal.
  f_equal. f_equal. destruct Hc as [Hc|Hc].
  - rewrite Hc. cbn [Z.eqb andb negb Pos.eqb]. destruct (_ <? _); reflexivity.
  - destruct (Z.eqb_spec (field_exp 80 15 b) 0) as [E0|E0]; destruct (Z.leb_spec (2 ^ 63) (field_frac 80 15 b)) as [L|L];
      destruct (Z.ltb_spec (field_frac 80 15 b) (2 ^ 63)) as [L2|L2]; cbn [andb negb]; try reflexivity; exfalso; lia.
Qed.

Lemma decode_encode_x87 : forall x, wf S x -> bitwise_eq x (decode_x87 (sign x) (encode_exp_x87 x) (encode_frac_x87 x)) = true.
Proof.
  intros x Hx. unfold decode_x87, encode_exp_x87, encode_frac_x87, bitwise_eq, is_negative. rewrite is_finite_non_zero_spec.
  destruct (category x) eqn:Cx.
  - cbn. rewrite eqb_reflx. reflexivity.
  - pose proof (x87_nan x Hx Cx) as [H1 H2]. cbn [Z.eqb Pos.eqb]. destruct (Z.eqb_spec (sig x) (2 ^ 63)); [contradiction|].
    cbn. rewrite eqb_reflx, Z.eqb_refl. reflexivity.
  - pose proof (x87_normal x Hx Cx) as [H1 [H2 H3]].
    destruct (Z.ltb_spec (sig x) (2 ^ 63)) as [L|L].
    + cbn [Z.eqb]. destruct (Z.eqb_spec (sig x) 0); [lia|]. cbn [category category_eqb sign sig exp negb orb andb].
      rewrite eqb_reflx, Z.eqb_refl. cbn [negb]. destruct (Z.eqb_spec (exp x) (-16382)); [reflexivity|lia].
    + destruct (Z.eqb_spec (exp x + 16383) 0); [lia|]. destruct (Z.eqb_spec (exp x + 16383) 32767); [lia|].
      replace (exp x + 16383 - 16383) with (exp x) by ring. cbn. rewrite eqb_reflx, !Z.eqb_refl. reflexivity.
  - cbn. rewrite eqb_reflx. reflexivity.
Qed.

Theorem value_roundtrip_x87 : forall x, wf S x ->
  exists b y, to_bits S x = Ret b /\ 0 <= b < 2 ^ 80 /\ from_bits S b = Ret y /\ bitwise_eq x y = true.
Proof.
  intros x Hx. destruct (encode_ranges_x87 x Hx) as [RE RF].
  destruct (fields_join 80 15 (sign x) (encode_exp_x87 x) (encode_frac_x87 x) ltac:(lia) ltac:(lia) RE RF) as [J1 [J2 [J3 J4]]].
  change (80 - 1 - 15) with 64 in J1, J2, J3, J4. change (80 - 1) with 79 in J1, J2, J3, J4.
  do 2 eexists. split; [apply to_bits_x87_fields; assumption|]. split; [exact J1|].
  rewrite from_bits_x87_fields by lia. rewrite J2, J3, J4. split; [reflexivity|]. apply decode_encode_x87. assumption.
Qed.

Theorem from_bits_denotes_x87 : forall b, 0 <= b < 2 ^ 80 ->
  exists x, from_bits S b = Ret x /\ sign x = field_sign 80 b /\ denotes S x (decoded_x87 b).
Proof.
  intros b Hb.
  assert (0 <= field_exp 80 15 b < 2 ^ 15) as HE by (apply Z.mod_pos_bound; lia).
  assert (0 <= field_frac 80 15 b < 2 ^ 64) as HF by (apply Z.mod_pos_bound; lia).
  rewrite from_bits_x87_fields by lia. eexists. split; [reflexivity|].
  split; [apply (encode_decode_x87 (field_sign 80 b) _ _ HE HF)|].
  unfold decoded_x87, decode_x87. set (E := field_exp 80 15 b) in *. set (F := field_frac 80 15 b) in *. set (s := field_sign 80 b) in *. clearbody E F s.
  assert (Hs : forall z, ((if s then -1 else 1) * z = sgnr s z)%R) by (intro z; destruct s; cbn; ring).
  destruct (Z.eqb_spec E 0) as [_|_]; [|destruct (Z.eqb_spec E 32767) as [_|_]; [|destruct (Z.ltb_spec F (2 ^ 63))]]; cbn [denotes].
  - destruct (Z.eqb_spec F 0) as [->|].
    + split; [right; reflexivity|]. rewrite value_zero by reflexivity. ring.
    + split; [left; reflexivity|]. rewrite value_normal by reflexivity. cbn [sign sig exp]. rewrite Hs. reflexivity.
  - destruct (Z.eqb_spec F (2 ^ 63)); cbn [denotes]; [reflexivity|split; reflexivity].
  - split; reflexivity.
  - split; [left; reflexivity|]. rewrite value_normal by reflexivity. cbn [sign sig exp]. rewrite Hs. f_equal.
Qed.

Theorem bitwise_eq_bits_x87 : forall x y, wf S x -> wf S y ->
  bitwise_eq x y = true <-> to_bits S x = to_bits S y.
Proof.
  intros x y Hx Hy. destruct (encode_ranges_x87 x Hx) as [REx RFx]. destruct (encode_ranges_x87 y Hy) as [REy RFy].
  rewrite !to_bits_x87_fields by assumption. split.
  - intro B. assert (sign x = sign y /\ encode_exp_x87 x = encode_exp_x87 y /\ encode_frac_x87 x = encode_frac_x87 y) as [-> [-> ->]]; [|reflexivity].
    unfold bitwise_eq, is_negative in B. rewrite is_finite_non_zero_spec in B. unfold encode_exp_x87, encode_frac_x87.
    destruct (sign x), (sign y); cbn [Bool.eqb negb orb] in B; rewrite ?orb_true_r in B; try discriminate; (split; [reflexivity|]);
    (destruct (category x) eqn:Cx; destruct (category y) eqn:Cy; cbn [category_eqb negb orb andb] in B; try discriminate; auto;
     [apply Z.eqb_eq in B; rewrite B; auto|
      destruct (Z.eqb_spec (exp x) (exp y)) as [Ee|]; cbn [negb] in B; [|discriminate]; apply Z.eqb_eq in B; rewrite B, Ee; auto]).
  - intro H. assert (forall a b : Z, Ret a = Ret b -> a = b) as Ri by (intros ? ? Q; congruence). apply Ri in H. clear Ri.
    destruct (fields_join 80 15 (sign x) (encode_exp_x87 x) (encode_frac_x87 x) ltac:(lia) ltac:(lia) REx RFx) as [_ [J2 [J3 J4]]].
    destruct (fields_join 80 15 (sign y) (encode_exp_x87 y) (encode_frac_x87 y) ltac:(lia) ltac:(lia) REy RFy) as [_ [K2 [K3 K4]]].
    change (80 - 1 - 15) with 64 in *. change (80 - 1) with 79 in *. rewrite H in J2, J3, J4.
    assert (Hs : sign x = sign y) by congruence. assert (He : encode_exp_x87 x = encode_exp_x87 y) by congruence.
    assert (Hf : encode_frac_x87 x = encode_frac_x87 y) by congruence.
    pose proof (decode_encode_x87 x Hx) as Dx. pose proof (decode_encode_x87 y Hy) as Dy. rewrite Hs, He, Hf in Dx.
    set (z := decode_x87 (sign y) (encode_exp_x87 y) (encode_frac_x87 y)) in *. clearbody z.
    revert Dx Dy. unfold bitwise_eq, is_negative. rewrite !is_finite_non_zero_spec.
    destruct (sign x), (sign y), (sign z); cbn [Bool.eqb negb orb]; rewrite ?orb_true_r, ?orb_false_r; try discriminate;
    (destruct (category x), (category y), (category z); cbn [category_eqb negb orb andb]; try discriminate; auto;
     [intros A B; apply Z.eqb_eq in A, B; apply Z.eqb_eq; congruence|
      destruct (Z.eqb_spec (exp x) (exp z)); cbn [negb]; [|discriminate]; intro A;
      destruct (Z.eqb_spec (exp y) (exp z)); cbn [negb]; [|discriminate]; intro B;
      destruct (Z.eqb_spec (exp x) (exp y)); cbn [negb]; [|congruence]; apply Z.eqb_eq in A, B; apply Z.eqb_eq; congruence]).
Qed.
End X87.
