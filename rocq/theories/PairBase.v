(** * PairBase.v -- the operations that work on the halves of a pair: bits,
    sign, order, classification, scaling (src/ppc.rs:12, 128-137, 368-450). *)
From Coq Require Import ZArith Reals List Bool Lia Lra Psatz.
From Flocq Require Import Core Plus_error.
From Verif Require Import Machine Sig SpecSig Limbs Ieee Parse Fmt Ppc Spec Norm Arith Special Order Bits Formats Int Scale Next Convert Integral Rem Fma Algebra Laws SpecPair Pair PairOps.
Local Open Scope Z_scope.
Ltac Zify.zify_post_hook ::= idtac.

(** ** Bits *)
Lemma double_in : In (64, 11, IEEE754) interchange_formats.
Proof. unfold interchange_formats. cbn [In]. tauto. Qed.
Lemma land_ones64 : forall a, Z.land a (2 ^ 64 - 1) = a mod 2 ^ 64.
Proof. intro a. replace (2 ^ 64 - 1) with (Z.ones 64) by reflexivity. apply Z.land_ones. lia. Qed.
Lemma low_half : forall b, 0 <= b mod 2 ^ 64 < 2 ^ 64.
Proof. intro b. apply Z.mod_pos_bound. lia. Qed.
Lemma high_half : forall b, 0 <= b < 2 ^ 128 -> 0 <= b / 2 ^ 64 < 2 ^ 64.
Proof.
  intros b H. split; [apply Z.div_pos; lia|]. apply Z.div_lt_upper_bound; [lia|].
  change (2 ^ 64 * 2 ^ 64) with (2 ^ 128). lia.
Qed.
Lemma dd_from_bits_halves : forall b, 0 <= b < 2 ^ 128 ->
  dd_from_bits DoubleS b =
  let! a := from_bits DoubleS (b mod 2 ^ 64) in let! c := from_bits DoubleS (b / 2 ^ 64) in Ret (mkDF a c).
Proof.
  intros b H. unfold dd_from_bits. change (BITS DoubleS) with 64. unfold shr128.
  replace ((0 <=? 64) && (64 <? 128)) with true by reflexivity. cbn [bind].
  rewrite Z.shiftr_div_pow2 by lia. rewrite !land_ones64. rewrite (Z.mod_small (b / 2 ^ 64)) by (apply high_half; exact H). reflexivity.
Qed.
Lemma dd_to_bits_halves : forall x a c, to_bits DoubleS (d0 x) = Ret a -> to_bits DoubleS (d1 x) = Ret c ->
  0 <= a < 2 ^ 64 -> 0 <= c < 2 ^ 64 -> dd_to_bits DoubleS x = Ret (c * 2 ^ 64 + a).
Proof.
  intros x a c A C Ha Hc. unfold dd_to_bits. rewrite A, C. change (BITS DoubleS) with 64. cbn [bind]. unfold shl128.
  replace ((0 <=? 64) && (64 <? 128)) with true by reflexivity. cbn [bind].
  unfold wrap128. rewrite Z.mod_small.
  - rewrite Z.lor_comm, lor_shiftl_add by lia. reflexivity.
  - rewrite Z.shiftl_mul_pow2 by lia. change LIMB_MOD with (2 ^ 64 * 2 ^ 64). nia.
Qed.

Theorem dd_bits_round_trip : forall b, 0 <= b < 2 ^ 128 ->
  exists x, dd_from_bits DoubleS b = Ret x /\ pair_wf DoubleS x /\ dd_to_bits DoubleS x = Ret b.
Proof.
  intros b H. rewrite (dd_from_bits_halves b H).
  destruct (bits_round_trip_crate 64 11 IEEE754 double_in _ (low_half b)) as [x0 [E0 [W0 T0]]].
  destruct (bits_round_trip_crate 64 11 IEEE754 double_in _ (high_half b H)) as [x1 [E1 [W1 T1]]].
  change (ieee_semantics 64 11 IEEE754) with DoubleS in *.
  rewrite E0, E1. cbn [bind]. exists (mkDF x0 x1). split; [reflexivity|]. split; [split; assumption|].
  rewrite (dd_to_bits_halves (mkDF x0 x1) _ _ T0 T1 (low_half b) (high_half b H)).
  f_equal. pose proof (Z.div_mod b (2 ^ 64) ltac:(lia)). lia.
Qed.
Theorem dd_value_round_trip : forall x, pair_wf DoubleS x ->
  exists b y, dd_to_bits DoubleS x = Ret b /\ 0 <= b < 2 ^ 128 /\ dd_from_bits DoubleS b = Ret y /\ dd_bitwise_eq x y = true.
Proof.
  intros x [H0 H1].
  destruct (value_round_trip_crate 64 11 IEEE754 double_in _ H0) as [b0 [y0 [T0 [B0 [E0 Q0]]]]].
  destruct (value_round_trip_crate 64 11 IEEE754 double_in _ H1) as [b1 [y1 [T1 [B1 [E1 Q1]]]]].
  change (ieee_semantics 64 11 IEEE754) with DoubleS in *.
  exists (b1 * 2 ^ 64 + b0), (mkDF y0 y1). split; [apply dd_to_bits_halves; assumption|].
  assert (B : 0 <= b1 * 2 ^ 64 + b0 < 2 ^ 128) by (change (2 ^ 128) with (2 ^ 64 * 2 ^ 64); nia).
  split; [exact B|]. rewrite (dd_from_bits_halves _ B).
  rewrite Z.add_comm, Z.mod_add, Z.mod_small, Z.div_add, Z.div_small by lia. rewrite Z.add_0_l.
  rewrite E0, E1. cbn [bind]. split; [reflexivity|]. unfold dd_bitwise_eq. cbn [d0 d1]. rewrite Q0, Q1. reflexivity.
Qed.
(** the first double is in the low bits *)
Theorem dd_from_bits_denotes : forall b, 0 <= b < 2 ^ 128 ->
  exists x, dd_from_bits DoubleS b = Ret x /\
    sign (d0 x) = field_sign 64 (b mod 2 ^ 64) /\ denotes DoubleS (d0 x) (decoded IEEE754 64 11 (b mod 2 ^ 64)) /\
    sign (d1 x) = field_sign 64 (b / 2 ^ 64) /\ denotes DoubleS (d1 x) (decoded IEEE754 64 11 (b / 2 ^ 64)).
Proof.
  intros b H. rewrite (dd_from_bits_halves b H).
  destruct (from_bits_denotes_crate 64 11 IEEE754 double_in _ (low_half b)) as [x0 [E0 [S0 D0]]].
  destruct (from_bits_denotes_crate 64 11 IEEE754 double_in _ (high_half b H)) as [x1 [E1 [S1 D1]]].
  change (ieee_semantics 64 11 IEEE754) with DoubleS in *.
  rewrite E0, E1. cbn [bind]. exists (mkDF x0 x1). cbn [d0 d1]. tauto.
Qed.

(** ** Sign *)
Lemma value_neg : forall S x, value S (neg x) = (- value S x)%R.
Proof.
  intros S x. rewrite neg_spec. unfold value. cbn [category sign sig exp signed].
  destruct (category x); try lra. destruct (sign x); cbn [negb signed]; rewrite ?opp_IZR; ring.
Qed.
Lemma category_neg : forall x, category (neg x) = category x. Proof. intro x. rewrite neg_spec. reflexivity. Qed.
Lemma sign_neg : forall x, sign (neg x) = negb (sign x). Proof. intro x. rewrite neg_spec. reflexivity. Qed.
Lemma wf_neg : forall S x, wf S x -> wf S (neg x).
Proof. intros S x H. rewrite neg_spec. exact H. Qed.

Theorem dd_neg_spec : forall F x,
  dd_category (dd_neg x) = dd_category x /\ dd_is_negative (dd_neg x) = negb (dd_is_negative x) /\
  dd_neg (dd_neg x) = x /\ (finite (d1 x) -> pair_value F (dd_neg x) = - pair_value F x)%R /\
  (pair_wf F x -> pair_wf F (dd_neg x)).
Proof.
  intros F [x0 x1]. unfold dd_neg, dd_category, dd_is_negative, is_negative, pair_value, pair_wf. cbn [d0 d1].
  rewrite is_finite_non_zero_spec. destruct (category_eqb (category x1) Normal) eqn:C; cbn [d0 d1].
  - rewrite category_neg, sign_neg, !value_neg, is_finite_non_zero_spec, category_neg, C, !neg_involutive. cbn [d0 d1].
    split; [reflexivity|]. split; [reflexivity|]. split; [reflexivity|]. split; [intros _; ring|].
    intros [A B]. split; apply wf_neg; assumption.
  - rewrite category_neg, sign_neg, !value_neg, is_finite_non_zero_spec, C. cbn [d0 d1]. rewrite !neg_involutive.
    split; [reflexivity|]. split; [reflexivity|]. split; [reflexivity|]. split.
    + intro FN. destruct FN as [N|N]; [rewrite N in C; discriminate|]. rewrite (value_zero F x1 N). ring.
    + intros [A B]. split; [apply wf_neg, A|exact B].
Qed.
Lemma rounded_opp_NE : forall S v, rounded S NearestTiesToEven (- v) = (- rounded S NearestTiesToEven v)%R.
Proof. intros S v. exact (rounded_mirrored S NearestTiesToEven v). Qed.
Theorem dd_neg_canonical : forall F x, canonical_pair F x -> canonical_pair F (dd_neg x).
Proof.
  intros F x [Hw [[F0 F1] V]]. destruct (dd_neg_spec F x) as [A [B [C [D E]]]].
  split; [exact (E Hw)|]. split.
  - unfold dd_neg, finite in *. destruct (is_finite_non_zero (d1 x)); cbn [d0 d1]; rewrite ?category_neg; split; assumption.
  - rewrite (D F1), rounded_opp_NE, <- V. unfold dd_neg. destruct (is_finite_non_zero (d1 x)); cbn [d0]; apply value_neg.
Qed.

(** ** Order *)
Section Order.
Variable F : Semantics.
Hypothesis HF : pair_ok F.
Let FO := F_ok F HF.

Theorem dd_partial_cmp_canonical : forall x y, canonical_pair F x -> canonical_pair F y ->
  dd_partial_cmp x y = Ret (Some (Rcompare (pair_value F x) (pair_value F y))).
Proof.
  intros x y [[X0 X1] [[FX0 FX1] VX]] [[Y0 Y1] [[FY0 FY1] VY]]. unfold dd_partial_cmp.
  rewrite (partial_cmp_finite F _ _ FO X0 Y0 FX0 FY0). cbn [bind].
  destruct (Rcompare_spec (value F (d0 x)) (value F (d0 y))) as [L|E|G].
  - rewrite Rcompare_Lt; [reflexivity|]. destruct (Rlt_or_le (pair_value F x) (pair_value F y)) as [|Q]; [assumption|].
    pose proof (rounded_mono F NearestTiesToEven _ _ FO Q). lra.
  - rewrite (partial_cmp_finite F _ _ FO X1 Y1 FX1 FY1). unfold pair_value. rewrite E, Rcompare_plus_l. reflexivity.
  - rewrite Rcompare_Gt; [reflexivity|]. destruct (Rlt_or_le (pair_value F y) (pair_value F x)) as [|Q]; [assumption|].
    pose proof (rounded_mono F NearestTiesToEven _ _ FO Q). lra.
Qed.

Theorem dd_partial_cmp_spec : forall x y, proper_pair F x -> proper_pair F y ->
  exists r, dd_partial_cmp x y = Ret r /\
    match pair_number F x, pair_number F y, r with
    | Some a, Some b, Some c => ext_compare a b c
    | Some _, Some _, None => False
    | _, _, Some _ => False
    | _, _, None => True
    end.
Proof.
  intros x y [[X0 X1] Hx] [[Y0 Y1] Hy].
  destruct (category (d0 x)) eqn:Cx.
  - (* infinity *) unfold dd_partial_cmp, partial_cmp, pair_number. rewrite Cx.
    unfold is_negative. destruct (category (d0 y)) eqn:Cy; rewrite ?Hx, ?Hy;
      destruct (sign (d0 x)), (sign (d0 y)); cbn; eexists; (split; [reflexivity|]); cbn; tauto.
  - unfold dd_partial_cmp, partial_cmp, pair_number. rewrite Cx. cbn [bind]. eexists; split; [reflexivity|exact I].
  - destruct (category (d0 y)) eqn:Cy.
    + unfold dd_partial_cmp, partial_cmp, pair_number. rewrite Cx, Cy. cbn [bind]. unfold is_negative.
      destruct (sign (d0 y)); cbn; eexists; split; reflexivity || exact I.
    + unfold dd_partial_cmp, partial_cmp, pair_number. rewrite Cx, Cy. cbn [bind]. eexists; split; [reflexivity|exact I].
    + rewrite (dd_partial_cmp_canonical x y Hx Hy). eexists; split; [reflexivity|]. unfold pair_number. rewrite Cx, Cy. apply Rcompare_ext.
    + rewrite (dd_partial_cmp_canonical x y Hx Hy). eexists; split; [reflexivity|]. unfold pair_number. rewrite Cx, Cy. apply Rcompare_ext.
  - destruct (category (d0 y)) eqn:Cy.
    + unfold dd_partial_cmp, partial_cmp, pair_number. rewrite Cx, Cy. cbn [bind]. unfold is_negative.
      destruct (sign (d0 y)); cbn; eexists; split; reflexivity || exact I.
    + unfold dd_partial_cmp, partial_cmp, pair_number. rewrite Cx, Cy. cbn [bind]. eexists; split; [reflexivity|exact I].
    + rewrite (dd_partial_cmp_canonical x y Hx Hy). eexists; split; [reflexivity|]. unfold pair_number. rewrite Cx, Cy. apply Rcompare_ext.
    + rewrite (dd_partial_cmp_canonical x y Hx Hy). eexists; split; [reflexivity|]. unfold pair_number. rewrite Cx, Cy. apply Rcompare_ext.
Qed.
Theorem dd_lt_spec : forall x y, proper_pair F x -> proper_pair F y ->
  exists b, dd_lt x y = Ret b /\
    (b = true <-> exists a c, pair_number F x = Some a /\ pair_number F y = Some c /\ ext_lt a c).
Proof.
  intros x y Hx Hy. unfold dd_lt. destruct (dd_partial_cmp_spec x y Hx Hy) as [r [-> D]]. cbn [bind].
  eexists. split; [reflexivity|].
  destruct (pair_number F x) as [a|], (pair_number F y) as [c|]; destruct r as [k|]; try contradiction;
    try (split; [discriminate|intros [? [? [? [? ?]]]]; discriminate]).
  split.
  - intro E. exists a, c. split; [reflexivity|]. split; [reflexivity|]. destruct k; try discriminate. exact D.
  - intros [a' [c' [E1 [E2 L]]]]. injection E1 as <-. injection E2 as <-.
    rewrite (ext_compare_unique a c k Lt D L). reflexivity.
Qed.
Theorem dd_eq_spec : forall x y, proper_pair F x -> proper_pair F y ->
  exists b, dd_eq x y = Ret b /\
    (b = true <-> exists a, pair_number F x = Some a /\ pair_number F y = Some a).
Proof.
  intros x y Hx Hy. unfold dd_eq, eq_f. destruct (dd_partial_cmp_spec x y Hx Hy) as [r [E D]]. unfold dd_partial_cmp in E.
  destruct Hx as [[X0 X1] _], Hy as [[Y0 Y1] _].
  destruct (partial_cmp_spec F _ _ FO X0 Y0) as [c0 [E0 _]]. destruct (partial_cmp_spec F _ _ FO X1 Y1) as [c1 [E1 _]].
  rewrite E0, E1 in *. cbn [bind] in *.
  assert (exists b, (b = true <-> r = Some Eq) /\
    (let! a := Ret (match c0 with Some Eq => true | _ => false end) in
     if a then Ret (match c1 with Some Eq => true | _ => false end) else Ret false) = Ret b) as [b [B1 B2]].
  { destruct c0 as [[]|]; cbn [bind]; try (injection E as <-);
      try (exists false; split; [split; discriminate|reflexivity]).
    destruct c1 as [[]|]; try (exists false; split; [split; discriminate|reflexivity]).
    exists true. split; [split; reflexivity|reflexivity]. }
  exists b. split.
  - rewrite <- B2. destruct c0 as [[]|]; cbn [bind]; try reflexivity; destruct c1 as [[]|]; reflexivity.
  - rewrite B1. destruct (pair_number F x) as [a|], (pair_number F y) as [c|]; destruct r as [k|]; try contradiction;
      try (split; [discriminate|intros [? [? ?]]; discriminate]).
    split.
    + intro Q. injection Q as ->. cbn in D. subst c. exists a. split; reflexivity.
    + intros [q [Q1 Q2]]. injection Q1 as <-. injection Q2 as <-.
      rewrite (ext_compare_unique c c k Eq D eq_refl). reflexivity.
Qed.
End Order.

Section MinMax.
Variables (F : Semantics) (x y : DFloat).
Hypotheses (HF : pair_ok F) (Hx : proper_pair F x) (Hy : proper_pair F y).

Lemma pair_number_none : forall z, pair_number F z = None <-> category (d0 z) = NaN.
Proof. intros z. unfold pair_number. destruct (category (d0 z)); split; congruence. Qed.
Lemma dd_lt_choice : forall u v a b, proper_pair F u -> proper_pair F v -> pair_number F u = Some a -> pair_number F v = Some b ->
  exists c, dd_lt u v = Ret c /\ (c = true -> ext_lt a b) /\ (c = false -> ext_le b a).
Proof.
  intros u v a b Hu Hv Ea Eb. destruct (dd_lt_spec F HF u v Hu Hv) as [c [E H]]. exists c. split; [assumption|]. split.
  - intro Hc. apply H in Hc. destruct Hc as [a' [b' [X [Y Z]]]]. congruence.
  - intro Hc. apply not_lt_le. intro Hlt. assert (c = true) by (apply H; exists a, b; auto). congruence.
Qed.
Lemma proper_zero : forall z, proper_pair F z -> category (d0 z) = Zero -> pair_number F z = Some (Fin 0).
Proof.
  intros z [_ Hz] C. rewrite C in Hz. unfold pair_number. rewrite C. do 2 f_equal.
  pose proof NE_valid as VN. pose proof (F_valid F HF) as VF. destruct Hz as [[H0 H1] [[F0 F1] V]].
  rewrite (value_zero F _ C) in V. unfold pair_value in *. rewrite (value_zero F _ C), Rplus_0_l in *.
  rewrite (rounded_format F) in V by (apply value_format; [exact (F_ok F HF)|assumption|assumption]). symmetry. exact V.
Qed.

Theorem dd_min_spec : exists r, dd_min x y = Ret r /\ (r = x \/ r = y) /\
  match pair_number F x, pair_number F y with
  | None, _ => r = y
  | _, None => r = x
  | Some a, Some b => exists c, pair_number F r = Some c /\ ext_le c a /\ ext_le c b
  end.
Proof.
  unfold dd_min. unfold dd_is_nan, dd_category. destruct (pair_number F x) as [a|] eqn:Ea.
  2:{ apply pair_number_none in Ea. rewrite Ea. cbn. exists y. auto. }
  assert (category_eqb (category (d0 x)) NaN = false) as ->.
  { destruct (category (d0 x)) eqn:E; try reflexivity. apply pair_number_none in E. congruence. }
  destruct (pair_number F y) as [b|] eqn:Eb.
  2:{ apply pair_number_none in Eb. rewrite Eb. cbn. exists x. auto. }
  assert (category_eqb (category (d0 y)) NaN = false) as ->.
  { destruct (category (d0 y)) eqn:E; try reflexivity. apply pair_number_none in E. congruence. }
  destruct (dd_lt_choice y x b a Hy Hx Eb Ea) as [c [-> [H1 H2]]]. cbn [bind]. destruct c.
  - exists y. split; [reflexivity|]. split; [auto|]. exists b. split; [assumption|]. unfold ext_le. split; auto.
  - exists x. split; [reflexivity|]. split; [auto|]. exists a. split; [assumption|]. split; [unfold ext_le; auto|auto].
Qed.

Theorem dd_max_spec : exists r, dd_max x y = Ret r /\ (r = x \/ r = y) /\
  match pair_number F x, pair_number F y with
  | None, _ => r = y
  | _, None => r = x
  | Some a, Some b => exists c, pair_number F r = Some c /\ ext_le a c /\ ext_le b c
  end.
Proof.
  unfold dd_max. unfold dd_is_nan, dd_category. destruct (pair_number F x) as [a|] eqn:Ea.
  2:{ apply pair_number_none in Ea. rewrite Ea. cbn. exists y. auto. }
  assert (category_eqb (category (d0 x)) NaN = false) as ->.
  { destruct (category (d0 x)) eqn:E; try reflexivity. apply pair_number_none in E. congruence. }
  destruct (pair_number F y) as [b|] eqn:Eb.
  2:{ apply pair_number_none in Eb. rewrite Eb. cbn. exists x. auto. }
  assert (category_eqb (category (d0 y)) NaN = false) as ->.
  { destruct (category (d0 y)) eqn:E; try reflexivity. apply pair_number_none in E. congruence. }
  destruct (dd_lt_choice x y a b Hx Hy Ea Eb) as [c [-> [H1 H2]]]. cbn [bind]. destruct c.
  - exists y. split; [reflexivity|]. split; [auto|]. exists b. split; [assumption|]. unfold ext_le. split; auto.
  - exists x. split; [reflexivity|]. split; [auto|]. exists a. split; [assumption|]. split; [unfold ext_le; auto|auto].
Qed.

Theorem dd_minimum_spec : exists r, dd_minimum x y = Ret r /\ (r = x \/ r = y) /\
  match pair_number F x, pair_number F y with
  | None, _ => r = x
  | _, None => r = y
  | Some a, Some b =>
    (exists c, pair_number F r = Some c /\ ext_le c a /\ ext_le c b) /\
    (category (d0 x) = Zero -> category (d0 y) = Zero -> sign (d0 r) = sign (d0 x) || sign (d0 y))
  end.
Proof.
  unfold dd_minimum. unfold dd_is_nan, dd_is_zero, dd_is_negative, dd_category, is_negative. destruct (pair_number F x) as [a|] eqn:Ea.
  2:{ apply pair_number_none in Ea. rewrite Ea. cbn. exists x. auto. }
  assert (category_eqb (category (d0 x)) NaN = false) as ->.
  { destruct (category (d0 x)) eqn:E; try reflexivity. apply pair_number_none in E. congruence. }
  destruct (pair_number F y) as [b|] eqn:Eb.
  2:{ apply pair_number_none in Eb. rewrite Eb. cbn. exists y. auto. }
  assert (category_eqb (category (d0 y)) NaN = false) as ->.
  { destruct (category (d0 y)) eqn:E; try reflexivity. apply pair_number_none in E. congruence. }
    destruct (category_eqb (category (d0 x)) Zero && category_eqb (category (d0 y)) Zero && xorb (sign (d0 x)) (sign (d0 y))) eqn:Ez.
  - assert (category (d0 x) = Zero /\ category (d0 y) = Zero) as [Cx Cy] by (destruct (category (d0 x)), (category (d0 y)); cbn in Ez; try discriminate; auto).
    rewrite (proper_zero x Hx Cx) in Ea. rewrite (proper_zero y Hy Cy) in Eb. inversion Ea; inversion Eb; subst.
    rewrite Cx, Cy in Ez. cbn [category_eqb andb] in Ez.
    exists (if sign (d0 x) then x else y). split; [reflexivity|]. split; [destruct (sign (d0 x)); auto|]. split.
    + exists (Fin 0). split; [destruct (sign (d0 x)); apply proper_zero; assumption|]. unfold ext_le. auto.
    + intros _ _. destruct (sign (d0 x)) eqn:Gx, (sign (d0 y)) eqn:Gy; cbn in *; try discriminate; assumption.
  - destruct (dd_lt_choice y x b a Hy Hx Eb Ea) as [c [-> [H1 H2]]]. cbn [bind].
    assert (category (d0 x) = Zero -> category (d0 y) = Zero -> sign (d0 x) = sign (d0 y)) as Hs.
    { intros Cx Cy. rewrite Cx, Cy in Ez. cbn in Ez. destruct (sign (d0 x)), (sign (d0 y)); cbn in *; congruence. }
    destruct c.
    + exists y. split; [reflexivity|]. split; [auto|]. split; [exists b; split; [assumption|]; unfold ext_le; split; auto|].
      intros Cx Cy. rewrite (Hs Cx Cy). destruct (sign (d0 y)); reflexivity.
    + exists x. split; [reflexivity|]. split; [auto|]. split; [exists a; split; [assumption|]; split; [unfold ext_le; auto|auto]|].
      intros Cx Cy. rewrite (Hs Cx Cy). destruct (sign (d0 y)); reflexivity.
Qed.

Theorem dd_maximum_spec : exists r, dd_maximum x y = Ret r /\ (r = x \/ r = y) /\
  match pair_number F x, pair_number F y with
  | None, _ => r = x
  | _, None => r = y
  | Some a, Some b =>
    (exists c, pair_number F r = Some c /\ ext_le a c /\ ext_le b c) /\
    (category (d0 x) = Zero -> category (d0 y) = Zero -> sign (d0 r) = sign (d0 x) && sign (d0 y))
  end.
Proof.
  unfold dd_maximum. unfold dd_is_nan, dd_is_zero, dd_is_negative, dd_category, is_negative. destruct (pair_number F x) as [a|] eqn:Ea.
  2:{ apply pair_number_none in Ea. rewrite Ea. cbn. exists x. auto. }
  assert (category_eqb (category (d0 x)) NaN = false) as ->.
  { destruct (category (d0 x)) eqn:E; try reflexivity. apply pair_number_none in E. congruence. }
  destruct (pair_number F y) as [b|] eqn:Eb.
  2:{ apply pair_number_none in Eb. rewrite Eb. cbn. exists y. auto. }
  assert (category_eqb (category (d0 y)) NaN = false) as ->.
  { destruct (category (d0 y)) eqn:E; try reflexivity. apply pair_number_none in E. congruence. }
    destruct (category_eqb (category (d0 x)) Zero && category_eqb (category (d0 y)) Zero && xorb (sign (d0 x)) (sign (d0 y))) eqn:Ez.
  - assert (category (d0 x) = Zero /\ category (d0 y) = Zero) as [Cx Cy] by (destruct (category (d0 x)), (category (d0 y)); cbn in Ez; try discriminate; auto).
    rewrite (proper_zero x Hx Cx) in Ea. rewrite (proper_zero y Hy Cy) in Eb. inversion Ea; inversion Eb; subst.
    rewrite Cx, Cy in Ez. cbn [category_eqb andb] in Ez.
    exists (if sign (d0 x) then y else x). split; [reflexivity|]. split; [destruct (sign (d0 x)); auto|]. split.
    + exists (Fin 0). split; [destruct (sign (d0 x)); apply proper_zero; assumption|]. unfold ext_le. auto.
    + intros _ _. destruct (sign (d0 x)) eqn:Gx, (sign (d0 y)) eqn:Gy; cbn in *; try discriminate; try assumption; reflexivity.
  - destruct (dd_lt_choice x y a b Hx Hy Ea Eb) as [c [-> [H1 H2]]]. cbn [bind].
    assert (category (d0 x) = Zero -> category (d0 y) = Zero -> sign (d0 x) = sign (d0 y)) as Hs.
    { intros Cx Cy. rewrite Cx, Cy in Ez. cbn in Ez. destruct (sign (d0 x)), (sign (d0 y)); cbn in *; congruence. }
    destruct c.
    + exists y. split; [reflexivity|]. split; [auto|]. split; [exists b; split; [assumption|]; unfold ext_le; split; auto|].
      intros Cx Cy. rewrite (Hs Cx Cy). destruct (sign (d0 y)); reflexivity.
    + exists x. split; [reflexivity|]. split; [auto|]. split; [exists a; split; [assumption|]; split; [unfold ext_le; auto|auto]|].
      intros Cx Cy. rewrite (Hs Cx Cy). destruct (sign (d0 y)); reflexivity.
Qed.
End MinMax.

(** ** Classification *)
Section Class.
Variable F : Semantics.
Hypothesis HF : pair_ok F.
Let FO := F_ok F HF.

Lemma round_integer : forall n, exists k, rounded F NearestTiesToEven (IZR n) = IZR k.
Proof.
  intro n. pose proof (F_valid F HF). pose proof NE_valid. pose proof FO as [Hp Hmin _ _].
  destruct (Z_le_gt_dec (cexp r2 (fexp F) (IZR n)) 0) as [L|G].
  - exists n. apply rounded_format. replace (IZR n) with (F2R (Defs.Float r2 n 0)).
    + apply generic_format_F2R. intros _. unfold F2R. cbn [Fnum Fexp]. replace (IZR n * bpow r2 0)%R with (IZR n) by (cbn; ring). exact L.
    + unfold F2R. cbn. ring.
  - unfold rounded, round, F2R. cbn [Fnum Fexp]. eexists. rewrite <- IZR_Zpower by lia. rewrite <- mult_IZR. reflexivity.
Qed.
Theorem dd_is_integer_spec : forall x, canonical_pair F x ->
  exists b, dd_is_integer F x = Ret b /\ (b = true <-> exists n, pair_value F x = IZR n).
Proof.
  intros x [[H0 H1] [[F0 F1] V]]. unfold dd_is_integer.
  destruct (is_integer_spec F (d0 x) FO H0) as [a [-> A]]. destruct (is_integer_spec F (d1 x) FO H1) as [b [-> B]]. cbn [bind].
  exists (if a then b else false). split; [destruct a; reflexivity|]. unfold pair_value in *. split.
  - intro E. destruct a; [|discriminate]. apply proj1 in A. apply proj1 in B. destruct (A eq_refl) as [_ [n N]]. destruct (B E) as [_ [k K]].
    exists (n + k). rewrite N, K, plus_IZR. reflexivity.
  - intros [n N]. rewrite N in V. destruct (round_integer n) as [k K]. rewrite K in V.
    assert (a = true) as -> by (apply A; split; [exact F0|exists k; exact V]).
    apply B. split; [exact F1|]. exists (n - k). rewrite minus_IZR, <- N, <- V. ring.
Qed.
Theorem dd_is_integer_special : forall x, pair_wf F x -> ~ finite (d0 x) -> dd_is_integer F x = Ret false.
Proof.
  intros x [H0 H1] N. unfold dd_is_integer. destruct (is_integer_spec F (d0 x) FO H0) as [a [-> A]]. cbn [bind].
  destruct a; [|reflexivity]. destruct N. apply A. reflexivity.
Qed.

(** a pair counts as denormal if it is too small or not canonical *)
Theorem dd_is_denormal_spec : forall x, pair_wf F x -> pair_finite x ->
  exists b, dd_is_denormal F x = Ret b /\
    (b = true <-> category (d0 x) = Normal /\ ((Rabs (value F (d0 x)) < min_normal F)%R \/ ~ canonical_pair F x)).
Proof.
  intros x [H0 H1] [F0 F1]. unfold dd_is_denormal, dd_category. destruct F0 as [C|C]; rewrite C; cbn [category_eqb].
  - destruct (is_denormal_spec F (d0 x) FO H0) as [a [-> A]]. cbn [bind]. destruct a.
    + exists true. split; [reflexivity|]. split; [|reflexivity]. intros _. split; [reflexivity|]. left. apply A. reflexivity.
    + destruct (add_r_finite F (d0 x) (d1 x) NearestTiesToEven FO H0 H1 (or_introl C) F1 (sides F _ _ (pok_ieee F HF))) as [[st s] [-> D]].
      cbn [bind]. destruct D as [Hs [_ [D1 D2]]].
      destruct (Rle_or_lt (Rabs (rounded F NearestTiesToEven (value F (d0 x) + value F (d1 x)))) (max_finite F)) as [B|B].
      * destruct (D1 B) as [Fs [Vs _]]. unfold eq_f. rewrite (partial_cmp_finite F _ _ FO H0 Hs (or_introl C) Fs). cbn [bind].
        eexists. split; [reflexivity|]. rewrite Vs. destruct (Rcompare_spec (value F (d0 x)) (rounded F NearestTiesToEven (value F (d0 x) + value F (d1 x)))) as [L|E|G]; cbn [negb].
        -- split; [|reflexivity]. intros _. split; [reflexivity|]. right. intros [_ [_ Q]]. unfold pair_value in Q. lra.
        -- split; [discriminate|]. intros [_ [Q|Q]].
           ++ apply A. split; assumption.
           ++ destruct Q. split; [split; assumption|]. split; [split; [left; exact C|exact F1]|]. exact E.
        -- split; [|reflexivity]. intros _. split; [reflexivity|]. right. intros [_ [_ Q]]. unfold pair_value in Q. lra.
      * specialize (D2 B). cbn [to_infinity] in D2. destruct D2 as [_ Cs]. rewrite (pok_ieee F HF) in Cs.
        assert (exists c, partial_cmp (d0 x) s = Ret (Some c) /\ c <> Eq) as [c [E N]].
        { unfold partial_cmp. rewrite C, Cs. destruct (is_negative s); eexists; (split; [reflexivity|discriminate]). }
        unfold eq_f. rewrite E. cbn [bind]. exists true. split; [destruct c; [destruct (N eq_refl)|reflexivity|reflexivity]|]. split; [|reflexivity].
        intros _. split; [reflexivity|]. right. intros [_ [_ Q]]. unfold pair_value in Q.
        pose proof (proj2 (finite_representable F _ FO H0 (or_introl C))) as R. rewrite Q in R. lra.
  - exists false. split; [reflexivity|]. split; [discriminate|]. intros [Q _]. discriminate.
Qed.

(** ** Scaling *)
Lemma scalbn_half : forall x n m, wf F x -> finite x ->
  exists st f, scalbn_r F x n m = Ret f /\ correctly_rounded F m (value F x * bpow r2 n) (sign x) (st, f).
Proof.
  intros x n m H [C|C].
  - apply scalbn_r_normal; [exact FO|exact H|exact C|]. apply sides, (pok_ieee F HF).
  - assert (N : category x <> Normal) by congruence.
    destruct (scalbn_r_special F x n m FO H N) as [f [E [W [Cf [Sf _]]]]].
    exists OK, f. split; [exact E|]. rewrite (value_zero F x C), Rmult_0_l. rewrite C in Cf.
    pose proof NE_valid. assert (rounded F m 0 = 0%R) as R0 by (apply rounded_format, generic_format_0).
    split; [exact W|]. split; [split; [lra|split; [lra|intros _; exact Sf]]|]. rewrite R0. split.
    + intros _. split; [right; exact Cf|]. split; [apply value_zero, Cf|]. split; [reflexivity|]. split; intro Q; lra.
    + intro Q. exfalso. rewrite Rabs_R0 in Q. pose proof (min_normal_le_max F FO). pose proof (bpow_gt_0 r2 (MIN_EXP F)). unfold min_normal in *. lra.
Qed.
Theorem dd_scalbn_r_spec : forall x n m, pair_wf F x -> pair_finite x ->
  exists r st0 st1, dd_scalbn_r F x n m = Ret r /\
    correctly_rounded F m (value F (d0 x) * bpow r2 n) (sign (d0 x)) (st0, d0 r) /\
    correctly_rounded F m (value F (d1 x) * bpow r2 n) (sign (d1 x)) (st1, d1 r).
Proof.
  intros x n m [H0 H1] [F0 F1]. unfold dd_scalbn_r.
  destruct (scalbn_half (d0 x) n m H0 F0) as [st0 [f0 [-> D0]]]. destruct (scalbn_half (d1 x) n m H1 F1) as [st1 [f1 [-> D1]]].
  cbn [bind]. exists (mkDF f0 f1), st0, st1. tauto.
Qed.
Theorem dd_scalbn_r_exact : forall x n m, pair_wf F x -> pair_finite x ->
  representable F (value F (d0 x) * bpow r2 n) -> representable F (value F (d1 x) * bpow r2 n) ->
  exists r, dd_scalbn_r F x n m = Ret r /\ pair_wf F r /\ pair_finite r /\
    value F (d0 r) = (value F (d0 x) * bpow r2 n)%R /\ pair_value F r = (pair_value F x * bpow r2 n)%R.
Proof.
  intros x n m H Fx R0 R1. destruct (dd_scalbn_r_spec x n m H Fx) as [r [st0 [st1 [E [D0 D1]]]]]. exists r. split; [exact E|].
  destruct (delivers_representable _ F m _ _ _ _ FO D0 R0) as [_ [A0 B0]]. destruct (delivers_representable _ F m _ _ _ _ FO D1 R1) as [_ [A1 B1]].
  split; [split; [exact (proj1 D0)|exact (proj1 D1)]|]. split; [split; assumption|]. split; [exact B0|].
  unfold pair_value. rewrite B0, B1. ring.
Qed.
Theorem dd_ilogb_normal : forall x, pair_wf F x -> category (d0 x) = Normal ->
  exists e, dd_ilogb F x = Ret e /\ (bpow r2 e <= Rabs (value F (d0 x)) < bpow r2 (e + 1))%R.
Proof.
  intros x [H0 _] C. destruct (ilogb_normal F (d0 x) FO H0 C) as [e [E [B _]]]. exists e. split; [exact E|exact B].
Qed.
Theorem dd_ilogb_special : forall x,
  (category (d0 x) = NaN -> dd_ilogb F x = Ret (- 2 ^ 31)) /\
  (category (d0 x) = Zero -> dd_ilogb F x = Ret (- 2 ^ 31 + 1)) /\
  (category (d0 x) = Infinity -> dd_ilogb F x = Ret (2 ^ 31 - 1)).
Proof. intro x. exact (ilogb_special F (d0 x)). Qed.
Theorem dd_frexp_r_normal : forall x m, pair_wf F x -> category (d0 x) = Normal -> finite (d1 x) ->
  exists r e st, dd_frexp_r F x m = Ret (r, e) /\ wf F (d0 r) /\ finite (d0 r) /\
    value F (d0 x) = (value F (d0 r) * bpow r2 e)%R /\ (/ 2 <= Rabs (value F (d0 r)) < 1)%R /\
    correctly_rounded F m (value F (d1 x) * bpow r2 (- e)) (sign (d1 x)) (st, d1 r).
Proof.
  intros x m [H0 H1] C F1. unfold dd_frexp_r. destruct (frexp_r_normal F (d0 x) m FO H0 C) as [f [e [-> [A [B [D E]]]]]]. cbn [bind].
  unfold dd_category. rewrite C. cbn [category_eqb].
  assert (- 2 ^ 31 <= - e <= 2 ^ 31 - 1) as Be.
  { pose proof (finite_magnitudes F (d0 x) FO H0 C) as [M1 M2]. rewrite D, Rabs_mult, (Rabs_pos_eq (bpow r2 e)) in M1, M2 by apply bpow_ge_0.
    pose proof FO as [Hp Hmin Hmax _].
    assert (bpow r2 (MIN_EXP F - (PRECISION F - 1)) < bpow r2 e)%R as L1.
    { apply Rle_lt_trans with (1 := M1). rewrite <- (Rmult_1_l (bpow r2 e)) at 2. apply Rmult_lt_compat_r; [apply bpow_gt_0|apply E]. }
    apply lt_bpow in L1.
    assert (bpow r2 (e - 1) < bpow r2 (MAX_EXP F + 1))%R as L2.
    { apply Rle_lt_trans with (max_finite F); [apply Rle_trans with (2 := M2)|].
      - unfold Zminus. rewrite bpow_plus, Rmult_comm. apply Rmult_le_compat_r; [apply bpow_ge_0|]. apply E.
      - rewrite (max_finite_ieee F FO (pok_ieee F HF)). pose proof (bpow_gt_0 r2 (MAX_EXP F + 1 - PRECISION F)). lra. }
    apply lt_bpow in L2. lia. }
  unfold chk32. change I32_MIN with (- 2 ^ 31). change I32_MAX with (2 ^ 31 - 1).
  destruct ((- 2 ^ 31 <=? - e) && (- e <=? 2 ^ 31 - 1)) eqn:Q; [|apply andb_false_iff in Q; rewrite !Z.leb_gt in Q; lia].
  cbn [bind]. destruct (scalbn_half (d1 x) (- e) m H1 F1) as [st [g [-> G]]]. cbn [bind].
  exists (mkDF f g), e, st. cbn [d0 d1]. tauto.
Qed.
End Class.

(** ** Special operands of addition and multiplication (src/ppc.rs:188-340) *)
Theorem dd_add_special : forall F x y m, category (d0 x) <> Normal \/ category (d0 y) <> Normal ->
  exists st r, dd_add_r F x y m = Ret (st, r) /\
    match category (d0 x), category (d0 y) with
    | NaN, _ => st = OK /\ r = x
    | _, NaN => st = OK /\ r = y
    | Infinity, Infinity =>
      if Bool.eqb (sign (d0 x)) (sign (d0 y)) then st = OK /\ r = x
      else st = INVALID_OP /\ category (d0 r) = NaN /\ sign (d0 r) = sign (d0 x) /\ category (d1 r) = Zero
    | Infinity, _ => st = OK /\ r = x
    | _, Infinity => st = OK /\ r = y
    | _, Zero => st = OK /\ r = x
    | _, _ => st = OK /\ r = y
    end.
Proof.
  intros F x y m N. unfold dd_add_r, dd_category, dd_is_negative, is_negative.
  destruct (category (d0 x)), (category (d0 y)); try (eexists; eexists; split; [reflexivity|split; reflexivity]).
  - destruct (sign (d0 x)) eqn:A, (sign (d0 y)) eqn:B; cbn [xorb Bool.eqb]; try (eexists; eexists; split; [reflexivity|split; reflexivity]);
      (eexists; eexists; split; [reflexivity|]; unfold dd_copy_sign, dd_is_negative, is_negative; rewrite A; cbn; repeat split).
  - exfalso. tauto.
Qed.
Theorem dd_mul_special : forall F x y m, category (d0 x) <> Normal \/ category (d0 y) <> Normal ->
  exists r, dd_mul_r F x y m = Ret (OK, r) /\
    category (d0 r) = product_category (category (d0 x)) (category (d0 y)) /\
    match category (d0 x), category (d0 y) with
    | NaN, _ => r = x
    | _, NaN => r = y
    | Zero, Infinity | Infinity, Zero => r = dd_NAN F
    | Normal, _ => r = y
    | _, _ => r = x
    end.
Proof.
  intros F x y m N. unfold dd_mul_r, dd_category, product_category.
  destruct (category (d0 x)) eqn:A, (category (d0 y)) eqn:B; try (eexists; split; [reflexivity|split; [assumption || reflexivity|reflexivity]]).
  exfalso. tauto.
Qed.
