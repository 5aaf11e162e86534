(** * More.v -- complements: x87 encodings, NaNs, comparison operators, widths, negated infinities *)
From Coq Require Import ZArith Reals List Bool Lia Lra.
From Flocq Require Import Core.
From Verif Require Import Machine Sig Ieee Spec Special Order Orderx Bits Formats Classes Convert Int Arith Laws Symmetry Samples.
Import ListNotations.
Local Open Scope Z_scope.
Ltac Zify.zify_post_hook ::= idtac.

(** ** Encodings of the x87 format *)
Lemma mod_div_pow : forall b i j, 0 <= i <= j -> (b mod 2 ^ j) / 2 ^ i = (b / 2 ^ i) mod 2 ^ (j - i).
Proof.
  intros b i j H. apply Z.bits_inj'. intros n Hn.
  rewrite Z.div_pow2_bits by lia. destruct (Z_lt_le_dec (n + i) j) as [L|L].
  - rewrite !Z.mod_pow2_bits_low by lia. rewrite Z.div_pow2_bits by lia. reflexivity.
  - rewrite !Z.mod_pow2_bits_high by lia. reflexivity.
Qed.
Theorem high_bits_x87 : forall b, 0 <= b < 2 ^ 128 ->
  from_bits X87DoubleExtendedS b = from_bits X87DoubleExtendedS (b mod 2 ^ 80).
Proof.
  intros b Hb. assert (M : 0 <= b mod 2 ^ 80 < 2 ^ 80) by (apply Z.mod_pos_bound; reflexivity).
  assert (B : 2 ^ 80 < 2 ^ 128) by reflexivity.
  rewrite !from_bits_x87_fields by lia. f_equal. unfold field_sign, field_exp, field_frac. f_equal.
  - change (80 - 1) with 79. rewrite (mod_div_pow b 79 80) by lia. change (80 - 79) with 1. change (2 ^ 1) with 2.
    rewrite (Zmod_odd (b / 2 ^ 79)). destruct (Z.odd (b / 2 ^ 79)); reflexivity.
  - change (80 - 1 - 15) with 64. rewrite (mod_div_pow b 64 80) by lia. change (80 - 64) with 16.
    apply Z.bits_inj'. intros n Hn. destruct (Z_lt_le_dec n 15) as [L|L].
    + rewrite !Z.mod_pow2_bits_low by lia. reflexivity.
    + rewrite !Z.mod_pow2_bits_high by lia. reflexivity.
  - change (80 - 1 - 15) with 64. apply Z.bits_inj'. intros n Hn. destruct (Z_lt_le_dec n 64) as [L|L].
    + rewrite !Z.mod_pow2_bits_low by lia. reflexivity.
    + rewrite !Z.mod_pow2_bits_high by lia. reflexivity.
Qed.

(** sign operations change the sign bit only *)
Lemma sign_bits_join : forall bits (s : bool) r, 1 <= bits -> 0 <= r < 2 ^ (bits - 1) ->
  (b2z s * 2 ^ (bits - 1) + r) mod 2 ^ (bits - 1) = r.
Proof. intros bits s r H1 H2. rewrite Z.add_comm, Z.mod_add by (apply Z.pow_nonzero; lia). apply Z.mod_small. exact H2. Qed.
Theorem sign_bits_crate : forall bits eb nf, In (bits, eb, nf) interchange_formats ->
  forall x y, wf (ieee_semantics bits eb nf) x ->
  exists b, to_bits (ieee_semantics bits eb nf) x = Ret b /\ 0 <= b < 2 ^ bits /\ field_sign bits b = sign x /\
    let rest := b mod 2 ^ (bits - 1) in
    to_bits (ieee_semantics bits eb nf) (neg x) = Ret ((if sign x then 0 else 2 ^ (bits - 1)) + rest) /\
    to_bits (ieee_semantics bits eb nf) (abs x) = Ret rest /\
    to_bits (ieee_semantics bits eb nf) (copy_sign x y) = Ret ((if sign y then 2 ^ (bits - 1) else 0) + rest).
Proof.
  intros bits eb nf H x y W. destruct (interchange_ok bits eb nf H) as [HS HB].
  pose proof (geometry bits eb nf HS) as [Ge [Gt _]].
  pose proof (encode_ranges bits eb nf HS x W) as [R1 R2].
  assert (E : forall g, to_bits (ieee_semantics bits eb nf) (mkFloat (sig x) (exp x) (category x) g) =
    Ret (b2z g * 2 ^ (bits - 1) + (encode_exp bits eb nf x * 2 ^ (bits - 1 - eb) + encode_frac bits eb x))).
  { intro g. rewrite (to_bits_fields bits eb nf HS HB _ (wf_any_sign _ (sig x) (exp x) (category x) (sign x) g ltac:(destruct x; exact W))).
    f_equal. rewrite Z.add_assoc. reflexivity. }
  destruct (fields_join bits eb (sign x) (encode_exp bits eb nf x) (encode_frac bits eb x)) as [B1 [B2 _]]; try lia.
  rewrite <- Z.add_assoc in B1, B2.
  set (r := encode_exp bits eb nf x * 2 ^ (bits - 1 - eb) + encode_frac bits eb x) in *.
  assert (R : 0 <= r < 2 ^ (bits - 1)).
  { assert (Q : 2 ^ (bits - 1) = 2 ^ eb * 2 ^ (bits - 1 - eb)) by (rewrite <- Z.pow_add_r by lia; f_equal; lia).
    unfold r. split; [apply Z.add_nonneg_nonneg; [apply Z.mul_nonneg_nonneg; lia|lia]|]. rewrite Q.
    assert (encode_exp bits eb nf x * 2 ^ (bits - 1 - eb) <= (2 ^ eb - 1) * 2 ^ (bits - 1 - eb)) by (apply Z.mul_le_mono_nonneg_r; lia). lia. }
  exists (b2z (sign x) * 2 ^ (bits - 1) + r). split; [rewrite <- E; destruct x; reflexivity|]. split; [exact B1|]. split; [exact B2|].
  cbv zeta. rewrite sign_bits_join by (exact R || lia). rewrite neg_spec, abs_spec, copy_sign_spec, !E.
  split; [|split]; f_equal; [destruct (sign x)|..|destruct (sign y)]; cbn [negb b2z]; lia.
Qed.
Theorem sign_bits_x87 : forall x y, wf X87DoubleExtendedS x ->
  exists b, to_bits X87DoubleExtendedS x = Ret b /\ 0 <= b < 2 ^ 80 /\ field_sign 80 b = sign x /\
    let rest := b mod 2 ^ 79 in
    to_bits X87DoubleExtendedS (neg x) = Ret ((if sign x then 0 else 2 ^ 79) + rest) /\
    to_bits X87DoubleExtendedS (abs x) = Ret rest /\
    to_bits X87DoubleExtendedS (copy_sign x y) = Ret ((if sign y then 2 ^ 79 else 0) + rest).
Proof.
  intros x y W. pose proof (encode_ranges_x87 x W) as [R1 R2].
  assert (E : forall g, to_bits X87DoubleExtendedS (mkFloat (sig x) (exp x) (category x) g) =
    Ret (b2z g * 2 ^ 79 + (encode_exp_x87 x * 2 ^ 64 + encode_frac_x87 x))).
  { intro g. rewrite (to_bits_x87_fields _ (wf_any_sign _ (sig x) (exp x) (category x) (sign x) g ltac:(destruct x; exact W))).
    f_equal. rewrite Z.add_assoc. reflexivity. }
  destruct (fields_join 80 15 (sign x) (encode_exp_x87 x) (encode_frac_x87 x)) as [B1 [B2 _]]; try lia.
  change (80 - 1 - 15) with 64 in *. change (80 - 1) with 79 in *.
  rewrite <- Z.add_assoc in B1, B2.
  set (r := encode_exp_x87 x * 2 ^ 64 + encode_frac_x87 x) in *.
  assert (R : 0 <= r < 2 ^ (80 - 1)).
  { assert (Q : 2 ^ (80 - 1) = 2 ^ 15 * 2 ^ 64) by reflexivity.
    unfold r. split; [apply Z.add_nonneg_nonneg; [apply Z.mul_nonneg_nonneg; lia|lia]|]. rewrite Q.
    assert (encode_exp_x87 x * 2 ^ 64 <= (2 ^ 15 - 1) * 2 ^ 64) by (apply Z.mul_le_mono_nonneg_r; lia). lia. }
  pose proof (sign_bits_join 80 (sign x) r ltac:(lia) R) as J. change (80 - 1) with 79 in J.
  exists (b2z (sign x) * 2 ^ 79 + r). split; [rewrite <- E; destruct x; reflexivity|]. split; [exact B1|]. split; [exact B2|].
  cbv zeta. rewrite J. rewrite neg_spec, abs_spec, copy_sign_spec, !E.
  split; [|split]; f_equal; [destruct (sign x)|..|destruct (sign y)]; cbn [negb b2z]; lia.
Qed.

(** the predicates on the x87 encoding *)
Theorem predicates_bits_x87 : forall x, wf X87DoubleExtendedS x ->
  exists b, to_bits X87DoubleExtendedS x = Ret b /\ 0 <= b < 2 ^ 80 /\
    is_negative x = field_sign 80 b /\
    (is_pos_zero x = true <-> b = 0) /\
    (is_neg_zero x = true <-> b = 2 ^ 79) /\
    (is_infinite x = true <-> field_exp 80 15 b = 32767 /\ field_frac 80 15 b = 2 ^ 63) /\
    (is_nan x = true <-> field_exp 80 15 b = 32767 /\ field_frac 80 15 b <> 2 ^ 63) /\
    (is_signaling X87DoubleExtendedS x = true <->
       field_exp 80 15 b = 32767 /\ field_frac 80 15 b <> 2 ^ 63 /\ field_frac 80 15 b < 2 ^ 63 + 2 ^ 62).
Proof.
  intros x W. pose proof (encode_ranges_x87 x W) as [R1 R2].
  destruct (fields_join 80 15 (sign x) (encode_exp_x87 x) (encode_frac_x87 x)) as [B1 [B2 [B3 B4]]]; try lia.
  change (80 - 1 - 15) with 64 in *. change (80 - 1) with 79 in *.
  exists (b2z (sign x) * 2 ^ 79 + encode_exp_x87 x * 2 ^ 64 + encode_frac_x87 x).
  split; [apply to_bits_x87_fields; exact W|]. split; [exact B1|]. rewrite B2, B3, B4. split; [reflexivity|].
  rewrite (is_signaling_spec _ x x87_ok). unfold is_pos_zero, is_neg_zero, is_zero, is_infinite, is_nan, is_negative, signaling.
  pose proof (x87_normal x W) as HN. pose proof (x87_nan x W) as HQ.
  assert (P79 : 2 ^ 79 = 32768 * 2 ^ 64) by reflexivity. assert (P64 : 2 ^ 64 = 2 * 2 ^ 63) by reflexivity.
  assert (P63 : 2 ^ 63 = 2 * 2 ^ 62) by reflexivity. assert (P62 : 0 < 2 ^ 62) by reflexivity.
  assert (Sg : category x = NaN -> negb (Z.testbit (sig x) 62 && (negb (X87 X87DoubleExtendedS) || Z.testbit (sig x) 63)) = true <-> sig x < 2 ^ 63 + 2 ^ 62).
  { intro C. destruct (HQ C) as [Q1 Q2]. change (negb (X87 X87DoubleExtendedS)) with false. cbn [orb].
    pose proof (Z.div_mod (sig x) (2 ^ 62) ltac:(discriminate)) as D. pose proof (Z.mod_pos_bound (sig x) (2 ^ 62) ltac:(reflexivity)) as Mb.
    assert (E1 : Z.testbit (sig x) 62 = Z.odd (sig x / 2 ^ 62)) by (apply testbit_odd; lia).
    assert (E2 : Z.testbit (sig x) 63 = Z.odd (sig x / 2 ^ 62 / 2)) by (rewrite Z.div_div by lia; apply (testbit_odd (sig x) 63); lia).
    rewrite E1, E2. set (q := sig x / 2 ^ 62) in *.
    assert (0 <= q < 4) by (split; [apply Z.div_pos; [lia|reflexivity]|apply Z.div_lt_upper_bound; lia]).
    clear E1 E2. clearbody q. set (u := 2 ^ 62) in *. set (v := 2 ^ 63) in *. set (w := 2 ^ 64) in *. clearbody u v w.
    assert (q = 0 \/ q = 1 \/ q = 2 \/ q = 3) as [K|[K|[K|K]]] by lia; rewrite K in *; cbn; split; intro; try reflexivity; try discriminate; lia. }
  change (PRECISION X87DoubleExtendedS - 2) with 62. change (PRECISION X87DoubleExtendedS - 1) with 63.
  change (NONFINITE_BEHAVIOR X87DoubleExtendedS) with IEEE754. cbv iota. clear B1 B2 B3 B4.
  unfold encode_exp_x87, encode_frac_x87 in *. change (2 ^ 15) with 32768 in *. set (u := 2 ^ 62) in *. set (v := 2 ^ 63) in *. set (w := 2 ^ 64) in *. set (t := 2 ^ 79) in *. clearbody u v w t.
  destruct (category x); cbn [category_eqb andb negb].
  - destruct (sign x); cbn [b2z negb]; repeat split; try discriminate; try (intros [? ?]; exfalso; lia); try (intros ?; exfalso; lia); try tauto; try lia.
  - destruct (HQ eq_refl) as [Q1 Q2].
    rewrite (Sg eq_refl).
    destruct (sign x); cbn [b2z negb]; repeat split; try discriminate; try (intros [? ?]; exfalso; lia); try (intros ?; exfalso; lia); try tauto; try lia.
  - destruct (HN eq_refl) as [Q1 [Q2 Q3]].
    assert (Z1 : (if sig x <? v then 0 else exp x + 16383) <> 32767) by (destruct (sig x <? v); lia).
    assert (0 <= (if sig x <? v then 0 else exp x + 16383) * w <= 32766 * w) by (split; [apply Z.mul_nonneg_nonneg; destruct (sig x <? v); lia|apply Z.mul_le_mono_nonneg_r; destruct (sig x <? v); lia]).
    destruct (sign x); cbn [b2z negb]; repeat split; try discriminate; try (intros [? ?]; exfalso; lia); try (intros ?; exfalso; lia); try tauto; try lia.
  - destruct (sign x); cbn [b2z negb]; repeat split; try discriminate; try (intros [? ?]; exfalso; lia); try (intros ?; exfalso; lia); try tauto; try lia.
Qed.

(** ** NaNs: which results stay signaling *)
Theorem quieted_signaling : forall S x, sem_ok S -> category x = NaN ->
  (signaling S (quieted S x) = true <-> X87 S = true /\ Z.testbit (sig x) (PRECISION S - 1) = false).
Proof.
  intros S x [Hp _ _ Hnf] C. unfold signaling, quieted. cbn [category sig]. rewrite C.
  destruct (NONFINITE_BEHAVIOR S).
  - rewrite Z.setbit_eq by lia. rewrite Z.setbit_neq by lia. cbn [andb].
    destruct (X87 S), (Z.testbit (sig x) (PRECISION S - 1)); cbn; intuition congruence.
  - destruct Hnf as [_ [_ [_ ->]]]. intuition congruence.
Qed.
(** a NaN of a NaN-only format is converted without a flag and without [loses_info] *)
Theorem convert_r_nan_only : forall S T x m, sem_ok S -> sem_ok T -> wf S x -> category x = NaN -> NONFINITE_BEHAVIOR S = NanOnly ->
  exists r, convert_r S T x m = Ret (OK, r, false) /\ default_nan T r /\ sign r = sign x.
Proof.
  intros S T x m HS HT Hx C N. destruct (convert_r_nan S T x m HS HT Hx C) as [r [lost [E [D [G _]]]]].
  assert (signaling S x = false) as Sg by (unfold signaling; rewrite C, N; reflexivity). rewrite Sg in E. cbn [invalid_if] in E.
  assert (lost = false) as ->; [|exists r; auto].
  pose proof HS as [Hp Hmin Hmax Hnf]. rewrite N in Hnf. destruct Hnf as [_ [Mk [Qn X]]]. pose proof (proj1 Hx) as Hl.
  unfold convert_r in E. unfold is_nan in E. rewrite C in E. cbn [category_eqb andb] in E.
  rewrite result_from_nan_spec in E by assumption. cbn [bind] in E.
  rewrite convert_adjust_special in E by (cbn [quieted category]; congruence). cbn [bind] in E.
  rewrite is_finite_non_zero_spec in E. cbn [quieted category] in E. rewrite C in E. cbn [category_eqb orb andb] in E.
  rewrite Mk in E. change (0 =? 0) with true in E. cbn [negb] in E. rewrite !andb_false_r in E. cbn [bind] in E.
  assert (X8 : is_x87_double_extended S = false) by (unfold is_x87_double_extended; rewrite Qn; reflexivity). rewrite X8 in E. cbn [andb] in E.
  revert E. match goal with |- (let! l := ?a in _) = _ -> _ => destruct a as [l| |]; cbn [bind]; try discriminate end.
  destruct (get l 0) as [s0| |]; cbn [bind]; try discriminate. cbn [category_eqb orb andb]. rewrite Sg. cbn [invalid_if]. change (Z.ldiff OK INVALID_OP =? OK) with true. cbn [negb orb Sig.loss_eqb].
  intro E. congruence.
Qed.

(** ** The other comparison operators *)
Theorem gt_f_spec : forall S x y, sem_ok S -> wf S x -> wf S y ->
  exists b, gt_f x y = Ret b /\
    (b = true <-> exists a c, ext_of S x = Some a /\ ext_of S y = Some c /\ ext_lt c a).
Proof.
  intros S x y HS Hx Hy. destruct (partial_cmp_spec S x y HS Hx Hy) as [r [E H]]. unfold gt_f. rewrite E. cbn [bind].
  eexists. split; [reflexivity|]. destruct (ext_of S x) as [a|] eqn:Ea; destruct (ext_of S y) as [c|] eqn:Ec; destruct r as [o|]; try contradiction.
  2-4: split; [discriminate|]; intros [a' [c' [X [Y _]]]]; discriminate.
  split.
  - intro Ho. exists a, c. destruct o; try discriminate. repeat split. exact H.
  - intros [a' [c' [X [Y Z]]]]. inversion X; inversion Y; subst. rewrite (ext_compare_unique a' c' o Gt H Z). reflexivity.
Qed.
Theorem ge_f_spec : forall S x y, sem_ok S -> wf S x -> wf S y ->
  exists b, ge_f x y = Ret b /\
    (b = true <-> exists a c, ext_of S x = Some a /\ ext_of S y = Some c /\ ext_le c a).
Proof.
  intros S x y HS Hx Hy. destruct (partial_cmp_spec S x y HS Hx Hy) as [r [E H]]. unfold ge_f. rewrite E. cbn [bind].
  eexists. split; [reflexivity|]. destruct (ext_of S x) as [a|] eqn:Ea; destruct (ext_of S y) as [c|] eqn:Ec; destruct r as [o|]; try contradiction.
  2-4: split; [discriminate|]; intros [a' [c' [X [Y _]]]]; discriminate.
  split.
  - intro Ho. exists a, c. split; [reflexivity|]. split; [reflexivity|]. destruct o; try discriminate; [right; symmetry; exact H|left; exact H].
  - intros [a' [c' [X [Y [Z|Z]]]]]; inversion X; inversion Y; subst.
    + rewrite (ext_compare_unique a' c' o Gt H Z). reflexivity.
    + rewrite (ext_compare_unique a' a' o Eq H eq_refl). reflexivity.
Qed.

(** ** Conversion to one-bit integers *)
Theorem to_i128_width_1 : forall S x m, sign x = false -> to_i128_r S x 1 m = Panic.
Proof.
  intros S x m H. unfold to_i128_r, is_negative. rewrite H. change (usub 1 1) with (Ret 0). cbn [bind].
  unfold to_u128_r, is_negative. rewrite H. reflexivity.
Qed.

(** ** The widths for which the conversions to integers panic *)
Lemma to_u128_width_low : forall S x m, sign x = false -> to_u128_r S x 0 m = Panic.
Proof. intros S x m H. unfold to_u128_r, is_negative. rewrite H. reflexivity. Qed.
Lemma to_u128_width_high : forall S x w m, sign x = false -> 128 < w -> to_u128_r S x w m = Panic.
Proof.
  intros S x w m H Hw. unfold to_u128_r, is_negative. rewrite H.
  replace (usub 128 w) with (@Panic Z); [reflexivity|]. unfold usub. destruct (Z.leb_spec w 128); [lia|reflexivity].
Qed.
Theorem to_u128_panics : forall S x w m, sem_ok S -> wf S x -> sign x = false -> 0 <= w ->
  (to_u128_r S x w m = Panic <-> w = 0 \/ 128 < w).
Proof.
  intros S x w m HS W H Hw. split.
  - intro E. destruct (Z.eq_dec w 0) as [->|N]; [left; reflexivity|]. right. destruct (Z_lt_le_dec 128 w) as [L|L]; [exact L|].
    destruct (to_u128_r_spec S x w m HS W ltac:(lia)) as [st [n [ex [E' _]]]]. rewrite E in E'. discriminate E'.
  - intros [->|L]; [apply to_u128_width_low, H|apply to_u128_width_high; assumption].
Qed.
Theorem to_i128_panics : forall S x w m, sem_ok S -> wf S x -> 0 <= w ->
  (to_i128_r S x w m = Panic <-> if sign x then w = 0 \/ 128 < w else w <= 1 \/ 129 < w).
Proof.
  intros S x w m HS W Hw. destruct (sign x) eqn:H.
  - split.
    + intro E. destruct (Z.eq_dec w 0) as [->|N]; [left; reflexivity|]. right. destruct (Z_lt_le_dec 128 w) as [L|L]; [exact L|].
      destruct (to_i128_r_spec S x w m HS W ltac:(rewrite H; lia)) as [st [n [ex [E' _]]]]. rewrite E in E'. discriminate E'.
    + intro K. unfold to_i128_r, is_negative. rewrite H. assert (sign (neg x) = false) as H' by (unfold neg, is_negative; cbn [sign]; rewrite H; reflexivity).
      destruct K as [->|L]; [rewrite (to_u128_width_low S (neg x) _ H')|rewrite (to_u128_width_high S (neg x) w _ H' L)]; reflexivity.
  - unfold to_i128_r, is_negative. rewrite H. unfold usub. destruct (Z.leb_spec 1 w) as [L|L]; [|cbn [bind]; split; [intros _; left; lia|reflexivity]].
    cbn [bind]. destruct (to_u128_panics S x (w - 1) m HS W H ltac:(lia)) as [A B]. split.
    + intro E. destruct (to_u128_r S x (w - 1) m) as [[[st n] ex]| |] eqn:E'; [discriminate E| |discriminate E]. destruct (A eq_refl); [left|right]; lia.
    + intro K. rewrite B; [reflexivity|]. destruct K; [left|right]; lia.
Qed.

(** ** Negated operands, one of them infinite (or the divisor zero): negated
    results; invalid operations stay invalid *)
Definition negated_special (S : Semantics) (o o' : outcome (Z * Float)) : Prop :=
  exists st f f', o = Ret (st, f) /\ o' = Ret (st, f') /\
    ((st = INVALID_OP /\ default_nan S f /\ default_nan S f') \/
     (st <> INVALID_OP /\ bitwise_eq f' (neg f) = true)).
Lemma special_negated : forall S c g g' f f', (c = Infinity \/ c = Zero \/ (c = NaN /\ NONFINITE_BEHAVIOR S = NanOnly)) ->
  is_special S c g f -> is_special S c g' f' -> g' = negb g -> bitwise_eq f' (neg f) = true.
Proof.
  intros S c g g' f f' Hc [W [C G]] [W' [C' G']] ->. unfold bitwise_eq, neg, is_negative. cbn [category sign exp sig]. rewrite C, C', G, G'.
  pose proof (proj2 (proj2 W)) as K. pose proof (proj2 (proj2 W')) as K'. rewrite C in K. rewrite C' in K'.
  destruct Hc as [->|[->|[-> N]]]; cbn; [destruct g; reflexivity|destruct g; reflexivity|].
  unfold nan_sig in K, K'. rewrite N in K, K'. rewrite K, K'. rewrite Z.eqb_refl. unfold is_finite_non_zero, is_finite, is_nan, is_infinite, is_zero. cbn [category]. rewrite C'. destruct g; reflexivity.
Qed.
Ltac negated_case := 
  match goal with
  | D : ?st = INVALID_OP /\ default_nan _ _, D' : ?st' = INVALID_OP /\ default_nan _ _ |- _ =>
      destruct D as [-> D]; destruct D' as [-> D']; do 3 eexists; split; [reflexivity|]; split; [reflexivity|]; left; auto
  | D : ?st = _ /\ is_special ?S ?c ?g ?f, D' : ?st' = _ /\ is_special ?S ?c ?g' ?f' |- _ =>
      destruct D as [-> D]; destruct D' as [-> D']; do 3 eexists; split; [reflexivity|]; split; [reflexivity|]; right; split; [discriminate|];
      refine (special_negated S c g g' f f' _ D D' _)
  end.

Theorem mul_special_symmetric : forall S x y m, sem_ok S -> wf S x -> wf S y -> category x <> NaN -> category y <> NaN ->
  category x = Infinity \/ category y = Infinity ->
  negated_special S (mul_r S x y m) (mul_r S (neg x) y (mirrored m)).
Proof.
  intros S x y m HS Hx Hy Nx Ny I. unfold negated_special.
  destruct (mul_r_infinite S x y m HS Hx Hy Nx Ny I) as [st [f [-> R]]].
  destruct (mul_r_infinite S (neg x) y (mirrored m) HS (wf_neg S x Hx) Hy Nx Ny I) as [st' [f' [-> R']]].
  change (category (neg x)) with (category x) in R'. change (sign (neg x)) with (negb (sign x)) in R'.
  destruct (category x), (category y); try congruence; try (exfalso; destruct I; discriminate); negated_case; auto; destruct (sign x), (sign y); reflexivity.
Qed.
Theorem div_special_symmetric : forall S x y m, sem_ok S -> wf S x -> wf S y -> category x <> NaN -> category y <> NaN ->
  category x = Infinity \/ category y = Infinity \/ category y = Zero ->
  negated_special S (div_r S x y m) (div_r S (neg x) y (mirrored m)).
Proof.
  intros S x y m HS Hx Hy Nx Ny I. unfold negated_special.
  destruct (div_r_special S x y m HS Hx Hy Nx Ny I) as [st [f [-> R]]].
  destruct (div_r_special S (neg x) y (mirrored m) HS (wf_neg S x Hx) Hy Nx Ny I) as [st' [f' [-> R']]].
  change (category (neg x)) with (category x) in R'. change (sign (neg x)) with (negb (sign x)) in R'. cbv zeta in R, R'.
  destruct (category x), (category y); try congruence; try (exfalso; destruct I as [I|[I|I]]; discriminate); negated_case;
    try (destruct (sign x), (sign y); reflexivity); try (left; reflexivity); try (right; left; reflexivity);
    unfold infinity_of; destruct (NONFINITE_BEHAVIOR S); auto.
Qed.
Theorem add_special_symmetric : forall S x y m, sem_ok S -> wf S x -> wf S y -> category x <> NaN -> category y <> NaN ->
  category x = Infinity \/ category y = Infinity ->
  negated_special S (add_r S x y m) (add_r S (neg x) (neg y) (mirrored m)).
Proof.
  intros S x y m HS Hx Hy Nx Ny I. unfold negated_special.
  destruct (add_r_infinite S x y m HS Hx Hy Nx Ny I) as [st [f [-> R]]].
  destruct (add_r_infinite S (neg x) (neg y) (mirrored m) HS (wf_neg S x Hx) (wf_neg S y Hy) Nx Ny I) as [st' [f' [-> R']]].
  change (category (neg x)) with (category x) in R'. change (sign (neg x)) with (negb (sign x)) in R'.
  change (category (neg y)) with (category y) in R'. change (sign (neg y)) with (negb (sign y)) in R'.
  destruct (category x), (category y); try congruence; try (exfalso; destruct I; discriminate);
    try (destruct (sign x), (sign y); cbn [Bool.eqb negb] in R, R'); negated_case; auto; try (destruct (sign x), (sign y); reflexivity).
Qed.
Theorem sub_special_symmetric : forall S x y m, sem_ok S -> wf S x -> wf S y -> category x <> NaN -> category y <> NaN ->
  category x = Infinity \/ category y = Infinity ->
  negated_special S (sub_r S x y m) (sub_r S (neg x) (neg y) (mirrored m)).
Proof.
  intros S x y m HS Hx Hy Nx Ny I. unfold negated_special.
  destruct (sub_r_infinite S x y m HS Hx Hy Nx Ny I) as [st [f [-> R]]].
  destruct (sub_r_infinite S (neg x) (neg y) (mirrored m) HS (wf_neg S x Hx) (wf_neg S y Hy) Nx Ny I) as [st' [f' [-> R']]].
  change (category (neg x)) with (category x) in R'. change (sign (neg x)) with (negb (sign x)) in R'.
  change (category (neg y)) with (category y) in R'. change (sign (neg y)) with (negb (sign y)) in R'.
  destruct (category x), (category y); try congruence; try (exfalso; destruct I; discriminate);
    try (destruct (sign x), (sign y); cbn [Bool.eqb negb] in R, R'); negated_case; auto; try (destruct (sign x), (sign y); reflexivity).
Qed.
