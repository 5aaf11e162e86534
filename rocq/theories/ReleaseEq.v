(** * ReleaseEq.v -- on well-formed numbers the two builds are the same, panics
    included (proofs of C82). *)
From Coq Require Import ZArith Reals List Bool Lia Lra ZifyBool.
From Flocq Require Import Core Bracket.
From Verif Require Import Machine Sig SpecSig Limbs SigProofs SigProofs2 SigProofs3 SigProofs4 SigProofs5 Ieee Spec Norm Arith Special Order Bits Int Scale Next Convert Rem SpecFma Fma Algebra Integral Total FmaFull FmaExact Parse Fmt Ppc Ops OpsPair Release ReleaseTop ReleaseProofs.
Import ListNotations.
Local Open Scope Z_scope.
Ltac Zify.zify_post_hook ::= idtac.

Lemma eq_of_ref : forall {A : Type} (a b : outcome A) v, refines a b -> a = Ret v -> b = a.
Proof. intros A a b v H E. rewrite E. exact (H v E). Qed.
Lemma eq_bind : forall {A B : Type} (a b : outcome A) (f g : A -> outcome B),
  b = a -> (forall v, a = Ret v -> g v = f v) -> bind b g = bind a f.
Proof. intros A B a b f g -> H. destruct a as [v | | ]; cbn [bind]; [exact (H v eq_refl) | reflexivity | reflexivity]. Qed.
Lemma eq_assertb : forall {A : Type} (c : bool) (a b : outcome A), (c = true -> b = a) -> assertb c b = assertb c a.
Proof. intros A c a b H. destruct c; cbn [assertb]; [exact (H eq_refl) | reflexivity]. Qed.

(** ** The fused multiply-add *)
Lemma add_or_sub_over_rel : forall a ea sa b eb, limbs a -> limbs b -> length a = length b ->
  2 * lval b < 2 ^ nbits a -> - 2 ^ 30 <= ea <= 2 ^ 30 - 1 -> - 2 ^ 30 <= eb <= 2 ^ 30 - 1 -> ea < eb ->
  let d := 2 ^ (eb - ea - 1) in lval a mod d <> 0 -> lval a / d = 2 * lval b ->
  add_or_sub_rel a ea sa b eb (negb sa) = Panic.
Proof.
  intros a ea sa b eb Ha Hb Hl Hfb Hea Heb Hlt d Hm Hge. unfold add_or_sub_rel.
  assert (nbits b = nbits a) as Hnb by (unfold nbits, nlimbs; rewrite Hl; reflexivity).
  rewrite (wrap_i32_ref _ _ (chk32_ret (ea - eb) ltac:(lia))). cbn [bind]. assert (xorb sa (negb sa) = true) as -> by (destruct sa; reflexivity).
  destruct (Z.eqb_spec (ea - eb) 0) as [X|_]; [lia|]. destruct (Z.ltb_spec 0 (ea - eb)) as [X|_]; [lia|].
  rewrite (wrap_i32_ref _ _ (chk32_ret (- (ea - eb)) ltac:(lia))). cbn [bind].
  destruct (shift_right_spec a ea (- (ea - eb) - 1) Ha ltac:(lia) ltac:(lia)) as [a' [Ea [Ha' [Hla Hva]]]].
  rewrite (shift_right_ref _ _ _ _ Ea). cbn [bind].
  destruct (shift_left_exact b 0 1 Hb ltac:(lia) ltac:(lia) ltac:(rewrite Hnb; change (2 ^ 1) with 2; lia)) as [b' [Eb [Hb' [Hlb Hvb]]]].
  rewrite (shift_left_ref _ _ _ _ Eb). cbn [bind]. change (2 ^ 1) with 2 in Hvb.
  replace (- (ea - eb) - 1) with (eb - ea - 1) in * by lia. fold d in Hva |- *.
  assert (0 < d) as Hd0 by (apply pow2_gt0; lia). pose proof (Z.mod_pos_bound (lval a) d Hd0) as Hmb.
  set (loss := loss_of (lval a mod d) d) in *.
  assert (Hloss : loss <> ExactlyZero).
  { intro X. pose proof (loss_of_nonzero (lval a mod d) d Hm) as Y. fold loss in Y. rewrite X in Y. discriminate. }
  match goal with |- ?X = _ => replace X with
    (let! '(a_sig, a_sign) := sub_core a' b' sa loss in Ret (a_sig, ea + (eb - ea - 1), a_sign, flip_loss loss))
      by (unfold sub_core; rewrite cmp_spec by (assumption || lia); reflexivity) end.
  rewrite sub_core_eq; [reflexivity|assumption|assumption|lia|lia|assumption].
Qed.

Lemma mul_add_wide_rel : forall S x y z m, sem_ok S -> wf S x -> wf S y -> wf S z ->
  category x = Normal -> category y = Normal -> category z = Normal ->
  let s := xorb (sign x) (sign y) in
  exists wide e za k, mul_add_r_rel S x y z m = bind (add_or_sub_rel wide e s za (exp z + 1) (sign z)) k /\
    limbs wide /\ length wide = 2%nat /\ limbs za /\ length za = 2%nat /\
    2 ^ (2 * PRECISION S - 1) <= lval wide < 2 ^ (2 * PRECISION S) /\ lval za = sig z * 2 ^ PRECISION S /\
    - 2 ^ 22 <= e <= 2 ^ 22 /\
    (value S x * value S y = sgnr s (IZR (lval wide) * bpow r2 (e - 2 * PRECISION S)))%R /\
    (value S z = sgnr (sign z) (IZR (lval za) * bpow r2 (exp z + 1 - 2 * PRECISION S)))%R.
Proof.
  intros S x y z m HS Wx Wy Wz Cx Cy Cz s.
  destruct (p_pow S HS) as [P1 [P2 P3]]. pose proof HS as [Hp Hmin Hmax _].
  unfold mul_add_r_rel. rewrite !is_finite_non_zero_spec, Cx, Cy. cbn [category_eqb negb orb].
  assert (is_finite z = true) as -> by (unfold is_finite, is_nan, is_infinite; rewrite Cz; reflexivity). cbn [negb].
  assert (limbs_for_bits (PRECISION S * 2 + 1) <=? 2 = true) as ->.
  { apply Z.leb_le. unfold limbs_for_bits, LIMB_BITS. apply Z.lt_succ_r. apply Z.div_lt_upper_bound; lia. }
  cbn [assertb]. cbv zeta. rewrite negate_if_eq. cbn [sig exp].
  pose proof (wf_normal_canonical S x Wx Cx) as Kx. pose proof (wf_normal_canonical S y Wy Cy) as Ky.
  pose proof (canonical_i32 _ _ _ HS Kx) as Ix. pose proof (canonical_i32 _ _ _ HS Ky) as Iy.
  destruct Kx as [X1 _]. destruct Ky as [Y1 _].
  destruct (widening_mul_spec (sig x) (sig y) (proj1 Wx) (proj1 Wy)) as [lo [hi [Ew [Llo [Lhi Vw]]]]].
  rewrite (widening_mul_ref _ _ _ Ew). cbn [bind].
  assert (Lw : limbs [lo; hi]) by (apply limb_2; assumption).
  rewrite (omsb_spec _ Lw).
  assert (Vl : lval [lo; hi] = sig x * sig y) by (cbn [lval]; lia).
  set (w := sig x * sig y) in *. rewrite Vl.
  assert (0 < w < 2 ^ (2 * PRECISION S)) as Hw.
  { unfold w. replace (2 * PRECISION S) with (PRECISION S + PRECISION S) by lia. rewrite Z.pow_add_r by lia. nia. }
  assert (bitlen w <= 2 * PRECISION S) as Hbw by (apply bitlen_le; lia). pose proof (bitlen_nonneg w) as Hbw0.
  rewrite (wrap_i32_ref _ _ (chk32_ret (exp x + exp y) ltac:(lia))). cbn [bind].
  rewrite (wrap_i32_ref _ _ (chk32_ret (exp x + exp y + 2) ltac:(lia))). cbn [bind].
  fold s.
  assert (Vxy : (value S x * value S y = sgnr s (IZR w * bpow r2 (exp x + exp y + 2 - 2 * PRECISION S)))%R).
  { rewrite !value_normal by assumption. rewrite sgnr_mul. unfold s, w. f_equal.
    replace (exp x + exp y + 2 - 2 * PRECISION S) with ((exp x - (PRECISION S - 1)) + (exp y - (PRECISION S - 1))) by lia.
    rewrite bpow_plus, mult_IZR. ring. }
  unfold is_non_zero, is_zero at 1; rewrite Cz; cbn [category_eqb negb].
  pose proof (wf_normal_canonical S z Wz Cz) as Kz. pose proof (canonical_i32 _ _ _ HS Kz) as Iz. destruct Kz as [Z1 [Z2 [Z3 Z4]]].
  set (n := 2 * PRECISION S - bitlen w).
  assert (Hnorm : exists wide, (if negb (bitlen w =? 2 * PRECISION S + 1 - 1) then assertb (bitlen w <? 2 * PRECISION S + 1)
       (let! n := wrap_usize (2 * PRECISION S + 1 - 1) (bitlen w) in shift_left_rel [lo; hi] (exp x + exp y + 2) n)
     else Ret ([lo; hi], exp x + exp y + 2)) = Ret (wide, exp x + exp y + 2 - n) /\ limbs wide /\ length wide = 2%nat /\ lval wide = w * 2 ^ n).
  { destruct (Z.eqb_spec (bitlen w) (2 * PRECISION S + 1 - 1)) as [E|E]; cbn [negb].
    - exists [lo; hi]. replace n with 0 by lia. rewrite Z.sub_0_r, Z.mul_1_r. split; [reflexivity|]. split; [assumption|]. split; [reflexivity|exact Vl].
    - destruct (Z.ltb_spec (bitlen w) (2 * PRECISION S + 1)) as [_|H]; [|lia]. cbn [assertb].
      rewrite (wrap_usize_ref _ _ _ (usub_ret (2 * PRECISION S + 1 - 1) (bitlen w) ltac:(lia))). cbn [bind].
      replace (2 * PRECISION S + 1 - 1 - bitlen w) with n by lia.
      destruct (shift_left_exact [lo; hi] (exp x + exp y + 2) n Lw ltac:(lia) ltac:(lia)) as [d [Ed [Ld [Nd Vd]]]].
      { rewrite Vl. change (nbits [lo; hi]) with 256. apply Z.lt_le_trans with (2 ^ (2 * PRECISION S)); [|apply Z.pow_le_mono_r; lia].
        apply bitlen_le; [pose proof (pow2_gt0 n); nia|lia|]. rewrite bitlen_shiftl by lia. lia. }
      exists d. rewrite Vl in Vd. split; [exact (shift_left_ref _ _ _ _ Ed)|]. split; [assumption|]. split; [exact Nd|exact Vd]. }
  destruct Hnorm as [wide [-> [Lwide [Nwide Vwide]]]]. cbn [bind].
  set (W := w * 2 ^ n) in *. set (e := exp x + exp y + 2 - n) in *.
  assert (HW : 2 ^ (2 * PRECISION S - 1) <= W < 2 ^ (2 * PRECISION S)).
  { assert (bitlen W = 2 * PRECISION S) as B by (unfold W; rewrite bitlen_shiftl by lia; lia). rewrite <- B. apply bitlen_spec.
    unfold W. pose proof (pow2_gt0 n ltac:(lia)). nia. }
  assert (VW : (IZR w * bpow r2 (exp x + exp y + 2 - 2 * PRECISION S) = IZR W * bpow r2 (e - 2 * PRECISION S))%R).
  { unfold W. rewrite mult_IZR, Rmult_assoc, IZR_pow2_bpow by lia. do 2 f_equal. unfold e. lia. }
  rewrite VW in Vxy. clear VW.
  replace (2 * PRECISION S + 1 - 1 - PRECISION S) with (PRECISION S) by lia.
  set (B := sig z * 2 ^ PRECISION S).
  assert (PP : 2 ^ (2 * PRECISION S) = 2 ^ PRECISION S * 2 ^ PRECISION S) by (rewrite <- Z.pow_add_r by lia; f_equal; lia).
  assert (HB : 2 ^ PRECISION S <= B < 2 ^ (2 * PRECISION S)) by (rewrite PP; unfold B; clear - Z1 P1 P2; nia).
  destruct (shift_left_exact [sig z; 0] 0 (PRECISION S)) as [za [Ea [La [Na Va]]]].
  { apply limb_2; [exact (proj1 Wz)|apply limb_0]. }
  { lia. }
  { lia. }
  { change (nbits [sig z; 0]) with 256. cbn [lval]. rewrite Z.mul_0_r, !Z.add_0_r. fold B.
    apply Z.lt_le_trans with (2 ^ (2 * PRECISION S)); [lia|apply Z.pow_le_mono_r; lia]. }
  cbn [lval] in Va. rewrite Z.mul_0_r, !Z.add_0_r in Va. fold B in Va.
  rewrite (shift_left_ref _ _ _ _ Ea). cbn [bind]. rewrite (wrap_i32_ref _ _ (chk32_ret (exp z + 1) ltac:(lia))). cbn [bind].
  unfold is_negative. cbn [sign]. change (xorb (sign x) (sign y)) with s.
  exists wide, e, za. eexists. split.
  { match goal with |- bind (bind ?a ?f) ?g = _ => transitivity (bind a (fun v => bind (f v) g)) end.
    - destruct (add_or_sub_rel wide e s za (exp z + 1) (sign z)); reflexivity.
    - reflexivity. }
  split; [exact Lwide|]. split; [exact Nwide|]. split; [exact La|]. split; [exact Na|]. rewrite Vwide, Va. split; [exact HW|]. split; [reflexivity|].
  split; [unfold e; clear - Ix Iy Hbw Hbw0 Hp; lia|]. split; [exact Vxy|].
  rewrite (value_normal S z Cz). f_equal. unfold B. rewrite mult_IZR, Rmult_assoc, IZR_pow2_bpow by lia. do 2 f_equal. lia.
Qed.

Lemma mul_add_r_rel_panics : forall S, sem_ok S -> forall x y z m, wf S x -> wf S y -> wf S z -> finite x -> finite y -> finite z ->
  product_cut S x y z -> cut_down S (Rabs (value S x * value S y)) = Rabs (value S z) -> mul_add_r_rel S x y z m = Panic.
Proof.
  intros S HS x y z m Wx Wy Wz Fx Fy Fz [Es [Nz [Lz [Lp Nc]]]].
  assert (Cz : category z = Normal) by (destruct Fz as [C|C]; [exact C|exfalso; apply Nz, value_zero, C]).
  assert (Np : (value S x * value S y)%R <> 0%R).
  { intro Q. apply Nc. rewrite Q, Rabs_R0. replace 0%R with (IZR 0 * fma_unit S)%R at 1 by ring. rewrite (cut_down_multiple S). ring. }
  assert (Cx : category x = Normal) by (destruct Fx as [C|C]; [exact C|exfalso; apply Np; rewrite (value_zero S x C); ring]).
  assert (Cy : category y = Normal) by (destruct Fy as [C|C]; [exact C|exfalso; apply Np; rewrite (value_zero S y C); ring]).
  destruct (p_pow S HS) as [P1 [P2 P3]]. pose proof HS as [Hp Hmin Hmax _].
  destruct (mul_add_wide_rel S x y z m HS Wx Wy Wz Cx Cy Cz) as [wide [e [za [k [-> [Lwide [Nwide [La [Na [HW [Va [He [Vxy Vz]]]]]]]]]]]]].
  set (s := xorb (sign x) (sign y)) in *. set (B := sig z * 2 ^ PRECISION S) in *.
  assert (Vwide : exists W, lval wide = W) by (eexists; reflexivity). destruct Vwide as [W Vwide]. rewrite Vwide in HW, Vxy. rewrite Va in Vz.
  pose proof (wf_normal_canonical S z Wz Cz) as Kz. pose proof (canonical_i32 _ _ _ HS Kz) as Iz. pose proof Kz as [Z1 [Z2 [Z3 Z4]]].
  assert (PP : 2 ^ (2 * PRECISION S) = 2 ^ PRECISION S * 2 ^ PRECISION S) by (rewrite <- Z.pow_add_r by lia; f_equal; lia).
  assert (HB : 2 ^ PRECISION S <= B < 2 ^ (2 * PRECISION S)) by (rewrite PP; unfold B; clear - Z1 P1 P2; nia).
  assert (P2p : 2 ^ (2 * PRECISION S) = 2 * 2 ^ (2 * PRECISION S - 1)) by (rewrite <- Z.pow_succ_r by lia; f_equal; lia).
  assert (HP0 : 0 < 2 ^ (2 * PRECISION S - 1)) by (apply pow2_gt0; lia).
  assert (Hpos : (0 <= IZR W * bpow r2 (e - 2 * PRECISION S))%R) by (apply Rmult_le_pos; [apply IZR_le; lia|apply bpow_ge_0]).
  assert (Hsub : sig z < 2 ^ (PRECISION S - 1)).
  { destruct (Z_lt_le_dec (sig z) (2 ^ (PRECISION S - 1))) as [L|L]; [exact L|exfalso]. apply (Rlt_not_le _ _ Lz).
    rewrite (value_normal S z Cz), sgnr_abs by (apply Rmult_le_pos; [apply IZR_le; lia|apply bpow_ge_0]).
    apply (canonical_full S (sig z) (exp z) HS Kz). exact L. }
  assert (Ez : exp z = MIN_EXP S) by lia. rewrite Ez in *.
  assert (Hlt : e < MIN_EXP S + 1).
  { destruct (Z_lt_le_dec e (MIN_EXP S + 1)) as [L|L]; [exact L|exfalso]. apply (Rlt_not_le _ _ Lp).
    rewrite Vxy, sgnr_abs by exact Hpos. unfold min_normal.
    apply Rle_trans with (bpow r2 (2 * PRECISION S - 1) * bpow r2 (e - 2 * PRECISION S))%R.
    - rewrite <- bpow_plus. apply bpow_le. lia.
    - apply Rmult_le_compat_r; [apply bpow_ge_0|]. rewrite <- IZR_pow2 by lia. apply IZR_le. lia. }
  set (d := 2 ^ (MIN_EXP S + 1 - e - 1)). assert (Hd : 0 < d) by (apply pow2_gt0; lia).
  assert (Hu : (0 < fma_unit S)%R) by apply bpow_gt_0.
  assert (Bd : (IZR d * bpow r2 (e - 2 * PRECISION S) = fma_unit S)%R).
  { unfold d, fma_unit. rewrite IZR_pow2_bpow by lia. f_equal. lia. }
  assert (AP : Rabs (value S x * value S y) = (IZR W * bpow r2 (e - 2 * PRECISION S))%R) by (rewrite Vxy; apply sgnr_abs; exact Hpos).
  assert (AZ : Rabs (value S z) = (IZR (2 * B) * fma_unit S)%R).
  { rewrite Vz, sgnr_abs by (apply Rmult_le_pos; [apply IZR_le; lia|apply bpow_ge_0]). unfold fma_unit.
    replace (MIN_EXP S + 1 - 2 * PRECISION S) with (1 + (MIN_EXP S - 2 * PRECISION S)) by lia. rewrite bpow_plus. change (bpow r2 1) with 2%R. rewrite mult_IZR. ring. }
  rewrite AP, AZ, (cut_down_eq S W d) in * by assumption. intro Q.
  pose proof (Z.div_mod W d ltac:(lia)) as Wd.
  assert (E0 : W mod d <> 0).
  { intro X. apply Nc. rewrite Wd at 2. rewrite X, Z.add_0_r, mult_IZR. rewrite <- Bd. ring. }
  assert (Hbits : 2 * lval za < 2 ^ nbits wide).
  { unfold nbits, nlimbs. rewrite Nwide, Va. change (128 * Z.of_nat 2) with 256.
    assert (2 ^ (2 * PRECISION S) <= 2 ^ 252) by (apply Z.pow_le_mono_r; lia). lia. }
  assert (Hsz : sign z = negb s) by (destruct s, (sign z); cbn in *; congruence).
  assert (Q1 : W / d = 2 * B) by (apply eq_IZR; apply Rmult_eq_reg_r with (fma_unit S); lra).
  rewrite Hsz, (add_or_sub_over_rel wide e s za (MIN_EXP S + 1) Lwide La); [reflexivity|lia|exact Hbits|lia|lia|lia|rewrite Vwide; exact E0|rewrite Vwide, Va; exact Q1].
Qed.

Theorem mul_add_r_rel_eq : forall S, sem_ok S -> forall x y z m, wf S x -> wf S y -> wf S z -> mul_add_r_rel S x y z m = mul_add_r S x y z m.
Proof.
  intros S HS x y z m Wx Wy Wz. destruct (mul_add_r_outcome S x y z m HS Wx Wy Wz) as [[st [f [E _]]]|[E [Fx [Fy [Fz _]]]]].
  - exact (eq_of_ref _ _ _ (mul_add_r_ref S x y z m) E).
  - rewrite E. apply (mul_add_r_panics S HS x y z m Wx Wy Wz) in E. destruct E as [_ [_ [_ [D Q]]]].
    exact (mul_add_r_rel_panics S HS x y z m Wx Wy Wz Fx Fy Fz D Q).
Qed.
