(** * Fma.v -- fused multiply-add *)
From Coq Require Import ZArith Reals List Bool Lia Lra ZifyBool.
From Flocq Require Import Core.
From Verif Require Import Machine Sig SpecSig Limbs SigProofs SigProofs2 SigProofs3 SigProofs4 SigProofs5 Ieee Spec Norm Arith Special Order Bits Int Scale Next Convert Rem.
Import ListNotations.
Local Open Scope Z_scope.

Ltac Zify.zify_post_hook ::= idtac.

(** ** From the wide sum to the result *)
Definition fma_tail (S : Semantics) (x addend : Float) (wide : list Z) (e : Z) (s : bool) (loss : Loss) (omsb : Z) (round : Round) : outcome (Z * Float) :=
    let x := with_sign x s in
    let! e := chk32 (e - (PRECISION S + 1)) in
    let! '(wide, e, loss) :=
      (if PRECISION S <? omsb then
         let! '(wide, e, l) := shift_right wide e (omsb - PRECISION S) in
         Ret (wide, e, combine l loss)
       else Ret (wide, e, loss)) in
    let! s0 := get wide 0 in
    let! '(status, x) := normalize S (set_sig_exp x s0 e) round loss in
    let status := if negb (loss_eqb loss ExactlyZero) then Z.lor status INEXACT else status in
    if is_zero x && (Z.land status UNDERFLOW =? 0) && xorb (is_negative x) (is_negative addend) then
      Ret (status, with_sign x (round_eqb round TowardNegative))
    else Ret (status, x).


Lemma cr_zero_status : forall {pol} S m x zs st f, sem_ok S -> delivers pol S m x zs (st, f) -> category f = Zero -> x <> 0%R ->
  Z.land st UNDERFLOW <> 0.
Proof.
  intros pol S m x zs st f HS [W [_ [H3 H4]]] Cf Hx.
  destruct (Rle_lt_dec (Rabs (rounded S m x)) (max_finite S)) as [Hm|Hm].
  - destruct (H3 Hm) as [_ [B [_ [_ D]]]]. rewrite (value_zero S f Cf) in B.
    rewrite D; [discriminate|congruence|]. rewrite <- B, Rabs_R0. apply bpow_gt_0.
  - exfalso. specialize (H4 Hm). destruct (pol (sign f)).
    + destruct H4 as [_ H4]. rewrite Cf in H4. destruct (NONFINITE_BEHAVIOR S); discriminate.
    + destruct H4 as [_ [H4 _]]. congruence.
Qed.

Lemma fma_tail_spec : forall S x addend wide e s loss m v, sem_ok S -> category x = Normal -> limbs wide -> length wide = 2%nat ->
  - 2 ^ 28 <= e <= 2 ^ 28 -> (0 <= v)%R -> between (lval wide) (e - 2 * PRECISION S) v loss ->
  (loss <> ExactlyZero -> 2 ^ (PRECISION S - 1) <= lval wide \/ (e <= MIN_EXP S /\ 0 < lval wide)) ->
  exists res, fma_tail S x addend wide e s loss (Sig.omsb wide) m = Ret res /\
    crate_rounded S m (sgnr s v) (fma_zero_sign s addend m) res.
Proof.
  intros S x addend wide e s loss m v HS Cx Lw Nw He Hv Hb Hfull. unfold fma_tail.
  destruct (p_pow S HS) as [P1 [P2 P3]]. pose proof HS as [Hp Hmin Hmax _].
  rewrite (omsb_spec wide Lw). pose proof (lval_bound wide Lw) as Bw. unfold nbits, nlimbs in Bw. rewrite Nw in Bw. change (128 * Z.of_nat 2) with 256 in Bw.
  set (q := lval wide) in *. assert (bitlen q <= 256) as Hq by (apply bitlen_le; lia). pose proof (bitlen_nonneg q) as Hq0.
  rewrite chk32_ret by lia. cbn [bind]. rewrite with_sign_eq.
  (* the shift down to the precision *)
  assert (Hsh : exists s0 w1 e2 l2, (if PRECISION S <? bitlen q then
         let! '(wide, e, l) := shift_right wide (e - (PRECISION S + 1)) (bitlen q - PRECISION S) in
         Ret (wide, e, combine l loss)
       else Ret (wide, e - (PRECISION S + 1), loss)) = Ret (s0 :: w1, e2, l2) /\
     limb s0 /\ - 2 ^ 30 <= e2 <= 2 ^ 30 /\ between s0 (e2 - (PRECISION S - 1)) v l2 /\
     (l2 <> ExactlyZero -> 2 ^ (PRECISION S - 1) <= s0 \/ (e2 <= MIN_EXP S /\ 0 < s0))).
  { destruct (Z.ltb_spec (PRECISION S) (bitlen q)) as [Hlt|Hge].
    - destruct (shift_right_spec wide (e - (PRECISION S + 1)) (bitlen q - PRECISION S) Lw ltac:(lia) ltac:(lia)) as [w [E [Lw' [Nw' Vw]]]].
      rewrite E. cbn [bind]. rewrite Nw in Nw'. destruct (limbs2 w Nw') as [a [b ->]]. fold q in Vw.
      pose proof (bitlen_shiftr q (bitlen q - PRECISION S) ltac:(lia) ltac:(lia)) as Bs. rewrite Z.max_r in Bs by lia.
      replace (bitlen q - (bitlen q - PRECISION S)) with (PRECISION S) in Bs by lia.
      assert (2 ^ (PRECISION S - 1) <= q / 2 ^ (bitlen q - PRECISION S) < 2 ^ PRECISION S) as Hs0.
      { pose proof (bitlen_spec (q / 2 ^ (bitlen q - PRECISION S))) as X. rewrite Bs in X. apply X. apply Z.lt_nge. intro E0.
        assert (q / 2 ^ (bitlen q - PRECISION S) = 0) as E1.
        { apply Z.le_antisymm; [assumption|]. apply Z.div_pos; [lia|apply pow2_gt0; lia]. }
        rewrite E1 in Bs. change (bitlen 0) with 0 in Bs. lia. }
      assert (a = q / 2 ^ (bitlen q - PRECISION S)) as ->.
      { cbn [lval] in Vw. inversion Lw' as [|? ? L0 Lw2]; subst. inversion Lw2 as [|? ? L1 _]; subst. unfold limb in *. nia. }
      do 4 eexists. split; [reflexivity|]. split; [unfold limb; lia|]. split; [lia|]. split.
      + pose proof (between_shift q (e - 2 * PRECISION S) v loss (bitlen q - PRECISION S) ltac:(lia) Hb) as X.
        replace (e - (PRECISION S + 1) + (bitlen q - PRECISION S) - (PRECISION S - 1)) with (e - 2 * PRECISION S + (bitlen q - PRECISION S)) by lia. exact X.
      + intros _. left. lia.
    - destruct (limbs2 wide Nw) as [a [b ->]].
      assert (q < 2 ^ PRECISION S) as Hqp by (apply bitlen_le; lia).
      assert (q = a) as Ea.
      { unfold q in *. cbn [lval] in *. inversion Lw as [|? ? L0 Lw2]; subst. inversion Lw2 as [|? ? L1 _]; subst. unfold limb in *. nia. }
      exists a, [b], (e - (PRECISION S + 1)), loss. rewrite <- Ea. split; [reflexivity|]. split; [unfold limb; lia|]. split; [lia|]. split; [|intro Hl; destruct (Hfull Hl) as [H|[H H']]; [left; exact H|right; split; [lia|exact H']]].
      replace (e - (PRECISION S + 1) - (PRECISION S - 1)) with (e - 2 * PRECISION S) by lia. exact Hb. }
  destruct Hsh as [s0 [w1 [e2 [l2 [-> [Ls [He2 [Hb2 Hf2]]]]]]]]. cbn [bind].
  change (get (s0 :: w1) 0) with (Ret s0). cbn [bind]. unfold set_sig_exp. cbn [category sign]. rewrite Cx.
  destruct (normalize_spec S (mkFloat s0 e2 Normal s) m l2 v HS eq_refl) as [[st f] [N1 N2]]; cbn [sig exp sign].
  { exact Ls. }
  { exact He2. }
  { exact Hv. }
  { exact Hb2. }
  { destruct (loss_eqb l2 ExactlyZero) eqn:El; [left; apply loss_eqb_exact; assumption|right].
    destruct Hf2 as [H|[H _]]; [intros ->; discriminate|right; exact H|left; exact H]. }
  { intros E Hl. destruct (Hf2 Hl) as [H|[_ H]]; lia. }
  cbn [sign] in N2. rewrite N1. cbn [bind].
  assert ((if negb (loss_eqb l2 ExactlyZero) then Z.lor st INEXACT else st) = st) as ->.
  { destruct (loss_eqb l2 ExactlyZero) eqn:El; [reflexivity|]. cbn [negb]. eapply normalize_lossy; [exact N1|reflexivity|].
    intros ->. discriminate. }
  destruct (Req_dec v 0) as [V0|V0].
  - rewrite V0, sgnr_0 in *. destruct (cr_zero_category S m s st f HS N2) as [Cf ->]. unfold is_zero. rewrite Cf. cbn [category_eqb andb].
    assert (sign f = s) as Cs by (destruct N2 as [_ [[_ [_ N3]] _]]; auto).
    change (Z.land OK UNDERFLOW =? 0) with true. cbn [andb]. unfold is_negative. rewrite Cs. unfold fma_zero_sign.
    replace (match m with TowardNegative => true | _ => false end) with (round_eqb m TowardNegative) by (destruct m; reflexivity).
    destruct (Bool.eqb s (sign addend)) eqn:Eb.
    + apply eqb_prop in Eb. rewrite <- Eb, xorb_nilpotent. eexists. split; [reflexivity|exact N2].
    + assert (xorb s (sign addend) = true) as -> by (destruct s, (sign addend); cbn in *; congruence).
      eexists. split; [reflexivity|]. apply cr_zero_with_sign with s; assumption.
  - assert (Hnz : sgnr s v <> 0%R) by (destruct s; cbn [sgnr]; lra).
    eexists (st, f). split; [|apply cr_change_zs with s; assumption].
    unfold is_zero. destruct (category f) eqn:Cf; cbn [category_eqb andb]; try reflexivity.
    pose proof (cr_zero_status S m _ _ _ _ HS N2 Cf Hnz) as U. rewrite (proj2 (Z.eqb_neq _ _) U). reflexivity.
Qed.

(** ** C08 *)

Lemma mul_add_tail : forall S x y z m, category x = Normal -> category y = Normal -> finite z -> 3 <= PRECISION S <= 126 ->
  mul_add_r S x y z m =
    let x := negate_if x (is_negative y) in
    let! '(lo, hi) := widening_mul (sig x) (sig y) in
    let wide := [lo; hi] in
    let omsb := Sig.omsb wide in
    let! e := chk32 (exp x + exp y) in
    let! e := chk32 (e + 2) in
    let! '(wide, e, s, loss, omsb) :=
      (if is_non_zero z then
         let ext_precision := 2 * PRECISION S + 1 in
         let! '(wide, e) :=
           (if negb (omsb =? ext_precision - 1) then
              assertb (omsb <? ext_precision) (
              let! n := usub (ext_precision - 1) omsb in
              shift_left wide e n)
            else Ret (wide, e)) in
         let! '(ext_addend, _) := shift_left [sig z; 0] 0 (ext_precision - 1 - PRECISION S) in
         let! ae := chk32 (exp z + 1) in
         let! '(wide, e, s, loss) :=
           add_or_sub wide e (is_negative x) ext_addend ae (is_negative z) in
         Ret (wide, e, s, loss, Sig.omsb wide)
       else Ret (wide, e, is_negative x, ExactlyZero, omsb)) in
    fma_tail S x z wide e s loss omsb m.
Proof.
  intros S x y z m Cx Cy Fz Hp. unfold mul_add_r. rewrite !is_finite_non_zero_spec, Cx, Cy. cbn [category_eqb negb orb].
  assert (is_finite z = true) as -> by (unfold is_finite, is_nan, is_infinite; destruct Fz as [-> | ->]; reflexivity). cbn [negb].
  assert (limbs_for_bits (PRECISION S * 2 + 1) <=? 2 = true) as ->.
  { apply Z.leb_le. unfold limbs_for_bits, LIMB_BITS. apply Z.lt_succ_r. apply Z.div_lt_upper_bound; lia. }
  cbn [assertb]. reflexivity.
Qed.

(** the product [p] of [x] and [y], exactly; a zero addend is added to it exactly *)
Lemma mul_add_wide : forall S x y z m, sem_ok S -> wf S x -> wf S y -> wf S z ->
  category x = Normal -> category y = Normal -> category z = Normal ->
  let s := xorb (sign x) (sign y) in
  exists wide e za, mul_add_r S x y z m =
      (let! '(r, e, s', loss) := add_or_sub wide e s za (exp z + 1) (sign z) in
       fma_tail S (mkFloat (sig x) (exp x) (category x) s) z r e s' loss (Sig.omsb r) m) /\
    limbs wide /\ length wide = 2%nat /\ limbs za /\ length za = 2%nat /\
    2 ^ (2 * PRECISION S - 1) <= lval wide < 2 ^ (2 * PRECISION S) /\ lval za = sig z * 2 ^ PRECISION S /\
    - 2 ^ 22 <= e <= 2 ^ 22 /\
    (value S x * value S y = sgnr s (IZR (lval wide) * bpow r2 (e - 2 * PRECISION S)))%R /\
    (value S z = sgnr (sign z) (IZR (lval za) * bpow r2 (exp z + 1 - 2 * PRECISION S)))%R.
Proof.
  intros S x y z m HS Wx Wy Wz Cx Cy Cz s.
  destruct (p_pow S HS) as [P1 [P2 P3]]. pose proof HS as [Hp Hmin Hmax _].
  rewrite mul_add_tail by (assumption || (left; assumption)). cbv zeta. rewrite negate_if_eq. cbn [sig exp]. unfold is_negative at 1 2. cbn [sign].
  pose proof (wf_normal_canonical S x Wx Cx) as Kx. pose proof (wf_normal_canonical S y Wy Cy) as Ky.
  pose proof (canonical_i32 _ _ _ HS Kx) as Ix. pose proof (canonical_i32 _ _ _ HS Ky) as Iy.
  destruct Kx as [X1 _]. destruct Ky as [Y1 _].
  destruct (widening_mul_spec (sig x) (sig y) (proj1 Wx) (proj1 Wy)) as [lo [hi [Ew [Llo [Lhi Vw]]]]].
  rewrite Ew. cbn [bind].
  assert (Lw : limbs [lo; hi]) by (apply limb_2; assumption).
  rewrite (omsb_spec _ Lw).
  assert (Vl : lval [lo; hi] = sig x * sig y) by (cbn [lval]; lia).
  set (w := sig x * sig y) in *. rewrite Vl.
  assert (0 < w < 2 ^ (2 * PRECISION S)) as Hw.
  { unfold w. replace (2 * PRECISION S) with (PRECISION S + PRECISION S) by lia. rewrite Z.pow_add_r by lia. nia. }
  assert (bitlen w <= 2 * PRECISION S) as Hbw by (apply bitlen_le; lia). pose proof (bitlen_nonneg w) as Hbw0.
  rewrite chk32_ret by lia. cbn [bind]. rewrite chk32_ret by lia. cbn [bind].
  fold s.
  assert (Vxy : (value S x * value S y = sgnr s (IZR w * bpow r2 (exp x + exp y + 2 - 2 * PRECISION S)))%R).
  { rewrite !value_normal by assumption. rewrite sgnr_mul. unfold s, w. f_equal.
    replace (exp x + exp y + 2 - 2 * PRECISION S) with ((exp x - (PRECISION S - 1)) + (exp y - (PRECISION S - 1))) by lia.
    rewrite bpow_plus, mult_IZR. ring. }
  unfold is_non_zero, is_zero; rewrite Cz; cbn [category_eqb negb].
  (* the product brought to its full width *)
  pose proof (wf_normal_canonical S z Wz Cz) as Kz. pose proof (canonical_i32 _ _ _ HS Kz) as Iz. destruct Kz as [Z1 [Z2 [Z3 Z4]]].
  set (n := 2 * PRECISION S - bitlen w).
  assert (Hnorm : exists wide, (if negb (bitlen w =? 2 * PRECISION S + 1 - 1) then assertb (bitlen w <? 2 * PRECISION S + 1)
       (let! n := usub (2 * PRECISION S + 1 - 1) (bitlen w) in shift_left [lo; hi] (exp x + exp y + 2) n)
     else Ret ([lo; hi], exp x + exp y + 2)) = Ret (wide, exp x + exp y + 2 - n) /\ limbs wide /\ length wide = 2%nat /\ lval wide = w * 2 ^ n).
  { destruct (Z.eqb_spec (bitlen w) (2 * PRECISION S + 1 - 1)) as [E|E]; cbn [negb].
    - exists [lo; hi]. replace n with 0 by lia. rewrite Z.sub_0_r, Z.mul_1_r. split; [reflexivity|]. split; [assumption|]. split; [reflexivity|exact Vl].
    - destruct (Z.ltb_spec (bitlen w) (2 * PRECISION S + 1)) as [_|H]; [|lia]. cbn [assertb]. rewrite usub_ret by lia. cbn [bind].
      replace (2 * PRECISION S + 1 - 1 - bitlen w) with n by lia.
      destruct (shift_left_exact [lo; hi] (exp x + exp y + 2) n Lw ltac:(lia) ltac:(lia)) as [d [Ed [Ld [Nd Vd]]]].
      { rewrite Vl. change (nbits [lo; hi]) with 256. apply Z.lt_le_trans with (2 ^ (2 * PRECISION S)); [|apply Z.pow_le_mono_r; lia].
        apply bitlen_le; [pose proof (pow2_gt0 n); nia|lia|]. rewrite bitlen_shiftl by lia. lia. }
      exists d. rewrite Vl in Vd. split; [exact Ed|]. split; [assumption|]. split; [exact Nd|exact Vd]. }
  destruct Hnorm as [wide [-> [Lwide [Nwide Vwide]]]]. cbn [bind].
  set (W := w * 2 ^ n) in *. set (e := exp x + exp y + 2 - n) in *.
  assert (HW : 2 ^ (2 * PRECISION S - 1) <= W < 2 ^ (2 * PRECISION S)).
  { assert (bitlen W = 2 * PRECISION S) as B by (unfold W; rewrite bitlen_shiftl by lia; lia). rewrite <- B. apply bitlen_spec.
    unfold W. pose proof (pow2_gt0 n ltac:(lia)). nia. }
  assert (VW : (IZR w * bpow r2 (exp x + exp y + 2 - 2 * PRECISION S) = IZR W * bpow r2 (e - 2 * PRECISION S))%R).
  { unfold W. rewrite mult_IZR, Rmult_assoc, IZR_pow2_bpow by lia. do 2 f_equal. unfold e. lia. }
  rewrite VW in Vxy. clear VW.
  (* the addend *)
  replace (2 * PRECISION S + 1 - 1 - PRECISION S) with (PRECISION S) by lia.
  set (B := sig z * 2 ^ PRECISION S).
  assert (PP : 2 ^ (2 * PRECISION S) = 2 ^ PRECISION S * 2 ^ PRECISION S) by (rewrite <- Z.pow_add_r by lia; f_equal; lia).
  assert (HB : 2 ^ PRECISION S <= B < 2 ^ (2 * PRECISION S)) by (rewrite PP; unfold B; clear - Z1 P1 P2; nia).
  destruct (shift_left_exact [sig z; 0] 0 (PRECISION S)) as [za [Ea [La [Na Va]]]].
  { apply limb_2; [exact (proj1 Wz)|apply limb_0]. }
  { lia. }
  { lia. }
  { change (nbits [sig z; 0]) with 256. cbn [lval]. rewrite Z.mul_0_r, !Z.add_0_r. fold B.
    apply Z.lt_le_trans with (2 ^ (2 * PRECISION S)); [lia|apply Z.pow_le_mono_r; lia]. }
  cbn [lval] in Va. rewrite Z.mul_0_r, !Z.add_0_r in Va. fold B in Va.
  rewrite Ea. cbn [bind]. rewrite chk32_ret by lia. cbn [bind].
  unfold is_negative. cbn [sign].
  exists wide, e, za. split.
  { change (xorb (sign x) (sign y)) with s. destruct (add_or_sub wide e s za (exp z + 1) (sign z)) as [[[[r e'] s'] loss]| |]; reflexivity. }
  split; [exact Lwide|]. split; [exact Nwide|]. split; [exact La|]. split; [exact Na|]. rewrite Vwide, Va. split; [exact HW|]. split; [reflexivity|].
  split; [unfold e; clear - Ix Iy Hbw Hbw0 Hp; lia|]. split; [exact Vxy|].
  rewrite (value_normal S z Cz). f_equal. unfold B. rewrite mult_IZR, Rmult_assoc, IZR_pow2_bpow by lia. do 2 f_equal. lia.
Qed.

Lemma mul_add_zero_addend : forall S x y z m, sem_ok S -> wf S x -> wf S y ->
  category x = Normal -> category y = Normal -> category z = Zero ->
  exists res, mul_add_r S x y z m = Ret res /\
    crate_rounded S m (value S x * value S y + value S z) (fma_zero_sign (xorb (sign x) (sign y)) z m) res.
Proof.
  intros S x y z m HS Wx Wy Cx Cy Cz.
  destruct (p_pow S HS) as [P1 [P2 P3]]. pose proof HS as [Hp Hmin Hmax _].
  rewrite mul_add_tail by (assumption || (right; assumption)). cbv zeta. rewrite negate_if_eq. cbn [sig exp]. unfold is_negative at 1 2. cbn [sign].
  pose proof (wf_normal_canonical S x Wx Cx) as Kx. pose proof (wf_normal_canonical S y Wy Cy) as Ky.
  pose proof (canonical_i32 _ _ _ HS Kx) as Ix. pose proof (canonical_i32 _ _ _ HS Ky) as Iy.
  destruct Kx as [X1 _]. destruct Ky as [Y1 _].
  destruct (widening_mul_spec (sig x) (sig y) (proj1 Wx) (proj1 Wy)) as [lo [hi [Ew [Llo [Lhi Vw]]]]].
  rewrite Ew. cbn [bind].
  assert (Lw : limbs [lo; hi]) by (apply limb_2; assumption).
  rewrite (omsb_spec _ Lw).
  assert (Vl : lval [lo; hi] = sig x * sig y) by (cbn [lval]; lia).
  set (w := sig x * sig y) in *. rewrite Vl.
  assert (0 < w < 2 ^ (2 * PRECISION S)) as Hw.
  { unfold w. replace (2 * PRECISION S) with (PRECISION S + PRECISION S) by lia. rewrite Z.pow_add_r by lia. nia. }
  assert (bitlen w <= 2 * PRECISION S) as Hbw by (apply bitlen_le; lia). pose proof (bitlen_nonneg w) as Hbw0.
  rewrite chk32_ret by lia. cbn [bind]. rewrite chk32_ret by lia. cbn [bind].
  set (s := xorb (sign x) (sign y)) in *.
  assert (Vxy : (value S x * value S y = sgnr s (IZR w * bpow r2 (exp x + exp y + 2 - 2 * PRECISION S)))%R).
  { rewrite !value_normal by assumption. rewrite sgnr_mul. unfold s, w. f_equal.
    replace (exp x + exp y + 2 - 2 * PRECISION S) with ((exp x - (PRECISION S - 1)) + (exp y - (PRECISION S - 1))) by lia.
    rewrite bpow_plus, mult_IZR. ring. }
  unfold is_non_zero, is_zero; rewrite Cz; cbn [category_eqb negb].
    cbn [bind]. rewrite (value_zero S z Cz), Rplus_0_r, Vxy in *. replace (bitlen w) with (Sig.omsb [lo; hi]) by (rewrite (omsb_spec _ Lw), Vl; reflexivity).
    apply fma_tail_spec; try assumption; try reflexivity.
    - lia.
    - apply Rmult_le_pos; [apply IZR_le; lia|apply bpow_ge_0].
    - apply between_exact. rewrite Vl. reflexivity.
    - intro H. contradiction.
Qed.

Lemma mul_add_r_normal : forall S x y z m, sem_ok S -> wf S x -> wf S y -> wf S z ->
  category x = Normal -> category y = Normal -> finite z -> fma_safe S x y z ->
  exists res, mul_add_r S x y z m = Ret res /\
    crate_rounded S m (value S x * value S y + value S z) (fma_zero_sign (xorb (sign x) (sign y)) z m) res.
Proof.
  intros S x y z m HS Wx Wy Wz Cx Cy Fz Hsafe.
  destruct (p_pow S HS) as [P1 [P2 P3]]. pose proof HS as [Hp Hmin Hmax _].
  destruct Fz as [Cz|Cz]; [|apply mul_add_zero_addend; assumption].
  destruct (mul_add_wide S x y z m HS Wx Wy Wz Cx Cy Cz) as [wide [e [za [-> [Lwide [Nwide [La [Na [HW [Va [He0 [Vxy Vz]]]]]]]]]]]].
  set (s := xorb (sign x) (sign y)) in *. set (ae := exp z + 1) in *. set (B := sig z * 2 ^ PRECISION S) in *.
  assert (Vwide : exists W, lval wide = W) by (eexists; reflexivity). destruct Vwide as [W Vwide]. rewrite Vwide in HW, Vxy. rewrite Va in Vz.
  pose proof (wf_normal_canonical S z Wz Cz) as Kz. pose proof (canonical_i32 _ _ _ HS Kz) as Iz. destruct Kz as [Z1 [Z2 [Z3 Z4]]].
  assert (PP : 2 ^ (2 * PRECISION S) = 2 ^ PRECISION S * 2 ^ PRECISION S) by (rewrite <- Z.pow_add_r by lia; f_equal; lia).
  assert (HB : 2 ^ PRECISION S <= B < 2 ^ (2 * PRECISION S)) by (rewrite PP; unfold B; clear - Z1 P1 P2; nia).
  assert (P2p : 2 ^ (2 * PRECISION S) = 2 * 2 ^ (2 * PRECISION S - 1)) by (rewrite <- Z.pow_succ_r by lia; f_equal; lia).
  assert (Hpos : (0 <= IZR W * bpow r2 (e - 2 * PRECISION S))%R) by (apply Rmult_le_pos; [apply IZR_le; lia|apply bpow_ge_0]).
  (* what [fma_safe] means for the integers *)
  assert (Hcase : 2 ^ (PRECISION S - 1) <= sig z \/ ae <= e \/ s = sign z \/
     W + 2 ^ PRECISION S * 2 ^ (ae - e) <= B * 2 ^ (ae - e) \/ W mod 2 ^ (ae - e - 1) = 0).
  { destruct (Z_le_gt_dec (2 ^ (PRECISION S - 1)) (sig z)) as [|Hsub]; [left; assumption|].
    assert (exp z = MIN_EXP S) as Ez by lia.
    destruct (Z_le_gt_dec ae e) as [|Hgt]; [right; left; assumption|].
    destruct Hsafe as [H|[H|[H|[H|[H|[k H]]]]]].
    - right. right. left. exact H.
    - congruence.
    - exfalso. rewrite (value_normal S z Cz), sgnr_abs in H by (apply Rmult_le_pos; [apply IZR_le; lia|apply bpow_ge_0]).
      apply (canonical_full S (sig z) (exp z) HS) in H; [lia|]. split; [exact Z1|]. split; [exact Z2|]. split; [exact Z3|exact Z4].
    - exfalso. rewrite Vxy, sgnr_abs in H by exact Hpos. unfold min_normal in H.
      assert (IZR W * bpow r2 (e - 2 * PRECISION S) < bpow r2 e)%R.
      { replace (bpow r2 e) with (IZR (2 ^ (2 * PRECISION S)) * bpow r2 (e - 2 * PRECISION S))%R by (rewrite IZR_pow2_bpow by lia; f_equal; lia).
        apply bpow_pos_mult_lt. lia. }
      assert (MIN_EXP S < e) by (apply (lt_bpow r2); lra). lia.
    - right. right. right. left. rewrite Vxy, sgnr_abs in H by exact Hpos.
      rewrite Vz, sgnr_abs in H by (apply Rmult_le_pos; [apply IZR_le; lia|apply bpow_ge_0]).
      unfold min_positive in H. apply le_IZR. apply Rmult_le_reg_r with (bpow r2 (e - 2 * PRECISION S)); [apply bpow_gt_0|].
      rewrite plus_IZR, !mult_IZR, Rmult_plus_distr_r.
      rewrite !(Rmult_assoc _ (IZR (2 ^ (ae - e)))), !IZR_pow2_bpow by lia.
      replace (ae - e + (e - 2 * PRECISION S)) with (ae - 2 * PRECISION S) by lia.
      replace (PRECISION S + (ae - 2 * PRECISION S)) with (MIN_EXP S - (PRECISION S - 1)) by (unfold ae; lia). exact H.
    - right. right. right. right. rewrite Vxy in H. apply Znumtheory.Zdivide_mod.
      exists (if s then - k else k). apply eq_IZR. apply Rmult_eq_reg_r with (bpow r2 (e - 2 * PRECISION S)); [|apply Rgt_not_eq, bpow_gt_0].
      rewrite mult_IZR, Rmult_assoc, IZR_pow2_bpow by lia.
      replace (ae - e - 1 + (e - 2 * PRECISION S)) with (MIN_EXP S - 2 * PRECISION S) by (unfold ae; lia).
      destruct s; cbn [sgnr] in H; rewrite ?opp_IZR; lra. }
  assert (Hfb : 2 ^ (PRECISION S - 1) <= sig z -> 2 ^ (2 * PRECISION S - 1) <= B).
  { intro H. unfold B. replace (2 * PRECISION S - 1) with (PRECISION S - 1 + PRECISION S) by lia. rewrite Z.pow_add_r by lia. clear - H P1 P2. nia. }
  destruct (add_or_sub_spec wide e s za ae (sign z) Lwide La) as [r [Er [Lr [Nr Vr]]]].
  { rewrite Na. exact Nwide. }
  { unfold nbits, nlimbs. rewrite Nwide. change (128 * Z.of_nat 2) with 256. rewrite Vwide.
    assert (2 ^ (2 * PRECISION S) <= 2 ^ 252) by (apply Z.pow_le_mono_r; lia). lia. }
  { unfold nbits, nlimbs. rewrite Nwide. change (128 * Z.of_nat 2) with 256. rewrite Va.
    assert (2 ^ (2 * PRECISION S) <= 2 ^ 252) by (apply Z.pow_le_mono_r; lia). lia. }
  { clear - He0. lia. }
  { unfold ae. lia. }
  { rewrite Va, Vwide. intros _ He. right. apply Z.le_lt_trans with B; [|lia]. apply Z.div_le_upper_bound; [apply pow2_gt0; lia|].
    pose proof (pow2_gt0 (e - ae - 1) ltac:(lia)) as D. clear - D HB P1 P2. nia. }
  { rewrite Va, Vwide. intros Hne He. destruct Hcase as [H|[H|[H|[H|H]]]].
    - right. specialize (Hfb H). apply Z.le_lt_trans with W; [|lia]. apply Z.div_le_upper_bound; [apply pow2_gt0; lia|].
      pose proof (pow2_gt0 (ae - e - 1) ltac:(lia)) as D. clear - D HW. nia.
    - lia.
    - contradiction.
    - right. pose proof (pow2_gt0 (ae - e - 1) ltac:(lia)) as D.
      assert (2 ^ (ae - e) = 2 * 2 ^ (ae - e - 1)) as D2 by (rewrite <- Z.pow_succ_r by lia; f_equal; lia).
      apply Z.div_lt_upper_bound; [lia|]. rewrite D2 in H. clear - H D P1 P2. nia.
    - left. exact H. }
  rewrite Vwide, Va in Er, Vr. rewrite Er. cbn [bind]. clear Er.
  assert (He : - 2 ^ 22 <= e <= 2 ^ 22) by exact He0.
  assert (Hae : - 2 ^ 22 <= ae <= 2 ^ 22) by (unfold ae; clear - Iz; lia).
  assert (HP0 : 0 < 2 ^ (2 * PRECISION S - 1)) by (apply pow2_gt0; clear - Hp; lia).
  clearbody B ae. clear Iz Va La Na Vwide Lwide Z1 Z2 Z3 Z4.
  set (m0 := Z.min e ae) in *.
  set (t := sgn s * W * 2 ^ (e - m0) + sgn (sign z) * B * 2 ^ (ae - m0)) in *.
  set (re := if xorb s (sign z) && negb (e =? ae) then Z.max e ae - 1 else Z.max e ae) in *.
  set (d := 2 ^ (re - m0)) in *. rewrite Nwide in Nr.
  assert (m0 <= re) as Hre.
  { unfold re, m0. clear. destruct (Z.eqb_spec e ae); destruct (xorb s (sign z)); cbn [andb negb]; lia. }
  assert (re <= Z.max e ae) as Hre2 by (unfold re; clear; destruct (_ && _); lia).
  assert (m0 <= e /\ m0 <= ae) as [Hm1 Hm2] by (unfold m0; clear; lia).
  assert (0 < d) as Hd by (apply pow2_gt0; clear - Hre; lia).
  set (v := (IZR (Z.abs t) * bpow r2 (m0 - 2 * PRECISION S))%R).
  assert (Hval : (value S x * value S y + value S z = IZR t * bpow r2 (m0 - 2 * PRECISION S))%R).
  { rewrite Vxy, Vz. unfold t. rewrite plus_IZR, !mult_IZR, Rmult_plus_distr_r.
    assert (Hone : forall g s e, m0 <= e -> sgnr g (IZR s * bpow r2 (e - 2 * PRECISION S)) = (IZR (sgn g) * IZR s * IZR (2 ^ (e - m0)) * bpow r2 (m0 - 2 * PRECISION S))%R).
    { intros g s0 e0 Hle. rewrite (Rmult_assoc _ (IZR (2 ^ _))). rewrite IZR_pow2_bpow by (clear - Hle; lia).
      replace (e0 - m0 + (m0 - 2 * PRECISION S)) with (e0 - 2 * PRECISION S) by lia.
      destruct g; cbn [sgn sgnr]; ring. }
    rewrite <- !Hone by assumption. reflexivity. }
  set (s' := if t =? 0 then s else t <? 0).
  assert (Hsv : sgnr s' v = (value S x * value S y + value S z)%R).
  { rewrite Hval. unfold v, s'. rewrite sgnr_mult. f_equal. destruct (Z.eqb_spec t 0) as [->|Ht]; [apply sgnr_0|].
    clear - Ht. destruct (Z.ltb_spec t 0); cbn [sgnr]; [rewrite <- opp_IZR; f_equal; lia|f_equal; lia]. }
  rewrite <- Hsv.
  destruct (fma_tail_spec S (mkFloat (sig x) (exp x) (category x) s) z r re s' (loss_of (Z.abs t mod d) d) m v HS) as [res [R1 R2]].
  { exact Cx. }
  { assumption. }
  { assumption. }
  { clear - He Hae Hre Hre2. lia. }
  { apply Rmult_le_pos; [apply IZR_le; lia|apply bpow_ge_0]. }
  { rewrite Vr. apply between_frac; [assumption|]. unfold v, d. rewrite Rmult_assoc. f_equal.
    rewrite Rmult_comm, IZR_pow2_bpow by lia. f_equal. lia. }
  { rewrite Vr. intro Hl. left. apply Z.le_trans with (2 ^ PRECISION S); [lia|].
    assert (Hbig : 2 ^ (2 * PRECISION S - 1) <= Z.abs t / d -> 2 ^ PRECISION S <= Z.abs t / d).
    { intro H. eapply Z.le_trans; [|exact H]. apply Z.pow_le_mono_r; lia. }
    assert (Hsf : (e < ae -> 2 ^ (PRECISION S - 1) <= sig z) -> 2 ^ PRECISION S <= Z.abs t / d).
    { intro H. apply Hbig. apply (sum_full (2 ^ (2 * PRECISION S - 1)) W B e ae s (sign z)); try lia. exact Hl. }
    destruct (Z_lt_le_dec e ae) as [Hlt|]; [|apply Hsf; lia].
    destruct (Bool.bool_dec s (sign z)) as [H|Hne].
    { (* same signs *)
      assert (m0 = e) as Em by (unfold m0; lia). assert (re = ae) as Ere by (unfold re; rewrite H, xorb_nilpotent; cbn [andb]; lia).
      apply Z.div_le_lower_bound; [assumption|]. unfold t, d. rewrite Ere, Em, Z.sub_diag, H.
      pose proof (pow2_gt0 (ae - e) ltac:(lia)) as D. change (2 ^ 0) with 1.
      clear - D HB HW P1 P2. destruct (sign z); cbn [sgn]; nia. }
    assert (Ex : xorb s (sign z) = true) by (destruct s, (sign z); cbn; congruence).
    destruct Hcase as [H|[H|[H|[H|H]]]]; [apply Hsf; auto|lia|contradiction| |].
    - (* a product well below the addend *)
      assert (m0 = e) as Em by (unfold m0; lia).
      assert (d <= 2 ^ (ae - e)) as Dd by (unfold d; apply Z.pow_le_mono_r; lia).
      apply Z.div_le_lower_bound; [assumption|]. unfold t. rewrite Em, Z.sub_diag. change (2 ^ 0) with 1.
      set (D := 2 ^ (ae - e)) in *. assert (0 <= 2 ^ PRECISION S) by lia. assert (0 < W) by (clear - HP0 HW; lia).
      assert (d * 2 ^ PRECISION S <= 2 ^ PRECISION S * D) by (clear - Dd H0; rewrite Z.mul_comm; apply Z.mul_le_mono_nonneg_l; assumption).
      clearbody D d. clear - H H0 H1 H2. destruct s, (sign z); cbn [sgn]; nia.
    - (* a product that fits *)
      exfalso. apply Hl.
        assert (m0 = e) as Em by (unfold m0; lia).
        assert (re = ae - 1) as Ere by (unfold re; rewrite Ex; cbn [andb]; destruct (Z.eqb_spec e ae); cbn [negb]; lia).
        assert (d = 2 ^ (ae - e - 1)) as Ed by (unfold d; f_equal; lia). rewrite <- Ed in H.
        assert (2 ^ (ae - e) = 2 * d) as D2 by (rewrite Ed, <- Z.pow_succ_r by lia; f_equal; lia).
        assert (Z.abs t mod d = 0) as ->; [|apply loss_of_zero].
        apply Znumtheory.Zdivide_mod. apply Z.divide_abs_r. unfold t. rewrite Em, Z.sub_diag, D2. change (2 ^ 0) with 1.
        apply Z.divide_add_r; [rewrite Z.mul_1_r; apply Z.divide_mul_r; apply Z.mod_divide; [lia|assumption]|].
        exists (sgn (sign z) * B * 2). ring. }
  exists res. split; [exact R1|]. unfold fma_zero_sign in R2 |- *.
  (* the sign of a zero *)
  unfold s' in R2. destruct (Z.eqb_spec t 0) as [Ht|Ht].
  - exact R2.
  - eapply cr_change_zs; [|exact R2]. rewrite Hsv, Hval. apply Rmult_integral_contrapositive_currified; [apply not_0_IZR; assumption|apply Rgt_not_eq, bpow_gt_0].
Qed.

Lemma mul_add_product : forall S x y z m, (is_finite_non_zero x && is_finite_non_zero y)%bool = false ->
  mul_add_r S x y z m = let! '(status, p) := mul_r S x y m in if status =? OK then add_r S p z m else Ret (status, p).
Proof.
  intros S x y z m H. unfold mul_add_r. rewrite H.
  assert (negb (is_finite_non_zero x) || negb (is_finite_non_zero y) || negb (is_finite z) = true)%bool as ->; [|reflexivity].
  destruct (is_finite_non_zero x), (is_finite_non_zero y); cbn in *; try reflexivity. discriminate.
Qed.

Theorem mul_add_r_crate : forall S x y z m, sem_ok S -> wf S x -> wf S y -> wf S z ->
  finite x -> finite y -> finite z -> fma_safe S x y z ->
  exists res, mul_add_r S x y z m = Ret res /\
    crate_rounded S m (value S x * value S y + value S z) (fma_zero_sign (xorb (sign x) (sign y)) z m) res.
Proof.
  intros S x y z m HS Wx Wy Wz Fx Fy Fz Hsafe.
  assert (Hz : category x = Zero \/ category y = Zero -> exists res, mul_add_r S x y z m = Ret res /\
    crate_rounded S m (value S x * value S y + value S z) (fma_zero_sign (xorb (sign x) (sign y)) z m) res).
  { intro H0. rewrite mul_add_product by (rewrite !is_finite_non_zero_spec; destruct H0 as [-> | ->]; cbn; [reflexivity|apply andb_false_r]).
    assert (V0 : (value S x * value S y = 0)%R) by (destruct H0 as [H0|H0]; rewrite (value_zero S _ H0); ring).
    destruct (mul_r_crate S x y m HS Wx Wy Fx Fy) as [[st p] [E C]].
    rewrite E. cbn [bind]. rewrite V0 in *. destruct (cr_zero_category S m _ st p HS C) as [Cp ->]. cbn [Z.eqb OK].
    destruct C as [Wp [[_ [_ Sp]] _]]. specialize (Sp eq_refl).
    rewrite Rplus_0_l in *.
    destruct (add_r_crate S p z m HS Wp Wz (or_intror Cp) Fz) as [res [E2 C2]].
    exists res. split; [exact E2|]. rewrite (value_zero S p Cp), Rplus_0_l in C2.
    destruct Fz as [Cz|Cz].
    - apply cr_change_zs with (2 := C2). intro Z0. pose proof (normal_abs_pos S z Wz Cz) as N. rewrite Z0, Rabs_R0 in N. lra.
    - unfold zero_sum_sign in C2. rewrite Cp, Cz, Sp in C2. unfold fma_zero_sign.
      replace (match m with TowardNegative => true | _ => false end) with (round_eqb m TowardNegative) by (destruct m; reflexivity). exact C2. }
  destruct Fx as [Cx|Cx]; [|auto]. destruct Fy as [Cy|Cy]; [|auto].
  apply mul_add_r_normal; assumption.
Qed.

Theorem mul_add_r_finite : forall S x y z m, sem_ok S -> wf S x -> wf S y -> wf S z ->
  finite x -> finite y -> finite z -> fma_safe S x y z ->
  overflow_side_ok S m (value S x * value S y + value S z) ->
  exists res, mul_add_r S x y z m = Ret res /\
    correctly_rounded S m (value S x * value S y + value S z) (fma_zero_sign (xorb (sign x) (sign y)) z m) res.
Proof.
  intros S x y z m HS Wx Wy Wz Fx Fy Fz Hsafe Hside.
  destruct (mul_add_r_crate S x y z m HS Wx Wy Wz Fx Fy Fz Hsafe) as [res [E C]].
  exists res. split; [exact E|]. apply crate_rounded_correct; assumption.
Qed.

(** ** NaN and infinite operands *)
Lemma mul_r_cases : forall S x y m, sem_ok S -> wf S x -> wf S y -> category x <> NaN -> category y <> NaN ->
  (is_finite_non_zero x && is_finite_non_zero y)%bool = false ->
  exists st p, mul_r S x y m = Ret (st, p) /\
    match category x, category y with
    | Zero, Infinity | Infinity, Zero => st = INVALID_OP /\ default_nan S p
    | Infinity, _ | _, Infinity => st = OK /\ is_special S Infinity (xorb (sign x) (sign y)) p
    | _, _ => st = OK /\ is_special S Zero (xorb (sign x) (sign y)) p
    end.
Proof.
  intros S x y m HS Wx Wy Nx Ny H. rewrite !is_finite_non_zero_spec in H. unfold mul_r. rewrite negate_if_eq. cbn [category].
  unfold is_negative.
  assert (Hi : category x = Infinity \/ category y = Infinity -> infinity_of S = Infinity).
  { intros [E|E]; [exact (wf_inf_ieee S x Wx E)|exact (wf_inf_ieee S y Wy E)]. }
  destruct (category x) eqn:Cx; destruct (category y) eqn:Cy; try contradiction; try discriminate H;
    do 2 eexists; (split; [reflexivity|]); (split; [reflexivity|]); try (apply NAN_default'; assumption);
    rewrite copy_sign_eq; cbn [sign sig exp category ZERO]; try (apply ZERO_special; assumption);
    rewrite <- (Hi ltac:(auto)); apply INFINITY_special; assumption.
Qed.

Theorem mul_add_r_nan : forall S x y z m, sem_ok S -> wf S x -> wf S y ->
  category x = NaN \/ category y = NaN \/ category z = NaN ->
  exists st f, mul_add_r S x y z m = Ret (st, f) /\
    match category x, category y with
    | NaN, _ | _, NaN => st = invalid_if (signaling S x || signaling S y || signaling S z) /\ f = quieted S (first_nan x y)
    | Infinity, Zero | Zero, Infinity => st = INVALID_OP /\ default_nan S f
    | _, _ => st = invalid_if (signaling S z) /\ f = quieted S z
    end.
Proof.
  intros S x y z m HS Wx Wy Hn.
  assert (Hxy : category x = NaN \/ category y = NaN -> exists f, mul_add_r S x y z m =
     Ret (invalid_if (signaling S x || signaling S y || signaling S z), f) /\ f = quieted S (first_nan x y)).
  { intro H. rewrite mul_add_product by (rewrite !is_finite_non_zero_spec; destruct H as [-> | ->]; cbn; [reflexivity|apply andb_false_r]).
    rewrite (mul_r_nan S x y m HS H). cbn [bind].
    destruct (signaling S x || signaling S y) eqn:Es; cbn [invalid_if orb Z.eqb OK INVALID_OP].
    - eexists. split; reflexivity.
    - apply orb_false_iff in Es. destruct Es as [Ex Ey].
      assert (Cn : category (first_nan x y) = NaN) by (unfold first_nan; destruct (category x) eqn:Cx; destruct H; congruence).
      assert (Sn : signaling S (first_nan x y) = false) by (unfold first_nan; destruct (category x); assumption).
      rewrite (quieted_of_quiet S _ HS Cn Sn). rewrite (add_r_nan S _ z m HS (or_introl Cn)).
      rewrite Sn. cbn [orb]. eexists. split; [reflexivity|]. unfold first_nan at 1. rewrite Cn. apply quieted_of_quiet; assumption. }
  assert (Hz : category x <> NaN -> category y <> NaN -> exists st f, mul_add_r S x y z m = Ret (st, f) /\
     match category x, category y with
    | Infinity, Zero | Zero, Infinity => st = INVALID_OP /\ default_nan S f
    | _, _ => st = invalid_if (signaling S z) /\ f = quieted S z
    end).
  { intros Nx Ny. assert (Cz : category z = NaN) by (destruct Hn as [H|[H|H]]; congruence).
    destruct (is_finite_non_zero x && is_finite_non_zero y)%bool eqn:Ef.
    - unfold mul_add_r. rewrite Ef. assert (is_finite z = false) as -> by (unfold is_finite, is_nan; rewrite Cz; reflexivity).
      rewrite orb_true_r. cbn [assertb negb bind Z.eqb OK]. rewrite (add_r_nan S x z m HS (or_intror Cz)).
      apply andb_prop in Ef. rewrite !is_finite_non_zero_spec in Ef. destruct Ef as [Ex Ey].
      assert (signaling S x = false) as -> by (unfold signaling; destruct (category x); try reflexivity; contradiction).
      assert (first_nan x z = z) as -> by (unfold first_nan; destruct (category x); try reflexivity; contradiction).
      do 2 eexists. split; [reflexivity|]. destruct (category x), (category y); try discriminate; split; reflexivity.
    - rewrite mul_add_product by assumption.
      destruct (mul_r_cases S x y m HS Wx Wy Nx Ny Ef) as [st [p [Ep Hp]]]. rewrite Ep. cbn [bind].
      assert (Hok : st = OK -> category p <> NaN -> exists st' f, (if st =? OK then add_r S p z m else Ret (st, p)) = Ret (st', f) /\
        st' = invalid_if (signaling S z) /\ f = quieted S z).
      { intros -> Np. cbn [Z.eqb OK]. rewrite (add_r_nan S p z m HS (or_intror Cz)).
        assert (signaling S p = false) as -> by (unfold signaling; destruct (category p); try reflexivity; contradiction).
        assert (first_nan p z = z) as -> by (unfold first_nan; destruct (category p); try reflexivity; contradiction).
        do 2 eexists. split; [reflexivity|]. split; reflexivity. }
      assert (Hbad : st = INVALID_OP -> default_nan S p -> exists st' f, (if st =? OK then add_r S p z m else Ret (st, p)) = Ret (st', f) /\
        st' = INVALID_OP /\ default_nan S f).
      { intros -> Hd. do 2 eexists. split; [reflexivity|]. split; [reflexivity|exact Hd]. }
      destruct (category x) eqn:Cx; destruct (category y) eqn:Cy; try contradiction; destruct Hp as [E Hp];
        first [apply Hbad; assumption|apply Hok; [exact E|destruct Hp as [_ [Cp _]]; congruence]|idtac]. }
  destruct (category x) eqn:Cx; try (destruct (category y) eqn:Cy); try (apply Hz; discriminate).
  all: destruct Hxy as [f [E F]]; [auto|]; do 2 eexists; split; [exact E|]; split; [reflexivity|exact F].
Qed.

Theorem mul_add_r_infinite : forall S x y z m, sem_ok S -> wf S x -> wf S y -> wf S z ->
  category x <> NaN -> category y <> NaN -> category z <> NaN ->
  category x = Infinity \/ category y = Infinity \/ category z = Infinity ->
  exists st f, mul_add_r S x y z m = Ret (st, f) /\
    let g := xorb (sign x) (sign y) in
    match category x, category y, category z with
    | Infinity, Zero, _ | Zero, Infinity, _ => st = INVALID_OP /\ default_nan S f
    | Infinity, _, Infinity | _, Infinity, Infinity =>
      if Bool.eqb g (sign z) then st = OK /\ is_special S Infinity g f else st = INVALID_OP /\ default_nan S f
    | Infinity, _, _ | _, Infinity, _ => st = OK /\ is_special S Infinity g f
    | _, _, _ => st = OK /\ is_special S Infinity (sign z) f
    end.
Proof.
  intros S x y z m HS Wx Wy Wz Nx Ny Nz Hi.
  destruct (is_finite_non_zero x && is_finite_non_zero y)%bool eqn:Ef.
  - apply andb_prop in Ef as Ef'. rewrite !is_finite_non_zero_spec in Ef'. destruct Ef' as [Ex Ey].
    assert (Cx : category x = Normal) by (destruct (category x); try discriminate; reflexivity).
    assert (Cy : category y = Normal) by (destruct (category y); try discriminate; reflexivity).
    assert (Cz : category z = Infinity) by (destruct Hi as [H|[H|H]]; congruence).
    unfold mul_add_r. rewrite Ef. assert (is_finite z = false) as -> by (unfold is_finite, is_nan, is_infinite; rewrite Cz; reflexivity).
    rewrite orb_true_r. cbn [assertb negb bind Z.eqb OK].
    destruct (add_r_infinite S x z m HS Wx Wz Nx Nz (or_intror Cz)) as [st [f [E H]]]. rewrite Cx in H.
    do 2 eexists. split; [exact E|]. cbv zeta. rewrite Cx, Cy. exact H.
  - rewrite mul_add_product by assumption.
    destruct (mul_r_cases S x y m HS Wx Wy Nx Ny Ef) as [st [p [Ep Hp]]]. rewrite Ep. cbn [bind]. cbv zeta.
    set (g := xorb (sign x) (sign y)) in *.
    assert (Hinf : st = OK -> is_special S Infinity g p -> exists st' f, (if st =? OK then add_r S p z m else Ret (st, p)) = Ret (st', f) /\
      match category z with
      | Infinity => if Bool.eqb g (sign z) then st' = OK /\ is_special S Infinity g f else st' = INVALID_OP /\ default_nan S f
      | _ => st' = OK /\ is_special S Infinity g f
      end).
    { intros -> [Wp [Cp Sp]]. cbn [Z.eqb OK].
      destruct (add_r_infinite S p z m HS Wp Wz ltac:(congruence) Nz (or_introl Cp)) as [st' [f [E H]]].
      do 2 eexists. split; [exact E|]. rewrite Cp, Sp in H. destruct (category z); exact H. }
    assert (Hzero : st = OK -> is_special S Zero g p -> category z = Infinity -> exists st' f, (if st =? OK then add_r S p z m else Ret (st, p)) = Ret (st', f) /\
      st' = OK /\ is_special S Infinity (sign z) f).
    { intros -> [Wp [Cp Sp]] Cz. cbn [Z.eqb OK].
      destruct (add_r_infinite S p z m HS Wp Wz ltac:(congruence) Nz (or_intror Cz)) as [st' [f [E H]]].
      do 2 eexists. split; [exact E|]. rewrite Cp in H. exact H. }
    assert (Hbad : st = INVALID_OP -> default_nan S p -> exists st' f, (if st =? OK then add_r S p z m else Ret (st, p)) = Ret (st', f) /\
      st' = INVALID_OP /\ default_nan S f).
    { intros -> Hd. do 2 eexists. split; [reflexivity|]. split; [reflexivity|exact Hd]. }
    destruct (category x) eqn:Cx; destruct (category y) eqn:Cy; try contradiction; destruct Hp as [E Hp];
      first [apply Hbad; assumption|idtac].
    all: try (destruct (Hinf E Hp) as [st' [f H]]; exists st', f; exact H).
    all: try (assert (Cz : category z = Infinity) by (destruct Hi as [H|[H|H]]; congruence);
      destruct (Hzero E Hp Cz) as [st' [f [H1 H2]]]; exists st', f; split; [exact H1|exact H2]).
Qed.
