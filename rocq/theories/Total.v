(** * Total.v -- every operation returns a canonical value *)
From Coq Require Import ZArith Reals List Bool Lia Lra ZifyBool.
From Flocq Require Import Core.
From Verif Require Import Machine Sig SpecSig Limbs SigProofs SigProofs2 SigProofs3 SigProofs4 SigProofs5 Ieee Spec Norm Arith Special Order Bits Formats Int Scale Next Convert Integral Rem Fma Algebra Laws Orderx.
Import ListNotations.
Local Open Scope Z_scope.
Ltac Zify.zify_post_hook ::= idtac.

(** ** Partial correctness of [add_or_sub] and [normalize], whatever the operands *)
Lemma add_or_sub_limbs : forall a ea sa b eb sb r e s l, limbs a -> limbs b -> length a = length b ->
  - 2 ^ 29 <= ea <= 2 ^ 29 -> - 2 ^ 29 <= eb <= 2 ^ 29 ->
  add_or_sub a ea sa b eb sb = Ret (r, e, s, l) ->
  limbs r /\ length r = length a /\ Z.min ea eb - 1 <= e <= Z.max ea eb + 1.
Proof.
  intros a ea sa b eb sb r e s l La Lb Nab Hea Heb. unfold add_or_sub.
  rewrite chk32_ret by lia. cbn [bind].
  destruct (xorb sa sb).
  - intro H.
    assert (G : exists a1 e1 b1 l1, (if ea - eb =? 0 then Ret (a, ea, b, ExactlyZero)
       else if 0 <? ea - eb then
         let! '(b_sig, _, loss) := shift_right b 0 (ea - eb - 1) in
         let! '(a_sig, a_exp) := shift_left a ea 1 in
         Ret (a_sig, a_exp, b_sig, loss)
       else
         let! nb := chk32 (- (ea - eb)) in
         let! '(a_sig, a_exp, loss) := shift_right a ea (nb - 1) in
         let! '(b_sig, _) := shift_left b 0 1 in
         Ret (a_sig, a_exp, b_sig, loss)) = Ret (a1, e1, b1, l1) /\ limbs a1 /\ limbs b1 /\ length a1 = length a /\ length b1 = length a /\
         Z.min ea eb - 1 <= e1 <= Z.max ea eb + 1).
    { destruct (Z.eqb_spec (ea - eb) 0) as [E|E].
      - do 4 eexists. split; [reflexivity|]. split; [exact La|]. split; [exact Lb|]. split; [reflexivity|]. split; [congruence|lia].
      - destruct (Z.ltb_spec 0 (ea - eb)) as [E1|E1].
        + destruct (shift_right_spec b 0 (ea - eb - 1) Lb ltac:(lia) ltac:(lia)) as [b' [Eb [Lb' [Nb' _]]]]. rewrite Eb. cbn [bind].
          destruct (shift_left_spec a ea 1 La ltac:(lia) ltac:(lia)) as [a' [Ea [La' [Na' _]]]]. rewrite Ea. cbn [bind].
          do 4 eexists. split; [reflexivity|]. split; [exact La'|]. split; [exact Lb'|]. split; [congruence|]. split; [congruence|lia].
        + rewrite chk32_ret by lia. cbn [bind].
          destruct (shift_right_spec a ea (- (ea - eb) - 1) La ltac:(lia) ltac:(lia)) as [a' [Ea [La' [Na' _]]]]. rewrite Ea. cbn [bind].
          destruct (shift_left_spec b 0 1 Lb ltac:(lia) ltac:(lia)) as [b' [Eb [Lb' [Nb' _]]]]. rewrite Eb. cbn [bind].
          do 4 eexists. split; [reflexivity|]. split; [exact La'|]. split; [exact Lb'|]. split; [congruence|]. split; [congruence|lia]. }
    destruct G as [a1 [e1 [b1 [l1 [E [L1 [L2 [N1 [N2 R]]]]]]]]]. rewrite E in H. cbn [bind] in H.
    set (bw := b2z (negb (loss_eqb l1 ExactlyZero))) in H.
    assert (0 <= bw <= 1) as Hbw by (unfold bw; destruct (negb _); cbn; lia).
    rewrite (cmp_spec a1 b1 L1 L2 ltac:(congruence)) in H. cbn [bind] in H.
    destruct (sub_spec b1 a1 bw L2 L1 ltac:(congruence) Hbw) as [d1 [c1 [E1 [D1 [D2 _]]]]].
    destruct (sub_spec a1 b1 bw L1 L2 ltac:(congruence) Hbw) as [d2 [c2 [E2 [D3 [D4 _]]]]].
    destruct (lval a1 ?= lval b1).
    + rewrite E2 in H. cbn [bind] in H. destruct (c2 =? 0); cbn [assertb bind] in H; [|discriminate]. injection H as <- <- _ _.
      split; [exact D3|]. split; [congruence|exact R].
    + rewrite E1 in H. cbn [bind] in H. destruct (c1 =? 0); cbn [assertb bind] in H; [|discriminate].
      destruct (len a1 =? len d1); cbn [assertb bind] in H; [|discriminate]. injection H as <- <- _ _.
      split; [exact D1|]. split; [congruence|exact R].
    + rewrite E2 in H. cbn [bind] in H. destruct (c2 =? 0); cbn [assertb bind] in H; [|discriminate]. injection H as <- <- _ _.
      split; [exact D3|]. split; [congruence|exact R].
  - intro H.
    assert (G : exists a1 e1 b1 l1, (if 0 <? ea - eb then
         let! '(b_sig, _, loss) := shift_right b 0 (ea - eb) in
         Ret (a, ea, b_sig, loss)
       else
         let! nb := chk32 (- (ea - eb)) in
         let! '(a_sig, a_exp, loss) := shift_right a ea nb in
         Ret (a_sig, a_exp, b, loss)) = Ret (a1, e1, b1, l1) /\ limbs a1 /\ limbs b1 /\ length a1 = length a /\ length b1 = length a /\
         Z.min ea eb - 1 <= e1 <= Z.max ea eb + 1).
    { destruct (Z.ltb_spec 0 (ea - eb)) as [E1|E1].
      - destruct (shift_right_spec b 0 (ea - eb) Lb ltac:(lia) ltac:(lia)) as [b' [Eb [Lb' [Nb' _]]]]. rewrite Eb. cbn [bind].
        do 4 eexists. split; [reflexivity|]. split; [exact La|]. split; [exact Lb'|]. split; [congruence|]. split; [congruence|lia].
      - rewrite chk32_ret by lia. cbn [bind].
        destruct (shift_right_spec a ea (- (ea - eb)) La ltac:(lia) ltac:(lia)) as [a' [Ea [La' [Na' _]]]]. rewrite Ea. cbn [bind].
        do 4 eexists. split; [reflexivity|]. split; [exact La'|]. split; [exact Lb|]. split; [congruence|]. split; [congruence|lia]. }
    destruct G as [a1 [e1 [b1 [l1 [E [L1 [L2 [N1 [N2 R]]]]]]]]]. rewrite E in H. cbn [bind] in H.
    destruct (add_spec a1 b1 0 L1 L2 ltac:(congruence) ltac:(lia)) as [d1 [c1 [E1 [D1 [D2 _]]]]].
    rewrite E1 in H. cbn [bind] in H. destruct (c1 =? 0); cbn [assertb bind] in H; [|discriminate]. injection H as <- <- _ _.
    split; [exact D1|]. split; [congruence|exact R].
Qed.

(** some number in the gap that a loss describes *)
Lemma between_exists : forall s e l, 0 <= s -> exists v, (0 <= v)%R /\ between s e v l.
Proof.
  intros s e l Hs.
  set (k := match l with ExactlyZero => 0 | LessThanHalf => 1 | ExactlyHalf => 2 | MoreThanHalf => 3 end).
  assert (Hk : 0 <= k < 4) by (unfold k; destruct l; lia).
  exists (IZR (4 * s + k) * bpow r2 e / 4)%R. split.
  - apply Rmult_le_pos; [|lra]. apply Rmult_le_pos; [apply IZR_le; lia|apply bpow_ge_0].
  - pose proof (between_frac (4 * s + k) 4 e (IZR (4 * s + k) * bpow r2 e / 4) ltac:(lia) ltac:(field)) as B.
    replace ((4 * s + k) / 4) with s in B by (apply Z.div_unique with k; lia).
    replace ((4 * s + k) mod 4) with k in B by (apply Z.mod_unique with s; lia).
    replace (loss_of k 4) with l in B by (unfold k; destruct l; reflexivity). exact B.
Qed.

Lemma wf_overflow_result : forall S m f, sem_ok S -> wf S (snd (overflow_result_signed S m f)).
Proof.
  intros S m f HS. unfold overflow_result_signed, overflow_result.
  pose proof (proj1 (INFINITY_special S (sign f) HS)) as W1.
  pose proof (wf_largest S (sign f) HS) as W2. rewrite (largest_eq S HS).
  destruct m; cbn [snd]; rewrite copy_sign_eq; cbn [sig exp category]; assumption.
Qed.

Theorem normalize_wf_i32 : forall S f m l st r, sem_ok S -> category f = Normal -> limb (sig f) ->
  - 2 ^ 31 <= exp f <= 2 ^ 31 - 1 -> normalize S f m l = Ret (st, r) -> wf S r.
Proof.
  intros S f m l st r HS Cf Lf He E.
  assert (Main : forall g, category g = Normal -> limb (sig g) -> - 2 ^ 31 <= exp g <= 2 ^ 31 - 1 ->
    (l = ExactlyZero \/ exp g <= MIN_EXP S \/ 2 ^ (PRECISION S - 1) <= sig g) ->
    (sig g = 0 -> l <> ExactlyZero -> exp g = MIN_EXP S) -> normalize S g m l = Ret (st, r) -> wf S r).
  { intros g Cg Lg Hg H1 H2 E'. destruct (between_exists (sig g) (exp g - (PRECISION S - 1)) l) as [v [V0 V1]]; [unfold limb in Lg; lia|].
    destruct (normalize_spec_i32 S g m l v HS Cg Lg Hg V0 V1 H1 H2) as [[st' r'] [N1 N2]].
    rewrite E' in N1. injection N1 as <- <-. exact (proj1 N2). }
  pose proof (ok_prec S HS) as Hp. pose proof (ok_min S HS) as Hmin. pose proof (ok_max S HS) as Hmax.
  assert (0 <= sig f < 2 ^ 128) as Hs by exact Lf.
  destruct (loss_eqb l ExactlyZero) eqn:El.
  { apply loss_eqb_exact in El. subst l. apply (Main f); auto. intros _ H. contradiction. }
  assert (Hl : l <> ExactlyZero) by (intros ->; discriminate).
  destruct (Z.eq_dec (sig f) 0) as [E0|E0].
  - (* a zero significand: the exponent does not matter *)
    apply (Main (mkFloat 0 (MIN_EXP S) Normal (sign f))); cbn [category sig exp]; auto; try (unfold limb; lia).
    rewrite <- E. unfold normalize, is_finite_non_zero, is_finite, is_nan, is_infinite, is_zero. rewrite Cf, E0. cbn [category category_eqb negb andb sig].
    change (Sig.omsb [0]) with 0. cbn [Z.ltb Z.compare]. unfold normalize_tail.
    assert (Hh : forall e g, hits_nan_pattern S (mkFloat 0 e Normal g) = false).
    { intros e g. destruct (hits_nan_pattern S (mkFloat 0 e Normal g)) eqn:X; [|reflexivity]. exfalso. revert X.
      unfold hits_nan_pattern. cbn [sig exp]. pose proof (ok_nonfinite S HS) as Hnf. destruct (NONFINITE_BEHAVIOR S) eqn:Nf; cbn [nonfinite_eqb andb]; [discriminate|].
      rewrite Z.land_0_l. unfold NAN, qnan. cbn [sig]. destruct Hnf as [-> [_ [-> _]]]. rewrite Z.lor_0_r.
      destruct (e =? exp _); cbn [andb]; [|discriminate].
      assert (2 ^ 1 < 2 ^ (PRECISION S - 1)) by (apply Z.pow_lt_mono_r; lia).
      intro X. apply Z.eqb_eq in X. rewrite ?Z.lor_0_r in X. lia. }
    assert (Ef : f = mkFloat 0 (exp f) Normal (sign f)) by (destruct f; cbn in *; subst; reflexivity).
    rewrite Ef. cbn [exp sign category sig]. rewrite !Hh, El. rewrite (proj2 (Z.eqb_neq 0 (PRECISION S))) by lia.
    cbn [Z.eqb set_sig_exp sig exp category sign]. rewrite !copy_sign_eq. reflexivity.
  - destruct (Z_le_gt_dec (exp f) (MIN_EXP S)) as [H1|H1]; [apply (Main f); auto; lia|].
    destruct (Z_le_gt_dec (2 ^ (PRECISION S - 1)) (sig f)) as [H2|H2]; [apply (Main f); auto; lia|].
    revert E. unfold normalize, is_finite_non_zero, is_finite, is_nan, is_infinite, is_zero. rewrite Cf. cbn [category_eqb negb andb].
    rewrite omsb_single by assumption.
    assert (bitlen (sig f) <= PRECISION S - 1) as B1 by (apply bitlen_le; lia).
    assert (0 < bitlen (sig f)) as B2 by (rewrite bitlen_pos by lia; pose proof (Z.log2_nonneg (sig f)); lia).
    rewrite (proj2 (Z.ltb_lt 0 (bitlen (sig f))) B2).
    rewrite as_i32_id by lia. set (a := sat32 (exp f + (bitlen (sig f) - PRECISION S))).
    assert (Ha : a = Z.max (- 2 ^ 31) (Z.min (2 ^ 31 - 1) (exp f + (bitlen (sig f) - PRECISION S)))) by reflexivity. clearbody a.
    destruct (Z.ltb_spec (MAX_EXP S) a) as [H3|H3].
    + intro E. replace r with (snd (st, r)) by reflexivity. injection E as E. rewrite <- E. apply wf_overflow_result. exact HS.
    + rewrite (proj2 (Z.ltb_lt _ (exp f))) by (destruct (_ <? MIN_EXP S); lia). rewrite El. discriminate.
Qed.

Theorem normalize_wf : forall S f m l st r, sem_ok S -> category f = Normal -> limb (sig f) ->
  - 2 ^ 30 <= exp f <= 2 ^ 30 -> normalize S f m l = Ret (st, r) -> wf S r.
Proof. intros S f m l st r H1 H2 H3 H4. apply normalize_wf_i32; try assumption. lia. Qed.

Lemma wf_with_sign : forall S x g, wf S x -> wf S (with_sign x g).
Proof. intros S x g W. rewrite with_sign_eq. exact W. Qed.

Lemma fma_tail_wf : forall S x addend wide e s loss o m st r, sem_ok S -> category x = Normal -> limbs wide -> length wide = 2%nat ->
  - 2 ^ 28 <= e <= 2 ^ 28 -> 0 <= o <= 256 ->
  fma_tail S x addend wide e s loss o m = Ret (st, r) -> wf S r.
Proof.
  intros S x addend wide e s loss o m st r HS Cx Lw Nw He Ho. unfold fma_tail.
  pose proof (ok_prec S HS) as Hp. rewrite chk32_ret by lia. cbn [bind]. rewrite with_sign_eq.
  assert (Hsh : exists s0 w1 e2 l2, (if PRECISION S <? o then
         let! '(wide, e, l) := shift_right wide (e - (PRECISION S + 1)) (o - PRECISION S) in
         Ret (wide, e, combine l loss)
       else Ret (wide, e - (PRECISION S + 1), loss)) = Ret (s0 :: w1, e2, l2) /\ limb s0 /\ - 2 ^ 30 <= e2 <= 2 ^ 30).
  { destruct (Z.ltb_spec (PRECISION S) o) as [Hlt|Hge].
    - destruct (shift_right_spec wide (e - (PRECISION S + 1)) (o - PRECISION S) Lw ltac:(lia) ltac:(lia)) as [w [E [Lw' [Nw' Vw]]]].
      rewrite E. cbn [bind]. rewrite Nw in Nw'. destruct (limbs2 w Nw') as [a [b ->]].
      do 4 eexists. split; [reflexivity|]. split; [inversion Lw'; assumption|lia].
    - destruct (limbs2 wide Nw) as [a [b ->]].
      do 4 eexists. split; [reflexivity|]. split; [inversion Lw; assumption|lia]. }
  destruct Hsh as [s0 [w1 [e2 [l2 [-> [Ls He2]]]]]]. cbn [bind].
  change (get (s0 :: w1) 0) with (Ret s0). cbn [bind]. unfold set_sig_exp. cbn [category sign]. rewrite Cx.
  destruct (normalize S (mkFloat s0 e2 Normal s) m l2) as [[st1 f]| |] eqn:N; cbn [bind]; try discriminate.
  assert (W : wf S f) by (eapply normalize_wf; [exact HS| | | |exact N]; [reflexivity|exact Ls|exact He2]).
  destruct (_ && _)%bool; intro E; injection E as _ <-; [apply wf_with_sign|]; exact W.
Qed.

Lemma mul_add_r_normal_wf : forall S x y z m st r, sem_ok S -> wf S x -> wf S y -> wf S z ->
  category x = Normal -> category y = Normal -> finite z -> mul_add_r S x y z m = Ret (st, r) -> wf S r.
Proof.
  intros S x y z m st r HS Wx Wy Wz Cx Cy Fz.
  destruct (p_pow S HS) as [P1 [P2 P3]]. pose proof HS as [Hp Hmin Hmax _].
  rewrite mul_add_tail by assumption. cbv zeta. rewrite negate_if_eq. cbn [sig exp]. unfold is_negative at 1 2. cbn [sign].
  pose proof (wf_normal_canonical S x Wx Cx) as Kx. pose proof (wf_normal_canonical S y Wy Cy) as Ky.
  pose proof (canonical_i32 _ _ _ HS Kx) as Ix. pose proof (canonical_i32 _ _ _ HS Ky) as Iy.
  destruct Kx as [X1 _]. destruct Ky as [Y1 _].
  destruct (widening_mul_spec (sig x) (sig y) (proj1 Wx) (proj1 Wy)) as [lo [hi [Ew [Llo [Lhi Vw]]]]].
  rewrite Ew. cbn [bind].
  assert (Lw : limbs [lo; hi]) by (apply limb_2; assumption).
  assert (Ho : forall w, limbs w -> length w = 2%nat -> 0 <= Sig.omsb w <= 256).
  { intros w L N. rewrite (omsb_spec _ L). pose proof (lval_bound w L) as B. unfold nbits, nlimbs in B. rewrite N in B.
    split; [apply bitlen_nonneg|]. apply bitlen_le; lia. }
  pose proof (Ho _ Lw eq_refl) as Hw.
  assert (Sig.omsb [lo; hi] <= 2 * PRECISION S) as Hw2.
  { rewrite (omsb_spec _ Lw). apply bitlen_le; [|lia|].
    - cbn [lval]. unfold limb in *. lia.
    - replace (lval [lo; hi]) with (sig x * sig y) by (cbn [lval]; lia).
      replace (2 * PRECISION S) with (PRECISION S + PRECISION S) by lia. rewrite Z.pow_add_r by lia. nia. }
  rewrite chk32_ret by lia. cbn [bind]. rewrite chk32_ret by lia. cbn [bind].
  destruct (is_non_zero z) eqn:Nz.
  2:{ cbn [bind]. intro E. eapply fma_tail_wf; [exact HS| | | | | |exact E]; try assumption; try reflexivity; lia. }
  assert (Cz : category z = Normal).
  { destruct Fz as [C|C]; [exact C|]. unfold is_non_zero, is_zero in Nz. rewrite C in Nz. discriminate. }
  pose proof (wf_normal_canonical S z Wz Cz) as Kz. pose proof (canonical_i32 _ _ _ HS Kz) as Iz.
  set (o := Sig.omsb [lo; hi]) in *.
  set (n := 2 * PRECISION S - o).
  assert (Hnorm : exists wide, (if negb (o =? 2 * PRECISION S + 1 - 1) then assertb (o <? 2 * PRECISION S + 1)
       (let! n := usub (2 * PRECISION S + 1 - 1) o in shift_left [lo; hi] (exp x + exp y + 2) n)
     else Ret ([lo; hi], exp x + exp y + 2)) = Ret (wide, exp x + exp y + 2 - n) /\ limbs wide /\ length wide = 2%nat).
  { destruct (Z.eqb_spec o (2 * PRECISION S + 1 - 1)) as [E|E]; cbn [negb].
    - exists [lo; hi]. replace n with 0 by lia. rewrite Z.sub_0_r. split; [reflexivity|]. split; [assumption|reflexivity].
    - destruct (Z.ltb_spec o (2 * PRECISION S + 1)) as [_|H]; [|lia]. cbn [assertb]. rewrite usub_ret by lia. cbn [bind].
      replace (2 * PRECISION S + 1 - 1 - o) with n by lia.
      destruct (shift_left_spec [lo; hi] (exp x + exp y + 2) n Lw ltac:(lia) ltac:(lia)) as [d [Ed [Ld [Nd Vd]]]].
      exists d. split; [exact Ed|]. split; [assumption|exact Nd]. }
  destruct Hnorm as [wide [-> [Lwide Nwide]]]. cbn [bind].
  destruct (shift_left_spec [sig z; 0] 0 (2 * PRECISION S + 1 - 1 - PRECISION S)) as [za [Ea [La [Na Va]]]].
  { apply limb_2; [exact (proj1 Wz)|apply limb_0]. }
  { lia. }
  { lia. }
  rewrite Ea. cbn [bind]. rewrite chk32_ret by lia. cbn [bind].
  destruct (add_or_sub wide _ _ za _ _) as [[[[w2 e2] s2] l2]| |] eqn:EA; cbn [bind]; try discriminate.
  apply add_or_sub_limbs in EA; try assumption; try lia; [|rewrite Na; exact Nwide].
  destruct EA as [Lw2 [Nw2 He2]]. rewrite Nwide in Nw2.
  intro E. eapply fma_tail_wf; [exact HS| | | | | |exact E]; try assumption; try reflexivity; try lia.
  apply Ho; assumption.
Qed.

(** ** Every operation returns, with a canonical result *)
Definition returns (S : Semantics) (o : outcome (Z * Float)) : Prop := exists st r, o = Ret (st, r) /\ wf S r.

Lemma returns_delivers : forall pol S m v zs o, (exists res, o = Ret res /\ delivers pol S m v zs res) -> returns S o.
Proof. intros pol S m v zs o [[st r] [E [W _]]]. exists st, r. split; assumption. Qed.
Lemma is_nan_dec : forall x, category x = NaN \/ category x <> NaN.
Proof. intro x. destruct (category x); (left; reflexivity) || (right; discriminate). Qed.
Lemma wf_first_nan : forall S x y, sem_ok S -> wf S x -> wf S y -> category x = NaN \/ category y = NaN -> wf S (quieted S (first_nan x y)).
Proof.
  intros S x y HS Wx Wy H. apply wf_quieted; [exact HS| |]; unfold first_nan; destruct (category x) eqn:C; try assumption; destruct H; congruence.
Qed.
Ltac solve_special W :=
  repeat match goal with
  | H : context [match ?c with _ => _ end] |- _ => destruct c
  | H : _ /\ _ |- _ => destruct H
  | H : is_special _ _ _ _ |- _ => destruct H
  | H : default_nan _ _ |- _ => destruct H
  end; subst; try contradiction; assumption.

Section Binary.
Variables (S : Semantics) (x y : Float).
Hypotheses (HS : sem_ok S) (Wx : wf S x) (Wy : wf S y).

Theorem add_r_total : forall m, returns S (add_r S x y m).
Proof.
  intro m. destruct (is_nan_dec x) as [Nx|Nx]; [|destruct (is_nan_dec y) as [Ny|Ny]].
  1,2: do 2 eexists; split; [apply add_r_nan; auto|apply wf_first_nan; auto].
  destruct (finite_dec x Nx) as [Fx|Ix]; [destruct (finite_dec y Ny) as [Fy|Iy]|].
  - eapply returns_delivers. apply add_r_spec; assumption.
  - destruct (add_r_infinite S x y m HS Wx Wy Nx Ny (or_intror Iy)) as [st [f [E H]]]. exists st, f. split; [exact E|]. solve_special Wx.
  - destruct (add_r_infinite S x y m HS Wx Wy Nx Ny (or_introl Ix)) as [st [f [E H]]]. exists st, f. split; [exact E|]. solve_special Wx.
Qed.

Theorem sub_r_total : forall m, returns S (sub_r S x y m).
Proof.
  intro m. destruct (is_nan_dec x) as [Nx|Nx]; [|destruct (is_nan_dec y) as [Ny|Ny]].
  1,2: do 2 eexists; split; [apply sub_r_nan; auto|apply wf_first_nan; auto].
  destruct (finite_dec x Nx) as [Fx|Ix]; [destruct (finite_dec y Ny) as [Fy|Iy]|].
  - eapply returns_delivers. apply sub_r_spec; assumption.
  - destruct (sub_r_infinite S x y m HS Wx Wy Nx Ny (or_intror Iy)) as [st [f [E H]]]. exists st, f. split; [exact E|]. solve_special Wx.
  - destruct (sub_r_infinite S x y m HS Wx Wy Nx Ny (or_introl Ix)) as [st [f [E H]]]. exists st, f. split; [exact E|]. solve_special Wx.
Qed.

Theorem mul_r_total : forall m, returns S (mul_r S x y m).
Proof.
  intro m. destruct (is_nan_dec x) as [Nx|Nx]; [|destruct (is_nan_dec y) as [Ny|Ny]].
  1,2: do 2 eexists; split; [apply mul_r_nan; auto|apply wf_first_nan; auto].
  destruct (finite_dec x Nx) as [Fx|Ix]; [destruct (finite_dec y Ny) as [Fy|Iy]|].
  - eapply returns_delivers. apply mul_r_crate; assumption.
  - destruct (mul_r_infinite S x y m HS Wx Wy Nx Ny (or_intror Iy)) as [st [f [E H]]]. exists st, f. split; [exact E|]. solve_special Wx.
  - destruct (mul_r_infinite S x y m HS Wx Wy Nx Ny (or_introl Ix)) as [st [f [E H]]]. exists st, f. split; [exact E|]. solve_special Wx.
Qed.

Theorem div_r_total : forall m, returns S (div_r S x y m).
Proof.
  intro m. destruct (is_nan_dec x) as [Nx|Nx]; [|destruct (is_nan_dec y) as [Ny|Ny]].
  1,2: do 2 eexists; split; [apply div_r_nan; auto|apply wf_first_nan; auto].
  assert (H : (category x = Infinity \/ category y = Infinity \/ category y = Zero) \/ (finite x /\ category y = Normal)).
  { unfold finite. destruct (category x), (category y); tauto. }
  destruct H as [H|[Fx Cy]].
  - destruct (div_r_special S x y m HS Wx Wy Nx Ny H) as [st [f [E H1]]]. exists st, f. split; [exact E|]. cbv zeta in H1. solve_special Wx.
  - eapply returns_delivers. apply div_r_crate; assumption.
Qed.

Theorem c_fmod_total : returns S (c_fmod S x y).
Proof.
  destruct (is_nan_dec x) as [Nx|Nx]; [|destruct (is_nan_dec y) as [Ny|Ny]].
  1,2: do 2 eexists; split; [apply c_fmod_nan; auto|apply wf_first_nan; auto].
  assert (H : (category x = Infinity \/ category y = Infinity \/ category y = Zero \/ category x = Zero) \/ (finite x /\ category y = Normal)).
  { unfold finite. destruct (category x), (category y); tauto. }
  destruct H as [H|[Fx Cy]].
  - destruct (c_fmod_special S x y HS Wx Wy Nx Ny H) as [st [f [E H1]]]. exists st, f. split; [exact E|]. solve_special Wx.
  - destruct (c_fmod_finite S x y HS Wx Wy Fx Cy) as [r [E [W _]]]. exists OK, r. split; assumption.
Qed.

Theorem ieee_rem_total : returns S (ieee_rem S x y).
Proof.
  destruct (is_nan_dec x) as [Nx|Nx]; [|destruct (is_nan_dec y) as [Ny|Ny]].
  1,2: do 2 eexists; split; [apply ieee_rem_nan; auto|apply wf_first_nan; auto].
  assert (H : (category x = Infinity \/ category y = Infinity \/ category y = Zero \/ category x = Zero) \/ (finite x /\ category y = Normal)).
  { unfold finite. destruct (category x), (category y); tauto. }
  destruct H as [H|[Fx Cy]].
  - destruct (ieee_rem_special S x y HS Wx Wy Nx Ny H) as [st [f [E H1]]]. exists st, f. split; [exact E|]. solve_special Wx.
  - destruct (ieee_rem_finite S x y HS Wx Wy Fx Cy) as [r [n [E [W _]]]]. exists OK, r. split; assumption.
Qed.

Theorem next_up_total : returns S (next_up S x).
Proof.
  destruct (ext_of S x) as [a|] eqn:A.
  - destruct (next_up_spec S x a HS Wx A) as [r [E [[W _] _]]]. exists OK, r. split; assumption.
  - apply ext_of_none in A. destruct (next_up_nan S x HS Wx A) as [r [E H]]. do 2 eexists. split; [exact E|].
    destruct (signaling S x); subst r; [apply wf_with_sign; exact (proj1 (NAN_default' S HS))|exact Wx].
Qed.
Theorem next_down_total : returns S (next_down S x).
Proof.
  destruct (ext_of S x) as [a|] eqn:A.
  - destruct (next_down_spec S x a HS Wx A) as [r [E [[W _] _]]]. exists OK, r. split; assumption.
  - apply ext_of_none in A. destruct (next_down_nan S x HS Wx A) as [r [E H]]. do 2 eexists. split; [exact E|].
    destruct (signaling S x); subst r; [apply wf_with_sign; exact (proj1 (NAN_default' S HS))|exact Wx].
Qed.
Theorem round_to_integral_total : forall m, returns S (round_to_integral S x m).
Proof.
  intro m. destruct (is_nan_dec x) as [Nx|Nx]; [|destruct (finite_dec x Nx) as [Fx|Ix]].
  - rewrite (round_to_integral_special S x m HS) by (unfold finite; rewrite Nx; intros [H|H]; discriminate). rewrite Nx.
    do 2 eexists. split; [reflexivity|]. apply wf_quieted; assumption.
  - destruct (round_to_integral_finite S x m HS Wx Fx) as [st [r [E [W _]]]]. exists st, r. split; assumption.
  - rewrite (round_to_integral_special S x m HS) by (unfold finite; rewrite Ix; intros [H|H]; discriminate). rewrite Ix.
    do 2 eexists. split; [reflexivity|exact Wx].
Qed.
Theorem scalbn_r_total : forall n m, exists r, scalbn_r S x n m = Ret r /\ wf S r.
Proof.
  intros n m. destruct (category_eqb (category x) Normal) eqn:C.
  - assert (category x = Normal) as C' by (destruct (category x); reflexivity || discriminate).
    destruct (scalbn_r_crate S x n m HS Wx C') as [st [f [E [W _]]]]. exists f. split; assumption.
  - assert (category x <> Normal) as C' by (intro H; rewrite H in C; discriminate).
    destruct (scalbn_r_special S x n m HS Wx C') as [f [E [W _]]]. exists f. split; assumption.
Qed.
Theorem frexp_r_total : forall m, exists r e, frexp_r S x m = Ret (r, e) /\ wf S r.
Proof.
  intros m. destruct (category_eqb (category x) Normal) eqn:C.
  - assert (category x = Normal) as C' by (destruct (category x); reflexivity || discriminate).
    destruct (frexp_r_normal S x m HS Wx C') as [f [e [E [W _]]]]. exists f, e. split; assumption.
  - assert (category x <> Normal) as C' by (intro H; rewrite H in C; discriminate).
    destruct (frexp_r_special S x m HS Wx C') as [f [e [E [W _]]]]. exists f, e. split; assumption.
Qed.
Theorem get_exact_inverse_total : exists o, get_exact_inverse S x = Ret o /\ forall r, o = Some r -> wf S r.
Proof.
  destruct (get_exact_inverse_spec S x HS Wx) as [o [E H]]. exists o. split; [exact E|]. intros r ->. tauto.
Qed.
Theorem ilogb_total : exists e, ilogb S x = Ret e.
Proof.
  destruct (ilogb_special S x) as [A [B C]]. destruct (category x) eqn:D; eauto.
  destruct (ilogb_normal S x HS Wx D) as [e [E _]]. eauto.
Qed.
Theorem min_max_total :
  (exists r, min x y = Ret r /\ wf S r) /\ (exists r, max x y = Ret r /\ wf S r) /\
  (exists r, minimum x y = Ret r /\ wf S r) /\ (exists r, maximum x y = Ret r /\ wf S r).
Proof.
  assert (G : forall r, r = x \/ r = y -> wf S r) by (intros r [-> | ->]; assumption).
  destruct (min_spec S x y HS Wx Wy) as [r1 [E1 [H1 _]]]. destruct (max_spec S x y HS Wx Wy) as [r2 [E2 [H2 _]]].
  destruct (minimum_spec S x y HS Wx Wy) as [r3 [E3 [H3 _]]]. destruct (maximum_spec S x y HS Wx Wy) as [r4 [E4 [H4 _]]].
  split; [exists r1; auto|]. split; [exists r2; auto|]. split; [exists r3; auto|exists r4; auto].
Qed.
End Binary.

Theorem convert_r_total : forall S T x m, sem_ok S -> sem_ok T -> wf S x ->
  exists st r lost, convert_r S T x m = Ret (st, r, lost) /\ wf T r.
Proof.
  intros S T x m HS HT Wx. destruct (is_nan_dec x) as [Nx|Nx]; [|destruct (finite_dec x Nx) as [Fx|Ix]].
  - destruct (convert_r_nan S T x m HS HT Wx Nx) as [r [lost [E [[W _] _]]]]. eauto 10.
  - destruct (convert_r_crate S T x m HS HT Wx Fx) as [st [r [lost [E [[W _] _]]]]]. eauto 10.
  - destruct (convert_r_infinite S T x m HT Ix) as [r [E [W _]]]. eauto 10.
Qed.

Theorem mul_add_r_wf : forall S x y z m st r, sem_ok S -> wf S x -> wf S y -> wf S z ->
  mul_add_r S x y z m = Ret (st, r) -> wf S r.
Proof.
  intros S x y z m st r HS Wx Wy Wz E.
  destruct (is_finite_non_zero x && is_finite_non_zero y)%bool eqn:Ef.
  - apply andb_prop in Ef as Ef'. rewrite !is_finite_non_zero_spec in Ef'. destruct Ef' as [Ex Ey].
    assert (Cx : category x = Normal) by (destruct (category x); try discriminate; reflexivity).
    assert (Cy : category y = Normal) by (destruct (category y); try discriminate; reflexivity).
    destruct (is_finite z) eqn:Fz.
    + apply (mul_add_r_normal_wf S x y z m st r); try assumption.
      unfold is_finite, is_nan, is_infinite in Fz. unfold finite. destruct (category z); cbn in Fz; try discriminate; tauto.
    + revert E. unfold mul_add_r. rewrite Ef, Fz. rewrite orb_true_r. cbn [assertb negb bind Z.eqb OK]. intro E.
      destruct (add_r_total S x z HS Wx Wz m) as [st' [r' [E' W]]]. congruence.
  - rewrite mul_add_product in E by assumption.
    destruct (mul_r_total S x y HS Wx Wy m) as [st1 [p [E1 W1]]]. rewrite E1 in E. cbn [bind] in E.
    destruct (st1 =? OK); [|congruence].
    destruct (add_r_total S p z HS W1 Wz m) as [st' [r' [E' W]]]. congruence.
Qed.

Theorem mul_add_r_total : forall S x y z m, sem_ok S -> wf S x -> wf S y -> wf S z ->
  (finite x -> finite y -> finite z -> fma_safe S x y z) -> returns S (mul_add_r S x y z m).
Proof.
  intros S x y z m HS Wx Wy Wz Hsafe.
  assert (G : exists st r, mul_add_r S x y z m = Ret (st, r)).
  { destruct (is_nan_dec x) as [Nx|Nx]; [destruct (mul_add_r_nan S x y z m HS Wx Wy (or_introl Nx)) as [st [f [E _]]]; eauto|].
    destruct (is_nan_dec y) as [Ny|Ny]; [destruct (mul_add_r_nan S x y z m HS Wx Wy (or_intror (or_introl Ny))) as [st [f [E _]]]; eauto|].
    destruct (is_nan_dec z) as [Nz|Nz]; [destruct (mul_add_r_nan S x y z m HS Wx Wy (or_intror (or_intror Nz))) as [st [f [E _]]]; eauto|].
    destruct (finite_dec x Nx) as [Fx|Ix]; [destruct (finite_dec y Ny) as [Fy|Iy]; [destruct (finite_dec z Nz) as [Fz|Iz]|]|].
    - destruct (mul_add_r_crate S x y z m HS Wx Wy Wz Fx Fy Fz (Hsafe Fx Fy Fz)) as [[st r] [E _]]. eauto.
    - destruct (mul_add_r_infinite S x y z m HS Wx Wy Wz Nx Ny Nz) as [st [f [E _]]]; eauto.
    - destruct (mul_add_r_infinite S x y z m HS Wx Wy Wz Nx Ny Nz) as [st [f [E _]]]; eauto.
    - destruct (mul_add_r_infinite S x y z m HS Wx Wy Wz Nx Ny Nz) as [st [f [E _]]]; eauto. }
  destruct G as [st [r E]]. exists st, r. split; [exact E|]. eapply mul_add_r_wf; [exact HS| | | |exact E]; assumption.
Qed.
