(** * Next.v -- next_up and next_down *)
From Coq Require Import ZArith Reals List Bool Lia Lra ZifyBool.
From Flocq Require Import Core.
From Verif Require Import Machine Sig SpecSig Limbs SigProofs SigProofs2 SigProofs3 SigProofs4 SigProofs5 Ieee Spec Norm Arith Special Order Int Scale.
Import ListNotations.
Local Open Scope Z_scope.

Ltac Zify.zify_post_hook ::= idtac.

(** the gap above a canonical number *)
Lemma gap_above : forall S s e y, sem_ok S -> canonical_normal S s e -> generic_format r2 (fexp S) y ->
  (IZR s * bpow r2 (e - (PRECISION S - 1)) < y)%R -> (IZR (s + 1) * bpow r2 (e - (PRECISION S - 1)) <= y)%R.
Proof.
  intros S s e y HS K Fy Hlt. pose proof (fexp_valid S HS) as VF. pose proof (canonical_full S s e HS K) as _.
  set (u := (IZR s * bpow r2 (e - (PRECISION S - 1)))%R) in *.
  assert (0 < u)%R as Hu by (apply Rmult_lt_0_compat; [apply IZR_lt; destruct K; lia|apply bpow_gt_0]).
  pose proof (format_canonical S s e false HS K) as Fu. cbn [sgnr] in Fu. fold u in Fu.
  pose proof (succ_le_lt r2 (fexp S) u y Fu Fy Hlt) as H. rewrite succ_eq_pos in H by lra. rewrite ulp_neq_0 in H by lra.
  assert (cexp r2 (fexp S) u = e - (PRECISION S - 1)) as Hc.
  { destruct K as [K1 [K2 [K3 _]]]. apply (cexp_between S s e u ExactlyZero HS Hu); [lia|lia|assumption|].
    rewrite between_exact. reflexivity. }
  rewrite Hc in H. rewrite plus_IZR. unfold u in H. lra.
Qed.

Lemma gap_above_zero : forall S y, sem_ok S -> generic_format r2 (fexp S) y -> (0 < y)%R -> (min_positive S <= y)%R.
Proof.
  intros S y HS Fy Hy. pose proof (fexp_valid S HS) as VF.
  pose proof (succ_le_lt r2 (fexp S) 0 y (generic_format_0 _ _) Fy Hy) as H. rewrite succ_0 in H.
  unfold fexp in H. rewrite ulp_FLT_0 in H; [exact H|red; destruct HS; lia].
Qed.

Lemma representable_opp : forall S y, representable S y -> representable S (- y).
Proof. intros S y [A B]. split; [apply generic_format_opp; assumption|rewrite Rabs_Ropp; assumption]. Qed.

Lemma land_mask : forall s p, 0 < p -> 2 ^ (p - 1) <= s < 2 ^ p -> Z.land s (2 ^ (p - 1) - 1) = s - 2 ^ (p - 1).
Proof.
  intros s p Hp Hs. rewrite land_ones_mod by lia.
  assert (2 ^ p = 2 * 2 ^ (p - 1)) by (rewrite <- Z.pow_succ_r by lia; f_equal; lia).
  symmetry. apply Z.mod_unique with 1; lia.
Qed.

Lemma smallest_neg_next : forall S x, sem_ok S -> wf S x -> category x = Normal ->
  is_smallest S x = false -> ~ (sig x = 1 /\ exp x = MIN_EXP S).
Proof.
  intros S x HS Hx Cx H [H1 H2]. assert (is_smallest S x = true); [|congruence].
  apply is_smallest_spec; try assumption. split; [assumption|].
  rewrite value_normal, sgnr_abs by (try assumption; apply Rlt_le, value_pos; assumption).
  rewrite H1, H2. unfold min_positive. ring.
Qed.

Lemma largest_next : forall S x, sem_ok S -> wf S x -> category x = Normal ->
  is_largest S x = false -> ~ (sig x = max_sig S /\ exp x = MAX_EXP S).
Proof.
  intros S x HS Hx Cx H [H1 H2]. assert (is_largest S x = true); [|congruence].
  apply is_largest_spec; try assumption. split; [assumption|].
  rewrite value_normal, sgnr_abs by (try assumption; apply Rlt_le, value_pos; assumption).
  rewrite H1, H2. reflexivity.
Qed.

Lemma ext_of_finite : forall S x, finite x -> ext_of S x = Some (Fin (value S x)).
Proof. intros S x [H|H]; unfold ext_of; rewrite H; reflexivity. Qed.

(** one step up in magnitude *)
Lemma step_up : forall S x s e, sem_ok S -> wf S x -> category x = Normal -> sign x = false -> canonical_normal S s e ->
  (IZR s * bpow r2 (e - (PRECISION S - 1)) = IZR (sig x + 1) * bpow r2 (exp x - (PRECISION S - 1)))%R ->
  least_above S (Fin (value S x)) (mkFloat s e Normal false).
Proof.
  intros S x s e HS Hx Cx Gx K E. pose proof (wf_normal_canonical S x Hx Cx) as Kx.
  assert (wf S (mkFloat s e Normal false)) as W.
  { pose proof HS as [Hp Hmin Hmax _]. destruct (p_pow S HS) as [P1 [P2 P3]].
    pose proof K as [K1 [K2 _]]. assert (2 ^ PRECISION S < 2 ^ 128) by (apply Z.pow_lt_mono_r; lia).
    split; [cbn [sig]; unfold limb; lia|]. split; [cbn [exp]; unfold i32; lia|]. exact K. }
  split; [exact W|].
  rewrite (value_normal S x Cx), Gx. cbn [sgnr].
  assert (value S (mkFloat s e Normal false) = IZR (sig x + 1) * bpow r2 (exp x - (PRECISION S - 1)))%R as V.
  { rewrite value_normal by reflexivity. cbn [sign sig exp sgnr]. exact E. }
  rewrite V. split.
  - intros _. split; [left; reflexivity|]. split.
    + cbn [ext_lt]. apply bpow_pos_mult_lt. lia.
    + intros y [Fy _] Hy. cbn [ext_lt] in Hy. apply (gap_above S _ _ y HS Kx Fy Hy).
  - intro Hno. exfalso. apply Hno. exists (value S (mkFloat s e Normal false)).
    split; [apply finite_representable; [assumption|exact W|left; reflexivity]|]. rewrite V. cbn [ext_lt]. apply bpow_pos_mult_lt. lia.
Qed.

(** one step down in magnitude *)
Lemma step_down : forall S x s e, sem_ok S -> wf S x -> category x = Normal -> sign x = true -> canonical_normal S s e ->
  (IZR (s + 1) * bpow r2 (e - (PRECISION S - 1)) = IZR (sig x) * bpow r2 (exp x - (PRECISION S - 1)))%R ->
  least_above S (Fin (value S x)) (mkFloat s e Normal true).
Proof.
  intros S x s e HS Hx Cx Gx K E.
  assert (wf S (mkFloat s e Normal true)) as W.
  { pose proof HS as [Hp Hmin Hmax _]. destruct (p_pow S HS) as [P1 [P2 P3]].
    pose proof K as [K1 [K2 _]]. assert (2 ^ PRECISION S < 2 ^ 128) by (apply Z.pow_lt_mono_r; lia).
    split; [cbn [sig]; unfold limb; lia|]. split; [cbn [exp]; unfold i32; lia|]. exact K. }
  split; [exact W|].
  rewrite (value_normal S x Cx), Gx. cbn [sgnr]. rewrite <- E.
  assert (value S (mkFloat s e Normal true) = - (IZR s * bpow r2 (e - (PRECISION S - 1))))%R as V by (rewrite value_normal by reflexivity; reflexivity).
  rewrite V.
  assert (IZR s * bpow r2 (e - (PRECISION S - 1)) < IZR (s + 1) * bpow r2 (e - (PRECISION S - 1)))%R as Hlt by (apply bpow_pos_mult_lt; lia).
  split.
  - intros _. split; [left; reflexivity|]. split.
    + cbn [ext_lt]. lra.
    + intros y [Fy _] Hy. cbn [ext_lt] in Hy. destruct (Rle_lt_dec (- (IZR s * bpow r2 (e - (PRECISION S - 1)))) y) as [|Hlt2]; [assumption|exfalso].
      pose proof (gap_above S s e (- y) HS K (generic_format_opp _ _ _ Fy) ltac:(lra)). lra.
  - intro Hno. exfalso. apply Hno. exists (value S (mkFloat s e Normal true)).
    split; [apply finite_representable; [assumption|exact W|left; reflexivity]|]. rewrite V. cbn [ext_lt]. lra.
Qed.

Theorem next_up_spec : forall S x a, sem_ok S -> wf S x -> ext_of S x = Some a ->
  exists r, next_up S x = Ret (OK, r) /\ least_above S a r /\ (finite r -> value S r = 0%R -> sign r = true).
Proof.
  intros S x a HS Hx Ha. unfold next_up. pose proof HS as [Hp Hmin Hmax _]. destruct (p_pow S HS) as [P1 [P2 P3]].
  assert (2 ^ PRECISION S < 2 ^ 128) as P4 by (apply Z.pow_lt_mono_r; lia).
  assert (Hfn : forall r, wf S r -> category r = Normal -> (value S r <> 0)%R).
  { intros r Wr Cr H. rewrite value_normal in H by assumption. pose proof (value_pos S r Wr Cr). destruct (sign r); cbn [sgnr] in H; lra. }
  assert (wf S (largest S)) as Wl by (rewrite largest_eq by assumption; apply wf_largest; assumption).
  destruct (category x) eqn:Cx.
  - (* infinities *)
    unfold is_negative. unfold ext_of in Ha. rewrite Cx in Ha. destruct (sign x) eqn:Gx; injection Ha as <-.
    + eexists. split; [reflexivity|]. rewrite largest_eq by assumption.
      assert (value S (neg (mkFloat (max_sig S) (MAX_EXP S) Normal false)) = - max_finite S)%R as V by (rewrite value_neg; reflexivity).
      pose proof (max_finite_pos S HS). split.
      * split; [apply wf_neg, wf_largest; assumption|]. rewrite V. split.
        -- intros _. split; [left; reflexivity|]. split; [exact I|]. intros y [_ Hy] _. apply Rabs_le_inv in Hy. lra.
        -- intro Hno. exfalso. apply Hno. exists (- max_finite S)%R. split; [|exact I].
           rewrite <- V. apply finite_representable; [assumption|apply wf_neg, wf_largest; assumption|left; reflexivity].
      * intros _ H0. rewrite V in H0. lra.
    + eexists. split; [reflexivity|]. split; [|intros [H|H]; congruence].
      split; [assumption|]. split; [intros [y [_ H]]; destruct H|]. intros _. split; [|assumption]. rewrite Cx. symmetry. apply (wf_inf_ieee S x Hx Cx).
  - unfold ext_of in Ha. rewrite Cx in Ha. discriminate.
  - (* numbers *)
    rewrite (ext_of_finite S x (or_introl Cx)) in Ha. injection Ha as <-.
    pose proof (wf_normal_canonical S x Hx Cx) as Kx. pose proof Kx as [K1 [K2 [K3 K4]]].
    unfold is_negative.
    destruct (is_smallest S x && sign x) eqn:Es.
    { apply andb_true_iff in Es. destruct Es as [Es Gx]. apply is_smallest_spec in Es; try assumption. destruct Es as [_ Es].
      assert (value S x = - min_positive S)%R as Vx.
      { rewrite value_normal in * by assumption. rewrite sgnr_abs in Es by (apply Rlt_le, value_pos; assumption). rewrite Gx, Es. reflexivity. }
      assert (0 < min_positive S)%R as Hmp by apply bpow_gt_0.
      eexists. split; [reflexivity|].
      assert (wf S (neg (ZERO S))) as Wz by (apply wf_neg; exact (wf_zero S false HS)).
      assert (value S (neg (ZERO S)) = 0%R) as Vz by reflexivity. split; [|reflexivity].
      split; [exact Wz|]. rewrite Vz, Vx. split.
      - intros _. split; [right; reflexivity|]. split; [cbn; lra|]. intros y [Fy _] Hy. cbn [ext_lt] in Hy.
        destruct (Rle_lt_dec 0 y) as [|Hlt]; [assumption|exfalso].
        pose proof (gap_above_zero S (- y) HS (generic_format_opp _ _ _ Fy) ltac:(lra)). lra.
      - intro Hno. exfalso. apply Hno. exists 0%R. split; [|cbn; lra]. split; [apply generic_format_0|]. rewrite Rabs_R0. apply Rlt_le, max_finite_pos. assumption. }
    destruct (is_largest S x && negb (sign x)) eqn:El.
    { apply andb_true_iff in El. destruct El as [El Gx]. apply negb_true_iff in Gx. apply is_largest_spec in El; try assumption. destruct El as [_ El].
      assert (value S x = max_finite S)%R as Vx.
      { rewrite value_normal in * by assumption. rewrite sgnr_abs in El by (apply Rlt_le, value_pos; assumption). rewrite Gx. exact El. }
      eexists. split; [reflexivity|]. destruct (INFINITY_facts S false HS) as [Wi _].
      assert (wf S (INFINITY S)) as Wi2 by (unfold INFINITY in *; destruct (NONFINITE_BEHAVIOR S); exact Wi).
      assert (category (INFINITY S) = infinity_of S /\ sign (INFINITY S) = false) as [Ci Si].
      { unfold INFINITY, infinity_of. destruct (NONFINITE_BEHAVIOR S); split; reflexivity. }
      split; [|intros [H|H]; rewrite Ci in H; unfold infinity_of in H; destruct (NONFINITE_BEHAVIOR S); discriminate].
      split; [exact Wi2|]. split; [|auto]. intros [y [[_ Hy] Hlt]]. exfalso. rewrite Vx in Hlt. cbn [ext_lt] in Hlt.
      apply Rabs_le_inv in Hy. lra. }
    destruct (sign x) eqn:Gx.
    + rewrite andb_true_r in Es. pose proof (smallest_neg_next S x HS Hx Cx Es) as Hns.
      pose proof (decrement_spec [sig x] (limb_1 _ (proj1 Hx))) as D.
      destruct (decrement [sig x]) as [l b] eqn:Ed. destruct D as [D1 [D2 [D3 D4]]].
      rewrite lval_single in D4. change (nbits [sig x]) with 128 in D4.
      destruct (limbs1 l ltac:(assumption)) as [d0 ->]. rewrite lval_single in D4.
      assert (limb d0) as Hl0 by (inversion D1; assumption). unfold limb in Hl0.
      assert (d0 = sig x - 1) as -> by lia.
      destruct (negb (exp x =? MIN_EXP S) && (Z.land (sig x) (2 ^ (PRECISION S - 1) - 1) =? 0)) eqn:Ec.
      * apply andb_true_iff in Ec. destruct Ec as [Ec1 Ec2]. apply negb_true_iff, Z.eqb_neq in Ec1. apply Z.eqb_eq in Ec2.
        rewrite land_mask in Ec2 by lia. assert (sig x = 2 ^ (PRECISION S - 1)) as Hs by lia.
        destruct (set_bit_spec [sig x - 1] (PRECISION S - 1)) as [d [B1 [B2 [B3 B4]]]]; [apply limb_1; unfold limb; lia|change (nbits [sig x - 1]) with 128; lia|].
        rewrite B1. cbn [bind]. destruct (limbs1 d B3) as [q ->]. rewrite !lval_single in B4.
        assert (q = 2 ^ PRECISION S - 1) as ->.
        { rewrite B4, Hs, Z.lor_comm. replace (2 ^ (PRECISION S - 1)) with (1 * 2 ^ (PRECISION S - 1)) at 1 by lia.
          symmetry. rewrite <- (Z.lxor_lor), <- Z.add_nocarry_lxor.
          - lia.
          - apply Z.bits_inj'. intros i Hi. rewrite Z.land_spec, Z.bits_0. rewrite Z.mul_1_l, Z.pow2_bits_eqb by lia.
            destruct (Z.eqb_spec (PRECISION S - 1) i) as [<-|]; [|reflexivity]. cbn [andb].
            replace (2 ^ (PRECISION S - 1) - 1) with (Z.ones (PRECISION S - 1)) by (rewrite Z.ones_equiv; lia). apply Z.ones_spec_high. lia.
          - apply Z.bits_inj'. intros i Hi. rewrite Z.land_spec, Z.bits_0. rewrite Z.mul_1_l, Z.pow2_bits_eqb by lia.
            destruct (Z.eqb_spec (PRECISION S - 1) i) as [<-|]; [|reflexivity]. cbn [andb].
            replace (2 ^ (PRECISION S - 1) - 1) with (Z.ones (PRECISION S - 1)) by (rewrite Z.ones_equiv; lia). apply Z.ones_spec_high. lia. }
        change (get [2 ^ PRECISION S - 1] 0) with (Ret (2 ^ PRECISION S - 1)). cbn [bind]. rewrite chk32_ret by lia. cbn [bind].
        unfold set_sig_exp. rewrite Cx, Gx. eexists. split; [reflexivity|].
        assert (canonical_normal S (2 ^ PRECISION S - 1) (exp x - 1)) as K by (split; [lia|]; split; [lia|]; split; [lia|]; intros; lia).
        split; [apply (step_down S x _ _ HS Hx Cx Gx K)|].
        -- rewrite Hs. replace (2 ^ PRECISION S - 1 + 1) with (2 ^ PRECISION S) by lia. rewrite !IZR_pow2_bpow by lia. f_equal. lia.
        -- reflexivity.
      * change (get [sig x - 1] 0) with (Ret (sig x - 1)). cbn [bind]. unfold set_sig_exp. rewrite Cx, Gx.
        eexists. split; [reflexivity|].
        assert (canonical_normal S (sig x - 1) (exp x)) as K.
        { apply andb_false_iff in Ec. split; [|split; [lia|split; [|intros; lia]]].
          - destruct (Z.eq_dec (sig x) 1) as [E1|]; [|lia]. exfalso. apply Hns. split; [assumption|]. destruct K3; [assumption|lia].
          - destruct (Z.eqb_spec (exp x) (MIN_EXP S)) as [E1|E1]; [left; assumption|]. right.
            destruct Ec as [Ec|Ec]; [discriminate|]. rewrite land_mask in Ec by lia. apply Z.eqb_neq in Ec. lia. }
        split; [apply (step_down S x _ _ HS Hx Cx Gx K)|].
        -- f_equal. f_equal. lia.
        -- reflexivity.
    + cbn [negb] in El. rewrite andb_true_r in El. pose proof (largest_next S x HS Hx Cx El) as Hnl.
      destruct (is_denormal_spec S x HS Hx) as [d [-> Hd]]. cbn [bind].
      assert (Hden : d = true <-> sig x < 2 ^ (PRECISION S - 1)).
      { rewrite Hd. pose proof (canonical_full S _ _ HS Kx) as Hf.
        rewrite value_normal, sgnr_abs by (try assumption; apply Rlt_le, value_pos; assumption). split.
        - intros [_ H]. destruct (Z_lt_le_dec (sig x) (2 ^ (PRECISION S - 1))) as [|H2]; [assumption|]. apply Hf in H2. lra.
        - intro H. split; [assumption|]. destruct (Rlt_le_dec (IZR (sig x) * bpow r2 (exp x - (PRECISION S - 1))) (min_normal S)) as [|H2]; [assumption|]. apply Hf in H2. lia. }
      assert (Hnz : forall s e, wf S (mkFloat s e Normal false) -> finite (mkFloat s e Normal false) -> value S (mkFloat s e Normal false) = 0%R -> false = true).
      { intros s e W _ H. exfalso. exact (Hfn _ W eq_refl H). }
      pose proof (max_sig_bounds S HS) as Hmsb.
      destruct (negb d && (Z.land (sig x) (2 ^ (PRECISION S - 1) - 1) =? 2 ^ (PRECISION S - 1) - 1)) eqn:Ec.
      * apply andb_true_iff in Ec. destruct Ec as [Ec1 Ec2]. apply negb_true_iff in Ec1. apply Z.eqb_eq in Ec2.
        assert (2 ^ (PRECISION S - 1) <= sig x) as Hfull.
        { destruct (Z_lt_le_dec (sig x) (2 ^ (PRECISION S - 1))) as [H|]; [|assumption]. apply Hden in H. congruence. }
        rewrite land_mask in Ec2 by lia. assert (sig x = 2 ^ PRECISION S - 1) as Hs by lia.
        destruct (set_bit_spec [0] (PRECISION S - 1)) as [q [B1 [B2 [B3 B4]]]]; [apply limb_1; unfold limb; lia|change (nbits [0]) with 128; lia|].
        rewrite B1. cbn [bind]. destruct (limbs1 q B3) as [q0 ->]. rewrite !lval_single, Z.lor_0_l in B4. subst q0.
        change (get [2 ^ (PRECISION S - 1)] 0) with (Ret (2 ^ (PRECISION S - 1))). cbn [bind].
        assert (exp x <> MAX_EXP S) as Hne.
        { intro E. destruct (NONFINITE_BEHAVIOR S) eqn:Enf; [|apply (K4 eq_refl E Hs)].
          apply Hnl. split; [|assumption]. rewrite Hs. unfold max_sig. rewrite Enf. reflexivity. }
        destruct (Z.eqb_spec (exp x) (MAX_EXP S)); [contradiction|]. cbn [negb assertb]. rewrite chk32_ret by lia. cbn [bind].
        unfold set_sig_exp. rewrite Cx, Gx. eexists. split; [reflexivity|].
        assert (canonical_normal S (2 ^ (PRECISION S - 1)) (exp x + 1)) as K by (split; [lia|]; split; [lia|]; split; [lia|]; intros; lia).
        assert (least_above S (Fin (value S x)) (mkFloat (2 ^ (PRECISION S - 1)) (exp x + 1) Normal false)) as L.
        { apply (step_up S x _ _ HS Hx Cx Gx K). rewrite Hs. replace (2 ^ PRECISION S - 1 + 1) with (2 ^ PRECISION S) by lia.
          rewrite !IZR_pow2_bpow by lia. f_equal. lia. }
        split; [exact L|]. apply Hnz. exact (proj1 L).
      * pose proof (increment_spec [sig x] (limb_1 _ (proj1 Hx))) as D.
        destruct (increment [sig x]) as [l b] eqn:Ed. destruct D as [D1 [D2 [D3 D4]]].
        rewrite lval_single in D4. change (nbits [sig x]) with 128 in D4.
        destruct (limbs1 l ltac:(assumption)) as [d0 ->]. rewrite lval_single in D4.
        assert (limb d0) as Hl0 by (inversion D1; assumption). unfold limb in Hl0.
        assert (d0 = sig x + 1) as -> by lia.
        change (get [sig x + 1] 0) with (Ret (sig x + 1)). cbn [bind]. unfold set_sig_exp. rewrite Cx, Gx.
        eexists. split; [reflexivity|].
        assert (sig x <> 2 ^ PRECISION S - 1) as Hns.
        { intro E. apply andb_false_iff in Ec. destruct Ec as [Ec|Ec].
          - apply negb_false_iff in Ec. apply Hden in Ec. lia.
          - rewrite land_mask in Ec by lia. apply Z.eqb_neq in Ec. lia. }
        assert (canonical_normal S (sig x + 1) (exp x)) as K.
        { split; [lia|]. split; [lia|]. split; [lia|]. intros Enf Em E. apply Hnl. split; [|assumption]. unfold max_sig. rewrite Enf. lia. }
        assert (least_above S (Fin (value S x)) (mkFloat (sig x + 1) (exp x) Normal false)) as L.
        { apply (step_up S x _ _ HS Hx Cx Gx K). reflexivity. }
        split; [exact L|]. apply Hnz. exact (proj1 L).
  - (* zero *)
    rewrite (ext_of_finite S x (or_intror Cx)), value_zero in Ha by assumption. injection Ha as <-.
    eexists. split; [reflexivity|]. unfold SMALLEST.
    assert (value S (mkFloat 1 (MIN_EXP S) Normal false) = min_positive S) as V by (rewrite value_normal by reflexivity; cbn [sign sig exp sgnr]; unfold min_positive; ring).
    assert (0 < min_positive S)%R as Hmp by apply bpow_gt_0.
    split; [|intros _ H; rewrite V in H; lra].
    split; [apply wf_smallest; assumption|]. rewrite V. split.
    + intros _. split; [left; reflexivity|]. split; [exact Hmp|]. intros y [Fy _] Hy. apply gap_above_zero; assumption.
    + intro Hno. exfalso. apply Hno. exists (min_positive S). split; [|exact Hmp]. rewrite <- V.
      apply finite_representable; [assumption|apply wf_smallest; assumption|left; reflexivity].
Qed.

Theorem next_up_nan : forall S x, sem_ok S -> wf S x -> category x = NaN ->
  exists r, next_up S x = Ret (invalid_if (signaling S x), r) /\
    (if signaling S x then r = with_sign (NAN S) (sign x) else r = x).
Proof.
  intros S x HS Hx Cx. unfold next_up. rewrite Cx. rewrite (is_signaling_spec S x HS).
  destruct (signaling S x); eexists; (split; [reflexivity|]); [|reflexivity].
  unfold copy_sign. reflexivity.
Qed.

Lemma ext_of_neg : forall S x a, ext_of S x = Some a ->
  ext_of S (neg x) = Some (match a with Fin v => Fin (- v) | PosInf => NegInf | NegInf => PosInf end).
Proof.
  intros S x a H. unfold ext_of in *. rewrite value_neg. change (category (neg x)) with (category x).
  change (sign (neg x)) with (negb (sign x)). destruct (category x); try discriminate; injection H as <-; try reflexivity.
  destruct (sign x); reflexivity.
Qed.

Lemma least_above_neg : forall S a r, sem_ok S -> least_above S (match a with Fin v => Fin (- v) | PosInf => NegInf | NegInf => PosInf end) r ->
  greatest_below S a (neg r).
Proof.
  intros S a r HS [W [H1 H2]].
  assert (Hswap : forall y, ext_lt (Fin y) a <-> ext_lt (match a with Fin v => Fin (- v) | PosInf => NegInf | NegInf => PosInf end) (Fin (- y))).
  { intro y. destruct a; cbn [ext_lt]; try tauto. split; intro; lra. }
  assert (Hex : (exists y, representable S y /\ ext_lt (Fin y) a) <->
     (exists y, representable S y /\ ext_lt (match a with Fin v => Fin (- v) | PosInf => NegInf | NegInf => PosInf end) (Fin y))).
  { split; intros [y [R L]]; exists (- y)%R; (split; [apply representable_opp; assumption|]).
    - apply Hswap. assumption.
    - apply Hswap. rewrite Ropp_involutive. assumption. }
  split; [apply wf_neg; assumption|]. split.
  - intro E. apply Hex in E. destruct (H1 E) as [F [L M]]. split; [apply finite_neg; assumption|]. split.
    + apply Hswap. rewrite value_neg, Ropp_involutive. assumption.
    + intros y R Ly. rewrite value_neg. apply Hswap in Ly. pose proof (M (- y)%R (representable_opp S y R) Ly). lra.
  - intro E. destruct H2 as [C G]; [intro E2; apply E, Hex, E2|]. split; [exact C|]. change (sign (neg r)) with (negb (sign r)). rewrite G. reflexivity.
Qed.

Theorem next_down_spec : forall S x a, sem_ok S -> wf S x -> ext_of S x = Some a ->
  exists r, next_down S x = Ret (OK, r) /\ greatest_below S a r /\ (finite r -> value S r = 0%R -> sign r = false).
Proof.
  intros S x a HS Hx Ha. destruct (next_up_spec S (neg x) _ HS (wf_neg S x Hx) (ext_of_neg S x a Ha)) as [r [E [L Z0]]].
  unfold next_down. rewrite E. cbn [bind]. eexists. split; [reflexivity|]. split; [apply least_above_neg; assumption|].
  intros F V. rewrite value_neg in V. change (sign (neg r)) with (negb (sign r)). rewrite Z0; [reflexivity| |lra].
  destruct F as [F|F]; unfold neg in F; cbn in F; [left|right]; assumption.
Qed.

Theorem next_down_nan : forall S x, sem_ok S -> wf S x -> category x = NaN ->
  exists r, next_down S x = Ret (invalid_if (signaling S x), r) /\
    (if signaling S x then r = with_sign (NAN S) (sign x) else r = x).
Proof.
  intros S x HS Hx Cx. destruct (next_up_nan S (neg x) HS (wf_neg S x Hx) Cx) as [r [E H]].
  unfold next_down. rewrite E. cbn [bind].
  change (signaling S (neg x)) with (signaling S x) in *. eexists. split; [reflexivity|].
  destruct (signaling S x); subst r.
  - change (sign (neg x)) with (negb (sign x)). unfold with_sign, negate_if, NAN, qnan, is_negative, neg. destruct (sign x); reflexivity.
  - unfold neg, with_sign, is_negative. cbn [sign category exp sig]. rewrite negb_involutive. destruct x; reflexivity.
Qed.

(** stepping up and back down returns to the same number *)
Theorem next_down_next_up : forall S x, sem_ok S -> wf S x -> finite x ->
  exists r, next_up S x = Ret (OK, r) /\
    (finite r -> exists r', next_down S r = Ret (OK, r') /\ finite r' /\ value S r' = value S x).
Proof.
  intros S x HS Hx Fx. destruct (next_up_spec S x _ HS Hx (ext_of_finite S x Fx)) as [r [E [[W [L1 L2]] _]]].
  exists r. split; [exact E|]. intro Fr.
  destruct (next_down_spec S r _ HS W (ext_of_finite S r Fr)) as [r' [E' [[W' [G1 _]] _]]].
  exists r'. split; [exact E'|].
  assert (exists y, representable S y /\ ext_lt (Fin (value S x)) (Fin y)) as Ex.
  { destruct (Rle_lt_dec (max_finite S) (value S x)) as [H|H].
    - exfalso. destruct L2 as [C _]; [|destruct Fr as [Fr|Fr]; rewrite C in Fr; unfold infinity_of in Fr; destruct (NONFINITE_BEHAVIOR S); discriminate].
      intros [y [[_ Ry] Hy]]. cbn in Hy. apply Rabs_le_inv in Ry. lra.
    - exists (max_finite S). split; [|exact H].
      replace (max_finite S) with (value S (mkFloat (max_sig S) (MAX_EXP S) Normal false)) by reflexivity.
      apply finite_representable; [assumption|apply wf_largest; assumption|left; reflexivity]. }
  destruct (L1 Ex) as [_ [Lt Lmin]]. cbn [ext_lt] in *.
  pose proof (finite_representable S x HS Hx Fx) as Rx.
  destruct G1 as [F' [Lt' Gmax]]; [exists (value S x); split; assumption|]. split; [assumption|].
  pose proof (Gmax _ Rx Lt) as H1.
  destruct (Rle_lt_or_eq_dec _ _ H1) as [H2|H2]; [exfalso|auto].
  pose proof (Lmin _ (finite_representable S r' HS W' F') H2). lra.
Qed.

(** ** get_exact_inverse *)

Lemma pow2_divisor : forall n s t k, 0 <= n -> 0 <= k -> 2 ^ n <= s < 2 ^ (n + 1) -> s * t = 2 ^ k -> s = 2 ^ n.
Proof.
  intros n s t k Hn. revert s k. pattern n. apply natlike_ind; [|clear n Hn|exact Hn].
  - intros s k _ H _. change (2 ^ (0 + 1)) with 2 in H. change (2 ^ 0) with 1 in *. lia.
  - intros n Hn IH s k Hk Hs E. rewrite !Z.pow_add_r, Z.pow_succ_r in Hs by lia. rewrite Z.pow_succ_r by lia. change (2 ^ 1) with 2 in Hs.
    assert (0 < 2 ^ n) by (apply Z.pow_pos_nonneg; lia). assert (0 < 2 ^ k) by (apply Z.pow_pos_nonneg; lia).
    destruct (Z.Even_or_Odd s) as [[s' ->]|[s' ->]].
    + assert (k <> 0) by (intro; subst k; change (2 ^ 0) with 1 in E; lia).
      rewrite (IH s' (k - 1)); [reflexivity|lia| |].
      * rewrite Z.pow_add_r by lia. change (2 ^ 1) with 2. lia.
      * replace k with (1 + (k - 1)) in E by lia. rewrite Z.pow_add_r in E by lia. change (2 ^ 1) with 2 in E. lia.
    + exfalso. assert (Znumtheory.rel_prime (2 * s' + 1) (2 ^ k)) as Hr.
      { apply Zpow_facts.rel_prime_Zpower_r; [assumption|]. apply Znumtheory.bezout_rel_prime.
        apply Znumtheory.Bezout_intro with 1 (- s'). lia. }
      assert (2 * s' + 1 | 1) as Hd.
      { apply Znumtheory.Gauss with (2 ^ k); [|assumption]. exists t. lia. }
      apply Z.divide_1_r_nonneg in Hd; lia.
Qed.

Lemma normal_fraction : forall S x, sem_ok S -> wf S x -> category x = Normal -> (min_normal S <= Rabs (value S x))%R ->
  2 ^ (PRECISION S - 1) <= sig x < 2 ^ PRECISION S /\ Rabs (value S x) = (IZR (sig x) * bpow r2 (exp x - (PRECISION S - 1)))%R.
Proof.
  intros S x HS Hx Cx Hm. pose proof (wf_normal_canonical S x Hx Cx) as K.
  rewrite value_normal, sgnr_abs in * by (try assumption; apply Rlt_le, value_pos; assumption).
  apply (canonical_full S _ _ HS K) in Hm. split; [destruct K; lia|reflexivity].
Qed.

(** get_exact_inverse returns the reciprocal exactly when both the number and
    its reciprocal are normal numbers of the format *)
Theorem get_exact_inverse_spec : forall S x, sem_ok S -> wf S x ->
  exists o, get_exact_inverse S x = Ret o /\
    match o with
    | Some y => finite x /\ wf S y /\ category y = Normal /\ (min_normal S <= Rabs (value S x))%R /\
                (min_normal S <= Rabs (value S y))%R /\ (value S x * value S y = 1)%R /\ sign y = sign x
    | None => ~ (finite x /\ (min_normal S <= Rabs (value S x))%R /\
                 exists y, representable S y /\ (min_normal S <= Rabs y)%R /\ (value S x * y = 1)%R)
    end.
Proof.
  intros S x HS Hx. unfold get_exact_inverse. pose proof HS as [Hp Hmin Hmax _]. destruct (p_pow S HS) as [P1 [P2 P3]].
  rewrite is_finite_non_zero_spec. assert (0 < min_normal S)%R as Hmn by apply bpow_gt_0.
  destruct (category_eqb (category x) Normal) eqn:Cx0; cbn [negb].
  2:{ eexists. split; [reflexivity|]. intros [[Cx|Cx] [Hm _]]; [rewrite Cx in Cx0; discriminate|].
      rewrite (value_zero S x Cx), Rabs_R0 in Hm. lra. }
  assert (category x = Normal) as Cx by (destruct (category x); try discriminate; reflexivity). clear Cx0.
  pose proof (wf_normal_canonical S x Hx Cx) as Kx. pose proof Kx as [K1 [K2 _]].
  destruct (Z.eqb_spec (sig x) (2 ^ (PRECISION S - 1))) as [Es|Es]; cbn [negb].
  2:{ eexists. split; [reflexivity|]. intros [_ [Hm [y [[Fy _] [Hy E]]]]].
      destruct (normal_fraction S x HS Hx Cx Hm) as [Hs Hv].
      unfold generic_format, F2R in Fy. set (t := Ztrunc (scaled_mantissa r2 (fexp S) y)) in *. set (ey := cexp r2 (fexp S) y) in *. cbn [Fnum Fexp] in Fy.
      assert (IZR (sig x * Z.abs t) * bpow r2 (exp x - (PRECISION S - 1) + ey) = 1)%R as Hst.
      { assert (Rabs y = IZR (Z.abs t) * bpow r2 ey)%R as Ey by (rewrite Fy at 1; rewrite Rabs_mult, <- abs_IZR, (Rabs_pos_eq (bpow r2 ey)) by apply bpow_ge_0; reflexivity).
        rewrite mult_IZR, bpow_plus. replace 1%R with (Rabs (value S x * y)) by (rewrite E; apply Rabs_R1). rewrite Rabs_mult, Hv, Ey. ring. }
      set (j := exp x - (PRECISION S - 1) + ey) in *.
      assert (IZR (sig x * Z.abs t) = bpow r2 (- j)) as Hst2.
      { rewrite bpow_opp. pose proof (bpow_gt_0 r2 j). field_simplify_eq; [lra|lra]. }
      assert (0 <= - j) as Hj.
      { destruct (Z_lt_le_dec (- j) 0) as [Hlt|]; [exfalso|assumption].
        assert (bpow r2 (- j) < 1)%R by (apply (bpow_lt r2 (- j) 0); assumption). pose proof (bpow_gt_0 r2 (- j)).
        rewrite <- Hst2 in *. assert (0 < sig x * Z.abs t < 1) by (split; apply lt_IZR; assumption). lia. }
      rewrite <- IZR_pow2 in Hst2 by assumption. apply eq_IZR in Hst2. apply Es.
      apply (pow2_divisor (PRECISION S - 1) (sig x) (Z.abs t) (- j)); try lia; try assumption.
      replace (PRECISION S - 1 + 1) with (PRECISION S) by lia. assumption. }
  unfold from_u128. destruct (from_u128_r_spec S 1 NearestTiesToEven HS ltac:(lia)) as [[st1 one] [-> C1]]. cbn [bind].
  assert (value S (mkFloat (2 ^ (PRECISION S - 1)) 0 Normal false) = 1%R) as Vone.
  { rewrite value_normal by reflexivity. cbn [sign sig exp sgnr]. rewrite IZR_pow2_bpow by lia. replace (PRECISION S - 1 + (0 - (PRECISION S - 1))) with 0 by lia. reflexivity. }
  assert (representable S 1) as R1.
  { rewrite <- Vone. apply finite_representable; [assumption| |left; reflexivity].
    assert (2 ^ PRECISION S < 2 ^ 128) by (apply Z.pow_lt_mono_r; lia).
    split; [cbn [sig]; unfold limb; lia|]. split; [cbn [exp]; unfold i32; lia|]. cbn [category sig exp]. split; [lia|]. split; [lia|]. split; [right; lia|]. intros _ E. lia. }
  destruct (cr_representable S _ _ _ _ _ HS R1 C1) as [_ [F1 V1]]. destruct C1 as [W1 [[S1 [S1' _]] _]].
  assert (sign one = false) as G1 by (apply S1'; lra).
  assert (overflow_side_ok S NearestTiesToEven (value S one / value S x)) as Hside by (intros _ _ [|]; discriminate).
  destruct (div_r_finite S one x NearestTiesToEven HS W1 Hx F1 Cx Hside) as [[st y] [-> C]]. cbn [bind]. rewrite V1 in C.
  assert (value S x <> 0)%R as Hx0.
  { rewrite value_normal by assumption. pose proof (value_pos S x Hx Cx). destruct (sign x); cbn [sgnr]; lra. }
  assert (Rabs (value S x) = bpow r2 (exp x)) as Ax.
  { rewrite value_normal, sgnr_abs by (try assumption; apply Rlt_le, value_pos; assumption). rewrite Es, IZR_pow2_bpow by lia. f_equal. lia. }
  assert (min_normal S <= Rabs (value S x))%R as Hmx by (rewrite Ax; apply bpow_le; lia).
  assert (Hcompl : forall z, representable S z -> (min_normal S <= Rabs z)%R -> (value S x * z = 1)%R -> st = OK /\ finite y /\ value S y = z).
  { intros z Rz _ E. assert (z = 1 / value S x)%R as -> by (field_simplify_eq; lra). apply (cr_representable S _ _ _ _ _ HS Rz C). }
  destruct (Z.eqb_spec st OK) as [->|Hst]; cbn [negb].
  2:{ eexists. split; [reflexivity|]. intros [_ [_ [z [Rz [Hz E]]]]]. destruct (Hcompl z Rz Hz E). contradiction. }
  destruct C as [Wy [Sy [C1 C2]]].
  destruct (Rle_lt_dec (Rabs (rounded S NearestTiesToEven (1 / value S x))) (max_finite S)) as [Hle|Hgt].
  2:{ exfalso. pose proof (C2 Hgt) as Cx2. cbn [to_infinity] in Cx2. destruct Cx2 as [Cx2 _]. discriminate. }
  destruct (C1 Hle) as [Fy [Vy [_ [C3 C4]]]].
  assert (value S y = 1 / value S x)%R as Vy2.
  { rewrite Vy. destruct (Req_dec (rounded S NearestTiesToEven (1 / value S x)) (1 / value S x)) as [|Hne]; [assumption|exfalso].
    destruct (Rle_lt_dec (min_normal S) (Rabs (rounded S NearestTiesToEven (1 / value S x)))) as [H|H]; [discriminate (C3 Hne H)|discriminate (C4 Hne H)]. }
  assert (value S x * value S y = 1)%R as Hxy by (rewrite Vy2; field; assumption).
  destruct (is_denormal_spec S y HS Wy) as [d [-> Hd]]. cbn [bind].
  destruct d.
  { eexists. split; [reflexivity|]. intros [_ [_ [z [Rz [Hz E]]]]]. destruct (Hcompl z Rz Hz E) as [_ [_ Ez]].
    destruct (proj1 Hd eq_refl) as [_ Hlt]. rewrite Ez in Hlt. lra. }
  assert (category y = Normal) as Cy.
  { destruct Fy as [|Cy]; [assumption|exfalso]. rewrite (value_zero S y Cy) in Hxy. lra. }
  assert (min_normal S <= Rabs (value S y))%R as Hmy.
  { destruct (Rle_lt_dec (min_normal S) (Rabs (value S y))) as [|H]; [assumption|exfalso]. discriminate (proj2 Hd (conj Cy H)). }
  assert (Rabs (value S y) = bpow r2 (- exp x)) as Ay.
  { rewrite bpow_opp, <- Ax, Vy2. unfold Rdiv. rewrite Rabs_mult, Rabs_R1, Rabs_inv. ring. }
  assert (sig y = 2 ^ (PRECISION S - 1)) as Sgy.
  { destruct (normal_fraction S y HS Wy Cy Hmy) as [Hs Hv]. pose proof (normal_binade S y HS Wy Cy Hmy) as B.
    assert (exp y = - exp x) as Ee.
    { apply (binade_unique _ _ _ B). rewrite Ay. split; [lra|apply bpow_lt; lia]. }
    rewrite Ay, <- Ee in Hv. apply eq_IZR. rewrite IZR_pow2 by lia.
    replace (exp y) with (PRECISION S - 1 + (exp y - (PRECISION S - 1))) in Hv at 1 by lia. rewrite bpow_plus in Hv.
    apply Rmult_eq_reg_r with (bpow r2 (exp y - (PRECISION S - 1))); [symmetry; exact Hv|]. pose proof (bpow_gt_0 r2 (exp y - (PRECISION S - 1))). lra. }
  rewrite is_finite_non_zero_spec, Cy. cbn [category_eqb assertb]. rewrite Sgy, Z.eqb_refl. cbn [assertb].
  eexists. split; [reflexivity|]. split; [left; assumption|]. split; [assumption|]. split; [assumption|]. split; [assumption|]. split; [assumption|]. split; [assumption|].
  destruct Sy as [Sy1 [Sy2 _]].
  assert (0 < value S x * value S y)%R as Hpos by lra.
  destruct (sign x) eqn:Gx.
  - apply Sy1. rewrite <- Vy2. rewrite value_normal in Hpos by assumption. rewrite Gx in Hpos. cbn [sgnr] in Hpos.
    pose proof (value_pos S x Hx Cx). nra.
  - apply Sy2. rewrite <- Vy2. rewrite value_normal in Hpos by assumption. rewrite Gx in Hpos. cbn [sgnr] in Hpos.
    pose proof (value_pos S x Hx Cx). nra.
Qed.
