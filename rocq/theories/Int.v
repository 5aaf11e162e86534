(** * Int.v -- integer conversions *)
From Coq Require Import ZArith Reals List Bool Lia Lra ZifyBool.
From Flocq Require Import Core.
From Flocq Require Import Calc.Bracket Calc.Round.
From Verif Require Import Machine Sig SpecSig Limbs SigProofs SigProofs2 SigProofs3 SigProofs4 SigProofs5 Ieee Spec Norm Arith Special Order.
Import ListNotations.
Local Open Scope Z_scope.

Ltac Zify.zify_post_hook ::= idtac.

(** ** Negation and rounding *)
Lemma rnd_of_opp : forall m x, rnd_of m (- x) = - rnd_of (round_neg m) x.
Proof.
  intros m x. destruct m; cbn [rnd_of round_neg].
  - rewrite Znearest_opp. f_equal. apply Znearest_imp_choice || idtac.
    unfold Znearest. destruct (Rcompare (x - IZR (Zfloor x)) (/ 2)); try reflexivity.
    rewrite Z.even_opp, Z.even_add. destruct (Z.even (Zfloor x)); reflexivity.
  - unfold Zceil. rewrite Ropp_involutive. reflexivity.
  - unfold Zceil. rewrite Z.opp_involutive. reflexivity.
  - apply Ztrunc_opp.
  - rewrite Znearest_opp. f_equal.
    unfold Znearest. destruct (Rcompare (x - IZR (Zfloor x)) (/ 2)) eqn:E; try reflexivity.
    replace (0 <=? - (Zfloor x + 1)) with (negb (0 <=? Zfloor x)) by (destruct (Z.leb_spec 0 (Zfloor x)), (Z.leb_spec 0 (- (Zfloor x + 1))); cbn [negb]; lia).
    destruct (0 <=? Zfloor x); reflexivity.
Qed.

Lemma rounded_opp : forall S m x, rounded S m (- x) = (- rounded S (round_neg m) x)%R.
Proof.
  intros S m x. unfold rounded, round, F2R, scaled_mantissa. cbn [Fnum Fexp].
  rewrite cexp_opp. replace (- x * bpow r2 (- cexp r2 (fexp S) x))%R with (- (x * bpow r2 (- cexp r2 (fexp S) x)))%R by ring.
  rewrite rnd_of_opp, opp_IZR. ring.
Qed.

Lemma to_infinity_neg : forall m g, to_infinity (round_neg m) (negb g) = to_infinity m g.
Proof. intros m g. destruct m, g; reflexivity. Qed.

Lemma cr_neg : forall S m x zs st f, correctly_rounded S (round_neg m) x zs (st, f) ->
  correctly_rounded S m (- x) (negb zs) (st, neg f).
Proof.
  intros S m x zs st f [H1 [H2 [H3 H4]]]. split; [apply wf_neg; assumption|].
  split.
  { destruct H2 as [A [B C]]. unfold has_sign, neg. cbn [sign]. unfold is_negative. repeat split; intro.
    - rewrite B by lra. reflexivity.
    - rewrite A by lra. reflexivity.
    - rewrite C by lra. reflexivity. }
  rewrite rounded_opp, Rabs_Ropp, value_neg. split.
  - intro H. destruct (H3 H) as [A [B [C [D E]]]]. split; [apply finite_neg; assumption|]. rewrite B. split; [reflexivity|].
    split; [intro; apply C; lra|]. split; [intro; apply D; lra|intro; apply E; lra].
  - intro H. specialize (H4 H). unfold neg at 1. cbn [sign]. unfold is_negative. rewrite <- to_infinity_neg, negb_involutive.
    rewrite Rabs_Ropp. exact H4.
Qed.

(** ** Integer to float *)
Theorem from_u128_r_spec : forall S n m, sem_ok S -> 0 <= n < 2 ^ 128 ->
  exists res, from_u128_r S n m = Ret res /\ correctly_rounded S m (IZR n) false res.
Proof.
  intros S n m HS Hn. unfold from_u128_r. pose proof HS as [Hp _ _ _].
  apply (normalize_correct S (mkFloat n (PRECISION S - 1) Normal false) m ExactlyZero (IZR n)); cbn [sig exp category sign]; try assumption.
  - reflexivity.
  - lia.
  - apply IZR_le. lia.
  - rewrite between_exact, Z.sub_diag. cbn [bpow]. ring.
  - left. reflexivity.
  - intros _ H. contradiction.
  - intros _ H. cbn [sgnr] in H. assert (0 <= IZR n)%R by (apply IZR_le; lia). lra.
Qed.

Theorem from_i128_r_spec : forall S n m, sem_ok S -> - 2 ^ 127 <= n < 2 ^ 127 ->
  exists res, from_i128_r S n m = Ret res /\ correctly_rounded S m (IZR n) false res.
Proof.
  intros S n m HS Hn. unfold from_i128_r. destruct (Z.ltb_spec n 0) as [H|H].
  - unfold wrap128, LIMB_MOD. rewrite Z.mod_small by lia.
    destruct (from_u128_r_spec S (- n) (round_neg m) HS ltac:(lia)) as [[st f] [E C]]. rewrite E. cbn [bind].
    eexists. split; [reflexivity|]. apply cr_neg in C. rewrite opp_IZR, Ropp_involutive in C.
    eapply cr_change_zs; [|exact C]. apply IZR_neq. lia.
  - apply from_u128_r_spec; [assumption|lia].
Qed.

Lemma IZR_pow2 : forall k, 0 <= k -> IZR (2 ^ k) = bpow r2 k.
Proof. intros k Hk. exact (IZR_Zpower r2 k Hk). Qed.

(** ** Float to integer *)
Lemma int_between : forall m s v mm l, (0 < v)%R -> between mm 0 v l ->
  rnd_of m (sgnr s v) = signed s (cond_incr (goes_away m s l (negb (Z.even mm))) mm).
Proof.
  intros m s v mm l Hv Hb.
  assert (Hx : inbetween_int mm (Rabs (sgnr s v)) (loc_of l)).
  { rewrite sgnr_abs by lra. unfold between, inbetween_float, F2R in Hb. cbn [Fnum Fexp bpow] in Hb. rewrite !Rmult_1_r in Hb. exact Hb. }
  assert (Hc : forall z, cond_Zopp s z = signed s z) by (destruct s; reflexivity).
  destruct m; cbn [rnd_of].
  - rewrite (inbetween_int_NE_sign _ _ _ Hx). rewrite sgnr_lt0, Hc by assumption. destruct l; reflexivity.
  - rewrite (inbetween_int_UP_sign _ _ _ Hx). rewrite sgnr_lt0, Hc by assumption. destruct l; reflexivity.
  - rewrite (inbetween_int_DN_sign _ _ _ Hx). rewrite sgnr_lt0, Hc by assumption. destruct l; reflexivity.
  - rewrite (inbetween_int_ZR_sign _ _ _ Hx). rewrite sgnr_lt0, Hc by assumption. reflexivity.
  - rewrite (inbetween_int_NA_sign _ _ _ Hx). rewrite sgnr_lt0, Hc by assumption. destruct l; reflexivity.
Qed.

Lemma round_away_spec_at : forall x m l bit, category x = Normal -> limb (sig x) -> l <> ExactlyZero -> 0 <= bit ->
  (l = ExactlyHalf -> bit < 128) ->
  round_away_from_zero x m l bit = Ret (goes_away m (sign x) l (negb (Z.even (sig x / 2 ^ bit)))).
Proof.
  intros x m l bit Hc Hs Hl Hb Hh. unfold round_away_from_zero, is_finite_non_zero, is_finite, is_nan, is_infinite, is_zero.
  rewrite Hc. cbn [category_eqb negb andb orb assertb].
  assert (loss_eqb l ExactlyZero = false) as -> by (destruct l; [contradiction|reflexivity..]).
  cbn [negb assertb].
  assert (l = ExactlyHalf -> get_bit [sig x] bit = Ret (negb (Z.even (sig x / 2 ^ bit)))) as Hg.
  { intro E. specialize (Hh E). rewrite get_bit_spec by (try (apply limb_1; assumption); change (nbits [sig x]) with 128; lia).
    rewrite lval_single. rewrite Z.negb_even, <- Z.bit0_odd, <- Z.shiftr_div_pow2, Z.shiftr_spec by lia. reflexivity. }
  destruct m; destruct l; try contradiction; try reflexivity. cbn. exact (Hg eq_refl).
Qed.

Lemma loss_half : forall s k, 0 < k -> 0 <= s < 2 ^ 128 -> loss_of (s mod 2 ^ k) (2 ^ k) = ExactlyHalf -> k <= 128.
Proof.
  intros s k Hk Hs H. destruct (Z_le_gt_dec k 128) as [|Hgt]; [assumption|exfalso].
  assert (2 ^ 128 <= 2 ^ (k - 1)) as H1 by (apply Z.pow_le_mono_r; lia).
  assert (2 ^ k = 2 * 2 ^ (k - 1)) as H2 by (rewrite <- Z.pow_succ_r by lia; f_equal; lia).
  rewrite Z.mod_small in H by lia. unfold loss_of in H.
  destruct (Z.eqb_spec s 0); [discriminate|]. destruct (Z.compare_spec (2 * s) (2 ^ k)); try discriminate. lia.
Qed.

Lemma value_int_between : forall S x, sem_ok S -> wf S x -> category x = Normal ->
  forall k, 0 <= k -> exp x - (PRECISION S - 1) = - k ->
  between (sig x / 2 ^ k) 0 (IZR (sig x) * bpow r2 (exp x - (PRECISION S - 1))) (loss_of (sig x mod 2 ^ k) (2 ^ k)).
Proof.
  intros S x HS Hx Cx k Hk He. pose proof (pow2_gt0 k Hk) as Hp.
  apply between_frac; [assumption|]. cbn [bpow]. rewrite Rmult_1_r, He, bpow_opp, <- IZR_pow2 by assumption.
  field. apply IZR_neq. lia.
Qed.

Theorem to_u128_r_spec : forall S x w m, sem_ok S -> wf S x -> 1 <= w <= 128 ->
  exists st n ex, to_u128_r S x w m = Ret (st, n, ex) /\
    converted_to_int S x m 0 (2 ^ w - 1) st n /\
    (ex = true <-> st <> INVALID_OP /\ IZR n = value S x /\ ~ (category x = Zero /\ sign x = true)).
Proof.
  intros S x w m HS Hx Hw. unfold to_u128_r, is_negative. pose proof HS as [Hp Hmin Hmax _].
  assert (2 ^ w <= 2 ^ 128) as Hw2 by (apply Z.pow_le_mono_r; lia).
  assert (2 <= 2 ^ w) as Hw1 by (change 2 with (2 ^ 1) at 1; apply Z.pow_le_mono_r; lia).
  set (ov := if sign x then 0 else 2 ^ w - 1).
  assert ((if sign x then Ret 0 else let! n := usub 128 w in shr128 (not128 0) n) = Ret ov) as ->.
  { unfold ov. destruct (sign x); [reflexivity|]. rewrite usub_ret by lia. cbn [bind]. rewrite shr128_ret by lia.
    f_equal. unfold not128, LIMB_MAX. rewrite Z.sub_0_r, Z.shiftr_div_pow2 by lia.
    assert (2 ^ 128 = 2 ^ w * 2 ^ (128 - w)) as -> by (rewrite <- Z.pow_add_r by lia; f_equal; lia).
    pose proof (pow2_gt0 (128 - w) ltac:(lia)). symmetry. apply Z.div_unique with (2 ^ (128 - w) - 1); [lia|ring]. }
  cbn [bind]. unfold converted_to_int. destruct (category x) eqn:Cx.
  - (* infinity *)
    do 3 eexists. split; [reflexivity|]. split; [split; reflexivity|]. split; [discriminate|intros [H _]; contradiction].
  - do 3 eexists. split; [reflexivity|]. split; [split; reflexivity|]. split; [discriminate|intros [H _]; contradiction].
  - pose proof (wf_normal_canonical S x Hx Cx) as [K1 [K2 [K3 _]]]. pose proof (proj1 Hx) as HL.
    assert (2 ^ PRECISION S <= 2 ^ 126) as Hp126 by (apply Z.pow_le_mono_r; lia).
    pose proof (value_pos S x Hx Cx) as Hpos.
    pose proof (value_normal S x Cx) as Hv.
    set (v := (IZR (sig x) * bpow r2 (exp x - (PRECISION S - 1)))%R) in *.
    (* the end of the function *)
    assert (Hfin : forall r l, 0 <= r < 2 ^ 128 -> rnd_of m (value S x) = signed (sign x) r ->
      (l = ExactlyZero <-> IZR (signed (sign x) r) = value S x) ->
      (sign x = true -> l = ExactlyZero -> 0 < r) ->
      exists st n ex,
        (if ov <? r then Ret (INVALID_OP, ov, false)
         else if loss_eqb l ExactlyZero then Ret (OK, r, true) else Ret (INEXACT, r, false)) = Ret (st, n, ex) /\
        ((rnd_of m (value S x) < 0 -> st = INVALID_OP /\ n = 0) /\
         (2 ^ w - 1 < rnd_of m (value S x) -> st = INVALID_OP /\ n = 2 ^ w - 1) /\
         (0 <= rnd_of m (value S x) <= 2 ^ w - 1 -> n = rnd_of m (value S x) /\
            (IZR (rnd_of m (value S x)) = value S x -> st = OK) /\
            (IZR (rnd_of m (value S x)) <> value S x -> st = INEXACT))) /\
        (ex = true <-> st <> INVALID_OP /\ IZR n = value S x /\ ~ (Normal = Zero /\ sign x = true))).
    { intros r l Hr Hk Hex Hneg. rewrite Hk. unfold ov. destruct (sign x) eqn:Gx; cbn [signed] in *.
      - destruct (Z.ltb_spec 0 r) as [L|L].
        + do 3 eexists. split; [reflexivity|]. split; [|split; [discriminate|intros [H _]; contradiction]].
          split; [intro; auto|]. split; intro; lia.
        + assert (r = 0) as -> by lia. destruct l; cbn [loss_eqb]; [specialize (Hneg eq_refl eq_refl); lia|..];
          (do 3 eexists; split; [reflexivity|]; split;
           [split; [lia|]; split; [lia|]; intros _; split; [reflexivity|]; split; [intro H; apply Hex in H; discriminate|reflexivity]|
            split; [discriminate|]; intros [_ [H _]]; apply Hex in H; discriminate]).
      - destruct (Z.ltb_spec (2 ^ w - 1) r) as [L|L].
        + do 3 eexists. split; [reflexivity|]. split; [|split; [discriminate|intros [H _]; contradiction]].
          split; [intro; lia|]. split; intro; [auto|lia].
        + destruct l; cbn [loss_eqb];
          [do 3 eexists; split; [reflexivity|]; split;
           [split; [lia|]; split; [lia|]; intros _; split; [reflexivity|]; split; [reflexivity|intro H; exfalso; apply H; apply Hex; reflexivity]|
            split; [intros _; split; [discriminate|]; split; [apply Hex; reflexivity|intros [H _]; discriminate]|reflexivity]]|..];
          (do 3 eexists; split; [reflexivity|]; split;
           [split; [lia|]; split; [lia|]; intros _; split; [reflexivity|]; split; [intro H; apply Hex in H; discriminate|reflexivity]|
            split; [discriminate|]; intros [_ [H _]]; apply Hex in H; discriminate]). }
    (* truncation of k > 0 bits *)
    assert (Htrunc : forall k, 0 < k -> exp x - (PRECISION S - 1) = - k ->
      exists st n ex,
       (let! '(r, loss, overflowed) :=
          (let! loss := through_truncation [sig x] k in
           let! away := (if negb (loss_eqb loss ExactlyZero) then round_away_from_zero x m loss k else Ret false) in
           if away then let r := wrap128 (sig x / 2 ^ k + 1) in Ret (r, loss, r =? 0) else Ret (sig x / 2 ^ k, loss, false)) in
        if (overflowed : bool) then Ret (INVALID_OP, ov, false)
        else if ov <? r then Ret (INVALID_OP, ov, false)
        else if loss_eqb loss ExactlyZero then Ret (OK, r, true) else Ret (INEXACT, r, false)) = Ret (st, n, ex) /\
        ((rnd_of m (value S x) < 0 -> st = INVALID_OP /\ n = 0) /\
         (2 ^ w - 1 < rnd_of m (value S x) -> st = INVALID_OP /\ n = 2 ^ w - 1) /\
         (0 <= rnd_of m (value S x) <= 2 ^ w - 1 -> n = rnd_of m (value S x) /\
            (IZR (rnd_of m (value S x)) = value S x -> st = OK) /\
            (IZR (rnd_of m (value S x)) <> value S x -> st = INEXACT))) /\
        (ex = true <-> st <> INVALID_OP /\ IZR n = value S x /\ ~ (Normal = Zero /\ sign x = true))).
    { intros k Hk He. rewrite through_truncation_spec by (try (apply limb_1; assumption); lia). cbn [bind]. rewrite lval_single.
      pose proof (value_int_between S x HS Hx Cx k ltac:(lia) He) as Hb. fold v in Hb.
      set (l := loss_of (sig x mod 2 ^ k) (2 ^ k)) in *.
      assert (l = ExactlyHalf -> k < 128) as Hh.
      { intro E. assert (k <= 127); [|lia]. destruct (Z_le_gt_dec k 127) as [|Hgt]; [assumption|exfalso].
        assert (k <= 128) by (apply (loss_half (sig x)); [lia|exact HL|exact E]). assert (k = 128) by lia. subst k.
        unfold l, loss_of in E. rewrite Z.mod_small in E by exact HL. destruct (sig x =? 0); [discriminate|].
        destruct (Z.compare_spec (2 * sig x) (2 ^ 128)); try discriminate. lia. }
      assert (0 <= sig x / 2 ^ k < 2 ^ 126) as Hq.
      { pose proof (pow2_gt0 k ltac:(lia)). split; [apply Z.div_pos; lia|].
        apply Z.le_lt_trans with (sig x); [|lia]. apply Z.div_le_upper_bound; nia. }
      pose proof (int_between m (sign x) v _ _ Hpos Hb) as Hr. rewrite <- Hv in Hr.
      set (q := sig x / 2 ^ k) in *.
      assert ((if negb (loss_eqb l ExactlyZero) then round_away_from_zero x m l k else Ret false) = Ret (goes_away m (sign x) l (negb (Z.even q)))) as ->.
      { destruct (loss_eqb l ExactlyZero) eqn:El; cbn [negb].
        - assert (l = ExactlyZero) as -> by (destruct l; try discriminate; reflexivity). destruct m; reflexivity.
        - apply round_away_spec_at; try assumption; [|lia]. intro E0; rewrite E0 in El; discriminate. }
      cbn [bind].
      assert (Hex : l <> ExactlyZero -> forall z, IZR (signed (sign x) z) <> value S x).
      { intros Hl z Hz. pose proof (between_inexact _ _ _ _ Hb Hl) as Hb2. cbn [bpow] in Hb2. rewrite !Rmult_1_r in Hb2.
        rewrite Hv, signed_sgnr in Hz. assert (IZR z = v) as Hz2 by (destruct (sign x); cbn [sgnr] in Hz; lra).
        rewrite <- Hz2 in Hb2. destruct Hb2 as [B1 B2]. apply lt_IZR in B1, B2. lia. }
      assert (Hex0 : l = ExactlyZero -> v = IZR q).
      { intro Hl. rewrite Hl in Hb. rewrite between_exact in Hb. cbn [bpow] in Hb. lra. }
      destruct (goes_away m (sign x) l (negb (Z.even q))) eqn:Ga; cbn [bind cond_incr] in *.
      - assert (l <> ExactlyZero) as Hl by (intro E0; rewrite E0 in Ga; destruct m; discriminate).
        unfold wrap128, LIMB_MOD. rewrite Z.mod_small by lia. destruct (Z.eqb_spec (q + 1) 0); [lia|].
        apply Hfin; [lia|assumption| |]; [split; [contradiction|intro H; exfalso; exact (Hex Hl _ H)]|].
        intros; contradiction.
      - apply Hfin; [lia|assumption| |].
        + split; [intro Hl; rewrite signed_sgnr, Hv, Hex0 by assumption; reflexivity|].
          intro H. destruct l eqn:El; [reflexivity|exfalso; refine (Hex _ _ H); discriminate..].
        + intros _ Hl. specialize (Hex0 Hl). rewrite Hex0 in Hpos. apply lt_IZR in Hpos. assumption. }
    destruct (Z.ltb_spec (exp x) 0) as [En|En].
    + rewrite chk32_ret by lia. cbn [bind]. destruct (Z.ltb_spec 0 (PRECISION S - 1 + - exp x)); [|lia].
      specialize (Htrunc (PRECISION S - 1 + - exp x) ltac:(lia) ltac:(lia)).
      rewrite Z.div_small in Htrunc; [exact Htrunc|].
      split; [lia|]. apply Z.lt_le_trans with (2 ^ PRECISION S); [lia|]. apply Z.pow_le_mono_r; lia.
    + assert (2 ^ (PRECISION S - 1) <= sig x) as Hfull by lia.
      destruct (Z.ltb_spec w (exp x + 1)) as [Lw|Lw].
      * (* too large *)
        assert (2 ^ w <= rnd_of m v /\ rnd_of m (- v) <= - 2 ^ w) as [HA HB].
        { assert (IZR (2 ^ w) <= v)%R as Hbig.
          { unfold v. apply Rle_trans with (IZR (2 ^ (PRECISION S - 1)) * bpow r2 (exp x - (PRECISION S - 1)))%R.
            - rewrite !IZR_pow2 by lia. rewrite <- bpow_plus. apply bpow_le. lia.
            - apply Rmult_le_compat_r; [apply bpow_ge_0|apply IZR_le; assumption]. }
          pose proof (valid_rnd_of m) as VR. split.
          - rewrite <- (@Zrnd_IZR _ VR (2 ^ w)). apply (@Zrnd_le _ VR). assumption.
          - rewrite <- (@Zrnd_IZR _ VR (- 2 ^ w)). apply (@Zrnd_le _ VR). rewrite opp_IZR. lra. }
        do 3 eexists. split; [reflexivity|]. split; [|split; [discriminate|intros [H _]; contradiction]].
        rewrite Hv. unfold ov. destruct (sign x); cbn [sgnr].
        -- split; [auto|]. split; intro; lia.
        -- split; [lia|]. split; intro; [auto|lia].
      * destruct (Z.ltb_spec (exp x + 1) (PRECISION S)) as [Lp|Lp].
        -- rewrite shr128_ret by lia. cbn [bind]. destruct (Z.ltb_spec 0 (PRECISION S - (exp x + 1))); [|lia].
           rewrite Z.shiftr_div_pow2 by lia. apply (Htrunc (PRECISION S - (exp x + 1))); lia.
        -- rewrite shl128_ret by lia. cbn [bind Z.ltb Z.compare].
           assert (v = IZR (sig x * 2 ^ (exp x + 1 - PRECISION S)))%R as Hvz.
           { rewrite mult_IZR, IZR_pow2 by lia. unfold v. f_equal. f_equal. lia. }
           assert (0 < sig x * 2 ^ (exp x + 1 - PRECISION S) < 2 ^ 128) as Hr.
           { pose proof (pow2_gt0 (exp x + 1 - PRECISION S) ltac:(lia)). split; [nia|].
             apply Z.lt_le_trans with (2 ^ PRECISION S * 2 ^ (exp x + 1 - PRECISION S)); [nia|].
             rewrite <- Z.pow_add_r by lia. apply Z.pow_le_mono_r; lia. }
           unfold wrap128, LIMB_MOD. rewrite Z.shiftl_mul_pow2, Z.mod_small by lia.
           apply (Hfin _ ExactlyZero); [lia| | |lia].
           ++ rewrite Hv, Hvz, <- signed_sgnr. pose proof (valid_rnd_of m) as VR. apply (@Zrnd_IZR _ VR).
           ++ split; [intros _; rewrite Hv, Hvz; apply signed_sgnr|reflexivity].
  - do 3 eexists. split; [reflexivity|]. rewrite (value_zero S x Cx).
    pose proof (valid_rnd_of m) as VR. assert (rnd_of m 0 = 0) as -> by exact (@Zrnd_IZR _ VR 0).
    split; [split; [lia|]; split; [lia|]; intros _; split; [reflexivity|]; split; [reflexivity|intro H; contradiction]|].
    destruct (sign x); cbn [negb].
    + split; [discriminate|]. intros [_ [_ H]]. exfalso. apply H. split; reflexivity.
    + split; [intros _|reflexivity]. split; [discriminate|]. split; [reflexivity|intros [_ H]; discriminate].
Qed.

Theorem to_i128_r_spec : forall S x w m, sem_ok S -> wf S x -> (if sign x then 1 else 2) <= w <= 128 ->
  exists st n ex, to_i128_r S x w m = Ret (st, n, ex) /\
    converted_to_int S x m (- 2 ^ (w - 1)) (2 ^ (w - 1) - 1) st n /\
    (ex = true <-> st <> INVALID_OP /\ IZR n = value S x).
Proof.
  intros S x w m HS Hx Hw. unfold to_i128_r, is_negative.
  assert (Hw1 : 1 <= w) by (destruct (sign x); lia).
  assert (2 ^ w = 2 * 2 ^ (w - 1)) as Hw2 by (rewrite <- Z.pow_succ_r by lia; f_equal; lia).
  assert (2 ^ (w - 1) <= 2 ^ 127) as Hw3 by (apply Z.pow_le_mono_r; lia).
  pose proof (pow2_gt0 (w - 1) ltac:(lia)) as Hw4.
  destruct (sign x) eqn:Gx.
  - destruct (to_u128_r_spec S (neg x) w (round_neg m) HS (wf_neg S x Hx) ltac:(lia)) as [st [n [ex [E [C X]]]]].
    rewrite E. cbn [bind]. rewrite usub_ret by lia. cbn [bind]. rewrite shl128_ret by lia. cbn [bind].
    unfold wrap128, LIMB_MOD. rewrite Z.shiftl_1_l, (Z.mod_small (2 ^ (w - 1))) by lia.
    rewrite value_neg in X. cbn [neg category sign] in X. unfold is_negative in X. rewrite Gx in X. cbn [negb] in X.
    unfold converted_to_int in C |- *. rewrite value_neg in C. cbn [neg category sign] in C. unfold is_negative in C. rewrite Gx in C |- *. cbn [negb] in C.
    assert (Has : forall r, 0 <= r <= 2 ^ (w - 1) -> as_i128 ((- r) mod 2 ^ 128) = - r).
    { intros r Hr. unfold as_i128. destruct (Z.eq_dec r 0) as [->|]; [reflexivity|].
      replace ((- r) mod 2 ^ 128) with (2 ^ 128 - r); [|apply Z.mod_unique with (-1); [lia|ring]].
      destruct (Z.ltb_spec (2 ^ 128 - r) (2 ^ 127)); lia. }
    assert (Hin : st = INVALID_OP -> n = 2 ^ w - 1 -> ex = false -> (exists st' n' ex',
        (if 2 ^ (w - 1) <? n then Ret (INVALID_OP, - 2 ^ (w - 1), false) else Ret (st, as_i128 ((- n) mod 2 ^ 128), ex)) = Ret (st', n', ex') /\
        st' = INVALID_OP /\ n' = - 2 ^ (w - 1) /\ ex' = false)).
    { intros -> -> ->. destruct (Z.ltb_spec (2 ^ (w - 1)) (2 ^ w - 1)).
      - do 3 eexists. split; [reflexivity|]. auto.
      - do 3 eexists. split; [reflexivity|]. split; [reflexivity|]. split; [|reflexivity]. rewrite Has by lia. lia. }
    assert (Hexf : st = INVALID_OP -> ex = false).
    { intro Hst. destruct ex; [|reflexivity]. destruct (proj1 X eq_refl) as [Y _]. contradiction. }
    destruct (category x) eqn:Cx.
    + destruct C as [C1 C2]. destruct (Hin C1 C2 (Hexf C1)) as [st' [n' [ex' [Q1 [Q2 [Q3 Q4]]]]]].
      do 3 eexists. split; [exact Q1|]. split; [auto|]. subst. split; [discriminate|intros [H _]; contradiction].
    + destruct C as [C1 C2]. subst n. destruct (Z.ltb_spec (2 ^ (w - 1)) 0); [lia|].
      do 3 eexists. split; [reflexivity|]. split; [split; [assumption|reflexivity]|]. rewrite (Hexf C1). split; [discriminate|intros [H1 _]; contradiction].
    + assert (Hk : rnd_of (round_neg m) (- value S x) = - rnd_of m (value S x)).
      { rewrite rnd_of_opp. f_equal. destruct m; reflexivity. }
      assert (~ (Normal = Zero /\ false = true)) as Hnz by (intros [H _]; discriminate).
      destruct C as [C1 [C2 C3]]. rewrite Hk in C1, C2, C3. set (k := rnd_of m (value S x)) in *.
      assert (k <= 0) as Hk0.
      { unfold k. pose proof (valid_rnd_of m) as VR. rewrite <- (@Zrnd_IZR _ VR 0). apply (@Zrnd_le _ VR).
        rewrite (value_normal S x Cx), Gx. cbn [sgnr]. pose proof (value_pos S x Hx Cx). lra. }
      destruct (Z_lt_le_dec (2 ^ w - 1) (- k)) as [L|L].
      * destruct (C2 L) as [D1 D2]. destruct (Hin D1 D2 (Hexf D1)) as [st' [n' [ex' [Q1 [Q2 [Q3 Q4]]]]]].
        do 3 eexists. split; [exact Q1|]. split; [|subst; split; [discriminate|intros [H _]; contradiction]].
        split; [auto|]. split; [lia|]. intro. lia.
      * destruct (C3 ltac:(lia)) as [D1 [D2 D3]]. subst n. destruct (Z.ltb_spec (2 ^ (w - 1)) (- k)) as [L2|L2].
        -- do 3 eexists. split; [reflexivity|]. split; [|split; [discriminate|intros [H _]; contradiction]].
           split; [auto|]. split; [lia|]. intro. lia.
        -- do 3 eexists. split; [reflexivity|]. rewrite Has by lia. rewrite Z.opp_involutive. split.
           ++ split; [lia|]. split; [lia|]. intros _. split; [reflexivity|]. rewrite opp_IZR in D2, D3. split; intro; [apply D2; lra|apply D3; lra].
           ++ rewrite X. rewrite opp_IZR. split.
              ** intros [Y1 [Y2 _]]. split; [assumption|lra].
              ** intros [Y1 Y2]. split; [assumption|]. split; [lra|assumption].
    + rewrite (value_zero S x Cx) in *. rewrite Ropp_0 in *.
      assert (Hr0 : forall mm, rnd_of mm 0 = 0) by (intro mm; pose proof (valid_rnd_of mm) as VR; exact (@Zrnd_IZR _ VR 0)).
      rewrite Hr0 in *. destruct C as [_ [_ C3]]. destruct (C3 ltac:(lia)) as [D1 [D2 _]]. subst n. specialize (D2 eq_refl). subst st.
      destruct (Z.ltb_spec (2 ^ (w - 1)) 0); [lia|]. do 3 eexists. split; [reflexivity|]. rewrite Has by lia. cbn [Z.opp].
      split; [|rewrite X; split; [intros [Y _]; split; [exact Y|reflexivity]|intros _; split; [discriminate|]; split; [reflexivity|intros [_ Y]; discriminate]]].
      split; [lia|]. split; [lia|]. intros _. split; [reflexivity|]. split; [reflexivity|intro Y; contradiction].
  - rewrite usub_ret by lia. cbn [bind].
    destruct (to_u128_r_spec S x (w - 1) m HS Hx ltac:(lia)) as [st [n [ex [E [C X]]]]]. rewrite E. cbn [bind].
    assert (Has : forall r, 0 <= r <= 2 ^ (w - 1) - 1 -> as_i128 r = r).
    { intros r Hr. unfold as_i128. destruct (Z.ltb_spec r (2 ^ 127)); lia. }
    do 3 eexists. split; [reflexivity|]. rewrite Gx in *. unfold converted_to_int in *. rewrite Gx in *.
    assert (Hfin : (let k := rnd_of m (value S x) in
       (k < 0 -> st = INVALID_OP /\ n = 0) /\ (2 ^ (w - 1) - 1 < k -> st = INVALID_OP /\ n = 2 ^ (w - 1) - 1) /\
       (0 <= k <= 2 ^ (w - 1) - 1 -> n = k /\ (IZR k = value S x -> st = OK) /\ (IZR k <> value S x -> st = INEXACT))) ->
      finite x ->
      let k := rnd_of m (value S x) in
      (k < - 2 ^ (w - 1) -> st = INVALID_OP /\ as_i128 n = - 2 ^ (w - 1)) /\
      (2 ^ (w - 1) - 1 < k -> st = INVALID_OP /\ as_i128 n = 2 ^ (w - 1) - 1) /\
      (- 2 ^ (w - 1) <= k <= 2 ^ (w - 1) - 1 -> as_i128 n = k /\ (IZR k = value S x -> st = OK) /\ (IZR k <> value S x -> st = INEXACT))).
    { cbv zeta. set (k := rnd_of m (value S x)). intros [C1 [C2 C3]] Hf.
      assert (0 <= k) as Hk0.
      { unfold k. pose proof (valid_rnd_of m) as VR. rewrite <- (@Zrnd_IZR _ VR 0). apply (@Zrnd_le _ VR).
        destruct Hf as [Cx|Cx]; [rewrite (value_normal S x Cx), Gx; pose proof (value_pos S x Hx Cx); cbn [sgnr]; lra|rewrite value_zero by assumption; lra]. }
      split; [lia|]. split.
      - intro H. destruct (C2 H) as [D1 D2]. split; [assumption|]. subst n. apply Has. lia.
      - intro H. destruct (C3 ltac:(lia)) as [D1 D2]. subst n. split; [apply Has; lia|assumption]. }
    assert (Hn : 0 <= n <= 2 ^ (w - 1) - 1).
    { destruct (category x) eqn:Cx; [destruct C; subst; lia|destruct C; subst; lia|..];
      (destruct C as [C1 [C2 C3]]; set (k := rnd_of m (value S x)) in *;
       destruct (Z_lt_le_dec k 0); [destruct C1 as [_ ->]; [assumption|lia]|];
       destruct (Z_lt_le_dec (2 ^ (w - 1) - 1) k); [destruct C2 as [_ ->]; [assumption|lia]|];
       destruct C3 as [-> _]; lia). }
    split.
    + destruct (category x) eqn:Cx.
      * destruct C as [C1 C2]. split; [assumption|]. subst n. apply Has. lia.
      * destruct C as [C1 C2]. split; [assumption|]. subst n. reflexivity.
      * apply Hfin; [exact C|left; assumption].
      * apply Hfin; [exact C|right; assumption].
    + rewrite (Has n Hn). rewrite X. split; [intros [A [B _]]; auto|]. intros [A B]. split; [assumption|]. split; [assumption|intros [_ H]; discriminate].
Qed.

(** ** Round trips *)
Lemma cr_representable : forall {pol} S m x zs st f, sem_ok S -> representable S x -> delivers pol S m x zs (st, f) ->
  st = OK /\ finite f /\ value S f = x.
Proof.
  intros pol S m x zs st f HS [Hg Hm] [_ [_ [H _]]]. pose proof (rounded_format S m x Hg) as E. rewrite E in H.
  destruct (H Hm) as [A [B [C _]]]. auto.
Qed.

Lemma finite_representable : forall S x, sem_ok S -> wf S x -> finite x -> representable S (value S x).
Proof. intros S x HS Hx Hf. split; [apply value_format; assumption|apply value_le_max; assumption]. Qed.

Theorem i128_round_trip : forall S n w m m', sem_ok S -> 2 <= w <= 128 -> - 2 ^ (w - 1) <= n < 2 ^ (w - 1) ->
  representable S (IZR n) ->
  exists f ex, from_i128_r S n m = Ret (OK, f) /\ to_i128_r S f w m' = Ret (OK, n, ex) /\ ex = true.
Proof.
  intros S n w m m' HS Hw Hn Hr.
  assert (2 ^ (w - 1) <= 2 ^ 127) as Hw3 by (apply Z.pow_le_mono_r; lia).
  destruct (from_i128_r_spec S n m HS ltac:(lia)) as [[st f] [E C]].
  pose proof (cr_representable S m _ _ _ _ HS Hr C) as [-> [Ff Vf]]. destruct C as [Wf _].
  destruct (to_i128_r_spec S f w m' HS Wf ltac:(destruct (sign f); lia)) as [st [k [ex [E2 [C2 X]]]]].
  exists f, ex. split; [assumption|].
  assert (rnd_of m' (value S f) = n) as Hk by (rewrite Vf; pose proof (valid_rnd_of m') as VR; apply (@Zrnd_IZR _ VR)).
  unfold converted_to_int in C2.
  assert (k = n /\ st = OK) as [-> ->].
  { destruct Ff as [Cf|Cf]; rewrite Cf, Hk in C2; destruct C2 as [_ [_ C2]]; destruct (C2 ltac:(lia)) as [A [B _]]; split; auto. }
  split; [assumption|]. apply X. split; [discriminate|]. symmetry. assumption.
Qed.

Theorem u128_round_trip : forall S n w m m', sem_ok S -> 1 <= w <= 128 -> 0 <= n < 2 ^ w ->
  representable S (IZR n) ->
  exists f ex, from_u128_r S n m = Ret (OK, f) /\ to_u128_r S f w m' = Ret (OK, n, ex) /\ ex = true.
Proof.
  intros S n w m m' HS Hw Hn Hr.
  assert (2 ^ w <= 2 ^ 128) as Hw3 by (apply Z.pow_le_mono_r; lia).
  destruct (from_u128_r_spec S n m HS ltac:(lia)) as [[st f] [E C]].
  pose proof (cr_representable S m _ _ _ _ HS Hr C) as [-> [Ff Vf]]. destruct C as [Wf [Sf _]].
  destruct (to_u128_r_spec S f w m' HS Wf Hw) as [st [k [ex [E2 [C2 X]]]]].
  exists f, ex. split; [assumption|].
  assert (rnd_of m' (value S f) = n) as Hk by (rewrite Vf; pose proof (valid_rnd_of m') as VR; apply (@Zrnd_IZR _ VR)).
  unfold converted_to_int in C2.
  assert (k = n /\ st = OK) as [-> ->].
  { destruct Ff as [Cf|Cf]; rewrite Cf, Hk in C2; destruct C2 as [_ [_ C2]]; destruct (C2 ltac:(lia)) as [A [B _]]; split; auto. }
  split; [assumption|]. apply X. split; [discriminate|]. split; [symmetry; assumption|].
  intros [Cz Gz]. destruct Sf as [_ [_ Sf]]. rewrite Sf in Gz; [discriminate|]. rewrite <- Vf. apply value_zero. assumption.
Qed.

Theorem float_int_float : forall S x n w m m', sem_ok S -> wf S x -> finite x -> 2 <= w <= 128 ->
  value S x = IZR n -> - 2 ^ (w - 1) <= n < 2 ^ (w - 1) ->
  exists ex f, to_i128_r S x w m = Ret (OK, n, ex) /\ ex = true /\
    from_i128_r S n m' = Ret (OK, f) /\ finite f /\ value S f = value S x.
Proof.
  intros S x n w m m' HS Hx Fx Hw Vx Hn.
  assert (2 ^ (w - 1) <= 2 ^ 127) as Hw3 by (apply Z.pow_le_mono_r; lia).
  assert (representable S (IZR n)) as Hr by (rewrite <- Vx; apply finite_representable; assumption).
  destruct (to_i128_r_spec S x w m HS Hx ltac:(destruct (sign x); lia)) as [st [k [ex [E2 [C2 X]]]]].
  destruct (from_i128_r_spec S n m' HS ltac:(lia)) as [[st' f] [E C]].
  pose proof (cr_representable S m' _ _ _ _ HS Hr C) as [-> [Ff Vf]].
  assert (rnd_of m (value S x) = n) as Hk by (rewrite Vx; pose proof (valid_rnd_of m) as VR; apply (@Zrnd_IZR _ VR)).
  unfold converted_to_int in C2.
  assert (k = n /\ st = OK) as [-> ->].
  { destruct Fx as [Cf|Cf]; rewrite Cf, Hk in C2; destruct C2 as [_ [_ C2]]; destruct (C2 ltac:(lia)) as [A [B _]]; split; auto. }
  exists ex, f. split; [assumption|]. split; [apply X; split; [discriminate|symmetry; assumption]|]. split; [assumption|].
  split; [assumption|]. rewrite Vf. symmetry. assumption.
Qed.
